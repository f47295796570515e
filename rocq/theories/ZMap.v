(** * Ordered maps keyed by numbers ([std::map<int, V>], [std::map<T*, V>])

    A map is the list of its entries in iteration order, i.e. with strictly increasing keys.  Pointers
    are compared by their addresses. *)

From Coq Require Import ZArith List Bool Lia Sorted.
Import ListNotations.
Open Scope Z_scope.

Section Map.
Context {V : Type}.

(** [m[k] = v], i.e. insertion or assignment *)
Fixpoint zm_set (k : Z) (v : V) (m : list (Z * V)) : list (Z * V) :=
  match m with
  | [] => [(k, v)]
  | (k', v') :: m' => match k ?= k' with Lt => (k, v) :: m | Eq => (k, v) :: m' | Gt => (k', v') :: zm_set k v m' end
  end.
(** [m.find(k)] *)
Fixpoint zm_get (k : Z) (m : list (Z * V)) : option V :=
  match m with
  | [] => None
  | (k', v') :: m' => match k ?= k' with Eq => Some v' | Lt => None | Gt => zm_get k m' end
  end.
(** [m.erase(k)] *)
Fixpoint zm_del (k : Z) (m : list (Z * V)) : list (Z * V) :=
  match m with
  | [] => []
  | (k', v') :: m' => match k ?= k' with Eq => m' | Lt => m | Gt => (k', v') :: zm_del k m' end
  end.
Definition zm_ok (m : list (Z * V)) : Prop := StronglySorted Z.lt (map fst m).

Lemma zm_ok_inv k v m : zm_ok ((k, v) :: m) -> zm_ok m /\ (forall x, In x (map fst m) -> k < x).
Proof. unfold zm_ok. cbn. intros H. inversion H as [|? ? H1 H2]; subst. rewrite Forall_forall in H2. split; assumption. Qed.

Lemma zm_ok_cons k v m : zm_ok m -> (forall x, In x (map fst m) -> k < x) -> zm_ok ((k, v) :: m).
Proof. intros H1 H2. unfold zm_ok. cbn. constructor; [exact H1|]. apply Forall_forall. exact H2. Qed.

Lemma zm_set_keys k v m x : In x (map fst (zm_set k v m)) <-> x = k \/ In x (map fst m).
Proof.
  induction m as [|[k' v'] m IH]; cbn [zm_set map fst In]; [intuition|].
  destruct (Z.compare_spec k k') as [E|L|G]; cbn [map fst In]; [subst; intuition|intuition|]. rewrite IH. intuition.
Qed.

Lemma zm_set_ok k v m : zm_ok m -> zm_ok (zm_set k v m).
Proof.
  induction m as [|[k' v'] m IH]; intros H; [repeat constructor|]. pose proof H as H0. apply zm_ok_inv in H. destruct H as [H1 H2].
  cbn [zm_set]. destruct (Z.compare_spec k k') as [E|L|G].
  - subst. apply zm_ok_cons; assumption.
  - apply zm_ok_cons; [exact H0|]. cbn [map fst In]. intros x [<-|Hx]; [exact L|]. specialize (H2 x Hx). lia.
  - apply zm_ok_cons; [exact (IH H1)|]. intros x Hx. apply zm_set_keys in Hx. destruct Hx as [->|Hx]; [exact G|auto].
Qed.

Lemma zm_get_lt k m : (forall x, In x (map fst m) -> k < x) -> zm_get k m = None.
Proof.
  destruct m as [|[k' v'] m]; [reflexivity|]. intros H. cbn [zm_get]. specialize (H k' (or_introl eq_refl)).
  destruct (Z.compare_spec k k'); try lia. reflexivity.
Qed.

Lemma zm_get_set k v m k' : zm_ok m -> zm_get k' (zm_set k v m) = if k' =? k then Some v else zm_get k' m.
Proof.
  induction m as [|[kk vv] m IH]; intros H.
  - cbn. destruct (Z.compare_spec k' k); destruct (Z.eqb_spec k' k); try lia; reflexivity.
  - apply zm_ok_inv in H. destruct H as [H1 H2]. specialize (IH H1). cbn [zm_set].
    destruct (Z.compare_spec k kk) as [E|L|G]; cbn [zm_get].
    + subst kk. destruct (Z.compare_spec k' k); destruct (Z.eqb_spec k' k); try lia; reflexivity.
    + destruct (Z.compare_spec k' k) as [E1|L1|G1]; destruct (Z.eqb_spec k' k); try lia; try reflexivity.
      destruct (Z.compare_spec k' kk); try lia. reflexivity.
    + destruct (Z.compare_spec k' kk) as [E1|L1|G1]; destruct (Z.eqb_spec k' k); try lia; try reflexivity; exact IH.
Qed.

Lemma zm_del_keys k m x : In x (map fst (zm_del k m)) -> In x (map fst m).
Proof.
  induction m as [|[k' v'] m IH]; cbn [zm_del map fst In]; [tauto|].
  destruct (Z.compare_spec k k'); cbn [map fst In]; intuition.
Qed.

Lemma zm_del_ok k m : zm_ok m -> zm_ok (zm_del k m).
Proof.
  induction m as [|[k' v'] m IH]; intros H; [exact H|]. pose proof H as H0. apply zm_ok_inv in H. destruct H as [H1 H2].
  cbn [zm_del]. destruct (Z.compare_spec k k'); [exact H1|exact H0|]. apply zm_ok_cons; [exact (IH H1)|].
  intros x Hx. apply H2. exact (zm_del_keys _ _ _ Hx).
Qed.

Lemma zm_get_del k m k' : zm_ok m -> zm_get k' (zm_del k m) = if k' =? k then None else zm_get k' m.
Proof.
  induction m as [|[kk vv] m IH]; intros H; [cbn; destruct (k' =? k); reflexivity|]. apply zm_ok_inv in H. destruct H as [H1 H2].
  specialize (IH H1). cbn [zm_del]. destruct (Z.compare_spec k kk) as [E|L|G]; cbn [zm_get].
  - subst kk. destruct (Z.eqb_spec k' k) as [E2|N]; [rewrite E2; exact (zm_get_lt _ _ H2)|].
    destruct (Z.compare_spec k' k) as [E1|L1|G1]; [lia| |reflexivity]. apply zm_get_lt. intros x Hx. specialize (H2 x Hx). lia.
  - destruct (Z.compare_spec k' kk) as [E1|L1|G1]; destruct (Z.eqb_spec k' k) as [E2|]; try lia; try reflexivity.
  - destruct (Z.compare_spec k' kk) as [E1|L1|G1]; destruct (Z.eqb_spec k' k) as [E2|]; try lia; try reflexivity; exact IH.
Qed.

Lemma zm_get_In k v m : zm_ok m -> (zm_get k m = Some v <-> In (k, v) m).
Proof.
  induction m as [|[k' v'] m IH]; intros H; cbn [zm_get In]; [split; [discriminate|tauto]|].
  apply zm_ok_inv in H. destruct H as [H1 H2]. specialize (IH H1).
  assert (Hin : forall w, In (k, w) m -> k' < k) by (intros w Hw; apply H2; exact (in_map fst _ _ Hw)).
  destruct (Z.compare_spec k k') as [E|L|G].
  - subst. split; [intros [= ->]; left; reflexivity|]. intros [[= ->]|Hw]; [reflexivity|]. specialize (Hin _ Hw). lia.
  - split; [discriminate|]. intros [[= -> ->]|Hw]; [lia|]. specialize (Hin _ Hw). lia.
  - rewrite IH. split; [auto|]. intros [[= -> ->]|Hw]; [lia|exact Hw].
Qed.

Lemma zm_get_keys k m : zm_ok m -> (zm_get k m <> None <-> In k (map fst m)).
Proof.
  intros H. rewrite in_map_iff. split.
  - destruct (zm_get k m) as [v|] eqn:E; [|congruence]. intros _. apply zm_get_In in E; [|exact H]. exists (k, v). auto.
  - intros [[k' v] [E Hin]]. cbn in E. subst k'. apply zm_get_In in Hin; [|exact H]. rewrite Hin. discriminate.
Qed.
End Map.
