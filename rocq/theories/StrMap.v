(** * Ordered maps keyed by strings ([std::map<std::string, V>], [std::set<std::string>])

    A map is the list of its entries in iteration order, i.e. with strictly increasing keys.
    [std::less<std::string>] compares the characters as unsigned bytes, then the lengths. *)

From Coq Require Import Sorted.
From Verif Require Import Bytes.

(** [std::string::compare] / [operator<] on strings *)
Fixpoint str_cmp (a b : bytes) : comparison :=
  match a, b with
  | [], [] => Eq
  | [], _ :: _ => Lt
  | _ :: _, [] => Gt
  | x :: a', y :: b' => match Zb x ?= Zb y with Eq => str_cmp a' b' | c => c end
  end.

Definition str_lt (a b : bytes) : Prop := str_cmp a b = Lt.

Lemma Zb_inj a b : Zb a = Zb b -> a = b.
Proof.
  intros H. unfold Zb in H. apply N2Z.inj in H.
  assert (Some a = Some b) as E by (rewrite <- !Byte.of_to_N, H; reflexivity). congruence.
Qed.

Lemma str_cmp_eq a : forall b, str_cmp a b = Eq <-> a = b.
Proof.
  induction a as [|x a IH]; intros [|y b]; cbn; split; intros H; try discriminate; try reflexivity.
  - destruct (Zb x ?= Zb y) eqn:E; try discriminate. apply Z.compare_eq in E. apply Zb_inj in E.
    apply IH in H. congruence.
  - injection H as -> ->. rewrite Z.compare_refl. apply IH. reflexivity.
Qed.

Lemma str_cmp_antisym a : forall b, str_cmp b a = CompOpp (str_cmp a b).
Proof.
  induction a as [|x a IH]; intros [|y b]; cbn; try reflexivity.
  rewrite (Z.compare_antisym (Zb x) (Zb y)). destruct (Zb x ?= Zb y); cbn; auto.
Qed.

Lemma str_lt_trans a : forall b c, str_lt a b -> str_lt b c -> str_lt a c.
Proof.
  unfold str_lt. induction a as [|x a IH]; intros [|y b] [|z c]; cbn; try discriminate; try reflexivity.
  destruct (Zb x ?= Zb y) eqn:E1; destruct (Zb y ?= Zb z) eqn:E2; try discriminate; intros H1 H2.
  - apply Z.compare_eq in E1. apply Z.compare_eq in E2. rewrite E1, E2, Z.compare_refl. eapply IH; eauto.
  - apply Z.compare_eq in E1. rewrite E1, E2. reflexivity.
  - apply Z.compare_eq in E2. rewrite <- E2, E1. reflexivity.
  - rewrite Z.compare_lt_iff in *. assert (Zb x < Zb z) by lia.
    replace (Zb x ?= Zb z) with Lt by (symmetry; apply Z.compare_lt_iff; lia). reflexivity.
Qed.
Lemma str_lt_irrefl a : ~ str_lt a a.
Proof. unfold str_lt. intros H. assert (str_cmp a a = Eq) by (apply str_cmp_eq; reflexivity). congruence. Qed.
Lemma str_lt_neq a b : str_lt a b -> a <> b.
Proof. intros H ->. exact (str_lt_irrefl b H). Qed.
Lemma str_cmp_gt a b : str_cmp a b = Gt <-> str_lt b a.
Proof. unfold str_lt. rewrite (str_cmp_antisym a b). destruct (str_cmp a b); cbn; split; congruence. Qed.

Section Map.
Context {V : Type}.

(** [m[k] = v], i.e. insertion or assignment *)
Fixpoint sm_set (k : bytes) (v : V) (m : list (bytes * V)) : list (bytes * V) :=
  match m with
  | [] => [(k, v)]
  | (k', v') :: m' =>
      match str_cmp k k' with
      | Lt => (k, v) :: m
      | Eq => (k, v) :: m'
      | Gt => (k', v') :: sm_set k v m'
      end
  end.

(** [m.find(k)] *)
Fixpoint sm_get (k : bytes) (m : list (bytes * V)) : option V :=
  match m with
  | [] => None
  | (k', v') :: m' => match str_cmp k k' with Eq => Some v' | Lt => None | Gt => sm_get k m' end
  end.

(** [m.erase(k)] *)
Fixpoint sm_del (k : bytes) (m : list (bytes * V)) : list (bytes * V) :=
  match m with
  | [] => []
  | (k', v') :: m' =>
      match str_cmp k k' with Eq => m' | Lt => m | Gt => (k', v') :: sm_del k m' end
  end.

Definition sm_keys (m : list (bytes * V)) : list bytes := map fst m.
Definition sm_ok (m : list (bytes * V)) : Prop := StronglySorted str_lt (sm_keys m).

Lemma sm_ok_nil : sm_ok [].
Proof. constructor. Qed.

Lemma sm_ok_inv k v m : sm_ok ((k, v) :: m) -> sm_ok m /\ Forall (str_lt k) (sm_keys m).
Proof. unfold sm_ok. cbn. intros H. inversion H; subst. split; assumption. Qed.

Lemma sm_set_keys k v m x : In x (sm_keys (sm_set k v m)) -> x = k \/ In x (sm_keys m).
Proof.
  induction m as [|[k' v'] m IH]; cbn; [intuition|].
  destruct (str_cmp k k') eqn:E; cbn; intros H; intuition.
Qed.

Lemma sm_set_ok k v m : sm_ok m -> sm_ok (sm_set k v m).
Proof.
  induction m as [|[k' v'] m IH]; intros H; [repeat constructor|].
  apply sm_ok_inv in H. destruct H as [H1 H2]. cbn [sm_set].
  destruct (str_cmp k k') eqn:E; unfold sm_ok; cbn.
  - apply str_cmp_eq in E. subst. constructor; assumption.
  - constructor; [constructor; assumption|]. constructor; [exact E|].
    eapply Forall_impl; [|exact H2]. intros x Hx. eapply str_lt_trans; [exact E|exact Hx].
  - constructor; [apply IH; exact H1|]. apply Forall_forall. intros x Hx. apply sm_set_keys in Hx.
    destruct Hx as [->|Hx]; [apply str_cmp_gt; exact E|]. rewrite Forall_forall in H2. apply H2. exact Hx.
Qed.

Lemma sm_get_In k v m : sm_ok m -> (sm_get k m = Some v <-> In (k, v) m).
Proof.
  induction m as [|[k' v'] m IH]; intros H; cbn [sm_get In]; [split; [discriminate|tauto]|].
  apply sm_ok_inv in H. destruct H as [H1 H2]. specialize (IH H1).
  rewrite Forall_forall in H2.
  assert (Hin : forall w, In (k, w) m -> str_lt k' k).
  { intros w Hw. apply H2. unfold sm_keys. apply (in_map fst) in Hw. exact Hw. }
  destruct (str_cmp k k') eqn:E.
  - apply str_cmp_eq in E. subst. split.
    + intros [= ->]. left. reflexivity.
    + intros [[= ->]|Hw]; [reflexivity|]. exfalso. exact (str_lt_irrefl _ (Hin v Hw)).
  - split; [discriminate|]. intros [[= -> ->]|Hw]; [exfalso; exact (str_lt_irrefl _ E)|].
    exfalso. apply (str_lt_irrefl k). eapply str_lt_trans; [exact E|]. exact (Hin v Hw).
  - rewrite IH. split; [auto|]. intros [[= -> ->]|Hw]; [|exact Hw].
    apply str_cmp_gt in E. exfalso. exact (str_lt_irrefl _ E).
Qed.

Lemma sm_get_keys k m : sm_ok m -> (sm_get k m <> None <-> In k (sm_keys m)).
Proof.
  intros H. unfold sm_keys. rewrite in_map_iff. split.
  - destruct (sm_get k m) as [v|] eqn:E; [|congruence]. intros _. apply sm_get_In in E; [|exact H].
    exists (k, v). auto.
  - intros [[k' v] [E Hin]]. cbn in E. subst k'. apply sm_get_In in Hin; [|exact H]. rewrite Hin. discriminate.
Qed.

Lemma sm_get_None_lt k m : (forall x, In x (sm_keys m) -> str_lt k x) -> sm_get k m = None.
Proof.
  destruct m as [|[k' v'] m]; [reflexivity|]. intros H. cbn. specialize (H k' (or_introl eq_refl)).
  rewrite H. reflexivity.
Qed.

Lemma sm_get_set k v m k' : sm_ok m ->
  sm_get k' (sm_set k v m) = if bytes_eqb k' k then Some v else sm_get k' m.
Proof.
  induction m as [|[kk vv] m IH]; intros H.
  - cbn. destruct (bytes_eqb k' k) eqn:E.
    + apply bytes_eqb_eq in E. subst. assert (str_cmp k k = Eq) as -> by (apply str_cmp_eq; reflexivity). reflexivity.
    + destruct (str_cmp k' k) eqn:C; try reflexivity. apply str_cmp_eq in C. subst.
      rewrite bytes_eqb_refl in E. discriminate.
  - pose proof H as H0. apply sm_ok_inv in H. destruct H as [H1 H2]. rewrite Forall_forall in H2.
    cbn [sm_set]. destruct (str_cmp k kk) eqn:Ek.
    + apply str_cmp_eq in Ek. subst kk. cbn [sm_get]. destruct (str_cmp k' k) eqn:C.
      * apply str_cmp_eq in C. subst. rewrite bytes_eqb_refl. reflexivity.
      * assert (bytes_eqb k' k = false) as -> by (apply bytes_eqb_neq; apply str_lt_neq; exact C). reflexivity.
      * apply str_cmp_gt in C. assert (bytes_eqb k' k = false) as ->
          by (apply bytes_eqb_neq; intros ->; exact (str_lt_irrefl _ C)). reflexivity.
    + cbn [sm_get]. destruct (str_cmp k' k) eqn:C.
      * apply str_cmp_eq in C. subst. rewrite bytes_eqb_refl. reflexivity.
      * assert (bytes_eqb k' k = false) as -> by (apply bytes_eqb_neq; apply str_lt_neq; exact C).
        rewrite (str_lt_trans _ _ _ C Ek). reflexivity.
      * apply str_cmp_gt in C. assert (bytes_eqb k' k = false) as ->
          by (apply bytes_eqb_neq; intros ->; exact (str_lt_irrefl _ C)). reflexivity.
    + cbn [sm_get]. destruct (str_cmp k' kk) eqn:C.
      * apply str_cmp_eq in C. subst. assert (bytes_eqb kk k = false) as ->.
        { apply bytes_eqb_neq. intros ->. apply str_cmp_gt in Ek. exact (str_lt_irrefl _ Ek). } reflexivity.
      * assert (bytes_eqb k' k = false) as ->.
        { apply bytes_eqb_neq. intros ->. apply str_cmp_gt in Ek. apply (str_lt_irrefl k).
          eapply str_lt_trans; eassumption. } reflexivity.
      * apply IH. exact H1.
Qed.

Lemma sm_del_keys k m x : In x (sm_keys (sm_del k m)) -> In x (sm_keys m).
Proof.
  induction m as [|[k' v'] m IH]; cbn; [tauto|].
  destruct (str_cmp k k'); cbn; intuition.
Qed.

Lemma sm_del_ok k m : sm_ok m -> sm_ok (sm_del k m).
Proof.
  induction m as [|[k' v'] m IH]; intros H; [exact H|]. pose proof H as H0.
  apply sm_ok_inv in H. destruct H as [H1 H2]. cbn [sm_del].
  destruct (str_cmp k k'); [exact H1|exact H0|].
  unfold sm_ok. cbn. constructor; [apply IH; exact H1|].
  apply Forall_forall. intros x Hx. apply sm_del_keys in Hx. rewrite Forall_forall in H2. auto.
Qed.

Lemma sm_get_del k m k' : sm_ok m ->
  sm_get k' (sm_del k m) = if bytes_eqb k' k then None else sm_get k' m.
Proof.
  induction m as [|[kk vv] m IH]; intros H.
  - cbn. destruct (bytes_eqb k' k); reflexivity.
  - apply sm_ok_inv in H. destruct H as [H1 H2]. rewrite Forall_forall in H2.
    cbn [sm_del]. destruct (str_cmp k kk) eqn:Ek.
    + apply str_cmp_eq in Ek. subst kk. cbn [sm_get].
      destruct (bytes_eqb k' k) eqn:E.
      * apply bytes_eqb_eq in E. subst. apply sm_get_None_lt. exact H2.
      * destruct (str_cmp k' k) eqn:C; [apply str_cmp_eq in C; subst; rewrite bytes_eqb_refl in E; discriminate| |reflexivity].
        apply sm_get_None_lt. intros x Hx. eapply str_lt_trans; [exact C|]. auto.
    + cbn [sm_get]. destruct (bytes_eqb k' k) eqn:E; [|reflexivity].
      apply bytes_eqb_eq in E. subst. rewrite Ek. reflexivity.
    + cbn [sm_get]. destruct (str_cmp k' kk) eqn:C.
      * apply str_cmp_eq in C. subst. assert (bytes_eqb kk k = false) as ->; [|reflexivity].
        apply bytes_eqb_neq. intros ->. apply str_cmp_gt in Ek. exact (str_lt_irrefl _ Ek).
      * destruct (bytes_eqb k' k); reflexivity.
      * apply IH. exact H1.
Qed.

(** Two maps with the same content are equal. *)
Lemma sm_ext m : forall m', sm_ok m -> sm_ok m' -> (forall k, sm_get k m = sm_get k m') -> m = m'.
Proof.
  induction m as [|[k v] m IH]; intros [|[k' v'] m'] H H' He.
  - reflexivity.
  - specialize (He k'). cbn in He. assert (str_cmp k' k' = Eq) as E by (apply str_cmp_eq; reflexivity).
    rewrite E in He. discriminate.
  - specialize (He k). cbn in He. assert (str_cmp k k = Eq) as E by (apply str_cmp_eq; reflexivity).
    rewrite E in He. discriminate.
  - pose proof H as H0. pose proof H' as H0'.
    apply sm_ok_inv in H. destruct H as [H1 H2]. apply sm_ok_inv in H'. destruct H' as [H1' H2'].
    rewrite Forall_forall in H2, H2'.
    assert (Ek : k = k').
    { pose proof (He k) as E1. pose proof (He k') as E2. cbn in E1, E2.
      assert (str_cmp k k = Eq) as R1 by (apply str_cmp_eq; reflexivity).
      assert (str_cmp k' k' = Eq) as R2 by (apply str_cmp_eq; reflexivity).
      rewrite R1 in E1. rewrite R2 in E2.
      destruct (str_cmp k k') eqn:C; [apply str_cmp_eq; exact C|discriminate|].
      apply str_cmp_gt in C. rewrite C in E2. discriminate. }
    subst k'. assert (Ev : v = v').
    { pose proof (He k) as E1. cbn in E1. assert (str_cmp k k = Eq) as R1 by (apply str_cmp_eq; reflexivity).
      rewrite R1 in E1. congruence. }
    subst v'. f_equal. apply IH; [assumption|assumption|]. intros x.
    pose proof (He x) as Ex. cbn in Ex. destruct (str_cmp x k) eqn:C; [| |exact Ex].
    + apply str_cmp_eq in C. subst x.
      rewrite (sm_get_None_lt k m H2), (sm_get_None_lt k m' H2'). reflexivity.
    + rewrite (sm_get_None_lt x m), (sm_get_None_lt x m'); [reflexivity| |];
        intros y Hy; eapply str_lt_trans; eauto.
Qed.

(** Inserting the entries of a map in order into the empty map rebuilds it. *)
Lemma sm_set_last k v m : (forall x, In x (sm_keys m) -> str_lt x k) -> sm_set k v m = m ++ [(k, v)].
Proof.
  induction m as [|[k' v'] m IH]; intros H; [reflexivity|]. cbn.
  pose proof (H k' (or_introl eq_refl)) as Hk. apply str_cmp_gt in Hk. rewrite Hk.
  f_equal. apply IH. intros x Hx. apply H. right. exact Hx.
Qed.

Lemma sm_rebuild_app l : forall acc, sm_ok (acc ++ l) ->
  fold_left (fun m kv => sm_set (fst kv) (snd kv) m) l acc = acc ++ l.
Proof.
  induction l as [|[k v] l IH]; intros acc H; [symmetry; apply app_nil_r|].
  cbn [fold_left fst snd]. rewrite sm_set_last.
  - replace (acc ++ (k, v) :: l) with ((acc ++ [(k, v)]) ++ l) by (rewrite <- app_assoc; reflexivity).
    apply IH. rewrite <- app_assoc. exact H.
  - unfold sm_ok, sm_keys in H. rewrite map_app in H. cbn in H. clear IH.
    intros x Hx. unfold sm_keys in Hx. induction acc as [|[k0 v0] acc IHa]; [destruct Hx|].
    cbn in H. inversion H as [|? ? Hs Hf]; subst. cbn in Hx. destruct Hx as [<-|Hx].
    + rewrite Forall_forall in Hf. apply Hf. apply in_or_app. right. left. reflexivity.
    + apply IHa; assumption.
Qed.
Lemma sm_rebuild m : sm_ok m -> fold_left (fun m kv => sm_set (fst kv) (snd kv) m) m [] = m.
Proof. exact (sm_rebuild_app m []). Qed.

End Map.

(** [std::set<std::string>]: a map to unit. *)
Definition ss_add (k : bytes) (s : list bytes) : list bytes := map fst (sm_set k tt (map (fun x => (x, tt)) s)).

Lemma ss_map_fst s : map fst (map (fun x : bytes => (x, tt)) s) = s.
Proof. rewrite map_map. cbn. apply map_id. Qed.
Lemma ss_map_unit (m : list (bytes * unit)) : map (fun x => (x, tt)) (map fst m) = m.
Proof. rewrite map_map. rewrite <- (map_id m) at 2. apply map_ext. intros [k []]. reflexivity. Qed.

Lemma ss_add_sorted k s : StronglySorted str_lt s -> StronglySorted str_lt (ss_add k s).
Proof.
  intros H. unfold ss_add. apply (sm_set_ok k tt). unfold sm_ok, sm_keys. rewrite ss_map_fst. exact H.
Qed.
Lemma ss_add_In k s x : StronglySorted str_lt s -> (In x (ss_add k s) <-> x = k \/ In x s).
Proof.
  intros H. assert (Hok : sm_ok (map (fun x => (x, tt)) s)) by (unfold sm_ok, sm_keys; rewrite ss_map_fst; exact H).
  unfold ss_add. split.
  - intros Hx. apply (sm_set_keys k tt) in Hx. unfold sm_keys in Hx. rewrite ss_map_fst in Hx. exact Hx.
  - intros Hx. apply (sm_get_keys x); [apply sm_set_ok; exact Hok|]. rewrite sm_get_set by exact Hok.
    destruct (bytes_eqb x k) eqn:E; [discriminate|]. destruct Hx as [->|Hx]; [rewrite bytes_eqb_refl in E; discriminate|].
    apply sm_get_keys; [exact Hok|]. unfold sm_keys. rewrite ss_map_fst. exact Hx.
Qed.
