(** * Proofs about PIDHandler *)
From Coq Require Import ZArith List Bool Permutation Lia.
From Verif Require Import Bytes StrMap ZMap SioModel ObjModel ImplModel PidModel PidSpec.
Import ListNotations.
Open Scope Z_scope.

Definition entry (a : algo) : bytes * Z := (a_name a, a_id a).

Lemma existsb_name n reg : existsb (fun a => bytes_eqb (a_name a) n) reg = true <-> In n (map a_name reg).
Proof.
  rewrite existsb_exists, in_map_iff. split; intros (a & H1 & H2); exists a; [apply bytes_eqb_eq in H2|split; [exact H2|apply bytes_eqb_eq; exact H1]]; auto.
Qed.

(** ** the largest id *)
Definition top (reg : list algo) (m : Z) : Z := fold_left (fun m a => Z.max m (a_id a)) reg m.

Lemma top_max reg : forall m, top reg m = Z.max m (top reg (-1)) \/ m < -1.
Proof.
  unfold top. induction reg as [|a reg IH]; intros m; cbn [fold_left]; [lia|].
  destruct (IH (Z.max m (a_id a))) as [E|]; [|lia]. destruct (IH (Z.max (-1) (a_id a))) as [E2|]; [|lia]. rewrite E, E2. lia.
Qed.

Lemma top_spec reg : forall m, m <= top reg m /\ (forall a, In a reg -> a_id a <= top reg m) /\ (top reg m = m \/ exists a, In a reg /\ a_id a = top reg m).
Proof.
  unfold top. induction reg as [|a reg IH]; intros m; cbn [fold_left]; [split; [lia|split; [intros a []|auto]]|].
  destruct (IH (Z.max m (a_id a))) as (H1 & H2 & H3). split; [lia|]. split.
  - intros b [<-|H]; [lia|auto].
  - destruct H3 as [H3|(b & Hb & H3)].
    + destruct (Z.max_spec m (a_id a)) as [[L E]|[L E]]; [right; exists a; split; [left; reflexivity|lia]|left; lia].
    + right. exists b. split; [right; exact Hb|exact H3].
Qed.

Lemma next_perm r r' : Permutation r r' -> next_id r = next_id r'.
Proof.
  intros P. unfold next_id. f_equal. fold (top r (-1)). fold (top r' (-1)).
  destruct (top_spec r (-1)) as (A1 & A2 & A3). destruct (top_spec r' (-1)) as (B1 & B2 & B3). apply Z.le_antisymm.
  - destruct A3 as [->|(a & Ha & <-)]; [exact B1|]. apply B2. exact (Permutation_in _ P Ha).
  - destruct B3 as [->|(a & Ha & <-)]; [exact A1|]. apply A2. exact (Permutation_in _ (Permutation_sym P) Ha).
Qed.

Lemma next_fresh reg a : In a reg -> a_id a < next_id reg.
Proof. intros H. unfold next_id. fold (top reg (-1)). destruct (top_spec reg (-1)) as (_ & H2 & _). specialize (H2 a H). lia. Qed.

Lemma next_nonneg reg : 0 <= next_id reg.
Proof. unfold next_id. fold (top reg (-1)). destruct (top_spec reg (-1)). lia. Qed.

Lemma next_app reg i n ps : next_id (reg ++ [mkA i n ps]) = Z.max (next_id reg) (1 + i).
Proof. unfold next_id. rewrite fold_left_app. cbn [fold_left a_id]. lia. Qed.

(** ** registries *)
Lemma consistent_perm r r' : Permutation r r' -> consistent r -> consistent r'.
Proof.
  intros P (H1 & H2 & H3). split; [exact (Permutation_NoDup (Permutation_map _ P) H1)|]. split; [exact (Permutation_NoDup (Permutation_map _ P) H2)|].
  apply Forall_forall. intros a Ha. rewrite Forall_forall in H3. apply H3. exact (Permutation_in _ (Permutation_sym P) Ha).
Qed.

Lemma nodup_inj {A B} (f : A -> B) l x y : NoDup (map f l) -> In x l -> In y l -> f x = f y -> x = y.
Proof.
  induction l as [|z l IH]; cbn [map In]; intros N Hx Hy E; [destruct Hx|]. inversion N as [|? ? N1 N2]; subst.
  destruct Hx as [->|Hx]; destruct Hy as [->|Hy]; [reflexivity| | |auto].
  - exfalso. apply N1. rewrite E. apply in_map. exact Hy.
  - exfalso. apply N1. rewrite <- E. apply in_map. exact Hx.
Qed.

Lemma nodup_app_tail {A} (l : list A) x : NoDup l -> ~ In x l -> NoDup (l ++ [x]).
Proof. intros H N. apply Permutation_NoDup with (x :: l); [apply Permutation_cons_append|constructor; assumption]. Qed.

Lemma register_consistent reg e : consistent reg -> next_id reg < 2 ^ 31 -> consistent (register reg e).
Proof.
  intros (H1 & H2 & H3) Hr. unfold register. destruct (existsb _ reg) eqn:E; [split; [exact H1|split; assumption]|].
  split; [|split].
  - rewrite map_app. apply nodup_app_tail; [exact H1|]. cbn [map a_id]. intros Hin. apply in_map_iff in Hin. destruct Hin as (a & Ea & Ha). pose proof (next_fresh reg a Ha). lia.
  - rewrite map_app. apply nodup_app_tail; [exact H2|]. cbn [map a_name]. intros Hin. apply existsb_name in Hin. congruence.
  - apply Forall_app. split; [exact H3|]. constructor; [|constructor]. cbn [a_id]. pose proof (next_nonneg reg). lia.
Qed.

Lemma register_next reg e : next_id reg <= next_id (register reg e) <= next_id reg + 1.
Proof. unfold register. destruct (existsb _ reg); [lia|]. rewrite next_app. lia. Qed.

Lemma registers_next es : forall reg, next_id reg <= next_id (fold_left register es reg) <= next_id reg + Z.of_nat (length es).
Proof.
  induction es as [|e es IH]; intros reg; cbn [fold_left length]; [cbn; lia|]. specialize (IH (register reg e)). pose proof (register_next reg e). lia.
Qed.

(** ** handlers *)
Definition inv (h : handler) (reg : list algo) : Prop :=
  sm_ok (h_map h) /\ zm_ok (h_names h) /\ zm_ok (h_inv h) /\
  (forall n i, sm_get n (h_map h) = Some i <-> exists ps, In (mkA i n ps) reg) /\
  (forall i n, zm_get i (h_inv h) = Some n <-> exists ps, In (mkA i n ps) reg) /\
  (forall i ps, zm_get i (h_names h) = Some ps <-> exists n, In (mkA i n ps) reg) /\
  h_max h + 1 = next_id reg /\ Permutation (h_ids h) (map a_id reg) /\ consistent reg.

Lemma inv_perm h r r' : Permutation r r' -> inv h r -> inv h r'.
Proof.
  intros P (O1 & O2 & O3 & M & I & N & X & D & C).
  assert (E : forall a, In a r <-> In a r') by (intros a; split; [exact (Permutation_in a P)|exact (Permutation_in a (Permutation_sym P))]).
  split; [exact O1|]. split; [exact O2|]. split; [exact O3|].
  split; [intros n i; rewrite M; split; intros (ps & H); exists ps; apply E; exact H|].
  split; [intros n i; rewrite I; split; intros (ps & H); exists ps; apply E; exact H|].
  split; [intros n i; rewrite N; split; intros (ps & H); exists ps; apply E; exact H|].
  split; [rewrite X; apply next_perm; exact P|]. split; [rewrite D; apply Permutation_map; exact P|]. exact (consistent_perm _ _ P C).
Qed.

Lemma add_inv h reg name ps : inv h reg -> next_id reg < 2 ^ 31 ->
  (In name (map a_name reg) /\ add_algorithm h name ps = Throw LException /\ register reg (name, ps) = reg) \/
  (~ In name (map a_name reg) /\ exists h', add_algorithm h name ps = Ok (h', next_id reg) /\ inv h' (register reg (name, ps)) /\ h_update h' = h_update h).
Proof.
  intros (O1 & O2 & O3 & M & I & N & X & D & C) Hr. pose proof (register_consistent reg (name, ps) C Hr) as C'. unfold add_algorithm, register in *. cbn [fst snd] in *.
  destruct (existsb (fun a => bytes_eqb (a_name a) name) reg) eqn:E.
  - left. apply existsb_name in E. split; [exact E|]. split; [|reflexivity]. apply in_map_iff in E. destruct E as ([i n qs] & En & Ha). cbn in En. subst n.
    assert (G : sm_get name (h_map h) = Some i) by (apply M; exists qs; exact Ha). rewrite G. reflexivity.
  - right. assert (Nn : ~ In name (map a_name reg)) by (intros H; apply existsb_name in H; congruence). split; [exact Nn|].
    assert (G : sm_get name (h_map h) = None).
    { destruct (sm_get name (h_map h)) as [i|] eqn:G; [|reflexivity]. apply M in G. destruct G as (qs & G). exfalso. apply Nn. apply in_map_iff. exists (mkA i name qs). auto. }
    assert (Fr : forall n qs, ~ In (mkA (next_id reg) n qs) reg) by (intros n qs H; apply next_fresh in H; cbn in H; lia).
    assert (Gi : zm_get (next_id reg) (h_inv h) = None).
    { destruct (zm_get (next_id reg) (h_inv h)) as [n|] eqn:Gi; [|reflexivity]. apply I in Gi. destruct Gi as (qs & Gi). destruct (Fr _ _ Gi). }
    rewrite G, X. cbv zeta. destruct (Z.leb_spec two31 (next_id reg)) as [L|L]; [unfold two31 in L; lia|]. eexists. split; [reflexivity|]. split; [|reflexivity].
    unfold map_insert, zmap_insert. rewrite G, Gi. unfold inv. cbn [h_map h_names h_inv h_max h_ids].
    split; [apply sm_set_ok; exact O1|]. split; [apply zm_set_ok; exact O2|]. split; [apply zm_set_ok; exact O3|].
    assert (In1 : forall i n qs, In (mkA i n qs) (reg ++ [mkA (next_id reg) name ps]) <-> In (mkA i n qs) reg \/ (i = next_id reg /\ n = name /\ qs = ps)).
    { intros i n qs. rewrite in_app_iff. cbn [In]. split; [intros [H|[H|[]]]; [auto|injection H as <- <- <-; auto]|intros [H|(-> & -> & ->)]; auto]. }
    split; [|split; [|split; [|split; [|split]]]].
    + intros n i. rewrite sm_get_set by exact O1. destruct (bytes_eqb n name) eqn:En.
      * apply bytes_eqb_eq in En. subst n. split; [intros [= <-]; exists ps; apply In1; auto|]. intros (qs & H). apply In1 in H. destruct H as [H|(-> & _)]; [|reflexivity].
        exfalso. apply Nn. apply in_map_iff. exists (mkA i name qs). auto.
      * rewrite M. split; intros (qs & H); exists qs; [apply In1; auto|]. apply In1 in H. destruct H as [H|(_ & -> & _)]; [exact H|]. exfalso. apply bytes_eqb_neq in En. congruence.
    + intros i n. rewrite zm_get_set by exact O3. destruct (Z.eqb_spec i (next_id reg)) as [->|Ni].
      * split; [intros [= <-]; exists ps; apply In1; auto|]. intros (qs & H). apply In1 in H. destruct H as [H|(_ & -> & _)]; [destruct (Fr _ _ H)|reflexivity].
      * rewrite I. split; intros (qs & H); exists qs; [apply In1; auto|]. apply In1 in H. destruct H as [H|(E1 & _)]; [exact H|contradiction].
    + intros i qs. rewrite zm_get_set by exact O2. destruct (Z.eqb_spec i (next_id reg)) as [->|Ni].
      * split; [intros [= <-]; exists name; apply In1; auto|]. intros (n & H). apply In1 in H. destruct H as [H|(_ & _ & ->)]; [destruct (Fr _ _ H)|reflexivity].
      * rewrite N. split; intros (n & H); exists n; [apply In1; auto|]. apply In1 in H. destruct H as [H|(E1 & _)]; [exact H|contradiction].
    + rewrite next_app. lia.
    + rewrite map_app. cbn [map a_id]. apply Permutation_app_tail. exact D.
    + exact C'.
Qed.

Lemma adds_inv es : forall h reg, inv h reg -> next_id reg + Z.of_nat (length es) <= 2 ^ 31 ->
  exists h', add_algorithms h es = Ok h' /\ inv h' (fold_left register es reg) /\ h_update h' = h_update h.
Proof.
  induction es as [|[n ps] es IH]; intros h reg Hi Hr; cbn [add_algorithms fold_left length] in *; [exists h; auto|].
  destruct (add_inv h reg n ps Hi ltac:(lia)) as [(_ & E & R)|(_ & h1 & E & Hi1 & U)]; rewrite E.
  - rewrite R. apply IH; [exact Hi|lia].
  - pose proof (register_next reg (n, ps)) as Rn. destruct (IH h1 _ Hi1 ltac:(lia)) as (h' & E' & Hi' & U'). exists h'. split; [exact E'|]. split; [exact Hi'|congruence].
Qed.

(** ** opening *)
Lemma sm_set_entry a : forall l, sm_get (a_name a) (map entry l) = None -> exists l1, sm_set (a_name a) (a_id a) (map entry l) = map entry l1 /\ Permutation (a :: l) l1.
Proof.
  induction l as [|b l IH]; cbn [map sm_set sm_get entry]; intros H; [exists [a]; split; reflexivity|]. fold (entry b) in *.
  unfold entry at 1 in H. unfold entry at 1. destruct (str_cmp (a_name a) (a_name b)) eqn:E; [discriminate| |].
  - exists (a :: b :: l). split; reflexivity.
  - destruct (IH H) as (l1 & E1 & P). exists (b :: l1). split; [rewrite E1; reflexivity|]. rewrite perm_swap. apply perm_skip. exact P.
Qed.

Lemma get_entry l n : sm_ok (map entry l) -> ~ In n (map a_name l) -> sm_get n (map entry l) = None.
Proof.
  intros O H. destruct (sm_get n (map entry l)) as [i|] eqn:E; [|reflexivity]. apply sm_get_In in E; [|exact O]. apply in_map_iff in E. destruct E as (a & Ea & Ha).
  injection Ea as <- _. exfalso. apply H. apply in_map. exact Ha.
Qed.

Lemma cpm_ok l : forall d, sm_ok (map entry d) -> NoDup (map a_name (d ++ l)) -> exists d',
  cpm_insert (map a_name l) (map a_id l) (map entry d) = map entry d' /\ sm_ok (map entry d') /\ Permutation (d ++ l) d'.
Proof.
  induction l as [|a l IH]; intros d O N; cbn [map cpm_insert]; [exists d; rewrite app_nil_r; auto|].
  assert (G : sm_get (a_name a) (map entry d) = None).
  { apply get_entry; [exact O|]. rewrite map_app in N. cbn [map] in N. apply NoDup_remove_2 in N. intros H. apply N. apply in_or_app. left. exact H. }
  unfold map_insert. rewrite G. destruct (sm_set_entry a d G) as (d1 & E1 & P1). rewrite E1.
  assert (O1 : sm_ok (map entry d1)) by (rewrite <- E1; apply sm_set_ok; exact O).
  assert (P2 : Permutation (d ++ a :: l) (d1 ++ l)).
  { rewrite <- P1. symmetry. apply Permutation_middle. }
  destruct (IH d1 O1) as (d' & E & O' & P); [exact (Permutation_NoDup (Permutation_map _ P2) N)|]. exists d'. split; [exact E|]. split; [exact O'|]. rewrite P2. exact P.
Qed.

Lemma init_ok p : forall l m d h, (forall a, In a l -> strings p (k_pars (a_name a)) = a_pars a) -> consistent (d ++ l) ->
  h_map h = m -> zm_ok (h_names h) -> zm_ok (h_inv h) ->
  (forall i n, zm_get i (h_inv h) = Some n <-> exists ps, In (mkA i n ps) d) ->
  (forall i ps, zm_get i (h_names h) = Some ps <-> exists n, In (mkA i n ps) d) ->
  h_max h + 1 = next_id d -> h_ids h = map a_id d ->
  exists h', init_loop p (map entry l) h = Ok h' /\ h_map h' = m /\ h_update h' = h_update h /\ zm_ok (h_names h') /\ zm_ok (h_inv h') /\
  (forall i n, zm_get i (h_inv h') = Some n <-> exists ps, In (mkA i n ps) (d ++ l)) /\
  (forall i ps, zm_get i (h_names h') = Some ps <-> exists n, In (mkA i n ps) (d ++ l)) /\
  h_max h' + 1 = next_id (d ++ l) /\ h_ids h' = map a_id (d ++ l).
Proof.
  induction l as [|[id name ps] l IH]; intros m d h Hs C Hm O2 O3 I N X D; cbn [map init_loop entry a_name a_id].
  - rewrite app_nil_r. exists h. split; [reflexivity|]. auto 10.
  - assert (C1 : ~ In id (map a_id d)). { destruct C as (C1 & _). rewrite map_app in C1. cbn [map a_id] in C1. apply NoDup_remove_2 in C1. intros H. apply C1. apply in_or_app. auto. }
    assert (F1 : forall n qs, ~ In (mkA id n qs) d) by (intros n qs H; apply C1; apply in_map_iff; exists (mkA id n qs); auto).
    assert (Gn : zm_get id (h_names h) = None).
    { destruct (zm_get id (h_names h)) as [qs|] eqn:G; [|reflexivity]. apply N in G. destruct G as (n & G). destruct (F1 _ _ G). }
    assert (Gi : zm_get id (h_inv h) = None).
    { destruct (zm_get id (h_inv h)) as [n|] eqn:G; [|reflexivity]. apply I in G. destruct G as (qs & G). destruct (F1 _ _ G). }
    rewrite Gn. unfold zmap_insert. rewrite Gi.
    assert (Sp : par_vals (p_str p) (k_pars name) [] = ps).
    { specialize (Hs (mkA id name ps) (or_introl eq_refl)). cbn [a_name a_pars] in Hs. unfold strings in Hs. unfold par_vals. destruct (sm_get (k_pars name) (p_str p)); exact Hs. }
    rewrite Sp.
    assert (In1 : forall i n qs, In (mkA i n qs) (d ++ [mkA id name ps]) <-> In (mkA i n qs) d \/ (i = id /\ n = name /\ qs = ps)).
    { intros i n qs. rewrite in_app_iff. cbn [In]. split; [intros [H|[H|[]]]; [auto|injection H as <- <- <-; auto]|intros [H|(-> & -> & ->)]; auto]. }
    destruct (IH m (d ++ [mkA id name ps]) (mkH (h_update h) (h_map h) (if h_max h <? id then id else h_max h) (zm_set id ps (h_names h)) (zm_set id name (h_inv h)) (h_ids h ++ [id])))
      as (h' & E & R); cbn [h_map h_names h_inv h_max h_ids].
    + intros a Ha. apply Hs. right. exact Ha.
    + rewrite <- app_assoc. exact C.
    + exact Hm.
    + apply zm_set_ok. exact O2.
    + apply zm_set_ok. exact O3.
    + intros i n. rewrite zm_get_set by exact O3. destruct (Z.eqb_spec i id) as [->|Ni].
      * split; [intros [= <-]; exists ps; apply In1; auto|]. intros (qs & H). apply In1 in H. destruct H as [H|(_ & -> & _)]; [destruct (F1 _ _ H)|reflexivity].
      * rewrite I. split; intros (qs & H); exists qs; [apply In1; auto|]. apply In1 in H. destruct H as [H|(E1 & _)]; [exact H|contradiction].
    + intros i qs. rewrite zm_get_set by exact O2. destruct (Z.eqb_spec i id) as [->|Ni].
      * split; [intros [= <-]; exists name; apply In1; auto|]. intros (n & H). apply In1 in H. destruct H as [H|(_ & _ & ->)]; [destruct (F1 _ _ H)|reflexivity].
      * rewrite N. split; intros (n & H); exists n; [apply In1; auto|]. apply In1 in H. destruct H as [H|(E1 & _)]; [exact H|contradiction].
    + rewrite next_app. destruct (Z.ltb_spec (h_max h) id); lia.
    + rewrite map_app, D. reflexivity.
    + exists h'. split; [exact E|]. rewrite <- app_assoc in R. exact R.
Qed.

Definition good_type (ty : bytes) : Prop := ty = str "ReconstructedParticle" \/ ty = str "Cluster".

Lemma open_ok u ty p reg : describes p reg -> good_type ty -> exists h, open_handler u ty p = (Ok h, p) /\ inv h reg /\ h_update h = u.
Proof.
  intros (O1 & O2 & C & (l & P & Es & Ei) & Hp) Ht. unfold open_handler, cpm_init.
  assert (E1 : par_vals (p_str p) k_names [] = map a_name l) by (unfold par_vals, strings in *; unfold k_names; destruct (sm_get (str "PIDAlgorithmTypeName") (p_str p)); exact Es).
  assert (E2 : par_vals (p_int p) k_ids [] = map a_id l) by (unfold par_vals, ints in *; unfold k_ids; destruct (sm_get (str "PIDAlgorithmTypeID") (p_int p)); exact Ei).
  rewrite E1, E2. cbv zeta. unfold Zlen. rewrite !map_length, Z.eqb_refl.
  pose proof (consistent_perm _ _ P C) as Cl.
  destruct (cpm_ok l []) as (d & Ed & Od & Pd); [constructor|exact (proj1 (proj2 Cl))|]. cbn [map] in Ed. rewrite Ed. cbn [app] in Pd.
  assert (Pr : Permutation reg d) by (rewrite P; exact Pd). pose proof (consistent_perm _ _ Pr C) as Cd.
  destruct (init_ok p d (map entry d) [] (mkH u (map entry d) (-1) [] [] [])) as (h & E & Hm & Hu & Z1 & Z2 & I & N & X & D);
    cbn [h_map h_names h_inv h_max h_ids h_update]; try reflexivity; try (constructor; fail).
  - intros a Ha. apply Hp. exact (Permutation_in _ (Permutation_sym Pr) Ha).
  - exact Cd.
  - intros i n. cbn [zm_get]. split; [discriminate|intros (ps & [])].
  - intros i n. cbn [zm_get]. split; [discriminate|intros (ps & [])].
  - rewrite E. exists h. split.
    { destruct Ht as [->| ->]; reflexivity. }
    split; [|exact Hu]. apply (inv_perm h d); [symmetry; exact Pr|]. cbn [app] in *. rewrite <- Hm in Od.
    split; [exact Od|]. split; [exact Z1|]. split; [exact Z2|]. split.
    { intros n i. rewrite sm_get_In by exact Od. rewrite Hm, in_map_iff. split.
      - intros ([i' n' ps] & Ea & Ha). injection Ea as -> ->. exists ps. exact Ha.
      - intros (ps & H). exists (mkA i n ps). auto. }
    split; [exact I|]. split; [exact N|]. split; [exact X|]. split; [rewrite D; reflexivity|exact Cd].
Qed.

(** ** answers *)
Lemma search_ok name : forall l i, 0 <= i -> i + Zlen l < 2 ^ 31 -> (exists j, first_index l name j /\ search l i name = i + j) \/ (~ In name l /\ search l i name = -1).
Proof.
  induction l as [|x l IH]; intros i H1 H2; cbn [search In]; [right; auto|]. unfold Zlen in *. cbn [length] in H2. rewrite Nat2Z.inj_succ in H2.
  destruct (bytes_eqb x name) eqn:E.
  - apply bytes_eqb_eq in E. subst x. left. exists 0. split; [split; [lia|split; [reflexivity|intros j Hj; cbn in Hj; lia]]|].
    rewrite s32_id by (unfold is_i32, two31; lia). lia.
  - apply bytes_eqb_neq in E. destruct (IH (i + 1) ltac:(lia) ltac:(lia)) as [(j & (J1 & J2 & J3) & Es)|[Hn Es]].
    + left. exists (j + 1). split; [|lia]. split; [lia|]. replace (Z.to_nat (j + 1)) with (S (Z.to_nat j)) by lia. split; [exact J2|].
      intros [|k] Hk; cbn [nth_error]; [congruence|]. apply J3. lia.
    + right. split; [tauto|exact Es].
Qed.

Lemma first_index_In l name i : first_index l name i -> In name l.
Proof. intros (_ & H & _). exact (nth_error_In _ _ H). Qed.

Lemma first_index_fun l name i j : first_index l name i -> first_index l name j -> i = j.
Proof.
  intros (A1 & A2 & A3) (B1 & B2 & B3). destruct (Z.lt_trichotomy i j) as [L|[L|L]]; [|exact L|]; exfalso.
  - apply (B3 (Z.to_nat i)); [lia|exact A2].
  - apply (A3 (Z.to_nat j)); [lia|exact B2].
Qed.

Lemma res_ok {A} (o : option A) e x : (match o with Some y => Ok y | None => Throw e end) = Ok x <-> o = Some x.
Proof. destruct o; split; congruence. Qed.

Lemma inv_answers h reg : inv h reg -> answers h reg.
Proof.
  intros (O1 & O2 & O3 & M & I & N & X & D & C). split; [|split; [|split; [|split]]].
  - intros n i. unfold algorithm_id. rewrite res_ok. apply M.
  - intros i n. unfold algorithm_name. rewrite res_ok. apply I.
  - intros i ps. unfold parameter_names. rewrite res_ok. apply N.
  - intros i n ps name j Hin L. unfold parameter_index. assert (G : zm_get i (h_names h) = Some ps) by (apply N; exists n; exact Hin). rewrite G.
    destruct (search_ok name ps 0 ltac:(lia) ltac:(lia)) as [(k & F & E)|[Nn E]]; rewrite E.
    + split; [intros [= <-]; left; exact F|]. intros [F'|[_ Nn]]; [f_equal; exact (first_index_fun _ _ _ _ F F')|]. destruct (Nn (first_index_In _ _ _ F)).
    + split; [intros [= <-]; right; auto|]. intros [F'|[-> _]]; [destruct (Nn (first_index_In _ _ _ F'))|reflexivity].
  - exact D.
Qed.

(** ** closing *)
Lemma strings_set p k l k' : sm_ok (p_str p) -> strings (fst (par_do false p (P_setStrings k l))) k' = if bytes_eqb k' k then l else strings p k'.
Proof. intros O. unfold strings. cbn [par_do guarded unguarded fst p_str]. rewrite sm_get_set by exact O. destruct (bytes_eqb k' k); reflexivity. Qed.

Lemma save_names (key : Z * list bytes -> bytes) L : forall p, sm_ok (p_str p) -> NoDup (map key L) ->
  let q := fold_left (fun q e => fst (par_do false q (P_setStrings (key e) (snd e)))) L p in
  sm_ok (p_str q) /\ p_int q = p_int p /\ (forall e, In e L -> strings q (key e) = snd e) /\ (forall k, ~ In k (map key L) -> strings q k = strings p k).
Proof.
  induction L as [|e L IH]; intros p O N; cbn [fold_left]; [split; [exact O|]; split; [reflexivity|]; split; [intros e []|reflexivity]|].
  cbn [map] in N. inversion N as [|? ? N1 N2]; subst.
  set (p1 := fst (par_do false p (P_setStrings (key e) (snd e)))).
  assert (O1 : sm_ok (p_str p1)) by (cbn; apply sm_set_ok; exact O).
  destruct (IH p1 O1 N2) as (Q1 & Q2 & Q3 & Q4). split; [exact Q1|]. split; [rewrite Q2; reflexivity|]. split.
  - intros e' [<-|H]; [|exact (Q3 e' H)]. rewrite Q4 by exact N1. unfold p1. rewrite strings_set by exact O. rewrite bytes_eqb_refl. reflexivity.
  - intros k Hk. cbn [map In] in Hk. rewrite Q4 by tauto. unfold p1. rewrite strings_set by exact O. destruct (bytes_eqb k (key e)) eqn:E; [|reflexivity].
    apply bytes_eqb_eq in E. subst. tauto.
Qed.

Lemma names_key n : k_names <> k_pars n.
Proof. intros H. apply (f_equal (fun l => nth_error l 1)) in H. vm_compute in H. discriminate. Qed.

Lemma k_pars_inj a b : k_pars a = k_pars b -> a = b.
Proof. unfold k_pars. apply app_inv_head. Qed.

Lemma zm_keys_nodup {V} (m : list (Z * V)) : zm_ok m -> NoDup (map fst m).
Proof.
  induction m as [|[k v] m IH]; intros H; cbn [map fst]; [constructor|]. apply zm_ok_inv in H. destruct H as [H1 H2]. constructor; [|exact (IH H1)].
  intros Hin. specialize (H2 k Hin). lia.
Qed.

Lemma sm_keys_nodup {V} (m : list (bytes * V)) : sm_ok m -> NoDup (map fst m).
Proof.
  induction m as [|[k v] m IH]; intros H; cbn [map fst]; [constructor|]. apply sm_ok_inv in H. destruct H as [H1 H2]. constructor; [|exact (IH H1)].
  intros Hin. rewrite Forall_forall in H2. exact (str_lt_irrefl _ (H2 k Hin)).
Qed.

Lemma close_ok h p reg : inv h reg -> h_update h = true -> sm_ok (p_int p) -> sm_ok (p_str p) -> describes (close_handler h p) reg.
Proof.
  intros (O1 & O2 & O3 & M & I & N & X & D & C) U Oi Os. unfold close_handler. rewrite U. cbv zeta.
  set (key := fun e : Z * list bytes => k_pars (match zm_get (fst e) (h_inv h) with Some n => n | None => [] end)).
  assert (K : forall i ps, In (i, ps) (h_names h) -> exists n, In (mkA i n ps) reg /\ key (i, ps) = k_pars n).
  { intros i ps H. apply zm_get_In in H; [|exact O2]. apply N in H. destruct H as (n & H). exists n. split; [exact H|]. unfold key. cbn [fst].
    assert (G : zm_get i (h_inv h) = Some n) by (apply I; exists ps; exact H). rewrite G. reflexivity. }
  assert (Nk : NoDup (map key (h_names h))).
  { assert (G : forall L, NoDup (map fst L) -> (forall e, In e L -> In e (h_names h)) -> NoDup (map key L)).
    { induction L as [|[i ps] L IH]; intros NL HL; cbn [map]; [constructor|]. cbn [map fst] in NL. inversion NL as [|? ? N1 N2]; subst.
      constructor; [|apply IH; [exact N2|intros e He; apply HL; right; exact He]]. intros Hin. apply in_map_iff in Hin. destruct Hin as ([i' ps'] & Ek & Hin).
      destruct (K i ps (HL _ (or_introl eq_refl))) as (n & Hn & Kn). destruct (K i' ps' (HL _ (or_intror Hin))) as (n' & Hn' & Kn').
      rewrite Kn, Kn' in Ek. apply k_pars_inj in Ek. subst n'.
      assert (E : mkA i n ps = mkA i' n ps') by (apply (nodup_inj a_name reg); [exact (proj1 (proj2 C))|exact Hn|exact Hn'|reflexivity]).
      injection E as -> ->. apply N1. apply in_map_iff. exists (i', ps'). auto. }
    apply G; [exact (zm_keys_nodup _ O2)|auto]. }
  destruct (save_names key (h_names h) p Os Nk) as (Q1 & Q2 & Q3 & Q4). cbv zeta in *.
  set (q := fold_left (fun q e => fst (par_do false q (P_setStrings (key e) (snd e)))) (h_names h) p) in *.
  change (fold_left _ (h_names h) p) with q. unfold cpm_save. cbn [par_do guarded unguarded fst p_int p_str].
  split; [apply sm_set_ok; rewrite Q2; exact Oi|]. split; [apply sm_set_ok; exact Q1|]. split; [exact C|]. split.
  - set (l := map (fun e : bytes * Z => mkA (snd e) (fst e) (match zm_get (snd e) (h_names h) with Some ps => ps | None => [] end)) (h_map h)).
    exists l. split.
    + apply NoDup_Permutation.
      * destruct C as (C1 & _). exact (NoDup_map_inv _ _ C1).
      * apply (NoDup_map_inv a_name). unfold l. rewrite map_map. cbn [a_name]. exact (sm_keys_nodup _ O1).
      * intros [i n ps]. unfold l. rewrite in_map_iff. split.
        -- intros H. exists (n, i). cbn [fst snd]. assert (G : zm_get i (h_names h) = Some ps) by (apply N; exists n; exact H). rewrite G. split; [reflexivity|].
           apply sm_get_In; [exact O1|]. apply M. exists ps. exact H.
        -- intros ([n' i'] & E & H). cbn [fst snd] in E. apply sm_get_In in H; [|exact O1]. apply M in H. destruct H as (qs & H).
           assert (G : zm_get i' (h_names h) = Some qs) by (apply N; exists n'; exact H). rewrite G in E. injection E as <- <- <-. exact H.
    + unfold l, strings, ints. rewrite !map_map. cbn [a_name a_id]. cbn [p_str p_int]. change (str "PIDAlgorithmTypeName") with k_names. change (str "PIDAlgorithmTypeID") with k_ids.
      rewrite !sm_get_set by (rewrite ?Q2; assumption). rewrite !bytes_eqb_refl. split; reflexivity.
  - intros [i n ps] H. cbn [a_name a_pars]. change (str "ParameterNames_" ++ n) with (k_pars n).
    assert (Hin : In (i, ps) (h_names h)) by (apply zm_get_In; [exact O2|]; apply N; exists n; exact H).
    assert (Kk : key (i, ps) = k_pars n). { unfold key. cbn [fst]. assert (G : zm_get i (h_inv h) = Some n) by (apply I; exists ps; exact H). rewrite G. reflexivity. }
    pose proof (Q3 _ Hin) as S. rewrite Kk in S. cbn [snd] in S. unfold strings in *. cbn [p_str]. rewrite sm_get_set by exact Q1.
    destruct (bytes_eqb (k_pars n) k_names) eqn:E; [apply bytes_eqb_eq in E; destruct (names_key n (eq_sym E))|exact S].
Qed.

Lemma describes_ok p reg : describes p reg -> sm_ok (p_int p) /\ sm_ok (p_str p).
Proof. intros (H1 & H2 & _). auto. Qed.

(** ** programs *)
Lemma other_ok p reg c : describes p reg -> other_key c -> describes (fst (par_do false p c)) reg.
Proof.
  intros (O1 & O2 & C & (l & P & Es & Ei) & Hp) Hk.
  assert (G : forall (p' : params), sm_ok (p_int p') -> sm_ok (p_str p') -> strings p' (str "PIDAlgorithmTypeName") = strings p (str "PIDAlgorithmTypeName") ->
    ints p' (str "PIDAlgorithmTypeID") = ints p (str "PIDAlgorithmTypeID") -> (forall n, strings p' (str "ParameterNames_" ++ n) = strings p (str "ParameterNames_" ++ n)) -> describes p' reg).
  { intros p' A1 A2 A3 A4 A5. split; [exact A1|]. split; [exact A2|]. split; [exact C|]. split; [exists l; rewrite A3, A4; auto|]. intros a Ha. rewrite A5. exact (Hp a Ha). }
  destruct c as [k v|k v|k v|k v|k v|k v]; cbn [par_do guarded unguarded fst other_key] in *; apply G; cbn [p_int p_str];
    try assumption; try (apply sm_set_ok; assumption); try reflexivity; unfold strings, ints; cbn [p_int p_str]; intros; rewrite ?sm_get_set by assumption;
    match goal with |- context [if ?b then _ else _] => destruct b eqn:E; [apply bytes_eqb_eq in E; exfalso; symmetry in E|reflexivity] | _ => reflexivity end;
    try (destruct Hk as [K1 K2]; (destruct (K1 E) || destruct (K2 _ E))); destruct (Hk E).
Qed.

Lemma steps_ok ty l : good_type ty -> forall p reg, describes p reg -> other_steps l -> room reg l ->
  exists p', do_steps ty p l = Ok p' /\ describes p' (registered reg l).
Proof.
  intros Ht. induction l as [|s l IH]; intros p reg Hd Ho Hr; cbn [do_steps]; [exists p; auto|]. inversion Ho as [|? ? Hs Hl]; subst.
  unfold room in Hr. cbn [fold_right] in Hr. destruct s as [u adds|c]; cbn [do_step].
  - destruct (open_ok u ty p reg Hd Ht) as (h & E & Hi & Hu). rewrite E. cbn [fst bind].
    destruct (adds_inv adds h reg Hi ltac:(lia)) as (h' & E' & Hi' & Hu'). rewrite E'. cbn [bind]. rewrite Hu in Hu'.
    destruct (describes_ok _ _ Hd) as [Oi Os]. destruct u.
    + apply IH; [apply close_ok; assumption|exact Hl|]. unfold room. pose proof (registers_next adds reg). lia.
    + assert (Ec : close_handler h' p = p) by (unfold close_handler, cpm_save; rewrite Hu'; reflexivity). rewrite Ec. apply IH; [exact Hd|exact Hl|]. unfold room. lia.
  - cbn [bind]. apply IH; [apply other_ok; assumption|exact Hl|]. unfold room. lia.
Qed.

Lemma handler_ok u ty p reg adds : describes p reg -> good_type ty -> next_id reg + Z.of_nat (length adds) <= 2 ^ 31 ->
  exists h h', open_handler u ty p = (Ok h, p) /\ add_algorithms h adds = Ok h' /\ answers h' (fold_left register adds reg) /\ consistent (fold_left register adds reg).
Proof.
  intros Hd Ht Hr. destruct (open_ok u ty p reg Hd Ht) as (h & E & Hi & _). destruct (adds_inv adds h reg Hi Hr) as (h' & E' & Hi' & _).
  exists h, h'. split; [exact E|]. split; [exact E'|]. split; [exact (inv_answers _ _ Hi')|]. destruct Hi' as (_ & _ & _ & _ & _ & _ & _ & _ & C). exact C.
Qed.

Lemma answers_one_to_one h reg : answers h reg -> forall n i, algorithm_id h n = Ok i <-> algorithm_name h i = Ok n.
Proof. intros (A1 & A2 & _) n i. rewrite A1, A2. reflexivity. Qed.

(** ** particle ids *)
Definition of_alg (id : Z) (l : list pid) : list pid := filter (fun x => pi_alg x =? id) l.

Lemma filter_perm {A} (f : A -> bool) l l' : Permutation l l' -> Permutation (filter f l) (filter f l').
Proof.
  intros H. induction H; cbn [filter]; [constructor|destruct (f x); [apply perm_skip|]; assumption| |eapply perm_trans; eassumption].
  destruct (f x); destruct (f y); try apply perm_swap; reflexivity.
Qed.

Lemma replace_none id q l : replace_pid id q l = None -> of_alg id l = [].
Proof.
  unfold of_alg. induction l as [|x l IH]; cbn [replace_pid filter]; [reflexivity|]. destruct (pi_alg x =? id); [discriminate|].
  destruct (replace_pid id q l); [discriminate|exact IH].
Qed.

Lemma replace_some id q l l' : pi_alg q = id -> replace_pid id q l = Some l' ->
  (exists x r, of_alg id l = x :: r /\ of_alg id l' = q :: r) /\ forall j, j <> id -> of_alg j l' = of_alg j l.
Proof.
  intros Eq. revert l'. unfold of_alg. induction l as [|x l IH]; intros l' E; cbn [replace_pid] in E; [discriminate|]. cbn [filter].
  destruct (Z.eqb_spec (pi_alg x) id) as [Ex|Nx].
  - injection E as <-. cbn [filter]. rewrite Eq, Z.eqb_refl. split; [eauto|]. intros j Nj. destruct (Z.eqb_spec id j); [congruence|]. rewrite Ex. destruct (Z.eqb_spec id j); [congruence|reflexivity].
  - destruct (replace_pid id q l) as [l1|] eqn:E1; [|discriminate]. injection E as <-. destruct (IH l1 eq_refl) as [(y & r & R1 & R2) R3]. cbn [filter].
    destruct (Z.eqb_spec (pi_alg x) id); [contradiction|]. split; [eauto|]. intros j Nj. rewrite (R3 j Nj). reflexivity.
Qed.

Lemma one_perm {A} (x : A) l : Permutation [x] l -> l = [x].
Proof. intros H. apply Permutation_length_1_inv. exact H. Qed.

(** one particle id per algorithm *)
Definition single (l : list pid) : Prop := forall id, (length (of_alg id l) <= 1)%nat.

Lemma short_perm {A} (l l' : list A) : Permutation l l' -> (length l <= 1)%nat -> l = l'.
Proof.
  intros P H. destruct l as [|x [|y l]]; cbn in H; [apply Permutation_nil in P; congruence|symmetry; apply one_perm; exact P|lia].
Qed.

Lemma set_pid_ok srt h reg l user pdg like id pars n ps : (forall A f (x : list A), Permutation x (srt A f x)) -> inv h reg -> In (mkA id n ps) reg ->
  Zlen pars = Zlen ps -> single l -> exists l', set_particle_id srt h l user pdg like id pars = Ok l' /\ single l' /\
    get_particle_id h l' id = Ok (mkPID like user pdg id pars) /\
    forall j, j <> id -> of_alg j l' = of_alg j l.
Proof.
  intros Hs Hi Hin Hl Hone. destruct Hi as (O1 & O2 & O3 & M & I & N & X & D & C). assert (G : zm_get id (h_names h) = Some ps) by (apply N; exists n; exact Hin).
  unfold set_particle_id, get_particle_id. rewrite G, Hl, Z.eqb_refl. cbv zeta. set (q := mkPID like user pdg id pars).
  destruct (replace_pid id q l) as [l1|] eqn:E.
  - destruct (replace_some id q l l1 eq_refl E) as [(x & r & R1 & R2) R3]. exists l1. split; [reflexivity|].
    pose proof (Hone id) as H1. rewrite R1 in H1. destruct r; [|cbn in H1; lia]. split; [|split].
    + intros j. destruct (Z.eq_dec j id) as [->|Nj]; [rewrite R2; cbn; lia|rewrite R3 by exact Nj; apply Hone].
    + unfold of_alg in R2. rewrite R2. reflexivity.
    + exact R3.
  - pose proof (replace_none _ _ _ E) as E0. exists (srt pid pi_like (l ++ [q])). split; [reflexivity|].
    assert (F : forall j, Permutation (of_alg j (l ++ [q])) (of_alg j (srt pid pi_like (l ++ [q])))) by (intros j; apply filter_perm; apply Hs).
    assert (Fid : of_alg id (l ++ [q]) = [q]). { unfold of_alg in *. rewrite filter_app, E0. cbn [filter app]. change (pi_alg q) with id. rewrite Z.eqb_refl. reflexivity. }
    assert (Fj : forall j, j <> id -> of_alg j (l ++ [q]) = of_alg j l).
    { intros j Nj. unfold of_alg. rewrite filter_app. cbn [filter]. change (pi_alg q) with id. destruct (Z.eqb_spec id j); [congruence|]. apply app_nil_r. }
    assert (Gid : of_alg id (srt pid pi_like (l ++ [q])) = [q]) by (apply one_perm; pose proof (F id) as Q; rewrite Fid in Q; exact Q).
    assert (Gj : forall j, j <> id -> of_alg j (srt pid pi_like (l ++ [q])) = of_alg j l).
    { intros j Nj. rewrite <- (Fj j Nj). symmetry. apply short_perm; [apply F|]. rewrite Fj by exact Nj. apply Hone. }
    split; [|split].
    + intros j. destruct (Z.eq_dec j id) as [->|Nj]; [rewrite Gid; cbn; lia|rewrite Gj by exact Nj; apply Hone].
    + unfold of_alg in Gid. rewrite Gid. reflexivity.
    + exact Gj.
Qed.

Lemma set_pid_bad srt h reg l user pdg like id pars : inv h reg ->
  (forall n ps, In (mkA id n ps) reg -> Zlen pars <> Zlen ps) -> set_particle_id srt h l user pdg like id pars = Throw LException.
Proof.
  intros (O1 & O2 & O3 & M & I & N & X & D & C) H. unfold set_particle_id. destruct (zm_get id (h_names h)) as [ps|] eqn:G; [|reflexivity].
  apply N in G. destruct G as (n & G). specialize (H n ps G). destruct (Z.eqb_spec (Zlen pars) (Zlen ps)); [contradiction|reflexivity].
Qed.

Lemma set_all_ok srt h reg cs : (forall A f (x : list A), Permutation x (srt A f x)) -> inv h reg -> forall l d id n ps,
  In (mkA id n ps) reg -> one_each l -> get_particle_id h l id = Ok d ->
  exists l', set_all srt h l cs = Ok l' /\ one_each l' /\ get_particle_id h l' id = Ok (last_set reg id d cs).
Proof.
  intros Hs Hi. induction cs as [|[[[[user pdg] like] i] pars] cs IH]; intros l d id n ps Hin H1 Hd; cbn [set_all]; [exists l; auto|].
  unfold last_set. cbn [fold_left]. destruct (accepted reg (user, pdg, like, i, pars)) eqn:A.
  - unfold accepted in A. apply existsb_exists in A. destruct A as ([i' n' ps'] & Ha & A). cbn [a_id a_pars] in A. apply andb_prop in A. destruct A as [A1 A2].
    apply Z.eqb_eq in A1, A2. subst i'. destruct (set_pid_ok srt h reg l user pdg like i pars n' ps' Hs Hi Ha (eq_sym A2) H1) as (l' & E & S & G & R).
    rewrite E. cbn [andb]. refine (IH l' _ id n ps Hin S _). destruct (Z.eqb_spec i id) as [->|Ni]; [exact G|].
    unfold get_particle_id in *. destruct (zm_get id (h_names h)); [|exact Hd]. specialize (R id ltac:(congruence)). unfold of_alg in R. rewrite R. exact Hd.
  - cbn [andb]. rewrite (set_pid_bad srt h reg l user pdg like i pars Hi).
    + exact (IH l d id n ps Hin H1 Hd).
    + intros n' ps' Ha E. unfold accepted in A. assert (existsb (fun a => (a_id a =? i) && (Zlen (a_pars a) =? Zlen pars)) reg = true); [|congruence].
      apply existsb_exists. exists (mkA i n' ps'). split; [exact Ha|]. cbn [a_id a_pars]. rewrite Z.eqb_refl, E, Z.eqb_refl. reflexivity.
Qed.

Lemma pids_ok srt u ty p reg adds cs : (forall A f (x : list A), Permutation x (srt A f x)) -> describes p reg -> good_type ty ->
  next_id reg + Z.of_nat (length adds) <= 2 ^ 31 ->
  exists h h', open_handler u ty p = (Ok h, p) /\ add_algorithms h adds = Ok h' /\
    exists l', set_all srt h' [] cs = Ok l' /\ one_each l' /\
      forall id n ps, In (mkA id n ps) (fold_left register adds reg) ->
        get_particle_id h' l' id = Ok (last_set (fold_left register adds reg) id (mkPID 0 0 0 0 []) cs).
Proof.
  intros Hs Hd Ht Hr. destruct (open_ok u ty p reg Hd Ht) as (h & E & Hi & _). destruct (adds_inv adds h reg Hi Hr) as (h' & E' & Hi' & _).
  exists h, h'. split; [exact E|]. split; [exact E'|]. set (R := fold_left register adds reg) in *.
  assert (H0 : one_each []) by (intros i; cbn; lia).
  assert (G : exists l', set_all srt h' [] cs = Ok l' /\ one_each l').
  { clear - Hs Hi' H0. revert H0. generalize (@nil pid) as l. induction cs as [|[[[[user pdg] like] i] pars] cs IH]; intros l H0; cbn [set_all]; [eauto|].
    destruct (accepted R (user, pdg, like, i, pars)) eqn:A.
    - unfold accepted in A. apply existsb_exists in A. destruct A as ([i' n' ps'] & Ha & A). cbn [a_id a_pars] in A. apply andb_prop in A. destruct A as [A1 A2].
      apply Z.eqb_eq in A1, A2. subst i'. destruct (set_pid_ok srt h' R l user pdg like i pars n' ps' Hs Hi' Ha (eq_sym A2) H0) as (l' & E & S & _). rewrite E. exact (IH l' S).
    - rewrite (set_pid_bad srt h' R l user pdg like i pars Hi'); [exact (IH l H0)|].
      intros n' ps' Ha E. unfold accepted in A. assert (existsb (fun a => (a_id a =? i) && (Zlen (a_pars a) =? Zlen pars)) R = true); [|congruence].
      apply existsb_exists. exists (mkA i n' ps'). split; [exact Ha|]. cbn [a_id a_pars]. rewrite Z.eqb_refl, E, Z.eqb_refl. reflexivity. }
  destruct G as (l' & G1 & G2). exists l'. split; [exact G1|]. split; [exact G2|]. intros id n ps Hin.
  assert (D0 : get_particle_id h' [] id = Ok (mkPID 0 0 0 0 [])).
  { unfold get_particle_id. destruct Hi' as (O1 & O2 & O3 & M & I & N & X & D & C). assert (Z0 : zm_get id (h_names h') = Some ps) by (apply N; exists n; exact Hin). rewrite Z0. reflexivity. }
  destruct (set_all_ok srt h' R cs Hs Hi' [] _ id n ps Hin H0 D0) as (l2 & E2 & _ & E3). rewrite G1 in E2. injection E2 as <-. exact E3.
Qed.

(** ** Parameters that describe no algorithms *)

Lemma init_dup p : forall l h, zm_ok (h_names h) ->
  (exists id, In id (map snd l) /\ zm_get id (h_names h) <> None) \/ ~ NoDup (map snd l) -> init_loop p l h = Throw LException.
Proof.
  induction l as [|[name id] l IH]; intros h O H; cbn [map init_loop snd] in *.
  - destruct H as [(id & [] & _)|H]; destruct H. constructor.
  - destruct (zm_get id (h_names h)) eqn:G; [reflexivity|]. apply IH; [apply zm_set_ok; exact O|]. cbn [h_names].
    destruct (in_dec Z.eq_dec id (map snd l)) as [Hin|Hni].
    + left. exists id. split; [exact Hin|]. rewrite zm_get_set by exact O. rewrite Z.eqb_refl. discriminate.
    + destruct H as [(x & [E|Hx] & Hg)|H].
      * subst x. contradiction.
      * left. exists x. split; [exact Hx|]. rewrite zm_get_set by exact O. destruct (x =? id); [discriminate|exact Hg].
      * right. intros N. apply H. constructor; assumption.
Qed.
Lemma algos_of names : forall ids, length names = length ids -> exists l, map a_name l = names /\ map a_id l = ids.
Proof.
  induction names as [|n names IH]; intros [|i ids] H; try discriminate H; [exists []; split; reflexivity|].
  cbn [length] in H. injection H as H. destruct (IH ids H) as (l & <- & <-). exists (mkA i n [] :: l). split; reflexivity.
Qed.
Lemma open_bad u ty p :
  length (strings p (str "PIDAlgorithmTypeName")) <> length (ints p (str "PIDAlgorithmTypeID")) \/
  (NoDup (strings p (str "PIDAlgorithmTypeName")) /\ ~ NoDup (ints p (str "PIDAlgorithmTypeID"))) ->
  fst (open_handler u ty p) = Throw LException.
Proof.
  intros H. unfold open_handler, cpm_init.
  change (par_vals (p_str p) k_names []) with (strings p (str "PIDAlgorithmTypeName")). change (par_vals (p_int p) k_ids []) with (ints p (str "PIDAlgorithmTypeID")).
  generalize dependent (ints p (str "PIDAlgorithmTypeID")). generalize (strings p (str "PIDAlgorithmTypeName")). intros names ids H.
  destruct (Z.eqb_spec (Zlen names) (Zlen ids)) as [E|E]; [|reflexivity]. unfold Zlen in E. apply Nat2Z.inj in E.
  destruct H as [H|[H1 H2]]; [contradiction|]. destruct (algos_of names ids E) as (l & <- & <-).
  destruct (cpm_ok l [] ltac:(constructor) H1) as (d & Ed & _ & P). cbn [app map] in P, Ed. rewrite Ed.
  rewrite (init_dup p (map entry d)); [reflexivity|constructor|]. right. rewrite map_map. intros N. apply H2.
  refine (Permutation_NoDup (Permutation_sym (Permutation_map a_id P)) _). exact N.
Qed.
