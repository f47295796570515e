(** * Facts about the attributes of the IMPL classes *)
From Coq Require Import ZArith List Bool Lia.
From Verif Require Import Bytes SioModel ObjModel FlagModel FlagSpec FlagProofs ImplModel AttrModel AttrSpec.
Import ListNotations.
Open Scope Z_scope.

(** ** Bits *)
Definition one_changed (i : Z) (b : bool) (q q' : Z) : Prop :=
  (forall k, 0 <= k < 32 -> Z.testbit q' k = if k =? i then b else Z.testbit q k) /\ (is_i32 q -> is_i32 q').
Lemma quality_changed q i b q' : set_quality_bit false q i b = Ok q' -> one_changed i b q q'.
Proof.
  unfold set_quality_bit. intros H. assert (R : 0 <= i <= 31).
  { unfold one_bit in H. destruct (0 <=? i) eqn:E1; [|discriminate H]. destruct (i <? 32) eqn:E2; [|discriminate H].
    apply Z.leb_le in E1. apply Z.ltb_lt in E2. lia. }
  destruct (one_bit_ok i R) as (m & E & Hm & Hb). rewrite E in H. cbn [bind] in H. injection H as <-.
  split.
  - intros k Hk. destruct b; [rewrite Z.lor_spec|rewrite Z.land_spec, Z.lnot_spec by lia]; rewrite Hb by exact Hk; destruct (k =? i); cbn.
    + apply orb_true_r.
    + apply orb_false_r.
    + apply andb_false_r.
    + apply andb_true_r.
  - intros Hq. destruct b; [apply i32_lor; assumption|apply i32_land; [assumption|apply i32_lnot; assumption]].
Qed.
Lemma masked_changed q i b : 0 <= i < 32 ->
  one_changed i b q (s32 (if b then Z.lor (bitset_of q) (Z.shiftl 1 i) else Z.land (bitset_of q) (Z.lnot (Z.shiftl 1 i)))).
Proof.
  intros Hi. split; [|intros _; apply s32_range].
  intros k Hk. rewrite s32_bits by exact Hk.
  destruct b; [rewrite Z.lor_spec|rewrite Z.land_spec, Z.lnot_spec by lia]; rewrite pow2_bit by lia; rewrite bitset_of_bits by exact Hk;
    destruct (k =? i); cbn.
  - apply orb_true_r.
  - apply orb_false_r.
  - apply andb_false_r.
  - apply andb_true_r.
Qed.
Lemma bitset_changed q i b w : bitset_set (bitset_of q) i b = Ok w -> one_changed i b q (bitset_int w).
Proof.
  unfold bitset_set. destruct ((0 <=? i) && (i <? 32)) eqn:E; [|discriminate]. intros H. injection H as <-.
  apply andb_true_iff in E. destruct E as [E1 E2]. apply Z.leb_le in E1. apply Z.ltb_lt in E2.
  apply masked_changed. lia.
Qed.
Lemma sim_changed q b v : one_changed (sim_index b) v q (sim_status (sim_set (bitset_of q) b v)).
Proof. apply masked_changed. destruct b; cbn; lia. Qed.
Lemma sim_value v : is_i32 v -> sim_status (bitset_of v) = v.
Proof.
  intros H. apply Z.bits_inj_iff'. intros n Hn. unfold sim_status.
  assert (L : forall k, 0 <= k < 32 -> Z.testbit (s32 (bitset_of v)) k = Z.testbit v k).
  { intros k Hk. rewrite s32_bits by exact Hk. apply bitset_of_bits. exact Hk. }
  destruct (Z_lt_ge_dec n 32) as [Hl|Hg]; [apply L; lia|].
  rewrite (i32_high (s32 _)) by (try apply s32_range; lia). rewrite (i32_high v) by (assumption || lia). apply L. lia.
Qed.

(** ** Lists *)
Lemma arr_ok n v a : arr n v = Ok a -> a = firstn n v /\ (n <= length v)%nat.
Proof. unfold arr. destruct (Nat.leb_spec n (length v)); [|discriminate]. intros E. injection E as <-. auto. Qed.
Lemma arr_iff n v : (exists a, arr n v = Ok a) <-> (n <= length v)%nat.
Proof.
  unfold arr. destruct (Nat.leb_spec n (length v)) as [H|H]; split; intros K.
  - exact H.
  - eexists. reflexivity.
  - destruct K as [a K]. discriminate K.
  - lia.
Qed.
Lemma add_short_effect fadd l p en t :
  (~ In p (map co_part l) /\ add_short fadd l p en t = l ++ [mkCont p en t 0 0 [0; 0; 0]]) \/
  (exists l1 c l2, l = l1 ++ c :: l2 /\ ~ In p (map co_part l1) /\ co_part c = p /\
     add_short fadd l p en t = l1 ++ mkCont p (fadd (co_energy c) en) (co_time c) (co_length c) (co_pdg c) (co_pos c) :: l2).
Proof.
  induction l as [|c l IH]; cbn [add_short map In].
  - left. split; [intros []|reflexivity].
  - destruct (Z.eqb_spec (co_part c) p) as [E|N].
    + right. exists [], c, l. rewrite E. split; [reflexivity|]. split; [intros []|]. split; reflexivity.
    + destruct IH as [[H1 H2]|(l1 & d & l2 & H1 & H2 & H3 & H4)].
      * left. split; [intros [G|G]; [exact (N G)|exact (H1 G)]|]. rewrite H2. reflexivity.
      * right. exists (c :: l1), d, l2. split; [rewrite H1; reflexivity|]. split; [intros [G|G]; [exact (N G)|exact (H2 G)]|].
        split; [exact H3|]. rewrite H4. reflexivity.
Qed.
Lemma zlen_nat {A} (l : list A) : Zlen l = Z.of_nat (length l).
Proof. reflexivity. Qed.
Lemma resize_length l n : length (resize l n) = Z.to_nat n.
Proof. unfold resize. rewrite app_length, firstn_length, repeat_length. lia. Qed.
Lemma resize_nth l n k : (k < Z.to_nat n)%nat -> nth k (resize l n) 0 = nth k l 0.
Proof.
  intros H. unfold resize. destruct (Nat.lt_ge_cases k (length l)) as [L|G].
  - rewrite app_nth1 by (rewrite firstn_length; lia). rewrite <- (firstn_skipn (Z.to_nat n) l) at 2.
    rewrite app_nth1 by (rewrite firstn_length; lia). reflexivity.
  - rewrite app_nth2 by (rewrite firstn_length; lia). rewrite (nth_overflow l) by lia. apply nth_repeat.
Qed.
Lemma put_nth (l : list Z) i v k : (i < length l)%nat -> (k < length l)%nat ->
  nth k (firstn i l ++ v :: skipn (S i) l) 0 = if Nat.eqb k i then v else nth k l 0.
Proof.
  intros Hi Hk. assert (L : length (firstn i l) = i) by (rewrite firstn_length; lia).
  destruct (Nat.eqb_spec k i) as [->|N].
  - rewrite app_nth2 by lia. rewrite L, Nat.sub_diag. reflexivity.
  - destruct (Nat.lt_ge_cases k i) as [A|B].
    + rewrite app_nth1 by lia. rewrite <- (firstn_skipn i l) at 2. rewrite app_nth1 by lia. reflexivity.
    + rewrite app_nth2 by lia. rewrite L. replace (k - i)%nat with (S (k - S i)) by lia. cbn [nth].
      rewrite <- (firstn_skipn (S i) l) at 2. assert (L2 : length (firstn (S i) l) = S i) by (rewrite firstn_length; lia).
      rewrite app_nth2 by lia. rewrite L2. reflexivity.
Qed.
Lemma put_length (l : list Z) i v : (i < length l)%nat -> length (firstn i l ++ v :: skipn (S i) l) = length l.
Proof. intros H. rewrite app_length. cbn [length]. rewrite firstn_length, skipn_length. lia. Qed.
Lemma go_put_effect fixed l i v l' : 0 <= i < two32 -> go_put fixed l i v = Ok l' ->
  Zlen l' = Z.max (Zlen l) (i + 1) /\
  (forall k, 0 <= k < Zlen l' -> nth (Z.to_nat k) l' 0 = if k =? i then v else nth (Z.to_nat k) l 0) /\
  (i < Zlen l \/ (fixed = false /\ i < two32 - 1)).
Proof.
  intros Hi H. unfold go_put in H.
  assert (EQ : forall k, 0 <= k -> (Z.to_nat k =? Z.to_nat i)%nat = (k =? i)).
  { intros k Hk. destruct (Z.eqb_spec k i) as [->|N]; [apply Nat.eqb_refl|apply Nat.eqb_neq; lia]. }
  destruct ((Zlen l <=? i) && negb fixed) eqn:E.
  - apply andb_true_iff in E. destruct E as [E1 E2]. apply Z.leb_le in E1. apply negb_true_iff in E2. subst fixed.
    destruct (Z.eq_dec i (two32 - 1)) as [->|N].
    { exfalso. revert H. replace (u32 (two32 - 1 + 1)) with 0 by (unfold u32; rewrite Z.sub_add; symmetry; apply Z.mod_same; discriminate).
      rewrite (zlen_nat (resize l 0)), resize_length. cbn [Z.to_nat]. destruct (Z.ltb_spec (two32 - 1) (Z.of_nat 0)); [|discriminate].
      unfold two32 in *. lia. }
    assert (U : u32 (i + 1) = i + 1) by (unfold u32; apply Z.mod_small; lia). rewrite U in H.
    rewrite (zlen_nat (resize l (i + 1))), resize_length in H. destruct (Z.ltb_spec i (Z.of_nat (Z.to_nat (i + 1)))); [|lia].
    injection H as <-. rewrite !zlen_nat in *. rewrite put_length by (rewrite resize_length; lia). rewrite resize_length.
    split; [lia|]. split; [|right; split; [reflexivity|lia]].
    intros k Hk. rewrite put_nth by (rewrite resize_length; lia). rewrite EQ by lia. rewrite resize_nth by lia. reflexivity.
  - destruct (Z.ltb_spec i (Zlen l)) as [L|G]; [|discriminate H]. injection H as <-. rewrite !zlen_nat in *.
    rewrite put_length by lia. split; [lia|]. split; [|left; lia].
    intros k Hk. rewrite put_nth by lia. rewrite EQ by lia. reflexivity.
Qed.
Lemma go_put_succeeds fixed l i v : 0 <= i < two32 -> i < Zlen l \/ (fixed = false /\ i < two32 - 1) -> exists l', go_put fixed l i v = Ok l'.
Proof.
  intros Hi H. unfold go_put. destruct ((Zlen l <=? i) && negb fixed) eqn:E.
  - apply andb_true_iff in E. destruct E as [E1 E2]. apply Z.leb_le in E1. destruct H as [H|[-> H]]; [lia|].
    assert (U : u32 (i + 1) = i + 1) by (unfold u32; apply Z.mod_small; lia). rewrite U.
    rewrite (zlen_nat (resize l (i + 1))), resize_length. destruct (Z.ltb_spec i (Z.of_nat (Z.to_nat (i + 1)))); [|lia]. eexists. reflexivity.
  - destruct (Z.ltb_spec i (Zlen l)) as [L|G]; [eexists; reflexivity|]. destruct H as [H|[-> H]]; [lia|].
    cbn [negb] in E. rewrite andb_true_r in E. apply Z.leb_gt in E. lia.
Qed.
Lemma with_one_effect l f l' : with_one_state l f = Ok l' ->
  exists t0 t, f t0 = Ok t /\ l' = [t] /\ ((l = [] /\ t0 = new_tstate) \/ l = [t0]).
Proof.
  unfold with_one_state. destruct l as [|t1 [|t2 l]]; [| |discriminate].
  - destruct (f new_tstate) as [t|e|u] eqn:E; try discriminate. cbn [bind]. intros H. injection H as <-. exists new_tstate, t. auto.
  - destruct (f t1) as [t|e|u] eqn:E; try discriminate. cbn [bind]. intros H. injection H as <-. exists t1, t. auto.
Qed.
Lemma bind_ok {A B} (r : Res A) (k : A -> Res B) b : bind r k = Ok b -> exists a, r = Ok a /\ k a = Ok b.
Proof. destruct r; cbn [bind]; try discriminate. eauto. Qed.

(** ** One call *)
Definition step_ok (fadd : Z -> Z -> Z) srt (get get' : attr -> option aval) (effs : list (attr * effect)) : Prop :=
  (forall a, ~ In a (map fst effs) -> get' a = get a) /\ (forall a e, In (a, e) effs -> meets fadd srt get get' a e).

Lemma guarded_ok {A} ro (o : A) r o' : guarded ro o r = (o', Ok tt) -> r = Ok o'.
Proof. unfold guarded, unguarded. destruct ro; [discriminate|]. destruct r; try discriminate. intros H. injection H as <-. reflexivity. Qed.
Lemma unguarded_ok {A} (o : A) r o' : unguarded o r = (o', Ok tt) -> r = Ok o'.
Proof. unfold unguarded. destruct r; try discriminate. intros H. injection H as <-. reflexivity. Qed.
Lemma reading_ok {A B} (o : A) (r : Res B) k x : reading o r k = (x, Ok tt) -> exists b, r = Ok b /\ k b = (x, Ok tt).
Proof. unfold reading. destruct r; try discriminate. eauto. Qed.

Ltac frame := let a := fresh "a" in let H := fresh "H" in
  intros a H; destruct a; try reflexivity; exfalso; apply H; cbn; tauto.
Ltac hit := let a := fresh "a" in let e := fresh "e" in let H := fresh "H" in
  intros a e H; cbn in H;
  repeat match type of H with _ \/ _ => destruct H as [H|H] end; try contradiction H;
  injection H as <- <-; cbn [meets].
Ltac ok_of H := first [apply guarded_ok in H | apply unguarded_ok in H].
Ltac solve_hit :=
  lazymatch goal with
  | |- Some _ = Some _ => reflexivity
  | |- _ = Some _ => reflexivity
  | |- exists _, _ /\ _ => eexists; split; reflexivity
  end.
Ltac plain H := ok_of H; injection H as <-; split; [frame|hit; solve_hit].
Ltac arrays H := ok_of H; let v := fresh "a" in let E := fresh "E" in
  apply bind_ok in H; destruct H as (v & E & H); apply arr_ok in E; destruct E as [-> _]; injection H as <-; split; [frame|hit; solve_hit].
Ltac qbit H := ok_of H; let v := fresh "q" in let E := fresh "E" in
  apply bind_ok in H; destruct H as (v & E & H); injection H as <-; split; [frame|hit];
  eexists; eexists; split; [reflexivity|]; split; [reflexivity|]; first [exact (quality_changed _ _ _ _ E) | exact (bitset_changed _ _ _ _ E)].

Section Steps.
Context (fadd : Z -> Z -> Z) (srt : forall A : Type, (A -> Z) -> list A -> list A).

Lemma ch_step ro o c o' : ch_do ro o c = (o', Ok tt) -> step_ok fadd srt (ch_get o) (ch_get o') (effects (ECH c)).
Proof. intros H. destruct c; cbn [ch_do] in H; first [plain H | arrays H]. Qed.
Lemma rch_step ro o c o' : rch_do ro o c = (o', Ok tt) -> step_ok fadd srt (rch_get o) (rch_get o') (effects (ERCH c)).
Proof. intros H. destruct c; cbn [rch_do] in H; plain H. Qed.
Lemma sch_step ro o c o' : sch_do fadd ro o c = (o', Ok tt) -> step_ok fadd srt (sch_get o) (sch_get o') (effects (ESCH c)).
Proof.
  intros H. destruct c; cbn [sch_do] in H; try first [plain H | arrays H].
  - ok_of H. injection H as <-. split; [frame|]. hit; [solve_hit|]. eexists; eexists. split; [reflexivity|]. split; [reflexivity|]. apply add_short_effect.
  - destruct step as [s|].
    + arrays H.
    + plain H.
Qed.
Lemma sth_step ro o c o' : sth_do ro o c = (o', Ok tt) -> step_ok fadd srt (sth_get o) (sth_get o') (effects (ESTH c)).
Proof.
  intros H. destruct c; cbn [sth_do] in H; try first [plain H | arrays H | qbit H].
  apply reading_ok in H. destruct H as (b & E & H). apply arr_ok in E. destruct E as [-> _]. plain H.
Qed.
Lemma tpc_step ro o c o' : tpc_do ro o c = (o', Ok tt) -> step_ok fadd srt (tpc_get o) (tpc_get o') (effects (ETPC c)).
Proof. intros H. destruct c; cbn [tpc_do] in H; plain H. Qed.
Lemma trd_step ro o c o' : trd_do ro o c = (o', Ok tt) -> step_ok fadd srt (trd_get o) (trd_get o') (effects (ETRD c)).
Proof. intros H. destruct c; cbn [trd_do] in H; plain H. Qed.
Lemma td_step ro o c o' : td_do ro o c = (o', Ok tt) -> step_ok fadd srt (td_get o) (td_get o') (effects (ETD c)).
Proof. intros H. destruct c; cbn [td_do] in H; plain H. Qed.
Lemma tpu_step ro o c o' : tpu_do ro o c = (o', Ok tt) -> step_ok fadd srt (tpu_get o) (tpu_get o') (effects (ETPu c)).
Proof. intros H. destruct c; cbn [tpu_do] in H; first [plain H | arrays H | qbit H]. Qed.
Lemma th_step ro o c o' : th_do ro o c = (o', Ok tt) -> step_ok fadd srt (th_get o) (th_get o') (effects (ETH c)).
Proof. intros H. destruct c; cbn [th_do] in H; first [plain H | arrays H | qbit H]. Qed.
Lemma thp_step ro o c o' : thp_do ro o c = (o', Ok tt) -> step_ok fadd srt (thp_get o) (thp_get o') (effects (ETHP c)).
Proof. intros H. destruct c; cbn [thp_do] in H; first [plain H | arrays H | qbit H]. Qed.
Lemma thz_step ro o c o' : thz_do ro o c = (o', Ok tt) -> step_ok fadd srt (thz_get o) (thz_get o') (effects (ETHZ c)).
Proof. intros H. destruct c; cbn [thz_do] in H; first [plain H | arrays H | qbit H]. Qed.
Lemma cl_step ro o c o' : cl_do srt ro o c = (o', Ok tt) -> step_ok fadd srt (cl_get o) (cl_get o') (effects (ECL c)).
Proof. intros H. destruct c; cbn [cl_do] in H; first [plain H | arrays H | qbit H]. Qed.
Lemma vx_step ro o c o' : vx_do ro o c = (o', Ok tt) -> step_ok fadd srt (vx_get o) (vx_get o') (effects (EVX c)).
Proof.
  intros H. destruct c; cbn [vx_do] in H; try first [plain H | arrays H].
  - ok_of H. injection H as <-. split; [frame|hit]. destruct b; reflexivity.
  - apply reading_ok in H. destruct H as (b & E & H). apply arr_ok in E. destruct E as [-> _]. plain H.
Qed.
Lemma rp_step ro o c o' : rp_do srt ro o c = (o', Ok tt) -> step_ok fadd srt (rp_get o) (rp_get o') (effects (ERP c)).
Proof. intros H. destruct c; cbn [rp_do] in H; first [plain H | arrays H]. Qed.
Ltac simbit H := ok_of H; injection H as <-; split; [frame|hit]; eexists; eexists; split; [reflexivity|]; split; [reflexivity|]; apply sim_changed.
Lemma mc_step ro o c o' : in_range (EMC c) -> mc_do ro o c = (o', Ok tt) -> step_ok fadd srt (mc_get o) (mc_get o') (effects (EMC c)).
Proof.
  intros R H. destruct c; cbn [mc_do] in H; try first [plain H | arrays H].
  - ok_of H. injection H as <-. split; [frame|hit]. cbn [mc_get mc_sim]. rewrite (sim_value v R). reflexivity.
  - ok_of H. apply bind_ok in H. destruct H as (a & E & H). apply arr_ok in E. destruct E as [-> _]. injection H as <-. split; [frame|hit].
    + eexists; eexists; split; [reflexivity|]; split; [reflexivity|]; exact (sim_changed (mc_sim o) BEndpoint true).
    + reflexivity.
  - ok_of H; injection H as <-; split; [frame|hit]; eexists; eexists; split; [reflexivity|]; split; [reflexivity|]; exact (sim_changed (mc_sim o) BCreated b).
  - ok_of H; injection H as <-; split; [frame|hit]; eexists; eexists; split; [reflexivity|]; split; [reflexivity|]; exact (sim_changed (mc_sim o) BBackscatter b).
  - ok_of H; injection H as <-; split; [frame|hit]; eexists; eexists; split; [reflexivity|]; split; [reflexivity|]; exact (sim_changed (mc_sim o) BVertexNotEndpoint b).
  - ok_of H; injection H as <-; split; [frame|hit]; eexists; eexists; split; [reflexivity|]; split; [reflexivity|]; exact (sim_changed (mc_sim o) BTracker b).
  - ok_of H; injection H as <-; split; [frame|hit]; eexists; eexists; split; [reflexivity|]; split; [reflexivity|]; exact (sim_changed (mc_sim o) BCalorimeter b).
  - ok_of H; injection H as <-; split; [frame|hit]; eexists; eexists; split; [reflexivity|]; split; [reflexivity|]; exact (sim_changed (mc_sim o) BLeft b).
  - ok_of H; injection H as <-; split; [frame|hit]; eexists; eexists; split; [reflexivity|]; split; [reflexivity|]; exact (sim_changed (mc_sim o) BStopped b).
  - ok_of H; injection H as <-; split; [frame|hit]; eexists; eexists; split; [reflexivity|]; split; [reflexivity|]; exact (sim_changed (mc_sim o) BOverlay b).
Qed.
Lemma rel_step ro o c o' : rel_do ro o c = (o', Ok tt) -> step_ok fadd srt (rel_get o) (rel_get o') (effects (EREL c)).
Proof. intros H. destruct c; cbn [rel_do] in H; plain H. Qed.
Lemma go_step ro o c o' : in_range (EGO c) -> go_do ro o c = (o', Ok tt) -> step_ok fadd srt (go_get o) (go_get o') (effects (EGO c)).
Proof.
  intros R H. destruct c; cbn [go_do] in H; cbn [in_range] in R; ok_of H; apply bind_ok in H; destruct H as (l & E & H); injection H as <-;
    destruct (go_put_effect _ _ _ _ _ R E) as (A & B & _); (split; [frame|hit]);
    eexists; exists l; (split; [reflexivity|]); (split; [reflexivity|]); (split; [exact A|exact B]).
Qed.
Ltac one_state H := ok_of H; let l := fresh "l" in let E := fresh "E" in
  apply bind_ok in H; destruct H as (l & E & H); injection H as <-;
  apply with_one_effect in E; destruct E as (t0 & t & F & -> & D);
  injection F as <-; destruct D as [[-> ->] | ->];
  (split; [frame|hit; [eexists; eexists; split; [reflexivity|]; split; reflexivity|reflexivity]]).
Lemma trk_step ro o c o' : trk_do ro o c = (o', Ok tt) -> step_ok fadd srt (trk_get o) (trk_get o') (effects (ETRK c)).
Proof.
  intros H. destruct o as [ty states chi2 ndf dedx dedxerr radius hitnums tracks hits].
  destruct c; cbn [trk_do tr_type tr_states tr_chi2 tr_ndf tr_dedx tr_dedxerr tr_radius tr_hitnums tr_tracks tr_hits] in H.
  - qbit H.
  - plain H.
  - one_state H.
  - one_state H.
  - one_state H.
  - one_state H.
  - one_state H.
  - ok_of H. apply bind_ok in H. destruct H as (l & E & H). injection H as <-.
    apply with_one_effect in E. destruct E as (t0 & t & F & -> & D).
    apply bind_ok in F. destruct F as (a & G & F). apply arr_ok in G. destruct G as [-> G].
    destruct (Nat.leb_spec 15 (length (ts_cov t0))) as [L|L]; [|discriminate F]. injection F as <-.
    assert (X : exists l0 l1 l2, ts_cov t0 = l0 /\ l0 = l1 ++ l2 /\ length l1 = length (firstn 15 v) /\ l2 = skipn 15 (ts_cov t0)).
    { exists (ts_cov t0), (firstn 15 (ts_cov t0)), (skipn 15 (ts_cov t0)). split; [reflexivity|]. split; [symmetry; apply firstn_skipn|].
      split; [rewrite !firstn_length_le by assumption; reflexivity|reflexivity]. }
    destruct X as (l0 & l1 & l2 & X1 & X2 & X3 & X4).
    destruct D as [[-> ->] | ->]; (split; [frame|]).
    + intros a e I. cbn [effects In] in I. destruct I as [I|[I|[]]]; injection I as <- <-; cbn [meets].
      * eexists; eexists; split; [reflexivity|]; split; reflexivity.
      * exists l0, l1, l2. split; [rewrite <- X1; reflexivity|]. split; [exact X2|]. split; [exact X3|]. rewrite X4. reflexivity.
    + intros a e I. cbn [effects In] in I. destruct I as [I|[I|[]]]; injection I as <- <-; cbn [meets].
      * eexists; eexists; split; [reflexivity|]; split; reflexivity.
      * exists l0, l1, l2. split; [rewrite <- X1; reflexivity|]. split; [exact X2|]. split; [exact X3|]. rewrite X4. reflexivity.
  - ok_of H. apply bind_ok in H. destruct H as (l & E & H). injection H as <-.
    apply with_one_effect in E. destruct E as (t0 & t & F & -> & D).
    apply bind_ok in F. destruct F as (a & G & F). apply arr_ok in G. destruct G as [-> G]. injection F as <-.
    destruct D as [[-> ->] | ->];
    (split; [frame|hit; [eexists; eexists; split; [reflexivity|]; split; reflexivity|reflexivity]]).
  - plain H.
  - plain H.
  - plain H.
  - plain H.
  - plain H.
  - plain H.
  - ok_of H. apply bind_ok in H. destruct H as (l & E & H). injection H as <-.
    unfold add_track_state in E. destruct (negb _ && _); [discriminate E|]. injection E as <-.
    split; [frame|hit].
    + eexists. split; reflexivity.
    + eexists. split; [reflexivity|]. cbn [trk_get first_state tr_states]. destruct (states ++ [v]) eqn:Q; unfold first_state; cbn [tr_states]; reflexivity.
    + eexists. split; [reflexivity|]. cbn [trk_get first_state tr_states]. destruct (states ++ [v]) eqn:Q; unfold first_state; cbn [tr_states]; reflexivity.
    + eexists. split; [reflexivity|]. cbn [trk_get first_state tr_states]. destruct (states ++ [v]) eqn:Q; unfold first_state; cbn [tr_states]; reflexivity.
    + eexists. split; [reflexivity|]. cbn [trk_get first_state tr_states]. destruct (states ++ [v]) eqn:Q; unfold first_state; cbn [tr_states]; reflexivity.
    + eexists. split; [reflexivity|]. cbn [trk_get first_state tr_states]. destruct (states ++ [v]) eqn:Q; unfold first_state; cbn [tr_states]; reflexivity.
    + eexists. split; [reflexivity|]. cbn [trk_get first_state tr_states]. destruct (states ++ [v]) eqn:Q; unfold first_state; cbn [tr_states]; reflexivity.
    + eexists. split; [reflexivity|]. cbn [trk_get first_state tr_states]. destruct (states ++ [v]) eqn:Q; unfold first_state; cbn [tr_states]; reflexivity.
  - ok_of H. injection H as <-. split; [frame|hit]; try reflexivity; (eexists; split; [reflexivity|]; destruct v; reflexivity).
  - plain H.
  - plain H.
  - ok_of H. injection H as <-. split; [frame|hit]; try reflexivity; try (eexists; split; reflexivity);
      (eexists; split; [reflexivity|]; cbn [trk_get]; unfold first_state; cbn [tr_states]; destruct (states ++ tr_states v) eqn:Q; reflexivity).
  - ok_of H. apply bind_ok in H. destruct H as (l & E & H). injection H as <-.
    destruct (nth_error states i) as [t|] eqn:N; [|discriminate E]. injection E as <-.
    assert (SP : states = firstn i states ++ t :: skipn (S i) states).
    { clear -N. revert i N. induction states as [|x r IH]; intros [|i] N; try discriminate N.
      - injection N as ->. reflexivity.
      - cbn [firstn skipn app]. f_equal. apply IH. exact N. }
    assert (LN : length (firstn i states) = i).
    { apply firstn_length_le. apply Nat.lt_le_incl. apply nth_error_Some. rewrite N. discriminate. }
    split.
    + intros a I. destruct a; try reflexivity; try (exfalso; apply I; cbn; tauto);
        cbn [trk_get]; unfold first_state; cbn [tr_states]; rewrite SP at 3; destruct (firstn i states); reflexivity.
    + hit. eexists; exists t; eexists. split; [cbn [trk_get tr_states]; rewrite SP at 1; reflexivity|]. split; [exact LN|reflexivity].
Qed.
End Steps.

(** ** Calls on any object *)
Lemma vec_step fadd srt v v' : step_ok fadd srt (vec_get v) (vec_get v') [(AValues, ESet v')].
Proof. split; [frame|]. intros a e [H|[]]. injection H as <- <-. reflexivity. Qed.

Ltac on_class H L :=
  let x' := fresh "x'" in let r := fresh "r" in let E := fresh "E" in
  match type of H with context [let (_, _) := ?d in _] => destruct d as [x' r] eqn:E end;
  injection H as <- ->; split; [first [exact (L _ _ _ _ _ _ E) | eapply L; eassumption]|split; reflexivity].
Lemma obj_step fadd srt ro o e o' : in_range e -> obj_do fadd srt ro o e = (o', Ok tt) ->
  step_ok fadd srt (obj_get o) (obj_get o') (effects e) /\ type_of o' = type_of o /\ call_class e = type_of o.
Proof.
  intros R H. destruct o, e; cbn [obj_do] in H; try discriminate H.
  - on_class H mc_step.
  - on_class H sch_step.
  - on_class H rch_step.
  - on_class H ch_step.
  - on_class H sth_step.
  - on_class H tpc_step.
  - on_class H trd_step.
  - on_class H td_step.
  - on_class H tpu_step.
  - on_class H th_step.
  - on_class H thp_step.
  - on_class H thz_step.
  - on_class H trk_step.
  - on_class H cl_step.
  - on_class H rp_step.
  - on_class H rel_step.
  - on_class H vx_step.
  - destruct c; try discriminate H. injection H as <-. split; [apply vec_step|split; reflexivity].
  - destruct c; try discriminate H. injection H as <-. split; [apply vec_step|split; reflexivity].
  - destruct c; try discriminate H. injection H as <-. split; [apply vec_step|split; reflexivity].
  - on_class H go_step.
Qed.

(** *** a call that fails changes nothing *)
Lemma unguarded_fst {A} (o : A) r : snd (unguarded o r) <> Ok tt -> fst (unguarded o r) = o.
Proof. unfold unguarded. destruct r; cbn; intros H; try reflexivity. exfalso. apply H. reflexivity. Qed.
Lemma guarded_fst {A} ro (o : A) r : snd (guarded ro o r) <> Ok tt -> fst (guarded ro o r) = o.
Proof. unfold guarded. destruct ro; [reflexivity|]. apply unguarded_fst. Qed.
Lemma reading_fst {A B} (o : A) (r : Res B) k : (forall b, snd (k b) <> Ok tt -> fst (k b) = o) -> snd (reading o r k) <> Ok tt -> fst (reading o r k) = o.
Proof. unfold reading. destruct r; auto. Qed.
Ltac kept := intros; first [apply unguarded_fst; assumption | apply guarded_fst; assumption
  | apply reading_fst; [intros; apply guarded_fst; assumption|assumption]].
Section Kept.
Context (fadd : Z -> Z -> Z) (srt : forall A : Type, (A -> Z) -> list A -> list A).
Lemma ch_kept ro o c : snd (ch_do ro o c) <> Ok tt -> fst (ch_do ro o c) = o. Proof. destruct c; cbn [ch_do]; kept. Qed.
Lemma rch_kept ro o c : snd (rch_do ro o c) <> Ok tt -> fst (rch_do ro o c) = o. Proof. destruct c; cbn [rch_do]; kept. Qed.
Lemma sch_kept ro o c : snd (sch_do fadd ro o c) <> Ok tt -> fst (sch_do fadd ro o c) = o. Proof. destruct c; cbn [sch_do]; kept. Qed.
Lemma sth_kept ro o c : snd (sth_do ro o c) <> Ok tt -> fst (sth_do ro o c) = o. Proof. destruct c; cbn [sth_do]; kept. Qed.
Lemma tpc_kept ro o c : snd (tpc_do ro o c) <> Ok tt -> fst (tpc_do ro o c) = o. Proof. destruct c; cbn [tpc_do]; kept. Qed.
Lemma trd_kept ro o c : snd (trd_do ro o c) <> Ok tt -> fst (trd_do ro o c) = o. Proof. destruct c; cbn [trd_do]; kept. Qed.
Lemma td_kept ro o c : snd (td_do ro o c) <> Ok tt -> fst (td_do ro o c) = o. Proof. destruct c; cbn [td_do]; kept. Qed.
Lemma tpu_kept ro o c : snd (tpu_do ro o c) <> Ok tt -> fst (tpu_do ro o c) = o. Proof. destruct c; cbn [tpu_do]; kept. Qed.
Lemma th_kept ro o c : snd (th_do ro o c) <> Ok tt -> fst (th_do ro o c) = o. Proof. destruct c; cbn [th_do]; kept. Qed.
Lemma thp_kept ro o c : snd (thp_do ro o c) <> Ok tt -> fst (thp_do ro o c) = o. Proof. destruct c; cbn [thp_do]; kept. Qed.
Lemma thz_kept ro o c : snd (thz_do ro o c) <> Ok tt -> fst (thz_do ro o c) = o. Proof. destruct c; cbn [thz_do]; kept. Qed.
Lemma trk_kept ro o c : snd (trk_do ro o c) <> Ok tt -> fst (trk_do ro o c) = o. Proof. destruct c; cbn [trk_do]; kept. Qed.
Lemma cl_kept ro o c : snd (cl_do srt ro o c) <> Ok tt -> fst (cl_do srt ro o c) = o. Proof. destruct c; cbn [cl_do]; kept. Qed.
Lemma vx_kept ro o c : snd (vx_do ro o c) <> Ok tt -> fst (vx_do ro o c) = o. Proof. destruct c; cbn [vx_do]; kept. Qed.
Lemma rp_kept ro o c : snd (rp_do srt ro o c) <> Ok tt -> fst (rp_do srt ro o c) = o. Proof. destruct c; cbn [rp_do]; kept. Qed.
Lemma mc_kept ro o c : snd (mc_do ro o c) <> Ok tt -> fst (mc_do ro o c) = o. Proof. destruct c; cbn [mc_do]; kept. Qed.
Lemma rel_kept ro o c : snd (rel_do ro o c) <> Ok tt -> fst (rel_do ro o c) = o. Proof. destruct c; cbn [rel_do]; kept. Qed.
Lemma go_kept ro o c : snd (go_do ro o c) <> Ok tt -> fst (go_do ro o c) = o. Proof. destruct c; cbn [go_do]; kept. Qed.
Lemma through {A} (C : A -> obj) (d : A * Res unit) (x : A) : (snd d <> Ok tt -> fst d = x) ->
  snd (let (x', r) := d in (C x', r)) <> Ok tt -> fst (let (x', r) := d in (C x', r)) = C x.
Proof. destruct d as [x' r]. cbn [fst snd]. intros K H. rewrite (K H). reflexivity. Qed.
Lemma obj_kept ro o e : snd (obj_do fadd srt ro o e) <> Ok tt -> fst (obj_do fadd srt ro o e) = o.
Proof.
  destruct o, e; cbn [obj_do]; try (intros _; reflexivity).
  - apply through, mc_kept.
  - apply through, sch_kept.
  - apply through, rch_kept.
  - apply through, ch_kept.
  - apply through, sth_kept.
  - apply through, tpc_kept.
  - apply through, trd_kept.
  - apply through, td_kept.
  - apply through, tpu_kept.
  - apply through, th_kept.
  - apply through, thp_kept.
  - apply through, thz_kept.
  - apply through, trk_kept.
  - apply through, cl_kept.
  - apply through, rp_kept.
  - apply through, rel_kept.
  - apply through, vx_kept.
  - destruct c; cbn; intros H; try reflexivity. exfalso; apply H; reflexivity.
  - destruct c; cbn; intros H; try reflexivity. exfalso; apply H; reflexivity.
  - destruct c; cbn; intros H; try reflexivity. exfalso; apply H; reflexivity.
  - apply through, go_kept.
Qed.
End Kept.

(** *** which calls succeed *)
Lemma guarded_snd {A} (o : A) r : snd (guarded false o r) = Ok tt <-> exists o', r = Ok o'.
Proof.
  unfold guarded, unguarded. destruct r as [x|e|u]; cbn; split; intros H; try discriminate H; eauto;
    destruct H as [o' H]; discriminate H.
Qed.
Lemma unguarded_snd {A} (o : A) r : snd (unguarded o r) = Ok tt <-> exists o', r = Ok o'.
Proof. exact (guarded_snd o r). Qed.
Lemma reading_snd {A B} (o : A) (r : Res B) k : snd (reading o r k) = Ok tt <-> exists b, r = Ok b /\ snd (k b) = Ok tt.
Proof.
  unfold reading. destruct r as [x|e|u]; cbn; split; intros H; try discriminate H; eauto; destruct H as (b & H1 & H2); try discriminate H1.
  injection H1 as <-. exact H2.
Qed.
Ltac noarg := repeat match goal with |- _ /\ _ => split | |- True => exact Logic.I end; intros; discriminate.
Ltac plainS := first [rewrite guarded_snd | rewrite unguarded_snd]; split; [intros _; noarg|intros _; eexists; reflexivity].
Ltac arrS := first [rewrite guarded_snd | rewrite unguarded_snd]; split;
  [ let o' := fresh in let H := fresh in let a := fresh in let E := fresh in
    intros (o' & H); apply bind_ok in H; destruct H as (a & E & H); apply arr_ok in E; destruct E as [_ E];
    split; [intros n' v' Q; cbn in Q; injection Q as <- <-; exact E|noarg]
  | let S := fresh in intros (S & _); specialize (S _ _ eq_refl); apply arr_iff in S; destruct S as [? ->]; eexists; reflexivity ].
Lemma quality_iff q i b : (exists q', set_quality_bit false q i b = Ok q') <-> 0 <= i <= 31.
Proof.
  unfold set_quality_bit, one_bit. destruct (Z.leb_spec 0 i), (Z.ltb_spec i 32); cbn [andb bind]; split; intros H1; try lia; eauto;
    destruct H1 as [q' H1]; discriminate H1.
Qed.
Lemma bitset_iff q i b : (exists q', bitset_set q i b = Ok q') <-> 0 <= i <= 31.
Proof.
  unfold bitset_set. destruct (Z.leb_spec 0 i), (Z.ltb_spec i 32); cbn [andb bind]; split; intros H1; try lia; eauto;
    destruct H1 as [q' H1]; discriminate H1.
Qed.
Ltac bitS := first [rewrite guarded_snd | rewrite unguarded_snd]; split;
  [ let o' := fresh in let H := fresh in let a := fresh in let E := fresh in
    intros (o' & H); apply bind_ok in H; destruct H as (a & E & H);
    split; [intros; discriminate|]; split; [intros i' Q; cbn in Q; injection Q as <-;
      first [exact (proj1 (quality_iff _ _ _) (ex_intro _ _ E)) | exact (proj1 (bitset_iff _ _ _) (ex_intro _ _ E))]|noarg]
  | let S := fresh in intros (_ & S & _); specialize (S _ eq_refl);
    match goal with
    | |- context [set_quality_bit false ?q ?i ?b] => destruct (proj2 (quality_iff q i b) S) as [? ->]
    | |- context [bitset_set ?q ?i ?b] => destruct (proj2 (bitset_iff q i b) S) as [? ->]
    end; eexists; reflexivity ].
Section Succeeds.
Context (fadd : Z -> Z -> Z) (srt : forall A : Type, (A -> Z) -> list A -> list A).
Lemma ch_succ o c : snd (ch_do false o c) = Ok tt <-> succeeds (ch_get o) (ECH c).
Proof. unfold succeeds. destruct c; cbn [ch_do]; first [plainS | arrS]. Qed.
Lemma rch_succ o c : snd (rch_do false o c) = Ok tt <-> succeeds (rch_get o) (ERCH c).
Proof. unfold succeeds. destruct c; cbn [rch_do]; plainS. Qed.
Lemma sch_succ o c : snd (sch_do fadd false o c) = Ok tt <-> succeeds (sch_get o) (ESCH c).
Proof. unfold succeeds. destruct c; cbn [sch_do]; try first [plainS | arrS]. destruct step; [arrS|plainS]. Qed.
Lemma sth_succ o c : snd (sth_do false o c) = Ok tt <-> succeeds (sth_get o) (ESTH c).
Proof.
  unfold succeeds. destruct c; cbn [sth_do]; try first [plainS | arrS | bitS].
  rewrite reading_snd. split.
  - intros (b & E & _). apply arr_ok in E. destruct E as [_ E]. split; [intros n' v' Q; cbn in Q; injection Q as <- <-; exact E|noarg].
  - intros (S & _). specialize (S _ _ eq_refl). apply arr_iff in S. destruct S as [a S]. exists a. split; [exact S|]. reflexivity.
Qed.
Lemma tpc_succ o c : snd (tpc_do false o c) = Ok tt <-> succeeds (tpc_get o) (ETPC c).
Proof. unfold succeeds. destruct c; cbn [tpc_do]; plainS. Qed.
Lemma trd_succ o c : snd (trd_do false o c) = Ok tt <-> succeeds (trd_get o) (ETRD c).
Proof. unfold succeeds. destruct c; cbn [trd_do]; plainS. Qed.
Lemma td_succ o c : snd (td_do false o c) = Ok tt <-> succeeds (td_get o) (ETD c).
Proof. unfold succeeds. destruct c; cbn [td_do]; plainS. Qed.
Lemma tpu_succ o c : snd (tpu_do false o c) = Ok tt <-> succeeds (tpu_get o) (ETPu c).
Proof. unfold succeeds. destruct c; cbn [tpu_do]; first [plainS | arrS | bitS]. Qed.
Lemma th_succ o c : snd (th_do false o c) = Ok tt <-> succeeds (th_get o) (ETH c).
Proof. unfold succeeds. destruct c; cbn [th_do]; first [plainS | arrS | bitS]. Qed.
Lemma thp_succ o c : snd (thp_do false o c) = Ok tt <-> succeeds (thp_get o) (ETHP c).
Proof. unfold succeeds. destruct c; cbn [thp_do]; first [plainS | arrS | bitS]. Qed.
Lemma thz_succ o c : snd (thz_do false o c) = Ok tt <-> succeeds (thz_get o) (ETHZ c).
Proof. unfold succeeds. destruct c; cbn [thz_do]; first [plainS | arrS | bitS]. Qed.
Lemma cl_succ o c : snd (cl_do srt false o c) = Ok tt <-> succeeds (cl_get o) (ECL c).
Proof. unfold succeeds. destruct c; cbn [cl_do]; first [plainS | arrS | bitS]. Qed.
Lemma vx_succ o c : snd (vx_do false o c) = Ok tt <-> succeeds (vx_get o) (EVX c).
Proof.
  unfold succeeds. destruct c; cbn [vx_do]; try first [plainS | arrS | bitS].
  rewrite reading_snd. split.
  - intros (b & E & _). apply arr_ok in E. destruct E as [_ E]. split; [intros n' v' Q; cbn in Q; injection Q as <- <-; exact E|noarg].
  - intros (S & _). specialize (S _ _ eq_refl). apply arr_iff in S. destruct S as [a S]. exists a. split; [exact S|]. reflexivity.
Qed.
Lemma rp_succ o c : snd (rp_do srt false o c) = Ok tt <-> succeeds (rp_get o) (ERP c).
Proof. unfold succeeds. destruct c; cbn [rp_do]; first [plainS | arrS | bitS]. Qed.
Lemma mc_succ o c : snd (mc_do false o c) = Ok tt <-> succeeds (mc_get o) (EMC c).
Proof. unfold succeeds. destruct c; cbn [mc_do]; first [plainS | arrS]. Qed.
Lemma rel_succ o c : snd (rel_do false o c) = Ok tt <-> succeeds (rel_get o) (EREL c).
Proof. unfold succeeds. destruct c; cbn [rel_do]; plainS. Qed.
Lemma go_succ o c : in_range (EGO c) -> snd (go_do false o c) = Ok tt <-> succeeds (go_get o) (EGO c).
Proof.
  unfold succeeds. intros R. destruct c; cbn [go_do in_range] in *; rewrite unguarded_snd; (split;
   [ intros (o' & H); apply bind_ok in H; destruct H as (l & E & _); destruct (go_put_effect _ _ _ _ _ R E) as (_ & _ & K);
     split; [intros; discriminate|]; split; [intros; discriminate|]; split; [intros; discriminate|];
     eexists; eexists; split; [reflexivity|]; split; [reflexivity|]; exact K
   | intros (_ & _ & _ & l & f & E1 & E2 & K); injection E1 as <-; injection E2 as <- ]).
  - destruct (go_put_succeeds (go_fixed o) (go_int o) i v R K) as [l ->]. eexists. reflexivity.
  - destruct (go_put_succeeds (go_fixed o) (go_flt o) i v R K) as [l ->]. eexists. reflexivity.
  - destruct (go_put_succeeds (go_fixed o) (go_dbl o) i v R K) as [l ->]. eexists. reflexivity.
Qed.
Lemma with_one_iff l f : (exists l', with_one_state l f = Ok l') <->
  (length l <= 1)%nat /\ exists t, f (match l with [] => new_tstate | t :: _ => t end) = Ok t.
Proof.
  unfold with_one_state. split.
  - intros (l' & H). destruct l as [|t [|t2 l]]; [| |discriminate H]; apply bind_ok in H; destruct H as (x & H & _); (split; [cbn; lia|]); eauto.
  - intros (L & t & H). destruct l as [|t1 [|t2 l]]; [| |cbn in L; lia]; rewrite H; cbn [bind]; eauto.
Qed.
Lemma on_states l f (k : list tstate -> Res track) : (forall x, exists o', k x = Ok o') ->
  (exists o', bind (with_one_state l f) k = Ok o') <-> (length l <= 1)%nat /\ exists t, f (match l with [] => new_tstate | t :: _ => t end) = Ok t.
Proof.
  intros K. rewrite <- with_one_iff. split.
  - intros (o' & H). apply bind_ok in H. destruct H as (x & H & _). eauto.
  - intros (x & ->). cbn [bind]. apply K.
Qed.
Ltac statesS := rewrite unguarded_snd, on_states by (intros; eexists; reflexivity); split;
  [ intros (L & _); split; [intros; discriminate|]; split; [intros; discriminate|]; split; [|exact Logic.I]; intros _; eexists; split; [reflexivity|exact L]
  | intros (_ & _ & S & _); destruct (S eq_refl) as (l & E & L); injection E as <-; split; [exact L|]; eexists; reflexivity ].
Lemma get_state_none l loc : (exists t, get_track_state l loc = Some t) <-> In loc (map ts_loc l).
Proof.
  unfold get_track_state. induction l as [|t l IH]; cbn [find map In]; [split; [intros [t H]; discriminate H|intros []]|].
  destruct (Z.eqb_spec (ts_loc t) loc) as [E|N]; [split; eauto|]. rewrite IH. split; [auto|]. intros [H|H]; [exfalso; exact (N H)|exact H].
Qed.
Lemma trk_succ o c : snd (trk_do false o c) = Ok tt <-> succeeds (trk_get o) (ETRK c).
Proof.
  unfold succeeds. destruct c; cbn [trk_do]; try first [plainS | bitS].
  - statesS.
  - statesS.
  - statesS.
  - statesS.
  - statesS.
  - rewrite unguarded_snd, on_states by (intros; eexists; reflexivity). split.
    + intros (L & t & H). apply bind_ok in H. destruct H as (a & E & H). apply arr_ok in E. destruct E as [_ E].
      split; [intros n' v' Q; cbn in Q; injection Q as <- <-; exact E|]. split; [intros; discriminate|].
      split; [intros _; eexists; split; [reflexivity|exact L]|]. eexists. split; [reflexivity|].
      destruct (Nat.leb_spec 15 (length (ts_cov (match tr_states o with [] => new_tstate | t :: _ => t end)))) as [K|K]; [|discriminate H].
      unfold first_state. destruct (tr_states o); exact K.
    + intros (S1 & _ & S2 & (l & E & K)). specialize (S1 _ _ eq_refl). destruct (S2 eq_refl) as (l2 & E2 & L). injection E2 as <-.
      injection E as <-. split; [exact L|]. apply arr_iff in S1. destruct S1 as [a S1]. rewrite S1. cbn [bind].
      assert (K' : (15 <=? length (ts_cov (match tr_states o with [] => new_tstate | t :: _ => t end)))%nat = true).
      { apply Nat.leb_le. unfold first_state in K. destruct (tr_states o); exact K. }
      rewrite K'. eexists. reflexivity.
  - rewrite unguarded_snd, on_states by (intros; eexists; reflexivity). split.
    + intros (L & t & H). apply bind_ok in H. destruct H as (a & E & H). apply arr_ok in E. destruct E as [_ E].
      split; [intros n' v' Q; cbn in Q; injection Q as <- <-; exact E|]. split; [intros; discriminate|].
      split; [intros _; eexists; split; [reflexivity|exact L]|exact Logic.I].
    + intros (S1 & _ & S2 & _). specialize (S1 _ _ eq_refl). destruct (S2 eq_refl) as (l2 & E2 & L). injection E2 as <-.
      split; [exact L|]. apply arr_iff in S1. destruct S1 as [a S1]. rewrite S1. eexists. reflexivity.
  - rewrite guarded_snd. unfold add_track_state. split.
    + intros (o' & H). apply bind_ok in H. destruct H as (l & E & _).
      split; [intros; discriminate|]. split; [intros; discriminate|]. split; [intros; discriminate|].
      destruct (Z.eqb_spec (ts_loc v) 0) as [Z0|N0]; [left; exact Z0|]. right. eexists. split; [reflexivity|].
      cbn [negb andb] in E. intros HI. apply get_state_none in HI. destruct HI as [t HI]. rewrite HI in E. discriminate E.
    + intros (_ & _ & _ & S). destruct (Z.eqb_spec (ts_loc v) 0) as [Z0|N0]; [cbn; eexists; reflexivity|].
      destruct S as [S|(l & E & S)]; [exfalso; exact (N0 S)|]. injection E as <-. cbn [negb andb].
      destruct (get_track_state (tr_states o) (ts_loc v)) as [t|] eqn:G; [|eexists; reflexivity].
      exfalso. apply S. apply get_state_none. eauto.
  - rewrite unguarded_snd. split.
    + intros (o' & H). apply bind_ok in H. destruct H as (l & E & _).
      split; [intros; discriminate|]. split; [intros; discriminate|]. split; [intros; discriminate|].
      eexists. split; [reflexivity|]. apply nth_error_Some. destruct (nth_error (tr_states o) i); [discriminate|discriminate E].
    + intros (_ & _ & _ & l & E & L). injection E as <-. apply nth_error_Some in L. destruct (nth_error (tr_states o) i); [|exfalso; apply L; reflexivity].
      eexists. reflexivity.
Qed.

Lemma snd_through {A} (C : A -> obj) (d : A * Res unit) : snd (let (x', r) := d in (C x', r)) = snd d.
Proof. destruct d. reflexivity. Qed.
Lemma obj_succ o e : in_range e -> snd (obj_do fadd srt false o e) = Ok tt <-> call_class e = type_of o /\ succeeds (obj_get o) e.
Proof.
  intros R. destruct o, e; cbn [obj_do type_of]; try (split; [intros H; discriminate H|intros [H _]; try discriminate H]);
    try (destruct c; discriminate H); try rewrite snd_through; cbn [obj_get].
  - rewrite mc_succ. split; [intros H; split; [reflexivity|exact H]|intros [_ H]; exact H].
  - rewrite sch_succ. split; [intros H; split; [reflexivity|exact H]|intros [_ H]; exact H].
  - rewrite rch_succ. split; [intros H; split; [reflexivity|exact H]|intros [_ H]; exact H].
  - rewrite ch_succ. split; [intros H; split; [reflexivity|exact H]|intros [_ H]; exact H].
  - rewrite sth_succ. split; [intros H; split; [reflexivity|exact H]|intros [_ H]; exact H].
  - rewrite tpc_succ. split; [intros H; split; [reflexivity|exact H]|intros [_ H]; exact H].
  - rewrite trd_succ. split; [intros H; split; [reflexivity|exact H]|intros [_ H]; exact H].
  - rewrite td_succ. split; [intros H; split; [reflexivity|exact H]|intros [_ H]; exact H].
  - rewrite tpu_succ. split; [intros H; split; [reflexivity|exact H]|intros [_ H]; exact H].
  - rewrite th_succ. split; [intros H; split; [reflexivity|exact H]|intros [_ H]; exact H].
  - rewrite thp_succ. split; [intros H; split; [reflexivity|exact H]|intros [_ H]; exact H].
  - rewrite thz_succ. split; [intros H; split; [reflexivity|exact H]|intros [_ H]; exact H].
  - rewrite trk_succ. split; [intros H; split; [reflexivity|exact H]|intros [_ H]; exact H].
  - rewrite cl_succ. split; [intros H; split; [reflexivity|exact H]|intros [_ H]; exact H].
  - rewrite rp_succ. split; [intros H; split; [reflexivity|exact H]|intros [_ H]; exact H].
  - rewrite rel_succ. split; [intros H; split; [reflexivity|exact H]|intros [_ H]; exact H].
  - rewrite vx_succ. split; [intros H; split; [reflexivity|exact H]|intros [_ H]; exact H].
  - destruct c; cbn [snd call_class]; (split; [intros H; try discriminate H; try (split; [reflexivity|unfold succeeds; noarg])|intros [H _]; try discriminate H; try reflexivity]).
  - destruct c; cbn [snd call_class]; (split; [intros H; try discriminate H; try (split; [reflexivity|unfold succeeds; noarg])|intros [H _]; try discriminate H; try reflexivity]).
  - destruct c; cbn [snd call_class]; (split; [intros H; try discriminate H; try (split; [reflexivity|unfold succeeds; noarg])|intros [H _]; try discriminate H; try reflexivity]).
  - rewrite (go_succ o c R). split; [intros H; split; [reflexivity|exact H]|intros [_ H]; exact H].
Qed.
End Succeeds.

