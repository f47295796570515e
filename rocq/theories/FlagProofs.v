(** * Facts about flag words *)

From Verif Require Import Bytes FlagModel FlagSpec.

(** ** Bits of 32 bit numbers *)

Lemma i32_shiftr z : is_i32 z <-> Z.shiftr z 31 = 0 \/ Z.shiftr z 31 = -1.
Proof. unfold is_i32. rewrite Z.shiftr_div_pow2 by lia. change (2 ^ 31) with two31. unfold two31. lia. Qed.
Lemma i32_high z i : is_i32 z -> 31 <= i -> Z.testbit z i = Z.testbit z 31.
Proof.
  intros H Hi. apply i32_shiftr in H.
  replace i with ((i - 31) + 31) by lia. change (Z.testbit z 31) with (Z.testbit z (0 + 31)).
  rewrite <- !Z.shiftr_spec by lia.
  destruct H as [-> | ->]; [rewrite !Z.bits_0; reflexivity | rewrite !Z.bits_m1 by lia; reflexivity].
Qed.
Lemma i32_lor a b : is_i32 a -> is_i32 b -> is_i32 (Z.lor a b).
Proof. rewrite !i32_shiftr, Z.shiftr_lor. intros [-> | ->] [-> | ->]; cbn; auto. Qed.
Lemma i32_land a b : is_i32 a -> is_i32 b -> is_i32 (Z.land a b).
Proof. rewrite !i32_shiftr, Z.shiftr_land. intros [-> | ->] [-> | ->]; cbn; auto. Qed.
Lemma i32_lnot a : is_i32 a -> is_i32 (Z.lnot a).
Proof. unfold is_i32, Z.lnot. lia. Qed.
Lemma i32_zero z : is_i32 z -> (z =? 0) = false <-> exists i, 0 <= i < 32 /\ Z.testbit z i = true.
Proof.
  intros H. split.
  - intros E. destruct (Z.eqb_spec z 0) as [|Hz]; [discriminate|].
    assert (HH : ~ (forall i, 0 <= i < 32 -> Z.testbit z i = false)).
    { intros A. apply Hz. apply Z.bits_inj_iff'. intros n Hn. rewrite Z.bits_0.
      destruct (Z_lt_ge_dec n 32) as [Hl|Hg]; [apply A; lia|].
      rewrite i32_high by (assumption || lia). apply A. lia. }
    clear E. revert HH. generalize (Z.testbit z). intros p HH.
    assert (G : forall n : nat, (exists i, 0 <= i < Z.of_nat n /\ p i = true) \/ (forall i, 0 <= i < Z.of_nat n -> p i = false)).
    { induction n as [|n IH]; [right; lia|]. destruct IH as [(i & Hi & Hp)|IH]; [left; exists i; split; [lia|exact Hp]|].
      destruct (p (Z.of_nat n)) eqn:E; [left; exists (Z.of_nat n); split; [lia|exact E]|].
      right. intros i Hi. destruct (Z.eq_dec i (Z.of_nat n)) as [->|Hne]; [exact E|apply IH; lia]. }
    destruct (G 32%nat) as [Hx|Hx]; [exact Hx|]. exfalso. apply HH. exact Hx.
  - intros (i & _ & Hi). destruct (Z.eqb_spec z 0) as [->|]; [rewrite Z.bits_0 in Hi; discriminate|reflexivity].
Qed.

Lemma s32_bits z i : 0 <= i < 32 -> Z.testbit (s32 z) i = Z.testbit z i.
Proof.
  intros Hi. rewrite <- (Z.mod_pow2_bits_low (s32 z) 32 i) by lia. rewrite <- (Z.mod_pow2_bits_low z 32 i) by lia.
  change (2 ^ 32) with two32. fold (u32 (s32 z)) (u32 z). rewrite u32_s32. reflexivity.
Qed.
Lemma u32_bits z i : 0 <= i < 32 -> Z.testbit (u32 z) i = Z.testbit z i.
Proof. intros Hi. unfold u32. change two32 with (2 ^ 32). apply Z.mod_pow2_bits_low. lia. Qed.
Lemma u64_bits z i : 0 <= i < 64 -> Z.testbit (u64 z) i = Z.testbit z i.
Proof. intros Hi. unfold u64. change two64 with (2 ^ 64). apply Z.mod_pow2_bits_low. lia. Qed.
Lemma bit_of_test w i : 0 <= i -> bit_of w i = Z.testbit w i.
Proof. intros Hi. unfold bit_of. rewrite Z.testbit_eqb by exact Hi. reflexivity. Qed.
Lemma pow2_bit n i : 0 <= n -> 0 <= i -> Z.testbit (Z.shiftl 1 n) i = (i =? n).
Proof. intros Hn Hi. rewrite Z.shiftl_1_l, Z.pow2_bits_eqb by exact Hn. apply Z.eqb_sym. Qed.

Lemma one_bit_ok n : 0 <= n <= 31 -> exists m, one_bit n = Ok m /\ is_i32 m /\ forall i, 0 <= i < 32 -> Z.testbit m i = (i =? n).
Proof.
  intros Hn. exists (s32 (Z.shiftl 1 n)). split; [|split].
  - unfold one_bit. destruct (Z.leb_spec 0 n), (Z.ltb_spec n 32); try lia. reflexivity.
  - apply s32_range.
  - intros i Hi. rewrite s32_bits by exact Hi. apply pow2_bit; lia.
Qed.
Lemma land_zero w m n : is_i32 w -> is_i32 m -> 0 <= n <= 31 -> (forall i, 0 <= i < 32 -> Z.testbit m i = (i =? n)) ->
  negb (Z.land w m =? 0) = Z.testbit w n.
Proof.
  intros Hw Hm Hn Hb. destruct (Z.testbit w n) eqn:E.
  - apply negb_true_iff. apply i32_zero; [apply i32_land; assumption|]. exists n. split; [lia|].
    rewrite Z.land_spec, E, Hb, Z.eqb_refl by lia. reflexivity.
  - apply negb_false_iff. destruct (Z.land w m =? 0) eqn:Z0; [reflexivity|].
    apply i32_zero in Z0; [|apply i32_land; assumption]. destruct Z0 as (i & Hi & Ht).
    rewrite Z.land_spec, Hb in Ht by lia. apply andb_true_iff in Ht. destruct Ht as [T1 T2].
    apply Z.eqb_eq in T2. subst i. congruence.
Qed.

(** ** Each operation *)

Definition sets_bit (n : Z) (val : bool) (w w' : Z) : Prop :=
  forall i, 0 <= i < 32 -> Z.testbit w' i = if n =? i then val else Z.testbit w i.

Lemma lor_sets w m n : is_i32 w -> 0 <= n <= 31 -> (forall i, 0 <= i < 32 -> Z.testbit m i = (i =? n)) ->
  sets_bit n true w (Z.lor w m).
Proof.
  intros Hw Hn Hb i Hi. rewrite Z.lor_spec, Hb by exact Hi. rewrite (Z.eqb_sym i n).
  destruct (n =? i); [apply orb_true_r|apply orb_false_r].
Qed.
Lemma land_sets w m n : is_i32 w -> 0 <= n <= 31 -> (forall i, 0 <= i < 32 -> Z.testbit m i = (i =? n)) ->
  sets_bit n false w (Z.land w (Z.lnot m)).
Proof.
  intros Hw Hn Hb i Hi. rewrite Z.land_spec, Z.lnot_spec, Hb by lia. rewrite (Z.eqb_sym i n).
  destruct (n =? i); [apply andb_false_r|apply andb_true_r].
Qed.

Lemma flag_bit_set_ok w n : is_i32 w -> 0 <= n <= 31 -> flag_bit_set w n = Ok (Z.testbit w n).
Proof.
  intros Hw Hn. unfold flag_bit_set. destruct (one_bit_ok n Hn) as (m & -> & Hm & Hb). cbn [bind].
  f_equal. apply land_zero; assumption.
Qed.
Definition flag_op (w : Z) (op : Z * bool) : Res Z := if snd op then flag_set_bit w (fst op) else flag_unset_bit w (fst op).
Lemma flag_op_ok w op : is_i32 w -> 0 <= fst op <= 31 ->
  exists w', flag_op w op = Ok w' /\ is_i32 w' /\ sets_bit (fst op) (snd op) w w'.
Proof.
  intros Hw Hn. destruct op as [n v]. unfold flag_op. cbn [fst snd] in *.
  assert (R : (0 <=? n) && (n <=? 31) = true) by (apply andb_true_iff; split; apply Z.leb_le; lia).
  destruct (one_bit_ok n Hn) as (m & E & Hm & Hb).
  destruct v; unfold flag_set_bit, flag_unset_bit; rewrite R, flag_bit_set_ok by assumption; cbn [bind];
    destruct (Z.testbit w n) eqn:T; rewrite ?E; cbn [bind].
  - exists w. split; [reflexivity|]. split; [exact Hw|]. intros i Hi. destruct (Z.eqb_spec n i); [subst; exact T|reflexivity].
  - exists (Z.lor w m). split; [reflexivity|]. split; [apply i32_lor; assumption|apply lor_sets; assumption].
  - exists (Z.land w (Z.lnot m)). split; [reflexivity|]. split; [apply i32_land; [assumption|apply i32_lnot; assumption]|apply land_sets; assumption].
  - exists w. split; [reflexivity|]. split; [exact Hw|]. intros i Hi. destruct (Z.eqb_spec n i); [subst; exact T|reflexivity].
Qed.
Definition quality_op (w : Z) (op : Z * bool) : Res Z := set_quality_bit false w (fst op) (snd op).
Lemma quality_op_ok w op : is_i32 w -> 0 <= fst op <= 31 ->
  exists w', quality_op w op = Ok w' /\ is_i32 w' /\ sets_bit (fst op) (snd op) w w'.
Proof.
  intros Hw Hn. destruct op as [n v]. unfold quality_op, set_quality_bit. cbn [fst snd] in *.
  destruct (one_bit_ok n Hn) as (m & E & Hm & Hb). rewrite E. cbn [bind]. destruct v; eexists; (split; [reflexivity|]).
  - split; [apply i32_lor; assumption|apply lor_sets; assumption].
  - split; [apply i32_land; [assumption|apply i32_lnot; assumption]|apply land_sets; assumption].
Qed.
Definition util_op (w : Z) (op : Z * bool) : Res Z := if snd op then util_set_bit w (fst op) else util_unset_bit w (fst op).
Lemma bitset_of_bits w i : 0 <= i < 32 -> Z.testbit (bitset_of w) i = Z.testbit w i.
Proof. intros Hi. unfold bitset_of. rewrite u32_bits, u64_bits by lia. reflexivity. Qed.
Lemma util_op_ok w op : is_i32 w -> 0 <= fst op <= 31 ->
  exists w', util_op w op = Ok w' /\ is_i32 w' /\ sets_bit (fst op) (snd op) w w'.
Proof.
  intros Hw Hn. destruct op as [n v]. cbn [fst snd] in *. unfold util_op. cbn [fst snd].
  assert (R : (0 <=? n) && (n <? 32) = true) by (apply andb_true_iff; split; [apply Z.leb_le|apply Z.ltb_lt]; lia).
  destruct v; unfold util_set_bit, util_unset_bit, bitset_set; rewrite R; cbn [bind]; eexists; (split; [reflexivity|]);
    (split; [apply s32_range|]); intros i Hi; unfold bitset_int; rewrite s32_bits by exact Hi.
  - rewrite Z.lor_spec, bitset_of_bits, pow2_bit by lia. rewrite (Z.eqb_sym i n).
    destruct (n =? i); [apply orb_true_r|apply orb_false_r].
  - rewrite Z.land_spec, Z.lnot_spec, bitset_of_bits, pow2_bit by lia. rewrite (Z.eqb_sym i n).
    destruct (n =? i); [apply andb_false_r|apply andb_true_r].
Qed.

(** ** Sequences *)

Fixpoint run_ops (op1 : Z -> Z * bool -> Res Z) (w : Z) (ops : list (Z * bool)) : Res Z :=
  match ops with [] => Ok w | op :: ops' => do w' <- op1 w op; run_ops op1 w' ops' end.

Lemma run_ops_ok op1 :
  (forall w op, is_i32 w -> 0 <= fst op <= 31 -> exists w', op1 w op = Ok w' /\ is_i32 w' /\ sets_bit (fst op) (snd op) w w') ->
  forall ops w, is_i32 w -> on_32_bits ops ->
  exists w', run_ops op1 w ops = Ok w' /\ is_i32 w' /\ forall i, 0 <= i <= 31 -> Z.testbit w' i = last_set ops i (Z.testbit w i).
Proof.
  intros H ops. induction ops as [|op ops IH]; intros w Hw Ho.
  - exists w. cbn. auto.
  - inversion Ho as [|? ? H1 H2]; subst. destruct (H w op Hw H1) as (w1 & E & Hw1 & Hs).
    destruct (IH w1 Hw1 H2) as (w2 & E2 & Hw2 & Hb). exists w2. cbn [run_ops]. rewrite E. cbn [bind].
    split; [exact E2|]. split; [exact Hw2|]. intros i Hi. rewrite Hb, Hs by lia. reflexivity.
Qed.

Lemma i32_bounds w : - 2 ^ 31 <= w < 2 ^ 31 -> is_i32 w.
Proof. unfold is_i32, two31. lia. Qed.

Lemma run_ops_reads op1 :
  (forall w op, is_i32 w -> 0 <= fst op <= 31 -> exists w', op1 w op = Ok w' /\ is_i32 w' /\ sets_bit (fst op) (snd op) w w') ->
  forall (reads : Z -> Z -> Res bool), (forall w n, is_i32 w -> 0 <= n <= 31 -> reads w n = Ok (Z.testbit w n)) ->
  forall w ops, - 2 ^ 31 <= w < 2 ^ 31 -> on_32_bits ops ->
  exists w', run_ops op1 w ops = Ok w' /\ - 2 ^ 31 <= w' < 2 ^ 31 /\
    forall i, 0 <= i <= 31 -> reads w' i = Ok (last_set ops i (bit_of w i)) /\ bit_of w' i = last_set ops i (bit_of w i).
Proof.
  intros H reads Hr w ops Hw Ho. apply i32_bounds in Hw.
  destruct (run_ops_ok op1 H ops w Hw Ho) as (w' & E & Hw' & Hb). exists w'. split; [exact E|].
  split; [unfold is_i32, two31 in Hw'; lia|]. intros i Hi. rewrite !bit_of_test by lia.
  rewrite Hr by assumption. rewrite Hb by exact Hi. split; reflexivity.
Qed.

Lemma flags_ok w ops : - 2 ^ 31 <= w < 2 ^ 31 -> on_32_bits ops ->
  exists w', run_ops flag_op w ops = Ok w' /\ - 2 ^ 31 <= w' < 2 ^ 31 /\
    forall i, 0 <= i <= 31 -> flag_bit_set w' i = Ok (last_set ops i (bit_of w i)) /\ bit_of w' i = last_set ops i (bit_of w i).
Proof. apply (run_ops_reads flag_op flag_op_ok flag_bit_set flag_bit_set_ok). Qed.
Lemma qualities_ok w ops : - 2 ^ 31 <= w < 2 ^ 31 -> on_32_bits ops ->
  exists w', run_ops quality_op w ops = Ok w' /\ - 2 ^ 31 <= w' < 2 ^ 31 /\
    forall i, 0 <= i <= 31 -> quality_bit w' i = Ok (last_set ops i (bit_of w i)) /\ bit_of w' i = last_set ops i (bit_of w i).
Proof. apply (run_ops_reads quality_op quality_op_ok quality_bit flag_bit_set_ok). Qed.
Lemma utils_ok w ops : - 2 ^ 31 <= w < 2 ^ 31 -> on_32_bits ops ->
  exists w', run_ops util_op w ops = Ok w' /\ - 2 ^ 31 <= w' < 2 ^ 31 /\
    forall i, 0 <= i <= 31 -> bitset_test (bitset_of w') i = Ok (last_set ops i (bit_of w i)) /\ bit_of w' i = last_set ops i (bit_of w i).
Proof.
  apply (run_ops_reads util_op util_op_ok (fun w => bitset_test (bitset_of w))).
  intros w0 n Hw0 Hn. unfold bitset_test.
  destruct (Z.leb_spec 0 n), (Z.ltb_spec n 32); try lia. cbn [andb]. rewrite bitset_of_bits by lia. reflexivity.
Qed.

(** ** Collections: through LCFlagImpl and through the named setters *)

Inductive coll_call := ThroughFlag (bit : Z) (val : bool) | Named (b : coll_bit) (val : bool).
Definition coll_op (w : Z) (c : coll_call) : Res Z :=
  match c with ThroughFlag n v => flag_op w (n, v) | Named b v => coll_set w b v end.
Definition call_bit (c : coll_call) : Z * bool :=
  match c with ThroughFlag n v => (n, v) | Named b v => (coll_index b, v) end.
Fixpoint run_coll (w : Z) (cs : list coll_call) : Res Z :=
  match cs with [] => Ok w | c :: cs' => do w' <- coll_op w c; run_coll w' cs' end.
Lemma coll_index_range b : 0 <= coll_index b <= 31.
Proof. destruct b; cbn; lia. Qed.
Lemma coll_call_eq w c : is_i32 w -> 0 <= fst (call_bit c) <= 31 ->
  exists w', coll_op w c = Ok w' /\ is_i32 w' /\ sets_bit (fst (call_bit c)) (snd (call_bit c)) w w'.
Proof.
  intros Hw Hc. destruct c as [n v|b v]; [apply flag_op_ok; assumption|].
  apply (quality_op_ok w (coll_index b, v)); assumption.
Qed.
Lemma colls_ok w cs : - 2 ^ 31 <= w < 2 ^ 31 -> on_32_bits (map call_bit cs) ->
  exists w', run_coll w cs = Ok w' /\ - 2 ^ 31 <= w' < 2 ^ 31 /\
    (forall i, 0 <= i <= 31 -> flag_bit_set w' i = Ok (last_set (map call_bit cs) i (bit_of w i)) /\
                              bit_of w' i = last_set (map call_bit cs) i (bit_of w i)) /\
    (forall b, coll_is w' b = Ok (last_set (map call_bit cs) (coll_index b) (bit_of w (coll_index b)))).
Proof.
  intros Hw Ho. apply i32_bounds in Hw.
  assert (G : exists w', run_coll w cs = Ok w' /\ is_i32 w' /\
    forall i, 0 <= i <= 31 -> Z.testbit w' i = last_set (map call_bit cs) i (Z.testbit w i)).
  { revert w Hw Ho. induction cs as [|c cs IH]; intros w Hw Ho; [exists w; cbn; auto|].
    cbn [map] in Ho. inversion Ho as [|? ? H1 H2]; subst. destruct (coll_call_eq w c Hw H1) as (w1 & E & Hw1 & Hs).
    destruct (IH w1 Hw1 H2) as (w2 & E2 & Hw2 & Hb). exists w2. cbn [run_coll]. rewrite E. cbn [bind].
    split; [exact E2|]. split; [exact Hw2|]. intros i Hi. rewrite Hb, Hs by lia. reflexivity. }
  destruct G as (w' & E & Hw' & Hb). exists w'. split; [exact E|]. split; [unfold is_i32, two31 in Hw'; lia|]. split.
  - intros i Hi. rewrite flag_bit_set_ok, !bit_of_test, Hb by (assumption || lia). split; reflexivity.
  - intros b. pose proof (coll_index_range b) as R. change (coll_is w' b) with (flag_bit_set w' (coll_index b)).
    rewrite flag_bit_set_ok, bit_of_test, Hb by (assumption || lia). reflexivity.
Qed.

(** ** The simulator status *)

Definition sim_op (s : Z) (op : sim_bit * bool) : Z := sim_set s (fst op) (snd op).
Lemma sim_index_inj a b : sim_index a = sim_index b -> a = b.
Proof. destruct a, b; intros H; (reflexivity || discriminate H). Qed.
Lemma sim_index_range a : 0 <= sim_index a <= 31.
Proof. destruct a; cbn; lia. Qed.
Lemma u32_bound_bits z : is_u32 z <-> 0 <= z /\ forall i, 32 <= i -> Z.testbit z i = false.
Proof.
  unfold is_u32. change two32 with (2 ^ 32). split.
  - intros H. split; [lia|]. intros i Hi. destruct (Z.eq_dec z 0) as [->|Hz]; [apply Z.bits_0|].
    apply Z.bits_above_log2; [lia|]. assert (Z.log2 z < 32) by (apply Z.log2_lt_pow2; lia). lia.
  - intros [H0 Hb]. split; [exact H0|]. destruct (Z.eq_dec z 0) as [->|Hz]; [reflexivity|].
    apply Z.log2_lt_pow2; [lia|]. destruct (Z_lt_ge_dec (Z.log2 z) 32) as [|Hg]; [assumption|].
    specialize (Hb (Z.log2 z) ltac:(lia)). rewrite Z.bit_log2 in Hb by lia. discriminate.
Qed.
Lemma sim_set_ok s b v : is_u32 s -> is_u32 (sim_set s b v) /\
  forall i, 0 <= i < 32 -> Z.testbit (sim_set s b v) i = if sim_index b =? i then v else Z.testbit s i.
Proof.
  intros Hs. pose proof (sim_index_range b) as R. apply u32_bound_bits in Hs. destruct Hs as [H0 Hb]. unfold sim_set.
  assert (P : 0 <= Z.shiftl 1 (sim_index b)) by (apply Z.shiftl_nonneg; lia).
  destruct v; (split; [apply u32_bound_bits; split|]).
  - apply Z.lor_nonneg. lia.
  - intros i Hi. rewrite Z.lor_spec, Hb, pow2_bit by lia. cbn [orb]. apply Z.eqb_neq. lia.
  - intros i Hi. rewrite Z.lor_spec, pow2_bit by lia. rewrite (Z.eqb_sym i). destruct (sim_index b =? i); [apply orb_true_r|apply orb_false_r].
  - apply Z.land_nonneg. lia.
  - intros i Hi. rewrite Z.land_spec, Hb by lia. reflexivity.
  - intros i Hi. rewrite Z.land_spec, Z.lnot_spec, pow2_bit by lia. rewrite (Z.eqb_sym i).
    destruct (sim_index b =? i); [apply andb_false_r|apply andb_true_r].
Qed.
Definition run_sim (s : Z) (ops : list (sim_bit * bool)) : Z := fold_left sim_op ops s.
Definition on_sim_bits (ops : list (sim_bit * bool)) : list (Z * bool) := map (fun op => (sim_index (fst op), snd op)) ops.
Lemma run_sim_ok : forall ops s, is_u32 s ->
  is_u32 (run_sim s ops) /\ forall i, 0 <= i < 32 -> Z.testbit (run_sim s ops) i = last_set (on_sim_bits ops) i (Z.testbit s i).
Proof.
  induction ops as [|op ops IH]; intros s Hs; [split; [exact Hs|reflexivity]|].
  cbn [run_sim fold_left]. destruct (sim_set_ok s (fst op) (snd op) Hs) as [H1 H2].
  destruct (IH (sim_op s op) H1) as [H3 H4]. split; [exact H3|]. intros i Hi. etransitivity; [apply H4; exact Hi|].
  unfold sim_op at 1. rewrite H2 by exact Hi. reflexivity.
Qed.

Lemma bitset_of_u32 z : is_u32 (bitset_of z).
Proof. apply u32_range. Qed.
Lemma bitset_of_i32 z : is_i32 z -> s32 (bitset_of z) = z.
Proof.
  intros H. unfold bitset_of. rewrite <- (s32_id z H) at 2. unfold u32. rewrite s32_mod.
  unfold u64. rewrite <- s32_mod. change two64 with (two32 * two32). rewrite Z.rem_mul_r by (reflexivity || discriminate).
  rewrite Z.add_mod by discriminate. rewrite Z.mul_comm, Z.mod_mul, Z.add_0_r, !Z.mod_mod by discriminate. apply s32_mod.
Qed.

Lemma sims_ok status ops : - 2 ^ 31 <= status < 2 ^ 31 -> exists s,
  set_sim_status false 0 status = Ok s /\ sim_status s = status /\
  (forall b, sim_is (run_sim s ops) b = last_set (on_sim_bits ops) (sim_index b) (bit_of status (sim_index b))) /\
  (forall i, 0 <= i <= 31 -> bit_of (sim_status (run_sim s ops)) i = last_set (on_sim_bits ops) i (bit_of status i)).
Proof.
  intros H. apply i32_bounds in H. exists (bitset_of status). split; [reflexivity|].
  destruct (run_sim_ok ops (bitset_of status) (bitset_of_u32 status)) as [H1 H2].
  split; [apply bitset_of_i32; exact H|]. split.
  - intros b. pose proof (sim_index_range b). unfold sim_is. rewrite H2, bitset_of_bits, bit_of_test by lia. reflexivity.
  - intros i Hi. unfold sim_status. rewrite !bit_of_test, s32_bits, H2, bitset_of_bits by lia. reflexivity.
Qed.

(** ** Process flags *)

Lemma pf_index_inj a b : pf_index a = pf_index b -> a = b.
Proof. destruct a, b; intros H; (reflexivity || discriminate H). Qed.
Lemma pf_index_range a : 0 <= pf_index a <= 31.
Proof. destruct a; cbn; lia. Qed.
Lemma pf_add_ok w p : is_i32 w -> exists w', pf_add w p = Ok w' /\ is_i32 w' /\ sets_bit (pf_index p) true w w'.
Proof.
  intros Hw. destruct (one_bit_ok (pf_index p) (pf_index_range p)) as (m & E & Hm & Hb).
  exists (Z.lor w m). unfold pf_add. rewrite E. split; [reflexivity|]. split; [apply i32_lor; assumption|].
  apply lor_sets; [assumption|apply pf_index_range|assumption].
Qed.
Lemma pf_has_ok w p : is_i32 w -> pf_has w p = Ok (Z.testbit w (pf_index p)).
Proof. intros Hw. apply (flag_bit_set_ok w (pf_index p) Hw (pf_index_range p)). Qed.
Lemma pf_adds_ok : forall l w, is_i32 w -> exists w', pf_adds w l = Ok w' /\ is_i32 w' /\
  forall i, 0 <= i <= 31 -> Z.testbit w' i = Z.testbit w i || existsb (fun p => pf_index p =? i) l.
Proof.
  induction l as [|p l IH]; intros w Hw.
  - exists w. split; [reflexivity|]. split; [exact Hw|]. intros i Hi. cbn. rewrite orb_false_r. reflexivity.
  - destruct (pf_add_ok w p Hw) as (w1 & E1 & Hw1 & Hs). destruct (IH w1 Hw1) as (w2 & E2 & Hw2 & Hb).
    exists w2. cbn [pf_adds]. rewrite E1. cbn [bind]. split; [exact E2|]. split; [exact Hw2|].
    intros i Hi. rewrite Hb, Hs by lia. cbn [existsb]. destruct (pf_index p =? i); [rewrite orb_true_r|]; reflexivity.
Qed.
Lemma pf_contains_ok w v : is_i32 w -> is_i32 v ->
  pf_contains w v = true <-> forall i, 0 <= i <= 31 -> Z.testbit v i = true -> Z.testbit w i = true.
Proof.
  intros Hw Hv. unfold pf_contains. rewrite Z.eqb_eq. split.
  - intros E i Hi Ht. rewrite <- E, Z.land_spec in Ht. apply andb_true_iff in Ht. apply Ht.
  - intros H. apply Z.bits_inj_iff'. intros n Hn. rewrite Z.land_spec.
    assert (G : forall i, 0 <= i <= 31 -> Z.testbit w i && Z.testbit v i = Z.testbit v i).
    { intros i Hi. destruct (Z.testbit v i) eqn:E; [rewrite (H i Hi E); reflexivity|apply andb_false_r]. }
    destruct (Z_le_gt_dec n 31) as [Hl|Hg]; [apply G; lia|].
    rewrite (i32_high w n), (i32_high v n) by (assumption || lia). apply G. lia.
Qed.
Lemma pfs_ok w l : - 2 ^ 31 <= w < 2 ^ 31 -> exists w', pf_adds w l = Ok w' /\ - 2 ^ 31 <= w' < 2 ^ 31 /\
  (forall i, 0 <= i <= 31 -> bit_of w' i = last_set (map (fun p => (pf_index p, true)) l) i (bit_of w i)) /\
  (forall p, exists h, pf_has w' p = Ok h /\ (h = true <-> In p l \/ pf_has w p = Ok true)).
Proof.
  intros Hw. apply i32_bounds in Hw. destruct (pf_adds_ok l w Hw) as (w' & E & Hw' & Hb). exists w'. split; [exact E|].
  split; [unfold is_i32, two31 in Hw'; lia|]. split.
  - intros i Hi. rewrite !bit_of_test, Hb by lia. clear. revert w. induction l as [|p l IH]; intros w; cbn.
    + apply orb_false_r.
    + destruct (pf_index p =? i) eqn:E; cbn.
      * rewrite orb_true_r. clear IH. unfold last_set. change (true = fold_left (fun (cur : bool) (op : Z * bool) => if fst op =? i then snd op else cur) (map (fun p0 : pf => (pf_index p0, true)) l) true).
        induction l as [|q l IH]; cbn; [reflexivity|]. destruct (pf_index q =? i); exact IH.
      * apply IH.
  - intros p. exists (Z.testbit w' (pf_index p)). split; [apply pf_has_ok; exact Hw'|]. rewrite pf_has_ok by exact Hw.
    rewrite Hb by apply pf_index_range. rewrite orb_true_iff, existsb_exists. split.
    + intros [H|(q & Hq & Hi)]; [right; congruence|left]. apply Z.eqb_eq, pf_index_inj in Hi. congruence.
    + intros [H|H]; [right; exists p; split; [exact H|apply Z.eqb_refl]|left]. congruence.
Qed.

(** ** Flags by name *)

Lemma last_index {A} (dec : forall a b : A, {a = b} + {a <> b}) (ix : A -> Z) ops x : (forall a b, ix a = ix b -> a = b) -> forall old,
  last_set (map (fun op => (ix (fst op), snd op)) ops) (ix x) old = last_named dec ops x old.
Proof.
  intros I. unfold last_set, last_named. induction ops as [|op ops IH]; intros old; [reflexivity|]. cbn [map fold_left fst snd]. rewrite IH. f_equal.
  destruct (dec (fst op) x) as [->|N]; [rewrite Z.eqb_refl; reflexivity|]. destruct (Z.eqb_spec (ix (fst op)) (ix x)) as [E|_]; [destruct (N (I _ _ E))|reflexivity].
Qed.
Definition coll_bit_dec (a b : coll_bit) : {a = b} + {a <> b}.
Proof. decide equality. Defined.
Definition sim_bit_dec (a b : sim_bit) : {a = b} + {a <> b}.
Proof. decide equality. Defined.
Lemma coll_index_inj a b : coll_index a = coll_index b -> a = b.
Proof. destruct a, b; intros H; (reflexivity || discriminate H). Qed.
Lemma coll_named w ops : - 2 ^ 31 <= w < 2 ^ 31 -> exists w', run_coll w (map (fun op => Named (fst op) (snd op)) ops) = Ok w' /\
  forall b v, coll_is w b = Ok v -> coll_is w' b = Ok (last_named coll_bit_dec ops b v).
Proof.
  intros Hw. destruct (colls_ok w (map (fun op => Named (fst op) (snd op)) ops) Hw) as (w' & E & _ & _ & H).
  { unfold on_32_bits. rewrite map_map. apply Forall_map. apply Forall_forall. intros op _. cbn. pose proof (coll_index_range (fst op)). lia. }
  destruct (colls_ok w [] Hw) as (w0 & E0 & _ & _ & H0); [constructor|]. cbn in E0. injection E0 as <-.
  exists w'. split; [exact E|]. intros b v Hv. rewrite H. rewrite H0 in Hv. cbn in Hv. injection Hv as <-. rewrite map_map. cbn [call_bit].
  rewrite (last_index coll_bit_dec coll_index ops b coll_index_inj). reflexivity.
Qed.
Lemma sim_named status ops : - 2 ^ 31 <= status < 2 ^ 31 -> exists s, set_sim_status false 0 status = Ok s /\
  forall b, sim_is (run_sim s ops) b = last_named sim_bit_dec ops b (sim_is s b).
Proof.
  intros Hs. destruct (sims_ok status ops Hs) as (s & E & _ & H & _). destruct (sims_ok status [] Hs) as (s0 & E0 & _ & H0 & _).
  rewrite E in E0. injection E0 as <-. exists s. split; [exact E|]. intros b. rewrite H. cbn in H0. rewrite H0. unfold on_sim_bits.
  rewrite (last_index sim_bit_dec sim_index ops b sim_index_inj). reflexivity.
Qed.

Lemma i32_bounds_back w : is_i32 w -> - 2 ^ 31 <= w < 2 ^ 31.
Proof. unfold is_i32, two31. change (2 ^ 31) with 2147483648. lia. Qed.
Lemma quality_bit_ok q n : is_i32 q -> 0 <= n <= 31 -> quality_bit q n = Ok (Z.testbit q n).
Proof. exact (flag_bit_set_ok q n). Qed.
Lemma tracker_hit_flags q v : - 2 ^ 31 <= q < 2 ^ 31 ->
  st_is_overlay q = Ok (Z.testbit q 31) /\ st_is_secondary q = Ok (Z.testbit q 30) /\
  st_set_overlay true q v = Throw LReadOnly /\ st_set_secondary true q v = Throw LReadOnly /\
  (exists q', st_set_overlay false q v = Ok q' /\ - 2 ^ 31 <= q' < 2 ^ 31 /\
     forall i, 0 <= i <= 31 -> Z.testbit q' i = if i =? 31 then v else Z.testbit q i) /\
  (exists q', st_set_secondary false q v = Ok q' /\ - 2 ^ 31 <= q' < 2 ^ 31 /\
     forall i, 0 <= i <= 31 -> Z.testbit q' i = if i =? 30 then v else Z.testbit q i).
Proof.
  intros H. apply i32_bounds in H.
  split; [apply (quality_bit_ok q 31); [exact H|lia]|]. split; [apply (quality_bit_ok q 30); [exact H|lia]|].
  split; [reflexivity|]. split; [reflexivity|].
  split; [destruct (quality_op_ok q (31, v) H ltac:(cbn; lia)) as (w & E & Hw & Hb)|destruct (quality_op_ok q (30, v) H ltac:(cbn; lia)) as (w & E & Hw & Hb)];
    exists w; (split; [exact E|]); (split; [exact (i32_bounds_back w Hw)|]); intros i Hi; rewrite (Z.eqb_sym i); apply Hb; lia.
Qed.
Lemma or_bits_ok : forall bits, Forall (fun b => 0 <= b <= 31) bits ->
  exists r, or_bits bits = Ok r /\ forall i, 0 <= i < 32 -> (Z.testbit r i = true <-> In i bits).
Proof.
  induction bits as [|b bits IH]; intros H.
  - exists 0. split; [reflexivity|]. intros i _. rewrite Z.bits_0. split; [discriminate|intros []].
  - inversion H as [|? ? Hb Hr]; subst. destruct (IH Hr) as (r & E & B). destruct (one_bit_ok b Hb) as (m & Em & _ & Bm).
    exists (Z.lor m r). cbn [or_bits]. rewrite Em. cbn [bind]. rewrite E. split; [reflexivity|]. intros i Hi.
    rewrite Z.lor_spec, orb_true_iff, (B i Hi), (Bm i Hi), Z.eqb_eq. cbn [In]. split; intros [K|K]; [left; symmetry; exact K|right; exact K|left; symmetry; exact K|right; exact K].
Qed.
Lemma made_bitset bits : Forall (fun b => 0 <= b <= 31) bits ->
  exists r, make_bitset32 bits = Ok r /\ 0 <= r < 2 ^ 32 /\ forall i, 0 <= i -> (Z.testbit r i = true <-> In i bits).
Proof.
  intros H. destruct (or_bits_ok bits H) as (r & E & B). exists (bitset_of r). unfold make_bitset32. rewrite E. split; [reflexivity|].
  pose proof (bitset_of_u32 r) as R. split; [exact R|]. intros i Hi. destruct (Z_lt_ge_dec i 32) as [L|G].
  - rewrite bitset_of_bits by lia. apply B. lia.
  - apply u32_bound_bits in R. rewrite (proj2 R) by lia. split; [discriminate|]. intros K.
    rewrite Forall_forall in H. specialize (H i K). lia.
Qed.
Lemma endpoint_bit s : 0 <= s < 2 ^ 32 -> sim_endpoint true s = Throw LReadOnly /\
  exists s', sim_endpoint false s = Ok s' /\ 0 <= s' < 2 ^ 32 /\ forall i, 0 <= i -> Z.testbit s' i = if i =? 31 then true else Z.testbit s i.
Proof.
  intros H. split; [reflexivity|]. assert (Hs : is_u32 s) by exact H. destruct (sim_set_ok s BEndpoint true Hs) as [R B].
  exists (sim_set s BEndpoint true). split; [reflexivity|]. split; [exact R|]. intros i Hi. rewrite (Z.eqb_sym i).
  destruct (Z_lt_ge_dec i 32) as [L|G]; [apply B; lia|]. apply u32_bound_bits in R, Hs. rewrite (proj2 R), (proj2 Hs) by lia.
  destruct (Z.eqb_spec 31 i); [lia|reflexivity].
Qed.
