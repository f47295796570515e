(** * Facts about bit fields *)

From Verif Require Import Bytes StrMap FlagModel FlagProofs BitModel BitSpec.

(** ** Bits of 64 bit numbers *)

Lemma i64_shiftr z : is_i64 z <-> Z.shiftr z 63 = 0 \/ Z.shiftr z 63 = -1.
Proof. unfold is_i64. rewrite Z.shiftr_div_pow2 by lia. change (2 ^ 63) with two63. unfold two63. lia. Qed.
Lemma i64_high z i : is_i64 z -> 63 <= i -> Z.testbit z i = Z.testbit z 63.
Proof.
  intros H Hi. apply i64_shiftr in H.
  replace i with ((i - 63) + 63) by lia. change (Z.testbit z 63) with (Z.testbit z (0 + 63)).
  rewrite <- !Z.shiftr_spec by lia.
  destruct H as [-> | ->]; [rewrite !Z.bits_0; reflexivity | rewrite !Z.bits_m1 by lia; reflexivity].
Qed.
Lemma i64_ext a b : is_i64 a -> is_i64 b -> (forall i, 0 <= i < 64 -> Z.testbit a i = Z.testbit b i) -> a = b.
Proof.
  intros Ha Hb H. apply Z.bits_inj_iff'. intros n Hn. destruct (Z_lt_ge_dec n 64) as [Hl|Hg]; [apply H; lia|].
  rewrite (i64_high a n), (i64_high b n) by (assumption || lia). apply H. lia.
Qed.
Lemma u64_s64 z : u64 (s64 z) = u64 z.
Proof.
  unfold u64, s64, two63, two64. cbv zeta. destruct (z mod 18446744073709551616 <? 9223372036854775808) eqn:E; lia.
Qed.
Lemma s64_bits z i : 0 <= i < 64 -> Z.testbit (s64 z) i = Z.testbit z i.
Proof. intros Hi. rewrite <- (u64_bits (s64 z)), u64_s64 by exact Hi. apply u64_bits. exact Hi. Qed.

Lemma ones_bits w i : 0 <= w -> 0 <= i -> Z.testbit (Z.shiftl 1 w - 1) i = (i <? w).
Proof.
  intros Hw Hi. rewrite Z.shiftl_1_l. replace (2 ^ w - 1) with (Z.ones w) by (rewrite Z.ones_equiv; lia).
  destruct (Z.ltb_spec i w); [apply Z.ones_spec_low; lia|apply Z.ones_spec_high; lia].
Qed.
Lemma part_bits b o w i : 0 <= o -> 0 <= w -> 0 <= i -> Z.testbit ((b / 2 ^ o) mod 2 ^ w) i = (i <? w) && Z.testbit b (o + i).
Proof.
  intros Ho Hw Hi. destruct (Z.ltb_spec i w).
  - rewrite Z.mod_pow2_bits_low by lia. rewrite <- Z.shiftr_div_pow2, Z.shiftr_spec by lia. rewrite Z.add_comm. reflexivity.
  - rewrite Z.mod_pow2_bits_high by lia. reflexivity.
Qed.
Lemma part_ext b b' o w : 0 <= o -> 0 <= w -> (forall i, o <= i < o + w -> Z.testbit b i = Z.testbit b' i) ->
  (b / 2 ^ o) mod 2 ^ w = (b' / 2 ^ o) mod 2 ^ w.
Proof.
  intros Ho Hw H. apply Z.bits_inj_iff'. intros n Hn. rewrite !part_bits by assumption.
  destruct (Z.ltb_spec n w); [|reflexivity]. rewrite H by lia. reflexivity.
Qed.
Lemma number_ext b b' p : 0 <= p_off p -> 0 <= p_width p -> (forall i, has_bit p i -> Z.testbit b i = Z.testbit b' i) ->
  number_in b p = number_in b' p.
Proof. intros Ho Hw H. unfold number_in. rewrite (part_ext b b') by (assumption || exact H). reflexivity. Qed.

(** ** One field *)

Definition place_of (f : field) : place := mkPlace (f_off f) (f_width f) (f_signed f).
Definition narrow (p : place) : bool := if p_signed p then p_width p <=? 32 else p_width p <=? 30.
Record ok_field (f : field) : Prop := {
  of_off : 0 <= f_off f < 64;
  of_width : 0 <= f_width f <= 62;
  of_in : f_off f + f_width f <= 64;
  of_signed : f_signed f = true -> 1 <= f_width f;
  of_unsigned : f_signed f = false -> f_width f <= 31;
  of_mask : forall i, 0 <= i -> Z.testbit (f_mask f) i = (f_off f <=? i) && (i <? f_off f + f_width f);
  of_range : forall x, (x <? f_min f) || (f_max f <? x) = false <->
             narrow (place_of f) = true /\ (fits (place_of f) x \/ f_signed f = false /\ x = 2 ^ f_width f) }.

Lemma pow2_le a b : 0 <= a <= b -> 0 < 2 ^ a <= 2 ^ b.
Proof. intros H. split; [apply Z.pow_pos_nonneg; lia|apply Z.pow_le_mono_r; lia]. Qed.
Lemma mask_bits off w i : 0 <= off -> 0 <= w -> off + w <= 64 -> 0 <= i ->
  Z.testbit (u64 (Z.shiftl (Z.shiftl 1 w - 1) off)) i = (off <=? i) && (i <? off + w).
Proof.
  intros Ho Hw Hs Hi. destruct (Z_lt_ge_dec i 64) as [Hl|Hg].
  - rewrite u64_bits by lia. rewrite Z.shiftl_spec by lia. destruct (Z.leb_spec off i).
    + rewrite ones_bits by lia. destruct (Z.ltb_spec (i - off) w), (Z.ltb_spec i (off + w)); reflexivity || lia.
    + rewrite Z.testbit_neg_r by lia. reflexivity.
  - unfold u64. change two64 with (2 ^ 64). rewrite Z.mod_pow2_bits_high by lia.
    destruct (Z.ltb_spec i (off + w)); [lia|]. rewrite andb_false_r. reflexivity.
Qed.
Lemma s32_small_neg z : - two31 <= z < 0 -> s32 z = z.
Proof. intros H. apply s32_id. unfold is_i32, two31 in *. lia. Qed.

Lemma new_field_ok name off sw f : 0 <= off -> new_field name off sw = Ok f ->
  ok_field f /\ f_name f = name /\ f_off f = off /\ f_width f = Z.abs sw /\ f_signed f = (sw <? 0).
Proof.
  intros Ho E. unfold new_field, int_abs in E. destruct (Z.eqb_spec sw (- two31)) as [|Hs]; [discriminate|]. cbn [bind] in E.
  set (w := Z.abs sw) in *. assert (Hw : 0 <= w) by lia.
  destruct ((63 <? off) || (64 <? u32 (off + w))) eqn:E1; [discriminate|]. apply orb_false_iff in E1. destruct E1 as [E1 E2].
  destruct (Z.ltb_spec 63 off) as [|H63]; [discriminate|]. clear E1.
  destruct (Z.ltb_spec 63 w) as [|Hw63]; [discriminate|]. destruct (Z.eqb_spec w 63) as [|Hw62]; [discriminate|].
  assert (Hin : off + w <= 64). { rewrite u32_id in E2 by (unfold is_u32, two32; lia). apply Z.ltb_ge in E2. exact E2. }
  destruct (Z.ltb_spec sw 0) as [Hneg|Hpos].
  - injection E as <-. cbn [f_name f_off f_width f_signed f_mask f_min f_max]. split; [|repeat split; reflexivity].
    assert (Hw1 : 1 <= w) by lia.
    split; cbn [f_name f_off f_width f_signed f_mask f_min f_max]; try lia; try discriminate.
    + intros i Hi. apply mask_bits; lia.
    + intros x. unfold narrow, fits, place_of. cbn [p_signed p_width f_width f_signed].
      rewrite !Z.shiftl_1_l. replace (2 ^ (w - 1) - 2 ^ w) with (- 2 ^ (w - 1)).
      2:{ replace w with (1 + (w - 1)) at 3 by lia. rewrite Z.pow_add_r by lia. lia. }
      destruct (Z.leb_spec w 32) as [H32|H32].
      * pose proof (pow2_le (w - 1) 31 ltac:(lia)) as P. change (2 ^ 31) with two31 in P.
        rewrite (s32_id (- 2 ^ (w - 1))) by (unfold is_i32, two31 in *; lia).
        rewrite (s32_id (2 ^ (w - 1) - 1)) by (unfold is_i32, two31 in *; lia).
        rewrite orb_false_iff, !Z.ltb_ge. split; [intros []; split; [reflexivity|left; lia]|].
        intros [_ [|[]]]; [lia|discriminate].
      * assert (HP : 2 ^ (w - 1) = 2 ^ (w - 33) * two32).
        { change two32 with (2 ^ 32). rewrite <- Z.pow_add_r by lia. f_equal. lia. }
        replace (s32 (- 2 ^ (w - 1))) with 0.
        2:{ rewrite HP. rewrite <- s32_mod. rewrite <- Z.mul_opp_l, Z.mod_mul by discriminate. reflexivity. }
        replace (s32 (2 ^ (w - 1) - 1)) with (-1).
        2:{ rewrite HP. rewrite <- s32_mod. replace (2 ^ (w - 33) * two32 - 1) with (-1 + 2 ^ (w - 33) * two32) by lia.
            rewrite Z.mod_add by discriminate. reflexivity. }
        split; [|intros []; discriminate]. rewrite orb_false_iff, !Z.ltb_ge. lia.
  - destruct (Z.ltb_spec 31 w) as [|H31]; [discriminate|].
    injection E as <-. cbn [f_name f_off f_width f_signed f_mask f_min f_max]. split; [|repeat split; reflexivity].
    split; cbn [f_name f_off f_width f_signed f_mask f_min f_max]; try lia; try discriminate.
    + intros i Hi. apply mask_bits; lia.
    + intros x. unfold narrow, fits, place_of. cbn [p_signed p_width f_width f_signed]. rewrite Z.shiftl_1_l.
      destruct (Z.leb_spec w 30) as [H30|H30].
      * pose proof (pow2_le w 30 ltac:(lia)) as P. change (2 ^ 30) with 1073741824 in P.
        rewrite (s32_id (2 ^ w)) by (unfold is_i32, two31 in *; lia).
        rewrite orb_false_iff, !Z.ltb_ge. split; [intros []; split; [reflexivity|lia]|].
        intros [_ [|[]]]; lia.
      * replace w with 31 by lia. split; [|intros []; discriminate]. change (s32 (2 ^ 31)) with (- two31).
        unfold two31. rewrite orb_false_iff, !Z.ltb_ge. lia.
Qed.

Lemma value_ok b f : ok_field f -> value b f = number_in b (place_of f).
Proof.
  intros [Ho Hw Hin Hs Hu Hm _]. unfold value.
  assert (E : s64 (Z.shiftr (Z.land (u64 b) (f_mask f)) (f_off f)) = (b / 2 ^ f_off f) mod 2 ^ f_width f).
  { assert (E : Z.shiftr (Z.land (u64 b) (f_mask f)) (f_off f) = (b / 2 ^ f_off f) mod 2 ^ f_width f).
    { apply Z.bits_inj_iff'. intros n Hn. rewrite part_bits by lia. rewrite Z.shiftr_spec, Z.land_spec, Hm by lia.
      destruct (Z.leb_spec (f_off f) (n + f_off f)); [|lia]. cbn [andb].
      destruct (Z.ltb_spec (n + f_off f) (f_off f + f_width f)), (Z.ltb_spec n (f_width f)); try (exfalso; lia).
      - rewrite u64_bits by lia. rewrite andb_true_r. rewrite Z.add_comm. reflexivity.
      - apply andb_false_r. }
    rewrite E. apply s64_id. pose proof (Z.mod_pos_bound (b / 2 ^ f_off f) (2 ^ f_width f) ltac:(apply Z.pow_pos_nonneg; lia)) as B.
    pose proof (pow2_le (f_width f) 62 ltac:(lia)) as P. change (2 ^ 62) with 4611686018427387904 in P. unfold is_i64, two63. lia. }
  rewrite E. unfold number_in, place_of. cbn [p_off p_width p_signed].
  set (u := (b / 2 ^ f_off f) mod 2 ^ f_width f) in *.
  destruct (f_signed f) eqn:S; [|reflexivity]. cbn [andb]. specialize (Hs eq_refl).
  assert (T : negb (Z.land u (Z.shiftl 1 (f_width f - 1)) =? 0) = (2 ^ (f_width f - 1) <=? u)).
  { assert (B : 0 <= u < 2 ^ f_width f) by (apply Z.mod_pos_bound, Z.pow_pos_nonneg; lia).
    assert (D : 2 ^ f_width f = 2 * 2 ^ (f_width f - 1)).
    { replace (f_width f) with (1 + (f_width f - 1)) at 1 by lia. rewrite Z.pow_add_r by lia. reflexivity. }
    assert (TB : Z.testbit u (f_width f - 1) = (2 ^ (f_width f - 1) <=? u)).
    { rewrite Z.testbit_eqb by lia. pose proof (pow2_le 0 (f_width f - 1) ltac:(lia)) as P0.
      destruct (Z.leb_spec (2 ^ (f_width f - 1)) u) as [L|L].
      - replace (u / 2 ^ (f_width f - 1)) with 1; [reflexivity|].
        apply (Z.div_unique_pos u (2 ^ (f_width f - 1)) 1 (u - 2 ^ (f_width f - 1))); lia.
      - rewrite Z.div_small by lia. reflexivity. }
    rewrite <- TB. destruct (Z.testbit u (f_width f - 1)) eqn:TT.
    - apply negb_true_iff. apply Z.eqb_neq. intros Z0. assert (X : Z.testbit (Z.land u (Z.shiftl 1 (f_width f - 1))) (f_width f - 1) = false) by (rewrite Z0; apply Z.bits_0).
      rewrite Z.land_spec, TT, pow2_bit, Z.eqb_refl in X by lia. discriminate.
    - apply negb_false_iff, Z.eqb_eq. apply Z.bits_inj_iff'. intros n Hn. rewrite Z.bits_0, Z.land_spec, pow2_bit by lia.
      destruct (Z.eqb_spec n (f_width f - 1)) as [->|]; [rewrite TT; reflexivity|apply andb_false_r]. }
  rewrite T, Z.shiftl_1_l. reflexivity.
Qed.

Lemma assign_bits b f x b' : ok_field f -> assign b f x = (Ok tt, b') ->
  is_i64 b' /\ forall i, 0 <= i < 64 ->
    Z.testbit b' i = if (f_off f <=? i) && (i <? f_off f + f_width f) then Z.testbit x (i - f_off f) else Z.testbit b i.
Proof.
  intros [Ho Hw Hin Hs Hu Hm _] E. unfold assign in E. destruct ((x <? f_min f) || (f_max f <? x)); [discriminate|].
  injection E as <-. split; [apply s64_range|]. intros i Hi.
  rewrite s64_bits by exact Hi. rewrite Z.lor_spec, Z.land_spec, !u64_bits, s64_bits, Z.land_spec, !u64_bits, Z.lnot_spec, Hm by lia.
  rewrite Z.shiftl_spec by lia.
  destruct ((f_off f <=? i) && (i <? f_off f + f_width f)).
  - cbn [negb]. rewrite andb_false_r, andb_true_r. reflexivity.
  - cbn [negb]. rewrite andb_true_r, andb_false_r. apply orb_false_r.
Qed.
Lemma assign_other b f x b' p : ok_field f -> assign b f x = (Ok tt, b') -> inside_64 p -> apart (place_of f) p ->
  number_in b' p = number_in b p.
Proof.
  intros Hf E [P1 [P2 P3]] A. destruct (assign_bits b f x b' Hf E) as [_ Hb]. apply number_ext; [lia..|].
  intros i Hi. unfold has_bit in Hi. rewrite Hb by lia. specialize (A i).
  destruct (Z.leb_spec (f_off f) i), (Z.ltb_spec i (f_off f + f_width f)); cbn [andb]; try reflexivity.
  exfalso. apply A. unfold has_bit, place_of. cbn. lia.
Qed.
Lemma assign_same b f x b' : ok_field f -> assign b f x = (Ok tt, b') -> fits (place_of f) x -> value b' f = x.
Proof.
  intros Hf E Hx. rewrite value_ok by exact Hf. destruct (assign_bits b f x b' Hf E) as [_ Hb].
  destruct Hf as [Ho Hw Hin Hs Hu Hm _]. unfold number_in, place_of, fits in *. cbn [p_off p_width p_signed] in *.
  replace ((b' / 2 ^ f_off f) mod 2 ^ f_width f) with (x mod 2 ^ f_width f).
  2:{ apply Z.bits_inj_iff'. intros n Hn. rewrite part_bits by lia. destruct (Z.ltb_spec n (f_width f)).
      - rewrite Z.mod_pow2_bits_low by lia. rewrite Hb by lia.
        destruct (Z.leb_spec (f_off f) (f_off f + n)), (Z.ltb_spec (f_off f + n) (f_off f + f_width f)); try lia.
        cbn [andb]. f_equal. lia.
      - rewrite Z.mod_pow2_bits_high by lia. reflexivity. }
  destruct (f_signed f).
  - specialize (Hs eq_refl).
    assert (D : 2 ^ f_width f = 2 * 2 ^ (f_width f - 1)).
    { replace (f_width f) with (1 + (f_width f - 1)) at 1 by lia. rewrite Z.pow_add_r by lia. reflexivity. }
    cbn [andb]. destruct (Z_lt_ge_dec x 0).
    + replace (x mod 2 ^ f_width f) with (x + 2 ^ f_width f).
      2:{ apply Z.mod_unique_pos with (q := -1); lia. }
      destruct (Z.leb_spec (2 ^ (f_width f - 1)) (x + 2 ^ f_width f)); lia.
    + rewrite Z.mod_small by lia. destruct (Z.leb_spec (2 ^ (f_width f - 1)) x); lia.
  - cbn [andb]. apply Z.mod_small. exact Hx.
Qed.
Lemma assign_rejected b f x r b' : assign b f x = (r, b') -> r <> Ok tt -> r = Throw LException /\ b' = b.
Proof. unfold assign. destruct ((x <? f_min f) || (f_max f <? x)); intros E Hr; injection E as <- <-; [split; reflexivity|congruence]. Qed.
Lemma assign_i64 b f x : is_i64 b -> is_i64 (snd (assign b f x)).
Proof. intros Hb. unfold assign. destruct (_ || _); cbn [snd]; [exact Hb|apply s64_range]. Qed.

(** ** Lists of fields *)

Definition named_places (b : bitfield) : list (bytes * place) := map (fun f => (f_name f, place_of f)) (bf_fields b).
Definition last_index (fs : list field) (n : bytes) (i : Z) : Prop :=
  0 <= i < Zlen fs /\ (exists f, nth_error fs (Z.to_nat i) = Some f /\ f_name f = n) /\
  forall j f, nth_error fs j = Some f -> f_name f = n -> Z.of_nat j <= i.
Record good (b : bitfield) : Prop := {
  g_fields : Forall ok_field (bf_fields b);
  g_apart : all_apart (map place_of (bf_fields b));
  g_joined : forall i, 0 <= i < 64 -> Z.testbit (bf_joined b) i = true <-> exists f, In f (bf_fields b) /\ has_bit (place_of f) i;
  g_map : sm_ok (bf_map b);
  g_index : forall n i, sm_get n (bf_map b) = Some i <-> last_index (bf_fields b) n i }.

Lemma good_no_fields : good no_fields.
Proof.
  split; cbn [bf_fields bf_map bf_joined no_fields].
  - constructor.
  - intros i j p q H. destruct i; discriminate.
  - intros i Hi. rewrite Z.bits_0. split; [discriminate|]. intros (f & [] & _).
  - apply sm_ok_nil.
  - intros n i. split; [discriminate|]. intros [H _]. unfold Zlen in H. cbn in H. lia.
Qed.
Lemma good_set_value b v : good b -> good (set_value b v).
Proof. intros [A B C D E]. split; assumption. Qed.

Lemma all_apart_snoc ps p : all_apart ps -> (forall q, In q ps -> apart p q) -> all_apart (ps ++ [p]).
Proof.
  intros H Hp i j a b Ha Hb Hij.
  assert (G : forall k c, nth_error (ps ++ [p]) k = Some c -> nth_error ps k = Some c \/ k = length ps /\ c = p).
  { intros k c Hk. destruct (Nat.lt_ge_cases k (length ps)) as [L|L].
    - rewrite nth_error_app1 in Hk by exact L. left. exact Hk.
    - rewrite nth_error_app2 in Hk by exact L. destruct (k - length ps)%nat as [|m] eqn:E; cbn in Hk.
      + right. split; [lia|congruence].
      + destruct m; discriminate. }
  destruct (G i a Ha) as [Ha'|[Hi ->]]; destruct (G j b Hb) as [Hb'|[Hj ->]].
  - apply (H i j); assumption.
  - intros k [K1 K2]. apply (Hp a (nth_error_In _ _ Ha') k). split; assumption.
  - apply Hp. apply (nth_error_In _ _ Hb').
  - lia.
Qed.

Lemma mask_overlap b f : good b -> ok_field f ->
  (Z.land (u64 (bf_joined b)) (f_mask f) =? 0) = true <-> (forall q, In q (map place_of (bf_fields b)) -> apart (place_of f) q).
Proof.
  intros Hb Hf. rewrite Z.eqb_eq. split.
  - intros E q Hq i [H1 H2]. apply in_map_iff in Hq. destruct Hq as (g & <- & Hg).
    assert (Hi : 0 <= i < 64). { unfold has_bit, place_of in H1. cbn in H1. destruct Hf. lia. }
    assert (X : Z.testbit (Z.land (u64 (bf_joined b)) (f_mask f)) i = false) by (rewrite E; apply Z.bits_0).
    rewrite Z.land_spec, u64_bits in X by lia. rewrite (of_mask f Hf) in X by lia.
    assert (J : Z.testbit (bf_joined b) i = true) by (apply (g_joined b Hb); [lia|exists g; split; assumption]).
    rewrite J in X. unfold has_bit, place_of in H1. cbn in H1.
    destruct (Z.leb_spec (f_off f) i), (Z.ltb_spec i (f_off f + f_width f)); cbn in X; try lia; discriminate.
  - intros H. apply Z.bits_inj_iff'. intros n Hn. rewrite Z.bits_0, Z.land_spec, (of_mask f Hf) by lia.
    destruct (Z.leb_spec (f_off f) n), (Z.ltb_spec n (f_off f + f_width f)); cbn [andb]; try apply andb_false_r.
    rewrite andb_true_r. assert (Hn64 : 0 <= n < 64) by (destruct Hf; lia). rewrite u64_bits by exact Hn64.
    destruct (Z.testbit (bf_joined b) n) eqn:J; [|reflexivity]. apply (g_joined b Hb) in J; [|exact Hn64].
    destruct J as (g & Hg & Hbit). exfalso. apply (H (place_of g) (in_map place_of _ _ Hg) n).
    split; [unfold has_bit, place_of; cbn; lia|exact Hbit].
Qed.

Lemma nth_error_snoc {A} (l : list A) a k c : nth_error (l ++ [a]) k = Some c -> nth_error l k = Some c \/ k = length l /\ c = a.
Proof.
  intros Hk. destruct (Nat.lt_ge_cases k (length l)) as [L|L].
  - rewrite nth_error_app1 in Hk by exact L. left. exact Hk.
  - rewrite nth_error_app2 in Hk by exact L. destruct (k - length l)%nat as [|m] eqn:E; cbn in Hk.
    + right. split; [lia|congruence].
    + destruct m; discriminate.
Qed.
Lemma Zlen_snoc {A} (l : list A) a : Zlen (l ++ [a]) = Zlen l + 1.
Proof. rewrite Zlen_app. reflexivity. Qed.
Lemma last_index_snoc fs f n i : last_index (fs ++ [f]) n i <-> if bytes_eqb n (f_name f) then i = Zlen fs else last_index fs n i.
Proof.
  destruct (bytes_eqb n (f_name f)) eqn:E.
  - apply bytes_eqb_eq in E. subst n. split.
    + intros (H1 & _ & H3). rewrite Zlen_snoc in H1. specialize (H3 (length fs) f).
      rewrite nth_error_app2, Nat.sub_diag in H3 by lia. specialize (H3 eq_refl eq_refl). unfold Zlen in *. lia.
    + intros ->. split; [rewrite Zlen_snoc; unfold Zlen; lia|]. split.
      * exists f. unfold Zlen. rewrite Nat2Z.id, nth_error_app2, Nat.sub_diag by lia. split; reflexivity.
      * intros j g Hj _. assert (L : (j < length (fs ++ [f]))%nat) by (apply nth_error_Some; congruence).
        rewrite app_length in L. cbn in L. unfold Zlen. lia.
  - apply bytes_eqb_neq in E. split.
    + intros (H1 & (g & H2 & H2') & H3). destruct (nth_error_snoc _ _ _ _ H2) as [H|[_ ->]]; [|congruence].
      split; [|split; [exists g; split; assumption|]].
      * assert (L : (Z.to_nat i < length fs)%nat) by (apply nth_error_Some; congruence). unfold Zlen. lia.
      * intros j h Hj Hh. apply (H3 j h); [|exact Hh]. rewrite nth_error_app1; [exact Hj|]. apply nth_error_Some. congruence.
    + intros (H1 & (g & H2 & H2') & H3). split; [rewrite Zlen_snoc; lia|]. split.
      * exists g. split; [|exact H2']. rewrite nth_error_app1; [exact H2|]. apply nth_error_Some. congruence.
      * intros j h Hj Hh. destruct (nth_error_snoc _ _ _ _ Hj) as [H|[_ ->]]; [apply (H3 j h H Hh)|congruence].
Qed.

Lemma add_field_ok b name off sw b' : good b -> 0 <= off -> add_field b name off sw = Ok b' ->
  good b' /\ bf_value b' = bf_value b /\
  exists f, new_field name off sw = Ok f /\ bf_fields b' = bf_fields b ++ [f].
Proof.
  intros Hb Ho E. unfold add_field in E. destruct (new_field name off sw) as [f|e|k] eqn:N; cbn [bind] in E; try discriminate.
  destruct (new_field_ok name off sw f Ho N) as (Hf & Hn & _).
  destruct (Z.land (u64 (bf_joined b)) (f_mask f) =? 0) eqn:Z0; [|discriminate]. injection E as <-.
  split; [|split; [reflexivity|exists f; split; reflexivity]].
  pose proof (proj1 (mask_overlap b f Hb Hf) Z0) as Ap.
  split; cbn [bf_fields bf_map bf_joined].
  - apply Forall_app. split; [apply (g_fields b Hb)|constructor; [exact Hf|constructor]].
  - rewrite map_app. apply all_apart_snoc; [apply (g_apart b Hb)|exact Ap].
  - intros i Hi. rewrite s64_bits by exact Hi. rewrite Z.lor_spec, u64_bits, (of_mask f Hf) by lia.
    rewrite orb_true_iff, (g_joined b Hb) by exact Hi. split.
    + intros [(g & Hg & Hbit)|H]; [exists g; split; [apply in_or_app; left; exact Hg|exact Hbit]|].
      exists f. split; [apply in_or_app; right; left; reflexivity|]. unfold has_bit, place_of. cbn. lia.
    + intros (g & Hg & Hbit). apply in_app_or in Hg. destruct Hg as [Hg|[<-|[]]]; [left; exists g; split; assumption|].
      right. unfold has_bit, place_of in Hbit. cbn in Hbit. lia.
  - apply sm_set_ok, (g_map b Hb).
  - intros n i. rewrite sm_get_set by apply (g_map b Hb). rewrite last_index_snoc, Hn.
    destruct (bytes_eqb n name).
    + split; [intros [= <-]; reflexivity|intros ->; reflexivity].
    + apply (g_index b Hb).
Qed.

(** ** Adding a list of fields *)

Fixpoint adds (b : bitfield) (l : list (bytes * Z * Z)) : Res bitfield :=
  match l with [] => Ok b | (name, off, sw) :: l' => do b' <- add_field b name off sw; adds b' l' end.
Definition desc_of (f : field) : bytes * Z * Z := (f_name f, f_off f, if f_signed f then - f_width f else f_width f).
Definition nonneg_off (d : bytes * Z * Z) : Prop := let '(_, off, _) := d in 0 <= off.

Lemma adds_ok : forall l b b', good b -> Forall nonneg_off l -> adds b l = Ok b' ->
  good b' /\ bf_value b' = bf_value b /\ map desc_of (bf_fields b') = map desc_of (bf_fields b) ++ l.
Proof.
  induction l as [|[[name off] sw] l IH]; intros b b' Hb Ho E; cbn [adds] in E.
  - injection E as <-. rewrite app_nil_r. auto.
  - inversion Ho as [|? ? O1 O2]; subst. cbn [nonneg_off] in O1.
    destruct (add_field b name off sw) as [b1|e|k] eqn:A; cbn [bind] in E; try discriminate.
    destruct (add_field_ok b name off sw b1 Hb O1 A) as (G1 & V1 & f & N & F1).
    destruct (IH b1 b' G1 O2 E) as (G2 & V2 & F2). split; [exact G2|]. split; [congruence|].
    rewrite F2, F1, map_app, <- app_assoc. cbn [map app].
    destruct (new_field_ok name off sw f O1 N) as (_ & N1 & N2 & N3 & N4).
    unfold desc_of at 2. rewrite N1, N2, N3, N4. do 3 f_equal. destruct (Z.ltb_spec sw 0); lia.
Qed.
