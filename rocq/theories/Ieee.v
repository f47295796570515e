(** * IEEE-754 words: comparison of floats and conversions between float and double

    A [float] is its 32-bit word, a [double] its 64-bit word.  The only floating point
    operations of the modelled code that matter for stored data are the casts between the two
    types (for instance src/cpp/src/SIO/SIOParticleHandler.cc:74-77 and 37-42) and the comparison of
    likelihoods (src/cpp/include/IMPL/ParticleIDImpl.h:14-18).  They are modelled for the
    usual environment: binary32/binary64, round to nearest even. *)

From Verif Require Import Bytes.

Ltac Zify.zify_post_hook ::= Z.div_mod_to_equations.

(** sign, exponent and fraction of a binary32 word *)
Definition f_sign (w : Z) : Z := w / 2147483648.
Definition f_exp (w : Z) : Z := (w / 8388608) mod 256.
Definition f_frac (w : Z) : Z := w mod 8388608.
Definition f_nan (w : Z) : bool := (f_exp w =? 255) && negb (f_frac w =? 0).

(** [a > b] on floats: false if one of them is not a number; zeros compare equal. *)
Definition f_val (w : Z) : Z := if f_sign w =? 0 then w else - (w - 2147483648).
Definition f_gt (a b : Z) : bool :=
  negb (f_nan a) && negb (f_nan b) && (f_val b <? f_val a).

(** [(double) f]: exact; the quiet bit of a not-a-number is set. *)
Definition f2d (w : Z) : Z :=
  let s := f_sign w in let e := f_exp w in let m := f_frac w in
  if e =? 255 then
    s * 2 ^ 63 + 2047 * 2 ^ 52 + (if m =? 0 then 0 else Z.lor (m * 2 ^ 29) (2 ^ 51))
  else if e =? 0 then
    if m =? 0 then s * 2 ^ 63
    else let k := Z.log2 m in s * 2 ^ 63 + (k + 874) * 2 ^ 52 + (m - 2 ^ k) * 2 ^ (52 - k)
  else s * 2 ^ 63 + (e + 896) * 2 ^ 52 + m * 2 ^ 29.

(** division by a power of two rounded to nearest, ties to even *)
Definition rne (m sh : Z) : Z :=
  let q := m / 2 ^ sh in let r := m mod 2 ^ sh in let half := 2 ^ (sh - 1) in
  if r <? half then q
  else if half <? r then q + 1
  else if Z.even q then q else q + 1.

(** [(float) d]: rounded to nearest even; too large values become infinite. *)
Definition d2f (w : Z) : Z :=
  let s := w / 2 ^ 63 in let e := (w / 2 ^ 52) mod 2048 in let m := w mod 2 ^ 52 in
  if e =? 2047 then
    s * 2147483648 + 255 * 8388608 + (if m =? 0 then 0 else Z.lor (m / 2 ^ 29) (2 ^ 22))
  else if e =? 0 then s * 2147483648
  else
    let mm := 2 ^ 52 + m in
    let x := if 897 <=? e then (e - 897) * 8388608 + rne mm 29
             else rne mm (29 + (897 - e)) in
    s * 2147483648 + Z.min x 2139095040.

(** ** Ranges *)

Lemma lor_range a n : 0 <= n -> 0 <= a < 2 ^ (n + 1) -> 0 <= Z.lor a (2 ^ n) < 2 ^ (n + 1).
Proof.
  intros Hn Ha.
  assert (H2 : 2 ^ n < 2 ^ (n + 1)) by (apply Z.pow_lt_mono_r; lia).
  assert (H1 : 0 < 2 ^ n) by (apply Z.pow_pos_nonneg; lia).
  assert (H0 : 0 < Z.lor a (2 ^ n)).
  { assert (0 <= Z.lor a (2 ^ n)) by (apply Z.lor_nonneg; lia).
    assert (Z.lor a (2 ^ n) <> 0); [|lia]. intros E. apply Z.lor_eq_0_iff in E. lia. }
  split; [lia|].
  apply Z.log2_lt_pow2; [exact H0|].
  rewrite Z.log2_lor by lia. apply Z.max_lub_lt.
  - destruct (Z.eq_dec a 0) as [->|]; [cbn; lia|]. apply Z.log2_lt_pow2; lia.
  - rewrite Z.log2_pow2; lia.
Qed.

Lemma f2d_range w : is_u32 w -> is_u64 (f2d w).
Proof.
  unfold is_u32, is_u64, two32, two64. intros Hw. unfold f2d, f_sign, f_exp, f_frac. cbv zeta.
  assert (0 <= w / 2147483648 <= 1) by lia.
  set (s := w / 2147483648) in *.
  assert (0 <= w mod 8388608 < 8388608) by lia. set (m := w mod 8388608) in *.
  assert (0 <= (w / 8388608) mod 256 < 256) by lia. set (e := (w / 8388608) mod 256) in *.
  destruct (e =? 255) eqn:E1.
  - destruct (m =? 0); [lia|].
    pose proof (lor_range (m * 2 ^ 29) 51 ltac:(lia) ltac:(lia)) as R. change (2 ^ (51 + 1)) with 4503599627370496 in R. lia.
  - destruct (e =? 0) eqn:E2.
    + destruct (m =? 0) eqn:E3; [lia|].
      assert (Hm : 0 < m) by lia.
      pose proof (Z.log2_spec m Hm) as [L1 L2]. pose proof (Z.log2_nonneg m) as L0.
      assert (Hk : Z.log2 m < 23). { apply Z.log2_lt_pow2; lia. }
      set (k := Z.log2 m) in *.
      assert (Hp : 0 < 2 ^ (52 - k)) by (apply Z.pow_pos_nonneg; lia).
      assert (Hpp : 2 ^ k * 2 ^ (52 - k) = 2 ^ 52). { rewrite <- Z.pow_add_r by lia. f_equal. lia. }
      replace (2 ^ Z.succ k) with (2 * 2 ^ k) in L2 by (rewrite Z.pow_succ_r; lia).
      assert (0 <= (m - 2 ^ k) * 2 ^ (52 - k) < 2 ^ 52) by nia.
      lia.
    + lia.
Qed.

Lemma rne_range m sh : 0 < sh -> 0 <= m -> m / 2 ^ sh <= rne m sh <= m / 2 ^ sh + 1.
Proof.
  intros Hs Hm. unfold rne. cbv zeta.
  destruct (_ <? _); [lia|]. destruct (_ <? _); [lia|]. destruct (Z.even _); lia.
Qed.

Lemma d2f_range w : is_u64 w -> is_u32 (d2f w).
Proof.
  unfold is_u32, is_u64, two32, two64. intros Hw. unfold d2f. cbv zeta.
  assert (0 <= w / 2 ^ 63 <= 1) by (change (2 ^ 63) with 9223372036854775808; lia).
  set (s := w / 2 ^ 63) in *.
  assert (0 <= w mod 2 ^ 52 < 2 ^ 52) by (apply Z.mod_pos_bound; lia). set (m := w mod 2 ^ 52) in *.
  assert (0 <= (w / 2 ^ 52) mod 2048 < 2048) by (apply Z.mod_pos_bound; lia). set (e := (w / 2 ^ 52) mod 2048) in *.
  change (2 ^ 52) with 4503599627370496 in *.
  destruct (e =? 2047) eqn:E1.
  - destruct (m =? 0); [lia|].
    pose proof (lor_range (m / 2 ^ 29) 22 ltac:(lia)) as R. change (2 ^ (22 + 1)) with 8388608 in R.
    change (2 ^ 29) with 536870912 in *. specialize (R ltac:(lia)). lia.
  - destruct (e =? 0) eqn:E2; [lia|].
    destruct (897 <=? e) eqn:E3.
    + pose proof (rne_range (4503599627370496 + m) 29 ltac:(lia) ltac:(lia)) as R. change (2 ^ 29) with 536870912 in *. lia.
    + pose proof (rne_range (4503599627370496 + m) (29 + (897 - e)) ltac:(lia) ltac:(lia)) as R.
      assert (0 <= (4503599627370496 + m) / 2 ^ (29 + (897 - e))).
      { apply Z.div_pos; [lia|]. apply Z.pow_pos_nonneg; lia. }
      lia.
Qed.

(** ** A float survives the conversion to double and back *)

Lemma rne_exact q sh : 0 < sh -> 0 <= q -> rne (q * 2 ^ sh) sh = q.
Proof.
  intros Hs Hq. assert (0 < 2 ^ sh) by (apply Z.pow_pos_nonneg; lia).
  assert (0 < 2 ^ (sh - 1)) by (apply Z.pow_pos_nonneg; lia).
  unfold rne. cbv zeta. rewrite Z.div_mul, Z_mod_mult by lia.
  replace (0 <? 2 ^ (sh - 1)) with true by lia. reflexivity.
Qed.

Lemma d_fields s e m : 0 <= s <= 1 -> 0 <= e < 2048 -> 0 <= m < 2 ^ 52 ->
  let w := s * 2 ^ 63 + e * 2 ^ 52 + m in
  w / 2 ^ 63 = s /\ (w / 2 ^ 52) mod 2048 = e /\ w mod 2 ^ 52 = m.
Proof.
  intros Hs He Hm w. subst w. change (2 ^ 63) with 9223372036854775808. change (2 ^ 52) with 4503599627370496 in *.
  lia.
Qed.

Lemma d2f_f2d w : is_u32 w -> f_nan w = false -> d2f (f2d w) = w.
Proof.
  unfold is_u32, two32. intros Hw Hn. unfold f_nan in Hn.
  unfold f2d. cbv zeta.
  assert (Hs : 0 <= f_sign w <= 1) by (unfold f_sign; lia).
  assert (Hm : 0 <= f_frac w < 8388608) by (unfold f_frac; lia).
  assert (He : 0 <= f_exp w < 256) by (unfold f_exp; lia).
  assert (Hwe : w = f_sign w * 2147483648 + f_exp w * 8388608 + f_frac w) by (unfold f_sign, f_exp, f_frac; lia).
  set (s := f_sign w) in *. set (m := f_frac w) in *. set (e := f_exp w) in *. clearbody s m e.
  destruct (e =? 255) eqn:E1.
  - destruct (m =? 0) eqn:E2; [|discriminate].
    destruct (d_fields s 2047 0 Hs ltac:(lia) ltac:(lia)) as (H1 & H2 & H3).
    unfold d2f. cbv zeta. rewrite H1, H2, H3. cbn [Z.eqb Pos.eqb]. lia.
  - destruct (e =? 0) eqn:E2.
    + destruct (m =? 0) eqn:E3.
      * destruct (d_fields s 0 0 Hs ltac:(lia) ltac:(lia)) as (H1 & H2 & H3).
        rewrite Z.add_0_r, Z.mul_0_l, Z.add_0_r in H1, H2, H3.
        unfold d2f. cbv zeta. rewrite H1, H2. cbn [Z.eqb Pos.eqb]. lia.
      * pose proof (Z.log2_spec m ltac:(lia)) as [L1 L2]. pose proof (Z.log2_nonneg m) as L0.
        assert (Hk : Z.log2 m < 23). { apply Z.log2_lt_pow2; lia. }
        set (k := Z.log2 m) in *.
        assert (Hp : 0 < 2 ^ (52 - k)) by (apply Z.pow_pos_nonneg; lia).
        assert (Hpp : 2 ^ k * 2 ^ (52 - k) = 2 ^ 52). { rewrite <- Z.pow_add_r by lia. f_equal. lia. }
        replace (2 ^ Z.succ k) with (2 * 2 ^ k) in L2 by (rewrite Z.pow_succ_r; lia).
        assert (0 <= (m - 2 ^ k) * 2 ^ (52 - k) < 2 ^ 52) by nia.
        destruct (d_fields s (k + 874) ((m - 2 ^ k) * 2 ^ (52 - k)) Hs ltac:(lia) ltac:(lia)) as (H1 & H2 & H3).
        unfold d2f. cbv zeta. rewrite H1, H2, H3.
        replace (k + 874 =? 2047) with false by lia. replace (k + 874 =? 0) with false by lia.
        replace (897 <=? k + 874) with false by lia.
        replace (2 ^ 52 + (m - 2 ^ k) * 2 ^ (52 - k)) with (m * 2 ^ (52 - k)) by nia.
        replace (29 + (897 - (k + 874))) with (52 - k) by lia.
        rewrite rne_exact by lia. lia.
    + destruct (d_fields s (e + 896) (m * 2 ^ 29) Hs ltac:(lia) ltac:(lia)) as (H1 & H2 & H3).
      unfold d2f. cbv zeta. rewrite H1, H2, H3.
      replace (e + 896 =? 2047) with false by lia. replace (e + 896 =? 0) with false by lia.
      replace (897 <=? e + 896) with true by lia.
      replace (2 ^ 52 + m * 2 ^ 29) with ((8388608 + m) * 2 ^ 29) by lia.
      rewrite rne_exact by lia. lia.
Qed.

(** 1.0f, 0.1f, the largest float, the smallest subnormal *)
Example f2d_ex : map f2d [1065353216; 1036831949; 2139095039; 1; 2147483648]
  = [4607182418800017408; 4591870180174331904; 5183643170566569984; 3936146074321813504; 9223372036854775808].
Proof. reflexivity. Qed.
(** 1.0, 0.1, 1e300, the smallest positive double *)
Example d2f_ex : map d2f [4607182418800017408; 4591870180066957722; 9094988303060435359; 1]
  = [1065353216; 1036831949; 2139095040; 0].
Proof. reflexivity. Qed.
