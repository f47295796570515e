(** * Proofs about LCTime *)
From Coq Require Import ZArith List Bool Lia.
From Verif Require Import Bytes TimeModel TimeSpec.
Import ListNotations.
Open Scope Z_scope.

Lemma fits16 z : 0 <= z < 32768 -> s16 z = z.
Proof. intros H. apply s16_id. unfold is_i16. lia. Qed.
Lemma fits32 z : 0 <= z < 2 ^ 31 -> s32 z = z.
Proof. intros H. apply s32_id. unfold is_i32, two31 in *. lia. Qed.
Lemma fitsu z : 0 <= z < 2 ^ 32 -> u32 z = z.
Proof. intros H. apply u32_id. unfold is_u32, two32 in *. lia. Qed.

Lemma dividesb k y : 0 < k -> (y mod k =? 0) = true <-> (k | y).
Proof. intros H. rewrite Z.eqb_eq. apply Z.mod_divide. lia. Qed.

Lemma leap_iff y : is_leap_year y = true <-> leap y.
Proof.
  unfold is_leap_year, leap. rewrite orb_true_iff, andb_true_iff, negb_true_iff, !dividesb by lia.
  assert (E : (y mod 100 =? 0) = false <-> ~ (100 | y)).
  { rewrite <- not_true_iff_false, dividesb by lia. reflexivity. }
  rewrite E. reflexivity.
Qed.

Lemma leap_dec y : leap y \/ ~ leap y.
Proof. destruct (is_leap_year y) eqn:E; [left; apply leap_iff; exact E|right; rewrite <- leap_iff; congruence]. Qed.

Lemma months m : 1 <= m <= 12 -> m = 1 \/ m = 2 \/ m = 3 \/ m = 4 \/ m = 5 \/ m = 6 \/ m = 7 \/ m = 8 \/ m = 9 \/ m = 10 \/ m = 11 \/ m = 12.
Proof. lia. Qed.

Lemma length_iff y m n : month_length y m n <-> 1 <= m <= 12 /\ n = days_in_month m y.
Proof.
  unfold month_length, days_in_month. cbn [In]. split.
  - intros [[H ->]|[[H ->]|[(-> & L & ->)|(-> & L & ->)]]].
    + repeat destruct H as [<-|H]; try (destruct H); split; (lia || reflexivity).
    + repeat destruct H as [<-|H]; try (destruct H); split; (lia || reflexivity).
    + split; [lia|]. apply leap_iff in L. rewrite L. reflexivity.
    + split; [lia|]. rewrite <- leap_iff in L. apply not_true_is_false in L. rewrite L. reflexivity.
  - intros [H ->]. apply months in H. repeat destruct H as [->|H]; try (subst m);
    try (left; split; [tauto|reflexivity]); try (right; left; split; [tauto|reflexivity]).
    right; right. destruct (is_leap_year y) eqn:E; [left|right]; (split; [reflexivity|]); (split; [|reflexivity]).
    + apply leap_iff. exact E.
    + rewrite <- leap_iff. congruence.
Qed.

(** days before a year and before a month *)
Definition leaps (y : Z) : Z := y / 4 - y / 100 + y / 400.
Definition dby (y : Z) : Z := 365 * (y - 1970) + leaps (y - 1) - 477.
Definition cum (m y : Z) : Z := nth (Z.to_nat m) [0; 0; 31; 59; 90; 120; 151; 181; 212; 243; 273; 304; 334] 0 + (if (2 <? m) && is_leap_year y then 1 else 0).
Definition dayno (a : Z * Z * Z) : Z := let '(y, m, d) := a in dby y + cum m y + d - 1.
Definition good (a : Z * Z * Z) : Prop := let '(y, m, d) := a in 1970 <= y /\ 1 <= m <= 12 /\ 1 <= d <= days_in_month m y.

Lemma dby0 : dby 1970 = 0.
Proof. reflexivity. Qed.

Lemma div_step k y : 0 < k -> y / k = (y - 1) / k + (if y mod k =? 0 then 1 else 0).
Proof.
  intros H. pose proof (Z.div_mod y k ltac:(lia)) as E. pose proof (Z.mod_pos_bound y k H) as B. destruct (Z.eqb_spec (y mod k) 0) as [Z0|N].
  - assert (y / k - 1 = (y - 1) / k); [|lia]. apply (Z.div_unique (y - 1) k _ (k - 1)); lia.
  - rewrite Z.add_0_r. apply (Z.div_unique (y - 1) k _ (y mod k - 1)); lia.
Qed.

Lemma mod_of a b y : 0 < a -> (a | b) -> 0 < b -> y mod b = 0 -> y mod a = 0.
Proof. intros Ha D Hb H. apply Z.mod_divide; [lia|]. apply Z.mod_divide in H; [|lia]. exact (Z.divide_trans _ _ _ D H). Qed.

Lemma leaps_step y : leaps y = leaps (y - 1) + (if is_leap_year y then 1 else 0).
Proof.
  unfold leaps, is_leap_year. rewrite (div_step 4 y), (div_step 100 y), (div_step 400 y) by lia.
  pose proof (mod_of 100 400 y ltac:(lia) ltac:(exists 4; reflexivity) ltac:(lia)) as M1.
  pose proof (mod_of 4 100 y ltac:(lia) ltac:(exists 25; reflexivity) ltac:(lia)) as M2.
  destruct (Z.eqb_spec (y mod 4) 0); destruct (Z.eqb_spec (y mod 100) 0); destruct (Z.eqb_spec (y mod 400) 0); cbn [negb andb orb];
    try lia; exfalso; tauto.
Qed.

Lemma dby_step y : dby (y + 1) = dby y + days_in_year y.
Proof.
  unfold dby, days_in_year, DPY. replace (y + 1 - 1) with y by lia. rewrite (leaps_step y). destruct (is_leap_year y); lia.
Qed.

Lemma diy y : 365 <= days_in_year y <= 366.
Proof. unfold days_in_year, DPY. destruct (is_leap_year y); lia. Qed.

Lemma dby_mono k : forall y, dby y + 365 * Z.of_nat k <= dby (y + Z.of_nat k) <= dby y + 366 * Z.of_nat k.
Proof.
  induction k as [|k IH]; intros y; [cbn [Z.of_nat]; rewrite ?Z.mul_0_r, ?Z.add_0_r; lia|]. rewrite Nat2Z.inj_succ. replace (y + Z.succ (Z.of_nat k)) with ((y + Z.of_nat k) + 1) by lia.
  rewrite dby_step. pose proof (diy (y + Z.of_nat k)). specialize (IH y). lia.
Qed.

Lemma dby_bounds y y' : y <= y' -> dby y + 365 * (y' - y) <= dby y' <= dby y + 366 * (y' - y).
Proof. intros H. pose proof (dby_mono (Z.to_nat (y' - y)) y) as M. rewrite Z2Nat.id in M by lia. replace (y + (y' - y)) with y' in M by lia. exact M. Qed.

Lemma cum1 y : cum 1 y = 0.
Proof. reflexivity. Qed.

Lemma cum_step m y : 1 <= m < 12 -> cum (m + 1) y = cum m y + days_in_month m y.
Proof.
  intros H. unfold cum, days_in_month. assert (H' : 1 <= m <= 12) by lia. apply months in H'.
  destruct (is_leap_year y); repeat destruct H' as [->|H']; try (subst m); try lia; reflexivity.
Qed.

Lemma cum_last y : cum 12 y + days_in_month 12 y = days_in_year y.
Proof. unfold cum, days_in_month, days_in_year. destruct (is_leap_year y); reflexivity. Qed.

Lemma dim_pos m y : 1 <= m <= 12 -> 28 <= days_in_month m y <= 31.
Proof. intros H. apply months in H. unfold days_in_month. destruct (is_leap_year y); repeat destruct H as [->|H]; try (subst m); vm_compute; split; discriminate. Qed.

Lemma cum_mono k : forall m y, 1 <= m -> m + Z.of_nat k <= 12 -> cum m y + 28 * Z.of_nat k <= cum (m + Z.of_nat k) y.
Proof.
  induction k as [|k IH]; intros m y H1 H2; [cbn [Z.of_nat]; rewrite ?Z.mul_0_r, ?Z.add_0_r; lia|]. rewrite Nat2Z.inj_succ in *. replace (m + Z.succ (Z.of_nat k)) with ((m + Z.of_nat k) + 1) by lia.
  rewrite cum_step by lia. pose proof (dim_pos (m + Z.of_nat k) y ltac:(lia)). specialize (IH m y ltac:(lia) ltac:(lia)). lia.
Qed.

Lemma cum_below m y m' : 1 <= m -> m < m' -> m' <= 12 -> cum m y + days_in_month m y <= cum m' y.
Proof.
  intros H1 H2 H3. rewrite <- cum_step by lia. pose proof (cum_mono (Z.to_nat (m' - (m + 1))) (m + 1) y ltac:(lia)) as M.
  rewrite Z2Nat.id in M by lia. replace (m + 1 + (m' - (m + 1))) with m' in M by lia. specialize (M ltac:(lia)). lia.
Qed.

Lemma in_year a : good a -> let '(y, m, d) := a in 0 <= cum m y + d - 1 < days_in_year y.
Proof.
  destruct a as [[y m] d]. intros (Hy & Hm & Hd). pose proof (cum_last y) as L. pose proof (cum1 y) as L1.
  destruct (Z.eq_dec m 12) as [->|N]; [|pose proof (cum_below m y 12 ltac:(lia) ltac:(lia) ltac:(lia)); pose proof (dim_pos 12 y ltac:(lia))].
  - pose proof (cum_below 1 y 12 ltac:(lia) ltac:(lia) ltac:(lia)). pose proof (dim_pos 1 y ltac:(lia)). lia.
  - split; [|lia]. destruct (Z.eq_dec m 1) as [->|]; [lia|]. pose proof (cum_below 1 y m ltac:(lia) ltac:(lia) ltac:(lia)). pose proof (dim_pos 1 y ltac:(lia)). lia.
Qed.

Lemma dayno_inj a b : good a -> good b -> dayno a = dayno b -> a = b.
Proof.
  intros Ga Gb E. pose proof (in_year a Ga) as Ia. pose proof (in_year b Gb) as Ib. destruct a as [[y m] d]. destruct b as [[y' m'] d'].
  destruct Ga as (Hy & Hm & Hd). destruct Gb as (Hy' & Hm' & Hd'). cbn [dayno] in E.
  assert (y = y').
  { pose proof (dby_step y) as S1. pose proof (dby_step y') as S2. destruct (Z.lt_trichotomy y y') as [L|[L|L]]; [|exact L|].
    - pose proof (dby_bounds (y + 1) y' ltac:(lia)). lia.
    - pose proof (dby_bounds (y' + 1) y ltac:(lia)). lia. }
  subst y'. assert (m = m').
  { destruct (Z.lt_trichotomy m m') as [L|[L|L]]; [|exact L|].
    - pose proof (cum_below m y m' ltac:(lia) L ltac:(lia)). lia.
    - pose proof (cum_below m' y m ltac:(lia) L ltac:(lia)). lia. }
  subst m'. f_equal. lia.
Qed.

Lemma next_step a b : good a -> next_day a b -> good b /\ dayno b = dayno a + 1.
Proof.
  intros G H. destruct H as [y m d n L Hd|y m n L Hm|y].
  - apply length_iff in L. destruct L as [L ->]. destruct G as (G1 & G2 & G3). split; [repeat split; lia|]. cbn [dayno]. lia.
  - apply length_iff in L. destruct L as [L ->]. destruct G as (G1 & G2 & G3). split.
    + cbn [good]. pose proof (dim_pos (m + 1) y ltac:(lia)). lia.
    + cbn [dayno]. rewrite cum_step by lia. lia.
  - destruct G as (G1 & G2 & G3). split.
    + cbn [good]. pose proof (dim_pos 1 (y + 1) ltac:(lia)). lia.
    + cbn [dayno]. rewrite dby_step, cum1, <- cum_last. change (days_in_month 12 y) with 31. lia.
Qed.

Lemma number_dayno n a : day_number n a -> good a /\ dayno a = Z.of_nat n.
Proof.
  intros H. induction H as [|n a b H [G E] Hn].
  - split; [vm_compute; repeat split; discriminate|reflexivity].
  - destruct (next_step a b G Hn) as [G' E']. split; [exact G'|]. lia.
Qed.

Lemma dayno_number n : forall a, good a -> dayno a = Z.of_nat n -> day_number n a.
Proof.
  induction n as [|n IH]; intros a G E.
  - assert (a = (1970, 1, 1)); [apply dayno_inj; [exact G|vm_compute; repeat split; discriminate|exact E]|subst; constructor].
  - destruct a as [[y m] d]. destruct G as (G1 & G2 & G3). destruct (Z.eq_dec d 1) as [->|Nd].
    + destruct (Z.eq_dec m 1) as [->|Nm].
      * destruct (Z.eq_dec y 1970) as [->|Ny]; [cbn [dayno] in E; rewrite dby0, cum1 in E; lia|].
        assert (Hz : exists z, y = z + 1) by (exists (y - 1); lia). destruct Hz as [z ->].
        assert (Gz : good (z, 12, 31)) by (cbn [good]; change (days_in_month 12 z) with 31; lia).
        apply (day_succ n (z, 12, 31)); [|constructor]. apply IH; [exact Gz|].
        destruct (next_step (z, 12, 31) (z + 1, 1, 1) Gz (next_year z)) as [_ E']. lia.
      * assert (Hz : exists k, m = k + 1) by (exists (m - 1); lia). destruct Hz as [k ->].
        pose proof (dim_pos k y ltac:(lia)) as P.
        assert (Gz : good (y, k, days_in_month k y)) by (cbn [good]; lia).
        assert (Hn : next_day (y, k, days_in_month k y) (y, k + 1, 1)) by (constructor; [apply length_iff; split; [lia|reflexivity]|lia]).
        apply (day_succ n (y, k, days_in_month k y)); [|exact Hn]. apply IH; [exact Gz|].
        destruct (next_step _ _ Gz Hn) as [_ E']. lia.
    + assert (Hz : exists k, d = k + 1) by (exists (d - 1); lia). destruct Hz as [k ->].
      assert (Gz : good (y, m, k)) by (cbn [good]; lia).
      assert (Hn : next_day (y, m, k) (y, m, k + 1)) by (apply (next_in_month y m k (days_in_month m y)); [apply length_iff; split; [lia|reflexivity]|lia]).
      apply (day_succ n (y, m, k)); [|exact Hn]. apply IH; [exact Gz|]. destruct (next_step _ _ Gz Hn) as [_ E']. lia.
Qed.

Lemma dayno_nonneg a : good a -> 0 <= dayno a.
Proof.
  intros G. pose proof (in_year a G) as I. destruct a as [[y m] d]. destruct G as (G1 & _). pose proof (dby_bounds 1970 y G1). rewrite dby0 in *. cbn [dayno]. lia.
Qed.

Lemma number_iff n a : day_number n a <-> good a /\ dayno a = Z.of_nat n.
Proof. split; [apply number_dayno|intros [G E]; apply dayno_number; assumption]. Qed.

(** ** The loops *)
Lemma year_loop_ok k : forall n y, 0 <= n -> n < 365 * Z.of_nat k -> 1970 <= y -> y + Z.of_nat k < 32768 ->
  exists y' n', year_loop k n y = Ok (y', n') /\ 1970 <= y' <= y + Z.of_nat k /\ dby y' + n' = dby y + n /\ 0 <= n' < days_in_year y'.
Proof.
  induction k as [|k IH]; intros n y H1 H2 H3 H4; [lia|]. cbn [year_loop]. cbv zeta. pose proof (diy y) as D.
  destruct (Z.leb_spec 0 (n - days_in_year y)) as [L|L].
  - rewrite fits16 by lia. destruct (IH (n - days_in_year y) (y + 1)) as (y' & n' & E & B & S & R); [lia..|].
    exists y', n'. split; [exact E|]. rewrite dby_step in S. split; [lia|]. split; [lia|exact R].
  - exists y, n. split; [reflexivity|]. lia.
Qed.

Lemma month_loop_ok k : forall n m y, 0 <= n -> 1 <= m <= 12 -> cum m y + n < days_in_year y -> 12 - m < Z.of_nat k ->
  exists m' n', month_loop k n m y = Ok (m', n') /\ 1 <= m' <= 12 /\ cum m' y + n' = cum m y + n /\ 0 <= n' < days_in_month m' y.
Proof.
  induction k as [|k IH]; intros n m y H1 H2 H3 H4; [lia|]. cbn [month_loop]. cbv zeta. pose proof (dim_pos m y H2) as D.
  destruct (Z.leb_spec 0 (n - days_in_month m y)) as [L|L].
  - assert (m <> 12) by (intros ->; rewrite <- cum_last in H3; lia). rewrite fits16 by lia.
    destruct (IH (n - days_in_month m y) (m + 1) y) as (m' & n' & E & B & S & R); [lia|lia|rewrite cum_step by lia; lia|lia|].
    exists m', n'. split; [exact E|]. rewrite cum_step in S by lia. split; [lia|]. split; [lia|exact R].
  - exists m, n. split; [reflexivity|]. lia.
Qed.

Lemma valid_iff d : valid_date d <-> good (c_year d, c_month d, c_day d) /\
  0 <= c_hour d < 24 /\ 0 <= c_min d < 60 /\ 0 <= c_sec d < 60 /\ 0 <= c_ns d < 10 ^ 9.
Proof.
  unfold valid_date, good. split.
  - intros (Y & D & (n & L & Dn) & R). apply length_iff in L. destruct L as [L ->]. split; [lia|exact R].
  - intros ((Y & M & D) & R). split; [exact Y|]. split; [lia|]. split; [|exact R]. exists (days_in_month (c_month d) (c_year d)). split; [apply length_iff; auto|lia].
Qed.

Definition stamp_of (d : caltime) : Z := (((dayno (c_year d, c_month d, c_day d) * 24 + c_hour d) * 60 + c_min d) * 60 + c_sec d) * 10 ^ 9 + c_ns d.

Lemma instant_iff d t : good (c_year d, c_month d, c_day d) -> (instant d t <-> t = stamp_of d).
Proof.
  intros G. unfold instant, stamp_of. split.
  - intros (n & H & ->). apply number_dayno in H. destruct H as [_ ->]. reflexivity.
  - intros ->. exists (Z.to_nat (dayno (c_year d, c_month d, c_day d))). pose proof (dayno_nonneg _ G). rewrite Z2Nat.id by lia.
    split; [|reflexivity]. apply dayno_number; [exact G|]. lia.
Qed.

Lemma split_any a b c d e t q1 r1 q2 r2 q3 r3 q4 r4 : t = a * q1 + r1 -> q1 = b * q2 + r2 -> r2 = c * q3 + r3 -> r3 = d * q4 + r4 ->
  b = e * c -> c = 60 * d -> d = 60 -> e = 24 -> t = (((q2 * 24 + q3) * 60 + q4) * 60 + r4) * a + r1.
Proof. intros -> -> -> -> -> -> -> ->. ring. Qed.

Lemma split_stamp t : t = (((t / NPS / SPD * 24 + (t / NPS) mod SPD / SPH) * 60 + ((t / NPS) mod SPD) mod SPH / SPM) * 60 + (((t / NPS) mod SPD) mod SPH) mod SPM) * 10 ^ 9 + t mod NPS.
Proof.
  apply (split_any NPS SPD SPH SPM 24 t (t / NPS) (t mod NPS) (t / NPS / SPD) ((t / NPS) mod SPD) ((t / NPS) mod SPD / SPH) (((t / NPS) mod SPD) mod SPH));
    try reflexivity; apply Z.div_mod; discriminate.
Qed.

Lemma stamp_ok t : 0 <= t < 2 ^ 63 -> exists d, time_of_stamp t = Ok (mkTime t d) /\ valid_date d /\ instant d t.
Proof.
  intros H. unfold time_of_stamp, convert_to. destruct (Z.ltb_spec t 0); [lia|]. cbv zeta.
  assert (B : 0 <= t / NPS / SPD <= 106751).
  { unfold NPS, SPD. split; [Z.to_euclidean_division_equations; lia|]. assert (t / 1000000000 <= 9223372036) by (apply Z.lt_succ_r; apply Z.div_lt_upper_bound; lia).
    apply Z.lt_succ_r. apply Z.div_lt_upper_bound; lia. }
  rewrite fits32 by lia. set (N := t / NPS / SPD) in *.
  assert (BN : 0 <= N / DPY <= 292) by (unfold DPY; split; [apply Z.div_pos; lia|apply Z.lt_succ_r; apply Z.div_lt_upper_bound; lia]).
  destruct (year_loop_ok (Z.to_nat (N / DPY + 2)) N YEAR0) as (y & n & E & By & S & R).
  { lia. } { rewrite Z2Nat.id by lia. unfold DPY in *. pose proof (Z.div_mod N 365 ltac:(lia)). pose proof (Z.mod_pos_bound N 365 ltac:(lia)). lia. }
  { unfold YEAR0. lia. } { rewrite Z2Nat.id by lia. unfold YEAR0. lia. }
  rewrite E. cbn [bind fst snd]. destruct (month_loop_ok 13 n 1 y) as (m & d & E2 & Bm & S2 & R2); [lia|lia|rewrite cum1; lia|lia|].
  rewrite E2. cbn [bind fst snd]. rewrite cum1 in S2. change YEAR0 with 1970 in S. rewrite dby0 in S.
  assert (EN : dayno (y, m, 1 + d) = N) by (unfold dayno; clear - S S2; lia).
  pose proof (dim_pos m y Bm) as D. rewrite (fits16 (1 + d)) by lia.
  assert (P1 : 0 <= (t / NPS) mod SPD < 86400) by (apply Z.mod_pos_bound; reflexivity).
  assert (P2 : 0 <= (t / NPS) mod SPD / SPH < 24) by (unfold SPH; split; [apply Z.div_pos; lia|apply Z.div_lt_upper_bound; lia]).
  assert (P3 : 0 <= ((t / NPS) mod SPD) mod SPH < 3600) by (apply Z.mod_pos_bound; reflexivity).
  assert (P4 : 0 <= ((t / NPS) mod SPD) mod SPH / SPM < 60) by (unfold SPM; split; [apply Z.div_pos; lia|apply Z.div_lt_upper_bound; lia]).
  assert (P5 : 0 <= (((t / NPS) mod SPD) mod SPH) mod SPM < 60) by (apply Z.mod_pos_bound; reflexivity).
  assert (P6 : 0 <= t mod NPS < 10 ^ 9) by (apply Z.mod_pos_bound; reflexivity).
  rewrite (fits16 ((t / NPS) mod SPD / SPH)), (fits16 (((t / NPS) mod SPD) mod SPH / SPM)), (fits16 ((((t / NPS) mod SPD) mod SPH) mod SPM)), (fits32 (t mod NPS)) by lia.
  eexists. split; [reflexivity|].
  match goal with |- valid_date ?D /\ _ => set (dd := D) end.
  assert (G : good (c_year dd, c_month dd, c_day dd)) by (cbn [dd good c_year c_month c_day]; lia).
  split.
  - apply valid_iff. split; [exact G|]. cbn [dd c_hour c_min c_sec c_ns]. auto.
  - apply instant_iff; [exact G|]. unfold stamp_of. subst dd. cbn [c_year c_month c_day c_hour c_min c_sec c_ns].
    rewrite EN. clear. exact (split_stamp t).
Qed.

Lemma instant_unique d d' t : valid_date d -> valid_date d' -> instant d t -> instant d' t -> d = d'.
Proof.
  intros V V' I I'. apply valid_iff in V, V'. destruct V as (G & H1 & H2 & H3 & H4). destruct V' as (G' & H1' & H2' & H3' & H4').
  apply instant_iff in I, I'; [|assumption..]. subst t. unfold stamp_of in I'. change (10 ^ 9) with 1000000000 in *.
  assert (E : c_ns d = c_ns d' /\ c_sec d = c_sec d' /\ c_min d = c_min d' /\ c_hour d = c_hour d' /\
              dayno (c_year d, c_month d, c_day d) = dayno (c_year d', c_month d', c_day d')) by lia.
  destruct E as (E1 & E2 & E3 & E4 & E5). apply dayno_inj in E5; [|assumption..]. destruct d, d'. cbn in *. congruence.
Qed.

Lemma sum_years_ok k : forall y acc, 0 <= acc -> acc + 366 * Z.of_nat k < 2 ^ 32 -> sum_years k y acc = acc + dby (y + Z.of_nat k) - dby y.
Proof.
  induction k as [|k IH]; intros y acc H1 H2; cbn [sum_years]; [cbn [Z.of_nat]; rewrite ?Z.mul_0_r, ?Z.add_0_r; lia|]. pose proof (diy y) as D.
  rewrite fitsu by lia. rewrite IH by lia. rewrite dby_step. replace (y + Z.of_nat (S k)) with (y + 1 + Z.of_nat k) by lia. lia.
Qed.

Lemma sum_months_ok k : forall m y acc, 0 <= acc -> 1 <= m -> m + Z.of_nat k <= 12 -> acc + 31 * Z.of_nat k < 2 ^ 32 ->
  sum_months k m y acc = acc + cum (m + Z.of_nat k) y - cum m y.
Proof.
  induction k as [|k IH]; intros m y acc H1 H2 H3 H4; cbn [sum_months]; [cbn [Z.of_nat]; rewrite ?Z.mul_0_r, ?Z.add_0_r; lia|]. pose proof (dim_pos m y ltac:(lia)) as D.
  rewrite fitsu by lia. rewrite IH by lia. rewrite cum_step by lia. replace (m + Z.of_nat (S k)) with (m + 1 + Z.of_nat k) by lia. lia.
Qed.

Lemma date_ok d t : valid_date d -> c_ns d = 0 -> instant d t -> t < 2 ^ 32 * 10 ^ 9 ->
  time_of_date (c_year d) (c_month d) (c_day d) (c_hour d) (c_min d) (c_sec d) = Ok (mkTime t d).
Proof.
  intros V Ns I Ht. apply valid_iff in V. destruct V as (G & H1 & H2 & H3 & H4). apply instant_iff in I; [|exact G].
  pose proof (dayno_nonneg _ G) as DN. pose proof (in_year _ G) as IY. cbn beta iota in IY.
  destruct d as [y m dd h mi s ns]. cbn [c_year c_month c_day c_hour c_min c_sec c_ns] in *. subst ns.
  assert (B : 0 <= dayno (y, m, dd) < 49711) by (unfold stamp_of in I; cbn [c_year c_month c_day c_hour c_min c_sec c_ns] in I; lia).
  destruct G as (G1 & G2 & G3). pose proof (dim_pos m y G2) as D.
  assert (By : y <= 2200). { cbn [dayno] in B. pose proof (dby_bounds 1970 y G1). rewrite dby0 in *. lia. }
  unfold time_of_date. destruct (Z.ltb_spec y YEAR0) as [X|_]; [unfold YEAR0 in X; lia|]. destruct (Z.ltb_spec m 0); [lia|]. destruct (Z.ltb_spec 12 m); [lia|].
  destruct (Z.ltb_spec dd 0); [lia|]. destruct (Z.ltb_spec (days_in_month m y) dd); [lia|]. cbn [orb].
  rewrite !fits16 by lia. unfold convert_from. cbn [c_year c_month c_day c_hour c_min c_sec c_ns]. unfold YEAR0.
  destruct (Z.ltb_spec y 1970); [lia|]. cbn [c_year c_month c_day c_hour c_min c_sec c_ns]. f_equal. f_equal.
  rewrite sum_years_ok by lia. rewrite Z2Nat.id by lia. replace (1970 + (y - 1970)) with y by lia. rewrite dby0.
  pose proof (dby_bounds 1970 y G1) as Db. rewrite dby0 in Db.
  rewrite sum_months_ok by (rewrite ?Z2Nat.id by lia; lia). rewrite Z2Nat.id by lia. replace (1 + (m - 1)) with m by lia. rewrite cum1.
  rewrite (fitsu (0 + dby y - 0 + cum m y - 0 + (dd - 1))) by (cbn [dayno] in B; lia).
  subst t. unfold stamp_of in *. cbn [c_year c_month c_day c_hour c_min c_sec c_ns] in *. unfold SPD, SPH, SPM, NPS.
  cbn [dayno] in *. rewrite fitsu by lia. lia.
Qed.

Lemma round_trip d t : valid_date d -> c_ns d = 0 -> instant d t -> t < 2 ^ 32 * 10 ^ 9 ->
  exists x, time_of_date (c_year d) (c_month d) (c_day d) (c_hour d) (c_min d) (c_sec d) = Ok x /\ lt_d x = d /\ lt_t x = t /\ time_of_stamp (lt_t x) = Ok x.
Proof.
  intros V Ns I Ht. exists (mkTime t d). split; [apply date_ok; assumption|]. split; [reflexivity|]. split; [reflexivity|]. cbn [lt_t].
  assert (T0 : 0 <= t). { pose proof V as V'. apply valid_iff in V'. destruct V' as (G & Vr). apply instant_iff in I; [|exact G]. pose proof (dayno_nonneg _ G). unfold stamp_of in I. lia. }
  destruct (stamp_ok t ltac:(lia)) as (d' & E & V' & I'). rewrite E. f_equal. f_equal. exact (instant_unique d' d t V' V I' I).
Qed.

Lemma negative_ok t : t < 0 -> time_of_stamp t = Ok (mkTime 0 (mkCal 1970 1 1 0 0 0 0)).
Proof. intros H. unfold time_of_stamp, convert_to. destruct (Z.ltb_spec t 0); [reflexivity|lia]. Qed.

(** ** Every object *)
Definition coherent (x : lctime) : Prop := 0 <= lt_t x < 2 ^ 63 /\ valid_date (lt_d x) /\ instant (lt_d x) (lt_t x).

Lemma epoch_coherent : coherent (mkTime 0 epoch).
Proof.
  destruct (stamp_ok 0 ltac:(lia)) as (d & E & V & I). vm_compute in E. injection E as <-. split; [cbn; lia|]. split; [exact V|exact I].
Qed.

Lemma convert_ok t : t < 2 ^ 63 -> exists x, convert_to t = Ok x /\ coherent x /\ lt_t x = Z.max 0 t.
Proof.
  intros H. destruct (Z.ltb_spec t 0) as [L|L].
  - exists (mkTime 0 epoch). split; [unfold convert_to; destruct (Z.ltb_spec t 0); [reflexivity|lia]|]. split; [exact epoch_coherent|cbn; lia].
  - destruct (stamp_ok t ltac:(lia)) as (d & E & V & I). exists (mkTime t d). split; [exact E|]. split; [split; [cbn; lia|split; assumption]|cbn; lia].
Qed.

Lemma add_all_ok l : forall x, coherent x -> match add_all x l with Ok x' => coherent x' | UB u => u = UBOverflow | Throw _ => False end.
Proof.
  induction l as [|t l IH]; intros x C; cbn [add_all]; [exact C|]. unfold time_add. cbv zeta.
  destruct (Z.ltb_spec (lt_t x + t) (- 2 ^ 63)); [reflexivity|]. destruct (Z.leb_spec (2 ^ 63) (lt_t x + t)); [reflexivity|]. cbn [orb].
  destruct (convert_ok (lt_t x + t) ltac:(lia)) as (x' & E & C' & _). rewrite E. cbn [bind]. exact (IH x' C').
Qed.

Lemma add_exact x t : coherent x -> 0 <= lt_t x + t < 2 ^ 63 -> exists x', time_add x t = Ok x' /\ lt_t x' = lt_t x + t /\ coherent x'.
Proof.
  intros C H. unfold time_add. cbv zeta. destruct (Z.ltb_spec (lt_t x + t) (- 2 ^ 63)); [lia|]. destruct (Z.leb_spec (2 ^ 63) (lt_t x + t)); [lia|]. cbn [orb].
  destruct (convert_ok (lt_t x + t) ltac:(lia)) as (x' & E & C' & T). exists x'. split; [exact E|]. split; [lia|exact C'].
Qed.

Lemma unix_ok u : 0 <= u < 2 ^ 31 -> exists x, time_of_unix u = Ok x /\ lt_t x = u * 10 ^ 9 /\ unix_time x = u /\ coherent x.
Proof.
  intros H. unfold time_of_unix. destruct (convert_ok (u * NPS)) as (x & E & C & T); [unfold NPS; lia|]. exists x. split; [exact E|]. unfold NPS in *.
  split; [lia|]. split; [|exact C]. unfold unix_time, NPS. rewrite T. replace (Z.max 0 (u * 1000000000)) with (u * 1000000000) by lia.
  rewrite Z.div_mul by lia. apply fits32. lia.
Qed.

(** ** The date string *)
Lemma digits_app w : forall n acc, digits w n acc = digits w n [] ++ acc.
Proof.
  induction w as [|w IH]; intros n acc; cbn [digits]; [reflexivity|]. rewrite IH. rewrite (IH _ [_]). rewrite <- app_assoc. reflexivity.
Qed.

Lemma digits_len w : forall n, length (digits w n []) = w.
Proof. induction w as [|w IH]; intros n; cbn [digits]; [reflexivity|]. rewrite digits_app, app_length, IH. cbn. lia. Qed.

Lemma digits_inj w : forall n m, 0 <= n < 10 ^ Z.of_nat w -> 0 <= m < 10 ^ Z.of_nat w -> digits w n [] = digits w m [] -> n = m.
Proof.
  induction w as [|w IH]; intros n m Hn Hm E; cbn [digits] in E; [cbn in Hn, Hm; lia|].
  rewrite (digits_app w (n / 10)), (digits_app w (m / 10)) in E. apply app_inj_tail in E. destruct E as [E1 E2].
  rewrite Nat2Z.inj_succ, Z.pow_succ_r in Hn, Hm by lia.
  apply IH in E1; [|split; [apply Z.div_pos; lia|apply Z.div_lt_upper_bound; lia]..].
  pose proof (Z.mod_pos_bound n 10 ltac:(lia)). pose proof (Z.mod_pos_bound m 10 ltac:(lia)).
  assert (E3 : Zb (bZ (48 + n mod 10)) = Zb (bZ (48 + m mod 10))) by (rewrite E2; reflexivity). rewrite !Zb_bZ in E3 by lia.
  rewrite (Z.div_mod n 10), (Z.div_mod m 10) by lia. lia.
Qed.

Lemma app_cut {A} (a b c d : list A) : length a = length c -> a ++ b = c ++ d -> a = c /\ b = d.
Proof.
  revert c. induction a as [|x a IH]; intros [|y c] L E; cbn in *; try discriminate; [auto|]. injection E as -> E. destruct (IH c) as [-> ->]; [lia|exact E|auto].
Qed.

Lemma year_of_stamp d t : valid_date d -> instant d t -> t < 2 ^ 63 -> c_year d < 10000.
Proof.
  intros V I H. apply valid_iff in V. destruct V as (G & Vr). apply instant_iff in I; [|exact G]. pose proof (in_year _ G) as IY. cbn beta iota in IY.
  unfold stamp_of in I. assert (B : dayno (c_year d, c_month d, c_day d) < 106752) by lia. destruct G as (G1 & _). pose proof (dby_bounds 1970 _ G1) as D.
  rewrite dby0 in D. cbn [dayno] in B. lia.
Qed.

Lemma date_string_inj x y : coherent x -> coherent y -> date_string x = date_string y -> x = y.
Proof.
  intros (T & V & I) (T' & V' & I') E. pose proof (year_of_stamp _ _ V I ltac:(lia)) as Y. pose proof (year_of_stamp _ _ V' I' ltac:(lia)) as Y'.
  pose proof V as W. pose proof V' as W'. apply valid_iff in W, W'. destruct W as ((G1 & G2 & G3) & R1 & R2 & R3 & R4). destruct W' as ((G1' & G2' & G3') & R1' & R2' & R3' & R4').
  pose proof (dim_pos _ (c_year (lt_d x)) G2). pose proof (dim_pos _ (c_year (lt_d y)) G2').
  unfold date_string in E. cbv zeta in E.
  assert (P2 : 10 ^ Z.of_nat 2 = 100) by reflexivity. assert (P4 : 10 ^ Z.of_nat 4 = 10000) by reflexivity. assert (P9 : 10 ^ Z.of_nat 9 = 10 ^ 9) by reflexivity.
  apply app_cut in E; [|rewrite !digits_len; reflexivity]. destruct E as [E1 E]. apply app_inv_head in E.
  apply app_cut in E; [|rewrite !digits_len; reflexivity]. destruct E as [E2 E]. apply app_inv_head in E.
  apply app_cut in E; [|rewrite !digits_len; reflexivity]. destruct E as [E3 E]. apply app_inv_head in E.
  apply app_cut in E; [|rewrite !digits_len; reflexivity]. destruct E as [E4 E]. apply app_inv_head in E.
  apply app_cut in E; [|rewrite !digits_len; reflexivity]. destruct E as [E5 E]. apply app_inv_head in E.
  apply app_cut in E; [|rewrite !digits_len; reflexivity]. destruct E as [E6 E]. apply app_inv_head in E.
  apply digits_inj in E1; [|rewrite P2; lia..]. apply digits_inj in E2; [|rewrite P2; lia..]. apply digits_inj in E3; [|rewrite P4; lia..].
  apply digits_inj in E4; [|rewrite P2; lia..]. apply digits_inj in E5; [|rewrite P2; lia..]. apply digits_inj in E6; [|rewrite P2; lia..].
  apply digits_inj in E; [|rewrite P9; lia..].
  assert (D : lt_d x = lt_d y) by (destruct (lt_d x), (lt_d y); cbn in *; congruence).
  assert (S : lt_t x = lt_t y). { rewrite D in I. apply instant_iff in I, I'; [congruence|cbn [good]; auto..]. }
  destruct x, y. cbn in *. congruence.
Qed.

Lemma made_ok c l x : (match c with FromDate _ _ _ _ _ _ => False | FromStamp t => - 2 ^ 63 <= t < 2 ^ 63 | FromUnix u => - 2 ^ 31 <= u < 2 ^ 31 end) ->
  (do x0 <- make_time c; add_all x0 l) = Ok x -> coherent x.
Proof.
  intros Hc E. assert (H : exists x0, make_time c = Ok x0 /\ coherent x0).
  { destruct c as [t|u|]; [| |destruct Hc]; cbn [make_time].
    - destruct (convert_ok t ltac:(lia)) as (x0 & E0 & C0 & _). exists x0. auto.
    - destruct (convert_ok (u * NPS)) as (x0 & E0 & C0 & _); [unfold NPS; lia|]. exists x0. auto. }
  destruct H as (x0 & E0 & C0). rewrite E0 in E. cbn [bind] in E. pose proof (add_all_ok l x0 C0) as A. rewrite E in A. exact A.
Qed.
