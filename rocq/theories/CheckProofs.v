(** * Checking the number of elements of a collection: proofs *)

From Verif Require Import Bytes StrMap SioModel SioProofs SioSpec Ieee ObjModel ObjSpec CollSpec CollProofs ListFacts
  EventModel EventSpec EventProofs PostProofs EventFacts IndexModel IndexSpec IndexProofs FileModel FileFrame IndexFile FileSpec FileWrite FileSessions FileRead FileSeq FileDeliver FileFacts
  FileUse CheckModel CheckSpec.

(** ** Floats *)

Lemma near_even_floor n d k : 0 < d -> k * d <= n -> k <= near_even n d.
Proof.
  intros Hd H. assert (k <= n / d) by (apply Z.div_le_lower_bound; lia). unfold near_even. cbv zeta.
  destruct (2 * (n mod d) <? d); [lia|]. destruct (d <? 2 * (n mod d)); [lia|]. destruct (Z.even (n / d)); lia.
Qed.
Lemma near_even_err n d : 0 < d -> 2 * Z.abs (near_even n d * d - n) <= d.
Proof.
  intros Hd. pose proof (Z.div_mod n d ltac:(lia)) as E. pose proof (Z.mod_pos_bound n d Hd) as B. unfold near_even. cbv zeta.
  set (q := n / d) in *. set (r := n mod d) in *. clearbody q r. subst n.
  destruct (2 * r <? d) eqn:E1; [replace (q * d - (d * q + r)) with (- r) by ring; lia|].
  destruct (d <? 2 * r) eqn:E2; [replace ((q + 1) * d - (d * q + r)) with (d - r) by ring; lia|].
  destruct (Z.even q); [replace (q * d - (d * q + r)) with (- r) by ring|replace ((q + 1) * d - (d * q + r)) with (d - r) by ring]; lia.
Qed.
Lemma near_even_ceil n d k : 0 < d -> n <= k * d -> near_even n d <= k.
Proof.
  intros Hd H. destruct (Z_lt_le_dec k (near_even n d)) as [L|L]; [|exact L]. exfalso.
  pose proof (near_even_err n d Hd) as B.
  assert (Q : (k + 1) * d <= near_even n d * d) by (apply Z.mul_le_mono_nonneg_r; lia).
  assert (near_even n d * d - n <= d / 2 \/ True) by auto. replace ((k + 1) * d) with (k * d + d) in Q by ring. lia.
Qed.

Definition up (e : Z) : Z := 2 ^ Z.max e 0.
Lemma up_pos e : 0 < up e. Proof. unfold up. apply Z.pow_pos_nonneg; lia. Qed.
Lemma up_le e : 0 <= e -> up e = 2 ^ e. Proof. intros H. unfold up. rewrite Z.max_l by lia. reflexivity. Qed.
Lemma up_neg e : e <= 0 -> up e = 1. Proof. intros H. unfold up. rewrite Z.max_r by lia. reflexivity. Qed.

Lemma f32_form p q : 0 < p -> 0 < q -> exists e,
  f32 (p, q) = (near_even (p * up (- e)) (q * up e) * up e, up (- e)) /\ q * up e * 2 ^ 23 <= p * up (- e).
Proof.
  intros Hp Hq. unfold f32. replace (p <=? 0) with false by lia. cbv zeta.
  destruct (Z.log2_spec p Hp) as [P1 P2]. destruct (Z.log2_spec q Hq) as [Q1 Q2]. pose proof (Z.log2_nonneg p) as NP. pose proof (Z.log2_nonneg q) as NQ.
  set (lp := Z.log2 p) in *. set (lq := Z.log2 q) in *. clearbody lp lq. set (b := lp - lq).
  fold (up b). fold (up (- b)). destruct (q * up b <=? p * up (- b)) eqn:E.
  - exists (b - 23). split; [reflexivity|]. apply Z.leb_le in E. destruct (Z_le_gt_dec 23 b) as [H|H].
    + rewrite (up_le (b - 23)), (up_neg (- (b - 23))) by lia. rewrite <- Z.mul_assoc, <- Z.pow_add_r by lia. replace (b - 23 + 23) with b by ring.
      rewrite (up_le b), (up_neg (- b)) in E by lia. lia.
    + rewrite (up_neg (b - 23)), (up_le (- (b - 23))) by lia. destruct (Z_le_gt_dec 0 b) as [H0|H0].
      * rewrite (up_le b), (up_neg (- b)) in E by lia. replace 23 with (b + (- (b - 23))) at 1 by ring. rewrite Z.pow_add_r by lia.
        replace (q * 1 * (2 ^ b * 2 ^ (- (b - 23)))) with ((q * 2 ^ b) * 2 ^ (- (b - 23))) by ring. apply Z.mul_le_mono_nonneg_r; [apply Z.pow_nonneg; lia|lia].
      * rewrite (up_neg b), (up_le (- b)) in E by lia. replace (- (b - 23)) with (- b + 23) by ring. rewrite Z.pow_add_r by lia.
        rewrite Z.mul_assoc. apply Z.mul_le_mono_nonneg_r; [lia|lia].
  - exists (b - 24). split; [reflexivity|]. clear E. destruct (Z_le_gt_dec 24 b) as [H|H].
    + rewrite (up_le (b - 24)), (up_neg (- (b - 24))) by lia. rewrite <- Z.mul_assoc, <- Z.pow_add_r by lia.
      apply Z.le_trans with (2 ^ Z.succ lq * 2 ^ (b - 24 + 23)); [apply Z.mul_le_mono_nonneg_r; [apply Z.pow_nonneg; lia|lia]|].
      rewrite <- Z.pow_add_r by lia. replace (Z.succ lq + (b - 24 + 23)) with lp by (unfold b; lia). lia.
    + rewrite (up_neg (b - 24)), (up_le (- (b - 24))) by lia.
      apply Z.le_trans with (2 ^ Z.succ lq * 2 ^ 23); [apply Z.mul_le_mono_nonneg_r; lia|]. rewrite <- Z.pow_add_r by lia.
      replace (Z.succ lq + 23) with (lp + - (b - 24)) by (unfold b; lia). rewrite Z.pow_add_r by lia. apply Z.mul_le_mono_nonneg_r; [apply Z.pow_nonneg; lia|lia].
Qed.

Lemma f32_err p q : 0 < p -> 0 < q -> let '(A, B) := f32 (p, q) in 0 < B /\ 0 <= A /\ Z.abs (A * q - p * B) * 2 ^ 24 <= p * B.
Proof.
  intros Hp Hq. destruct (f32_form p q Hp Hq) as (e & -> & H). pose proof (up_pos e) as U1. pose proof (up_pos (- e)) as U2.
  set (P := up e) in *. set (Q := up (- e)) in *. clearbody P Q. assert (HqP : 0 < q * P) by (apply Z.mul_pos_pos; lia).
  pose proof (near_even_err (p * Q) (q * P) HqP) as B. split; [lia|]. split.
  - apply Z.mul_nonneg_nonneg; [|lia]. apply (near_even_floor _ _ 0); [lia|]. rewrite Z.mul_0_l. apply Z.mul_nonneg_nonneg; lia.
  - replace (near_even (p * Q) (q * P) * P * q - p * Q) with (near_even (p * Q) (q * P) * (q * P) - p * Q) by ring. lia.
Qed.

Lemma f32_small p q : 0 <= p < 2 ^ 24 * q -> 0 < q -> let '(A, B) := f32 (p, q) in 0 < B /\
  (forall m, m * q <= p -> m * B <= A) /\ (forall m, p <= m * q -> A <= m * B) /\ Z.abs (A * q - p * B) * 2 ^ 24 <= p * B.
Proof.
  intros Hp Hq. destruct (Z.eq_dec p 0) as [->|H0].
  - cbn [f32]. split; [lia|]. split; [intros m Hm; destruct (Z_lt_le_dec 0 m) as [L|L]; [exfalso; assert (0 < m * q) by (apply Z.mul_pos_pos; lia); lia|lia]|].
    split; [intros m Hm; destruct (Z_lt_le_dec m 0) as [L|L]; [exfalso; assert (m * q < 0) by (apply Z.mul_neg_pos; lia); lia|lia]|]. cbn [Z.leb]. lia.
  - pose proof (f32_err p q ltac:(lia) Hq) as HE. destruct (f32_form p q ltac:(lia) Hq) as (e & E & H). rewrite E in HE |- *. destruct HE as (H1 & _ & H2).
    split; [exact H1|]. assert (He : e <= 0).
    { destruct (Z_le_gt_dec e 0) as [L|L]; [exact L|]. exfalso. rewrite (up_neg (- e)), Z.mul_1_r in H by lia. rewrite up_le in H by lia.
      assert (2 <= 2 ^ e) by (change 2 with (2 ^ 1) at 1; apply Z.pow_le_mono_r; lia).
      assert (q * 2 <= q * 2 ^ e) by (apply Z.mul_le_mono_nonneg_l; lia). lia. }
    rewrite (up_neg e) in H2 |- * by lia. rewrite !Z.mul_1_r in *.
    pose proof (up_pos (- e)) as U. split; [|split; [|exact H2]].
    + intros m Hm. apply near_even_floor; [lia|]. replace (m * up (- e) * q) with (m * q * up (- e)) by ring. apply Z.mul_le_mono_nonneg_r; lia.
    + intros m Hm. apply near_even_ceil; [lia|]. replace (m * up (- e) * q) with (m * q * up (- e)) by ring. apply Z.mul_le_mono_nonneg_r; lia.
Qed.

Lemma f32_of_exact n : 0 <= n < 2 ^ 24 -> exists B, 0 < B /\ f32_of n = (n * B, B).
Proof.
  intros Hn. unfold f32_of. pose proof (f32_small n 1 ltac:(lia) ltac:(lia)) as H. destruct (f32 (n, 1)) as [A B]. destruct H as (H1 & H2 & H3 & _).
  exists B. split; [exact H1|]. f_equal. specialize (H2 n ltac:(lia)). specialize (H3 n ltac:(lia)). lia.
Qed.

Lemma avg_spec p n m : 0 <= p < 2 ^ 24 -> 1 <= n < 2 ^ 24 -> 0 <= m < 2 ^ 24 ->
  (n * m < 2 ^ 24 -> f32_lt (f32_div (f32_of p) (f32_of n)) (f32_of m) = (p <? n * m)) /\
  (n * m < 2 ^ 24 - 1 -> f32_lt (f32_of m) (f32_div (f32_of p) (f32_of n)) = (n * m <? p)).
Proof.
  intros Hp Hn Hm. destruct (f32_of_exact p Hp) as (B1 & U1 & ->). destruct (f32_of_exact n ltac:(lia)) as (B2 & U2 & ->). destruct (f32_of_exact m Hm) as (B3 & U3 & ->).
  unfold f32_div, f32_lt. cbn [fst snd]. set (S := B1 * B2). assert (US : 0 < S) by (apply Z.mul_pos_pos; lia).
  replace (p * B1 * B2) with (p * S) by (unfold S; ring). replace (B1 * (n * B2)) with (n * S) by (unfold S; ring).
  pose proof (f32_small (p * S) (n * S)) as H. destruct (f32 (p * S, n * S)) as [A B]. cbn [fst snd].
  destruct H as (H1 & H2 & H3 & H4).
  { split; [apply Z.mul_nonneg_nonneg; lia|]. rewrite Z.mul_assoc. apply Z.mul_lt_mono_pos_r; lia. }
  { apply Z.mul_pos_pos; lia. }
  assert (H2' : forall k, k * n <= p -> k * B <= A) by (intros k Hk; apply H2; rewrite Z.mul_assoc; apply Z.mul_le_mono_nonneg_r; lia).
  assert (H3' : forall k, p <= k * n -> A <= k * B) by (intros k Hk; apply H3; rewrite Z.mul_assoc; apply Z.mul_le_mono_nonneg_r; lia).
  assert (H4' : Z.abs (A * n - p * B) * 2 ^ 24 <= p * B).
  { replace (A * (n * S) - p * S * B) with ((A * n - p * B) * S) in H4 by ring. rewrite Z.abs_mul, (Z.abs_eq S) in H4 by lia.
    apply Z.mul_le_mono_pos_r with S; [exact US|]. replace (p * B * S) with (p * S * B) by ring. lia. }
  clear H2 H3 H4. replace (m * B3 * B) with (m * B * B3) by ring. split; intros Hs.
  - destruct (p <? n * m) eqn:E.
    + apply Z.ltb_lt. apply Z.ltb_lt in E. apply Z.mul_lt_mono_pos_r; [lia|].
      apply Z.mul_lt_mono_pos_r with n; [lia|]. replace (m * B * n) with (n * m * B) by ring.
      assert (G : A * n * 2 ^ 24 <= p * B * (2 ^ 24 + 1)) by lia.
      assert (G2 : p * B <= (n * m - 1) * B) by (apply Z.mul_le_mono_nonneg_r; lia).
      replace ((n * m - 1) * B) with (n * m * B - B) in G2 by ring.
      assert (G3 : n * m * B < 2 ^ 24 * B) by (apply Z.mul_lt_mono_pos_r; lia). lia.
    + apply Z.ltb_ge. apply Z.ltb_ge in E. apply Z.mul_le_mono_nonneg_r; [lia|]. apply H2'. lia.
  - destruct (n * m <? p) eqn:E.
    + apply Z.ltb_lt. apply Z.ltb_lt in E. apply Z.mul_lt_mono_pos_r; [lia|].
      apply Z.mul_lt_mono_pos_r with n; [lia|]. replace (m * B * n) with (n * m * B) by ring.
      assert (G : p * B * (2 ^ 24 - 1) <= A * n * 2 ^ 24) by lia.
      assert (G2 : (n * m + 1) * B <= p * B) by (apply Z.mul_le_mono_nonneg_r; lia).
      replace ((n * m + 1) * B) with (n * m * B + B) in G2 by ring.
      assert (G3 : n * m * B < (2 ^ 24 - 1) * B) by (apply Z.mul_lt_mono_pos_r; lia). lia.
    + apply Z.ltb_ge. apply Z.ltb_ge in E. apply Z.mul_le_mono_nonneg_r; [lia|]. apply H3'. lia.
Qed.

Lemma round_part_spec n rel : 0 < n < 2 ^ 24 -> 0 < fst rel < snd rel -> part_of n rel (round_part n rel) /\ 0 <= round_part n rel.
Proof.
  intros Hn Hr. destruct rel as [p q]. cbn [fst snd] in Hr. unfold round_part, f32_mul, part_of. cbn [fst snd].
  destruct (f32_of_exact n ltac:(lia)) as (B & UB & ->). cbn [fst snd].
  pose proof (f32_err (n * B * p) (B * q)) as H. destruct (f32 (n * B * p, B * q)) as [A C]. destruct H as (UC & UA & H).
  { apply Z.mul_pos_pos; [apply Z.mul_pos_pos|]; lia. } { apply Z.mul_pos_pos; lia. }
  assert (H' : Z.abs (A * q - n * p * C) * 2 ^ 24 <= n * p * C).
  { replace (A * (B * q) - n * B * p * C) with ((A * q - n * p * C) * B) in H by ring. rewrite Z.abs_mul, (Z.abs_eq B) in H by lia.
    apply Z.mul_le_mono_pos_r with B; [exact UB|]. replace (n * p * C * B) with (n * B * p * C) by ring. lia. }
  set (a := (2 * A + C) / (2 * C)). assert (Ha : - C <= 2 * a * C - 2 * A <= C).
  { pose proof (Z.div_mod (2 * A + C) (2 * C) ltac:(lia)) as E. pose proof (Z.mod_pos_bound (2 * A + C) (2 * C) ltac:(lia)) as Bd. fold a in E.
    replace (2 * C * a) with (2 * a * C) in E by ring. lia. }
  split; [|apply Z.div_pos; lia].
  apply Z.mul_le_mono_pos_r with C; [exact UC|].
  assert (T : Z.abs (2 * a * C - 2 * A) * q <= C * q) by (apply Z.mul_le_mono_nonneg_r; lia).
  rewrite <- (Z.abs_eq q) in T at 1 by lia. rewrite <- Z.abs_mul in T.
  replace ((2 * a * C - 2 * A) * q) with (2 * a * q * C - 2 * (A * q)) in T by ring.
  replace (Z.abs (2 * a * q - 2 * n * p) * 2 ^ 23 * C) with (Z.abs ((2 * a * q - 2 * n * p) * C) * 2 ^ 23) by (rewrite Z.abs_mul, (Z.abs_eq C) by lia; ring).
  replace ((2 * a * q - 2 * n * p) * C) with (2 * a * q * C - 2 * (n * p * C)) by ring.
  replace ((q * 2 ^ 23 + n * p) * C) with (C * q * 2 ^ 23 + n * p * C) by ring. lia.
Qed.

(** ** Options *)

Lemma range_iff k o : range k o = true <-> forall v, o = Some v -> k <= v.
Proof. destruct o as [v|]; cbn [range]; split; [intros H w E; injection E as <-; lia|intros H; specialize (H v eq_refl); lia|intros _ w E; discriminate|reflexivity]. Qed.
Lemma range01_iff o : range01 o = true <-> forall p q, o = Some (p, q) -> 0 < p < q.
Proof.
  destruct o as [[p q]|]; cbn [range01]; split.
  - intros H x y E. injection E as <- <-. lia.
  - intros H. specialize (H p q eq_refl). lia.
  - intros _ x y E. discriminate.
  - reflexivity.
Qed.
Lemma is_some_iff {A} (o : option A) : is_some o = true <-> given o.
Proof. unfold given. destruct o; cbn; split; congruence. Qed.

Definition options_okb (o : copts) : bool :=
  (range 0 (o_start o) && range 1 (o_max o) && range 1 (o_exp o) && range 1 (o_minel o) && range 1 (o_maxel o) &&
   range 1 (o_absel o) && range 1 (o_absev o) && range01 (o_relel o) && range01 (o_relev o)) &&
  negb (is_some (o_absel o) && is_some (o_relel o)) && negb (is_some (o_absev o) && is_some (o_relev o)) &&
  negb ((is_some (o_absev o) || is_some (o_relev o)) && o_average o) &&
  (negb (is_some (o_absel o) || is_some (o_relel o)) || is_some (o_exp o)).
Lemma options_iff o : options_okb o = true <-> options_ok o.
Proof.
  unfold options_okb, options_ok. rewrite !andb_true_iff, orb_true_iff, !negb_true_iff. split.
  - intros [[[[[[[[[[[[R1 R2] R3] R4] R5] R6] R7] R8] R9] E1] E2] E3] E4].
    rewrite range_iff in *. rewrite range01_iff in *. split; [exact R1|]. split.
    { intros v Hv. cbn [In] in Hv. repeat destruct Hv as [Hv|Hv]; eauto; destruct Hv. }
    split; [intros p q Hv; cbn [In] in Hv; repeat destruct Hv as [Hv|Hv]; [apply R8; exact Hv|apply R9; exact Hv|destruct Hv]|].
    split; [rewrite <- !is_some_iff; intros [A B]; rewrite A, B in E1; discriminate|].
    split; [rewrite <- !is_some_iff; intros [A B]; rewrite A, B in E2; discriminate|].
    split; [rewrite <- !is_some_iff, <- orb_true_iff; intros [A B]; rewrite A, B in E3; discriminate|].
    rewrite <- !is_some_iff, <- orb_true_iff. intros A. rewrite A in E4. destruct E4 as [E4|E4]; [discriminate|exact E4].
  - intros (R1 & R2 & R3 & E1 & E2 & E3 & E4). rewrite !range_iff, !range01_iff. cbn [In] in R2, R3.
    rewrite <- !is_some_iff in *. repeat split; intros; try (apply R1; assumption); try (apply R2; tauto); try (apply (R3 p q); tauto).
    + destruct (is_some (o_absel o)), (is_some (o_relel o)); try reflexivity. exfalso. apply E1. split; reflexivity.
    + destruct (is_some (o_absev o)), (is_some (o_relev o)); try reflexivity. exfalso. apply E2. split; reflexivity.
    + destruct (is_some (o_absev o)), (is_some (o_relev o)), (o_average o); try reflexivity; exfalso; apply E3; split; auto.
    + destruct (is_some (o_absel o)), (is_some (o_relel o)); cbn; [right; apply E4; auto|right; apply E4; auto|right; apply E4; auto|left; reflexivity].
Qed.

Lemma bounds_bad o : options_okb o = false -> bounds o = Ok None.
Proof.
  unfold options_okb, bounds. cbv zeta.
  destruct (range 0 (o_start o) && range 1 (o_max o) && range 1 (o_exp o) && range 1 (o_minel o) && range 1 (o_maxel o) &&
           range 1 (o_absel o) && range 1 (o_absev o) && range01 (o_relel o) && range01 (o_relev o)); cbn [negb andb]; [|reflexivity].
  destruct (is_some (o_absel o) && is_some (o_relel o)); cbn [negb andb]; [reflexivity|].
  destruct (is_some (o_absev o) && is_some (o_relev o)); cbn [negb andb]; [reflexivity|].
  destruct ((is_some (o_absev o) || is_some (o_relev o)) && o_average o); cbn [negb andb]; [reflexivity|].
  destruct (o_exp o) as [x|]; cbn [is_some]; [rewrite orb_true_r; discriminate|]. rewrite orb_false_r.
  destruct (is_some (o_absel o) || is_some (o_relel o)); [reflexivity|discriminate].
Qed.

Definition orderedb (o : copts) (t : Z) : bool := match most o t with Some h => least o t <=? h | None => true end.
Definition or_zero (o : option Z) : Z := match o with Some h => h | None => 0 end.

Lemma bounds_good o : options_ok o -> (forall x rel, o_exp o = Some x -> o_relel o = Some rel -> x < 2 ^ 24) ->
  (forall x t, o_exp o = Some x -> tolerance o x t -> x + t < 2 ^ 31) ->
  exists t, (forall x, o_exp o = Some x -> tolerance o x t) /\ 0 <= t /\
    bounds o = Ok (if orderedb o t then Some (least o t, or_zero (most o t)) else None).
Proof.
  intros HO HX HT. pose proof (proj2 (options_iff o) HO) as HB. unfold options_okb in HB. rewrite !andb_true_iff, !negb_true_iff in HB.
  destruct HB as [[[[HR E1] E2] E3] E4]. rewrite <- !andb_true_iff in HR. rewrite !andb_true_iff in HR.
  destruct HO as (_ & HV & HP & _ & _ & _ & _).
  assert (V : forall v, In (Some v) [o_max o; o_exp o; o_minel o; o_maxel o; o_absel o; o_absev o] -> v =? 0 = false) by (intros v Hv; specialize (HV v Hv); lia).
  unfold bounds. rewrite <- !andb_true_iff in HR. rewrite HR, E1, E2, E3. cbn [negb]. cbv zeta. cbn [In] in V, HV, HP. unfold orderedb, least, most.
  assert (Hmin : forall z, (if val (o_minel o) =? 0 then z else val (o_minel o)) = match o_minel o with Some m => m | None => z end).
  { intros z. destruct (o_minel o) as [m|] eqn:E; [|reflexivity]. cbn [val]. rewrite V by tauto. reflexivity. }
  assert (Fin : forall mn (mx : option Z), (forall h, mx = Some h -> 1 <= h) ->
    (if (0 <? or_zero mx) && (or_zero mx <? mn) then Ok None else Ok (Some (mn, or_zero mx))) =
    (Ok (if match mx with Some h => mn <=? h | None => true end then Some (mn, or_zero mx) else None) : Res (option (Z * Z)))).
  { intros mn [h|] H; cbn [or_zero]; [|reflexivity]. specialize (H h eq_refl). replace (0 <? h) with true by lia. cbn [andb].
    destruct (h <? mn) eqn:Eh; [replace (mn <=? h) with false by lia|replace (mn <=? h) with true by lia]; reflexivity. }
  destruct (o_exp o) as [x|] eqn:Ex; [|].
  - assert (Hx : 1 <= x) by (apply HV; tauto).
    assert (K : forall t, 0 <= t -> tolerance o x t -> forall mn, mn = Z.max 0 (x - t) ->
      (do b <- (do max' <- (if val (o_maxel o) =? 0 then int_plus x t else Ok (val (o_maxel o))); Ok (Some (if val (o_minel o) =? 0 then mn else val (o_minel o), max')));
       match b with None => Ok None | Some (min, max) => if (0 <? max) && (max <? min) then Ok None else Ok (Some (min, max)) end) =
      Ok (if match (match o_maxel o with Some m => Some m | None => Some (x + t) end) with Some h => match o_minel o with Some m => m | None => Z.max 0 (x - t) end <=? h | None => true end
          then Some (match o_minel o with Some m => m | None => Z.max 0 (x - t) end, or_zero (match o_maxel o with Some m => Some m | None => Some (x + t) end)) else None)).
    { intros t Ht HTt mn ->. rewrite Hmin. rewrite <- Fin.
      - destruct (o_maxel o) as [m|] eqn:Em; cbn [val or_zero]; [rewrite V by tauto; reflexivity|]. cbn [Z.eqb]. unfold int_plus. specialize (HT x t eq_refl HTt).
        change 2147483648 with (2 ^ 31). replace (x + t <? 2 ^ 31) with true by lia. reflexivity.
      - intros h. destruct (o_maxel o) as [m|] eqn:Em; intros E; injection E as <-; [apply HV; tauto|lia]. }
    unfold tolerance in K |- *. destruct (o_absel o) as [a|] eqn:Ea, (o_relel o) as [rel|] eqn:Er; cbn [is_some orb andb] in *; [discriminate E1| | |].
    + exists a. split; [intros y E; injection E as <-; reflexivity|]. assert (1 <= a) by (apply HV; tauto). split; [lia|].
      exact (K a ltac:(lia) eq_refl _ eq_refl).
    + destruct rel as [p q]. assert (Hpq : 0 < p < q) by (apply HP; tauto). destruct (round_part_spec x (p, q) ltac:(specialize (HX x (p, q) eq_refl eq_refl); lia) Hpq) as [G1 G2].
      set (t := if round_part x (p, q) =? 0 then 1 else round_part x (p, q)). assert (Et : t = Z.max 1 (round_part x (p, q))) by (unfold t; destruct (round_part x (p, q) =? 0) eqn:E; lia).
      assert (Ht : exists a, part_of x (p, q) a /\ t = Z.max 1 a) by (exists (round_part x (p, q)); split; [exact G1|exact Et]).
      exists t. split; [intros y E; injection E as <-; exact Ht|]. split; [lia|]. exact (K t ltac:(lia) Ht _ eq_refl).
    + exists (if o_average o then 1 else 0). split; [intros y E; injection E as <-; reflexivity|]. split; [destruct (o_average o); lia|].
      rewrite <- (K (if o_average o then 1 else 0) ltac:(destruct (o_average o); lia) eq_refl (if o_average o then x - 1 else x)) by (destruct (o_average o); lia).
      destruct (o_average o) eqn:Eav; [reflexivity|]. unfold int_plus. specialize (HT x 0 eq_refl). rewrite Z.add_0_r in HT |- *.
      assert (Hlt : x < 2 ^ 31) by (apply HT; unfold tolerance; rewrite Ea, Er, Eav; reflexivity).
      change 2147483648 with (2 ^ 31). replace (x <? 2 ^ 31) with true by lia. reflexivity.
  - exists 0. split; [intros x E; discriminate|]. split; [lia|].
    assert (Hn : is_some (o_absel o) || is_some (o_relel o) = false).
    { destruct (is_some (o_absel o) || is_some (o_relel o)); [discriminate E4|reflexivity]. }
    rewrite Hn. cbn [bind]. replace (val (o_minel o)) with (match o_minel o with Some m => m | None => 0 end) by (destruct (o_minel o); reflexivity).
    replace (match o_maxel o with Some m => Some m | None => None end) with (o_maxel o) by (destruct (o_maxel o); reflexivity).
    change (val (o_maxel o)) with (or_zero (o_maxel o)). apply Fin. intros h E. apply HV. rewrite E. tauto.
Qed.

(** ** The loop *)

Definition tally (o : copts) (lo : Z) (hi : option Z) (l : list (option Z)) : counts :=
  mkCN (total (found l)) (Zlen l) (Zlen (failing o lo hi l)) (Zlen l - Zlen (found l)).
Definition size_in (name : bytes) (cols : list (bytes * coll)) : option Z := option_map (fun c => Zlen (c_elems c)) (sm_get name cols).

Lemma total_app a b : total (a ++ b) = total a + total b.
Proof. induction a as [|x a IH]; [reflexivity|]. cbn [app total fold_right] in *. fold (total (a ++ b)). fold (total a). rewrite IH. ring. Qed.
Lemma found_app a b : found (a ++ b) = found a ++ found b. Proof. apply flat_map_app. Qed.
Lemma failing_app o lo hi a b : failing o lo hi (a ++ b) = failing o lo hi a ++ failing o lo hi b. Proof. apply filter_app. Qed.

Lemma event_counted o lo hi e l : (forall h, hi = Some h -> 1 <= h /\ lo <= h) ->
  total (found (l ++ [size_in (o_name o) (ev_cols e)])) < 2 ^ 31 -> Zlen l + 1 < 2 ^ 31 ->
  check_event o lo (or_zero hi) e (tally o lo hi l) = Ok (tally o lo hi (l ++ [size_in (o_name o) (ev_cols e)])).
Proof.
  intros Hh Ht Hl. unfold check_event, tally. cbn [n_elem n_evt n_fail n_skip]. unfold size_in in *.
  rewrite found_app, failing_app, !Zlen_app, !total_app in *. change 2147483648 with (2 ^ 31).
  destruct (sm_get (o_name o) (ev_cols e)) as [c|]; cbn [option_map found flat_map app total fold_right] in Ht |- *.
  - unfold int_plus. set (n := Zlen (c_elems c)) in *. rewrite Z.add_0_r in *. change 2147483648 with (2 ^ 31). replace (total (found l) + n <? 2 ^ 31) with true by lia.
    cbn [bind n_elem n_evt n_fail n_skip]. change (Zlen [Some n]) with 1. change (Zlen [n]) with 1. replace (Zlen l + 1 <? 2 ^ 31) with true by lia. cbn [bind]. f_equal.
    assert (Hf : Zlen (failing o lo hi [Some n]) = if outside lo hi n then 1 else 0) by (unfold failing; cbn [filter]; destruct (outside lo hi n); reflexivity).
    rewrite Hf. f_equal; [|lia]. unfold outside. destruct hi as [h|]; cbn [or_zero].
    + destruct (Hh h eq_refl) as [H1 H2]. replace (0 <? h) with true by lia. destruct (n <? lo) eqn:E1, (h <? n) eqn:E2; cbn [orb]; lia.
    + cbn [Z.ltb Z.compare]. destruct (n <? lo); cbn [orb]; lia.
  - cbn [bind n_elem n_evt n_fail n_skip]. unfold int_plus. change 2147483648 with (2 ^ 31). change (Zlen [@None Z]) with 1. change (Zlen (@nil Z)) with 0.
    replace (Zlen l + 1 <? 2 ^ 31) with true by lia. cbn [bind]. f_equal. f_equal; [lia| |lia].
    assert (Hf : Zlen (failing o lo hi [None]) = if o_pedantic o then 1 else 0) by (unfold failing; cbn [filter]; destruct (o_pedantic o); reflexivity).
    rewrite Hf. destruct (o_pedantic o); lia.
Qed.

Lemma sizes_app name a b : sizes name (a ++ b) = sizes name a ++ sizes name b. Proof. apply flat_map_app. Qed.
Lemma sizes_runs name a : forallb is_wrun a = true -> sizes name a = [].
Proof. induction a as [|[n [r|h e only]] a IH]; intros H; [reflexivity|exact (IH H)|discriminate H]. Qed.
Lemma Zlen_sizes name n l : Zlen (sizes name (map (pair n) l)) = evts l.
Proof. unfold evts. induction l as [|[r|h e only] l IH]; [reflexivity|exact IH|]. cbn [map sizes flat_map snd app filter is_wevt]. rewrite !Zlen_cons. rewrite <- IH. reflexivity. Qed.

Section Check.
Context (comp : Z -> bytes -> bytes) (uncomp : bytes -> option bytes) (srt : forall A : Type, (A -> Z) -> list A -> list A)
  (ignore_null : bool).

Lemma copy_size names name next h e only l : event_copy srt names next h e only l -> size_in name (ev_cols (le_evt l)) = size_in name (read_back only names e).
Proof.
  intros (_ & _ & new & _ & F & _). unfold size_in. revert F. generalize (fun sub : bool => if sub then target new (event_tags only names h e) else new).
  intros f F. induction F as [|[n c] [n' c'] A B (E1 & _ & ty & _ & _ & _ & E2) _ IH]; [reflexivity|]. cbn [fst snd] in *. subst n'. cbn [sm_get].
  destruct (str_cmp name n); [|reflexivity|exact IH]. cbn [option_map]. unfold Zlen. rewrite E2, map_length. reflexivity.
Qed.

Lemma loop_counted d o lo hi : (forall h, hi = Some h -> 1 <= h /\ lo <= h) -> (forall v, o_max o = Some v -> 1 <= v) ->
  forall fuel done W L r, sim uncomp d r L true -> Forall2 stored_in W L -> Forall (fun w => readable ignore_null [] (snd w)) W -> 0 < rd_next r -> rd_names r = [] ->
  (length (sizes (o_name o) W) < fuel)%nat ->
  (forall v, o_max o = Some v -> Zlen done < v) ->
  let all := done ++ (match o_max o with Some v => firstn (Z.to_nat v - length done) (sizes (o_name o) W) | None => sizes (o_name o) W end) in
  Zlen all < 2 ^ 31 -> (forall n, total (found (firstn n all)) < 2 ^ 31) ->
  check_loop uncomp srt ignore_null fuel d o lo (or_zero hi) (tally o lo hi done) r = Ok (tally o lo hi all).
Proof.
  intros Hh Hm. induction fuel as [|fuel IH]; intros done W L r HS HF HR Hp Hn Hfu Hd all Hl Ht; [lia|]. cbn [check_loop].
  pose proof (sim_evt uncomp srt ignore_null d r L true HS) as HE. destruct (find_evt L) as [[[hd ed] L']|] eqn:EL.
  - destruct (find_evt_in _ _ _ _ EL) as (pre & n & -> & Hpre). apply Forall2_app_inv_r in HF. destruct HF as (W1 & W2 & F1 & F2 & ->).
    inversion F2 as [|[m i] ? W' ? Hs F3]; subst. apply Forall_app in HR. destruct HR as [_ HR]. inversion HR as [|? ? Hr HR']; subst.
    rewrite <- (proj1 (kinds _ _ F1)) in Hpre. destruct Hs as [Hmn Hs]. cbn [fst snd] in Hmn, Hs, Hr.
    destruct i as [r0|h e only]; [destruct Hs as (? & ? & ? & _ & _ & _ & [])|].
    rewrite <- Hn in Hr. destruct (stored_event comp srt ignore_null (rd_names r) h e only _ (rd_next r) Hs Hr Hp) as (hd' & ed' & e0 & l & Q & Eh & Er & Hc). injection Q as <- <-.
    destruct (HE e0 Eh) as (r' & E & HS' & N1 & N2); [rewrite Er; discriminate|]. rewrite Er in E, N2. cbn [fst snd] in E, N2. rewrite E.
    assert (ES : sizes (o_name o) (W1 ++ (m, WEvt h e only) :: W') = size_in (o_name o) (ev_cols (le_evt l)) :: sizes (o_name o) W').
    { rewrite sizes_app, (sizes_runs _ _ Hpre). rewrite (copy_size _ _ _ _ _ _ _ Hc), Hn. reflexivity. }
    set (x := size_in (o_name o) (ev_cols (le_evt l))) in *. assert (EA : exists tl, all = (done ++ [x]) ++ tl).
    { unfold all. rewrite ES. destruct (o_max o) as [v|] eqn:Ev; [|eexists; rewrite <- app_assoc; reflexivity]. specialize (Hd v eq_refl). unfold Zlen in Hd.
      destruct (Z.to_nat v - length done)%nat eqn:En; [lia|]. eexists. rewrite <- app_assoc. reflexivity. }
    assert (J : forall l0, done ++ x :: l0 = (done ++ [x]) ++ l0) by (intros; rewrite <- app_assoc; reflexivity).
    destruct EA as [tl EA]. pose proof Hl as Hl1. rewrite EA, !Zlen_app in Hl1. change (Zlen [x]) with 1 in Hl1. pose proof (Zlen_nonneg tl).
    rewrite event_counted; [|exact Hh| |lia].
    2:{ specialize (Ht (length (done ++ [x]))). rewrite EA, firstn_app, Nat.sub_diag, firstn_all in Ht. cbn [firstn] in Ht. rewrite app_nil_r in Ht. exact Ht. }
    fold x. cbn [bind]. change (n_evt (tally o lo hi (done ++ [x]))) with (Zlen (done ++ [x])).
    rewrite ES in Hfu. cbn [length] in Hfu.
    destruct (o_max o) as [v|] eqn:Ev; cbn [val].
    + specialize (Hd v eq_refl). specialize (Hm v eq_refl). replace (0 <? v) with true by lia. cbn [andb]. rewrite Zlen_app. change (Zlen [x]) with 1.
      unfold all. rewrite ES. assert (E1 : (Z.to_nat v - length done = S (Z.to_nat v - length (done ++ [x])))%nat) by (rewrite app_length; unfold Zlen in Hd; cbn [length]; lia).
      rewrite E1. cbn [firstn]. destruct (v <=? Zlen done + 1) eqn:Ee.
      * assert (E2 : (Z.to_nat v - length (done ++ [x]) = 0)%nat) by (rewrite app_length; unfold Zlen in Ee; cbn [length]; lia). rewrite E2. reflexivity.
      * rewrite (J (firstn (Z.to_nat v - length (done ++ [x])) (sizes (o_name o) W'))). assert (IH' := IH (done ++ [x]) W' L' r'); cbv zeta in IH'. apply IH'; clear IH'; try assumption.
        -- rewrite N2. pose proof (Zlen_nonneg (event_objs only (rd_names r) h e)). lia.
        -- rewrite N1. exact Hn.
        -- lia.
        -- intros w Ew. injection Ew as <-. rewrite Zlen_app. change (Zlen [x]) with 1. lia.
        -- unfold all in Hl. rewrite ES, E1 in Hl. cbn [firstn] in Hl. rewrite J in Hl. exact Hl.
        -- intros k. specialize (Ht k). unfold all in Ht. rewrite ES, E1 in Ht. cbn [firstn] in Ht. rewrite <- app_assoc. exact Ht.
    + cbn [Z.ltb Z.compare andb]. unfold all. rewrite ES. rewrite (J (sizes (o_name o) W')). assert (IH' := IH (done ++ [x]) W' L' r'); cbv zeta in IH'. apply IH'; clear IH'; try assumption.
      -- rewrite N2. pose proof (Zlen_nonneg (event_objs only (rd_names r) h e)). lia.
      -- rewrite N1. exact Hn.
      -- lia.
      -- intros w Ew. discriminate.
      -- unfold all in Hl. rewrite ES, J in Hl. exact Hl.
      -- intros k. specialize (Ht k). unfold all in Ht. rewrite ES in Ht. rewrite <- app_assoc. exact Ht.
  - destruct HE as (y & r' & E & Hy & _). rewrite E. destruct Hy as [->|[Hc _]]; [|discriminate Hc].
    apply find_evt_none in EL. rewrite <- (proj1 (kinds _ _ HF)) in EL. unfold all. rewrite (sizes_runs _ _ EL).
    replace (match o_max o with Some v => firstn (Z.to_nat v - length done) [] | None => [] end) with (@nil (option Z)) by (destruct (o_max o); [rewrite firstn_nil|]; reflexivity).
    rewrite app_nil_r. reflexivity.
Qed.

(** ** Opening and skipping *)

Lemma open_first d f files raw cbuf mraw next : codec_ok comp uncomp -> Forall (wf_ok comp uncomp d) (f :: files) ->
  exists S rest r, open_files uncomp d (map wf_name (f :: files)) (new_reader false false [] raw cbuf mraw next) = (Ok tt, r) /\
    rd_files r = wf_name f :: map fst rest /\ rd_idx r = 0%nat /\ rd_lazy r = false /\ at_items uncomp r S true /\ rd_names r = [] /\ rd_next r = next /\
    Forall2 stored_in (wf_items f) (tagged (wf_name f, S)) /\ Forall (fun nS => content uncomp d (fst nS) (snd nS)) rest /\
    Forall2 stored_in (flat_map wf_items files) (flat_map tagged rest).
Proof.
  intros Hc Hok. inversion Hok as [|? ? Hf Hfs]; subst. destruct (file_content comp uncomp d f Hc Hf) as (S & (data & lb & Hd & Hv & Hs) & B & _).
  destruct (files_content comp uncomp d files Hc Hfs) as (L & E & F & G). exists S, L.
  assert (Hex : existsb (fun m => match d m with None => true | Some _ => false end) (map wf_name (f :: files)) = false).
  { cbn [map existsb]. rewrite Hd. cbn [orb]. rewrite <- E. clear -F. induction F as [|[m Sm] rest (dm & lm & Hm & _) _ IH]; [reflexivity|]. cbn [map existsb fst] in *. rewrite Hm. exact IH. }
  unfold open_files. cbn [map] in Hex |- *. rewrite Hex. unfold open_file. rewrite Hd. cbn [with_s with_files new_reader rd_direct].
  eexists. split; [reflexivity|]. rewrite <- E. cbn. repeat (split; [reflexivity|]). split; [exists data, 0, lb; split; [reflexivity|split; assumption]|].
  repeat (split; [reflexivity|]). split; [exact B|]. split; assumption.
Qed.

Lemma skip_first d f files raw cbuf mraw next k : codec_ok comp uncomp -> Forall (wf_ok comp uncomp d) (f :: files) ->
  0 <= k <= evts (items_of (wf_sess f)) ->
  exists r W L r2, open_files uncomp d (map wf_name (f :: files)) (new_reader false false [] raw cbuf mraw next) = (Ok tt, r) /\
    (if 0 <? k then skip_events k r else (Ok tt, r)) = (Ok tt, r2) /\ sim uncomp d r2 L true /\ Forall2 stored_in W L /\ rd_names r2 = [] /\ rd_next r2 = next /\
    (forall P, Forall P (flat_map wf_items (f :: files)) -> Forall P W) /\
    (forall name, sizes name W = skipn (Z.to_nat k) (sizes name (flat_map wf_items (f :: files)))).
Proof.
  intros Hc Hok Hk. destruct (open_first d f files raw cbuf mraw next Hc Hok) as (S & rest & r & O & R1 & R2 & R3 & HA & R4 & R5 & F & C & G).
  exists r. destruct (0 <? k) eqn:E0.
  - destruct (nth_evt comp uncomp [] (items_of (wf_sess f)) k ltac:(lia)) as (pre & h & e & only & l' & El & Ep).
    unfold wf_items in F. rewrite El, map_app in F. cbn [map] in F. unfold tagged in F. cbn [fst snd] in F.
    apply Forall2_app_inv_l in F. destruct F as (T1 & T2 & F1 & F2 & ET). apply map_eq_app in ET. destruct ET as (S1 & S2 & -> & <- & <-).
    inversion F2 as [|? y ? T3 Hy F3 Ey1 Ey2]. destruct S2 as [|i S2]; [discriminate Ey2|]. cbn [map] in Ey2. injection Ey2 as -> ->. destruct Hy as [_ Hy]. cbn [snd] in Hy.
    destruct i as [?|hd ed]; [destruct Hy as (? & ? & ? & _ & _ & _ & [])|]. destruct HA as [file HA].
    assert (K : sevts S1 = k - 1).
    { rewrite <- Ep. symmetry. apply (stored_kinds comp uncomp []). clear -F1. revert S1 F1. induction pre as [|p pre IH]; intros [|s S1] F; cbn [map] in F; inversion F; subst; constructor.
      - match goal with H : stored_in _ _ |- _ => exact (proj2 H) end.
      - apply IH. assumption. }
    destruct (skip_events_found uncomp k file r S1 hd ed S2 true HA K) as (r' & E & HA' & (Q1 & Q2 & Q3 & Q4 & Q5 & Q6) & Hnx).
    exists (map (pair (wf_name f)) l' ++ flat_map wf_items files), (tagged (wf_name f, S2) ++ flat_map tagged rest), r'.
    split; [exact O|]. split; [exact E|]. split.
    { exists [], (wf_name f), S2, rest. cbn [app length]. rewrite Q1, Q2, Q4. split; [exact R1|]. split; [exact R2|]. split; [exact R3|]. split; [exists file; exact HA'|].
      split; [left; reflexivity|]. split; [exact C|reflexivity]. }
    split; [apply Forall2_app; assumption|]. split; [congruence|]. split; [congruence|]. split.
    + intros P HP. cbn [flat_map] in HP. unfold wf_items at 1 in HP. rewrite El, map_app in HP. cbn [map] in HP. apply Forall_app in HP. destruct HP as [HP1 HP2].
      apply Forall_app in HP1. destruct HP1 as [_ HP1]. inversion HP1; subst. apply Forall_app. split; assumption.
    + intros name. cbn [flat_map]. unfold wf_items at 2. rewrite El, map_app. cbn [map]. rewrite !sizes_app. change ((wf_name f, WEvt h e only) :: ?m) with ([(wf_name f, WEvt h e only)] ++ m).
      rewrite sizes_app. cbn [sizes flat_map snd app]. pose proof (Zlen_sizes name (wf_name f) pre) as Z1. rewrite Ep in Z1.
      rewrite <- app_assoc. rewrite skipn_app. rewrite (skipn_all2 (sizes name (map (pair (wf_name f)) pre))) by (unfold Zlen in Z1; lia).
      replace (Z.to_nat k - length (sizes name (map (pair (wf_name f)) pre)))%nat with 1%nat by (unfold Zlen in Z1; lia). reflexivity.
  - exists (flat_map wf_items (f :: files)), (tagged (wf_name f, S) ++ flat_map tagged rest), r. split; [exact O|]. split; [reflexivity|]. split.
    { exists [], (wf_name f), S, rest. cbn [app length]. split; [exact R1|]. split; [exact R2|]. split; [exact R3|]. split; [exact HA|].
      split; [left; reflexivity|]. split; [exact C|reflexivity]. }
    split; [apply Forall2_app; assumption|]. split; [exact R4|]. split; [exact R5|]. split; [auto|]. intros name. replace (Z.to_nat k) with 0%nat by lia. reflexivity.
Qed.

(** ** The exit status *)

Lemma found_le l : Zlen (found l) <= Zlen l.
Proof. induction l as [|[n|] l IH]; [apply Z.le_refl| |]; cbn [found flat_map app]; fold (found l); rewrite !Zlen_cons in *; lia. Qed.
Lemma total_nonneg l : Forall (fun n => 0 <= n) l -> 0 <= total l.
Proof. induction 1 as [|n l H _ IH]; [cbn; lia|]. cbn [total fold_right] in *. fold (total l). lia. Qed.
Lemma sizes_nonneg name W : Forall (fun n => 0 <= n) (found (sizes name W)).
Proof.
  induction W as [|[n [r|h e only]] W IH]; [constructor|exact IH|]. cbn [sizes flat_map snd app found]. fold (sizes name W).
  destruct (sm_get name (read_back only [] e)) as [c|]; cbn [option_map app]; [constructor; [apply Zlen_nonneg|exact IH]|exact IH].
Qed.
Lemma found_firstn n l : exists l', found l = found (firstn n l) ++ l'.
Proof. exists (found (skipn n l)). rewrite <- found_app, firstn_skipn. reflexivity. Qed.
Lemma found_part P n l : Forall P (found l) -> Forall P (found (firstn n l)) /\ Forall P (found (skipn n l)).
Proof. intros H. rewrite <- (firstn_skipn n l), found_app in H. apply Forall_app in H. exact H. Qed.

Lemma verdict_spec o t l : options_ok o -> 0 <= t -> Forall (fun n => 0 <= n) (found l) -> (forall h, most o t = Some h -> 1 <= h) ->
  (given (o_relev o) -> Zlen l < 2 ^ 24) -> (o_average o = true -> small_average o t l) ->
  exists a, allowance o (Zlen l) a /\
    let s := verdict o (least o t) (or_zero (most o t)) (tally o (least o t) (most o t) l) in (s = 0 \/ s = 1) /\ (s = 0 <-> passes o t a l).
Proof.
  intros HO Ht HN HM HE HA. destruct HO as (_ & HV & HP & _ & HD & HX & _). cbv zeta.
  pose proof (Zlen_nonneg l) as L0. pose proof (found_le l) as L1. pose proof (Zlen_nonneg (found l)) as L2.
  assert (Hne : found l <> [] <-> Zlen (found l) <> 0).
  { split; [intros H; destruct (found l); [congruence|rewrite Zlen_cons; pose proof (Zlen_nonneg l0); lia]|intros H E; rewrite E in H; apply H; reflexivity]. }
  assert (Hal : exists a, allowance o (Zlen l) a /\ (0 < Zlen l -> a = match o_relev o with Some rel => round_part (Zlen l) rel | None => val (o_absev o) end)).
  { unfold allowance. destruct (o_absev o) as [v|] eqn:Ev.
    - exists v. split; [reflexivity|]. intros _. destruct (o_relev o) as [rel|] eqn:Er; [|reflexivity]. exfalso.
      apply HD. split; discriminate.
    - destruct (o_relev o) as [[p q]|] eqn:Er; [|exists 0; split; reflexivity].
      assert (Hpq : 0 < p < q) by (apply HP; cbn [In]; tauto). destruct (Z.eq_dec (Zlen l) 0) as [E|E].
      + exists 0. split; [|lia]. unfold part_of. cbn [fst snd]. rewrite E. lia.
      + exists (round_part (Zlen l) (p, q)). split; [|reflexivity]. apply round_part_spec; [|exact Hpq]. assert (Zlen l < 2 ^ 24) by (apply HE; discriminate). lia. }
  destruct Hal as (a & Ha & Ea). exists a. split; [exact Ha|]. unfold verdict, tally. cbn [n_elem n_evt n_fail n_skip]. unfold passes.
  destruct (Zlen l <=? 0) eqn:E0.
  { split; [right; reflexivity|]. split; [discriminate|]. intros [H _]. apply Hne in H. lia. }
  destruct (Zlen l =? Zlen l - Zlen (found l)) eqn:E1.
  { split; [right; reflexivity|]. split; [discriminate|]. intros [H _]. apply Hne in H. lia. }
  assert (HF : found l <> []) by (apply Hne; lia). cbv zeta. destruct (o_average o) eqn:Eav.
  - destruct (HA eq_refl) as (A1 & A2 & A3 & A4 & A5).
    replace (if o_pedantic o then Zlen l else Zlen l - (Zlen l - Zlen (found l))) with (averaged o l) by (unfold averaged; destruct (o_pedantic o); lia).
    assert (Hn : 1 <= averaged o l < 2 ^ 24) by (unfold averaged; destruct (o_pedantic o); lia).
    pose proof (total_nonneg _ HN) as T0. assert (HL0 : 0 <= least o t).
    { unfold least. destruct (o_minel o) as [m|] eqn:Em; [assert (1 <= m) by (apply HV; cbn [In]; tauto); lia|]. destruct (o_exp o); lia. }
    rewrite (proj1 (avg_spec (total (found l)) (averaged o l) (least o t) ltac:(lia) Hn ltac:(lia)) A4).
    destruct (total (found l) <? averaged o l * least o t) eqn:E2.
    { split; [right; reflexivity|]. split; [discriminate|]. intros (_ & H & _). lia. }
    destruct (most o t) as [h|] eqn:Em; cbn [or_zero].
    + specialize (HM h eq_refl). destruct (A5 h eq_refl) as [B1 B2]. replace (0 <? h) with true by lia. cbn [andb].
      rewrite (proj2 (avg_spec (total (found l)) (averaged o l) h ltac:(lia) Hn ltac:(lia)) B2). destruct (averaged o l * h <? total (found l)) eqn:E3.
      * split; [right; reflexivity|]. split; [discriminate|]. intros (_ & _ & H). specialize (H h eq_refl). lia.
      * split; [left; reflexivity|]. split; [intros _|reflexivity]. split; [exact HF|]. split; [lia|]. intros k E. injection E as <-. lia.
    + cbn [Z.ltb Z.compare andb]. split; [left; reflexivity|]. split; [intros _|reflexivity]. split; [exact HF|]. split; [lia|]. intros k E. discriminate.
  - rewrite <- (Ea ltac:(lia)). destruct (a <? Zlen (failing o (least o t) (most o t) l)) eqn:E2.
    + split; [right; reflexivity|]. split; [discriminate|]. intros [_ H]. lia.
    + split; [left; reflexivity|]. split; [intros _|reflexivity]. split; [exact HF|lia].
Qed.

Theorem checked fuel d f files o raw cbuf mraw next : codec_ok comp uncomp -> Forall (wf_ok comp uncomp d) (f :: files) ->
  let W := flat_map wf_items (f :: files) in let l := looked_at (o_start o) (o_max o) (sizes (o_name o) W) in
  Forall (fun w => readable ignore_null [] (snd w)) W -> 0 < next -> options_ok o ->
  (forall x rel, o_exp o = Some x -> o_relel o = Some rel -> x < 2 ^ 24) -> (forall x t, o_exp o = Some x -> tolerance o x t -> x + t < 2 ^ 31) ->
  (forall k, o_start o = Some k -> k <= evts (items_of (wf_sess f))) ->
  Zlen l < 2 ^ 31 -> total (found l) < 2 ^ 31 -> (given (o_relev o) -> Zlen l < 2 ^ 24) ->
  (o_average o = true -> forall t, (forall x, o_exp o = Some x -> tolerance o x t) -> small_average o t l) ->
  (length W < fuel)%nat ->
  exists t a s, (forall x, o_exp o = Some x -> tolerance o x t) /\ allowance o (Zlen l) a /\
    check_files uncomp srt ignore_null fuel d (map wf_name (f :: files)) o (new_reader false false [] raw cbuf mraw next) = Ok s /\ (s = 0 \/ s = 1) /\
    (s = 0 <-> (forall h, most o t = Some h -> least o t <= h) /\ passes o t a l).
Proof.
  intros HC HF W l HR Hp HO HX HT Hs Hl Htot Hrel Havg Hfuel. destruct (bounds_good o HO HX HT) as (t & T1 & T2 & EB).
  pose proof HO as (S0 & HV & _).
  assert (HM : forall h, most o t = Some h -> 1 <= h).
  { intros h. unfold most. destruct (o_maxel o) as [m|] eqn:Em; [intros E; injection E as <-; apply HV; cbn [In]; tauto|].
    destruct (o_exp o) as [x|] eqn:Ex; [|discriminate]. intros E. injection E as <-. assert (1 <= x) by (apply HV; cbn [In]; tauto). lia. }
  assert (HN : Forall (fun n => 0 <= n) (found l)).
  { unfold l, looked_at. pose proof (sizes_nonneg (o_name o) W) as N. assert (N1 : Forall (fun n => 0 <= n) (found (match o_start o with Some k => skipn (Z.to_nat k) (sizes (o_name o) W) | None => sizes (o_name o) W end))).
    { destruct (o_start o); [apply found_part|]; exact N. }
    destruct (o_max o); [apply found_part|]; exact N1. }
  destruct (verdict_spec o t l HO T2 HN HM Hrel (fun E => Havg E t T1)) as (a & Ha & V1 & V2). exists t, a.
  unfold check_files. change (length (map wf_name (f :: files)) =? 0)%nat with false. cbv iota. rewrite EB. cbn [bind]. unfold orderedb.
  destruct (match most o t with Some h => least o t <=? h | None => true end) eqn:EO.
  - assert (Hor : forall h, most o t = Some h -> least o t <= h) by (intros h E; rewrite E in EO; lia).
    set (k := val (o_start o)). assert (Hk : 0 <= k <= evts (items_of (wf_sess f))).
    { unfold k. destruct (o_start o) as [v|] eqn:Es; cbn [val]; [split; [apply S0|apply Hs]; reflexivity|]. split; [lia|apply Zlen_nonneg]. }
    destruct (skip_first d f files raw cbuf mraw next k HC HF Hk) as (r & W' & L & r2 & O & ES & Hsim & F & N1 & N2 & HP & Hsz). rewrite O, ES.
    assert (El : l = match o_max o with Some v => firstn (Z.to_nat v) (sizes (o_name o) W') | None => sizes (o_name o) W' end).
    { unfold l, looked_at. rewrite Hsz. fold W. unfold k. destruct (o_start o); reflexivity. }
    assert (Hloop : check_loop uncomp srt ignore_null fuel d o (least o t) (or_zero (most o t)) (mkCN 0 0 0 0) r2 = Ok (tally o (least o t) (most o t) l)).
    { change (mkCN 0 0 0 0) with (tally o (least o t) (most o t) []). pose proof (loop_counted d o (least o t) (most o t)) as H. cbv zeta in H.
      assert (EL : l = [] ++ match o_max o with Some v => firstn (Z.to_nat v - length (@nil (option Z))) (sizes (o_name o) W') | None => sizes (o_name o) W' end).
      { rewrite El. cbn [app length]. destruct (o_max o); [rewrite Nat.sub_0_r|]; reflexivity. }
      rewrite EL. apply H with (L := L); clear H; try assumption.
      - intros h E. split; [apply HM; exact E|apply Hor; exact E].
      - intros v E. apply HV. cbn [In]. rewrite E. tauto.
      - apply HP. exact HR.
      - lia.
      - rewrite Hsz. rewrite skipn_length. assert (Hlen : (length (sizes (o_name o) W) <= length W)%nat).
        { clear. induction W as [|[n [r|h e only]] W IH]; [apply le_n| |]; cbn [sizes flat_map snd app length] in *; fold (sizes (o_name o) W); lia. }
        fold W. lia.
      - intros v E. assert (1 <= v) by (apply HV; cbn [In]; rewrite E; tauto). change (Zlen (@nil (option Z))) with 0. lia.
      - rewrite <- EL. exact Hl.
      - intros n. rewrite <- EL. destruct (found_firstn n l) as (l' & E'). rewrite E', total_app in Htot. rewrite E' in HN. apply Forall_app in HN. pose proof (total_nonneg _ (proj2 HN)). lia. }
    rewrite Hloop. cbn [bind]. eexists. split; [exact T1|]. split; [exact Ha|]. split; [reflexivity|]. split; [exact V1|]. rewrite V2. tauto.
  - exists 1. split; [exact T1|]. split; [exact Ha|]. split; [reflexivity|]. split; [right; reflexivity|]. split; [discriminate|]. intros [H _].
    destruct (most o t) as [h|]; [specialize (H h eq_refl); lia|discriminate EO].
Qed.

(** ** Other ends *)

Theorem misused fuel d files o new : ~ options_ok o \/ files = [] -> check_files uncomp srt ignore_null fuel d files o new = Ok 1.
Proof.
  intros H. unfold check_files. destruct files as [|n files]; [reflexivity|]. change (length (n :: files) =? 0)%nat with false. cbv iota.
  destruct H as [H|H]; [|discriminate]. rewrite bounds_bad; [reflexivity|]. destruct (options_okb o) eqn:E; [|reflexivity]. apply options_iff in E. contradiction.
Qed.
End Check.
