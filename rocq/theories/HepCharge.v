(** * Charges of particles *)

From Verif Require Import Bytes SioModel HepModel.

(** three times the charge of a quark: down, up, strange, charm, bottom, top and a fourth family *)
Definition quark (d : Z) : Z := if Z.even d then 2 else -1.
Definition is_quark (d : Z) : Prop := 1 <= d <= 8.
(** codes of the numbering scheme: [n] (radial and orbital excitation), the quarks, and twice the spin plus one *)
Definition baryon_code (n a b c j : Z) : Z := 10000 * n + 1000 * a + 100 * b + 10 * c + j.
Definition meson_code (n b c j : Z) : Z := 10000 * n + 100 * b + 10 * c + j.
Definition diquark_code (a b j : Z) : Z := 1000 * a + 100 * b + j.

Lemma charge_of_quark d : is_quark d -> charge_of d = Ok (quark d).
Proof.
  unfold is_quark. intros H. assert (d = 1 \/ d = 2 \/ d = 3 \/ d = 4 \/ d = 5 \/ d = 6 \/ d = 7 \/ d = 8) as K by lia. repeat (destruct K as [-> | K]; [reflexivity|]). subst d. reflexivity.
Qed.
Lemma dig0 v : dec_digit v 0 = v mod 10. Proof. unfold dec_digit. rewrite Z.div_1_r. reflexivity. Qed.
Lemma dig1 v : dec_digit v 1 = (v / 10) mod 10. Proof. reflexivity. Qed.
Lemma dig2 v : dec_digit v 2 = (v / 100) mod 10. Proof. reflexivity. Qed.
Lemma dig3 v : dec_digit v 3 = (v / 1000) mod 10. Proof. reflexivity. Qed.
Lemma digit_range v k : 0 <= dec_digit v k < 10.
Proof. unfold dec_digit. apply Z.mod_pos_bound. lia. Qed.

Lemma signed_pos c : (if c =? 0 then 0 else c) = c.
Proof. destruct (c =? 0) eqn:E; lia. Qed.
Theorem baryon_charge n a b c j : 0 <= n < 1000 -> is_quark a -> is_quark b -> is_quark c -> 1 <= j <= 9 ->
  three_charge (baryon_code n a b c j) = Ok (quark a + quark b + quark c).
Proof.
  unfold is_quark. intros Hn Ha Hb Hc Hj. set (v := baryon_code n a b c j). assert (V : v = 10000 * n + 1000 * a + 100 * b + 10 * c + j) by reflexivity.
  assert (R : 0 < v < 10000000) by lia. unfold three_charge. replace (v =? - two31) with false by (unfold two31; lia). rewrite (Z.abs_eq v) by lia.
  assert (D0 : dec_digit v 0 = j) by (rewrite dig0; lia). assert (D1 : dec_digit v 1 = c) by (rewrite dig1; lia).
  assert (D2 : dec_digit v 2 = b) by (rewrite dig2; lia). assert (D3 : dec_digit v 3 = a) by (rewrite dig3; lia).
  rewrite D0, D1, D2, D3. replace (v / 10000000) with 0 by lia. replace (v =? 0) with false by lia. change (0 <? 0) with false. cbn [orb].
  replace (b =? 0) with false by lia. cbn [andb]. replace (v <=? 102) with false by lia.
  destruct ((dec_digit v 9 =? 1) && (dec_digit v 8 =? 0)); change (0 <? 0) with false; cbn [andb];
  replace (j =? 0) with false by lia; replace (a =? 0) with false by lia; replace (c =? 0) with false by lia;
  rewrite !charge_of_quark by (unfold is_quark; lia); cbn [bind]; replace (v <? 0) with false by lia; rewrite signed_pos; f_equal; lia.
Qed.
Theorem meson_charge n b c j : 0 <= n < 1000 -> 1 <= c <= b -> b <= 6 -> 1 <= j <= 9 ->
  three_charge (meson_code n b c j) = Ok (if Z.even b then quark b - quark c else quark c - quark b).
Proof.
  intros Hn Hc Hb Hj. set (v := meson_code n b c j). assert (V : v = 10000 * n + 100 * b + 10 * c + j) by reflexivity.
  assert (R : 0 < v < 10000000) by lia. unfold three_charge. replace (v =? - two31) with false by (unfold two31; lia). rewrite (Z.abs_eq v) by lia.
  assert (D0 : dec_digit v 0 = j) by (rewrite dig0; lia). assert (D1 : dec_digit v 1 = c) by (rewrite dig1; lia).
  assert (D2 : dec_digit v 2 = b) by (rewrite dig2; lia). assert (D3 : dec_digit v 3 = 0) by (rewrite dig3; lia).
  rewrite D0, D1, D2, D3. replace (v / 10000000) with 0 by lia. replace (v =? 0) with false by lia. change (0 <? 0) with false. cbn [orb].
  replace (b =? 0) with false by lia. cbn [andb]. replace (v <=? 102) with false by lia.
  destruct ((dec_digit v 9 =? 1) && (dec_digit v 8 =? 0)); change (0 <? 0) with false; cbn [andb];
  replace (j =? 0) with false by lia; change (0 =? 0) with true; cbv iota;
  rewrite !charge_of_quark by (unfold is_quark; lia); cbn [bind]; replace (v <? 0) with false by lia; rewrite !signed_pos;
  (assert (b = 1 \/ b = 2 \/ b = 3 \/ b = 4 \/ b = 5 \/ b = 6) as K by lia; destruct K as [K|[K|[K|[K|[K|K]]]]]; rewrite K; cbn; try reflexivity);
  (replace c with 1 by lia; reflexivity).
Qed.
Theorem diquark_charge a b j : is_quark a -> is_quark b -> 1 <= j <= 9 -> three_charge (diquark_code a b j) = Ok (quark a + quark b).
Proof.
  unfold is_quark. intros Ha Hb Hj. set (v := diquark_code a b j). assert (V : v = 1000 * a + 100 * b + j) by reflexivity.
  assert (R : 0 < v < 10000000) by lia. unfold three_charge. replace (v =? - two31) with false by (unfold two31; lia). rewrite (Z.abs_eq v) by lia.
  assert (D0 : dec_digit v 0 = j) by (rewrite dig0; lia). assert (D1 : dec_digit v 1 = 0) by (rewrite dig1; lia).
  assert (D2 : dec_digit v 2 = b) by (rewrite dig2; lia). assert (D3 : dec_digit v 3 = a) by (rewrite dig3; lia).
  rewrite D0, D1, D2, D3. replace (v / 10000000) with 0 by lia. replace (v =? 0) with false by lia. change (0 <? 0) with false. cbn [orb].
  replace (b =? 0) with false by lia. cbn [andb]. replace (v <=? 102) with false by lia.
  destruct ((dec_digit v 9 =? 1) && (dec_digit v 8 =? 0)); change (0 <? 0) with false; cbn [andb];
  replace (j =? 0) with false by lia; replace (a =? 0) with false by lia; change (0 =? 0) with true; cbv iota;
  rewrite !charge_of_quark by (unfold is_quark; lia); cbn [bind]; replace (v <? 0) with false by lia; rewrite signed_pos; f_equal; lia.
Qed.
Theorem antiparticle_charge p : - two31 < p < two31 -> three_charge (- p) = do c <- three_charge p; Ok (- c).
Proof.
  unfold two31. intros H. unfold three_charge. replace (- p =? - two31) with false by (unfold two31; lia). replace (p =? - two31) with false by (unfold two31; lia). rewrite Z.abs_opp.
  destruct (Z.eq_dec p 0) as [->|Hp]; [reflexivity|].
  assert (S : forall c, (if c =? 0 then 0 else if - p <? 0 then - c else c) = - (if c =? 0 then 0 else if p <? 0 then - c else c)).
  { intros c. destruct (c =? 0); [reflexivity|]. destruct (- p <? 0) eqn:E1, (p <? 0) eqn:E2; lia. }
  set (ida := Z.abs p). cbv zeta. set (sid := if _ && _ then 0 else _). destruct ((ida =? 0) || _); [reflexivity|]. destruct ((0 <? sid) && (sid <=? 100)).
  { destruct (charge_of sid); cbn [bind]; [rewrite S; reflexivity|reflexivity..]. }
  destruct (dec_digit ida 0 =? 0); [reflexivity|]. destruct (charge_of (dec_digit ida 1)), (charge_of (dec_digit ida 2)), (charge_of (dec_digit ida 3));
  destruct (dec_digit ida 3 =? 0), ((dec_digit ida 2 =? 3) || (dec_digit ida 2 =? 5)), (dec_digit ida 1 =? 0); cbn [bind]; rewrite ?S; reflexivity.
Qed.
Theorem charge_neutral_or_bounded p c : three_charge p = Ok c -> -6 <= c <= 6.
Proof.
  unfold three_charge. destruct (p =? - two31); [discriminate|]. cbv zeta.
  assert (Q : forall i x, charge_of i = Ok x -> -3 <= x <= 6 /\ (i <= 10 -> -1 <= x <= 2)).
  { intros i x. unfold charge_of, elem. destruct (_ && _) eqn:B; [|discriminate]. intros E. assert (EX : x = nth (Z.to_nat (i - 1)) ch100 0) by congruence. clear E. subst x.
    assert (F : Forall (fun x => -3 <= x <= 6) ch100) by (unfold ch100; repeat constructor; lia).
    split; [apply (proj1 (Forall_forall _ _) F); apply nth_In; unfold Zlen in B; lia|]. intros Hi. change (Zlen ch100) with 100 in B.
    assert (i - 1 = 0 \/ i - 1 = 1 \/ i - 1 = 2 \/ i - 1 = 3 \/ i - 1 = 4 \/ i - 1 = 5 \/ i - 1 = 6 \/ i - 1 = 7 \/ i - 1 = 8 \/ i - 1 = 9) as K by lia.
    destruct K as [K|[K|[K|[K|[K|[K|[K|[K|[K|K]]]]]]]]]; rewrite K; split; vm_compute; discriminate. }
  set (ida := Z.abs p). set (sid := if _ && _ then 0 else _).
  assert (SG : forall x, -6 <= x <= 6 -> -6 <= (if x =? 0 then 0 else if p <? 0 then - x else x) <= 6) by (intros x Hx; destruct (x =? 0), (p <? 0); lia).
  destruct ((ida =? 0) || _); [intros E; injection E as <-; lia|]. destruct ((0 <? sid) && (sid <=? 100)).
  { destruct (charge_of sid) as [x| |] eqn:EQ; [|discriminate..]. cbn [bind]. destruct (Q _ _ EQ) as [K _]. intros E. injection E as <-. apply SG. destruct (_ || _); [lia|]. destruct (_ || _); lia. }
  pose proof (digit_range ida 1). pose proof (digit_range ida 2). pose proof (digit_range ida 3).
  destruct (dec_digit ida 0 =? 0); [intros E; injection E as <-; lia|]. 
  destruct (charge_of (dec_digit ida 1)) as [x1| |] eqn:Q1; destruct (charge_of (dec_digit ida 2)) as [x2| |] eqn:Q2; destruct (charge_of (dec_digit ida 3)) as [x3| |] eqn:Q3;
  destruct (dec_digit ida 3 =? 0), ((dec_digit ida 2 =? 3) || (dec_digit ida 2 =? 5)), (dec_digit ida 1 =? 0); cbn [bind]; try discriminate; intros E; injection E as <-; apply SG;
  repeat match goal with K : charge_of ?i = Ok ?x |- _ => pose proof (proj2 (Q _ _ K) ltac:(lia)); clear K end; lia.
Qed.
