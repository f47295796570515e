(** * Reading StdHep files *)

From Verif Require Import Bytes SioModel SioProofs Ieee ObjModel HepModel HepFormat.

(** ** XDR *)

Lemma lies_app f p b c : lies f p (b ++ c) -> lies f p b /\ lies f (p + Zlen b) c.
Proof.
  intros (x & y & -> & <-). split; [exists x, (c ++ y); rewrite <- app_assoc; auto|]. exists (x ++ b), y. rewrite <- !app_assoc. split; [reflexivity|]. unfold Zlen. rewrite app_length. lia.
Qed.
Lemma x_get_lies f p e b c n : lies f p (b ++ c) -> n = Zlen b -> x_get n (mkX f p e) = (Some b, mkX f (p + n) e) /\ lies f (p + n) c.
Proof.
  intros H ->. split; [|exact (proj2 (lies_app _ _ _ _ H))]. destruct H as (x & y & -> & <-). unfold x_get. cbn [x_pos x_file x_err]. destruct (Zlen b <=? 0) eqn:B.
  - destruct b; [rewrite Zlen_nil, Z.add_0_r; reflexivity|unfold Zlen in B; cbn [length] in B; lia].
  - replace (Zlen x + Zlen b <=? Zlen (x ++ (b ++ c) ++ y)) with true by (unfold Zlen; rewrite !app_length; lia). rewrite <- app_assoc, sub_mid by reflexivity. reflexivity.
Qed.
Lemma be_len n v : Zlen (be n v) = Z.of_nat n.
Proof. unfold Zlen. rewrite be_length. reflexivity. Qed.
Lemma s32_unbe v : s32 (unbe (be 4 v)) = s32 v.
Proof. rewrite unbe_be. apply s32_mod. Qed.
Lemma check_long_lies f p e v c : lies f p (w_long v ++ c) -> check_long (mkX f p e) = (Some (s32 v), mkX f (p + 4) e) /\ lies f (p + 4) c.
Proof.
  intros H. destruct (x_get_lies f p e _ _ 4 H ltac:(unfold w_long; rewrite be_len; reflexivity)) as [E L]. split; [|exact L]. unfold check_long. rewrite E. unfold w_long. rewrite s32_unbe. reflexivity.
Qed.
Lemma x_long_lies f p e v c : lies f p (w_long v ++ c) -> x_long (mkX f p e) = (s32 v, mkX f (p + 4) e) /\ lies f (p + 4) c.
Proof. intros H. destruct (check_long_lies f p e v c H) as [E L]. split; [unfold x_long; rewrite E; reflexivity|exact L]. Qed.
Lemma x_double_lies f p e v c : lies f p (w_double v ++ c) -> x_double (mkX f p e) = (v mod two64, mkX f (p + 8) e) /\ lies f (p + 8) c.
Proof.
  intros H. destruct (x_get_lies f p e _ _ 8 H ltac:(unfold w_double; rewrite be_len; reflexivity)) as [E L]. split; [|exact L]. unfold x_double. rewrite E. unfold w_double. rewrite unbe_be. reflexivity.
Qed.
Lemma pad4 n : 0 <= n < two32 - 3 -> Z.land (n + 3) 4294967292 = n + (- n) mod 4.
Proof.
  intros H. replace 4294967292 with (Z.shiftl (Z.ones 30) 2) by reflexivity.
  assert (E : Z.land (n + 3) (Z.shiftl (Z.ones 30) 2) = Z.shiftl (Z.land (Z.shiftr (n + 3) 2) (Z.ones 30)) 2).
  { apply Z.bits_inj'. intros m Hm. rewrite Z.land_spec, !Z.shiftl_spec by lia. destruct (Z.ltb_spec m 2).
    - rewrite !(Z.testbit_neg_r _ (m - 2)) by lia. apply andb_false_r.
    - rewrite Z.land_spec, Z.shiftr_spec by lia. replace (m - 2 + 2) with m by lia. reflexivity. }
  rewrite E, Z.land_ones, Z.shiftl_mul_pow2, Z.shiftr_div_pow2 by lia. change (2 ^ 2) with 4. change (2 ^ 30) with 1073741824. unfold two32 in H.
  rewrite (Z.mod_small ((n + 3) / 4)) by lia. lia.
Qed.
Lemma zeros_len n : Zlen (zeros n) = Z.of_nat n.
Proof. unfold Zlen, zeros. rewrite repeat_length. reflexivity. Qed.
Lemma small_s32 z : 0 <= z < two31 -> s32 z = z.
Proof. intros H. apply s32_id. unfold is_i32, two31 in *. lia. Qed.
Lemma Zlen_pos {A} (l : list A) : 0 <= Zlen l. Proof. unfold Zlen. lia. Qed.

Definition pad (s : bytes) : bytes := s ++ zeros (Z.to_nat ((- Zlen s) mod 4)).
Lemma x_string_lies f p e s c len : short_string s -> lies f p (w_string s ++ c) ->
  x_string len (mkX f p e) = (Some (pad s), Zlen s, mkX f (p + Zlen (w_string s)) 0) /\ lies f (p + Zlen (w_string s)) c.
Proof.
  intros Hs H. split; [|exact (proj2 (lies_app _ _ _ _ H))]. unfold w_string in *. rewrite <- !app_assoc in H. destruct (check_long_lies f p e _ _ H) as [E L].
  unfold x_string. rewrite E. unfold short_string, two31 in Hs. pose proof (Zlen_pos s). rewrite small_s32 by (unfold two31; lia).
  rewrite app_assoc in L. fold (pad s) in *. assert (EL : Zlen (pad s) = Zlen s + (- Zlen s) mod 4).
  { unfold pad. unfold Zlen at 1. rewrite app_length. fold (zeros (Z.to_nat ((- Zlen s) mod 4))). pose proof (zeros_len (Z.to_nat ((- Zlen s) mod 4))) as Q. unfold Zlen in Q at 1.
    rewrite Nat2Z.inj_add, Q. fold (Zlen s). lia. }
  destruct (x_get_lies f (p + 4) e (pad s) c (Z.land (Zlen s + 3) 4294967292) L) as [E2 _]; [rewrite pad4 by (unfold two32; lia); lia|]. rewrite E2. cbn [set_err x_file x_pos].
  rewrite pad4 by (unfold two32; lia). f_equal. unfold set_err. cbn [x_file x_pos]. replace (Zlen (w_long (Zlen s) ++ pad s)) with (4 + Zlen (pad s)) by (unfold Zlen; rewrite app_length; unfold w_long; rewrite be_length; lia). rewrite EL. f_equal. lia.
Qed.
Lemma pad_first s v : first_char (Some (pad (v :: s))) = Ok (Zb v).
Proof. reflexivity. Qed.
Lemma version2_first s : exists c, first_char (Some (pad s)) = Ok c /\ (c =? 50) = version2 s.
Proof.
  destruct s as [|v s]; [|exists (Zb v); split; reflexivity]. exists 0. split; reflexivity.
Qed.

Lemma words_flat k (l : list Z) (g : Z -> bytes) : (forall v, length (g v) = k) -> words k (length l) (flat_map g l) = map (fun v => unbe (g v)) l.
Proof.
  intros Hk. induction l as [|v l IH]; [reflexivity|]. cbn [length words flat_map map]. rewrite firstn_app_exact, skipn_app_exact by (symmetry; apply Hk). rewrite IH. reflexivity.
Qed.
Lemma flat_len k (l : list Z) (g : Z -> bytes) : (forall v, length (g v) = k) -> Zlen (flat_map g l) = Z.of_nat k * Zlen l.
Proof.
  intros Hk. induction l as [|v l IH]; [cbn; lia|]. cbn [flat_map]. unfold Zlen in *. rewrite app_length, Hk. cbn [length]. lia.
Qed.
Lemma map_ext_Forall {A B} (P : A -> Prop) (f g : A -> B) l : Forall P l -> (forall x, P x -> f x = g x) -> map f l = map g l.
Proof. intros H E. induction H as [|x l Hx Hl IH]; [reflexivity|]. cbn. rewrite (E x Hx), IH. reflexivity. Qed.
Lemma x_longs_lies f p e l c len : long_list l -> lies f p (w_longs l ++ c) ->
  x_longs len (mkX f p e) = Ok (Some l, Zlen l, mkX f (p + Zlen (w_longs l)) 0) /\ lies f (p + Zlen (w_longs l)) c.
Proof.
  intros [Hl Hf] H. split; [|exact (proj2 (lies_app _ _ _ _ H))]. unfold w_longs in *. rewrite <- !app_assoc in H. destruct (check_long_lies f p e _ _ H) as [E L].
  unfold x_longs. rewrite E. pose proof (Zlen_pos l). rewrite small_s32 by lia. replace (Zlen l <? 0) with false by lia.
  assert (FL : Zlen (flat_map w_long l) = 4 * Zlen l) by (rewrite (flat_len 4) by (intros; apply be_length); lia).
  destruct (x_get_lies f (p + 4) e _ c (4 * Zlen l) L ltac:(lia)) as [E2 _]. rewrite E2. cbn [set_err x_file x_pos].
  replace (Z.to_nat (Zlen l)) with (length l) by (unfold Zlen; lia). rewrite words_flat by (intros; apply be_length). rewrite map_map.
  rewrite (map_ext_Forall is_i32 _ (fun v => v) l Hf) by (intros v Hv; unfold w_long; rewrite s32_unbe; apply s32_id; exact Hv). rewrite map_id.
  unfold set_err. cbn [x_file x_pos]. replace (p + 4 + 4 * Zlen l) with (p + Zlen (w_long (Zlen l) ++ flat_map w_long l)); [reflexivity|].
  unfold Zlen at 1. rewrite app_length. unfold w_long at 1. rewrite be_length. unfold Zlen in *. lia.
Qed.
Lemma x_doubles_lies f p e l c len : double_list l -> lies f p (w_doubles l ++ c) ->
  x_doubles len (mkX f p e) = Ok (Some l, Zlen l, mkX f (p + Zlen (w_doubles l)) 0) /\ lies f (p + Zlen (w_doubles l)) c.
Proof.
  intros [Hl Hf] H. split; [|exact (proj2 (lies_app _ _ _ _ H))]. unfold w_doubles in *. rewrite <- !app_assoc in H. destruct (check_long_lies f p e _ _ H) as [E L].
  unfold x_doubles. rewrite E. pose proof (Zlen_pos l). rewrite small_s32 by lia. replace (Zlen l <? 0) with false by lia.
  assert (FL : Zlen (flat_map w_double l) = 8 * Zlen l) by (rewrite (flat_len 8) by (intros; apply be_length); lia).
  destruct (x_get_lies f (p + 4) e _ c (8 * Zlen l) L ltac:(lia)) as [E2 _]. rewrite E2. cbn [set_err x_file x_pos].
  replace (Z.to_nat (Zlen l)) with (length l) by (unfold Zlen; lia). rewrite words_flat by (intros; apply be_length).
  rewrite (map_ext_Forall is_u64 _ (fun v => v) l Hf) by (intros v Hv; unfold w_double; rewrite unbe_be; apply Z.mod_small; exact Hv). rewrite map_id.
  unfold set_err. cbn [x_file x_pos]. replace (p + 4 + 8 * Zlen l) with (p + Zlen (w_long (Zlen l) ++ flat_map w_double l)); [reflexivity|].
  unfold Zlen at 1. rewrite app_length. unfold w_long at 1. rewrite be_length. unfold Zlen in *. lia.
Qed.

(** steps through what lies in the file *)
Ltac step_long H := let E := fresh "E" in let L := fresh "L" in
  match goal with |- context [x_long (mkX ?f ?p ?e)] => destruct (x_long_lies f p e _ _ H) as [E L]; rewrite E; clear E H; rename L into H; cbv beta iota zeta end.
Ltac step_double H := let E := fresh "E" in let L := fresh "L" in
  match goal with |- context [x_double (mkX ?f ?p ?e)] => destruct (x_double_lies f p e _ _ H) as [E L]; rewrite E; clear E H; rename L into H; cbv beta iota zeta end.
Ltac step_string H K := let E := fresh "E" in let L := fresh "L" in
  match goal with |- context [x_string ?len (mkX ?f ?p ?e)] => destruct (x_string_lies f p e _ _ len K H) as [E L]; rewrite E; clear E H; rename L into H; cbv beta iota zeta end.
Ltac step_longs H K := let E := fresh "E" in let L := fresh "L" in
  match goal with |- context [x_longs ?len (mkX ?f ?p ?e)] => destruct (x_longs_lies f p e _ _ len K H) as [E L]; rewrite E; clear E H; rename L into H; cbn [bind] end.
Ltac step_doubles H K := let E := fresh "E" in let L := fresh "L" in
  match goal with |- context [x_doubles ?len (mkX ?f ?p ?e)] => destruct (x_doubles_lies f p e _ _ len K H) as [E L]; rewrite E; clear E H; rename L into H; cbn [bind] end.

(** ** Tables *)

Lemma read_table_lies f p e t0 t c : table_ok t -> lies f p (w_table t ++ c) ->
  exists q, read_table t0 (mkX f p e) = Ok (mkT (Zlen (et_ptrs t) <=? 0) 0 (et_next t) (Zlen (et_ptrs t)) (Some (et_ptrs t)), mkX f q 0).
Proof.
  intros (K1 & K2 & K3 & K4 & K5 & K6 & K7) H. unfold w_table in H. rewrite <- !app_assoc in H. unfold read_table.
  step_long H. step_long H. step_string H K1. change (s32 2 =? 2) with true. cbn [negb].
  step_long H. step_long H. step_longs H K3. step_longs H K4. step_longs H K5. step_longs H K6. step_longs H K7.
  rewrite (s32_id _ K2), (small_s32 (Zlen (et_ptrs t))) by (pose proof (Zlen_pos (et_ptrs t)); unfold long_list in K7; lia). eexists. reflexivity.
Qed.

(** ** Records *)

Lemma read_hep_lies f p e g c len ev : gen_ok g -> lies f p (w_gen g ++ c) ->
  exists len' q, read_hep len ev (mkX f p e) = Ok (mkHev (he_empty ev) (g_num g) (g_n g) (Some (g_ist g)) (Some (g_id g)) (Some (g_mo g)) (Some (g_da g)) (Some (g_p g)) (Some (g_v g))
      (he_wgt ev) (he_scale ev) (he_spin ev) (he_color ev) (he_idrup ev), len', mkX f q 0) /\
    lies f q (match g_4 g with Some v => w_gen4 v | None => [] end ++ c).
Proof.
  intros (K1 & K2 & K3 & K4 & K5 & K6 & K7 & K8 & _) H. unfold w_gen in H. rewrite <- !app_assoc in H. unfold read_hep.
  step_long H. step_long H. step_longs H K3. step_longs H K4. step_longs H K5. step_longs H K6. step_doubles H K7. step_doubles H K8.
  rewrite (s32_id _ K1), (s32_id _ K2). eexists _, _. split; [reflexivity|exact H].
Qed.
Lemma read_ev4_lies f p e g c len ev : gen4_ok g -> lies f p (w_gen4 g ++ c) ->
  exists len' q, read_ev4 len ev (mkX f p e) = Ok (mkHev (he_empty ev) (he_num ev) (he_n ev) (he_ist ev) (he_id ev) (he_mo ev) (he_da ev) (he_p ev) (he_v ev)
      (g_wgt g) (Some (g_scale g)) (Some (g_spin g)) (Some (g_color g)) (g_idrup g), len', mkX f q 0).
Proof.
  intros (K1 & K2 & K3 & K4 & K5) H. unfold w_gen4 in H. rewrite <- !app_assoc in H. unfold read_ev4.
  step_double H. step_double H. step_double H. step_doubles H K2. step_doubles H K3. step_longs H K4. step_long H.
  rewrite (s32_id _ K5), (Z.mod_small _ _ K1). eexists _, _. reflexivity.
Qed.
Lemma read_run_info_lies f p e b c : Zlen b = 36 -> lies f p (b ++ c) -> exists q, read_run_info (mkX f p e) = mkX f q e.
Proof.
  intros Hb H. assert (L : Zlen f >= p + 36 /\ 0 <= p).
  { destruct H as (x & y & -> & <-). unfold Zlen in *. rewrite !app_length. lia. }
  assert (G : forall n q, 0 < n -> q + n <= p + 36 -> exists w, x_get n (mkX f q e) = (Some w, mkX f (q + n) e)).
  { intros n q Hn Hq. unfold x_get. cbn [x_pos x_file x_err]. replace (n <=? 0) with false by lia. replace (q + n <=? Zlen f) with true by lia. eexists. reflexivity. }
  assert (GL : forall q, q + 4 <= p + 36 -> exists w, x_long (mkX f q e) = (w, mkX f (q + 4) e)).
  { intros q Hq. destruct (G 4 q ltac:(lia) Hq) as (w & E). unfold x_long, check_long. rewrite E. eexists. reflexivity. }
  assert (GF : forall q, q + 4 <= p + 36 -> exists w, x_float (mkX f q e) = (w, mkX f (q + 4) e)).
  { intros q Hq. destruct (G 4 q ltac:(lia) Hq) as (w & E). unfold x_float. rewrite E. eexists. reflexivity. }
  assert (GD : forall q, q + 8 <= p + 36 -> exists w, x_double (mkX f q e) = (w, mkX f (q + 8) e)).
  { intros q Hq. destruct (G 8 q ltac:(lia) Hq) as (w & E). unfold x_double. rewrite E. eexists. reflexivity. }
  unfold read_run_info.
  destruct (GL p ltac:(lia)) as (w1 & ->). destruct (GL (p + 4) ltac:(lia)) as (w2 & ->). destruct (GL (p + 4 + 4) ltac:(lia)) as (w3 & ->).
  destruct (GF (p + 4 + 4 + 4) ltac:(lia)) as (w4 & ->). destruct (GF (p + 4 + 4 + 4 + 4) ltac:(lia)) as (w5 & ->).
  destruct (GD (p + 4 + 4 + 4 + 4 + 4) ltac:(lia)) as (w6 & ->). destruct (GD (p + 4 + 4 + 4 + 4 + 4 + 8) ltac:(lia)) as (w7 & ->). eexists. reflexivity.
Qed.

(** the event in memory after a record *)
Definition after_record (ev : hev) (r : record) (ev' : hev) : Prop :=
  match r_content r with
  | Event g => ev' = event_of (he_wgt ev) (he_idrup ev) g
  | _ => he_empty ev' = true /\ he_wgt ev' = he_wgt ev /\ he_idrup ev' = he_idrup ev
  end.
Lemma read_blocks_lies f p r c ev len :
  match r_content r with Event g => gen_ok g | RunInfo _ b => Zlen b = 36 | Nothing => True end -> short_string (r_bversion r) ->
  lies f p (match r_content r with
  | Event g => w_long (r_bid r) ++ w_long (r_bntot r) ++ w_string (r_bversion r) ++ w_gen g
  | RunInfo _ b => w_long (r_bid r) ++ w_long (r_bntot r) ++ w_string (r_bversion r) ++ b
  | Nothing => []
  end ++ c) ->
  forall ids, (r_content r = Nothing \/ ids = Some (block_ids (r_content r) ++ r_more r)) ->
  exists ev' q, read_hep_blocks (length (block_ids (r_content r))) 0 ids len (clean ev) (mkX f p 0) = Ok (ev', mkX f q 0) /\ after_record ev r ev'.
Proof.
  intros K KV H ids HI. unfold after_record. destruct (r_content r) as [g|begins b|] eqn:EC.
  - destruct HI as [HI| ->]; [discriminate HI|]. cbn [block_ids length read_hep_blocks app]. rewrite <- !app_assoc in H. step_long H. step_long H. step_string H KV.
    destruct (read_hep_lies f _ 0 g _ (Zlen (r_bversion r)) (with_empty false (clean ev)) K H) as (len1 & q1 & E1 & L1).
    unfold elem. cbn [Z.leb Z.compare andb]. replace (0 <? Zlen (_ :: r_more r)) with true by (unfold Zlen; cbn [length]; lia). cbn [Z.to_nat nth bind].
    destruct K as (_ & _ & _ & _ & _ & _ & _ & _ & K4). unfold event_of. destruct (g_4 g) as [v|] eqn:E4.
    + cbn [Z.eqb Pos.eqb]. rewrite E1. cbn [bind]. destruct (read_ev4_lies f q1 0 v c len1 (mkHev false (g_num g) (g_n g) (Some (g_ist g)) (Some (g_id g)) (Some (g_mo g)) (Some (g_da g)) (Some (g_p g)) (Some (g_v g))
        (he_wgt ev) None None None (he_idrup ev)) K4 L1) as (len2 & q2 & E2). cbn [with_empty clean he_empty he_wgt he_scale he_spin he_color he_idrup] in *. rewrite E2. cbn [bind].
      cbn [he_empty he_num he_n he_ist he_id he_mo he_da he_p he_v]. eexists _, _. split; reflexivity.
    + cbn [Z.eqb Pos.eqb]. rewrite E1. cbn [bind]. eexists _, _. split; reflexivity.
  - destruct HI as [HI| ->]; [discriminate HI|]. cbn [block_ids length read_hep_blocks app]. rewrite <- !app_assoc in H. step_long H. step_long H. step_string H KV.
    unfold elem. cbn [Z.leb Z.compare andb]. replace (0 <? Zlen (_ :: r_more r)) with true by (unfold Zlen; cbn [length]; lia). cbn [Z.to_nat nth bind].
    destruct (read_run_info_lies f _ 0 b c K H) as (q & Eq). destruct begins; cbn [Z.eqb Pos.eqb orb]; rewrite Eq; eexists _, _; (split; [reflexivity|]); repeat split.
  - cbn [block_ids length read_hep_blocks]. eexists _, _. split; [reflexivity|]. repeat split.
Qed.
Lemma read_record_lies f p e r ev : record_ok r -> lies f p (w_record r) ->
  exists ev' q, read_hev ev (mkX f p e) = Ok (ev', mkX f q 0) /\ after_record ev r ev'.
Proof.
  intros (K1 & K2 & K3 & K4 & K5) H. rewrite <- (app_nil_r (w_record r)) in H. unfold w_record in H. cbv zeta in H. rewrite <- !app_assoc in H. unfold read_hev.
  step_long H. step_long H. step_string H K1. change (s32 4 =? 4) with true. cbv iota.
  step_long H. step_long H. step_long H. step_long H. step_long H. step_long H.
  assert (B1 : s32 (Zlen (block_ids (r_content r))) = Zlen (block_ids (r_content r))) by (apply small_s32; destruct (r_content r) as [|[]|]; cbn; unfold two31; lia).
  assert (B2 : s32 (Zlen (block_ids (r_content r) ++ r_more r)) = Zlen (block_ids (r_content r) ++ r_more r)).
  { apply small_s32. pose proof (Zlen_pos (block_ids (r_content r) ++ r_more r)). destruct K3. lia. }
  rewrite B1, B2. replace (Z.to_nat (Zlen (block_ids (r_content r)))) with (length (block_ids (r_content r))) by (unfold Zlen; lia).
  destruct (version2_first (r_version r)) as (ch & -> & EV). cbn [bind]. rewrite EV. destruct (version2 (r_version r)).
  - rewrite <- !app_assoc in H. step_long H. step_long H. change (s32 0 =? 0) with true. cbn [negb].
    destruct (block_ids (r_content r) ++ r_more r) as [|i0 il] eqn:EI.
    + change (Zlen (@nil Z) =? 0) with true. cbn [bind]. cbn [app] in H. assert (EN : r_content r = Nothing) by (destruct (r_content r) as [|[]|]; [discriminate EI..|reflexivity]).
      apply (read_blocks_lies f _ r [] ev _ K5 K2 H). left. exact EN.
    + replace (Zlen (i0 :: il) =? 0) with false by (unfold Zlen; cbn [length]; lia). rewrite <- !app_assoc in H. step_longs H K3. step_longs H K4.
      apply (read_blocks_lies f _ r [] ev _ K5 K2 H). right. rewrite EI. reflexivity.
  - rewrite <- !app_assoc in H. step_longs H K3. step_longs H K4. apply (read_blocks_lies f _ r [] ev _ K5 K2 H). right. reflexivity.
Qed.

(** ** The header *)

Lemma x_strings_lies f l : forall p e c len, Forall short_string l -> lies f p (flat_map w_string l ++ c) -> exists q e', x_strings (length l) len (mkX f p e) = mkX f q e' /\ lies f q c.
Proof.
  induction l as [|s l IH]; intros p e c len Hl H; [exists p, e; split; [reflexivity|exact H]|]. cbn [length x_strings flat_map] in *. rewrite <- app_assoc in H. inversion Hl as [|? ? Hs Hl']; subst.
  step_string H Hs. exact (IH _ _ _ _ Hl' H).
Qed.
Lemma cstr_pad s k : ~ In x00 s -> cstr (s ++ zeros k) = s.
Proof.
  induction s as [|b s IH]; intros H; [destruct k; reflexivity|]. cbn [app cstr]. replace (Zb b =? 0) with false.
  - rewrite IH; [reflexivity|]. intros K. apply H. right. exact K.
  - symmetry. apply Z.eqb_neq. intros E. apply H. left. rewrite <- (bZ_Zb b), E. reflexivity.
Qed.
Lemma cstr_short s k : Zlen (cstr (s ++ zeros k)) <= Zlen s.
Proof.
  induction s as [|b s IH]; [destruct k; cbn; lia|]. cbn [app cstr]. destruct (Zb b =? 0); [unfold Zlen; cbn; lia|]. unfold Zlen in *. cbn [length]. lia.
Qed.
Lemma read_header_lies f hd t more : stdhep_file f hd t more ->
  exists q, hep_open (Some f) = Ok (mkHep (mkX f q 0) (mkT (Zlen (et_ptrs t) <=? 0) 0 (et_next t) (Zlen (et_ptrs t)) (Some (et_ptrs t))) new_hev).
Proof.
  intros (H & (K1 & K2 & K3 & K4 & K5 & K6 & K7 & K8 & K9) & HT & _). assert (KT : table_ok t) by (destruct more; exact (proj1 HT)). clear HT.
  rewrite <- (app_nil_r (w_table t)) in H. unfold w_header in H. rewrite <- !app_assoc in H. unfold hep_open, read_file_header. cbn [h_x h_tab h_evt].
  step_long H. change (s32 1 =? 1) with true. cbn [negb]. step_long H. step_string H K1. step_string H K3. step_string H K4. step_string H K5.
  assert (REST : forall x len0, (exists p e, x = mkX f p e /\ lies f p (w_long (hd_expected hd) ++ w_long (hd_events hd) ++ w_long (hd_first hd) ++ w_long (hd_dim hd) ++ w_long (hd_nblocks hd) ++
        (if version2 (hd_version hd) then w_long 0 else []) ++ w_longs (hd_ids hd) ++ flat_map w_string (hd_names hd) ++ w_table t ++ [])) ->
    exists q, (do h <- (let '(_, x) := x_long x in
      let '(_, x) := x_long x in
      let '(_, x) := x_long x in
      let '(_, x) := x_long x in
      let '(nblocks, x) := x_long x in
      do c <- first_char (Some (pad (hd_version hd)));
      let '(nntuples, x) := if c =? 50 then x_long x else (0, x) in
      do '(_, nblocks, x) <- x_longs nblocks x;
      if nblocks <? 0 then Throw EBadAlloc else
      let x := x_strings (Z.to_nat nblocks) len0 x in
      let x := if 0 <? nntuples then set_err NOTSUPPORTED x else x in
      do '(t, x) <- read_table new_table x;
      Ok (mkHep x t new_hev));
      if x_err (h_x h) =? 0 then Ok h else Throw LIOException) = Ok (mkHep (mkX f q 0) (mkT (Zlen (et_ptrs t) <=? 0) 0 (et_next t) (Zlen (et_ptrs t)) (Some (et_ptrs t))) new_hev)).
  { intros x len0 (p & e & -> & L). step_long L. step_long L. step_long L. step_long L. step_long L. destruct (version2_first (hd_version hd)) as (ch & -> & EV). cbn [bind]. rewrite EV.
    assert (FIN : forall p e, lies f p (w_longs (hd_ids hd) ++ flat_map w_string (hd_names hd) ++ w_table t ++ []) ->
      exists q, (do h <- (do '(_, nblocks, x) <- x_longs (s32 (hd_nblocks hd)) (mkX f p e);
        if nblocks <? 0 then Throw EBadAlloc else
        let x := x_strings (Z.to_nat nblocks) len0 x in
        let x := if 0 <? 0 then set_err NOTSUPPORTED x else x in
        do '(t, x) <- read_table new_table x;
        Ok (mkHep x t new_hev));
        if x_err (h_x h) =? 0 then Ok h else Throw LIOException) = Ok (mkHep (mkX f q 0) (mkT (Zlen (et_ptrs t) <=? 0) 0 (et_next t) (Zlen (et_ptrs t)) (Some (et_ptrs t))) new_hev)).
    { clear L. intros p0 e0 L. step_longs L K7. replace (Zlen (hd_ids hd) <? 0) with false by (pose proof (Zlen_pos (hd_ids hd)); lia).
      replace (Z.to_nat (Zlen (hd_ids hd))) with (length (hd_names hd)) by (unfold Zlen; lia). destruct (x_strings_lies f (hd_names hd) _ 0 _ len0 K8 L) as (q & e' & -> & L').
      change (0 <? 0) with false. cbv iota zeta. destruct (read_table_lies f q e' new_table t [] KT L') as (q' & ->). cbn [bind h_x x_err]. change (0 =? 0) with true. exists q'. reflexivity. }
    destruct (version2 (hd_version hd)).
    - step_long L. change (s32 0) with 0. exact (FIN _ _ L).
    - exact (FIN _ _ L). }
  assert (EO : bytes_eqb (cstr (pad (hd_version hd))) (str "2.00") || bytes_eqb (cstr (pad (hd_version hd))) (str "1.00") = old_version (hd_version hd)).
  { unfold pad. rewrite cstr_pad by exact K2. reflexivity. }
  rewrite EO. destruct (old_version (hd_version hd)).
  - unfold copy_date. pose proof (Zlen_pos (hd_date hd)). replace (Zlen (hd_date hd) + 1 <? 0) with false by lia.
    replace (Zlen (hd_date hd) <? Zlen (cstr (pad (hd_date hd)))) with false by (unfold pad; pose proof (cstr_short (hd_date hd) (Z.to_nat ((- Zlen (hd_date hd)) mod 4))); lia). cbn [bind].
    apply REST. eexists _, _. split; [reflexivity|exact H].
  - step_string H K6. cbn [bind]. apply REST. eexists _, _. split; [reflexivity|exact H].
Qed.

(** ** Walking through the file *)

(** the records that have not been read *)
Definition pending (f : bytes) (h : hep) (l : list record) : Prop :=
  exists t more k em, x_file (h_x h) = f /\ h_tab h = mkT em (Z.of_nat k) (et_next t) (Zlen (et_ptrs t)) (Some (et_ptrs t)) /\ tables_lie f t more /\ (length more <= length f)%nat /\
    (k <= length (et_recs t))%nat /\ l = skipn k (et_recs t) ++ flat_map et_recs more /\ (x_err (h_x h) = 0 \/ l = [] /\ more = []).

Lemma file_position_at p x : 0 <= p -> file_position p x = (p, mkX (x_file x) p (x_err x)).
Proof. intros H. unfold file_position. replace (p =? -1) with false by lia. replace (p <? 0) with false by lia. reflexivity. Qed.
Lemma Forall2_nth2 {A B} (R : A -> B -> Prop) l l' k b : Forall2 R l l' -> nth_error l' k = Some b -> exists a, nth_error l k = Some a /\ R a b.
Proof. intros H. revert k. induction H as [|x y l l' Hxy Hl IH]; intros [|k] E; cbn in *; try discriminate; [injection E as <-; exists x; auto|apply IH; exact E]. Qed.
Lemma Forall2_len {A B} (R : A -> B -> Prop) l l' : Forall2 R l l' -> length l = length l'.
Proof. intros H. induction H; cbn; congruence. Qed.

(** the first event of a list of records *)
Fixpoint next_event (l : list record) : option (generated * list record) :=
  match l with
  | [] => None
  | r :: l' => match r_content r with Event g => Some (g, l') | _ => next_event l' end
  end.
Lemma next_event_app l1 l2 : next_event (l1 ++ l2) = match next_event l1 with Some (g, l) => Some (g, l ++ l2) | None => next_event l2 end.
Proof. induction l1 as [|r l1 IH]; [reflexivity|]. cbn. destruct (r_content r); [reflexivity|exact IH..]. Qed.
Lemma skipn_step {A} (l : list A) k x : nth_error l k = Some x -> skipn k l = x :: skipn (S k) l.
Proof. revert k. induction l as [|y l IH]; intros [|k] H; cbn in *; try discriminate; [congruence|apply IH; exact H]. Qed.

(** the events of the current table *)
Lemma table_events_lies f t em : forall m k q ev,
  table_ok t -> Forall2 (fun p r => lies f p (w_record r) /\ record_ok r) (et_ptrs t) (et_recs t) -> (k + m = length (et_recs t))%nat ->
  exists k' q' ev', (k' <= length (et_recs t))%nat /\ table_events m (mkHep (mkX f q 0) (mkT em (Z.of_nat k) (et_next t) (Zlen (et_ptrs t)) (Some (et_ptrs t))) ev) =
    Ok (match next_event (skipn k (et_recs t)) with Some _ => Some 0 | None => None end, mkHep (mkX f q' 0) (mkT em (Z.of_nat k') (et_next t) (Zlen (et_ptrs t)) (Some (et_ptrs t))) ev') /\
    match next_event (skipn k (et_recs t)) with
    | Some (g, l) => ev' = event_of (he_wgt ev) (he_idrup ev) g /\ l = skipn k' (et_recs t)
    | None => k' = length (et_recs t) /\ he_wgt ev' = he_wgt ev /\ he_idrup ev' = he_idrup ev
    end.
Proof.
  induction m as [|m IH]; intros k q ev KT F Hk.
  - exists k, q, ev. cbn [table_events]. rewrite (skipn_all2 (et_recs t)) by lia. cbn [next_event]. split; [lia|]. split; [reflexivity|]. split; [lia|]. split; reflexivity.
  - destruct (nth_error (et_recs t) k) as [r|] eqn:ER; [|apply nth_error_None in ER; lia]. destruct (Forall2_nth2 _ _ _ _ _ F ER) as (p & EP & L & RO).
    cbn [table_events h_tab h_x h_evt t_ptrs t_ievt t_empty t_next t_num]. unfold elem. pose proof (proj1 (nth_error_Some (et_ptrs t) k) ltac:(congruence)) as KL.
    replace ((0 <=? Z.of_nat k) && (Z.of_nat k <? Zlen (et_ptrs t))) with true by (unfold Zlen; lia). rewrite Nat2Z.id, (nth_error_nth _ _ 0 EP). cbn [bind].
    rewrite file_position_at by (destruct L as (x & y & _ & <-); apply Zlen_pos). cbn [x_file x_err]. rewrite Z.eqb_refl. cbn [negb].
    destruct (read_record_lies f p 0 r ev RO L) as (ev1 & q1 & E1 & A1). rewrite E1. cbn [bind x_err]. change (0 =? 0) with true. cbn [negb]. replace (Z.of_nat k + 1) with (Z.of_nat (S k)) by lia.
    rewrite (skipn_step _ _ _ ER). cbn [next_event]. unfold after_record in A1. destruct (r_content r) as [g|begins b|].
    + subst ev1. cbn [event_of he_empty]. exists (S k), q1, (event_of (he_wgt ev) (he_idrup ev) g). split; [lia|]. split; [reflexivity|]. split; reflexivity.
    + destruct A1 as (A1 & A2 & A3). rewrite A1. rewrite <- A2, <- A3. apply IH; [exact KT|exact F|lia].
    + destruct A1 as (A1 & A2 & A3). rewrite A1. rewrite <- A2, <- A3. apply IH; [exact KT|exact F|lia].
Qed.
(** the next table that is not empty *)
Lemma next_table_lies f : forall more fuel t q k em ev, tables_lie f t more -> (length more < fuel)%nat ->
  exists q', (exists t' more', next_table fuel (mkHep (mkX f q 0) (mkT em k (et_next t) (Zlen (et_ptrs t)) (Some (et_ptrs t))) ev) =
      Ok (None, mkHep (mkX f q' 0) (mkT false 0 (et_next t') (Zlen (et_ptrs t')) (Some (et_ptrs t'))) ev) /\ tables_lie f t' more' /\ (length more' < length more)%nat /\
      flat_map et_recs more = et_recs t' ++ flat_map et_recs more') \/
    (exists t' em' k', next_table fuel (mkHep (mkX f q 0) (mkT em k (et_next t) (Zlen (et_ptrs t)) (Some (et_ptrs t))) ev) =
      Ok (Some ENDOFFILE, mkHep (mkX f q' ENDOFFILE) (mkT em' k' (et_next t') (Zlen (et_ptrs t')) (Some (et_ptrs t'))) ev) /\ tables_lie f t' [] /\ flat_map et_recs more = [] /\
      ((k' = k /\ t' = t) \/ (k' = 0 /\ et_recs t' = []))).
Proof.
  induction more as [|t1 more IH]; intros fuel t q k em ev HT Hf; destruct fuel as [|fuel]; [cbn in Hf; lia| |cbn in Hf; lia|]; cbn [next_table h_tab t_next h_x h_evt].
  - exists q. right. exists t, em, k. pose proof HT as (_ & _ & HN). rewrite HN. change (-2 =? -2) with true. cbn [set_err x_file x_pos]. split; [reflexivity|]. split; [exact HT|]. split; [reflexivity|left; auto].
  - destruct HT as (_ & _ & HN & HL & HT). replace (et_next t =? -2) with false by lia. replace (et_next t =? -1) with false by lia. rewrite file_position_at by exact HN. cbn [x_file x_err].
    rewrite Z.eqb_refl. cbn [negb]. assert (KT : table_ok t1) by (destruct more; exact (proj1 HT)). rewrite <- (app_nil_r (w_table t1)) in HL.
    destruct (read_table_lies f (et_next t) 0 (mkT em k (et_next t) (Zlen (et_ptrs t)) (Some (et_ptrs t))) t1 [] KT HL) as (q1 & E1). rewrite E1. cbn [bind x_err]. change (0 =? 0) with true. cbn [negb t_empty].
    assert (F : Forall2 (fun p r => lies f p (w_record r) /\ record_ok r) (et_ptrs t1) (et_recs t1)) by (destruct more; exact (proj1 (proj2 HT))).
    destruct (Zlen (et_ptrs t1) <=? 0) eqn:B.
    + assert (ER : et_recs t1 = []) by (pose proof (Forall2_len _ _ _ F); unfold Zlen in B; destruct (et_recs t1); [reflexivity|cbn [length] in *; lia]).
      destruct (IH fuel t1 q1 0 true ev HT ltac:(cbn in Hf; lia)) as (q' & [(t' & more' & E & HT' & HL' & HR)|(t' & em' & k' & E & HT' & HR & HK)]); exists q'; [left|right].
      * exists t', more'. split; [exact E|]. split; [exact HT'|]. split; [cbn [length]; lia|]. cbn [flat_map]. rewrite ER. exact HR.
      * exists t', em', k'. split; [exact E|]. split; [exact HT'|]. split; [cbn [flat_map]; rewrite ER; exact HR|]. right. destruct HK as [[-> ->]|HK]; [auto|exact HK].
    + exists q1. left. exists t1, more. split; [reflexivity|]. split; [exact HT|]. split; [cbn [length]; lia|reflexivity].
Qed.
Lemma hep_loop_lies f : forall fuel t more k em q ev, tables_lie f t more -> (length more < fuel)%nat -> (length more <= length f)%nat -> (k <= length (et_recs t))%nat ->
  exists h', hep_loop fuel (mkHep (mkX f q 0) (mkT em (Z.of_nat k) (et_next t) (Zlen (et_ptrs t)) (Some (et_ptrs t))) ev) =
    Ok (match next_event (skipn k (et_recs t) ++ flat_map et_recs more) with Some _ => 0 | None => ENDOFFILE end, h') /\
    match next_event (skipn k (et_recs t) ++ flat_map et_recs more) with
    | Some (g, l) => h_evt h' = event_of (he_wgt ev) (he_idrup ev) g /\ pending f h' l
    | None => pending f h' []
    end.
Proof.
  induction fuel as [|fuel IH]; intros t more k em q ev HT Hf Hm Hk; [lia|]. cbn [hep_loop h_tab t_num t_ievt].
  assert (KT : table_ok t) by (destruct more; exact (proj1 HT)). assert (F : Forall2 (fun p r => lies f p (w_record r) /\ record_ok r) (et_ptrs t) (et_recs t)) by (destruct more; exact (proj1 (proj2 HT))).
  pose proof (Forall2_len _ _ _ F) as FL. replace (Z.to_nat (Zlen (et_ptrs t) - Z.of_nat k)) with (length (et_recs t) - k)%nat by (unfold Zlen; lia).
  destruct (table_events_lies f t em (length (et_recs t) - k) k q ev KT F ltac:(lia)) as (k' & q' & ev' & Hk' & E & A). rewrite E. cbn [bind]. rewrite next_event_app.
  destruct (next_event (skipn k (et_recs t))) as [[g l]|].
  - destruct A as [-> ->]. eexists. split; [reflexivity|]. cbn [h_evt]. split; [reflexivity|]. exists t, more, k', em. cbn [h_x x_file h_tab x_err]. split; [reflexivity|]. split; [reflexivity|].
    split; [exact HT|]. split; [exact Hm|]. split; [exact Hk'|]. split; [reflexivity|left; reflexivity].
  - destruct A as (-> & W & U). cbn [h_tab h_x h_evt t_ievt t_next t_num t_ptrs x_file].
    destruct (next_table_lies f more (S (S (length f))) t q' (Z.of_nat (length (et_recs t))) true ev' HT ltac:(lia)) as (q2 & [(t' & more' & E2 & HT' & HL' & HR)|(t' & em' & k2 & E2 & HT' & HR & HK)]); rewrite E2; cbn [bind].
    + rewrite HR. change 0 with (Z.of_nat 0) at 1. destruct (IH t' more' 0%nat false q2 ev' HT' ltac:(lia) ltac:(lia) ltac:(lia)) as (h' & E3 & A3). cbn [skipn] in E3, A3. rewrite W, U in A3. exists h'. split; [exact E3|exact A3].
    + rewrite HR. cbn [next_event]. eexists. split; [reflexivity|]. destruct HK as [[-> ->]|[-> HK]].
      * exists t, [], (length (et_recs t)), em'. cbn [h_x x_file h_tab flat_map]. rewrite skipn_all. split; [reflexivity|]. split; [reflexivity|]. split; [exact HT'|]. split; [cbn; lia|]. split; [lia|]. split; [reflexivity|right; split; reflexivity].
      * exists t', [], 0%nat, em'. cbn [h_x x_file h_tab flat_map skipn]. rewrite HK. split; [reflexivity|]. split; [reflexivity|]. split; [exact HT'|]. split; [cbn; lia|]. split; [cbn; lia|]. split; [reflexivity|right; split; reflexivity].
Qed.
Lemma hep_read_lies f h l : pending f h l ->
  exists h', hep_read h = Ok (match next_event l with Some _ => 0 | None => ENDOFFILE end, h') /\
    match next_event l with
    | Some (g, l') => h_evt h' = event_of (he_wgt (h_evt h)) (he_idrup (h_evt h)) g /\ pending f h' l'
    | None => pending f h' []
    end.
Proof.
  intros (t & more & k & em & HX & HTab & HT & Hm & Hk & -> & HE). destruct h as [[f0 q e] tab ev]. cbn [h_x h_tab h_evt x_file x_err] in *. subst f0 tab. unfold hep_read. cbn [h_x h_tab h_evt x_file].
  destruct HE as [-> | [HE ->]].
  - pose proof (hep_loop_lies f (S (S (S (length f)))) t more k em q (with_empty true ev) HT ltac:(lia) Hm Hk) as P. exact P.
  - rewrite HE. cbn [next_event]. apply app_eq_nil in HE. destruct HE as [HE1 _].
    pose proof (Forall2_len _ _ _ (proj1 (proj2 HT))) as FL. pose proof (proj2 (proj2 HT)) as HN.
    assert (k = length (et_recs t)) by (apply (f_equal (@length _)) in HE1; rewrite skipn_length in HE1; cbn in HE1; lia). subst k.
    cbn [hep_loop h_tab t_num t_ievt]. replace (Z.to_nat (Zlen (et_ptrs t) - Z.of_nat (length (et_recs t)))) with 0%nat by (unfold Zlen; lia). cbn [table_events bind h_tab h_x h_evt t_ievt t_next t_num t_ptrs next_table x_file].
    rewrite HN. change (-2 =? -2) with true. cbn [bind set_err x_file x_pos]. eexists. split; [reflexivity|]. exists t, [], (length (et_recs t)), true. cbn [h_x x_file h_tab flat_map].
    rewrite skipn_all. split; [reflexivity|]. split; [rewrite HN; reflexivity|]. split; [exact HT|]. split; [cbn; lia|]. split; [lia|]. split; [reflexivity|right; split; reflexivity].
Qed.

(** ** All events *)

Section Events.
Context (third in_time : Z -> Z).

Lemma hep_events_end f n : forall h, pending f h [] -> hep_events third in_time n h = repeat (Ok None) n.
Proof.
  induction n as [|n IH]; intros h P; [reflexivity|]. cbn [hep_events repeat]. unfold hep_event. destruct (hep_read_lies f h [] P) as (h' & E & P'). rewrite E. cbn [next_event] in *.
  change (ENDOFFILE =? 0) with false. change (ENDOFFILE =? ENDOFFILE) with true. cbv iota. rewrite (IH h' P'). reflexivity.
Qed.
Lemma next_event_none l w i : next_event l = None -> events_of w i l = [].
Proof. induction l as [|r l IH]; [reflexivity|]. cbn. destruct (r_content r); [discriminate|exact IH..]. Qed.
Lemma next_event_some l w i g l' : next_event l = Some (g, l') -> events_of w i l = event_of w i g :: events_of (he_wgt (event_of w i g)) (he_idrup (event_of w i g)) l'.
Proof. induction l as [|r l IH]; [discriminate|]. cbn [next_event events_of]. destruct (r_content r); [intros H; injection H as <- <-; reflexivity|exact IH..]. Qed.
Lemma hep_events_pending f n : forall h l, pending f h l ->
  hep_events third in_time n h = firstn n (map (collection_of third in_time) (events_of (he_wgt (h_evt h)) (he_idrup (h_evt h)) l) ++ repeat (Ok None) n).
Proof.
  induction n as [|n IH]; intros h l P; [reflexivity|]. destruct (hep_read_lies f h l P) as (h' & E & A). destruct (next_event l) as [[g l']|] eqn:N.
  - destruct A as [A1 A2]. rewrite (next_event_some l _ _ g l' N). cbn [hep_events]. unfold hep_event. rewrite E. change (0 =? 0) with true. cbv iota. rewrite A1. cbn [map app firstn]. f_equal.
    rewrite (IH h' l' A2), A1. set (L := map _ _). rewrite !firstn_app. f_equal. replace (S n) with (n + 1)%nat by lia. rewrite repeat_app, firstn_app, repeat_length.
    replace (n - length L - n)%nat with 0%nat by lia. cbn [firstn]. rewrite app_nil_r. reflexivity.
  - rewrite (next_event_none l _ _ N). cbn [map app]. rewrite firstn_all2 by (rewrite repeat_length; lia). cbn [hep_events repeat]. unfold hep_event. rewrite E. change (ENDOFFILE =? 0) with false. change (ENDOFFILE =? ENDOFFILE) with true. cbv iota.
    rewrite (hep_events_end f n h' A). reflexivity.
Qed.
Theorem stdhep_events f hd t more : stdhep_file f hd t more ->
  exists h, hep_open (Some f) = Ok h /\ forall n, hep_events third in_time n h =
    firstn n (map (collection_of third in_time) (events_of 0 0 (et_recs t ++ flat_map et_recs more)) ++ repeat (Ok None) n).
Proof.
  intros H. destruct (read_header_lies f hd t more H) as (q & E). eexists. split; [exact E|]. intros n. rewrite (hep_events_pending f n _ (et_recs t ++ flat_map et_recs more)); [reflexivity|].
  exists t, more, 0%nat, (Zlen (et_ptrs t) <=? 0). cbn [h_x x_file h_tab x_err skipn]. split; [reflexivity|]. split; [reflexivity|]. split; [exact (proj1 (proj2 (proj2 H)))|].
  split; [exact (proj2 (proj2 (proj2 H)))|]. split; [lia|]. split; [reflexivity|left; reflexivity].
Qed.
End Events.

(** ** Any file *)

Lemma lies_mid f p b c : lies f p (b ++ c) -> lies f (p + Zlen b) c.
Proof. intros H. exact (proj2 (lies_app _ _ _ _ H)). Qed.
Lemma read_table_no_ub t x k : read_table t x <> UB k.
Proof.
  unfold read_table. destruct (x_long x) as [i x1]. destruct (x_long x1) as [z x2]. destruct (x_string 0 x2) as [[v len] x3]. destruct (negb (i =? 2)); [discriminate|].
  destruct (x_long x3) as [nx x4]. destruct (x_long x4) as [nm x5].
  assert (L : forall len x k, x_longs len x <> UB k).
  { intros l0 x0 k0. unfold x_longs. destruct (check_long x0) as [[n|] x6]; [|discriminate]. destruct (n <? 0); [discriminate|]. destruct (x_get (4 * n) x6) as [[b|] x7]; discriminate. }
  destruct (x_longs len x5) as [[[a1 l1] y1]| |] eqn:E1; cbn [bind]; [|discriminate|destruct (L _ _ _ E1)].
  destruct (x_longs l1 y1) as [[[a2 l2] y2]| |] eqn:E2; cbn [bind]; [|discriminate|destruct (L _ _ _ E2)].
  destruct (x_longs l2 y2) as [[[a3 l3] y3]| |] eqn:E3; cbn [bind]; [|discriminate|destruct (L _ _ _ E3)].
  destruct (x_longs l3 y3) as [[[a4 l4] y4]| |] eqn:E4; cbn [bind]; [|discriminate|destruct (L _ _ _ E4)].
  destruct (x_longs l4 y4) as [[[a5 l5] y5]| |] eqn:E5; cbn [bind]; [discriminate|discriminate|destruct (L _ _ _ E5)].
Qed.
(** opening a file whose first strings are complete *)
Theorem open_any f hd c k : short_string (hd_version hd) -> short_string (hd_title hd) -> short_string (hd_comment hd) -> short_string (hd_date hd) ->
  lies f 0 (w_long 1 ++ w_long (hd_ntot hd) ++ w_string (hd_version hd) ++ w_string (hd_title hd) ++ w_string (hd_comment hd) ++ w_string (hd_date hd) ++ c) ->
  hep_open (Some f) <> UB k.
Proof.
  intros K1 K3 K4 K5 H. unfold hep_open, read_file_header. cbn [h_x h_tab h_evt].
  step_long H. change (s32 1 =? 1) with true. cbn [negb]. step_long H. step_string H K1. step_string H K3. step_string H K4. step_string H K5.
  assert (REST : forall x len0, (do h <- (let '(_, x) := x_long x in
      let '(_, x) := x_long x in
      let '(_, x) := x_long x in
      let '(_, x) := x_long x in
      let '(nblocks, x) := x_long x in
      do c <- first_char (Some (pad (hd_version hd)));
      let '(nntuples, x) := if c =? 50 then x_long x else (0, x) in
      do '(_, nblocks, x) <- x_longs nblocks x;
      if nblocks <? 0 then Throw EBadAlloc else
      let x := x_strings (Z.to_nat nblocks) len0 x in
      let x := if 0 <? nntuples then set_err NOTSUPPORTED x else x in
      do '(t, x) <- read_table new_table x;
      Ok (mkHep x t new_hev));
      if x_err (h_x h) =? 0 then Ok h else Throw LIOException) <> UB k).
  { intros x len0. destruct (x_long x) as [a1 x1]. destruct (x_long x1) as [a2 x2]. destruct (x_long x2) as [a3 x3]. destruct (x_long x3) as [a4 x4]. destruct (x_long x4) as [nb x5].
    destruct (version2_first (hd_version hd)) as (ch & -> & _). cbn [bind]. destruct (if ch =? 50 then x_long x5 else (0, x5)) as [nn x6]. unfold x_longs. destruct (check_long x6) as [[n|] x7]; cbn [bind].
    - destruct (n <? 0) eqn:B; [discriminate|]. destruct (x_get (4 * n) x7) as [[b|] x8]; cbn [bind]; rewrite B;
      match goal with |- context [read_table ?t ?y] => destruct (read_table t y) as [[t1 y1]| |] eqn:ET; cbn [bind]; [cbn [h_x]; destruct (x_err y1 =? 0); discriminate|discriminate|destruct (read_table_no_ub _ _ _ ET)] end.
    - destruct (nb <? 0); [discriminate|].
      match goal with |- context [read_table ?t ?y] => destruct (read_table t y) as [[t1 y1]| |] eqn:ET; cbn [bind]; [cbn [h_x]; destruct (x_err y1 =? 0); discriminate|discriminate|destruct (read_table_no_ub _ _ _ ET)] end. }
  destruct (bytes_eqb (cstr (pad (hd_version hd))) (str "2.00") || bytes_eqb (cstr (pad (hd_version hd))) (str "1.00")).
  - unfold copy_date. pose proof (Zlen_pos (hd_date hd)). replace (Zlen (hd_date hd) + 1 <? 0) with false by lia.
    replace (Zlen (hd_date hd) <? Zlen (cstr (pad (hd_date hd)))) with false by (unfold pad; pose proof (cstr_short (hd_date hd) (Z.to_nat ((- Zlen (hd_date hd)) mod 4))); lia). cbn [bind]. apply REST.
  - destruct (x_string (Zlen (hd_date hd)) _) as [[cd cl] y]. cbn [bind]. apply REST.
Qed.
Theorem open_other f : (forall c, ~ lies f 0 (w_long 1 ++ c)) -> exists e, hep_open (Some f) = Throw e.
Proof.
  intros H. unfold hep_open, read_file_header. cbn [h_x h_tab h_evt]. unfold x_long at 1, check_long. destruct (x_get 4 (mkX f 0 0)) as [[b|] x1] eqn:E.
  - destruct (s32 (unbe b) =? 1) eqn:B; [|cbn [negb bind h_x set_err x_err]; exists LIOException; reflexivity]. exfalso.
    unfold x_get in E. cbn [x_pos x_file x_err] in E. change (4 <=? 0) with false in E. cbv iota in E. destruct (0 + 4 <=? Zlen f) eqn:L; [|discriminate E]. injection E as E _. unfold sub in E. cbn [Z.to_nat skipn] in E.
    apply (H []). rewrite app_nil_r. exists [], (skipn 4 f). split; [|reflexivity]. cbn [app]. rewrite <- (firstn_skipn 4 f) at 1. f_equal. change (Pos.to_nat 4) with 4%nat in E. rewrite E.
    assert (LB : length b = 4%nat) by (rewrite <- E, firstn_length; unfold Zlen in L; lia). unfold w_long. rewrite <- (be_unbe b), LB. f_equal.
    pose proof (unbe_range b) as R. rewrite LB in R. change (256 ^ Z.of_nat 4) with two32 in R. unfold s32 in B. rewrite Z.mod_small in B by lia. unfold two31, two32 in *. destruct (unbe b <? 2147483648) eqn:B2; lia.
  - cbn [Z.eqb negb bind h_x set_err x_err]. exists LIOException. reflexivity.
Qed.
