(** * Encoding strings with loosely written numbers, and strings that are not encodings *)
From Verif Require Import Bytes StrMap BitModel BitSpec BitProofs BitParse BitFacts.

Lemma space_white c : is_space c = true <-> In c white.
Proof. unfold white. cbn [In]. destruct c; vm_compute; split; intros H; try discriminate H; auto 10; repeat destruct H as [H|H]; try discriminate H; try destruct H. Qed.
Lemma digit_in c : is_digit c = true <-> In c decimal_digits.
Proof. unfold decimal_digits. cbn [In]. destruct c; vm_compute; split; intros H; try discriminate H; auto 14; repeat destruct H as [H|H]; try discriminate H; try destruct H. Qed.
Lemma skip_white ws s : Forall (fun c => In c white) ws -> (forall c r, s = c :: r -> is_space c = false) -> skip_space (ws ++ s) = s.
Proof.
  intros W H. induction W as [|c ws Hc W IH]; cbn [app skip_space].
  - destruct s as [|c s]; [reflexivity|]. cbn [skip_space]. rewrite (H c s eq_refl). reflexivity.
  - rewrite (proj2 (space_white c) Hc). exact IH.
Qed.
Lemma digits_stop acc ds rest : Forall (fun c => is_digit c = true) ds -> (forall c r, rest = c :: r -> is_digit c = false) -> digits acc (ds ++ rest) = digits acc ds.
Proof.
  intros D H. revert acc. induction D as [|c ds Hc D IH]; intros acc; cbn [app digits].
  - destruct rest as [|c r]; [reflexivity|]. cbn [digits]. rewrite (H c r eq_refl). reflexivity.
  - rewrite Hc. apply IH.
Qed.
Lemma atol_text s n : number_text s n -> - 2 ^ 31 < n < 2 ^ 31 -> atol s = Ok n.
Proof.
  change (2 ^ 31) with 2147483648. intros H R.
  assert (G : forall v, v = n -> (if (v <? - two63) || (two63 <=? v) then UB UBOverflow else Ok v) = Ok n).
  { intros v ->. unfold two63. rewrite (proj2 (Z.ltb_ge n (- (9223372036854775808)))) by lia. rewrite (proj2 (Z.leb_gt 9223372036854775808 n)) by lia. reflexivity. }
  destruct H as [ws sign ds rest n W S N F|ws sign rest W S F].
  - destruct (numeral_ok ds n N) as (N1 & N2 & N3 & N4).
    assert (F' : forall c r, rest = c :: r -> is_digit c = false).
    { intros c r E. destruct (is_digit c) eqn:D; [|reflexivity]. exfalso. apply (F c r E). apply digit_in. exact D. }
    destruct ds as [|d ds]; [congruence|]. inversion N2 as [|? ? D1 D2]; subst. destruct (digit_char d D1) as (C1 & C2 & C3 & _).
    unfold atol. rewrite skip_white; [|exact W|].
    + apply G. destruct S as [<-|[<-|[<-|[]]]]; cbn [app].
      * destruct (byte_dec d minus) as [|_]; [congruence|]. destruct (byte_dec d plus) as [|_]; [congruence|].
        change (d :: ds ++ rest) with ((d :: ds) ++ rest). rewrite digits_stop by assumption. reflexivity.
      * change (d :: ds ++ rest) with ((d :: ds) ++ rest). rewrite digits_stop by assumption. reflexivity.
      * change (d :: ds ++ rest) with ((d :: ds) ++ rest). rewrite digits_stop by assumption. reflexivity.
    + intros c r E. destruct S as [<-|[<-|[<-|[]]]]; cbn [app] in E; injection E as <- <-; [exact C1|reflexivity|reflexivity].
  - assert (F' : forall c r, rest = c :: r -> is_digit c = false).
    { intros c r E. destruct (is_digit c) eqn:D; [|reflexivity]. exfalso. apply (proj1 (F c r E)). apply digit_in. exact D. }
    unfold atol. rewrite skip_white; [|exact W|].
    + apply G. destruct S as [<-|[<-|[<-|[]]]]; cbn [app].
      * destruct rest as [|c r]; [reflexivity|]. destruct (F c r eq_refl) as [_ F2]. specialize (F2 eq_refl). cbn [In] in F2.
        destruct (byte_dec c minus) as [->|_]; [exfalso; apply F2; right; left; reflexivity|].
        destruct (byte_dec c plus) as [->|_]; [exfalso; apply F2; left; reflexivity|].
        exact (digits_stop 0 [] (c :: r) (Forall_nil _) F').
      * exact (digits_stop 0 [] rest (Forall_nil _) F').
      * change (- digits 0 ([] ++ rest) = 0). rewrite (digits_stop 0 [] rest (Forall_nil _) F'). reflexivity.
    + intros c r E. destruct S as [<-|[<-|[<-|[]]]]; cbn [app] in E; [|injection E as <- <-; reflexivity|injection E as <- <-; reflexivity].
      destruct (F c r E) as [_ F2]. specialize (F2 eq_refl). destruct (is_space c) eqn:Q; [|reflexivity].
      exfalso. apply F2. right. right. apply space_white. exact Q.
Qed.

Lemma loosely_clean s d : loosely s d -> clean comma s.
Proof.
  intros ((G1 & G2 & G3) & W & width & (H1 & H2 & H3) & _ & H). change Init.Byte.x2c with comma in *. split.
  - destruct (d_off d); [destruct H as (_ & off & _ & _ & ->)|rewrite H]; destruct (d_name d); discriminate || congruence.
  - destruct (d_off d) as [o|]; [destruct H as (_ & off & (O1 & O2 & O3) & _ & ->)|rewrite H]; intros Hin; rewrite !in_app_iff in Hin.
    + destruct Hin as [Hin|[[E|[]]|[Hin|[[E|[]]|Hin]]]]; try discriminate E; [exact (G2 Hin)|exact (O2 Hin)|exact (H2 Hin)].
    + destruct Hin as [Hin|[[E|[]]|Hin]]; try discriminate E; [exact (G2 Hin)|exact (H2 Hin)].
Qed.
Lemma loose_step next b s d descs : loosely s d -> 0 <= next ->
  init_loop next b (s :: descs) =
  do b' <- add_field b (d_name d) (next_off next d) (sw_of d); init_loop (u32 (next_off next d + d_width d)) b' descs.
Proof.
  intros ((G1 & G2 & G3) & W & width & (H1 & H2 & H3) & NT & H) Hnext. cbn [init_loop].
  destruct (s32_sw (d_signed d) (d_width d) W) as [X1 X2].
  assert (A : atol width = Ok (if d_signed d then - d_width d else d_width d)).
  { apply atol_text; [exact NT|]. change (2 ^ 31) with 2147483648 in *. destruct (d_signed d); lia. }
  assert (CN : clean colon (d_name d)) by (split; assumption). assert (CW : clean colon width) by (split; assumption).
  unfold next_off, sw_of. destruct (d_off d) as [o|].
  - destruct H as (Ho & off & (O1 & O2 & O3) & NO & ->). change Init.Byte.x3a with colon in *.
    rewrite tokenize_more by exact CN. rewrite tokenize_more by (split; assumption). rewrite tokenize_one by exact CW.
    assert (AO : atol off = Ok o). { apply atol_text; [exact NO|]. change (2 ^ 31) with 2147483648 in *. lia. }
    rewrite AO. cbn [bind]. rewrite A. cbn [bind]. rewrite X1, X2. cbn [bind]. rewrite (u32_id o); [reflexivity|].
    change (2 ^ 31) with 2147483648 in Ho. unfold is_u32, two32. lia.
  - rewrite H. change Init.Byte.x3a with colon in *.
    rewrite tokenize_more by exact CN. rewrite tokenize_one by exact CW. rewrite A. cbn [bind]. rewrite X1, X2. reflexivity.
Qed.
Lemma loose_tokens s ds : loose_encoding s ds -> exists ts, tokenize comma s = ts /\ Forall2 loosely ts ds.
Proof.
  intros H. induction H as [s d H|s d s' ds H H' IH].
  - exists [s]. split; [apply tokenize_one, (loosely_clean s d H)|]. constructor; [exact H|constructor].
  - destruct IH as (ts & E & F). exists (s :: ts). change Init.Byte.x2c with comma.
    rewrite tokenize_more by exact (loosely_clean s d H). rewrite E. split; [reflexivity|]. constructor; assumption.
Qed.
Lemma loops_agree : forall ds ts ts' next b, Forall2 loosely ts ds -> Forall2 describes ts' ds -> 0 <= next ->
  init_loop next b ts = init_loop next b ts'.
Proof.
  induction ds as [|d ds IH]; intros ts ts' next b F F' N; inversion F as [|t ? ts0 ? F1 F2]; subst; inversion F' as [|t' ? ts0' ? F1' F2']; subst; [reflexivity|].
  rewrite (loose_step next b _ d _ F1 N), (init_step next b _ d _ F1' N). destruct (add_field _ _ _ _); cbn [bind]; [|reflexivity|reflexivity].
  apply IH; [exact F2|exact F2'|]. unfold u32. apply Z.mod_pos_bound. reflexivity.
Qed.
Lemma loose_parsed s s' ds : loose_encoding s ds -> encoding s' ds -> bit_field s = bit_field s'.
Proof.
  intros L E. destruct (loose_tokens s ds L) as (ts & T & F). destruct (encoding_tokens s' ds E) as (ts' & T' & F').
  unfold bit_field. rewrite T, T'. apply (loops_agree ds ts ts' 0 no_fields F F'). lia.
Qed.

(** ** No encodings *)
Lemma encoding_append s ds rest : encoding s ds -> ds <> [] -> exists ts, tokenize comma (s ++ [comma] ++ rest) = ts ++ tokenize comma rest /\
  tokenize comma s = ts.
Proof.
  intros H NE. induction H as [|s d H|s d s' ds H H' IH NE'].
  - congruence.
  - exists [s]. rewrite tokenize_more by exact (describes_clean s d H). split; [reflexivity|apply tokenize_one, (describes_clean s d H)].
  - destruct (IH NE') as (ts & E & T). exists (s :: ts). change Init.Byte.x2c with comma. rewrite <- !app_assoc.
    rewrite tokenize_more by exact (describes_clean s d H). rewrite E.
    rewrite tokenize_more by exact (describes_clean s d H). rewrite T. split; reflexivity.
Qed.
Lemma loop_append : forall ts next b b' rest, init_loop next b ts = Ok b' -> exists n, init_loop next b (ts ++ rest) = init_loop n b' rest.
Proof.
  induction ts as [|t ts IH]; intros next b b' rest H.
  - injection H as <-. exists next. reflexivity.
  - cbn [app init_loop] in *. destruct (tokenize colon t) as [|name [|x [|y [|z l]]]]; try discriminate H.
    + destruct (atol x) as [a| |]; cbn [bind] in *; try discriminate H. destruct (int_abs (s32 a)) as [w| |]; cbn [bind] in *; try discriminate H.
      destruct (add_field b name next (s32 a)) as [b1| |]; cbn [bind] in *; try discriminate H. exact (IH _ _ _ _ H).
    + destruct (atol x) as [o| |]; cbn [bind] in *; try discriminate H. destruct (atol y) as [a| |]; cbn [bind] in *; try discriminate H.
      destruct (int_abs (s32 a)) as [w| |]; cbn [bind] in *; try discriminate H.
      destruct (add_field b name (u32 o) (s32 a)) as [b1| |]; cbn [bind] in *; try discriminate H. exact (IH _ _ _ _ H).
Qed.
Lemma bad_descr next b t : clean comma t -> (forall x y, tokenize colon t <> [x; y]) -> (forall x y z, tokenize colon t <> [x; y; z]) ->
  init_loop next b [t] = Throw LException.
Proof.
  intros C H2 H3. cbn [init_loop]. destruct (tokenize colon t) as [|x [|y [|z [|u l]]]]; try reflexivity.
  - exfalso. exact (H2 x y eq_refl).
  - exfalso. exact (H3 x y z eq_refl).
Qed.
Lemma name_only_rejected s ds b name : encoding s ds -> ds <> [] -> bit_field s = Ok b -> good_name name ->
  bit_field (s ++ [Init.Byte.x2c] ++ name) = Throw LException.
Proof.
  intros E NE B (G1 & G2 & G3). unfold bit_field in *. destruct (encoding_append s ds name E NE) as (ts & T & T').
  change Init.Byte.x2c with comma in *. rewrite T. rewrite T' in B. destruct (loop_append ts 0 no_fields b (tokenize comma name) B) as (n & ->).
  rewrite tokenize_one by (split; assumption). apply bad_descr; [split; assumption| |].
  - intros x y Q. rewrite tokenize_one in Q by (split; assumption). discriminate Q.
  - intros x y z Q. rewrite tokenize_one in Q by (split; assumption). discriminate Q.
Qed.
Lemma four_parts_rejected s ds b p1 p2 p3 p4 : encoding s ds -> ds <> [] -> bit_field s = Ok b ->
  good_name p1 -> good_name p2 -> good_name p3 -> good_name p4 ->
  bit_field (s ++ [Init.Byte.x2c] ++ p1 ++ [Init.Byte.x3a] ++ p2 ++ [Init.Byte.x3a] ++ p3 ++ [Init.Byte.x3a] ++ p4) = Throw LException.
Proof.
  intros E NE B (A1 & A2 & A3) (B1 & B2 & B3) (C1 & C2 & C3) (D1 & D2 & D3).
  set (t := p1 ++ [Init.Byte.x3a] ++ p2 ++ [Init.Byte.x3a] ++ p3 ++ [Init.Byte.x3a] ++ p4).
  assert (K : clean comma t).
  { split; [unfold t; destruct p1; [congruence|discriminate]|]. unfold t. change Init.Byte.x3a with colon. rewrite !in_app_iff.
    intros [H|[[H|[]]|[H|[[H|[]]|[H|[[H|[]]|H]]]]]]; try discriminate H; [exact (A2 H)|exact (B2 H)|exact (C2 H)|exact (D2 H)]. }
  assert (Q : tokenize colon t = [p1; p2; p3; p4]).
  { unfold t. change Init.Byte.x3a with colon in *. rewrite tokenize_more by (split; assumption). rewrite tokenize_more by (split; assumption).
    rewrite tokenize_more by (split; assumption). rewrite tokenize_one by (split; assumption). reflexivity. }
  unfold bit_field in *. destruct (encoding_append s ds t E NE) as (ts & T & T').
  change Init.Byte.x2c with comma in *. rewrite T. rewrite T' in B. destruct (loop_append ts 0 no_fields b (tokenize comma t) B) as (n & ->).
  rewrite tokenize_one by exact K. apply bad_descr; [exact K| |]; intros; rewrite Q; discriminate.
Qed.

(** ** Fields by their number; the encoding of a collection without one *)
Lemma by_index s b i : bit_field s = Ok b -> 0 <= i ->
  match nth_error (named_places b) (Z.to_nat i) with
  | Some (n, p) => exists f, field_at b i = Ok f /\ f_name f = n /\ forall v, - 2 ^ 63 <= v < 2 ^ 63 -> value v f = number_in v p
  | None => field_at b i = Throw StdOutOfRange
  end.
Proof.
  intros B Hi. destruct (accepted _ _ B) as (G & _). pose proof (g_fields b G) as GF. rewrite Forall_forall in GF.
  unfold named_places, field_at. rewrite nth_error_map. destruct (nth_error (bf_fields b) (Z.to_nat i)) as [f|] eqn:E; cbn [option_map]; [|reflexivity].
  exists f. split; [reflexivity|]. split; [reflexivity|]. intros v _. exact (value_ok v f (GF f (nth_error_In _ _ E))).
Qed.
Definition default_places : list (bytes * place) :=
  [(str "M", mkPlace 0 3 false); (str "S-1", mkPlace 3 3 false); (str "I", mkPlace 6 9 false); (str "J", mkPlace 15 9 false); (str "K-1", mkPlace 24 6 false)].
Lemma decoder_unset c : cl_enc c = None \/ cl_enc c = Some [] -> exists d, decoder c = Ok d /\ named_places d = default_places.
Proof.
  intros H. exists (match bit_field default_encoding with Ok b => b | _ => no_fields end). split.
  - unfold decoder. destruct H as [-> | ->]; vm_compute; reflexivity.
  - vm_compute. reflexivity.
Qed.
Lemma default_decoded c hit words : cl_enc c = None \/ cl_enc c = Some [] ->
  exists d d', decoder c = Ok d /\ decode d None hit words = (d', Some hit) /\
    map fst (named_places d) = [str "M"; str "S-1"; str "I"; str "J"; str "K-1"] /\
    map (fun n => get_named d' n) (map fst (named_places d)) =
    map Ok (let w := fst words mod 2 ^ 32 in [w mod 8; w / 8 mod 8; w / 64 mod 512; w / 32768 mod 512; w / 16777216 mod 64]).
Proof.
  intros H. destruct (decoder_unset c H) as (d & D & P).
  assert (G : good d).
  { assert (B : exists s, bit_field s = Ok d) by (unfold decoder in D; eexists; exact D). destruct B as (s & B). exact (proj1 (accepted s d B)). }
  eexists d, _. split; [exact D|]. split; [reflexivity|]. rewrite P. split; [reflexivity|].
  set (v := s64 _).
  assert (L : forall i, 0 <= i < 32 -> Z.testbit v i = Z.testbit (fst words mod 2 ^ 32) i).
  { intros i Hi. unfold v. rewrite s64_bits by lia. rewrite Z.lor_spec, Z.land_spec, Z.shiftl_spec by lia.
    change (two32 - 1) with (Z.shiftl 1 32 - 1). rewrite ones_bits by lia. destruct (Z.ltb_spec i 32); [|lia].
    rewrite (Z.testbit_neg_r _ (i - 32)) by lia. rewrite andb_true_r, orb_false_r. rewrite Z.mod_pow2_bits_low by lia. reflexivity. }
  assert (N : forall n p, field_of (named_places d) n = Some p -> 0 <= p_off p -> 0 <= p_width p -> p_off p + p_width p <= 32 ->
    get_named (set_value d v) n = Ok (number_in (fst words mod 2 ^ 32) p)).
  { intros n p F O W S. rewrite (get_named_ok (set_value d v) n p); [|apply good_set_value, G|exact F]. f_equal. cbn [set_value bf_value].
    apply number_ext; [exact O|exact W|]. intros i Hi. unfold has_bit in Hi. apply L. lia. }
  rewrite P in N. cbn [default_places map fst]. cbv zeta. clearbody v. set (w := fst words mod 2 ^ 32) in *. clearbody w.
  rewrite (N (str "M") (mkPlace 0 3 false)) by (vm_compute; reflexivity || discriminate).
  rewrite (N (str "S-1") (mkPlace 3 3 false)) by (vm_compute; reflexivity || discriminate).
  rewrite (N (str "I") (mkPlace 6 9 false)) by (vm_compute; reflexivity || discriminate).
  rewrite (N (str "J") (mkPlace 15 9 false)) by (vm_compute; reflexivity || discriminate).
  rewrite (N (str "K-1") (mkPlace 24 6 false)) by (vm_compute; reflexivity || discriminate).
  unfold number_in. cbn [p_off p_width p_signed andb]. change (2 ^ 0) with 1. rewrite Z.div_1_r. reflexivity.
Qed.
