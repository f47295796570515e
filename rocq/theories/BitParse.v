(** * Facts about encoding strings *)

From Verif Require Import Bytes StrMap FlagModel FlagProofs BitModel BitSpec BitProofs.

(** ** The tokenizer *)

Definition clean (del : byte) (t : bytes) : Prop := t <> [] /\ ~ In del t.

Lemma add_char_app ts us c : us <> [] -> add_char (ts ++ us) c = ts ++ add_char us c.
Proof.
  intros H. unfold add_char. rewrite removelast_app by exact H. rewrite <- app_assoc. f_equal. f_equal. f_equal. f_equal.
  destruct (exists_last H) as (l & a & ->). rewrite app_assoc, !last_last. reflexivity.
Qed.
Lemma add_char_snoc ts t c : add_char (ts ++ [t]) c = ts ++ [t ++ [c]].
Proof. unfold add_char. rewrite removelast_last, last_last. reflexivity. Qed.
Lemma add_char_ne ts c : add_char ts c <> [].
Proof. unfold add_char. destruct (removelast ts); discriminate. Qed.

Lemma tok_prefix del : forall s ts us l, (l <> del -> us <> []) ->
  fold_left (tok_step del) s (ts ++ us, l) =
  (ts ++ fst (fold_left (tok_step del) s (us, l)), snd (fold_left (tok_step del) s (us, l))).
Proof.
  induction s as [|c s IH]; intros ts us l H; [reflexivity|]. cbn [fold_left]. unfold tok_step at 2 4 6.
  destruct (byte_dec c del) as [->|Hc].
  - apply IH. congruence.
  - destruct (byte_dec l del) as [->|Hl].
    + rewrite <- app_assoc, add_char_app by (destruct us; discriminate). apply IH. intros _. apply add_char_ne.
    + rewrite add_char_app by (apply H; exact Hl). apply IH. intros _. apply add_char_ne.
Qed.
Lemma tok_inside del : forall t ts u l, ~ In del t -> l <> del ->
  exists l', fold_left (tok_step del) t (ts ++ [u], l) = (ts ++ [u ++ t], l') /\ l' <> del.
Proof.
  induction t as [|c t IH]; intros ts u l H Hl.
  - exists l. rewrite app_nil_r. split; [reflexivity|exact Hl].
  - cbn [fold_left]. unfold tok_step at 2. destruct (byte_dec c del) as [->|Hc]; [exfalso; apply H; left; reflexivity|].
    destruct (byte_dec l del) as [|_]; [congruence|]. rewrite add_char_snoc.
    destruct (IH ts (u ++ [c]) c) as (l' & E & Hl'); [intros Hin; apply H; right; exact Hin|exact Hc|].
    exists l'. rewrite E, <- app_assoc. split; [reflexivity|exact Hl'].
Qed.
Lemma tok_first del t : clean del t -> exists l', fold_left (tok_step del) t ([], del) = ([t], l') /\ l' <> del.
Proof.
  intros [Hne Hd]. destruct t as [|c t]; [congruence|]. cbn [fold_left]. unfold tok_step at 2.
  destruct (byte_dec c del) as [->|Hc]; [exfalso; apply Hd; left; reflexivity|].
  destruct (byte_dec del del) as [_|]; [|congruence]. change (add_char ([] ++ [[]]) c) with ([] ++ [[c]] : list bytes).
  apply (tok_inside del t [] [c] c); [intros Hin; apply Hd; right; exact Hin|exact Hc].
Qed.
Lemma tokenize_one del t : clean del t -> tokenize del t = [t].
Proof. intros H. unfold tokenize. destruct (tok_first del t H) as (l & -> & _). reflexivity. Qed.
Lemma tokenize_more del t s : clean del t -> tokenize del (t ++ [del] ++ s) = t :: tokenize del s.
Proof.
  intros H. unfold tokenize. rewrite fold_left_app. destruct (tok_first del t H) as (l & -> & Hl). cbn [app fold_left].
  unfold tok_step at 2. destruct (byte_dec del del) as [_|]; [|congruence].
  change [t] with ([t] ++ []). rewrite tok_prefix by congruence. reflexivity.
Qed.
Lemma tokenize_nil del : tokenize del [] = [].
Proof. reflexivity. Qed.

Lemma tok_clean_gen del (P : byte -> Prop) : forall s ts l, (l <> del -> ts <> []) ->
  Forall (fun t => clean del t /\ Forall P t) ts -> Forall P s ->
  Forall (fun t => clean del t /\ Forall P t) (fst (fold_left (tok_step del) s (ts, l))).
Proof.
  induction s as [|c s IH]; intros ts l Hl Ht Hs; [exact Ht|]. inversion Hs as [|? ? Hc Hs']; subst.
  cbn [fold_left]. unfold tok_step at 2. destruct (byte_dec c del) as [->|Hcd].
  - apply IH; [congruence|exact Ht|exact Hs'].
  - apply IH; [intros _; apply add_char_ne| |exact Hs'].
    assert (one : clean del [c] /\ Forall P [c]).
    { split; [|constructor; [exact Hc|constructor]]. split; [discriminate|]. intros [E|[]]. congruence. }
    destruct (byte_dec l del) as [->|Hld].
    + rewrite add_char_snoc. apply Forall_app. split; [exact Ht|]. constructor; [exact one|constructor].
    + destruct (exists_last (Hl Hld)) as (ts' & t & ->). rewrite add_char_snoc. apply Forall_app in Ht. destruct Ht as [T1 T2].
      inversion T2 as [|? ? [[N1 N2] N3] _]; subst. apply Forall_app. split; [exact T1|]. constructor; [|constructor].
      split; [split|].
      * destruct t; discriminate.
      * intros Hin. apply in_app_or in Hin. destruct Hin as [Hin|[E|[]]]; [exact (N2 Hin)|congruence].
      * apply Forall_app. split; [exact N3|]. constructor; [exact Hc|constructor].
Qed.
Lemma tokenize_clean del (P : byte -> Prop) s : Forall P s -> Forall (fun t => clean del t /\ Forall P t) (tokenize del s).
Proof. intros H. apply tok_clean_gen; [congruence|constructor|exact H]. Qed.

(** ** Numbers *)

Lemma Zb_digit d : 0 <= d <= 9 -> Zb (bZ (48 + d)) = 48 + d.
Proof. intros H. assert (D : d = 0 \/ d = 1 \/ d = 2 \/ d = 3 \/ d = 4 \/ d = 5 \/ d = 6 \/ d = 7 \/ d = 8 \/ d = 9) by lia.
  repeat destruct D as [->|D]; try subst; vm_compute; reflexivity. Qed.
Lemma is_digit_digit d : 0 <= d <= 9 -> is_digit (bZ (48 + d)) = true.
Proof. intros H. unfold is_digit. rewrite Zb_digit by exact H. cbv zeta. lia. Qed.
Lemma digits_app : forall s acc c, Forall (fun c => is_digit c = true) s -> is_digit c = true ->
  digits acc (s ++ [c]) = digits acc s * 10 + (Zb c - 48).
Proof.
  induction s as [|a s IH]; intros acc c Hs Hc; cbn [digits app].
  - rewrite Hc. reflexivity.
  - inversion Hs as [|? ? H1 H2]; subst. rewrite H1. apply IH; assumption.
Qed.
Lemma numeral_ok s n : numeral s n -> s <> [] /\ Forall (fun c => is_digit c = true) s /\ digits 0 s = n /\ 0 <= n.
Proof.
  intros H. induction H as [d Hd|s n d H IH Hd].
  - split; [discriminate|]. split; [constructor; [apply is_digit_digit; exact Hd|constructor]|].
    split; [|lia]. cbn [digits]. rewrite is_digit_digit, Zb_digit by exact Hd. lia.
  - destruct IH as (_ & I2 & I3 & I4). split; [destruct s; discriminate|]. split.
    + apply Forall_app. split; [exact I2|]. constructor; [apply is_digit_digit; exact Hd|constructor].
    + split; [|lia]. rewrite digits_app by (assumption || apply is_digit_digit; exact Hd). rewrite Zb_digit, I3 by exact Hd. lia.
Qed.
Lemma digit_char c : is_digit c = true -> is_space c = false /\ c <> minus /\ c <> plus /\ c <> comma /\ c <> colon.
Proof. destruct c; try discriminate; intros _; repeat split; try discriminate; reflexivity. Qed.
Lemma digits_clean del s : Forall (fun c => is_digit c = true) s -> is_digit del = false -> ~ In del s.
Proof. intros H Hd Hin. rewrite Forall_forall in H. specialize (H del Hin). congruence. Qed.
Lemma atol_numeral s n : numeral s n -> n < 2 ^ 31 -> atol s = Ok n /\ atol (minus :: s) = Ok (- n).
Proof.
  intros H Hn. change (2 ^ 31) with 2147483648 in Hn. destruct (numeral_ok s n H) as (N1 & N2 & N3 & N4). destruct s as [|c s]; [congruence|].
  inversion N2 as [|? ? D1 D2]; subst. destruct (digit_char c D1) as (C1 & C2 & C3 & _).
  split; unfold atol.
  - cbn [skip_space]. rewrite C1. destruct (byte_dec c minus) as [|_]; [congruence|]. destruct (byte_dec c plus) as [|_]; [congruence|].
    set (n := digits 0 (c :: s)) in *. unfold two63. destruct (_ || _) eqn:E; [lia|reflexivity].
  - cbn [skip_space]. change (is_space minus) with false. cbn iota. destruct (byte_dec minus minus) as [_|]; [|congruence].
    set (n := digits 0 (c :: s)) in *. unfold two63. destruct (_ || _) eqn:E; [lia|reflexivity].
Qed.
Lemma decimal_numeral : forall fuel n, 0 <= n < 10 ^ Z.of_nat fuel -> (0 < fuel)%nat -> numeral (decimal fuel n) n.
Proof.
  induction fuel as [|fuel IH]; intros n Hn Hf; [lia|]. cbn [decimal]. destruct (Z.ltb_spec n 10) as [L|L].
  - apply numeral_one. lia.
  - destruct fuel as [|fuel]; [cbn in Hn; lia|].
    rewrite Nat2Z.inj_succ, Z.pow_succ_r in Hn by lia.
    assert (G : numeral (decimal (S fuel) (n / 10) ++ [digit (n mod 10)]) (10 * (n / 10) + n mod 10)).
    2:{ rewrite <- (Z.div_mod n 10) in G by lia. exact G. }
    apply numeral_more; [|pose proof (Z.mod_pos_bound n 10); lia].
    apply IH; [|lia]. split; [apply Z.div_pos; lia|]. apply Z.div_lt_upper_bound; lia.
Qed.

(** ** One descriptor *)

Lemma colon_comma_digit : is_digit colon = false /\ is_digit comma = false.
Proof. split; reflexivity. Qed.

Lemma sw_ok (sg : bool) s n : numeral s n -> n < 2 ^ 31 -> let sw := (if sg then [minus] else []) ++ s in
  clean colon sw /\ ~ In comma sw /\ atol sw = Ok (if sg then - n else n).
Proof.
  intros H Hn. destruct (numeral_ok s n H) as (N1 & N2 & _). destruct (atol_numeral s n H Hn) as [A1 A2].
  cbv zeta. destruct sg; cbn [app].
  - split; [split; [discriminate|]|split; [|exact A2]].
    + intros [E|Hin]; [discriminate E|]. exact (digits_clean colon s N2 eq_refl Hin).
    + intros [E|Hin]; [discriminate E|]. exact (digits_clean comma s N2 eq_refl Hin).
  - split; [split; [exact N1|]|split; [|exact A1]]; apply digits_clean; (assumption || reflexivity).
Qed.
Definition next_off (next : Z) (d : descr) : Z := match d_off d with Some o => o | None => next end.
Definition sw_of (d : descr) : Z := if d_signed d then - d_width d else d_width d.

Lemma describes_clean s d : describes s d -> clean comma s.
Proof.
  intros ((G1 & G2 & G3) & _ & W & width & N & H). destruct (sw_ok (d_signed d) width (d_width d) N W) as ((S1 & S2) & S3 & _).
  split.
  - destruct (d_off d) as [o|]; [destruct H as (_ & off & _ & ->)|rewrite H]; destruct (d_name d); discriminate || congruence.
  - destruct (d_off d) as [o|]; [destruct H as (_ & off & No & ->)|rewrite H]; intros Hin.
    + destruct (numeral_ok off o No) as (_ & O2 & _). rewrite !in_app_iff in Hin.
      destruct Hin as [Hin|[[E|[]]|[Hin|[[E|[]]|Hin]]]]; try discriminate E; [exact (G2 Hin)|exact (digits_clean comma off O2 eq_refl Hin)|].
      rewrite <- in_app_iff in Hin. exact (S3 Hin).
    + rewrite !in_app_iff in Hin. destruct Hin as [Hin|[[E|[]]|Hin]]; try discriminate E; [exact (G2 Hin)|].
      rewrite <- in_app_iff in Hin. exact (S3 Hin).
Qed.
Lemma s32_sw (sg : bool) n : 0 <= n < 2 ^ 31 -> s32 (if sg then - n else n) = (if sg then - n else n) /\
  int_abs (if sg then - n else n) = Ok n.
Proof.
  intros H. change (2 ^ 31) with 2147483648 in H. split.
  - apply s32_id. unfold is_i32, two31. destruct sg; lia.
  - unfold int_abs, two31. destruct sg; (destruct (_ =? _) eqn:E; [exfalso; lia|f_equal; lia]).
Qed.
Lemma init_step next b s d descs : describes s d -> 0 <= next ->
  init_loop next b (s :: descs) =
  do b' <- add_field b (d_name d) (next_off next d) (sw_of d); init_loop (u32 (next_off next d + d_width d)) b' descs.
Proof.
  intros ((G1 & G2 & G3) & _ & W & width & N & H) Hnext.
  destruct (sw_ok (d_signed d) width (d_width d) N W) as (S1 & S3 & S4). cbn [init_loop].
  destruct (numeral_ok width (d_width d) N) as (_ & _ & _ & W0).
  destruct (s32_sw (d_signed d) (d_width d) (conj W0 W)) as [X1 X2].
  assert (CN : clean colon (d_name d)) by (split; assumption).
  unfold next_off, sw_of. destruct (d_off d) as [o|].
  - destruct H as (Ho & off & No & ->). destruct (numeral_ok off o No) as (O1 & O2 & _ & O0).
    change Init.Byte.x3a with colon in *. change Init.Byte.x2d with minus in *. rewrite tokenize_more by exact CN.
    rewrite tokenize_more by (split; [exact O1|apply digits_clean; [exact O2|reflexivity]]).
    rewrite tokenize_one by exact S1. destruct (atol_numeral off o No Ho) as [A1 _]. rewrite A1. cbn [bind].
    rewrite S4. cbn [bind]. rewrite X1, X2. cbn [bind]. rewrite (u32_id o); [reflexivity|].
    change (2 ^ 31) with 2147483648 in Ho. unfold is_u32, two32. lia.
  - rewrite H. change Init.Byte.x3a with colon in *. change Init.Byte.x2d with minus in *.
    rewrite tokenize_more by exact CN. rewrite tokenize_one by exact S1. rewrite S4. cbn [bind]. rewrite X1, X2. reflexivity.
Qed.

(** ** Well formed strings *)

Lemma encoding_tokens s ds : encoding s ds -> exists ts, tokenize comma s = ts /\ Forall2 describes ts ds.
Proof.
  intros H. induction H as [|s d H|s d s' ds H H' IH _].
  - exists []. split; [reflexivity|constructor].
  - exists [s]. split; [apply tokenize_one, (describes_clean s d H)|]. constructor; [exact H|constructor].
  - destruct IH as (ts & E & F). exists (s :: ts). change Init.Byte.x2c with comma.
    rewrite tokenize_more by exact (describes_clean s d H). rewrite E. split; [reflexivity|]. constructor; assumption.
Qed.

Lemma new_field_fits name off sw : 0 <= off -> is_i32 sw -> sw <> - two31 ->
  let p := mkPlace off (Z.abs sw) (sw <? 0) in
  (inside_64 p -> width_supported p -> exists f, new_field name off sw = Ok f) /\
  (width_supported p -> ~ inside_64 p -> off < 2 ^ 31 -> new_field name off sw = Throw LException) /\
  (~ width_supported p -> forall f, new_field name off sw <> Ok f).
Proof.
  intros Ho Hi Hne p. unfold width_supported, inside_64, p. cbn [p_off p_width p_signed].
  unfold new_field, int_abs. destruct (Z.eqb_spec sw (- two31)) as [|_]; [congruence|]. cbn [bind]. set (w := Z.abs sw) in *.
  assert (Hw : 0 <= w < 2147483648) by (unfold is_i32, two31 in *; lia).
  split; [|split].
  - intros (H1 & H2 & H3) Hs.
    destruct (Z.ltb_spec 63 off) as [C|C]; [lia|].
    rewrite u32_id by (unfold is_u32, two32; lia). destruct (Z.ltb_spec 64 (off + w)); [lia|]. cbn [orb].
    destruct (Z.ltb_spec 63 w); [destruct (sw <? 0); lia|]. destruct (Z.eqb_spec w 63); [destruct (sw <? 0); lia|].
    destruct (sw <? 0); [eexists; reflexivity|]. destruct (Z.ltb_spec 31 w); [lia|eexists; reflexivity].
  - intros Hs Hin Hoff. change (2 ^ 31) with 2147483648 in Hoff. rewrite u32_id by (unfold is_u32, two32; lia).
    destruct (Z.ltb_spec 63 off); [reflexivity|]. destruct (Z.ltb_spec 64 (off + w)); [reflexivity|lia].
  - intros Hs f. destruct (_ || _); [discriminate|]. destruct (Z.ltb_spec 63 w); [discriminate|]. destruct (Z.eqb_spec w 63); [discriminate|].
    destruct (sw <? 0); [lia|]. destruct (Z.ltb_spec 31 w); [discriminate|lia].
Qed.

Definition conditions (b : bitfield) (ps : list (bytes * place)) : Prop :=
  Forall inside_64 (map snd ps) /\ Forall width_supported (map snd ps) /\ all_apart (map place_of (bf_fields b) ++ map snd ps).

Lemma all_apart_mid ps p rest : all_apart (ps ++ p :: rest) -> forall q, In q ps -> apart p q.
Proof.
  intros H q Hq. apply In_nth_error in Hq. destruct Hq as (j & Hj).
  assert (L : (j < length ps)%nat) by (apply nth_error_Some; congruence).
  apply (H (length ps) j).
  - rewrite nth_error_app2, Nat.sub_diag by lia. reflexivity.
  - rewrite nth_error_app1 by exact L. exact Hj.
  - lia.
Qed.
Lemma all_apart_none : all_apart [].
Proof. intros i j p q H. destruct i; discriminate. Qed.

Lemma sw_place d : 0 <= d_width d -> (d_signed d = true -> 1 <= d_width d) -> forall o,
  mkPlace o (Z.abs (sw_of d)) (sw_of d <? 0) = mkPlace o (d_width d) (d_signed d).
Proof.
  intros H0 H o. unfold sw_of. destruct (d_signed d).
  - specialize (H eq_refl). f_equal; [lia|]. apply Z.ltb_lt. lia.
  - f_equal; [lia|]. apply Z.ltb_ge. lia.
Qed.

Lemma init_encoding : forall ts ds, Forall2 describes ts ds -> forall next b, 0 <= next <= 64 -> good b ->
  match init_loop next b ts with
  | Ok b' => conditions b (places next ds) /\ named_places b' = named_places b ++ places next ds
  | r => ~ conditions b (places next ds) /\ (Forall width_supported (map snd (places next ds)) -> r = Throw LException)
  end.
Proof.
  intros ts ds H. induction H as [|s d ts ds Hd Hds IH]; intros next b Hnext Hb.
  - cbn [init_loop places]. split; [|rewrite app_nil_r; reflexivity]. split; [constructor|]. split; [constructor|].
    cbn [map]. rewrite app_nil_r. apply (g_apart b Hb).
  - rewrite (init_step next b s d ts Hd) by lia.
    assert (H0 : 0 <= d_width d < 2 ^ 31 /\ (d_signed d = true -> 1 <= d_width d) /\ 0 <= next_off next d < 2 ^ 31).
    { destruct Hd as (_ & A & B & width & N & C). destruct (numeral_ok width _ N) as (_ & _ & _ & D). split; [lia|]. split; [exact A|].
      unfold next_off. destruct (d_off d) as [o|]; [destruct C as (C1 & off & C2 & _); destruct (numeral_ok off o C2) as (_ & _ & _ & C3); lia|lia]. }
    destruct H0 as (W & S & O). pose proof (proj1 O) as O0. change (2 ^ 31) with 2147483648 in W.
    assert (I : is_i32 (sw_of d) /\ sw_of d <> - two31) by (unfold is_i32, two31, sw_of; destruct (d_signed d); lia).
    destruct I as [I1 I2]. pose proof (new_field_fits (d_name d) (next_off next d) (sw_of d) ltac:(lia) I1 I2) as NF. cbv zeta in NF.
    rewrite sw_place in NF by (assumption || lia). set (p := mkPlace (next_off next d) (d_width d) (d_signed d)) in *.
    destruct NF as (NF1 & NF2 & NF3).
    assert (TR : width_supported p -> (exists f, new_field (d_name d) (next_off next d) (sw_of d) = Ok f) \/
                                      new_field (d_name d) (next_off next d) (sw_of d) = Throw LException).
    { intros Sp. destruct (Z_lt_ge_dec 63 (p_off p)) as [L|L]; [|destruct (Z_le_gt_dec (p_off p + p_width p) 64) as [L'|L']].
      - right. apply NF2; [exact Sp| |lia]. intros (J & _). lia.
      - left. apply NF1; [|exact Sp]. unfold p in *. cbn in L, L'. split; [cbn; lia|]. cbn. lia.
      - right. apply NF2; [exact Sp| |lia]. intros (_ & _ & J). lia. }
    cbn [places]. fold (next_off next d). fold p. set (ps := places (next_off next d + d_width d) ds) in *.
    destruct (add_field b (d_name d) (next_off next d) (sw_of d)) as [b1|e|k] eqn:A; cbn [bind].
    + destruct (add_field_ok _ _ _ _ _ Hb O0 A) as (G1 & _ & f & N & F1).
      destruct (new_field_ok _ _ _ _ O0 N) as (Of & N1 & N2 & N3 & N4).
      assert (PF : place_of f = p). { unfold place_of. rewrite N2, N3, N4. apply sw_place; (assumption || lia). }
      assert (IN : inside_64 p). { rewrite <- PF. destruct Of as [X1 X2 X3 _ _ _ _]. split; [exact X1|]. cbn. lia. }
      assert (SU : width_supported p).
      { rewrite <- PF. unfold width_supported, place_of. cbn. destruct Of. destruct (f_signed f); [lia|auto]. }
      rewrite u32_id by (unfold is_u32, two32; destruct IN as (J1 & J2 & J3); cbn in J1, J2, J3; lia).
      specialize (IH (next_off next d + d_width d) b1). fold ps in IH.
      assert (NX : 0 <= next_off next d + d_width d <= 64) by (destruct IN as (J1 & J2 & J3); cbn in J1, J2, J3; lia).
      specialize (IH NX G1).
      assert (EQ : map place_of (bf_fields b1) ++ map snd ps = map place_of (bf_fields b) ++ map snd ((d_name d, p) :: ps)).
      { rewrite F1, map_app, <- app_assoc. cbn [map app snd]. rewrite PF. reflexivity. }
      destruct (init_loop (next_off next d + d_width d) b1 ts) as [b'|e|k].
      * destruct IH as [(C1 & C2 & C3) C4]. split.
        -- split; [constructor; assumption|]. split; [constructor; assumption|]. rewrite <- EQ. exact C3.
        -- rewrite C4. unfold named_places. rewrite F1, map_app, <- app_assoc. cbn [map app]. rewrite N1, PF. reflexivity.
      * destruct IH as [C1 C2]. split.
        -- intros (D1 & D2 & D3). apply C1. cbn [map snd] in D1, D2. inversion D1; subst. inversion D2; subst.
           split; [assumption|]. split; [assumption|]. rewrite EQ. exact D3.
        -- intros D. apply C2. cbn [map snd] in D. inversion D; subst. assumption.
      * destruct IH as [C1 C2]. split.
        -- intros (D1 & D2 & D3). apply C1. cbn [map snd] in D1, D2. inversion D1; subst. inversion D2; subst.
           split; [assumption|]. split; [assumption|]. rewrite EQ. exact D3.
        -- intros D. apply C2. cbn [map snd] in D. inversion D; subst. assumption.
    + assert (G : ~ conditions b ((d_name d, p) :: ps) /\ (width_supported p -> @Throw bitfield e = Throw LException)).
      { unfold add_field in A. destruct (new_field (d_name d) (next_off next d) (sw_of d)) as [f|e'|k'] eqn:N; cbn [bind] in A; try discriminate.
        - destruct (new_field_ok _ _ _ _ O0 N) as (Of & N1 & N2 & N3 & N4).
          assert (PF : place_of f = p). { unfold place_of. rewrite N2, N3, N4. apply sw_place; (assumption || lia). }
          destruct (Z.land (u64 (bf_joined b)) (f_mask f) =? 0) eqn:Z0; [discriminate|]. injection A as <-.
          split; [|reflexivity]. intros (_ & _ & D). assert (X : (Z.land (u64 (bf_joined b)) (f_mask f) =? 0) = true); [|congruence].
          apply (mask_overlap b f Hb Of). rewrite PF. cbn [map snd] in D. exact (all_apart_mid _ _ _ D).
        - injection A as ->. split.
          + intros (D1 & D2 & _). cbn [map snd] in D1, D2. inversion D1 as [|? ? I3 _]; subst. inversion D2 as [|? ? I4 _]; subst. destruct (NF1 I3 I4) as (f & X). discriminate X.
          + intros Sp. destruct (TR Sp) as [(f & X)|X]; [discriminate X|congruence]. }
      destruct G as [G1 G2]. split; [exact G1|]. intros D. cbn [map snd] in D. inversion D; subst. auto.
    + unfold add_field in A. destruct (new_field (d_name d) (next_off next d) (sw_of d)) as [f|e'|k'] eqn:N; cbn [bind] in A; try discriminate.
      { destruct (Z.land (u64 (bf_joined b)) (f_mask f) =? 0); discriminate. }
      assert (G : ~ width_supported p).
      { intros Sp. destruct (TR Sp) as [(f & X)|X]; discriminate X. }
      split.
      * intros (_ & D2 & _). cbn [map snd] in D2. inversion D2; subst. contradiction.
      * intros D2. cbn [map snd] in D2. inversion D2; subst. contradiction.
Qed.

Lemma parsed s ds : encoding s ds ->
  match bit_field s with
  | Ok b => (Forall inside_64 (map snd (places 0 ds)) /\ Forall width_supported (map snd (places 0 ds)) /\ all_apart (map snd (places 0 ds))) /\
            named_places b = places 0 ds
  | r => ~ (Forall inside_64 (map snd (places 0 ds)) /\ Forall width_supported (map snd (places 0 ds)) /\ all_apart (map snd (places 0 ds))) /\
         (Forall width_supported (map snd (places 0 ds)) -> r = Throw LException)
  end.
Proof.
  intros H. destruct (encoding_tokens s ds H) as (ts & E & F). unfold bit_field. rewrite E.
  exact (init_encoding ts ds F 0 no_fields ltac:(lia) good_no_fields).
Qed.

(** ** Any accepted string *)

Definition named_ok (d : bytes * Z * Z) : Prop := let '(name, off, _) := d in good_name name /\ 0 <= off.
Lemma init_adds : forall descs off b b', Forall (fun d => Forall (fun c => c <> comma) d) descs -> 0 <= off ->
  init_loop off b descs = Ok b' -> exists l, adds b l = Ok b' /\ Forall named_ok l.
Proof.
  induction descs as [|d descs IH]; intros off b b' Hd Ho E; cbn [init_loop] in E.
  - injection E as <-. exists []. split; [reflexivity|constructor].
  - inversion Hd as [|? ? D1 D2]; subst. pose proof (tokenize_clean colon _ d D1) as T.
    destruct (tokenize colon d) as [|name [|x [|y [|? ?]]]]; try discriminate.
    + inversion T as [|? ? [[T1 T2] T3] _]; subst.
      assert (GN : good_name name).
      { split; [exact T1|]. split; [|exact T2]. intros Hin. rewrite Forall_forall in T3. apply (T3 comma Hin). reflexivity. }
      destruct (atol x) as [a|e|k]; cbn [bind] in E; try discriminate.
      destruct (int_abs (s32 a)) as [w|e|k]; cbn [bind] in E; try discriminate.
      destruct (add_field b name off (s32 a)) as [b1|e|k] eqn:A; cbn [bind] in E; try discriminate.
      destruct (IH _ b1 b' D2 (proj1 (u32_range _)) E) as (l & L1 & L2). exists ((name, off, s32 a) :: l).
      split; [cbn [adds]; rewrite A; exact L1|]. constructor; [split; assumption|exact L2].
    + inversion T as [|? ? [[T1 T2] T3] _]; subst.
      assert (GN : good_name name).
      { split; [exact T1|]. split; [|exact T2]. intros Hin. rewrite Forall_forall in T3. apply (T3 comma Hin). reflexivity. }
      destruct (atol x) as [o|e|k]; cbn [bind] in E; try discriminate.
      destruct (atol y) as [a|e|k]; cbn [bind] in E; try discriminate.
      destruct (int_abs (s32 a)) as [w|e|k]; cbn [bind] in E; try discriminate.
      destruct (add_field b name (u32 o) (s32 a)) as [b1|e|k] eqn:A; cbn [bind] in E; try discriminate.
      destruct (IH _ b1 b' D2 (proj1 (u32_range _)) E) as (l & L1 & L2). exists ((name, u32 o, s32 a) :: l).
      split; [cbn [adds]; rewrite A; exact L1|]. constructor; [split; [assumption|apply u32_range]|exact L2].
Qed.
Lemma accepted s b : bit_field s = Ok b ->
  good b /\ bf_value b = 0 /\ adds no_fields (map desc_of (bf_fields b)) = Ok b /\ Forall (fun f => good_name (f_name f)) (bf_fields b).
Proof.
  intros E. unfold bit_field in E.
  assert (C : Forall (fun d => Forall (fun c => c <> comma) d) (tokenize comma s)).
  { pose proof (tokenize_clean comma (fun _ => True) s ltac:(apply Forall_forall; intros; exact I)) as T.
    eapply Forall_impl; [|exact T]. intros t [[_ H] _]. apply Forall_forall. intros c Hc ->. exact (H Hc). }
  destruct (init_adds _ 0 _ _ C ltac:(lia) E) as (l & L1 & L2).
  assert (N : Forall nonneg_off l) by (eapply Forall_impl; [|exact L2]; intros [[n o] w] [_ H]; exact H).
  destruct (adds_ok l no_fields b good_no_fields N L1) as (G & V & M). cbn [no_fields bf_fields map app] in M.
  split; [exact G|]. split; [exact V|]. rewrite M. split; [exact L1|]. rewrite <- M in L2. clear -L2.
  rewrite Forall_map in L2. eapply Forall_impl; [|exact L2]. intros f [H _]. exact H.
Qed.

(** ** The description of the fields *)

Definition descr_of (f : field) : descr := mkDescr (f_name f) (Some (f_off f)) (f_width f) (f_signed f).
Lemma describe_ok f : ok_field f -> good_name (f_name f) -> describes (describe f) (descr_of f).
Proof.
  intros Hf Hn. split; [exact Hn|]. destruct Hf as [X1 X2 X3 X4 _ _ _]. cbn [descr_of d_signed d_width d_off d_name]. split; [exact X4|].
  change (2 ^ 31) with 2147483648. split; [lia|]. exists (decimal 10 (f_width f)).
  assert (P : 10 ^ Z.of_nat 10 = 10000000000) by reflexivity.
  split; [apply decimal_numeral; lia|]. cbv zeta. split; [lia|]. exists (decimal 10 (f_off f)).
  split; [apply decimal_numeral; lia|reflexivity].
Qed.
Lemma description_encoding : forall fs, Forall ok_field fs -> Forall (fun f => good_name (f_name f)) fs ->
  encoding (join comma (map describe fs)) (map descr_of fs).
Proof.
  induction fs as [|f fs IH]; intros H1 H2; [constructor|]. inversion H1; subst. inversion H2; subst.
  destruct fs as [|g fs]; cbn [map join].
  - apply encoding_one. apply describe_ok; assumption.
  - apply encoding_more; [apply describe_ok; assumption|apply IH; assumption|discriminate].
Qed.
Lemma init_explicit : forall ts fs, Forall2 describes ts (map descr_of fs) -> forall next b, 0 <= next ->
  init_loop next b ts = adds b (map desc_of fs).
Proof.
  induction ts as [|t ts IH]; intros [|f fs] H next b Hn.
  - reflexivity.
  - inversion H.
  - inversion H.
  - cbn [map] in H. inversion H as [|? ? ? ? H1 H2]; subst.
    rewrite (init_step _ _ _ _ _ H1 Hn). cbn [map adds desc_of]. change (next_off next (descr_of f)) with (f_off f).
    change (d_name (descr_of f)) with (f_name f). change (sw_of (descr_of f)) with (if f_signed f then - f_width f else f_width f).
    destruct (add_field b (f_name f) (f_off f) _) as [b1|e|k]; cbn [bind]; try reflexivity.
    apply IH; [assumption|apply u32_range].
Qed.
Lemma described s b : bit_field s = Ok b -> bit_field (field_description b) = Ok b.
Proof.
  intros E. destruct (accepted s b E) as (G & _ & A & N).
  destruct (encoding_tokens _ _ (description_encoding (bf_fields b) (g_fields b G) N)) as (ts & T & F).
  unfold bit_field, field_description. rewrite T. rewrite (init_explicit ts (bf_fields b) F 0 no_fields) by lia. exact A.
Qed.
Lemma accepted_places s b : bit_field s = Ok b ->
  Forall inside_64 (map place_of (bf_fields b)) /\ all_apart (map place_of (bf_fields b)).
Proof.
  intros E. destruct (accepted s b E) as (G & _). split; [|apply (g_apart b G)].
  apply Forall_map. eapply Forall_impl; [|apply (g_fields b G)]. intros f Hf. destruct Hf as [X1 X2 X3 _ _ _ _]. split; [exact X1|]. cbn. lia.
Qed.
