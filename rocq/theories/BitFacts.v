(** * Assignments to fields, cell ids *)

From Verif Require Import Bytes StrMap FlagModel FlagSpec FlagProofs BitModel BitSpec BitProofs BitParse.

(** ** Names *)

Lemma field_of_snoc l x n : field_of (l ++ [x]) n = if bytes_eqb (fst x) n then Some (snd x) else field_of l n.
Proof. unfold field_of. rewrite rev_app_distr. cbn [rev app find]. destruct (bytes_eqb (fst x) n); reflexivity. Qed.
Lemma bytes_eqb_sym a b : bytes_eqb a b = bytes_eqb b a.
Proof.
  destruct (bytes_eqb a b) eqn:E; symmetry; [apply bytes_eqb_eq in E; subst; apply bytes_eqb_refl|].
  apply bytes_eqb_neq in E. apply bytes_eqb_neq. congruence.
Qed.
Lemma field_of_index n p : forall fs, field_of (map (fun f => (f_name f, place_of f)) fs) n = Some p <->
  exists i f, last_index fs n i /\ nth_error fs (Z.to_nat i) = Some f /\ place_of f = p.
Proof.
  intros fs. induction fs as [|g fs IH] using rev_ind.
  - split; [discriminate|]. intros (i & f & _ & H & _). destruct (Z.to_nat i); discriminate.
  - rewrite map_app. cbn [map]. rewrite field_of_snoc. cbn [fst snd]. rewrite bytes_eqb_sym. split.
    + intros H. destruct (bytes_eqb n (f_name g)) eqn:E.
      * injection H as <-. exists (Zlen fs), g. rewrite last_index_snoc, E. split; [reflexivity|]. split; [|reflexivity].
        unfold Zlen. rewrite Nat2Z.id, nth_error_app2, Nat.sub_diag by lia. reflexivity.
      * apply IH in H. destruct H as (i & f & H1 & H2 & H3). exists i, f. rewrite last_index_snoc, E. split; [exact H1|]. split; [|exact H3].
        rewrite nth_error_app1; [exact H2|]. apply nth_error_Some. congruence.
    + intros (i & f & H1 & H2 & H3). rewrite last_index_snoc in H1. destruct (bytes_eqb n (f_name g)) eqn:E.
      * subst i. unfold Zlen in H2. rewrite Nat2Z.id, nth_error_app2, Nat.sub_diag in H2 by lia. cbn in H2. congruence.
      * apply IH. exists i, f. split; [exact H1|]. split; [|exact H3]. destruct H1 as [H1 _].
        rewrite nth_error_app1 in H2; [exact H2|]. unfold Zlen in H1. lia.
Qed.

Lemma field_named_ok b n : good b ->
  (exists i f, last_index (bf_fields b) n i /\ nth_error (bf_fields b) (Z.to_nat i) = Some f /\ field_named b n = Ok f) \/
  (field_named b n = Throw LException /\ field_of (named_places b) n = None).
Proof.
  intros G. unfold field_named, index. destruct (sm_get n (bf_map b)) as [i|] eqn:E.
  - apply (g_index b G) in E. left. destruct E as (E1 & (f & E2 & E3) & E4). exists i, f. split; [|split; [exact E2|]].
    + split; [exact E1|]. split; [exists f; split; assumption|exact E4].
    + cbn [bind]. rewrite E2. reflexivity.
  - right. split; [reflexivity|]. destruct (field_of (named_places b) n) as [p|] eqn:F; [|reflexivity].
    apply field_of_index in F. destruct F as (i & f & F & _). apply (g_index b G) in F. congruence.
Qed.
Lemma field_named_of b n p : good b -> field_of (named_places b) n = Some p ->
  exists i f, last_index (bf_fields b) n i /\ nth_error (bf_fields b) (Z.to_nat i) = Some f /\ field_named b n = Ok f /\ place_of f = p /\ ok_field f.
Proof.
  intros G H. destruct (field_named_ok b n G) as [(i & f & H1 & H2 & H3)|[_ H2]]; [|congruence].
  exists i, f. split; [exact H1|]. split; [exact H2|]. split; [exact H3|]. split.
  - assert (X : field_of (named_places b) n = Some (place_of f)) by (apply field_of_index; exists i, f; auto). congruence.
  - pose proof (g_fields b G) as F. rewrite Forall_forall in F. apply F. exact (nth_error_In _ _ H2).
Qed.

(** ** Assignments *)

Definition accepts (b : bitfield) (n : bytes) (x : Z) : bool := match fst (set_named b n x) with Ok _ => true | _ => false end.
Definition assign_all (b : bitfield) (ops : list (bytes * Z)) : bitfield :=
  fold_left (fun b op => snd (set_named b (fst op) (snd op))) ops b.

Lemma set_named_eq b n x : good b ->
  exists v, snd (set_named b n x) = set_value b v /\ (is_i64 (bf_value b) -> is_i64 v).
Proof.
  intros G. unfold set_named. destruct (field_named b n) as [f|e|k].
  - destruct (assign (bf_value b) f x) as [r v] eqn:A. exists v. split; [reflexivity|]. intros Hb.
    pose proof (assign_i64 (bf_value b) f x Hb) as H. rewrite A in H. exact H.
  - exists (bf_value b). destruct b. split; [reflexivity|tauto].
  - exists (bf_value b). destruct b. split; [reflexivity|tauto].
Qed.
Lemma set_named_rejected b n x r b' : good b -> set_named b n x = (r, b') -> r <> Ok tt -> r = Throw LException /\ b' = b.
Proof.
  intros G. unfold set_named. destruct (field_named_ok b n G) as [(i & f & _ & _ & E)|[E _]]; rewrite E.
  - destruct (assign (bf_value b) f x) as [r0 v] eqn:A. intros [= <- <-] Hr.
    destruct (assign_rejected _ _ _ _ _ A Hr) as [-> ->]. destruct b. split; reflexivity.
  - intros [= <- <-] _. split; reflexivity.
Qed.
Lemma accepts_set_value b v n x : accepts (set_value b v) n x = accepts b n x.
Proof.
  unfold accepts, set_named. change (field_named (set_value b v) n) with (field_named b n).
  destruct (field_named b n) as [f|e|k]; try reflexivity. cbn [set_value bf_value]. unfold assign.
  destruct ((x <? f_min f) || (f_max f <? x)); reflexivity.
Qed.
Lemma accepts_ok b n p : good b -> field_of (named_places b) n = Some p -> forall x,
  accepts b n x = true <-> narrow p = true /\ (fits p x \/ p_signed p = false /\ x = 2 ^ p_width p).
Proof.
  intros G H x. destruct (field_named_of b n p G H) as (i & f & _ & _ & E & <- & Hf).
  unfold accepts, set_named. rewrite E. unfold assign. rewrite <- (of_range f Hf x).
  destruct ((x <? f_min f) || (f_max f <? x)); cbn [fst]; split; congruence.
Qed.

Definition not_top (b : bitfield) (op : bytes * Z) : Prop :=
  forall p, field_of (named_places b) (fst op) = Some p -> p_signed p = false -> snd op <> 2 ^ p_width p.

Lemma get_named_ok b n p : good b -> field_of (named_places b) n = Some p -> get_named b n = Ok (number_in (bf_value b) p).
Proof.
  intros G H. destruct (field_named_of b n p G H) as (i & f & _ & _ & E & <- & Hf). unfold get_named. rewrite E. cbn [bind].
  rewrite value_ok by exact Hf. reflexivity.
Qed.
Lemma get_named_inv b n x : good b -> get_named b n = Ok x -> exists p, field_of (named_places b) n = Some p /\ x = number_in (bf_value b) p /\ inside_64 p.
Proof.
  intros G H. destruct (field_named_ok b n G) as [(i & f & H1 & H2 & H3)|[H3 _]].
  - assert (X : field_of (named_places b) n = Some (place_of f)) by (apply field_of_index; exists i, f; auto).
    exists (place_of f). split; [exact X|]. rewrite (get_named_ok b n _ G X) in H. split; [congruence|].
    pose proof (g_fields b G) as F. rewrite Forall_forall in F. destruct (F f (nth_error_In _ _ H2)) as [X1 X2 X3 _ _ _ _].
    split; [exact X1|]. cbn. lia.
  - unfold get_named in H. rewrite H3 in H. discriminate.
Qed.

Lemma set_one b n x m p : good b -> field_of (named_places b) m = Some p -> not_top b (n, x) ->
  number_in (bf_value (snd (set_named b n x))) p = if bytes_eqb n m && accepts b m x then x else number_in (bf_value b) p.
Proof.
  intros G H T. destruct (field_named_of b m p G H) as (j & g & Lg & Ng & Eg & <- & Hg).
  destruct (field_named_ok b n G) as [(i & f & Lf & Nf & Ef)|[Ef Nn]].
  2:{ unfold set_named. rewrite Ef. cbn [snd]. destruct (bytes_eqb n m) eqn:E; [|reflexivity]. apply bytes_eqb_eq in E. congruence. }
  assert (Hf : ok_field f) by (pose proof (g_fields b G) as F; rewrite Forall_forall in F; apply F; exact (nth_error_In _ _ Nf)).
  unfold set_named. rewrite Ef. destruct (assign (bf_value b) f x) as [r v] eqn:A. cbn [snd set_value bf_value].
  destruct (bytes_eqb n m) eqn:E.
  - apply bytes_eqb_eq in E. subst n. assert (f = g) by congruence. subst g. cbn [andb].
    destruct (accepts b m x) eqn:Acc.
    + assert (Hr : r = Ok tt). { unfold accepts, set_named in Acc. rewrite Ef, A in Acc. cbn in Acc. destruct r as [[]| |]; congruence. }
      subst r. rewrite <- value_ok by exact Hf. apply (assign_same _ _ _ _ Hf A).
      apply (accepts_ok b m _ G H) in Acc. destruct Acc as [_ [Hx|[S Hx]]]; [exact Hx|]. exfalso. exact (T _ H S Hx).
    + assert (Hr : r <> Ok tt). { intros ->. unfold accepts, set_named in Acc. rewrite Ef, A in Acc. discriminate. }
      destruct (assign_rejected _ _ _ _ _ A Hr) as [_ ->]. reflexivity.
  - cbn [andb]. apply bytes_eqb_neq in E. destruct r as [[]|e|k].
    + apply (assign_other _ _ _ _ _ Hf A).
      * destruct Hg as [X1 X2 X3 _ _ _ _]. split; [exact X1|]. cbn. lia.
      * apply (g_apart b G (Z.to_nat i) (Z.to_nat j)).
        -- rewrite nth_error_map, Nf. reflexivity.
        -- rewrite nth_error_map, Ng. reflexivity.
        -- intros IJ. rewrite IJ in Nf. assert (f = g) by congruence. subst g.
           destruct Lf as (_ & (f1 & F1 & F2) & _). destruct Lg as (_ & (g1 & G1 & G2) & _). congruence.
    + destruct (assign_rejected _ _ _ _ _ A ltac:(discriminate)) as [_ ->]. reflexivity.
    + destruct (assign_rejected _ _ _ _ _ A ltac:(discriminate)) as [_ ->]. reflexivity.
Qed.
Lemma set_outside b n x i : good b -> 0 <= i < 64 -> (forall f, In f (bf_fields b) -> ~ has_bit (place_of f) i) ->
  Z.testbit (bf_value (snd (set_named b n x))) i = Z.testbit (bf_value b) i.
Proof.
  intros G Hi H. destruct (field_named_ok b n G) as [(j & f & Lf & Nf & Ef)|[Ef Nn]]; unfold set_named; rewrite Ef; [|reflexivity].
  destruct (assign (bf_value b) f x) as [r v] eqn:A. cbn [snd set_value bf_value].
  assert (Hf : ok_field f) by (pose proof (g_fields b G) as F; rewrite Forall_forall in F; apply F; exact (nth_error_In _ _ Nf)).
  destruct r as [[]|e|k]; [|destruct (assign_rejected _ _ _ _ _ A ltac:(discriminate)) as [_ ->]; reflexivity..].
  destruct (assign_bits _ _ _ _ Hf A) as [_ Hb]. rewrite Hb by exact Hi. specialize (H f (nth_error_In _ _ Nf)).
  unfold has_bit, place_of in H. cbn in H. destruct (Z.leb_spec (f_off f) i), (Z.ltb_spec i (f_off f + f_width f)); cbn [andb]; reflexivity || lia.
Qed.

Lemma assign_all_ok : forall ops b, good b -> Forall (not_top b) ops ->
  good (assign_all b ops) /\ bf_fields (assign_all b ops) = bf_fields b /\ (is_i64 (bf_value b) -> is_i64 (bf_value (assign_all b ops))) /\
  (forall n p, field_of (named_places b) n = Some p ->
     number_in (bf_value (assign_all b ops)) p = last_assigned (accepts b n) n ops (number_in (bf_value b) p)) /\
  (forall i, 0 <= i < 64 -> (forall f, In f (bf_fields b) -> ~ has_bit (place_of f) i) ->
     Z.testbit (bf_value (assign_all b ops)) i = Z.testbit (bf_value b) i).
Proof.
  induction ops as [|op ops IH]; intros b G T.
  - cbn. auto.
  - inversion T as [|? ? T1 T2]; subst. cbn [assign_all fold_left]. destruct (set_named_eq b (fst op) (snd op) G) as (v & E & Hv).
    pose proof (good_set_value b v G) as G'. rewrite E.
    destruct (IH (set_value b v) G' T2) as (I1 & I2 & I3 & I4 & I5). fold (assign_all (set_value b v) ops).
    split; [exact I1|]. split; [exact I2|]. split; [intros Hb; apply I3, Hv, Hb|]. split.
    + intros n p H. rewrite (I4 n p H). cbn [last_assigned fold_left]. fold (last_assigned (accepts b n) n ops).
      destruct op as [m x]. cbn [fst snd] in *. pose proof (set_one b m x n p G H T1) as S1. rewrite E in S1. rewrite S1.
      unfold last_assigned. assert (X : forall l a, fold_left (fun cur (op : bytes * Z) => if bytes_eqb (fst op) n && accepts (set_value b v) n (snd op) then snd op else cur) l a =
        fold_left (fun cur (op : bytes * Z) => if bytes_eqb (fst op) n && accepts b n (snd op) then snd op else cur) l a).
      { induction l as [|c l IHl]; intros a; [reflexivity|]. cbn [fold_left]. rewrite accepts_set_value. apply IHl. }
      apply X.
    + intros i Hi H. rewrite (I5 i Hi H). pose proof (set_outside b (fst op) (snd op) i G Hi H) as S1. rewrite E in S1. exact S1.
Qed.

(** the theorem about histories *)
Lemma assignments s b v ops : bit_field s = Ok b -> - 2 ^ 63 <= v < 2 ^ 63 -> Forall (not_top b) ops ->
  let b' := assign_all (set_value b v) ops in
  - 2 ^ 63 <= bf_value b' < 2 ^ 63 /\
  (forall name p, field_of (named_places b) name = Some p ->
     get_named (set_value b v) name = Ok (number_in v p) /\
     get_named b' name = Ok (last_assigned (accepts b name) name ops (number_in v p))) /\
  (forall i, 0 <= i < 64 -> (forall p, In p (map snd (named_places b)) -> ~ has_bit p i) -> bit_of (bf_value b') i = bit_of v i).
Proof.
  intros E Hv T. destruct (accepted s b E) as (G & _). pose proof (good_set_value b v G) as G'.
  destruct (assign_all_ok ops (set_value b v) G' T) as (I1 & I2 & I3 & I4 & I5). cbv zeta.
  split; [apply I3; unfold is_i64, two63; cbn [set_value bf_value]; lia|]. split.
  - intros name p H. split; [apply (get_named_ok _ _ _ G' H)|].
    rewrite (get_named_ok _ name p I1); [|unfold named_places; rewrite I2; exact H]. f_equal. rewrite (I4 name p H).
    unfold last_assigned. assert (X : forall l a, fold_left (fun cur (op : bytes * Z) => if bytes_eqb (fst op) name && accepts (set_value b v) name (snd op) then snd op else cur) l a =
        fold_left (fun cur (op : bytes * Z) => if bytes_eqb (fst op) name && accepts b name (snd op) then snd op else cur) l a).
    { induction l as [|c l IHl]; intros a; [reflexivity|]. cbn [fold_left]. rewrite accepts_set_value. apply IHl. }
    apply X.
  - intros i Hi H. rewrite !bit_of_test by lia. apply I5; [exact Hi|]. intros f Hf Hb. apply (H (place_of f)); [|exact Hb].
    unfold named_places. rewrite map_map. cbn [snd set_value bf_fields] in *. apply in_map. exact Hf.
Qed.
Lemma rejected s b v name x r b' : bit_field s = Ok b -> set_named (set_value b v) name x = (r, b') -> r <> Ok tt ->
  r = Throw LException /\ b' = set_value b v.
Proof. intros E. destruct (accepted s b E) as (G & _). apply set_named_rejected. apply good_set_value. exact G. Qed.
Lemma accepted_numbers s b name p : bit_field s = Ok b -> field_of (named_places b) name = Some p -> forall x,
  accepts b name x = true <-> narrow p = true /\ (fits p x \/ p_signed p = false /\ x = 2 ^ p_width p).
Proof. intros E. destruct (accepted s b E) as (G & _). apply accepts_ok. exact G. Qed.

(** ** Cell ids *)

Lemma words_join v : is_i64 v -> s64 (Z.lor (Z.land (s32 (u32 (Z.land v (two32 - 1)))) (two32 - 1)) (Z.shiftl (s32 (u32 (Z.shiftr v 32))) 32)) = v.
Proof.
  intros Hv. apply i64_ext; [apply s64_range|exact Hv|]. intros i Hi. rewrite s64_bits by exact Hi.
  rewrite Z.lor_spec, Z.land_spec, Z.shiftl_spec by lia.
  change (two32 - 1) with (Z.shiftl 1 32 - 1). rewrite ones_bits by lia. destruct (Z.ltb_spec i 32).
  - rewrite s32_bits, u32_bits, Z.land_spec, ones_bits by lia. destruct (Z.ltb_spec i 32); [|lia].
    rewrite (Z.testbit_neg_r _ (i - 32)) by lia. rewrite !andb_true_r, orb_false_r. reflexivity.
  - rewrite andb_false_r. cbn [orb]. rewrite s32_bits, u32_bits, Z.shiftr_spec by lia. f_equal. lia.
Qed.
Lemma low_join v i : 0 <= i < 32 -> Z.testbit (s64 (Z.lor (Z.land (s32 (u32 (Z.land v (two32 - 1)))) (two32 - 1)) (Z.shiftl 0 32))) i = Z.testbit v i.
Proof.
  intros Hi. rewrite s64_bits by lia. change (two32 - 1) with (Z.shiftl 1 32 - 1).
  rewrite Z.shiftl_0_l, Z.lor_0_r, Z.land_spec, ones_bits, s32_bits, u32_bits, Z.land_spec, ones_bits by lia.
  destruct (Z.ltb_spec i 32); [|lia]. rewrite !andb_true_r. reflexivity.
Qed.

Lemma highest_ge : forall fs hb, hb <= fold_left (fun hb f => if hb <? f_off f + f_width f then f_off f + f_width f else hb) fs hb /\
  forall f, In f fs -> f_off f + f_width f <= fold_left (fun hb f => if hb <? f_off f + f_width f then f_off f + f_width f else hb) fs hb.
Proof.
  induction fs as [|g fs IH]; intros hb; cbn [fold_left]; [split; [lia|intros f []]|].
  set (h1 := if hb <? f_off g + f_width g then f_off g + f_width g else hb). destruct (IH h1) as [I1 I2].
  assert (B : hb <= h1 /\ f_off g + f_width g <= h1) by (unfold h1; destruct (Z.ltb_spec hb (f_off g + f_width g)); lia).
  split; [lia|]. intros f [<-|Hf]; [lia|apply I2, Hf].
Qed.

(** what the file keeps of the two words *)
Definition kept_words (id1 flag : Z) (words : Z * Z) : Z * Z := (fst words, if bit_of flag id1 then snd words else 0).

Lemma decoder_default : exists d, bit_field default_encoding = Ok d.
Proof. eexists. vm_compute. reflexivity. Qed.

Lemma cell_ids enc id1 c b c' v ops old hit words : encoder enc id1 c = Ok (b, c') ->
  - 2 ^ 31 <= cl_flag c < 2 ^ 31 -> 0 <= id1 <= 31 -> - 2 ^ 63 <= v < 2 ^ 63 ->
  (forall h, old = Some h -> h <> hit) ->
  let b' := assign_all (set_value b v) ops in
  words = cell_words b' \/ words = kept_words id1 (cl_flag c') (cell_words b') ->
  exists d d', decoder c' = Ok d /\ decode d old hit words = (d', Some hit) /\
    forall name x, get_named b' name = Ok x -> get_named d' name = Ok x.
Proof.
  intros E Hflag Hid Hv Hold b' Hw. unfold encoder in E. destruct (bit_field enc) as [b0|e|k] eqn:B; cbn [bind] in E; try discriminate.
  assert (FL : is_i32 (cl_flag c)) by (apply i32_bounds; exact Hflag).
  destruct (flag_op_ok (cl_flag c) (id1, 31 <? highest_bit b0) FL Hid) as (w & Ew & Hw32 & Hs).
  assert (E' : b0 = b /\ c' = mkCells (Some enc) w).
  { unfold flag_op in Ew. cbn [fst snd] in Ew. destruct (31 <? highest_bit b0); rewrite Ew in E; cbn [bind] in E; split; congruence. }
  clear E Ew. destruct E' as [-> ->]. cbn [cl_flag] in *.
  destruct (accepted enc b B) as (G & _). pose proof (good_set_value b v G) as G1.
  assert (IV : is_i64 (bf_value (set_value b v))) by (unfold is_i64, two63; cbn; lia).
  assert (INV : forall ops b1, good b1 -> is_i64 (bf_value b1) -> exists v', assign_all b1 ops = set_value b1 v' /\ is_i64 v').
  { clear. induction ops as [|op ops IH]; intros b1 G1 I1.
    - exists (bf_value b1). destruct b1. split; [reflexivity|exact I1].
    - cbn [assign_all fold_left]. destruct (set_named_eq b1 (fst op) (snd op) G1) as (v1 & E1 & H1). rewrite E1.
      destruct (IH (set_value b1 v1) (good_set_value _ _ G1) (H1 I1)) as (v2 & E2 & H2). exists v2. split; [exact E2|exact H2]. }
  destruct (INV ops (set_value b v) G1 IV) as (v' & EV & IV'). subst b'. rewrite EV in *.
  change (set_value (set_value b v) v') with (set_value b v') in *. clear EV INV IV G1.
  assert (D : exists d, decoder (mkCells (Some enc) w) = Ok d /\ (bf_fields b = [] \/ d = b)).
  { unfold decoder. cbn [cl_enc]. destruct enc as [|e enc].
    - destruct decoder_default as (d & Ed). exists d. split; [exact Ed|]. left. unfold bit_field in B. cbn in B. injection B as <-. reflexivity.
    - exists b. split; [exact B|right; reflexivity]. }
  destruct D as (d & D1 & D2).
  set (d' := set_value d (s64 (Z.lor (Z.land (fst words) (two32 - 1)) (Z.shiftl (snd words) 32)))).
  exists d, d'. split; [exact D1|]. split.
  { unfold decode. destruct old as [h|]; [|reflexivity]. destruct (Z.eqb_spec h hit) as [->|]; [|reflexivity]. exfalso. exact (Hold hit eq_refl eq_refl). }
  intros name x Hx. destruct (get_named_inv _ name x (good_set_value b v' G) Hx) as (p & P1 & -> & P3). cbn [set_value bf_value].
  destruct D2 as [D2|D2].
  { exfalso. unfold named_places in P1. cbn [set_value bf_fields] in P1. rewrite D2 in P1. discriminate. }
  subst d. rewrite (get_named_ok d' name p); [|apply good_set_value, G|exact P1]. f_equal. cbn [d' set_value bf_value].
  destruct P3 as (P3 & P4 & P5). unfold cell_words, kept_words, low_word, high_word in Hw. cbn [set_value bf_value fst snd] in Hw.
  destruct Hw as [-> | ->]; cbn [fst snd].
  - rewrite words_join by exact IV'. reflexivity.
  - rewrite bit_of_test by lia. rewrite Hs by lia. rewrite Z.eqb_refl. cbn [snd].
    destruct (Z.ltb_spec 31 (highest_bit b)) as [L|L]; [rewrite words_join by exact IV'; reflexivity|].
    apply number_ext; [lia|exact P4|]. intros i Hi. apply low_join. unfold has_bit in Hi.
    apply field_of_index in P1. destruct P1 as (j & f & _ & Nf & <-). cbn [set_value bf_fields] in Nf.
    destruct (highest_ge (bf_fields b) 0) as [_ HH]. specialize (HH f (nth_error_In _ _ Nf)). fold (highest_bit b) in HH.
    cbn in Hi, P3. lia.
Qed.

Lemma assigned_values enc id1 c b c' v ops old hit words : encoder enc id1 c = Ok (b, c') ->
  - 2 ^ 31 <= cl_flag c < 2 ^ 31 -> 0 <= id1 <= 31 -> - 2 ^ 63 <= v < 2 ^ 63 ->
  (forall h, old = Some h -> h <> hit) ->
  Forall (fun op : bytes * Z => forall p, field_of (named_places b) (fst op) = Some p -> p_signed p = false -> snd op <> 2 ^ p_width p) ops ->
  let b' := assign_all (set_value b v) ops in
  words = cell_words b' \/ words = kept_words id1 (cl_flag c') (cell_words b') ->
  exists d d', decoder c' = Ok d /\ decode d old hit words = (d', Some hit) /\
    forall name p, field_of (named_places b) name = Some p ->
      get_named d' name = Ok (last_assigned (accepts b name) name ops (number_in v p)).
Proof.
  intros E Hf Hi Hv Ho HO b' Hw.
  assert (B : bit_field enc = Ok b).
  { unfold encoder in E. destruct (bit_field enc) as [b0|e|k]; cbn [bind] in E; try discriminate.
    destruct (if 31 <? highest_bit b0 then _ else _); cbn [bind] in E; congruence. }
  destruct (cell_ids enc id1 c b c' v ops old hit words E Hf Hi Hv Ho Hw) as (d & d' & D1 & D2 & D3).
  exists d, d'. split; [exact D1|]. split; [exact D2|]. intros name p P.
  destruct (assignments enc b v ops B Hv HO) as (_ & A & _). apply D3. exact (proj2 (A name p P)).
Qed.
