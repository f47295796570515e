(** * Files as sequences of records: reading them one after the other *)

From Verif Require Import Bytes StrMap SioModel SioProofs SioRecord SioRead SioFrame SioSpec Ieee ObjModel EventModel IndexModel FileModel.

(** ** Records in a file *)

(** a record as it is stored: options, size before compression, name, data *)
Record frec := mkF { f_opts : Z; f_ulen : Z; f_name : bytes; f_data : bytes }.

Definition f_dlen (x : frec) : Z := Zlen (f_data x).
Definition f_hdr (x : frec) : bytes := rec_hdr (f_opts x) (f_dlen x) (f_ulen x) (f_name x).
(** header and data *)
Definition f_core (x : frec) : bytes := f_hdr x ++ f_data x.
Definition f_pad (x : frec) : Z := rec_pad (f_opts x) (f_dlen x).
Definition f_bytes (x : frec) : bytes := f_core x ++ zeros (Z.to_nat (f_pad x)).
Definition f_ok (x : frec) : Prop := hdr_fits (f_opts x) (f_dlen x) (f_ulen x) (f_name x).
Definition f_size (x : frec) : Z := rec_hlen (f_name x) + f_dlen x + f_pad x.
Definition ftext (l : list frec) : bytes := flat_map f_bytes l.
(** what the reader knows about it *)
Definition f_info (pos : Z) (x : frec) : record_info :=
  mkRI pos (pos + f_size x) (rec_hlen (f_name x)) (f_opts x) (f_dlen x) (f_ulen x) (f_name x).

Lemma f_core_len x : Zlen (f_core x) = rec_hlen (f_name x) + f_dlen x.
Proof. unfold f_core, f_hdr. rewrite Zlen_app, rec_hdr_len. reflexivity. Qed.
Lemma f_pad_range x : 0 <= f_pad x <= 3.
Proof. apply rec_pad_range. apply Zlen_nonneg. Qed.
Lemma f_bytes_len x : Zlen (f_bytes x) = f_size x.
Proof.
  unfold f_bytes, f_size. rewrite Zlen_app, f_core_len. pose proof (f_pad_range x). unfold Zlen at 1. rewrite zeros_length. lia.
Qed.
Lemma f_size_pos x : f_ok x -> 24 <= f_size x.
Proof.
  intros (_ & _ & _ & Hn & _). unfold f_size. pose proof (rec_hlen_range _ Hn). pose proof (f_pad_range x).
  pose proof (Zlen_nonneg (f_data x)). unfold f_dlen. lia.
Qed.
Lemma ftext_app a b : ftext (a ++ b) = ftext a ++ ftext b.
Proof. apply flat_map_app. Qed.

(** [view file pos l clean]: from position [pos] on the file contains the records [l], and then
    ends ([clean]), or contains a part of one more record.  (The padding behind the last record
    may be missing.) *)
Inductive view (file : bytes) : Z -> list frec -> bool -> Prop :=
| V_end pos : Zlen file <= pos -> 0 <= pos -> view file pos [] true
| V_cut pre x k : f_ok x -> 0 < k < Zlen (f_core x) -> file = pre ++ firstn (Z.to_nat k) (f_core x) ->
    view file (Zlen pre) [] false
| V_cons pre x rest l c : f_ok x -> file = pre ++ f_core x ++ rest ->
    view file (Zlen pre + f_size x) l c -> view file (Zlen pre) (x :: l) c.

Lemma view_pos file pos l c : view file pos l c -> 0 <= pos.
Proof. intros H. destruct H; [assumption|apply Zlen_nonneg|apply Zlen_nonneg]. Qed.

Lemma view_ok file pos l c : view file pos l c -> Forall f_ok l.
Proof. induction 1; constructor; assumption. Qed.

(** records followed by the end of the file *)
Lemma view_records l : forall pre, Forall f_ok l -> view (pre ++ ftext l) (Zlen pre) l true.
Proof.
  induction l as [|x l IH]; intros pre F.
  - cbn [ftext flat_map]. rewrite app_nil_r. apply V_end; [lia|apply Zlen_nonneg].
  - inversion F as [|? ? Hx Fl]; subst. cbn [ftext flat_map]. fold (ftext l).
    apply (V_cons _ pre x (zeros (Z.to_nat (f_pad x)) ++ ftext l)); [exact Hx|unfold f_bytes; rewrite <- !app_assoc; reflexivity|].
    rewrite <- f_bytes_len, <- Zlen_app, app_assoc. apply IH. exact Fl.
Qed.

(** the number of records is bounded by the number of bytes *)
Lemma view_length file pos l c : view file pos l c -> Z.of_nat (length l) * 20 <= Z.max 0 (Zlen file - pos).
Proof.
  induction 1 as [pos H H0|pre x k Hx Hk E|pre x rest l c Hx E V IH]; cbn [length]; [lia|lia|].
  pose proof (f_size_pos x Hx). pose proof (Zlen_nonneg rest). pose proof (f_pad_range x).
  assert (Zlen pre + (f_size x - f_pad x) <= Zlen file).
  { rewrite E, !Zlen_app, f_core_len. unfold f_size. lia. }
  lia.
Qed.

(** the records that are completely contained in a prefix of the file *)
Fixpoint whole (k : Z) (l : list frec) : list frec :=
  match l with
  | [] => []
  | x :: l' => if Zlen (f_core x) <=? k then x :: whole (k - f_size x) l' else []
  end.

Lemma firstn_pre {A} (pre l : list A) k : firstn (length pre + k) (pre ++ l) = pre ++ firstn k l.
Proof. rewrite firstn_app. rewrite firstn_all2 by lia. f_equal. f_equal. lia. Qed.

Lemma view_truncated l : forall pre k, Forall f_ok l -> 0 <= k ->
  exists c, view (pre ++ firstn (Z.to_nat k) (ftext l)) (Zlen pre) (whole k l) c.
Proof.
  induction l as [|x l IH]; intros pre k F Hk.
  - cbn [ftext flat_map whole]. rewrite firstn_nil, app_nil_r. exists true. apply V_end; [lia|apply Zlen_nonneg].
  - inversion F as [|? ? Hx Fl]; subst. cbn [whole ftext flat_map]. fold (ftext l).
    pose proof (f_pad_range x) as Hp. pose proof (f_core_len x) as Hc. pose proof (f_bytes_len x) as Hb.
    assert (Hcb : Zlen (f_core x) + f_pad x = f_size x) by (rewrite Hc; unfold f_size; lia).
    pose proof (Zlen_nonneg (f_core x)) as Hcn.
    destruct (Z.leb_spec (Zlen (f_core x)) k) as [Hle|Hlt].
    + destruct (Z_lt_le_dec k (f_size x)) as [Hs|Hs].
      * (* the padding is cut *)
        assert (E : firstn (Z.to_nat k) (f_bytes x ++ ftext l) = f_core x ++ zeros (Z.to_nat (k - Zlen (f_core x)))).
        { rewrite firstn_app. replace (Z.to_nat k - length (f_bytes x))%nat with 0%nat by (unfold Zlen in *; lia).
          cbn [firstn]. rewrite app_nil_r. unfold f_bytes. rewrite firstn_app, firstn_all2 by (unfold Zlen in *; lia). f_equal.
          unfold zeros. assert (G : forall n m, (n <= m)%nat -> firstn n (repeat x00 m) = repeat x00 n).
          { induction n as [|n IHn]; intros [|m] Hm; cbn; try reflexivity; [lia|]. f_equal. apply IHn. lia. }
          rewrite G; [f_equal; unfold Zlen; lia|unfold Zlen in *; lia]. }
        assert (Hw : whole (k - f_size x) l = []).
        { destruct l as [|y l]; [reflexivity|]. cbn [whole]. pose proof (Zlen_nonneg (f_core y)).
          inversion Fl as [|? ? Hy _]; subst. destruct Hy as (_ & _ & _ & Hny & _). pose proof (rec_hlen_range _ Hny).
          pose proof (f_core_len y). pose proof (Zlen_nonneg (f_data y)). unfold f_dlen in *.
          destruct (Z.leb_spec (Zlen (f_core y)) (k - f_size x)); [lia|reflexivity]. }
        rewrite E, Hw. exists true. eapply (V_cons _ pre x); [exact Hx|reflexivity|].
        apply V_end; [|pose proof (Zlen_nonneg pre); lia].
        rewrite !Zlen_app. unfold Zlen at 3. rewrite zeros_length. lia.
      * destruct (IH (pre ++ f_bytes x) (k - f_size x) Fl ltac:(lia)) as (c & V). exists c.
        assert (E : firstn (Z.to_nat k) (f_bytes x ++ ftext l) = f_bytes x ++ firstn (Z.to_nat (k - f_size x)) (ftext l)).
        { replace (Z.to_nat k) with (length (f_bytes x) + Z.to_nat (k - f_size x))%nat by (unfold Zlen in *; lia). apply firstn_pre. }
        rewrite E. eapply (V_cons _ pre x); [exact Hx|unfold f_bytes; rewrite <- !app_assoc; reflexivity|].
        rewrite Zlen_app, Hb, <- app_assoc in V. exact V.
    + assert (E : firstn (Z.to_nat k) (f_bytes x ++ ftext l) = firstn (Z.to_nat k) (f_core x)).
      { unfold f_bytes. rewrite <- app_assoc, firstn_app. replace (Z.to_nat k - length (f_core x))%nat with 0%nat by (unfold Zlen in *; lia).
        cbn [firstn]. apply app_nil_r. }
      rewrite E. destruct (Z.eq_dec k 0) as [->|Hk0].
      * cbn [Z.to_nat firstn]. exists true. rewrite app_nil_r. apply V_end; [lia|apply Zlen_nonneg].
      * exists false. apply (V_cut _ pre x k); [exact Hx|lia|reflexivity].
Qed.

(** ** One record *)

Lemma read_info_step file pos x l c raw : view file pos (x :: l) c ->
  read_record_info (at_pos file pos) raw = (Ok (f_info pos x, f_hdr x), at_pos file (pos + rec_hlen (f_name x))).
Proof.
  intros V. inversion V as [| |pre x0 rest l0 c0 Hx E V']; subst. unfold f_core. rewrite <- app_assoc.
  unfold f_hdr. rewrite (read_record_info_spec pre _ _ _ _ _ raw Hx). f_equal. f_equal. f_equal. unfold f_info, f_size, f_pad. f_equal. lia.
Qed.

Lemma read_data_step file pos x l c : view file pos (x :: l) c ->
  read_record_data (at_pos file (pos + rec_hlen (f_name x))) (f_info pos x) (f_hdr x) (rec_hlen (f_name x))
  = (Ok (f_core x), at_pos file (pos + f_size x)).
Proof.
  intros V. inversion V as [| |pre x0 rest l0 c0 Hx E V']; subst.
  assert (R := read_record_spec pre _ _ _ _ (f_data x) rest (f_hdr x) Hx eq_refl). cbv zeta in R.
  unfold read_record in R. rewrite <- app_assoc in R. rewrite (read_record_info_spec pre _ _ _ _ _ _ Hx) in R.
  cbn [ri_hlen] in R. unfold f_core. unfold f_hdr in R |- *. rewrite <- app_assoc.
  unfold f_info. cbn [ri_hlen] in R.
  replace (Zlen pre + f_size x) with (Zlen pre + rec_hlen (f_name x) + f_dlen x + rec_pad (f_opts x) (f_dlen x)) by (unfold f_size, f_pad; lia).
  destruct (read_record_data _ _ _ _) as [[b|e|k] s] eqn:E; [|discriminate R|discriminate R].
  injection R as -> ->. reflexivity.
Qed.

Lemma view_tail file pos x l c : view file pos (x :: l) c -> view file (pos + f_size x) l c /\ f_ok x.
Proof. intros V. inversion V; subst. auto. Qed.

Section Records.
Context {St : Type} (valid : record_info -> bool)
        (func : St -> record_info -> bytes -> reader -> Res bool * St * reader).

Lemma records_skip fuel st r file pos x l c : view file pos (x :: l) c -> rd_s r = at_pos file pos ->
  valid (f_info pos x) = false ->
  read_records (S fuel) valid func st r = read_records fuel valid func st (with_raw r (at_pos file (pos + f_size x)) (f_hdr x)).
Proof.
  intros V Hr Hv. cbn [read_records]. rewrite Hr, (read_info_step _ _ _ _ _ _ V), Hv. cbn [f_info ri_end].
  pose proof (view_pos _ _ _ _ V). destruct (view_tail _ _ _ _ _ V) as [_ Hx]. pose proof (f_size_pos x Hx).
  rewrite s_seek_at by lia. reflexivity.
Qed.
Lemma records_take fuel st r file pos x l c : view file pos (x :: l) c -> rd_s r = at_pos file pos ->
  valid (f_info pos x) = true ->
  read_records (S fuel) valid func st r
  = match func st (f_info pos x) (f_core x) (with_raw r (at_pos file (pos + f_size x)) (f_core x)) with
    | (Ok true, st1, r1) => read_records fuel valid func st1 r1
    | (Ok false, st1, r1) => (Ok tt, st1, r1)
    | (Throw e, st1, r1) => (Throw e, st1, r1)
    | (UB k, st1, r1) => (UB k, st1, r1)
    end.
Proof.
  intros V Hr Hv. cbn [read_records]. rewrite Hr, (read_info_step _ _ _ _ _ _ V), Hv.
  cbn [ri_hlen f_info]. fold (f_info pos x). rewrite (read_data_step _ _ _ _ _ V). reflexivity.
Qed.

(** the end of the file *)
Lemma records_end fuel st r file pos : view file pos [] true -> rd_s r = at_pos file pos ->
  read_records (S fuel) valid func st r = (Throw EEof, st, with_s r (mkIfs file pos true true true)).
Proof.
  intros V Hr. inversion V as [p Hl Hp| |]; subst. cbn [read_records]. rewrite Hr.
  unfold read_record_info. cbn [s_open at_pos negb]. unfold s_good at 1. cbn [s_eof s_fail negb andb]. cbv zeta. fold (at_pos file pos).
  rewrite s_read_short by lia. replace (Z.max 0 (Zlen file - pos)) with 0 by lia. cbn [s_eof]. rewrite Z.add_0_r. reflexivity.
Qed.

(** a part of a record: an exception *)
Lemma info_failed s raw : s_open s = true -> s_fail s = true -> read_record_info s raw = (Throw EBadState, s).
Proof.
  intros Ho Hf. unfold read_record_info. rewrite Ho. cbn [negb]. unfold s_good. rewrite Hf, andb_false_r. reflexivity.
Qed.
Lemma records_failed fuel st r : s_open (rd_s r) = true -> s_fail (rd_s r) = true ->
  read_records (S fuel) valid func st r = (Throw EBadState, st, with_s r (rd_s r)).
Proof. intros Ho Hf. cbn [read_records]. rewrite info_failed by assumption. reflexivity. Qed.

Lemma cut_info pre x k raw : f_ok x -> 0 < k < Zlen (f_core x) ->
  let file := pre ++ firstn (Z.to_nat k) (f_core x) in
  (exists e s', read_record_info (at_pos file (Zlen pre)) raw = (Throw e, s') /\ s_fail s' = true /\ s_open s' = true) \/
  (exists ri b s', read_record_info (at_pos file (Zlen pre)) raw = (Ok (ri, b), s') /\ s_fail s' = true /\ s_open s' = true) \/
  (read_record_info (at_pos file (Zlen pre)) raw = (Ok (f_info (Zlen pre) x, f_hdr x), at_pos file (Zlen pre + rec_hlen (f_name x))) /\
   rec_hlen (f_name x) <= k).
Proof.
  intros Hx Hk file. pose proof Hx as (Ho & Hd & Hu & Hn & Hsz). destruct (rec_hlen_range _ Hn) as [Hh _].
  pose proof (rec_hdr_len (f_opts x) (f_dlen x) (f_ulen x) (f_name x)) as Hrl. pose proof (Zlen_nonneg pre) as Hpre.
  fold (f_hdr x) in Hrl.
  destruct (Z_lt_le_dec k (rec_hlen (f_name x))) as [Hk1|Hk1].
  - unfold file, f_core. rewrite firstn_app. replace (Z.to_nat k - length (f_hdr x))%nat with 0%nat by (unfold Zlen in Hrl; lia).
    cbn [firstn]. rewrite app_nil_r. set (data' := pre ++ firstn (Z.to_nat k) (f_hdr x)).
    assert (Hdl' : Zlen data' = Zlen pre + k) by (unfold data', Zlen in *; rewrite app_length, firstn_length; lia).
    remember (read_record_info (at_pos data' (Zlen pre)) raw) as res eqn:ER.
    unfold read_record_info in ER. cbn [s_open at_pos negb] in ER. unfold s_good at 1 in ER. cbn [s_eof s_fail negb andb] in ER. cbv zeta in ER.
    fold (at_pos data' (Zlen pre)) in ER.
    destruct (Z_lt_le_dec k 8) as [Hk8|Hk8].
    + rewrite s_read_short in ER by lia. cbn [s_eof] in ER. subst res. left. do 2 eexists. split; [reflexivity|]. split; reflexivity.
    + destruct (s_read (at_pos data' (Zlen pre)) 8) as [b1 s1] eqn:E1.
      assert (Hs : b1 = firstn 8 (f_hdr x) /\ s1 = at_pos data' (Zlen pre + 8)).
      { unfold s_read, s_good, s_avail, at_pos in E1. cbn [s_eof s_fail negb andb s_data s_pos s_open] in E1.
        replace (8 <=? _) with true in E1 by lia. injection E1 as <- <-. split; [|reflexivity].
        unfold sub, data', Zlen. rewrite Nat2Z.id. rewrite skipn_app_exact by reflexivity. rewrite firstn_firstn. f_equal. lia. }
      destruct Hs as [-> ->]. rewrite s_eof_at, s_good_at in ER. cbn [negb] in ER.
      assert (Hh8 : firstn 8 (f_hdr x) = be 4 (rec_hlen (f_name x)) ++ be 4 record_marker).
      { unfold f_hdr, rec_hdr. rewrite app_assoc. apply firstn_app_exact. reflexivity. }
      rewrite Hh8 in ER. set (B := resize raw max_record_info_len) in *.
      set (h1 := be 4 (rec_hlen (f_name x)) ++ be 4 record_marker) in *.
      assert (Hb1 : put B 0 h1 = h1 ++ skipn 8 B).
      { unfold put. change (Z.to_nat 0) with 0%nat. cbn [firstn app Nat.add]. reflexivity. }
      assert (W0h : word_at (put B 0 h1) 0 = rec_hlen (f_name x)).
      { rewrite Hb1. unfold h1. rewrite <- app_assoc. apply (word_at_mid [] _ _ _ 0); [reflexivity|reflexivity|]. unfold is_u32, two32. lia. }
      assert (W4 : word_at (put B 0 h1) 4 = record_marker).
      { rewrite Hb1. unfold h1. rewrite <- app_assoc. apply (word_at_mid (be 4 (rec_hlen (f_name x))) _ _ _ 4); [reflexivity|reflexivity|].
        unfold is_u32, record_marker, two32. lia. }
      rewrite W0h, W4, Z.eqb_refl in ER. cbn [negb] in ER. rewrite u32_id in ER by (unfold is_u32, two32; lia). fold (at_pos data' (Zlen pre + 8)) in ER.
      rewrite s_read_short in ER by lia. replace (Z.max 0 (Zlen data' - (Zlen pre + 8))) with (k - 8) in ER by lia.
      assert (Hsl : Zlen (sub data' (Zlen pre + 8) (k - 8)) = k - 8) by (apply sub_length; lia).
      destruct (max_record_info_len <? _) eqn:EU; [unfold max_record_info_len in EU; lia|].
      match type of ER with context [max_record_name_len <? ?w] => destruct (max_record_name_len <? w) end; subst res.
      * left. do 2 eexists. split; [reflexivity|]. split; reflexivity.
      * right. left. do 3 eexists. split; [reflexivity|]. split; reflexivity.
  - right. right. split; [|exact Hk1]. unfold file, f_core. rewrite firstn_app, firstn_all2 by (unfold Zlen in *; lia).
    unfold f_hdr at 1 4. rewrite (read_record_info_spec pre _ _ _ _ _ raw Hx). f_equal. f_equal. f_equal. unfold f_info, f_size, f_pad. f_equal. lia.
Qed.

Lemma records_cut fuel st r file pos : view file pos [] false -> rd_s r = at_pos file pos ->
  exists e s' raw', read_records (S (S fuel)) valid func st r = (Throw e, st, with_raw r s' raw') /\ s_fail s' = true /\ s_open s' = true.
Proof.
  intros V Hr. inversion V as [|pre x k Hx Hk E|]; subst. cbn [read_records]. rewrite Hr.
  destruct (cut_info pre x k (rd_raw r) Hx Hk) as [(e & s' & Ei & Hf & Ho)|[(ri & b & s' & Ei & Hf & Ho)|[Ei Hk1]]]; rewrite Ei.
  - exists e, s', (rd_raw r). split; [reflexivity|]. split; [exact Hf|exact Ho].
  - destruct (valid ri).
    + unfold read_record_data. rewrite Ho. unfold s_good at 1. rewrite Hf. cbn [negb]. rewrite andb_false_r. cbn [negb].
      eexists _, s', _. split; [reflexivity|]. split; [exact Hf|exact Ho].
    + cbn [with_raw rd_s]. assert (Hs : s_seek s' (ri_end ri) = mkIfs (s_data s') (s_pos s') true false true) by (unfold s_seek; rewrite Hf, Ho; reflexivity).
      rewrite Hs. rewrite info_failed by reflexivity.
      eexists _, _, b. split; [reflexivity|]. split; reflexivity.
  - set (file := pre ++ firstn (Z.to_nat k) (f_core x)) in *. pose proof (Zlen_nonneg pre) as Hpre.
    pose proof (f_core_len x) as Hcl. pose proof (f_pad_range x) as Hp.
    assert (Hfl : Zlen file = Zlen pre + k) by (unfold file, Zlen in *; rewrite app_length, firstn_length; lia).
    pose proof Hx as (_ & _ & _ & Hn & _). destruct (rec_hlen_range _ Hn) as [Hh _].
    destruct (valid (f_info (Zlen pre) x)).
    + unfold read_record_data. rewrite s_open_at, s_good_at. cbn [negb f_info ri_hlen ri_start ri_dlen ri_end]. cbv zeta.
      rewrite s_seek_at by lia. rewrite s_good_at. cbn [negb]. rewrite s_read_short by lia. unfold s_good. cbn [s_eof s_fail negb andb].
      eexists _, _, (f_hdr x). split; [reflexivity|]. split; reflexivity.
    + cbn [f_info ri_end with_raw rd_s rd_raw]. unfold f_size. rewrite s_seek_at by lia.
      unfold read_record_info. cbn [s_open at_pos negb]. unfold s_good at 1. cbn [s_eof s_fail negb andb]. cbv zeta.
      fold (at_pos file (Zlen pre + (rec_hlen (f_name x) + f_dlen x + f_pad x))). rewrite s_read_short by lia. cbn [s_eof].
      eexists _, _, (f_hdr x). split; [reflexivity|]. split; reflexivity.
Qed.

End Records.
