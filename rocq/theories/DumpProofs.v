(** * Proofs about the listing of the records of a file *)

From Coq Require Import ZArith List Bool Lia.
From Verif Require Import Bytes StrMap SioModel SioProofs SioRecord SioRead SioFrame SioSpec Ieee ObjModel EventModel EventFacts IndexModel FileModel
  FileFrame FileRead FileUse FileSpec FileWrite DumpModel DumpSpec.
Import ListNotations.
Open Scope Z_scope.

Lemma Forall2_len {A B} (R : A -> B -> Prop) l l' : Forall2 R l l' -> length l = length l'.
Proof. induction 1; cbn [length]; congruence. Qed.

(** ** Sizes *)

Lemma pad4_up4 b : small b -> Zlen (padz b) = up4 (Zlen b).
Proof. intros H. rewrite Zlen_padz by exact H. unfold pad4, up4. pose proof (Zlen_nonneg b). lia. Qed.

Lemma calls_size_ok cs : calls_ok cs -> calls_size cs = Zlen (render0 cs).
Proof.
  induction 1 as [|c cs Hc Hcs IH]; [reflexivity|]. cbn [calls_size render0 flat_map]. fold (render0 cs). rewrite Zlen_app, <- IH. f_equal.
  destruct c as [b|a|a]; cbn [call_size render0_call]; [symmetry; apply pad4_up4; exact Hc|rewrite Zlen_be; reflexivity|rewrite Zlen_be; reflexivity].
Qed.

Lemma block_head_ok b : block_ok b -> block_head b = Zlen (block_hdr b).
Proof. intros [Hs _]. unfold block_head. rewrite block_hdr_len, pad4_up4 by exact Hs. reflexivity. Qed.
Lemma block_size_ok b : block_ok b -> block_size b = block_len b.
Proof. intros H. unfold block_size. rewrite block_head_ok by exact H. rewrite block_len_split, calls_size_ok by apply H. reflexivity. Qed.
Lemma data_size_ok r bs : Forall block_ok bs -> data_size bs = Zlen (blocks_bytes r bs).
Proof.
  induction 1 as [|b bs Hb Hbs IH]; [reflexivity|]. cbn [data_size blocks_bytes flat_map]. fold (blocks_bytes r bs).
  rewrite Zlen_app, block_bytes_len, <- IH, block_size_ok by exact Hb. reflexivity.
Qed.
Lemma record_head_ok name : Zlen name <= 64 -> record_head name = rec_hlen name.
Proof. intros H. unfold record_head, rec_hlen. rewrite pad4_up4; [reflexivity|]. unfold small, two32. lia. Qed.

(** ** The blocks of a record *)

Lemma expected_infos r blks : Forall block_fits blks ->
  forall fuel pre, (length (blocks_bytes r blks) < fuel)%nat ->
  exists infos, read_block_infos_loop fuel (pre ++ blocks_bytes r blks) (Zlen pre) = Ok infos /\
    map block_line infos = expected_blocks (Zlen pre) blks.
Proof.
  induction 1 as [|b blks Hb Hbs IH]; intros fuel pre Hfuel.
  - destruct fuel; [lia|]. exists []. cbn [read_block_infos_loop blocks_bytes flat_map].
    rewrite app_nil_r, Z.leb_refl. split; reflexivity.
  - destruct fuel; [lia|]. cbn [read_block_infos_loop blocks_bytes flat_map]. fold (blocks_bytes r blks).
    pose proof (block_bytes_len r b) as Hbl. pose proof (block_len_split b) as Hsp.
    pose proof (block_hdr_len b) as Hhl.
    pose proof (Zlen_nonneg (padz (wb_name b))). pose proof (Zlen_nonneg (render0 (wb_calls b))).
    pose proof (Zlen_nonneg (blocks_bytes r blks)).
    destruct (Zlen (pre ++ block_bytes r b ++ blocks_bytes r blks) <=? Zlen pre) eqn:E0.
    { rewrite !Zlen_app, Hbl in E0. lia. }
    rewrite extract_block_spec by exact Hb. cbn [bind bi_end].
    destruct (Zlen pre + block_len b =? Zlen pre) eqn:E1; [lia|].
    destruct (IH fuel (pre ++ block_bytes r b)) as (infos & Hi & Hm).
    { cbn [blocks_bytes flat_map] in Hfuel. fold (blocks_bytes r blks) in Hfuel. rewrite app_length in Hfuel.
      unfold Zlen in *. lia. }
    rewrite Zlen_app, Hbl, <- app_assoc in Hi. rewrite Hi. cbn [bind].
    eexists. split; [reflexivity|]. cbn [map expected_blocks]. rewrite Hm, Zlen_app, Hbl.
    destruct Hb as (Hok & _). rewrite (block_size_ok b Hok). f_equal.
    unfold block_line, ver_major, ver_minor. cbn [bi_name bi_version bi_start bi_hlen bi_dlen bi_end].
    rewrite (block_head_ok b Hok), calls_size_ok by apply Hok. f_equal. lia.
Qed.

(** ** One record *)

Lemma read_data_at0 file pos x l c old : view file pos (x :: l) c ->
  read_record_data (at_pos file (pos + rec_hlen (f_name x))) (f_info pos x) old 0
  = (Ok (f_data x), at_pos file (pos + f_size x)).
Proof.
  intros V. pose proof (view_pos _ _ _ _ V) as Hp. inversion V as [| |pre x0 rest l0 c0 Hx E V']; subst.
  pose proof (f_size_pos x Hx) as Hsz. destruct Hx as (_ & Hd & _ & Hn & _). pose proof (rec_hlen_range _ Hn) as [Hh _].
  unfold read_record_data. rewrite s_open_at, s_good_at. cbn [negb f_info ri_start ri_hlen ri_dlen ri_end]. cbv zeta.
  rewrite s_seek_at by lia. rewrite s_good_at. cbn [negb].
  assert (L : Zlen pre + rec_hlen (f_name x) = Zlen (pre ++ f_hdr x)) by (rewrite Zlen_app; unfold f_hdr; rewrite rec_hdr_len; reflexivity).
  replace (pre ++ f_core x ++ rest) with ((pre ++ f_hdr x) ++ f_data x ++ rest) by (unfold f_core; rewrite <- !app_assoc; reflexivity).
  rewrite L. unfold f_dlen. rewrite s_read_ok. rewrite s_good_at. cbn [negb]. rewrite s_seek_at by lia. rewrite s_good_at. cbn [negb].
  f_equal. f_equal. apply (put_all (fun _ => None)). pose proof (resize_length old (0 + Zlen (f_data x)) ltac:(pose proof (Zlen_nonneg (f_data x)); lia)) as R. unfold Zlen in *. lia.
Qed.

Section Codec.
Context (comp : Z -> bytes -> bytes) (uncomp : bytes -> option bytes).

(** a record in the file with its contents *)
Definition is_rec (x : frec) (r : drec) (part : bytes * Z) : Prop :=
  f_ok x /\ f_name x = d_name r /\ fst part = f_bytes x /\ snd part = f_dlen x /\ f_opts x = (if d_level r =? 0 then 0 else 1) /\
  f_ulen x = data_size (d_blocks r) /\ Forall block_fits (d_blocks r) /\
  exists rh, holds uncomp x (blocks_bytes rh (d_blocks r)).

Lemma rec_stored x r part : is_rec x r part -> stored uncomp r part.
Proof.
  intros (Hok & Hn & Hp & Hd & Ho & Hu & Hf & rh & Hh). assert (Hok' := Hok). destruct Hok' as (_ & _ & _ & Hl & _).
  pose proof (record_head_ok _ Hl) as Hrh. rewrite Hn in Hrh, Hl. pose proof (f_pad_range x) as Hpad. pose proof (blocks_fits_ok _ Hf) as Hbok.
  exists (f_pad x). split; [lia|]. rewrite Hp, Hd, Hrh, f_bytes_len. split; [unfold f_size; rewrite Hn; reflexivity|].
  unfold holds in Hh. split.
  - intros Hz. rewrite Hz in Ho. cbn in Ho. unfold f_pad, rec_pad. rewrite Ho in *. change (is_compressed 0) with false in *. cbn iota in Hh.
    split; [|reflexivity]. unfold f_dlen. rewrite Hh, (data_size_ok rh) by exact Hbok. reflexivity.
  - intros Hz. apply Z.eqb_neq in Hz. rewrite Hz in Ho. rewrite Ho in Hh. change (is_compressed 1) with true in Hh. cbn iota in Hh.
    destruct Hh as [Hu1 _]. exists (blocks_bytes rh (d_blocks r)). split; [|symmetry; apply data_size_ok; exact Hbok].
    rewrite <- Hu1. f_equal. unfold f_bytes, f_core. rewrite <- app_assoc. rewrite <- Hn, <- (rec_hdr_len (f_opts x) (f_dlen x) (f_ulen x) (f_name x)).
    fold (f_hdr x). replace (f_hdr x ++ f_data x ++ zeros (Z.to_nat (f_pad x))) with ([] ++ f_hdr x ++ f_data x ++ zeros (Z.to_nat (f_pad x))) by reflexivity.
    rewrite app_assoc. rewrite <- (app_nil_l (f_hdr x)) at 2. apply sub_mid. reflexivity.
Qed.

Lemma written rs : codec_ok comp uncomp -> Forall drec_ok rs -> forall buf, usable buf ->
  exists l parts, write_drecs comp buf rs = Ok (map fst parts) /\ length parts = length rs /\
    Forall2 (fun x rp => is_rec x (fst rp) (snd rp)) l (combine rs parts) /\ concat (map fst parts) = ftext l.
Proof.
  intros HC. induction 1 as [|r rs (Hname & Hbok & Hnd & Hsz) Hrs IH]; intros buf Hu.
  - exists [], []. repeat split; constructor.
  - destruct Hu as [Hv Hne]. pose proof (valid_name_small _ Hname) as Hl. pose proof (rec_hlen_range _ Hl) as [Hh _].
    assert (Hbk : Forall block_ok (d_blocks r)).
    { eapply Forall_impl; [|exact Hbok]. intros b (A & B & _). split; [|exact A]. unfold small, two32. lia. }
    assert (Hds : data_size (d_blocks r) = Zlen (render0 (blocks_calls (d_blocks r)))).
    { rewrite (data_size_ok (rho_of [])) by exact Hbk. apply blocks_bytes_len. }
    rewrite (record_head_ok _ Hl), Hds in Hsz.
    assert (Hrs' : record_size (d_name r) (d_blocks r) < two32) by (destruct Hsz as [A _]; unfold record_size; lia).
    assert (Hfits : Forall block_fits (d_blocks r)) by (apply blocks_ok_fits; [exact Hbok|unfold record_size in Hrs'; lia]).
    destruct (write_record_bytes (d_name r) buf (d_blocks r) 0 Hname Hv Hne Hbk Hnd Hrs') as [He _].
    set (rh := rho_of (record_calls (d_name r) (set_compression 0 false) (d_blocks r))) in *.
    rewrite record_render in He. unfold rec_bytes in He. 
    assert (Hlen := blocks_bytes_len rh (d_blocks r)).
    destruct (encode_spec comp uncomp (d_level r) (d_name r) (blocks_bytes rh (d_blocks r)) HC Hl) as (En & Fok & Fh & Fn).
    { rewrite blocks_bytes_len. apply render0_mod4, blocks_calls_ok. exact Hbk. }
    { rewrite Hlen. exact Hsz. }
    change (set_compression 0 false) with 0 in He.
    set (d := blocks_bytes rh (d_blocks r)) in *.
    destruct (IH (mkBuffer (rec_hdr 0 (Zlen d) (Zlen d) (d_name r) ++ d) true)) as (l & parts & Hw & Hlp & HF & Hc).
    { split; [reflexivity|]. cbn [b_bytes]. intros E. apply (f_equal Zlen) in E. rewrite Zlen_app, rec_hdr_len in E. change (Zlen []) with 0 in E. pose proof (Zlen_nonneg d). lia. }
    set (x := frec_of comp (d_level r) (d_name r) d) in *.
    exists (x :: l), ((f_bytes x, f_dlen x) :: parts). cbn [write_drecs].
    rewrite He. cbn [bind]. rewrite <- Hlen, En. cbn [bind]. rewrite Hw. cbn [bind map fst length combine concat].
    split; [reflexivity|]. split; [congruence|]. split; [|rewrite Hc; reflexivity].
    constructor; [|exact HF]. cbn [fst snd]. split; [exact Fok|]. split; [exact Fn|]. split; [reflexivity|]. split; [reflexivity|].
    split; [unfold x, frec_of; destruct (d_level r =? 0); reflexivity|].
    split; [unfold x, frec_of; destruct (d_level r =? 0); cbn [f_ulen]; rewrite Hds, <- Hlen; reflexivity|].
    split; [exact Hfits|]. exists rh. exact Fh.
Qed.

(** ** The loop *)

Lemma record_line_ok x r part pos : is_rec x r part -> record_line (f_info pos x) = expected_record (pos, (r, part)).
Proof.
  intros (Hok & Hn & Hp & Hd & Ho & Hu & Hf & _). destruct Hok as (_ & _ & _ & Hl & _). destruct part as [b dl]. cbn [fst snd] in *.
  unfold record_line, expected_record, f_info. cbn [ri_name ri_start ri_end ri_options ri_hlen ri_dlen ri_ulen].
  rewrite Hn in *. rewrite Hp, Hd, f_bytes_len, Ho, Hu, record_head_ok by exact Hl. reflexivity.
Qed.

Lemma blocks_ok_dump x r part pos old : is_rec x r part ->
  exists infos old', dump_blocks uncomp (f_info pos x) (f_data x) old = Ok (infos, old') /\ map block_line infos = expected_blocks 0 (d_blocks r).
Proof.
  intros (Hok & Hn & Hp & Hd & Ho & Hu & Hf & rh & Hh). unfold dump_blocks. cbn [f_info ri_options ri_dlen ri_ulen].
  destruct (expected_infos rh (d_blocks r) Hf (S (length (blocks_bytes rh (d_blocks r)))) [] (Nat.lt_succ_diag_r _)) as (infos & Hi & Hm).
  cbn [app] in Hi. change (Zlen []) with 0 in Hi, Hm. unfold holds in Hh.
  destruct (is_compressed (f_opts x)).
  - destruct Hh as [H1 H2]. unfold uncompress. rewrite H1, H2, Z.ltb_irrefl. cbn [bind].
    rewrite (put_all uncomp). 2:{ pose proof (resize_length old (Zlen (blocks_bytes rh (d_blocks r))) (Zlen_nonneg _)). unfold Zlen in *. lia. }
    unfold read_block_infos. rewrite Hi. cbn [bind]. exists infos. eexists. split; [reflexivity|exact Hm].
  - rewrite Hh in *. unfold f_dlen. rewrite Hh. unfold span. rewrite Z.ltb_irrefl by lia.
    replace (Zlen (blocks_bytes rh (d_blocks r)) <? 0 + Zlen (blocks_bytes rh (d_blocks r))) with false by lia.
    cbn [bind]. unfold sub. cbn [Z.to_nat skipn]. rewrite firstn_all2 by (unfold Zlen; lia).
    unfold read_block_infos. rewrite Hi. cbn [bind]. exists infos. eexists. split; [reflexivity|exact Hm].
Qed.

Lemma info_at_end file pos info : view file pos [] true -> exists s', read_record_info (at_pos file pos) info = (Throw EEof, s').
Proof.
  intros V. inversion V as [p Hl Hp| |]; subst. exists (mkIfs file pos true true true).
  unfold read_record_info. rewrite s_open_at. cbn [negb]. rewrite s_good_at. cbn [negb]. cbv zeta.
  rewrite s_read_short by lia. replace (Z.max 0 (Zlen file - pos)) with 0 by lia. cbn [s_eof]. rewrite Z.add_0_r. reflexivity.
Qed.

Lemma loop_ok count detailed l rps : Forall2 (fun x rp => is_rec x (fst rp) (snd rp)) l rps ->
  forall fuel n pos file info rec old, (length l < fuel)%nat -> view file pos l true ->
  0 <= n -> n + Z.of_nat (length l) < two32 ->
  exists r, dump_loop uncomp fuel count detailed n (at_pos file pos) info rec old
    = (flat_map (expected_lines detailed) (firstn (Z.to_nat (count - n)) (placed pos rps)), r) /\ until_eof r = Ok tt.
Proof.
  induction 1 as [|x rp l rps Hx HF IH]; intros fuel n pos file info rec old Hfu V Hn Hlen; (destruct fuel as [|f]; [lia|]); cbn [dump_loop].
  - cbn [placed]. rewrite firstn_nil. cbn [flat_map]. destruct (count <=? n); [eexists; split; reflexivity|].
    destruct (info_at_end file pos info V) as (s' & ->). eexists. split; reflexivity.
  - destruct rp as [r part]. cbn [fst snd] in Hx. cbn [placed fst snd]. cbn [length] in Hfu, Hlen.
    destruct (Z.leb_spec count n) as [Hc|Hc].
    { replace (Z.to_nat (count - n)) with 0%nat by lia. eexists. split; reflexivity. }
    rewrite (read_info_step _ _ _ _ _ _ V). destruct (view_tail _ _ _ _ _ V) as [V' Hxok]. pose proof (view_pos _ _ _ _ V) as Hp.
    pose proof (f_size_pos x Hxok) as Hsz.
    replace (Z.to_nat (count - n)) with (S (Z.to_nat (count - (n + 1)))) by lia. cbn [firstn flat_map].
    assert (Hpart : Zlen (fst part) = f_size x) by (destruct Hx as (_ & _ & -> & _); apply f_bytes_len). rewrite Hpart.
    assert (Hu : u32 (n + 1) = n + 1) by (unfold u32; apply Z.mod_small; unfold two32 in *; lia). rewrite Hu.
    cbn [f_info ri_end]. unfold expected_lines at 1. rewrite <- (record_line_ok x r part pos Hx). destruct detailed.
    + rewrite (read_data_at0 _ _ _ _ _ rec V). rewrite s_seek_at by lia.
      destruct (blocks_ok_dump x r part pos old Hx) as (infos & old' & -> & Hm). cbn [fst snd]. rewrite <- Hm.
      destruct (IH f (n + 1) (pos + f_size x) file (f_hdr x) (f_data x) old' ltac:(lia) V' ltac:(lia) ltac:(lia)) as (r' & Er & Hr).
      rewrite Er. exists r'. split; [|exact Hr]. f_equal. cbn [app]. rewrite <- app_assoc. reflexivity.
    + rewrite s_seek_at by lia.
      destruct (IH f (n + 1) (pos + f_size x) file (f_hdr x) rec old ltac:(lia) V' ltac:(lia) ltac:(lia)) as (r' & Er & Hr).
      rewrite Er. exists r'. split; [|exact Hr]. reflexivity.
Qed.

(** ** Skipping records *)

Lemma skip_ok n l rps : Forall2 (fun x rp => is_rec x (fst rp) (snd rp)) l rps -> forall fuel k pos file buf,
  view file pos l true -> 0 <= k < n -> (length l < fuel)%nat ->
  exists st s', skip_records fuel (fun c _ => (c + 1 <? n, c + 1)) k (at_pos file pos) buf
    = ((if Z.of_nat (length l) <? n - k then Throw EEof else Ok tt), st, s') /\
    (n - k <= Z.of_nat (length l) -> exists pos' l' rps', s' = at_pos file pos' /\ view file pos' l' true /\
       Forall2 (fun x rp => is_rec x (fst rp) (snd rp)) l' rps' /\ (length l' <= length l)%nat /\
       placed pos' rps' = skipn (Z.to_nat (n - k)) (placed pos rps)).
Proof.
  induction 1 as [|x rp l rps Hx HF IH]; intros fuel k pos file buf V Hk Hfu; (destruct fuel as [|f]; [lia|]).
  - destruct (skip_done uncomp (fun (c : Z) (_ : record_info) => (c + 1 <? n, c + 1)) f k file pos buf V) as (s' & E & _).
    exists k, s'. rewrite E. cbn [length]. replace (Z.of_nat 0 <? n - k) with true by lia. split; [reflexivity|]. cbn [Z.of_nat]. lia.
  - rewrite (skip_step uncomp _ _ _ _ _ _ _ _ _ V). cbn iota beta. destruct (view_tail _ _ _ _ _ V) as [V' _].
    destruct rp as [r part]. cbn [fst snd] in Hx.
    assert (Hpart : Zlen (fst part) = f_size x) by (destruct Hx as (_ & _ & -> & _); apply f_bytes_len).
    cbn [length] in *. destruct (Z.ltb_spec (k + 1) n) as [Hl|Hl].
    + destruct (IH f (k + 1) (pos + f_size x) file (f_hdr x) V' ltac:(lia) ltac:(lia)) as (st & s' & E & Hs).
      exists st, s'. rewrite E. replace (Z.of_nat (S (length l)) <? n - k) with (Z.of_nat (length l) <? n - (k + 1)) by lia.
      split; [reflexivity|]. intros Hle. destruct (Hs ltac:(lia)) as (pos' & l' & rps' & A & B & C & D & F).
      exists pos', l', rps'. split; [exact A|]. split; [exact B|]. split; [exact C|]. split; [lia|].
      rewrite F. replace (Z.to_nat (n - k)) with (S (Z.to_nat (n - (k + 1)))) by lia. cbn [placed skipn fst snd]. rewrite Hpart. reflexivity.
    + exists (k + 1), (at_pos file (pos + f_size x)). replace (Z.of_nat (S (length l)) <? n - k) with false by lia. split; [reflexivity|].
      intros _. exists (pos + f_size x), l, rps. split; [reflexivity|]. split; [exact V'|]. split; [exact HF|]. split; [lia|].
      replace (n - k) with 1 by lia. cbn [placed skipn fst snd Z.to_nat Pos.to_nat]. change (Pos.to_nat 1) with 1%nat. cbn [skipn]. rewrite Hpart. reflexivity.
Qed.

Lemma placed_len pos rps : length (placed pos rps) = length rps.
Proof. revert pos. induction rps as [|x rps IH]; intros pos; [reflexivity|]. cbn [placed length]. rewrite IH. reflexivity. Qed.

Theorem listing rs : codec_ok comp uncomp -> Forall drec_ok rs -> Zlen rs < two32 ->
  forall buf skip count detailed, usable buf -> 0 <= skip ->
  exists parts, write_drecs comp buf rs = Ok (map fst parts) /\ Forall2 (stored uncomp) rs parts /\
    dump_records uncomp (open_ifs (concat (map fst parts))) skip count detailed = (expected detailed skip count rs parts, Ok tt).
Proof.
  intros HC Hrs Hlen buf skip count detailed Hu Hskip.
  destruct (written rs HC Hrs buf Hu) as (l & parts & Hw & Hlp & HF & Hc). exists parts. split; [exact Hw|]. split.
  { clear - HF Hlp. revert l parts HF Hlp. induction rs as [|r rs IH]; intros l parts HF Hlp; destruct parts as [|p parts]; try discriminate Hlp; [constructor|].
    cbn [combine] in HF. inversion HF as [|x ? l' ? Hx HF' Ex Ey]; subst. constructor; [exact (rec_stored _ _ _ Hx)|]. cbn [length] in Hlp. eapply IH; [exact HF'|congruence]. }
  rewrite Hc. assert (Hok : Forall f_ok l).
  { clear - HF. induction HF as [|x rp l rps Hx HF IH]; constructor; [apply Hx|exact IH]. }
  pose proof (view_records l [] Hok) as V. cbn [app] in V. change (Zlen []) with 0 in V.
  assert (Hll : length l = length rs).
  { apply Forall2_len in HF. rewrite combine_length in HF. lia. }
  pose proof (view_length _ _ _ _ V) as Hvl. rewrite Z.sub_0_r in Hvl.
  change (open_ifs (ftext l)) with (at_pos (ftext l) 0). unfold dump_records, expected, Zlen at 1. unfold Zlen in Hlen.
  destruct (Z.ltb_spec 0 skip) as [Hs|Hs].
  - unfold skip_n_records.
    destruct (skip_ok skip l (combine rs parts) HF (stream_fuel (at_pos (ftext l) 0) + Z.to_nat skip) 0 0 (ftext l) skip_buf V ltac:(lia)) as (st & s' & E & Hs').
    { unfold stream_fuel. cbn [at_pos s_data]. unfold Zlen in Hvl. lia. }
    rewrite E. rewrite Z.sub_0_r in *. rewrite Hll in *. destruct (Z.ltb_spec (Z.of_nat (length rs)) skip) as [Hlt|Hge]; [reflexivity|].
    destruct (Hs' ltac:(lia)) as (pos' & l' & rps' & -> & V' & HF' & Hle & Hpl).
    destruct (loop_ok count detailed l' rps' HF' (stream_fuel (at_pos (ftext l) pos')) 0 pos' (ftext l) skip_buf dump_buf dump_buf) as (r & Er & Hr); try assumption; try lia.
    { unfold stream_fuel. cbn [at_pos s_data]. unfold Zlen in Hvl. lia. }
    rewrite Er, Hr, Hpl, Z.sub_0_r. reflexivity.
  - assert (skip = 0) by lia. subst skip. replace (Z.of_nat (length rs) <? 0) with false by lia.
    destruct (loop_ok count detailed l (combine rs parts) HF (stream_fuel (at_pos (ftext l) 0)) 0 0 (ftext l) skip_buf dump_buf dump_buf) as (r & Er & Hr); try assumption; try lia.
    { unfold stream_fuel. cbn [at_pos s_data]. unfold Zlen in Hvl. lia. }
    rewrite Er, Hr, Z.sub_0_r. reflexivity.
Qed.
End Codec.
