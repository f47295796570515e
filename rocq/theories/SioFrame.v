(** * Reading blocks and records back *)

From Verif Require Import Bytes SioModel SioProofs SioRecord SioRead.

(** ** Blocks *)

Definition block_hdr (blk : wblock) : bytes :=
  be 4 (block_len blk) ++ be 4 block_marker ++ be 4 (wb_version blk)
  ++ be 4 (Zlen (wb_name blk)) ++ padz (wb_name blk).
Definition block_bytes (r : rho) (blk : wblock) : bytes :=
  block_hdr blk ++ renderR r (wb_calls blk).

Lemma block_bytes_render r blk : renderR r (block_calls blk) = block_bytes r blk.
Proof.
  unfold block_calls, block_body, block_bytes, block_hdr. cbn [app renderR flat_map renderR_call].
  rewrite !padz_be4. fold (renderR r (wb_calls blk)). rewrite <- !app_assoc. reflexivity.
Qed.

Lemma block_bytes_len r blk : Zlen (block_bytes r blk) = block_len blk.
Proof.
  rewrite <- block_bytes_render, renderR_length. unfold block_len, block_calls.
  cbn [render0 flat_map render0_call]. rewrite padz_be4, Zlen_app, Zlen_be. reflexivity.
Qed.

Definition block_fits (blk : wblock) : Prop :=
  block_ok blk /\ block_len blk < two32 /\ is_u32 (wb_version blk).

Lemma block_hdr_len blk : Zlen (block_hdr blk) = 16 + Zlen (padz (wb_name blk)).
Proof. unfold block_hdr. rewrite !Zlen_app, !Zlen_be. lia. Qed.

Lemma block_len_split blk :
  block_len blk = Zlen (block_hdr blk) + Zlen (render0 (wb_calls blk)).
Proof.
  rewrite <- (block_bytes_len (rho_of []) blk). unfold block_bytes. rewrite Zlen_app, renderR_length. reflexivity.
Qed.

Lemma extract_block_spec r blk pre post : block_fits blk ->
  extract_block (pre ++ block_bytes r blk ++ post) (Zlen pre)
  = Ok (mkBI (Zlen pre) (Zlen pre + block_len blk) (Zlen (block_hdr blk)) (wb_version blk)
          (block_len blk - Zlen (block_hdr blk)) (wb_name blk), block_bytes r blk).
Proof.
  intros ([Hs Hc] & Hl & Hver). unfold extract_block.
  pose proof (block_bytes_len r blk) as Hbl. pose proof (block_len_split blk) as Hsp.
  pose proof (block_hdr_len blk) as Hhl.
  pose proof (Zlen_nonneg (padz (wb_name blk))) as Hp. pose proof (Zlen_nonneg (render0 (wb_calls blk))) as Hr0.
  pose proof (Zlen_nonneg pre) as Hpre. pose proof (Zlen_nonneg post) as Hpost.
  rewrite !Zlen_app, Hbl.
  destruct (Zlen pre + (block_len blk + Zlen post) <=? Zlen pre) eqn:E0; [lia|].
  cbv zeta.
  replace (sub (pre ++ block_bytes r blk ++ post) (Zlen pre) (Zlen pre + (block_len blk + Zlen post) - Zlen pre))
    with (block_bytes r blk ++ post).
  2:{ symmetry. rewrite <- (app_nil_r (block_bytes r blk ++ post)) at 1. apply sub_mid. rewrite Zlen_app. lia. }
  assert (Hname : Zlen (wb_name blk) < two32) by (unfold small in Hs; lia).
  assert (Hread : reads (let* block_len := r_u32 in
         let* marker := r_u32 in
         if negb (marker =? block_marker) then rthrow ENoMarker else
         let* version := r_u32 in
         let* name_len := r_u32 in
         let* name := r_data name_len in rret (block_len, version, name)) (block_hdr blk) ([], 1) ([], 1)
         (block_len blk, wb_version blk, wb_name blk)).
  { unfold block_hdr.
    eapply reads_bind. { apply reads_u32. unfold is_u32. lia. }
    eapply reads_bind. { apply reads_u32. unfold is_u32, block_marker, two32. lia. }
    rewrite Z.eqb_refl. cbn [negb].
    eapply reads_bind. { apply reads_u32. exact Hver. }
    eapply reads_bind. { apply reads_u32. unfold is_u32. pose proof (Zlen_nonneg (wb_name blk)). lia. }
    rewrite <- (app_nil_r (padz (wb_name blk))).
    eapply reads_bind. { apply reads_data. exact Hs. }
    apply reads_ret. }
  specialize (Hread [] (renderR r (wb_calls blk) ++ post)).
  cbn [app fst snd] in Hread. change (Zlen []) with 0 in Hread. rewrite Z.add_0_l in Hread.
  rewrite app_assoc in Hread. fold (block_bytes r blk) in Hread.
  (* the program is the same up to its last step *)
  set (d0 := mkR (block_bytes r blk ++ post) 0 [] 1) in *.
  match goal with |- match ?prog with _ => _ end = _ =>
    replace prog with (match (let* block_len := r_u32 in
         let* marker := r_u32 in
         if negb (marker =? block_marker) then rthrow ENoMarker else
         let* version := r_u32 in
         let* name_len := r_u32 in
         let* name := r_data name_len in rret (block_len, version, name)) d0 with
       | Ok ((bl, version, name), d) => 
           match r_seek bl d with
           | Ok (_, d') => Ok (mkBI (Zlen pre) (Zlen pre + bl) (u32 (r_cur d)) version
                (u32 (bl - u32 (r_cur d))) name, d')
           | Throw e => Throw e
           | UB k => UB k
           end
       | Throw e => Throw e
       | UB k => UB k
       end) end.
  2:{ unfold rbind, rthrow, rret.
      destruct (r_u32 d0) as [[bl d1]| |]; [|reflexivity|reflexivity].
      destruct (r_u32 d1) as [[mk d2]| |]; [|reflexivity|reflexivity].
      destruct (negb (mk =? block_marker)); [reflexivity|].
      destruct (r_u32 d2) as [[v d3]| |]; [|reflexivity|reflexivity].
      destruct (r_u32 d3) as [[nl d4]| |]; [|reflexivity|reflexivity].
      destruct (r_data nl d4) as [[nm d5]| |]; reflexivity. }
  rewrite Hread. unfold r_seek. cbn [r_buf r_cur r_at r_next].
  destruct (Zlen (block_bytes r blk ++ post) <? block_len blk) eqn:E1.
  { rewrite Zlen_app, Hbl in E1. lia. }
  cbn [bi_end]. rewrite !u32_id by (unfold is_u32; rewrite ?u32_id; unfold is_u32; lia).
  unfold span. rewrite !Zlen_app, Hbl.
  match goal with |- context [if ?c then _ else _] => replace c with false by lia end.
  cbn [bind]. f_equal. f_equal. apply sub_mid. lia.
Qed.

(** ** The loop over the blocks *)

Inductive blocks_read {A} (handlers : list (rblock A)) (r : rho) :
  list wblock -> rst -> rst -> list (bytes * A) -> Prop :=
| BR_nil : forall st, blocks_read handlers r [] st st []
| BR_skip : forall b bs st st' out,
    find_block (wb_name b) handlers = None ->
    blocks_read handlers r bs st st' out ->
    blocks_read handlers r (b :: bs) st st' out
| BR_read : forall b bs h st st1 st' a out,
    find_block (wb_name b) handlers = Some h ->
    reads (rb_read h (wb_version b)) (renderR r (wb_calls b)) st st1 a ->
    blocks_read handlers r bs st1 st' out ->
    blocks_read handlers r (b :: bs) st st' ((wb_name b, a) :: out).

Definition blocks_bytes (r : rho) (blks : list wblock) : bytes := flat_map (block_bytes r) blks.

Lemma blocks_bytes_render r blks : renderR r (blocks_calls blks) = blocks_bytes r blks.
Proof.
  unfold blocks_calls, blocks_bytes. rewrite renderR_flat_map.
  induction blks as [|b bs IH]; [reflexivity|]. cbn [flat_map]. rewrite block_bytes_render, IH. reflexivity.
Qed.

Lemma read_blocks_loop_spec {A} (handlers : list (rblock A)) r blks st st' out :
  blocks_read handlers r blks st st' out ->
  Forall block_fits blks ->
  forall fuel pre, (length (blocks_bytes r blks) < fuel)%nat ->
  read_blocks_loop fuel (pre ++ blocks_bytes r blks) handlers (Zlen pre) (fst st) (snd st)
  = Ok (out, fst st', snd st').
Proof.
  induction 1 as [st|b bs st st' out Hf Hbs IH|b bs h st st1 st' a out Hf Hrd Hbs IH];
    intros Hfit fuel pre Hfuel.
  - destruct fuel; [cbn in Hfuel; lia|]. cbn [read_blocks_loop blocks_bytes flat_map].
    rewrite app_nil_r, Z.leb_refl. reflexivity.
  - inversion Hfit as [|? ? Hb Hrest]; subst.
    destruct fuel; [lia|]. cbn [read_blocks_loop blocks_bytes flat_map]. fold (blocks_bytes r bs).
    pose proof (block_bytes_len r b) as Hbl. pose proof (block_len_split b) as Hsp.
    pose proof (block_hdr_len b) as Hhl.
    pose proof (Zlen_nonneg (padz (wb_name b))). pose proof (Zlen_nonneg (render0 (wb_calls b))).
    pose proof (Zlen_nonneg (blocks_bytes r bs)).
    destruct (Zlen (pre ++ block_bytes r b ++ blocks_bytes r bs) <=? Zlen pre) eqn:E0.
    { rewrite !Zlen_app, Hbl in E0. lia. }
    rewrite extract_block_spec by exact Hb. cbn [bind bi_end bi_name bi_hlen bi_version].
    destruct (Zlen pre + block_len b =? Zlen pre) eqn:E1; [lia|]. rewrite Hf.
    specialize (IH Hrest fuel (pre ++ block_bytes r b)).
    rewrite Zlen_app, Hbl, <- app_assoc in IH. apply IH.
    cbn [blocks_bytes flat_map] in Hfuel. fold (blocks_bytes r bs) in Hfuel. rewrite app_length in Hfuel.
    unfold Zlen in *. lia.
  - inversion Hfit as [|? ? Hb Hrest]; subst.
    destruct fuel; [lia|]. cbn [read_blocks_loop blocks_bytes flat_map]. fold (blocks_bytes r bs).
    pose proof (block_bytes_len r b) as Hbl. pose proof (block_len_split b) as Hsp.
    pose proof (block_hdr_len b) as Hhl.
    pose proof (Zlen_nonneg (padz (wb_name b))). pose proof (Zlen_nonneg (render0 (wb_calls b))).
    pose proof (Zlen_nonneg (blocks_bytes r bs)).
    destruct (Zlen (pre ++ block_bytes r b ++ blocks_bytes r bs) <=? Zlen pre) eqn:E0.
    { rewrite !Zlen_app, Hbl in E0. lia. }
    rewrite extract_block_spec by exact Hb. cbn [bind bi_end bi_name bi_hlen bi_version].
    destruct (Zlen pre + block_len b =? Zlen pre) eqn:E1; [lia|]. rewrite Hf.
    unfold r_seek. cbn [r_buf r_cur r_at r_next].
    destruct (Zlen (block_bytes r b) <? Zlen (block_hdr b)) eqn:E2; [lia|]. cbn [bind].
    specialize (Hrd (block_hdr b) []). rewrite app_nil_r in Hrd. fold (block_bytes r b) in Hrd.
    rewrite Hrd. cbn [rethrow bind r_at r_next].
    specialize (IH Hrest fuel (pre ++ block_bytes r b)).
    rewrite Zlen_app, Hbl, <- app_assoc in IH. rewrite IH; [reflexivity|].
    cbn [blocks_bytes flat_map] in Hfuel. fold (blocks_bytes r bs) in Hfuel. rewrite app_length in Hfuel.
    unfold Zlen in *. lia.
Qed.

Theorem read_blocks_spec {A} (handlers : list (rblock A)) r blks next st' out :
  blocks_read handlers r blks ([], next) st' out -> Forall block_fits blks ->
  read_blocks (blocks_bytes r blks) handlers next = Ok (out, fst st', snd st').
Proof.
  intros H Hfit. unfold read_blocks.
  exact (read_blocks_loop_spec handlers r blks ([], next) st' out H Hfit _ [] (Nat.lt_succ_diag_r _)).
Qed.

(** ** Records *)

Definition rec_hdr (opts dlen ulen : Z) (name : bytes) : bytes :=
  be 4 (rec_hlen name) ++ be 4 record_marker ++ be 4 opts ++ be 4 dlen ++ be 4 ulen
  ++ be 4 (Zlen name) ++ padz name.
Definition rec_bytes (r : rho) (opts : Z) (name : bytes) (blks : list wblock) : bytes :=
  let dlen := Zlen (blocks_bytes r blks) in rec_hdr opts dlen dlen name ++ blocks_bytes r blks.

Lemma record_render r name opts blks :
  renderR r (record_calls name opts blks) = rec_bytes r opts name blks.
Proof.
  unfold record_calls, rec_bytes, rec_hdr. rewrite renderR_app, <- blocks_bytes_render.
  rewrite renderR_length.
  cbn [hdr_calls renderR flat_map renderR_call]. rewrite !padz_be4, app_nil_r.
  rewrite <- !app_assoc. reflexivity.
Qed.

Lemma blocks_bytes_len r blks : Zlen (blocks_bytes r blks) = Zlen (render0 (blocks_calls blks)).
Proof. rewrite <- blocks_bytes_render. apply renderR_length. Qed.

Lemma rec_hdr_len o d u name : Zlen (rec_hdr o d u name) = rec_hlen name.
Proof. unfold rec_hdr, rec_hlen. rewrite !Zlen_app, !Zlen_be. lia. Qed.

(** *** Streams *)

Definition at_pos (data : bytes) (pos : Z) : ifs := mkIfs data pos true false false.

Lemma s_good_at d p : s_good (at_pos d p) = true.
Proof. reflexivity. Qed.
Lemma s_eof_at d p : s_eof (at_pos d p) = false.
Proof. reflexivity. Qed.

Lemma s_open_at d p : s_open (at_pos d p) = true.
Proof. reflexivity. Qed.
Lemma s_seek_at d p q : 0 <= q -> s_seek (at_pos d p) q = at_pos d q.
Proof.
  intros H. unfold s_seek, at_pos. cbn [s_fail s_data s_open].
  destruct (q <? 0) eqn:E; [lia|reflexivity].
Qed.

Lemma s_read_ok pre x post :
  s_read (at_pos (pre ++ x ++ post) (Zlen pre)) (Zlen x)
  = (x, at_pos (pre ++ x ++ post) (Zlen pre + Zlen x)).
Proof.
  unfold s_read, s_good, s_avail, at_pos. cbn [s_eof s_fail negb andb s_data s_pos s_open].
  rewrite !Zlen_app. pose proof (Zlen_nonneg post). pose proof (Zlen_nonneg x).
  replace (Zlen x <=? _) with true by lia. rewrite sub_mid by reflexivity. reflexivity.
Qed.

Lemma s_read_short data pos n : 0 <= pos -> Z.max 0 (Zlen data - pos) < n ->
  s_read (at_pos data pos) n
  = (sub data pos (Z.max 0 (Zlen data - pos)),
     mkIfs data (pos + Z.max 0 (Zlen data - pos)) true true true).
Proof.
  intros Hp H. unfold s_read, s_good, s_avail, at_pos. cbn [s_eof s_fail negb andb s_data s_pos s_open].
  replace (n <=? _) with false by lia. reflexivity.
Qed.

Lemma skipn_skipn_add {A} (l : list A) n : forall m, skipn n (skipn m l) = skipn (m + n) l.
Proof.
  induction l as [|x l IH]; intros m; [rewrite !skipn_nil; reflexivity|].
  destruct m; [reflexivity|]. cbn [skipn Nat.add]. apply IH.
Qed.

Lemma put_put_hdr B h1 h2 n :
  Zlen h1 = n -> Zlen h1 + Zlen h2 <= Zlen B ->
  put (put B 0 h1) n h2 = (h1 ++ h2) ++ skipn (length h1 + length h2) B.
Proof.
  intros Hn Hl. unfold put at 2. change (Z.to_nat 0) with 0%nat. cbn [firstn app Nat.add].
  destruct (app_cut (skipn (length h1) B) (length h2)) as (x & t & Hx & Hlx).
  { rewrite skipn_length. unfold Zlen in *. lia. }
  rewrite Hx. rewrite <- Hn. rewrite put_mid by exact Hlx. rewrite <- app_assoc. f_equal. f_equal.
  assert (Hs : skipn (length h2) (skipn (length h1) B) = t).
  { rewrite Hx. apply skipn_app_exact. lia. }
  rewrite <- Hs. rewrite skipn_skipn_add. reflexivity.
Qed.

Lemma word_at_mid a x b z pos : pos = Zlen a -> x = be 4 z -> is_u32 z -> word_at (a ++ x ++ b) pos = z.
Proof.
  intros -> -> Hz. unfold word_at. rewrite sub_mid by (rewrite Zlen_be; reflexivity).
  rewrite unbe_be. apply Z.mod_small. exact Hz.
Qed.

Definition rec_pad (opts dlen : Z) : Z := if is_compressed opts then Z.land (4 - Z.land dlen 3) 3 else 0.

Lemma rec_pad_range o d : 0 <= d -> 0 <= rec_pad o d <= 3.
Proof.
  intros Hd. unfold rec_pad. destruct (is_compressed o); [|lia].
  change 3 with (Z.ones 2). rewrite !Z.land_ones by lia. change (2 ^ 2) with 4. cbn. lia.
Qed.

Definition hdr_fits (opts dlen ulen : Z) (name : bytes) : Prop :=
  is_u32 opts /\ 0 <= dlen /\ is_u32 ulen /\ Zlen name <= 64 /\ rec_hlen name + dlen + 3 < two32.

Lemma rec_hlen_range name : Zlen name <= 64 -> 24 <= rec_hlen name <= 88 /\ rec_hlen name mod 4 = 0.
Proof.
  intros H. unfold rec_hlen.
  assert (small name) by (unfold small, two32; lia).
  rewrite Zlen_padz by assumption. unfold pad4. pose proof (Zlen_nonneg name). lia.
Qed.

Lemma read_record_info_spec pre o d u name rest outbuf :
  hdr_fits o d u name ->
  let s := at_pos (pre ++ rec_hdr o d u name ++ rest) (Zlen pre) in
  read_record_info s outbuf
  = (Ok (mkRI (Zlen pre) (Zlen pre + rec_hlen name + d + rec_pad o d) (rec_hlen name) o d u name,
         rec_hdr o d u name),
     at_pos (pre ++ rec_hdr o d u name ++ rest) (Zlen pre + rec_hlen name)).
Proof.
  intros (Ho & Hd & Hu & Hn & Hsz) s.
  destruct (rec_hlen_range name Hn) as [Hh _].
  assert (Hh32 : is_u32 (rec_hlen name)) by (unfold is_u32, two32; lia).
  assert (Hd32 : is_u32 d) by (unfold is_u32, two32 in *; lia).
  set (h1 := be 4 (rec_hlen name) ++ be 4 record_marker).
  set (h2 := be 4 o ++ be 4 d ++ be 4 u ++ be 4 (Zlen name) ++ padz name).
  assert (Hh12 : rec_hdr o d u name = h1 ++ h2).
  { unfold rec_hdr, h1, h2. rewrite <- !app_assoc. reflexivity. }
  assert (Hl1 : Zlen h1 = 8) by (unfold h1; rewrite Zlen_app, !Zlen_be; reflexivity).
  assert (Hl2 : Zlen h2 = rec_hlen name - 8).
  { pose proof (rec_hdr_len o d u name) as E. rewrite Hh12, Zlen_app in E. lia. }
  unfold read_record_info, s. cbn [s_open at_pos negb]. unfold s_good at 1.
  cbn [s_eof s_fail negb andb at_pos s_pos].
  fold (at_pos (pre ++ rec_hdr o d u name ++ rest) (Zlen pre)).
  cbv zeta.
  assert (E1 : s_read (at_pos (pre ++ rec_hdr o d u name ++ rest) (Zlen pre)) 8
     = (h1, at_pos (pre ++ rec_hdr o d u name ++ rest) (Zlen pre + 8))).
  { rewrite Hh12, <- app_assoc. rewrite <- Hl1 at 1. rewrite s_read_ok. rewrite Hl1. reflexivity. }
  rewrite E1, s_eof_at, s_good_at. cbn [negb].
  set (B := resize outbuf max_record_info_len).
  assert (HB : Zlen B = 116) by (unfold B; rewrite resize_length; unfold max_record_info_len; lia).
  assert (Hb1 : put B 0 h1 = h1 ++ skipn 8 B).
  { unfold put. change (Z.to_nat 0) with 0%nat. cbn [firstn app Nat.add]. reflexivity. }
  assert (W0h : word_at (put B 0 h1) 0 = rec_hlen name).
  { rewrite Hb1. unfold h1. rewrite <- app_assoc. apply (word_at_mid [] _ _ _ 0); [reflexivity|reflexivity|exact Hh32]. }
  assert (W4 : word_at (put B 0 h1) 4 = record_marker).
  { rewrite Hb1. unfold h1. rewrite <- app_assoc.
    apply (word_at_mid (be 4 (rec_hlen name)) _ _ _ 4); [reflexivity|reflexivity|].
    unfold is_u32, record_marker, two32. lia. }
  rewrite W0h, W4, Z.eqb_refl. cbn [negb].
  rewrite u32_id by (unfold is_u32, two32; lia). rewrite <- Hl2.
  assert (E2 : s_read (at_pos (pre ++ rec_hdr o d u name ++ rest) (Zlen pre + 8)) (Zlen h2)
     = (h2, at_pos (pre ++ rec_hdr o d u name ++ rest) (Zlen pre + rec_hlen name))).
  { rewrite Hh12. replace (pre ++ (h1 ++ h2) ++ rest) with ((pre ++ h1) ++ h2 ++ rest)
      by (rewrite <- !app_assoc; reflexivity).
    replace (Zlen pre + 8) with (Zlen (pre ++ h1)) by (rewrite Zlen_app; lia).
    rewrite s_read_ok. f_equal. f_equal. rewrite Zlen_app. lia. }
  fold (at_pos (pre ++ rec_hdr o d u name ++ rest) (Zlen pre + 8)).
  rewrite E2.
  destruct (max_record_info_len <? 8 + Zlen h2) eqn:EU; [unfold max_record_info_len in EU; lia|].
  rewrite put_put_hdr by lia. rewrite <- Hh12.
  set (T := skipn (length h1 + length h2) B).
  assert (W8 : word_at (rec_hdr o d u name ++ T) 8 = o).
  { rewrite Hh12. unfold h2. rewrite <- !app_assoc.
    exact (word_at_mid h1 (be 4 o) _ o 8 (eq_sym Hl1) eq_refl Ho). }
  assert (W12 : word_at (rec_hdr o d u name ++ T) 12 = d).
  { rewrite Hh12. unfold h2. rewrite <- !app_assoc. rewrite app_assoc.
    apply word_at_mid; [rewrite Zlen_app, Hl1; reflexivity|reflexivity|exact Hd32]. }
  assert (W16 : word_at (rec_hdr o d u name ++ T) 16 = u).
  { rewrite Hh12. unfold h2. rewrite <- !app_assoc. rewrite app_assoc, (app_assoc _ (be 4 d)).
    apply word_at_mid; [rewrite !Zlen_app, Hl1; reflexivity|reflexivity|exact Hu]. }
  assert (W20 : word_at (rec_hdr o d u name ++ T) 20 = Zlen name).
  { rewrite Hh12. unfold h2. rewrite <- !app_assoc.
    rewrite app_assoc, (app_assoc _ (be 4 d)), (app_assoc _ (be 4 u)).
    apply word_at_mid; [rewrite !Zlen_app, Hl1; reflexivity|reflexivity|].
    unfold is_u32, two32. pose proof (Zlen_nonneg name). lia. }
  rewrite W8, W12, W16, W20.
  destruct (max_record_name_len <? Zlen name) eqn:EN; [unfold max_record_name_len in EN; lia|].
  assert (Hname : sub (rec_hdr o d u name ++ T) 24 (Zlen name) = name).
  { rewrite Hh12. unfold h2, padz. rewrite <- !app_assoc.
    rewrite app_assoc, (app_assoc _ (be 4 d)), (app_assoc _ (be 4 u)), (app_assoc _ (be 4 (Zlen name))).
    match goal with |- sub (?a ++ _) _ _ = _ => replace 24 with (Zlen a) end.
    - apply sub_mid. reflexivity.
    - rewrite !Zlen_app, Hl1. reflexivity. }
  rewrite Hname.
  assert (Hres : resize (rec_hdr o d u name ++ T) (rec_hlen name) = rec_hdr o d u name).
  { pose proof (rec_hdr_len o d u name) as Hrl. rewrite resize_shrink.
    - apply firstn_app_exact. unfold Zlen in Hrl. lia.
    - rewrite Zlen_app, Hrl. pose proof (Zlen_nonneg T). lia. }
  rewrite Hres.
  rewrite (u32_id (d + rec_hlen name)) by (unfold is_u32, two32 in *; lia).
  f_equal. f_equal. f_equal. f_equal.
  pose proof (rec_pad_range o d Hd) as Hpr. unfold rec_pad in *.
  destruct (is_compressed o).
  - rewrite u32_id; [lia|]. unfold is_u32, two32 in *. lia.
  - lia.
Qed.

Lemma read_record_spec pre o d u name data rest outbuf :
  hdr_fits o d u name -> Zlen data = d ->
  let file := pre ++ (rec_hdr o d u name ++ data) ++ rest in
  read_record (at_pos file (Zlen pre)) outbuf
  = (Ok (mkRI (Zlen pre) (Zlen pre + rec_hlen name + d + rec_pad o d) (rec_hlen name) o d u name,
         rec_hdr o d u name ++ data),
     at_pos file (Zlen pre + rec_hlen name + d + rec_pad o d)).
Proof.
  intros Hf Hdl file. unfold read_record, file. rewrite <- app_assoc.
  rewrite read_record_info_spec by exact Hf.
  destruct Hf as (Ho & Hd & Hu & Hn & Hsz). destruct (rec_hlen_range name Hn) as [Hh _].
  pose proof (Zlen_nonneg pre).
  unfold read_record_data. rewrite s_open_at, s_good_at. cbn [negb ri_hlen ri_start ri_dlen ri_end].
  cbv zeta. rewrite s_seek_at by lia. rewrite s_good_at. cbn [negb].
  assert (E1 : s_read (at_pos (pre ++ rec_hdr o d u name ++ data ++ rest) (Zlen pre + rec_hlen name)) d
    = (data, at_pos (pre ++ rec_hdr o d u name ++ data ++ rest) (Zlen pre + rec_hlen name + d))).
  { rewrite app_assoc.
    replace (Zlen pre + rec_hlen name) with (Zlen (pre ++ rec_hdr o d u name))
      by (rewrite Zlen_app, rec_hdr_len; reflexivity).
    pose proof (s_read_ok (pre ++ rec_hdr o d u name) data rest) as E. rewrite Hdl in E. exact E. }
  pose proof (rec_pad_range o d Hd).
  rewrite E1. rewrite s_good_at. cbn [negb]. rewrite s_seek_at by lia. rewrite s_good_at. cbn [negb].
  f_equal. f_equal. f_equal.
  pose proof (rec_hdr_len o d u name) as Hrl.
  rewrite resize_grow by (rewrite Hrl; lia).
  replace (put (rec_hdr o d u name ++ zeros (Z.to_nat (rec_hlen name + d) - length (rec_hdr o d u name)))
     (rec_hlen name) data)
   with (put (rec_hdr o d u name ++ zeros (length data) ++ []) (Zlen (rec_hdr o d u name)) data).
  - rewrite put_mid by (rewrite zeros_length; reflexivity). rewrite app_nil_r. reflexivity.
  - rewrite app_nil_r, Hrl. f_equal. f_equal. f_equal. unfold Zlen in *. lia.
Qed.

(** *** End of file and truncated files *)

Lemma read_record_at_end data pos outbuf : Zlen data <= pos -> 0 <= pos ->
  read_record (at_pos data pos) outbuf = (Throw EEof, mkIfs data pos true true true).
Proof.
  intros H H0. unfold read_record, read_record_info. cbn [s_open at_pos negb].
  unfold s_good at 1. cbn [s_eof s_fail negb andb]. cbv zeta. fold (at_pos data pos).
  rewrite s_read_short by lia. replace (Z.max 0 (Zlen data - pos)) with 0 by lia.
  cbn [s_eof]. rewrite Z.add_0_r. reflexivity.
Qed.

(** A stream that ends inside a record: an exception, never a record. *)
Lemma read_record_truncated pre o d u name data k outbuf :
  hdr_fits o d u name -> Zlen data = d -> 0 <= k < rec_hlen name + d ->
  exists e s', read_record (at_pos (pre ++ firstn (Z.to_nat k) (rec_hdr o d u name ++ data)) (Zlen pre)) outbuf
             = (Throw e, s') /\ s_fail s' = true.
Proof.
  intros Hf Hdl Hk.
  pose proof Hf as (Ho & Hd & Hu & Hn & Hsz). destruct (rec_hlen_range name Hn) as [Hh _].
  pose proof (rec_hdr_len o d u name) as Hrl. pose proof (Zlen_nonneg pre) as Hpre.
  destruct (Z_lt_le_dec k (rec_hlen name)) as [Hk1|Hk1].
  - (* the header itself is cut *)
    rewrite firstn_app. replace (Z.to_nat k - length (rec_hdr o d u name))%nat with 0%nat
      by (unfold Zlen in Hrl; lia). cbn [firstn]. rewrite app_nil_r.
    set (h := rec_hdr o d u name) in *. set (data' := pre ++ firstn (Z.to_nat k) h).
    assert (Hdl' : Zlen data' = Zlen pre + k).
    { unfold data', Zlen in *. rewrite app_length, firstn_length. lia. }
    unfold read_record, read_record_info. cbn [s_open at_pos negb].
    unfold s_good at 1. cbn [s_eof s_fail negb andb]. cbv zeta.
    fold (at_pos data' (Zlen pre)).
    destruct (Z_lt_le_dec k 8) as [Hk8|Hk8].
    + rewrite s_read_short by lia. cbn [s_eof]. do 2 eexists. split; [reflexivity|reflexivity].
    + destruct (s_read (at_pos data' (Zlen pre)) 8) as [b1 s1] eqn:E1.
      assert (Hs : b1 = firstn 8 h /\ s1 = at_pos data' (Zlen pre + 8)).
      { unfold s_read, s_good, s_avail, at_pos in E1. cbn [s_eof s_fail negb andb s_data s_pos s_open] in E1.
        replace (8 <=? _) with true in E1 by lia. injection E1 as <- <-. split; [|reflexivity].
        unfold sub, data', Zlen. rewrite Nat2Z.id. rewrite skipn_app_exact by reflexivity.
        rewrite firstn_firstn. f_equal. lia. }
      destruct Hs as [-> ->].
      rewrite s_eof_at, s_good_at. cbn [negb].
      assert (Hh8 : firstn 8 h = be 4 (rec_hlen name) ++ be 4 record_marker).
      { unfold h, rec_hdr. rewrite app_assoc. apply firstn_app_exact. reflexivity. }
      rewrite Hh8. set (B := resize outbuf max_record_info_len).
      set (h1 := be 4 (rec_hlen name) ++ be 4 record_marker).
      assert (Hb1 : put B 0 h1 = h1 ++ skipn 8 B).
      { unfold put. change (Z.to_nat 0) with 0%nat. cbn [firstn app Nat.add]. reflexivity. }
      assert (W0h : word_at (put B 0 h1) 0 = rec_hlen name).
      { rewrite Hb1. unfold h1. rewrite <- app_assoc. apply (word_at_mid [] _ _ _ 0); [reflexivity|reflexivity|].
        unfold is_u32, two32. lia. }
      assert (W4 : word_at (put B 0 h1) 4 = record_marker).
      { rewrite Hb1. unfold h1. rewrite <- app_assoc.
        apply (word_at_mid (be 4 (rec_hlen name)) _ _ _ 4); [reflexivity|reflexivity|].
        unfold is_u32, record_marker, two32. lia. }
      rewrite W0h, W4, Z.eqb_refl. cbn [negb].
      rewrite u32_id by (unfold is_u32, two32; lia).
      fold (at_pos data' (Zlen pre + 8)).
      rewrite s_read_short by lia.
      replace (Z.max 0 (Zlen data' - (Zlen pre + 8))) with (k - 8) by lia.
      assert (Hsl : Zlen (sub data' (Zlen pre + 8) (k - 8)) = k - 8) by (apply sub_length; lia).
      destruct (max_record_info_len <? _) eqn:EU; [unfold max_record_info_len in EU; lia|].
      match goal with |- context [max_record_name_len <? ?w] => destruct (max_record_name_len <? w) end.
      * do 2 eexists. split; [reflexivity|reflexivity].
      * unfold read_record_data, s_good. cbn [s_open s_eof s_fail negb andb].
        do 2 eexists. split; [reflexivity|reflexivity].
  - (* the data is cut *)
    rewrite firstn_app. rewrite firstn_all2 by (unfold Zlen in *; lia).
    set (data' := firstn (Z.to_nat k - length (rec_hdr o d u name)) data).
    assert (Hd' : Zlen data' = k - rec_hlen name).
    { unfold data', Zlen in *. rewrite firstn_length. lia. }
    unfold read_record. rewrite (read_record_info_spec pre o d u name data' outbuf Hf).
    unfold read_record_data. rewrite s_open_at, s_good_at. cbn [negb ri_hlen ri_start ri_dlen ri_end].
    cbv zeta. rewrite s_seek_at by lia. rewrite s_good_at. cbn [negb].
    rewrite s_read_short by (rewrite ?Zlen_app, ?Hrl; lia).
    unfold s_good. cbn [s_eof s_fail negb andb]. do 2 eexists. split; [reflexivity|reflexivity].
Qed.
