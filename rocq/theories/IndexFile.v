(** * The index and the random access records in a file *)

From Coq Require Import Sorted.
From Verif Require Import Bytes StrMap SioModel SioProofs SioRecord SioRead SioFrame SioSpec Ieee ObjModel ObjSpec ObjProofs ObjCalls CollSpec
  EventModel EventSpec EventProofs IndexModel IndexSpec IndexProofs FileModel FileFrame.

(** ** The two kinds of records *)

Definition plain (x : frec) : Prop := f_ok x /\ is_compressed (f_opts x) = false.

Definition is_access (x : frec) (a : racc) : Prop :=
  plain x /\ f_name x = access_record /\ f_size x = access_size /\
  forall next, read_blocks (f_data x) [mkRB access_record read_racc] next = Ok ([(access_record, a)], [], next).
Definition is_index (x : frec) (l : list (runevt * Z)) : Prop :=
  plain x /\ f_name x = index_record /\
  forall m next, read_blocks (f_data x) [mkRB index_record (read_index m)] next
    = Ok ([(index_record, fold_left (fun m e => rm_add m (fst e) (snd e)) l m)], [], next).

(** the record [x] is at position [pos] of the file *)
Definition rec_at (file : bytes) (pos : Z) (x : frec) : Prop :=
  exists pre rest, file = pre ++ f_bytes x ++ rest /\ Zlen pre = pos.

Lemma rec_at_app file pos x more : rec_at file pos x -> rec_at (file ++ more) pos x.
Proof. intros (pre & rest & -> & H). exists pre, (rest ++ more). rewrite <- !app_assoc. auto. Qed.
Lemma rec_at_pre pre0 file pos x : rec_at file pos x -> rec_at (pre0 ++ file) (Zlen pre0 + pos) x.
Proof. intros (pre & rest & -> & H). exists (pre0 ++ pre), rest. rewrite <- !app_assoc, Zlen_app. split; [reflexivity|lia]. Qed.
Lemma rec_at_range file pos x : f_ok x -> rec_at file pos x -> 0 <= pos /\ pos + 24 <= Zlen file /\ pos + f_size x <= Zlen file.
Proof.
  intros Hx (pre & rest & -> & H). rewrite !Zlen_app, f_bytes_len. pose proof (f_size_pos x Hx).
  pose proof (Zlen_nonneg pre). pose proof (Zlen_nonneg rest). lia.
Qed.

Lemma read_at file pos x buf : f_ok x -> rec_at file pos x ->
  read_record (at_pos file pos) buf = (Ok (f_info pos x, f_core x), at_pos file (pos + f_size x)).
Proof.
  intros Hx (pre & rest & -> & <-). unfold f_bytes. rewrite <- app_assoc.
  pose proof (read_record_spec pre (f_opts x) (f_dlen x) (f_ulen x) (f_name x) (f_data x) (zeros (Z.to_nat (f_pad x)) ++ rest) buf Hx eq_refl) as E.
  cbv zeta in E. unfold f_info, f_size, f_core, f_hdr, f_pad in *. rewrite !Z.add_assoc. exact E.
Qed.

Lemma span_data x : f_ok x -> span (f_core x) (rec_hlen (f_name x)) (f_dlen x) = Ok (f_data x).
Proof.
  intros Hx. pose proof (f_core_len x) as L.
  unfold span. replace (_ <? _) with false by lia. f_equal. unfold f_core.
  pose proof (rec_hdr_len (f_opts x) (f_dlen x) (f_ulen x) (f_name x)) as Hl. fold (f_hdr x) in Hl. rewrite <- Hl.
  replace (f_hdr x ++ f_data x) with (f_hdr x ++ f_data x ++ []) by (rewrite app_nil_r; reflexivity). apply sub_mid. reflexivity.
Qed.

(** ** Positioning *)

Definition usable_stream (s : ifs) : Prop := s_open s = true /\ s_fail s = false.

Lemma seek_ok s p : usable_stream s -> 0 <= p -> seek_stream s p = (Ok tt, at_pos (s_data s) p).
Proof.
  intros [Ho Hf] Hp. unfold seek_stream. rewrite Ho. cbn [negb]. replace (p <? 0) with false by lia.
  destruct s as [d q o e f]. cbn in Ho, Hf. subst o f. unfold s_seek. cbn [s_open s_fail s_data s_pos s_eof].
  replace (p <? 0) with false by lia. reflexivity.
Qed.
Lemma seek_back s n : usable_stream s -> 0 < n <= Zlen (s_data s) -> seek_stream s (- n) = (Ok tt, at_pos (s_data s) (Zlen (s_data s) - n)).
Proof.
  intros [Ho Hf] Hp. unfold seek_stream. rewrite Ho. cbn [negb]. replace (- n <? 0) with true by lia.
  destruct s as [d q o e f]. cbn in Ho, Hf. subst o f. unfold s_seek, s_tell_end. cbn [s_open s_fail s_data s_pos s_eof].
  cbn [s_data] in Hp. replace (Zlen d <? 0) with false by lia. cbn [s_fail s_data]. rewrite Z.opp_involutive.
  replace (Zlen d <? n) with false by lia. replace (Zlen d + - n <? 0) with false by lia.
  unfold s_good. cbn [s_open s_fail s_data s_pos s_eof negb andb]. unfold at_pos. reflexivity.
Qed.
Lemma usable_at file p : usable_stream (at_pos file p). Proof. split; reflexivity. Qed.

Lemma try_at file pos x g : f_ok x -> rec_at file pos x ->
  try_record (at_pos file pos) g = (Ok (Some (f_info pos x, f_core x)), at_pos file (pos + f_size x), mg_setraw g (f_core x)).
Proof. intros Hx Ha. unfold try_record. rewrite (read_at file pos x _ Hx Ha). reflexivity. Qed.

Lemma access_here file pos x a g : is_access x a -> rec_at file pos x ->
  read_access (at_pos file pos) g
  = (Ok true, at_pos file (pos + access_size), mkMgr (mg_map g) (mg_list g ++ [a]) (mg_file g) (mkBuffer (f_core x) true)).
Proof.
  intros ((Hx & Hc) & Hn & Hs & Hr) Ha. unfold read_access. rewrite (try_at file pos x g Hx Ha). cbn [f_info ri_name ri_hlen ri_dlen].
  replace (bytes_eqb (f_name x) access_record) with true by (rewrite Hn; reflexivity). cbn [negb].
  rewrite (span_data x Hx). cbn [bind]. rewrite Hr, Hs. reflexivity.
Qed.
Lemma access_at s pos x a g : usable_stream s -> is_access x a -> rec_at (s_data s) pos x ->
  at_position pos read_access s g
  = (Ok true, at_pos (s_data s) (pos + access_size), mkMgr (mg_map g) (mg_list g ++ [a]) (mg_file g) (mkBuffer (f_core x) true)).
Proof.
  intros Hs Hx Ha. unfold at_position. rewrite seek_ok; [|exact Hs|apply (rec_at_range _ _ _ (proj1 (proj1 Hx)) Ha)].
  apply access_here; assumption.
Qed.
Lemma access_at_end s body x a g : usable_stream s -> is_access x a -> s_data s = body ++ f_bytes x ->
  at_position (- access_size) read_access s g
  = (Ok true, at_pos (s_data s) (Zlen (s_data s)), mkMgr (mg_map g) (mg_list g ++ [a]) (mg_file g) (mkBuffer (f_core x) true)).
Proof.
  intros Hs Hx Hd. pose proof Hx as (_ & _ & Hsz & _).
  assert (Hl : Zlen (s_data s) = Zlen body + access_size) by (rewrite Hd, Zlen_app, f_bytes_len, Hsz; reflexivity).
  pose proof (Zlen_nonneg body) as Hb. unfold at_position. rewrite seek_back; [|exact Hs|unfold access_size in *; lia].
  rewrite (access_here _ _ x a g Hx).
  - rewrite Z.sub_add. reflexivity.
  - exists body, []. rewrite app_nil_r. split; [exact Hd|lia].
Qed.

Lemma mg_last_app m l a f b : mg_last (mkMgr m (l ++ [a]) f b) = Some a.
Proof. unfold mg_last. cbn [mg_list]. rewrite map_app. cbn [map]. apply last_last. Qed.

Section Codec.
Context (uncomp : bytes -> option bytes).

Lemma index_at s pos x l g : usable_stream s -> is_index x l -> rec_at (s_data s) pos x ->
  at_position pos (read_index_record uncomp) s g
  = (Ok true, at_pos (s_data s) (pos + f_size x),
     mkMgr (fold_left (fun m e => rm_add m (fst e) (snd e)) l (mg_map g)) (mg_list g) (mg_file g) (mkBuffer (f_core x) true)).
Proof.
  intros Hs ((Hx & Hc) & Hn & Hr) Ha. unfold at_position. rewrite seek_ok; [|exact Hs|apply (rec_at_range _ _ _ Hx Ha)].
  unfold read_index_record. rewrite (try_at _ pos x g Hx Ha). cbn [f_info ri_name ri_hlen ri_dlen].
  replace (bytes_eqb (f_name x) index_record) with true by (rewrite Hn; reflexivity). cbn [negb].
  unfold unpacked, f_info. cbn [ri_hlen ri_dlen ri_options]. rewrite (span_data x Hx). cbn [bind]. rewrite Hc. cbn [bind mg_setraw mg_map]. rewrite Hr. reflexivity.
Qed.

(** ** The chain of random access records *)

(** [chain file pos c]: the random access record at [pos] belongs to the index entries [hd c], and
    so on towards the beginning of the file *)
Inductive chain (file : bytes) : Z -> list (list (runevt * Z)) -> Prop :=
| C_nil : chain file 0 []
| C_cons pos x a y l c : 0 < pos -> rec_at file pos x -> is_access x a -> rec_at file (ra_index a) y -> is_index y l ->
    ra_prev a < pos -> chain file (ra_prev a) c -> chain file pos (l :: c).

Lemma chain_app file pos c more : chain file pos c -> chain (file ++ more) pos c.
Proof. induction 1 as [|pos x a y l c H1 H2 H3 H4 H5 H6 H7 IH]; [constructor|]. econstructor; try eassumption; apply rec_at_app; assumption. Qed.
Lemma chain_len file pos c : chain file pos c -> Z.of_nat (length c) <= pos.
Proof. induction 1 as [|pos x a y l c H1 H2 H3 H4 H5 H6 H7 IH]; cbn [length]; lia. Qed.
Lemma chain_pos file pos c : chain file pos c -> pos <= Zlen file.
Proof.
  destruct 1 as [|pos x a y l c H1 H2 H3 H4 H5 H6 H7]; [apply Zlen_nonneg|].
  pose proof (rec_at_range _ _ _ (proj1 (proj1 H3)) H2). lia.
Qed.

Lemma chain_read file pos c : chain file pos c -> forall fuel s g,
  (length c <= fuel)%nat -> usable_stream s -> s_data s = file ->
  exists s' g', chain_loop uncomp fuel pos s g = (Ok tt, s', g') /\ usable_stream s' /\ s_data s' = file /\
    mg_map g' = fold_left (fun m e => rm_add m (fst e) (snd e)) (concat c) (mg_map g) /\ mg_file g' = mg_file g.
Proof.
  induction 1 as [|pos x a y l c H1 H2 H3 H4 H5 H6 H7 IH]; intros fuel s g Hf Hs Hd.
  - exists s, g. split; [destruct fuel; reflexivity|]. split; [exact Hs|]. split; [exact Hd|]. split; reflexivity.
  - cbn [length] in Hf. destruct fuel as [|fuel]; [lia|]. cbn [chain_loop]. replace (pos =? 0) with false by lia.
    rewrite <- Hd in H2, H4. rewrite (access_at s pos x a g Hs H3 H2).
    set (g1 := mkMgr (mg_map g) _ _ _). replace (mg_last g1) with (Some a)
      by (symmetry; apply mg_last_app).
    rewrite (index_at (at_pos (s_data s) (pos + access_size)) (ra_index a) y l g1 (usable_at _ _) H5 H4).
    destruct (IH fuel (at_pos (s_data s) (ra_index a + f_size y))
                (mkMgr (fold_left (fun m e => rm_add m (fst e) (snd e)) l (mg_map g1)) (mg_list g1) (mg_file g1) (mkBuffer (f_core y) true))
                ltac:(lia) (usable_at _ _) Hd) as (s' & g' & E & A & B & C & D).
    exists s', g'. split; [exact E|].
    split; [exact A|]. split; [exact B|]. cbn [concat]. rewrite fold_left_app. split; [exact C|exact D].
Qed.

(** a properly closed file: the random access record of the file at the end, behind [body] *)
Definition closed (file body : bytes) (f : racc) (c : list (list (runevt * Z))) : Prop :=
  exists x, file = body ++ f_bytes x /\ is_access x f /\ chain body (ra_next f) c /\ c <> [].

Lemma closed_len file body f c : closed file body f c -> Zlen file = Zlen body + access_size.
Proof. intros (x & -> & (_ & _ & H & _) & _). rewrite Zlen_app, f_bytes_len, H. reflexivity. Qed.

(** createEventMap of a closed file *)
Theorem create_closed file body f c s g : closed file body f c -> usable_stream s -> s_data s = file ->
  exists g', create_map uncomp s g = (Ok true, at_pos file 0, g') /\
    mg_map g' = fold_left (fun m e => rm_add m (fst e) (snd e)) (concat c) (mg_map g).
Proof.
  intros (x & Hfile & Hx & Hc & Hne) Hs Hd. unfold create_map.
  rewrite (access_at_end s body x f g Hs Hx (eq_trans Hd Hfile)). unfold take_file. cbn [mg_list mg_map mg_raw mg_file].
  rewrite removelast_last, mg_last_app.
  set (g1 := mkMgr (mg_map g) (mg_list g) (Some f) _).
  pose proof (chain_app _ _ _ (f_bytes x) Hc) as Hc'. rewrite <- Hfile, <- Hd in Hc'.
  inversion Hc' as [|pos y a z l c' H1 H2 H3 H4 H5 H6 H7]; subst; [contradiction|].
  rewrite (access_at (at_pos (s_data s) (Zlen (s_data s))) (ra_next f) y a g1 (usable_at _ _) H3 H2).
  set (g2 := mkMgr (mg_map g1) _ _ _).
  replace (mg_last g2) with (Some a) by (symmetry; apply mg_last_app).
  rewrite (index_at _ (ra_index a) z l g2 (usable_at _ _) H5 H4).
  assert (Hfu : (length c' <= stream_fuel s)%nat).
  { pose proof (chain_len _ _ _ H7). pose proof (chain_pos _ _ _ H7). unfold stream_fuel, Zlen in *. lia. }
  destruct (chain_read _ _ _ H7 (stream_fuel s) (at_pos (s_data s) (ra_index a + f_size z))
              (mkMgr (fold_left (fun m e => rm_add m (fst e) (snd e)) l (mg_map g2)) (mg_list g2) (mg_file g2) (mkBuffer (f_core z) true))
              Hfu (usable_at _ _) eq_refl) as (s' & g' & E & A & B & C & D).
  change (s_data (at_pos (s_data s) (ra_next f + access_size))) with (s_data s).
  rewrite E, (seek_ok s' 0 A), B by lia.
  exists g'. split; [rewrite Hd; reflexivity|]. cbn [concat]. rewrite fold_left_app. exact C.
Qed.

(** initAppend of a closed file: only the last random access record is read *)
Theorem append_closed file body f c s g : closed file body f c -> usable_stream s -> s_data s = file ->
  exists x a y l c' s' raw, c = l :: c' /\ rec_at body (ra_next f) x /\ is_access x a /\ rec_at body (ra_index a) y /\ is_index y l /\
    chain body (ra_prev a) c' /\
    init_append uncomp s g = (Ok true, s', mkMgr (mg_map g) (mg_list g ++ [a]) (Some f) raw) /\ b_valid raw = true /\ b_bytes raw <> [].
Proof.
  intros (x & Hfile & Hx & Hc & Hne) Hs Hd. unfold init_append.
  rewrite (access_at_end s body x f g Hs Hx (eq_trans Hd Hfile)). unfold take_file. cbn [mg_list mg_map mg_raw mg_file].
  rewrite removelast_last, mg_last_app.
  set (g1 := mkMgr (mg_map g) (mg_list g) (Some f) _).
  inversion Hc as [|pos y a z l c' H1 H2 H3 H4 H5 H6 H7]; subst; [congruence|].
  rewrite (access_at (at_pos (s_data s) (Zlen (s_data s))) (ra_next f) y a g1 (usable_at _ _) H3).
  - exists y, a, z, l, c'. do 2 eexists. split; [reflexivity|]. split; [exact H2|]. split; [exact H3|]. split; [exact H4|]. split; [exact H5|].
    split; [exact H7|]. split; [reflexivity|]. split; [reflexivity|]. cbn [b_bytes].
    intros E. pose proof (f_core_len y) as L. rewrite E in L. pose proof (rec_hlen_range (f_name y)) as R.
    pose proof H3 as ((Hy & _) & _). pose proof Hy as (_ & _ & _ & Hn & _). specialize (R Hn). pose proof (Zlen_nonneg (f_data y)).
    unfold f_dlen in L. rewrite Zlen_nil in L. lia.
  - cbn [at_pos s_data]. rewrite Hd. apply rec_at_app. exact H2.
Qed.

End Codec.

(** ** Writing records *)

(** [o] has written [bs] behind [base]; the file had [tail] there *)
Definition o_state (base tail bs : bytes) (o : ofs) : Prop :=
  o_data o = base ++ bs ++ skipn (length bs) tail /\ o_pos o = Zlen base + Zlen bs.

Lemma o_state_start base tail : o_state base tail [] (mkO (base ++ tail) (Zlen base)).
Proof. split; [reflexivity|]. cbn [o_pos]. rewrite Zlen_nil. lia. Qed.
Lemma o_state_write base tail bs o more : o_state base tail bs o -> o_state base tail (bs ++ more) (o_write o more).
Proof.
  intros [Hd Hp]. unfold o_write. split; cbn [o_data o_pos]; [|rewrite Hp, Zlen_app; lia].
  rewrite Hd, Hp. unfold put. rewrite <- Zlen_app. unfold Zlen. rewrite Nat2Z.id.
  set (L := base ++ bs). replace (base ++ bs ++ skipn (length bs) tail) with (L ++ skipn (length bs) tail) by (unfold L; rewrite app_assoc; reflexivity).
  rewrite firstn_app_exact by reflexivity. rewrite (skipn_app (length L + length more)%nat L). rewrite skipn_all2 by lia. cbn [app].
  replace (length L + length more - length L)%nat with (length more) by lia.
  rewrite skipn_skipn_add. unfold L. rewrite <- !app_assoc, !app_length. reflexivity.
Qed.
Lemma o_state_pos base tail bs o : o_state base tail bs o -> 0 <= o_pos o.
Proof. intros [_ ->]. pose proof (Zlen_nonneg base). pose proof (Zlen_nonneg bs). lia. Qed.
Lemma o_state_done base tail bs o : o_state base tail bs o -> Zlen tail <= Zlen bs -> o_data o = base ++ bs.
Proof. intros [-> _] H. rewrite skipn_all2 by (unfold Zlen in H; lia). rewrite app_nil_r. reflexivity. Qed.

Definition usable_buf (b : buffer) : Prop := b_valid b = true /\ b_bytes b <> [].

(** a record of one block, uncompressed *)
Lemma put_one name w o raw :
  valid_record_name name = true -> Zlen name <= 64 -> usable_buf raw -> all_data w ->
  record_size name [mkWB name cur_vers w] + 3 < two32 ->
  exists f raw', put_record o raw name [mkWB name cur_vers w] = Ok (o_write o (f_bytes f), raw', o_pos o) /\ usable_buf raw' /\
    plain f /\ f_name f = name /\ f_size f = record_size name [mkWB name cur_vers w] /\
    exists r, f_data f = blocks_bytes r [mkWB name cur_vers w] /\ Forall block_fits [mkWB name cur_vers w].
Proof.
  intros Hn Hl [Hv Hb] Hd Hs.
  set (b := mkWB name cur_vers w) in *.
  assert (Hok0 : blocks_ok [b]).
  { apply Forall_cons; [|apply Forall_nil]. split; [apply data_ok; exact Hd|split; [cbn; lia|]]. cbn. unfold cur_vers. vm_compute. split; congruence. }
  assert (Ht : blocks_tags [b] = []) by (unfold blocks_tags; cbn [flat_map]; rewrite app_nil_r; apply data_tags; exact Hd).
  destruct (record_written name raw [b] 0 Hn Hv Hb Hok0 ltac:(rewrite Ht; constructor) ltac:(lia)) as (r & _ & Hf & E).
  change (set_compression 0 false) with 0 in E.
  set (d := blocks_bytes r [b]) in *.
  assert (Hlen : Zlen d = Zlen (render0 (blocks_calls [b]))) by apply blocks_bytes_len.
  assert (Hok : f_ok (mkF 0 (Zlen d) name d)).
  { unfold f_ok, f_dlen, hdr_fits, is_u32. cbn [f_opts f_ulen f_name f_data]. unfold record_size in Hs. pose proof (Zlen_nonneg d).
    pose proof (rec_hlen_range name Hl). unfold two32 in *. lia. }
  assert (Hpad : f_pad (mkF 0 (Zlen d) name d) = 0) by reflexivity.
  exists (mkF 0 (Zlen d) name d). eexists. unfold put_record. rewrite E. cbn [bind b_bytes].
  split; [|split; [|split; [|split; [reflexivity|split; [|exists r; split; [reflexivity|exact Hf]]]]]].
  - do 4 f_equal. unfold stream_record, f_bytes, f_core, f_hdr, f_dlen. rewrite Hpad. cbn [f_opts f_ulen f_name f_data].
    unfold rec_bytes. fold d. cbv zeta. rewrite Zlen_app, rec_hdr_len.
    replace (rec_padlen (rec_hlen name + Zlen d)) with 0; [reflexivity|]. symmetry. apply rec_padlen_zero.
    rewrite Hlen. destruct (rec_hlen_range name Hl) as [_ Hm].
    assert (Hbk : calls_ok (blocks_calls [b])).
    { apply blocks_calls_ok. apply blocks_fits_ok. exact Hf. }
    pose proof (render0_mod4 _ Hbk). lia.
  - split; [reflexivity|]. cbn [b_bytes]. unfold rec_bytes. fold d. intros Z. apply (f_equal Zlen) in Z. cbv zeta in Z.
    rewrite Zlen_app, rec_hdr_len, Zlen_nil in Z. pose proof (rec_hlen_range name Hl). pose proof (Zlen_nonneg d). lia.
  - split; [exact Hok|reflexivity].
  - unfold f_size. rewrite Hpad. cbn [f_name f_dlen f_data]. unfold f_dlen. cbn [f_data]. rewrite Hlen. unfold record_size. lia.
Qed.
Lemma read_one {A} name (rd : Z -> RD A) w x r : Forall block_fits [mkWB name cur_vers w] ->
  (forall r st, reads (rd cur_vers) (renderR r w) st st x) ->
  forall next, read_blocks (blocks_bytes r [mkWB name cur_vers w]) [mkRB name rd] next = Ok ([(name, x)], [], next).
Proof.
  intros Hf Hr next. set (b := mkWB name cur_vers w) in *.
  apply (read_blocks_spec [mkRB name rd] r [b] next ([], next) [(name, x)]); [|exact Hf].
  eapply (BR_read _ _ b [] (mkRB name rd)); [|apply Hr|apply BR_nil]. unfold find_block. cbn [find rb_name wb_name b]. rewrite bytes_eqb_refl. reflexivity.
Qed.
Lemma put_plain {I A} name (rd : I -> Z -> RD A) w (x : I -> A) o raw :
  valid_record_name name = true -> Zlen name <= 64 -> usable_buf raw -> all_data w ->
  (forall i r st, reads (rd i cur_vers) (renderR r w) st st (x i)) ->
  record_size name [mkWB name cur_vers w] + 3 < two32 ->
  exists f raw', put_record o raw name [mkWB name cur_vers w] = Ok (o_write o (f_bytes f), raw', o_pos o) /\ usable_buf raw' /\
    plain f /\ f_name f = name /\ f_size f = record_size name [mkWB name cur_vers w] /\
    exists r, f_data f = blocks_bytes r [mkWB name cur_vers w] /\
    forall i next, read_blocks (f_data f) [mkRB name (rd i)] next = Ok ([(name, x i)], [], next).
Proof.
  intros Hn Hl Hu Hd Hr Hs. destruct (put_one name w o raw Hn Hl Hu Hd Hs) as (f & raw' & E & U & P & N & S & r & D & F).
  exists f, raw'. split; [exact E|]. split; [exact U|]. split; [exact P|]. split; [exact N|]. split; [exact S|]. exists r. split; [exact D|].
  intros i next. rewrite D. apply read_one; [exact F|apply Hr].
Qed.

(** ** The size of the index record *)

Lemma len_i32 z : Zlen (render0 (w_i32 z)) = 4. Proof. reflexivity. Qed.
Lemma len_u32 z : Zlen (render0 (w_u32 z)) = 4. Proof. reflexivity. Qed.
Lemma len_i64 z : Zlen (render0 (w_i64 z)) = 8. Proof. reflexivity. Qed.
Lemma render0_cons c cs : render0 (c :: cs) = render0_call c ++ render0 cs. Proof. reflexivity. Qed.
Lemma call_word z : Zlen (render0_call (DData (be 4 z))) = 4. Proof. reflexivity. Qed.
Lemma write_entries_len oneRun longOffset runMin base l : forall w, write_entries oneRun longOffset runMin base l = Ok w ->
  Zlen (render0 w) <= 16 * Zlen l.
Proof.
  induction l as [|e l IH]; intros w H; cbn [write_entries] in H.
  - apply Ok_inj in H. subst w. reflexivity.
  - unfold write_entry in H. destruct (if oneRun then _ else _) as [ro| |] eqn:Er; try discriminate H. cbn [bind] in H.
    destruct (long_of (snd e - base)) as [off| |]; try discriminate H. cbn [bind] in H.
    destruct (write_entries oneRun longOffset runMin base l) as [b| |] eqn:Eb; try discriminate H. cbn [bind] in H.
    apply Ok_inj in H. subst w. specialize (IH _ eq_refl). rewrite !render0_app, !Zlen_app, Zlen_cons.
    assert (H1 : Zlen (render0 ro) <= 4).
    { destruct oneRun; [apply Ok_inj in Er; subst ro; vm_compute; congruence|].
      destruct (int_of _) as [q| |]; try discriminate Er. apply Ok_inj in Er. subst ro. rewrite len_i32. lia. }
    assert (H3 : Zlen (render0 (if longOffset then w_i64 off else w_i32 (s32 off))) <= 8).
    { destruct longOffset; [rewrite len_i64|rewrite len_i32]; lia. }
    rewrite len_i32. lia.
Qed.
Lemma index_size m w : write_index m = Ok w ->
  record_size index_record [mkWB index_record cur_vers w] <= 200 + 16 * Zlen (rm_map m).
Proof.
  unfold write_index. intros H. destruct (long_of _) as [diff| |]; try discriminate H. cbn [bind] in H.
  destruct (write_entries _ _ _ _ _) as [es| |] eqn:E; try discriminate H. cbn [bind] in H. apply Ok_inj in H.
  apply write_entries_len in E. unfold record_size. unfold blocks_calls. cbn [flat_map]. rewrite app_nil_r. unfold block_calls, block_body. cbn [wb_name wb_calls wb_version app].
  rewrite !render0_cons, !Zlen_app, !call_word. change (Zlen (render0_call (DData index_record))) with 12.
  rewrite <- H. rewrite !render0_app, !Zlen_app, len_u32, len_i64, !len_i32.
  change (rec_hlen index_record) with 36. lia.
Qed.

Lemma write_entries_data oneRun longOffset runMin base l : forall w, write_entries oneRun longOffset runMin base l = Ok w -> all_data w.
Proof.
  induction l as [|e l IH]; intros w; cbn [write_entries].
  - intros H. apply Ok_inj in H. subst w. apply data_nil.
  - unfold write_entry. destruct (if oneRun then _ else _) as [ro|?|?] eqn:E1; cbn [bind]; try discriminate.
    assert (D1 : all_data ro).
    { destruct oneRun; [injection E1 as <-; apply data_nil|]. destruct (int_of _) as [o|?|?]; cbn [bind] in E1; try discriminate.
      apply Ok_inj in E1. subst ro. apply data_i32. }
    destruct (long_of _) as [off|?|?]; cbn [bind]; try discriminate.
    destruct (write_entries oneRun longOffset runMin base l) as [b|?|?] eqn:E2; cbn [bind]; try discriminate.
    intros H. apply Ok_inj in H. subst w. apply data_app; [|apply IH; reflexivity]. apply data_app; [exact D1|]. apply data_app; [apply data_i32|].
    destruct longOffset; [apply data_one, small_be; lia|apply data_i32].
Qed.
Lemma index_data m w : write_index m = Ok w -> all_data w.
Proof.
  unfold write_index. cbv zeta. destruct (long_of _) as [d|?|?]; cbn [bind]; try discriminate.
  destruct (write_entries _ _ _ _ _) as [es|?|?] eqn:E; cbn [bind]; try discriminate.
  intros H. apply Ok_inj in H. subst w. apply data_app; [apply data_u32|]. apply data_app; [apply data_i32|].
  apply data_app; [apply data_one, small_be; lia|]. apply data_app; [apply data_i32|]. eapply write_entries_data. exact E.
Qed.

(** ** Random access records that are written *)

(** what holds of all random access records that are written, apart from the size of the counters *)
Definition ra_good (a : racc) : Prop :=
  key_ok (ra_min a) /\ key_ok (ra_max a) /\ 0 <= ra_nrun a /\ 0 <= ra_nevt a /\ ra_order a = 1 /\
  (0 <= ra_index a < 2 ^ 63) /\ (0 <= ra_prev a < 2 ^ 63) /\ (0 <= ra_next a < 2 ^ 63) /\ (0 <= ra_first a < 2 ^ 63).
Definition ra_count (a : racc) : Z := ra_nrun a + ra_nevt a.

Lemma ra_good_ok a : ra_good a -> ra_count a < 2 ^ 31 -> racc_ok a.
Proof.
  intros (H1 & H2 & H3 & H4 & H5 & H6 & H7 & H8 & H9) Hc. unfold ra_count in Hc. unfold racc_ok, int32, int64.
  split; [exact H1|]. split; [exact H2|]. lia.
Qed.
Lemma merge_good f a : ra_good f -> ra_good a ->
  ra_good (merge_racc f a) /\ ra_count (merge_racc f a) = ra_count f + ra_count a /\
  ra_next (merge_racc f a) = Z.max (ra_next f) (ra_next a).
Proof.
  intros (F1 & F2 & F3 & F4 & F5 & F6 & F7 & F8 & F9) (A1 & A2 & A3 & A4 & A5 & A6 & A7 & A8 & A9).
  unfold merge_racc, ra_good, ra_count. cbn [ra_min ra_max ra_nrun ra_nevt ra_order ra_index ra_prev ra_next ra_first].
  repeat match goal with |- _ /\ _ => split end; try lia.
  - destruct (re_lt _ _); assumption.
  - destruct (_ <? _); assumption.
  - destruct (_ && _); lia.
  - destruct (_ && _); lia.
  - destruct (_ <? _); lia.
  - destruct (_ <? _); lia.
  - destruct (Z.ltb_spec (ra_next f) (ra_next a)); lia.
Qed.
Lemma new_file_good : ra_good new_file_record /\ ra_count new_file_record = 0 /\ ra_next new_file_record = 0.
Proof. split; [|split; reflexivity]. unfold ra_good. cbn. unfold key_ok, int32. cbn. lia. Qed.

Definition last_pos (g : ramgr) : Z := match mg_last g with Some l => ra_first l | None => 0 end.
Definition file_start (g : ramgr) : racc := match mg_file g with Some f => f | None => new_file_record end.

(** the manager before the random access records are written, in a new file or in a closed one *)
Definition mgr_ready (g : ramgr) (pos : Z) : Prop :=
  remap_ok (mg_map g) /\ usable_buf (mg_raw g) /\ ra_good (file_start g) /\ ra_next (file_start g) <= pos /\
  ((mg_list g = [] /\ mg_file g = None) \/
   (exists l, mg_list g = [l] /\ ra_good l /\ ra_next l = 0 /\ ra_first l < pos)).
Definition mgr_count (g : ramgr) : Z :=
  ra_count (file_start g) + fold_right (fun a n => ra_count a + n) 0 (mg_list g) + Zlen (rm_map (mg_map g)).

Lemma map_key m : remap_ok m -> key_ok (rm_min m) /\ key_ok (rm_max m).
Proof.
  intros Hm. pose proof (ro_keys m Hm) as F. unfold rm_min, rm_max. destruct (rm_map m) as [|e l] eqn:E.
  - split; vm_compute; split; split; congruence.
  - rewrite Forall_forall in F. split; [apply (F e); left; reflexivity|]. apply (F (last (e :: l) _)). apply last_in. discriminate.
Qed.

Theorem access_written_at g o base tail bs w :
  o_state base tail bs o -> mgr_ready g (o_pos o) ->
  rm_map (mg_map g) <> [] -> write_index (mg_map g) = Ok w -> Zlen (rm_map (mg_map g)) < 2 ^ 27 -> mgr_count g < 2 ^ 31 -> o_pos o < 2 ^ 62 ->
  exists ix ra fra a f g' o',
    write_access g o = Ok (g', o') /\ usable_buf (mg_raw g') /\
    o_state base tail (bs ++ f_bytes ix ++ f_bytes ra ++ f_bytes fra) o' /\
    plain ix /\ f_name ix = index_record /\ f_size ix <= 200 + 16 * Zlen (rm_map (mg_map g)) /\ (covers (rm_map (mg_map g)) -> is_index ix (rm_map (mg_map g))) /\ is_access ra a /\ is_access fra f /\
    ra_index a = o_pos o /\ ra_prev a = last_pos g /\ ra_first a = o_pos o + f_size ix /\ ra_next f = ra_first a /\
    ra_good a /\ ra_good f /\ ra_next a = 0 /\ ra_count a = Zlen (rm_map (mg_map g)) /\ ra_count f = mgr_count g.
Proof.
  intros Ho (Hm & Hraw & Hf0 & Hn0 & Hl) Hne Ew Hlen Hcnt Hpos.
  pose proof (o_state_pos _ _ _ _ Ho) as Hp0.
  assert (Hv : vec_len (rm_map (mg_map g))) by (unfold vec_len; lia).
  pose proof (index_size _ _ Ew) as Hsz.
  destruct (put_one index_record w o (mg_raw g)) as (ix & raw1 & E1 & U1 & P1 & N1 & S1 & r1 & D1 & F1);
    try assumption; try reflexivity.
  { vm_compute. congruence. } { exact (index_data _ _ Ew). } { unfold two32. lia. }
  assert (R1 : covers (rm_map (mg_map g)) -> is_index ix (rm_map (mg_map g))).
  { intros Hcov. destruct (index_roundtrip (mg_map g) Hm Hv Hcov) as (w' & Ew' & Hw & Rw). rewrite Ew in Ew'. apply Ok_inj in Ew'. subst w'.
    split; [exact P1|]. split; [exact N1|]. intros m next. rewrite D1. apply (read_one index_record (read_index m)); [exact F1|]. intros r st. apply Rw. }
  set (a := mkRA (rm_min (mg_map g)) (rm_max (mg_map g)) (rm_nrun (mg_map g)) (rm_nevt (mg_map g)) 1 (o_pos o) (last_pos g) 0 (o_pos o + f_size ix)).
  assert (Hix : 0 < f_size ix < 2 ^ 33) by (pose proof (f_size_pos ix (proj1 P1)); lia).
  destruct (map_key _ Hm) as [Hk1 Hk2].
  assert (Hlast : 0 <= last_pos g < 2 ^ 63).
  { unfold last_pos, mg_last. destruct Hl as [[-> _]|(l & -> & (_ & _ & _ & _ & _ & _ & _ & _ & H) & _)]; cbn [map last]; lia. }
  assert (Ha : ra_good a).
  { unfold ra_good, a. cbn [ra_min ra_max ra_nrun ra_nevt ra_order ra_index ra_prev ra_next ra_first]. split; [exact Hk1|]. split; [exact Hk2|].
    rewrite (ro_nrun _ Hm), (ro_nevt _ Hm). pose proof (Zlen_nonneg (negs (rm_map (mg_map g)))). pose proof (Zlen_nonneg (nons (rm_map (mg_map g)))). lia. }
  assert (Hca : ra_count a = Zlen (rm_map (mg_map g))) by (unfold ra_count, a; cbn [ra_nrun ra_nevt]; rewrite (remap_len _ Hm); reflexivity).
  assert (Hcs : 0 <= ra_count (file_start g)) by (unfold ra_count; destruct Hf0 as (_ & _ & ? & ? & _); lia).
  assert (Hcl : 0 <= fold_right (fun a n => ra_count a + n) 0 (mg_list g)).
  { destruct Hl as [[-> _]|(l & -> & (_ & _ & ? & ? & _) & _)]; cbn [fold_right]; unfold ra_count; lia. }
  assert (HA : forall a', ra_good a' -> ra_count a' < 2 ^ 31 -> forall o' raw', usable_buf raw' ->
      exists f raw'', put_record o' raw' access_record [mkWB access_record cur_vers (write_racc a')] = Ok (o_write o' (f_bytes f), raw'', o_pos o') /\
        usable_buf raw'' /\ is_access f a').
  { intros a' G C o' raw' U.
    destruct (put_plain access_record (fun _ : unit => read_racc) (write_racc a') (fun _ => a') o' raw') as (f & raw'' & E & U' & P & N & S & r & D & R); try assumption; try reflexivity.
    { vm_compute. congruence. } { apply racc_data. } { intros _ r st. apply racc_reads. apply ra_good_ok; assumption. }
    exists f, raw''. split; [exact E|]. split; [exact U'|]. split; [exact P|]. split; [exact N|]. split; [rewrite S; reflexivity|]. exact (R tt). }
  assert (Hfile : exists f, ra_good f /\ ra_count f = mgr_count g /\ ra_next f = ra_first a /\
    (let f0 := file_record (mkMgr (mg_map g) (mg_list g ++ [a]) (mg_file g) raw1) in
     mkRA (ra_min f0) (ra_max f0) (ra_nrun f0) (ra_nevt f0) (ra_order f0) (ra_index f0)
                    (if o_pos o + f_size ix <? ra_prev f0 then o_pos o + f_size ix else ra_prev f0)
                    (if ra_next f0 <? o_pos o + f_size ix then o_pos o + f_size ix else ra_next f0) (ra_first f0)) = f).
  { unfold file_record. cbn [mg_list mg_file]. fold (file_start g). set (f0 := fold_left _ _ _).
    assert (HM : ra_good f0 /\ ra_count f0 = mgr_count g /\ ra_next f0 <= o_pos o).
    { unfold f0. rewrite fold_left_app. cbn [fold_left].
      assert (HM1 : ra_good (fold_left merge_racc (mg_list g) (file_start g)) /\
        ra_count (fold_left merge_racc (mg_list g) (file_start g)) = ra_count (file_start g) + fold_right (fun a n => ra_count a + n) 0 (mg_list g) /\
        ra_next (fold_left merge_racc (mg_list g) (file_start g)) <= o_pos o).
      { destruct Hl as [[-> _]|(l & -> & Gl & Nl & _)]; cbn [fold_left fold_right]; [split; [exact Hf0|split; [lia|exact Hn0]]|].
        destruct (merge_good _ _ Hf0 Gl) as (M1 & M2 & M3). split; [exact M1|]. split; [lia|]. rewrite M3, Nl. destruct Hf0 as (_ & _ & _ & _ & _ & _ & _ & ? & _). lia. }
      destruct HM1 as (M1 & M2 & M3). destruct (merge_good _ a M1 Ha) as (K1 & K2 & K3). split; [exact K1|]. split; [rewrite K2, M2, Hca; unfold mgr_count; lia|].
      rewrite K3. cbn [a ra_next]. destruct M1 as (_ & _ & _ & _ & _ & _ & _ & ? & _). lia. }
    destruct HM as (G & C & N). eexists. split; [|split; [|split; [|reflexivity]]]; cbv zeta.
    - destruct G as (G1 & G2 & G3 & G4 & G5 & G6 & G7 & G8 & G9). unfold ra_good. cbn [ra_min ra_max ra_nrun ra_nevt ra_order ra_index ra_prev ra_next ra_first].
      split; [exact G1|]. split; [exact G2|]. repeat match goal with |- _ /\ _ => split end; try lia; destruct (_ <? _); lia.
    - exact C.
    - cbn [ra_next a ra_first]. replace (ra_next f0 <? o_pos o + f_size ix) with true by lia. reflexivity. }
  destruct Hfile as (f & Gf & Cf & Nf & Ef).
  destruct (HA a Ha ltac:(lia) (o_write o (f_bytes ix)) raw1 U1) as (ra & raw2 & E2 & U2 & A2).
  destruct (HA f Gf ltac:(lia) (o_write (o_write o (f_bytes ix)) (f_bytes ra)) raw2 U2) as (fra & raw3 & E3 & U3 & A3).
  exists ix, ra, fra, a, f. do 2 eexists. split.
  { unfold write_access. destruct (rm_map (mg_map g)) as [|e0 l0] eqn:Em; [contradiction|]. rewrite Ew. cbn [rethrow bind].
    rewrite E1. cbn [bind]. change (o_pos (o_write o (f_bytes ix))) with (o_pos o + Zlen (f_bytes ix)). rewrite f_bytes_len.
    cbn [from_map ra_min ra_max ra_nrun ra_nevt ra_order]. fold (last_pos g). fold a. rewrite E2. cbn [bind].
    cbv zeta in Ef. rewrite Ef. rewrite E3. reflexivity. }
  split; [exact U3|].
  split; [|split; [exact P1|split; [exact N1|split; [lia|split; [exact R1|repeat (split; try assumption; try reflexivity)]]]]].
  replace (bs ++ f_bytes ix ++ f_bytes ra ++ f_bytes fra) with (((bs ++ f_bytes ix) ++ f_bytes ra) ++ f_bytes fra) by (rewrite <- !app_assoc; reflexivity).
    do 3 apply o_state_write. exact Ho.
Qed.
