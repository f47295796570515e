(** * Writing blocks and records: the bytes produced *)

From Verif Require Import Bytes SioModel SioProofs.

(** [crep d cs]: the device holds the result of the calls [cs] on an empty device. *)
Definition crep (d : wdev) (cs : list dcall) : Prop :=
  wrep d (render0 cs) /\ w_at d = ats 0 cs [] /\ w_to d = tos 0 cs [].

Lemma render0_app a b : render0 (a ++ b) = render0 a ++ render0 b.
Proof. apply flat_map_app. Qed.

Lemma ats_app a b : forall off m, ats off (a ++ b) m = ats (off + Zlen (render0 a)) b (ats off a m).
Proof.
  induction a as [|c a IH]; intros off m; cbn [app ats].
  - cbn. rewrite Z.add_0_r. reflexivity.
  - rewrite IH. cbn [render0 flat_map]. fold (render0 a). rewrite Zlen_app, Z.add_assoc. reflexivity.
Qed.
Lemma tos_app a b : forall off m, tos off (a ++ b) m = tos (off + Zlen (render0 a)) b (tos off a m).
Proof.
  induction a as [|c a IH]; intros off m; cbn [app tos].
  - cbn. rewrite Z.add_0_r. reflexivity.
  - rewrite IH. cbn [render0 flat_map]. fold (render0 a). rewrite Zlen_app, Z.add_assoc. reflexivity.
Qed.

Lemma crep_calls d cs cs' : crep d cs -> calls_ok cs' ->
  exists d', dev_calls d cs' = Ok d' /\ crep d' (cs ++ cs').
Proof.
  intros (Hw & Ha & Ht) Hok.
  destruct (dev_calls_rep cs' d (render0 cs) Hw Hok) as (d' & He & Hr & Ha' & Ht').
  exists d'. split; [exact He|]. split; [rewrite render0_app; exact Hr|].
  rewrite ats_app, tos_app, Z.add_0_l. rewrite Ha', Ht', Ha, Ht. split; reflexivity.
Qed.

Lemma crep_patch d a x b y :
  crep d (a ++ DData (be 4 x) :: b) ->
  exists d', (do d1 <- w_seek d (Zlen (render0 a)); do d2 <- w_data d1 (be 4 y); w_seek d2 (w_cur d)) = Ok d'
    /\ crep d' (a ++ DData (be 4 y) :: b).
Proof.
  intros (Hw & Ha & Ht).
  assert (Hc : w_cur d = Zlen (render0 (a ++ DData (be 4 x) :: b))).
  { destruct Hw as (_ & t & _ & Hc & _). exact Hc. }
  rewrite render0_app in Hw, Hc. cbn [render0 flat_map render0_call] in Hw, Hc.
  fold (render0 b) in Hw, Hc. fold (render0 a) in Hw, Hc. rewrite padz_be4 in Hw, Hc. rewrite Hc.
  destruct (w_patch d (render0 a) (be 4 x) (render0 b) (be 4 y) Hw) as (d' & He & Hr & Ha' & Ht');
    [reflexivity|reflexivity|apply padz_be4|].
  exists d'. split; [exact He|]. split.
  - rewrite render0_app. cbn [render0 flat_map render0_call]. fold (render0 b). rewrite padz_be4. exact Hr.
  - rewrite Ha', Ht', Ha, Ht. rewrite !ats_app, !tos_app. cbn [ats tos render0_call].
    rewrite !padz_be4. rewrite !Zlen_be. split; reflexivity.
Qed.

(** ** Blocks *)

(** The calls of a block, with the length of the block in its first word. *)
Definition block_body (blk : wblock) : list dcall :=
  [DData (be 4 block_marker); DData (be 4 (wb_version blk)); DData (be 4 (Zlen (wb_name blk)));
   DData (wb_name blk)] ++ wb_calls blk.
Definition block_len (blk : wblock) : Z := 4 + Zlen (render0 (block_body blk)).
Definition block_calls (blk : wblock) : list dcall :=
  DData (be 4 (block_len blk)) :: block_body blk.
Definition blocks_calls (blks : list wblock) : list dcall := flat_map block_calls blks.

Definition block_ok (blk : wblock) : Prop := small (wb_name blk) /\ calls_ok (wb_calls blk).

Lemma block_body_ok blk : block_ok blk -> calls_ok (block_body blk).
Proof.
  intros [H1 H2]. unfold block_body. apply Forall_app. split; [|exact H2].
  repeat constructor; try (apply small_be; lia). exact H1.
Qed.

Lemma crep_cur d cs : crep d cs -> w_cur d = Zlen (render0 cs).
Proof. intros ((_ & t & _ & H & _) & _). exact H. Qed.

Lemma write_block_crep d cs blk : crep d cs -> block_ok blk ->
  exists d', write_block d blk = Ok d' /\ crep d' (cs ++ block_calls blk).
Proof.
  intros Hc Hok. unfold write_block.
  pose proof (crep_cur _ _ Hc) as Hcur.
  destruct (crep_calls d cs (DData (be 4 block_marker) :: block_body blk) Hc) as (d1 & He & Hc1).
  { constructor; [apply small_be; lia|]. apply block_body_ok. exact Hok. }
  unfold block_body in He. cbn [app] in He |- *. rewrite He. cbn [bind].
  pose proof (crep_cur _ _ Hc1) as Hcur1.
  destruct (crep_patch d1 cs _ _ (u32 (w_cur d1 - w_cur d)) Hc1) as (d2 & He2 & Hc2).
  cbv zeta. rewrite <- Hcur in He2. rewrite He2.
  cbn [rethrow]. exists d2. split; [reflexivity|].
  unfold block_calls.
  rewrite be4_u32 in Hc2.
  replace (w_cur d1 - w_cur d) with (block_len blk) in Hc2; [exact Hc2|].
  rewrite Hcur1, Hcur. rewrite render0_app, Zlen_app. cbn [render0 flat_map render0_call].
  rewrite padz_be4, Zlen_app, Zlen_be. unfold block_len. fold (render0 (block_body blk)). lia.
Qed.

Lemma write_block_list_crep blks : forall d cs, crep d cs -> Forall block_ok blks ->
  exists d', write_block_list d blks = Ok d' /\ crep d' (cs ++ blocks_calls blks).
Proof.
  induction blks as [|b blks IH]; intros d cs Hc Hok.
  - exists d. split; [reflexivity|]. cbn. rewrite app_nil_r. exact Hc.
  - inversion Hok as [|? ? Hb Hbs]; subst.
    destruct (write_block_crep d cs b Hc Hb) as (d1 & He & Hc1).
    destruct (IH d1 _ Hc1 Hbs) as (d2 & He2 & Hc2).
    exists d2. cbn [write_block_list]. rewrite He. cbn [bind]. split; [exact He2|].
    cbn [blocks_calls flat_map]. rewrite app_assoc. exact Hc2.
Qed.

(** ** Records *)

Definition hdr_calls (hlen opts dlen ulen : Z) (name : bytes) : list dcall :=
  [DData (be 4 hlen); DData (be 4 record_marker); DData (be 4 opts); DData (be 4 dlen);
   DData (be 4 ulen); DData (be 4 (Zlen name)); DData name].
Definition rec_hlen (name : bytes) : Z := 24 + Zlen (padz name).

(** The calls of a whole record. *)
Definition record_calls (name : bytes) (opts : Z) (blks : list wblock) : list dcall :=
  let dlen := Zlen (render0 (blocks_calls blks)) in
  hdr_calls (rec_hlen name) opts dlen dlen name ++ blocks_calls blks.

Lemma hdr_len h o d u name : Zlen (render0 (hdr_calls h o d u name)) = rec_hlen name.
Proof.
  unfold hdr_calls, rec_hlen. cbn [render0 flat_map render0_call]. rewrite !padz_be4.
  rewrite !Zlen_app, !Zlen_be. change (Zlen (@nil byte)) with 0. lia.
Qed.

Lemma valid_name_small name : valid_record_name name = true -> Zlen name <= 64.
Proof. unfold valid_record_name, max_record_name_len. intros H. apply andb_prop in H. lia. Qed.

Lemma hdr_ok h o d u name : small name -> calls_ok (hdr_calls h o d u name).
Proof. intros H. repeat constructor; try (apply small_be; lia). exact H. Qed.

Lemma app_inv_len {A} (a1 b1 a2 b2 : list A) :
  length a1 = length a2 -> a1 ++ b1 = a2 ++ b2 -> a1 = a2 /\ b1 = b2.
Proof.
  intros Hl H. split.
  - apply (f_equal (firstn (length a1))) in H. rewrite firstn_app_exact in H by reflexivity.
    rewrite H. rewrite firstn_app_exact; congruence.
  - apply (f_equal (skipn (length a1))) in H. rewrite skipn_app_exact in H by reflexivity.
    rewrite H. rewrite skipn_app_exact; congruence.
Qed.

(** Every byte of a well-formed call list after the relocation has the same place. *)
Lemma renderR_length r cs : Zlen (renderR r cs) = Zlen (render0 cs).
Proof.
  induction cs as [|c cs IH]; [reflexivity|].
  cbn [renderR render0 flat_map]. rewrite !Zlen_app. fold (renderR r cs). fold (render0 cs). rewrite IH.
  destruct c; cbn [renderR_call render0_call]; rewrite ?Zlen_be; reflexivity.
Qed.

Lemma tags_app a b : tags (a ++ b) = tags a ++ tags b.
Proof. apply flat_map_app. Qed.
Lemma ptrs_app a b : ptrs (a ++ b) = ptrs a ++ ptrs b.
Proof. apply flat_map_app. Qed.

Definition blocks_tags (blks : list wblock) : list addr := flat_map (fun b => tags (wb_calls b)) blks.
Definition blocks_ptrs (blks : list wblock) : list addr := flat_map (fun b => ptrs (wb_calls b)) blks.

Lemma tags_blocks blks : tags (blocks_calls blks) = blocks_tags blks.
Proof.
  induction blks as [|b blks IH]; [reflexivity|].
  cbn [blocks_calls flat_map]. rewrite tags_app. cbn [blocks_tags flat_map].
  fold (blocks_calls blks). fold (blocks_tags blks). rewrite IH. reflexivity.
Qed.
Lemma ptrs_blocks blks : ptrs (blocks_calls blks) = blocks_ptrs blks.
Proof.
  induction blks as [|b blks IH]; [reflexivity|].
  cbn [blocks_calls flat_map]. rewrite ptrs_app. cbn [blocks_ptrs flat_map].
  fold (blocks_calls blks). fold (blocks_ptrs blks). rewrite IH. reflexivity.
Qed.
Lemma tags_record name opts blks : tags (record_calls name opts blks) = blocks_tags blks.
Proof. unfold record_calls. rewrite tags_app. cbn [hdr_calls tags flat_map tag_of app]. apply tags_blocks. Qed.
Lemma ptrs_record name opts blks : ptrs (record_calls name opts blks) = blocks_ptrs blks.
Proof. unfold record_calls. rewrite ptrs_app. cbn [hdr_calls ptrs flat_map ptr_of app]. apply ptrs_blocks. Qed.

Lemma ats_hdr h o d u name h' o' d' u' b m :
  ats 0 (hdr_calls h o d u name ++ b) m = ats 0 (hdr_calls h' o' d' u' name ++ b) m.
Proof. rewrite !ats_app, !hdr_len. reflexivity. Qed.
Lemma tos_hdr h o d u name h' o' d' u' b m :
  tos 0 (hdr_calls h o d u name ++ b) m = tos 0 (hdr_calls h' o' d' u' name ++ b) m.
Proof. rewrite !tos_app, !hdr_len. reflexivity. Qed.
Lemma rho_of_hdr h o d u name h' o' d' u' b :
  rho_of (hdr_calls h o d u name ++ b) = rho_of (hdr_calls h' o' d' u' name ++ b).
Proof.
  unfold rho_of. rewrite (ats_hdr h o d u name h' o' d' u' b), (tos_hdr h o d u name h' o' d' u' b).
  reflexivity.
Qed.

Theorem write_record_bytes name rec_buf blks opts :
  valid_record_name name = true -> b_valid rec_buf = true -> b_bytes rec_buf <> [] ->
  Forall block_ok blks -> NoDup (blocks_tags blks) ->
  rec_hlen name + Zlen (render0 (blocks_calls blks)) < two32 ->
  let opts' := set_compression opts false in
  let dlen := Zlen (render0 (blocks_calls blks)) in
  let cs := record_calls name opts' blks in
  write_record name rec_buf blks opts
  = Ok (mkRI 0 0 (rec_hlen name) opts' dlen dlen name, mkBuffer (renderR (rho_of cs) cs) true)
  /\ rho_ok cs (rho_of cs).
Proof.
  intros Hname Hv Hne Hok Hnd Hsz opts' dlen cs.
  assert (Hnl : Zlen name <= 64) by (apply valid_name_small; exact Hname).
  assert (Hsn : small name) by (unfold small, two32; lia).
  assert (Hro : rho_ok cs (rho_of cs)).
  { apply rho_of_ok.
    - unfold cs. rewrite tags_record. exact Hnd.
    - unfold cs, record_calls. rewrite render0_app, Zlen_app, hdr_len. exact Hsz. }
  split; [|exact Hro].
  unfold write_record. rewrite Hname, Hv. cbn [negb]. fold opts'.
  assert (Hd0 : crep (mkW rec_buf 0 [] []) []).
  { split; [|split; reflexivity]. split; [exact Hv|]. exists (b_bytes rec_buf).
    split; [reflexivity|]. split; [reflexivity|exact Hne]. }
  destruct (crep_calls _ _ [DData (be 4 record_marker); DData (be 4 record_marker); DData (be 4 opts')] Hd0)
    as (d1 & E1 & C1). { repeat constructor; apply small_be; lia. }
  rewrite E1. cbn [bind app] in *. cbv zeta.
  destruct (crep_calls _ _ [DData (be 4 record_marker); DData (be 4 record_marker);
     DData (be 4 (Zlen name)); DData name] C1)
    as (d2 & E2 & C2). { repeat constructor; try (apply small_be; lia). exact Hsn. }
  rewrite E2. cbn [bind app] in *.
  assert (Hcur1 : w_cur d1 = 12).
  { rewrite (crep_cur _ _ C1). cbn [render0 flat_map render0_call]. rewrite !padz_be4. reflexivity. }
  assert (Hcur2 : w_cur d2 = rec_hlen name).
  { rewrite (crep_cur _ _ C2). apply (hdr_len record_marker opts' record_marker record_marker name). }
  destruct (crep_patch d2 [] record_marker _ (w_cur d2) C2) as (d3 & E3 & C3).
  change (Zlen (render0 [])) with 0 in E3.
  match goal with |- rethrow _ ?e = _ => 
    replace e with (do d <- (do d1 <- w_seek d2 0; do d2' <- w_data d1 (be 4 (w_cur d2)); w_seek d2' (w_cur d2));
     do d <- write_blocks d blks;
     do d0 <- w_seek d (w_cur d1);
     do d4 <- w_data d0 (be 4 (u32 (w_cur d - w_cur d2)));
     do d5 <- w_data d4 (be 4 (u32 (w_cur d - w_cur d2)));
     Ok (mkRI 0 0 (u32 (w_cur d2)) opts' (u32 (w_cur d - w_cur d2)) (u32 (w_cur d - w_cur d2)) name,
         mkBuffer (resize (b_bytes (w_buf d5)) (w_cur d)) true)) end.
  2:{ destruct (w_seek d2 0) as [x| |]; [|reflexivity|reflexivity]. cbn [bind].
      destruct (w_data x _) as [y| |]; reflexivity. }
  rewrite E3. cbn [bind app] in *. clear E3.
  unfold write_blocks.
  destruct (write_block_list_crep blks d3 _ C3 Hok) as (d4 & E4 & C4). rewrite E4. cbn [bind].
  unfold w_relocate.
  set (cs0 := hdr_calls (rec_hlen name) opts' record_marker record_marker name ++ blocks_calls blks).
  assert (C4' : crep d4 cs0).
  { unfold cs0, hdr_calls. rewrite <- Hcur2. exact C4. }
  clear C4. pose proof (crep_cur _ _ C4') as Hcur4.
  destruct C4' as ((Hv4 & t & Hb4 & _ & Ht) & Ha4 & Ht4).
  rewrite Ha4, Ht4, Hb4.
  assert (Hlen0 : Zlen (render0 cs0) = rec_hlen name + dlen).
  { unfold cs0. rewrite render0_app, Zlen_app, hdr_len. reflexivity. }
  rewrite reloc_bytes; [|unfold cs0; rewrite tags_app; cbn [hdr_calls tags flat_map tag_of app];
     fold (tags (blocks_calls blks)); rewrite tags_blocks; exact Hnd].
  cbn [bind w_cur w_buf]. rewrite Hcur4, Hcur2, Hcur1.
  replace (rho_of cs0) with (rho_of cs) by (unfold cs, cs0, record_calls; apply rho_of_hdr).
  assert (Hrl : rec_hlen name + dlen = Zlen (render0 cs0)) by (symmetry; exact Hlen0).
  rewrite Hlen0. replace (rec_hlen name + dlen - rec_hlen name) with dlen by lia.
  assert (Hdl : 0 <= dlen) by apply Zlen_nonneg.
  assert (Hhl : 0 <= rec_hlen name) by (unfold rec_hlen; pose proof (Zlen_nonneg (padz name)); lia).
  rewrite !u32_id by (unfold is_u32; fold dlen in Hsz; lia).
  (* the bytes after relocation: header, block bytes *)
  set (A := be 4 (rec_hlen name) ++ be 4 record_marker ++ be 4 opts').
  set (C := be 4 (Zlen name) ++ padz name ++ renderR (rho_of cs) (blocks_calls blks)).
  assert (Hbytes : renderR (rho_of cs) cs0 ++ t
     = A ++ be 4 record_marker ++ (be 4 record_marker ++ C ++ t)).
  { unfold cs0. rewrite renderR_app. cbn [hdr_calls renderR flat_map renderR_call].
    rewrite !padz_be4. unfold A, C. fold (renderR (rho_of cs) (blocks_calls blks)).
    rewrite <- !app_assoc. cbn [app]. rewrite ?app_nil_r. rewrite <- ?app_assoc. reflexivity. }
  assert (Hfinal : renderR (rho_of cs) cs = A ++ be 4 dlen ++ be 4 dlen ++ C).
  { unfold cs at 2. unfold record_calls. rewrite renderR_app. cbn [hdr_calls renderR flat_map renderR_call].
    rewrite !padz_be4. unfold A, C. fold (renderR (rho_of cs) (blocks_calls blks)). fold dlen.
    rewrite <- !app_assoc. cbn [app]. rewrite ?app_nil_r. rewrite <- ?app_assoc. reflexivity. }
  rewrite Hbytes. rewrite Hv4.
  assert (HA : Zlen A = 12) by (unfold A; rewrite !Zlen_app, !Zlen_be; reflexivity).
  rewrite w_seek_ok.
  2:{ cbn [w_buf]. unfold b_size. cbn [b_bytes]. rewrite !Zlen_app, HA.
      pose proof (Zlen_nonneg C). pose proof (Zlen_nonneg t). rewrite Zlen_be. lia. }
  cbn [bind]. unfold w_data at 1. cbn [w_buf w_cur w_at w_to].
  rewrite <- HA at 1. rewrite api_write_over;
    [|apply small_be; lia|rewrite padz_be4, !be_length; reflexivity|destruct t; [congruence|]; destruct C; discriminate].
  cbn [bind w_buf w_cur w_at w_to]. rewrite !padz_be4.
  unfold w_data at 1. cbn [w_buf w_cur w_at w_to].
  replace (A ++ be 4 dlen ++ be 4 record_marker ++ C ++ t)
    with ((A ++ be 4 dlen) ++ be 4 record_marker ++ C ++ t) by (rewrite <- app_assoc; reflexivity).
  replace (12 + Zlen (be 4 dlen)) with (Zlen (A ++ be 4 dlen)) by (rewrite Zlen_app, HA; reflexivity).
  rewrite api_write_over;
    [|apply small_be; lia|rewrite padz_be4, !be_length; reflexivity|destruct t; [congruence|]; destruct C; discriminate].
  cbn [bind w_buf b_bytes rethrow]. rewrite padz_be4.
  f_equal. f_equal. f_equal. rewrite Hfinal.
  replace ((A ++ be 4 dlen) ++ be 4 dlen ++ C ++ t) with ((A ++ be 4 dlen ++ be 4 dlen ++ C) ++ t)
    by (rewrite <- !app_assoc; reflexivity).
  assert (Hlf : Zlen (A ++ be 4 dlen ++ be 4 dlen ++ C) = rec_hlen name + dlen).
  { rewrite <- Hfinal. rewrite renderR_length. unfold cs, record_calls.
    rewrite render0_app, Zlen_app, hdr_len. reflexivity. }
  rewrite resize_shrink by (rewrite Zlen_app, Hlf; pose proof (Zlen_nonneg t); lia).
  apply firstn_app_exact. unfold Zlen in Hlf. lia.
Qed.
