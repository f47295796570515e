(** * The layout of the records in a file: proofs *)

From Coq Require Import Sorted.
From Verif Require Import Bytes StrMap SioModel SioProofs SioRecord SioRead SioFrame SioSpec Ieee ObjModel ObjSpec
  ObjProofs ObjCalls CollSpec CollProofs ListFacts EventModel EventSpec EventProofs EventFacts IndexModel IndexSpec IndexProofs
  FileModel FileFrame FileRead IndexFile IndexFacts FileSpec FileWrite LayoutSpec LayoutProofs.

(** ** Sizes *)

Lemma filled4_len4 bs : Zlen (filled4 bs) = 4 * ((Zlen bs + 3) / 4).
Proof.
  unfold filled4. rewrite Zlen_app. unfold Zlen at 2. rewrite repeat_length. pose proof (Zlen_nonneg bs).
  pose proof (Z.mod_pos_bound (- Zlen bs) 4 ltac:(lia)). rewrite Z2Nat.id by lia.
  pose proof (Z.div_mod (- Zlen bs) 4 ltac:(lia)). pose proof (Z.div_mod (Zlen bs + 3) 4 ltac:(lia)).
  pose proof (Z.mod_pos_bound (Zlen bs + 3) 4 ltac:(lia)). lia.
Qed.
Lemma big_len n z : Zlen (big n z) = Z.of_nat n.
Proof. rewrite big_be. unfold Zlen. rewrite be_length. reflexivity. Qed.
Lemma flat2_len l : Zlen (flat_map (big 2) l) = 2 * Zlen l.
Proof. induction l as [|z l IH]; [reflexivity|]. cbn [flat_map]. rewrite Zlen_app, big_len, IH, Zlen_cons. lia. Qed.
Lemma field_len N f : Zlen (field_bytes N f) = field_size f.
Proof.
  destruct f; cbn [field_bytes field_size]; rewrite ?filled4_len4, ?flat2_len, ?big_len; reflexivity.
Qed.
Lemma layout_len N fs : Zlen (layout N fs) = size fs.
Proof.
  induction fs as [|f fs IH]; [reflexivity|]. unfold layout, size in *. cbn [flat_map fold_right]. rewrite Zlen_app, field_len, IH. reflexivity.
Qed.
Lemma field_mod4 f : field_size f mod 4 = 0.
Proof. destruct f; try reflexivity; cbn [field_size]; rewrite Z.mul_comm; apply Z.mod_mul; lia. Qed.
Lemma size_mod4 fs : size fs mod 4 = 0.
Proof.
  induction fs as [|f fs IH]; [reflexivity|]. unfold size in *. cbn [fold_right]. rewrite Z.add_mod, field_mod4, IH by lia. reflexivity.
Qed.
Lemma laid_len fs bs : laid_out fs bs -> Zlen bs = size fs.
Proof. intros (N & _ & ->). apply layout_len. Qed.
Lemma laid_stream fs bs : laid_out fs bs -> stream_record bs = bs.
Proof.
  intros H. unfold stream_record. rewrite (laid_len _ _ H), rec_padlen_zero by apply size_mod4. apply app_nil_r.
Qed.

(** ** The random access record *)

Lemma be_s32 z : be 4 (s32 z) = be 4 z.
Proof. rewrite <- (be4_u32 (s32 z)), u32_s32. apply be4_u32. Qed.
Lemma g_s32 z : gives (w_i32 (s32 z)) [Word z].
Proof.
  pose proof (g_word z) as G. rewrite <- be_s32 in G. exact G.
Qed.
Lemma h_s32 z cs fs : gives cs fs -> gives (w_i32 (s32 z) ++ cs) (Word z :: fs).
Proof. intros H. exact (g_app _ _ _ _ (g_s32 z) H). Qed.

Lemma g_racc a : gives (write_racc a)
  ([Word (fst (ra_min a)); Word (snd (ra_min a)); Word (fst (ra_max a)); Word (snd (ra_max a));
      Word (ra_nrun a); Word (ra_nevt a); Word (ra_order a)]
     ++ [Long (ra_index a); Long (ra_prev a); Long (ra_next a); Long (ra_first a); Word 2882338952]).
Proof.
  unfold write_racc. cbn [app].
  apply h_i32, h_i32, h_i32, h_i32, h_i32, h_i32, h_i32, h_i64, h_i64, h_i64, h_i64.
  change (Z.lor 2882338816 access_size) with 2882338952. apply g_s32.
Qed.

Lemma put_end base bs : put base (Zlen base) bs = base ++ bs.
Proof.
  unfold put. replace (Z.to_nat (Zlen base)) with (length base) by (unfold Zlen; lia).
  rewrite firstn_all, skipn_all2, app_nil_r by lia. reflexivity.
Qed.

(** a record of one block appended to a stream *)
Lemma put_laid base raw name w fs : valid_record_name name = true -> usable raw -> all_data w -> gives w fs ->
  size (record_layout name (block_layout name fs)) < 2 ^ 32 ->
  exists x raw', put_record (mkO base (Zlen base)) raw name [mkWB name cur_vers w] = Ok (mkO (base ++ x) (Zlen (base ++ x)), raw', Zlen base) /\
    usable raw' /\ laid_out (record_layout name (block_layout name fs)) x.
Proof.
  intros Hn Hr Hd Hg Hs. pose proof (valid_name_small name Hn) as Hsm.
  destruct (single_laid name raw name w fs Hn Hr ltac:(lia) Hd Hg Hs) as (ri & raw' & E & L & _).
  destruct (one_block name name w Hn ltac:(lia) Hd) as (d & E0 & _).
  { pose proof (g_record name _ _ ltac:(unfold small, two32; lia) (g_single name w fs ltac:(unfold small, two32; lia) Hg)) as G.
    rewrite (rec_size _ _ _ G). exact Hs. }
  specialize (E0 raw Hr). rewrite E in E0. apply Ok_pair in E0. destruct E0 as [_ E0].
  exists (b_bytes raw'), raw'. split; [|split; [|exact L]].
  - unfold put_record. rewrite E. cbn [bind]. rewrite (laid_stream _ _ L). unfold o_write. cbn [o_data o_pos].
    rewrite put_end, Zlen_app. reflexivity.
  - rewrite E0. split; [reflexivity|]. cbn [b_bytes]. intros X. apply (f_equal (@length _)) in X. unfold rec_hdr in X.
    rewrite !app_length, be_length in X. discriminate X.
Qed.

Lemma access_laid base raw a : usable raw ->
  exists x raw', put_record (mkO base (Zlen base)) raw access_record [mkWB access_record cur_vers (write_racc a)]
    = Ok (mkO (base ++ x) (Zlen (base ++ x)), raw', Zlen base) /\ usable raw' /\ laid_out (access_layout a) x /\ Zlen x = 136.
Proof.
  intros Hr. destruct (put_laid base raw (str "LCIORandomAccess") (write_racc a) _ eq_refl Hr (racc_data a) (g_racc a) ltac:(reflexivity))
    as (x & raw' & E & U & L).
  exists x, raw'. split; [exact E|]. split; [exact U|]. split; [exact L|]. rewrite (laid_len _ _ L). reflexivity.
Qed.

(** ** The index *)

Lemma g_entries oneRun far run pos : forall l w, write_entries oneRun far run pos l = Ok w ->
  gives w (flat_map (fun '(r, n, p) => (if oneRun then [] else [Word (r - run)]) ++ [Word n]
                       ++ [if far : bool then Long (p - pos) else Word (p - pos)]) l).
Proof.
  induction l as [|[[r n] p] l IH]; intros w; cbn [write_entries flat_map].
  - intros H. apply Ok_inj in H. subst w. exact g_nil.
  - unfold write_entry. cbn [fst snd].
    destruct (if oneRun then _ else _) as [ro|?|?] eqn:E1; cbn [bind]; try discriminate.
    assert (D1 : gives ro (if oneRun then [] else [Word (r - run)])).
    { destruct oneRun; [apply Ok_inj in E1; subst ro; exact g_nil|]. unfold int_of in E1. destruct (_ && _); cbn [bind] in E1; try discriminate.
      apply Ok_inj in E1. subst ro. exact (g_word _). }
    unfold long_of. destruct (_ && _); cbn [bind]; try discriminate.
    destruct (write_entries oneRun far run pos l) as [b|?|?] eqn:E2; cbn [bind]; try discriminate.
    intros H. apply Ok_inj in H. subst w. apply g_app; [|apply IH; reflexivity]. apply g_app; [exact D1|]. apply (g_app _ _ [Word n]); [exact (g_word _)|].
    destruct far; [exact (g_long _)|apply g_s32].
Qed.

Lemma index_not_empty l : Forall entry_ok l -> l <> [] -> rm_map (index_of l) <> [].
Proof.
  intros F Hne E. destruct l as [|e l']; [contradiction|].
  destruct (proj2 (index_of_mem (e :: l') (fst e) F)) as (e' & He' & _).
  { exists e. split; [left; reflexivity|left; reflexivity]. }
  rewrite E in He'. exact He'.
Qed.

Lemma g_index m w f t : remap_ok m -> rm_map m = f :: t -> write_index m = Ok w -> vec_len (rm_map m) ->
  exists fs, gives w fs /\ index_layout (rm_map m) = record_layout (str "LCIOIndex") (block_layout (str "LCIOIndex") fs).
Proof.
  intros Hm El Ew Hlen. destruct f as [[run evt] pos]. pose proof (last_in (rm_map m) (run, evt, pos) ltac:(rewrite El; discriminate)) as Hz.
  destruct (last (rm_map m) (run, evt, pos)) as [[lrun levt] lpos] eqn:Ez.
  assert (Emin : rm_min m = (run, evt)) by (unfold rm_min; rewrite El; reflexivity).
  assert (Emax : rm_max m = (lrun, levt)).
  { unfold rm_max. rewrite El in Ez |- *. transitivity (fst (last ((run, evt, pos) :: t) (run, evt, pos))); [f_equal; apply last_default; discriminate|]. exact (f_equal fst Ez). }
  assert (Hf : In (run, evt, pos) (rm_map m)) by (rewrite El; left; reflexivity).
  pose proof (rm_pos_in _ m Hm Hf) as Pf. pose proof (rm_pos_in _ m Hm Hz) as Pz. cbn [fst snd] in Pf, Pz.
  unfold write_index in Ew. rewrite Emin, Emax, Pf, Pz in Ew. cbn [fst] in Ew. cbv zeta in Ew.
  unfold long_of in Ew. destruct ((- two63 <=? lpos - pos) && (lpos - pos <? two63)); cbn [bind] in Ew; [|discriminate].
  destruct (write_entries (run =? lrun) (two31 - 1 <? lpos - pos) run pos (rm_map m)) as [es|?|?] eqn:Ee; cbn [bind] in Ew; [|discriminate|discriminate].
  apply Ok_inj in Ew. subst w. apply g_entries in Ee.
  replace (two31 - 1 <? lpos - pos) with (2 ^ 31 <=? lpos - pos) in * by (unfold two31; lia).
  eexists. split.
  - apply h_u32, h_i32, h_i64, h_s32. exact Ee.
  - unfold index_layout. rewrite El. cbv iota. rewrite El in Ez. destruct (last _ _) as [[q1 q2] q3] eqn:Eq. injection Ez as -> -> ->. reflexivity.
Qed.

Lemma index_laid base raw m w : remap_ok m -> rm_map m <> [] -> write_index m = Ok w -> usable raw ->
  Zlen (rm_map m) < 2 ^ 27 ->
  exists x raw', put_record (mkO base (Zlen base)) raw index_record [mkWB index_record cur_vers w]
    = Ok (mkO (base ++ x) (Zlen (base ++ x)), raw', Zlen base) /\ usable raw' /\ laid_out (index_layout (rm_map m)) x.
Proof.
  intros Hm Hne Ew Hr Hlen. pose proof (index_data _ _ Ew) as Hd. pose proof (index_size _ _ Ew) as Hsz.
  destruct (rm_map m) as [|f t] eqn:El; [contradiction|].
  destruct (g_index m w f t Hm El Ew ltac:(unfold vec_len; rewrite El; lia)) as (fs & G & EL). rewrite El in EL. rewrite EL.
  apply (put_laid base raw (str "LCIOIndex") w fs eq_refl Hr Hd G).
  pose proof (g_record (str "LCIOIndex") _ _ ltac:(vm_compute; reflexivity) (g_single (str "LCIOIndex") w fs ltac:(vm_compute; reflexivity) G)) as G2.
  rewrite <- (rec_size _ _ _ G2). change index_record with (str "LCIOIndex") in Hsz. lia.
Qed.

(** ** What closing a file appends *)

Theorem close_laid base g l : mg_map g = index_of l -> Forall entry_ok l -> l <> [] -> covers (rm_map (index_of l)) ->
  Zlen (rm_map (index_of l)) < 2 ^ 27 -> usable (mg_raw g) ->
  exists x y z a f g', write_access g (mkO base (Zlen base)) = Ok (g', mkO (base ++ x ++ y ++ z) (Zlen (base ++ x ++ y ++ z))) /\
    laid_out (index_layout (rm_map (index_of l))) x /\ laid_out (access_layout a) y /\ laid_out (access_layout f) z /\
    mg_list g' = mg_list g ++ [a] /\ mg_file g' = Some f /\
    ra_index a = Zlen base /\ ra_first a = Zlen base + Zlen x /\ ra_next a = 0 /\ ra_order a = 1 /\
    ra_prev a = match mg_last g with Some b => ra_first b | None => 0 end /\
    Zlen y = 136 /\ Zlen z = 136.
Proof.
  intros Eg F Hne Hc Hlen Hu. pose proof (index_of_ok l F) as Hm.
  destruct (index_roundtrip _ Hm ltac:(unfold vec_len; lia) Hc) as (w & Ew & _).
  pose proof (index_not_empty l F Hne) as Hn.
  destruct (index_laid base (mg_raw g) (index_of l) w Hm Hn Ew Hu Hlen) as (x & raw1 & E1 & U1 & L1).
  set (a := mkRA (rm_min (index_of l)) (rm_max (index_of l)) (rm_nrun (index_of l)) (rm_nevt (index_of l)) 1 (Zlen base)
             (match mg_last g with Some b => ra_first b | None => 0 end) 0 (Zlen (base ++ x))).
  destruct (access_laid (base ++ x) raw1 a U1) as (y & raw2 & E2 & U2 & L2 & N2).
  set (g1 := mkMgr (mg_map g) (mg_list g ++ [a]) (mg_file g) raw1).
  set (f0 := file_record g1).
  set (f := mkRA (ra_min f0) (ra_max f0) (ra_nrun f0) (ra_nevt f0) (ra_order f0) (ra_index f0)
                    (if Zlen (base ++ x) <? ra_prev f0 then Zlen (base ++ x) else ra_prev f0)
                    (if ra_next f0 <? Zlen (base ++ x) then Zlen (base ++ x) else ra_next f0) (ra_first f0)).
  destruct (access_laid ((base ++ x) ++ y) raw2 f U2) as (z & raw3 & E3 & U3 & L3 & N3).
  exists x, y, z, a, f, (mkMgr (mg_map g) (mg_list g1) (Some f) raw3).
  assert (EE : write_access g (mkO base (Zlen base)) = Ok (mkMgr (mg_map g) (mg_list g1) (Some f) raw3, mkO (((base ++ x) ++ y) ++ z) (Zlen (((base ++ x) ++ y) ++ z)))).
  { unfold write_access. rewrite Eg. destruct (rm_map (index_of l)) as [|e0 l0]; [contradiction|]. rewrite Ew. cbn [rethrow bind].
    rewrite E1. cbn [bind o_pos from_map ra_min ra_max ra_nrun ra_nevt ra_order]. fold a. rewrite E2. cbn [bind].
    rewrite <- Eg. fold g1. fold f0. fold f. rewrite E3. reflexivity. }
  rewrite <- !app_assoc in EE. split; [exact EE|]. split; [exact L1|]. split; [exact L2|]. split; [exact L3|].
  split; [reflexivity|]. split; [reflexivity|]. split; [reflexivity|]. split; [unfold a; cbn [ra_first]; apply Zlen_app|].
  split; [reflexivity|]. split; [reflexivity|]. split; [reflexivity|]. split; [exact N2|exact N3].
Qed.

(** ** Records as they are in a file *)

Lemma padlen_mod n : rec_padlen n = (- n) mod 4.
Proof.
  unfold rec_padlen. change 3 with (Z.ones 2). rewrite !Z.land_ones by lia. change (2 ^ 2) with 4.
  Z.div_mod_to_equations. lia.
Qed.

Lemma layout_app N a b : layout N (a ++ b) = layout N a ++ layout N b.
Proof. apply flat_map_app. Qed.
Definition hdr_layout (o d u : Z) (name : bytes) : list field :=
  [Word (24 + size [Text name]); Word 2880293630; Word o; Word d; Word u] ++ txt name.
Lemma hdr_layout_bytes N o d u name : small name -> layout N (hdr_layout o d u name) = rec_hdr o d u name.
Proof.
  intros Hs. unfold hdr_layout, rec_hdr, layout, txt. cbn [app flat_map field_bytes]. rewrite !big_be, <- filled4_pad, app_nil_r by exact Hs.
  unfold rec_hlen. rewrite filled4_pad, filled4_len4 by exact Hs. unfold size. cbn [fold_right field_size]. rewrite Z.add_0_r. reflexivity.
Qed.

Section Codec.
Context (comp : Z -> bytes -> bytes) (uncomp : bytes -> option bytes).

Lemma record_stored z name buf blks fs : codec_ok comp uncomp -> valid_record_name name = true -> usable buf ->
  blocks_ok blks -> NoDup (blocks_tags blks) -> gives (blocks_calls blks) fs -> sized z (size (record_layout name fs)) ->
  exists ri buf' x, write_record name buf blks 0 = Ok (ri, buf') /\ encode comp z ri buf' = Ok x /\ stored comp z name fs x.
Proof.
  intros HC Hn Hu Hok Hnd Hg Hs. pose proof (valid_name_small name Hn) as Hnl.
  assert (Hsm : small name) by (unfold small, two32; lia).
  assert (Hlt : size (record_layout name fs) < 2 ^ 32) by (destruct Hs as [Hs _]; unfold two32 in Hs; lia).
  destruct (record_laid name buf blks fs Hn Hu Hok Hnd Hg Hlt) as (ri & buf' & E & (N & NN & L) & _).
  pose proof (g_record name blks fs Hsm Hg) as G.
  destruct (record_shape name blks Hn Hok Hnd) as (d & E0 & Hd & Hl); [rewrite (rec_size _ _ _ G); exact Hlt|].
  specialize (E0 buf Hu). rewrite E in E0. apply Ok_pair in E0. destruct E0 as [-> ->].
  cbn [b_bytes] in L. change (record_layout name fs) with (hdr_layout 0 (size fs) (size fs) name ++ fs) in L.
  assert (Hds : Zlen d = size fs).
  { rewrite (rec_size _ _ _ G) in Hl. apply (f_equal Zlen) in L. rewrite layout_app, hdr_layout_bytes, !Zlen_app, !rec_hdr_len, layout_len in L by exact Hsm. lia. }
  rewrite layout_app, hdr_layout_bytes, Hds in L by exact Hsm. apply app_inv_head in L.
  destruct (encode_spec comp uncomp z name d HC Hnl Hd) as (E2 & _).
  { rewrite Hl, (rec_size _ _ _ G). exact Hs. }
  do 3 eexists. split; [exact E|]. split; [exact E2|]. exists N. split; [exact NN|]. cbv zeta. rewrite <- L.
  unfold frec_of. destruct (z =? 0).
  - change (record_layout name fs) with (hdr_layout 0 (size fs) (size fs) name ++ fs). rewrite layout_app, hdr_layout_bytes, <- L by exact Hsm.
    unfold f_bytes, f_core, f_hdr, f_dlen, f_pad, rec_pad, f_dlen. cbn [f_opts f_ulen f_name f_data]. rewrite Hds.
    change (is_compressed 0) with false. cbv iota. apply app_nil_r.
  - fold (hdr_layout 1 (Zlen (comp z d)) (size fs) name). rewrite hdr_layout_bytes by exact Hsm.
    unfold f_bytes, f_core, f_hdr, f_dlen, f_pad, rec_pad, f_dlen. cbn [f_opts f_ulen f_name f_data]. rewrite Hds.
    change (is_compressed 1) with true. cbv iota. rewrite <- app_assoc. unfold filled4. rewrite <- padlen_mod. reflexivity.
Qed.

Theorem item_stored z b1 b2 i : codec_ok comp uncomp -> usable b1 -> usable b2 ->
  match i with
  | WRun r => runhdr_ok r /\ sized z (size (run_layout r))
  | WEvt h e only => event_ok only h e /\ sized z (size (header_layout only e)) /\ sized z (size (event_layout only h e))
  end ->
  exists recs i', encode_item comp z b1 b2 i = Ok (recs, item_key i, i') /\
    match i with
    | WRun r => exists x, recs = [x] /\ stored comp z (str "LCRunHeader") (run_data r) x
    | WEvt h e only => exists x y, recs = [x; y] /\ stored comp z (str "LCEventHeader") (header_data only e) x /\
                         stored comp z (str "LCEvent") (event_data only h e) y
    end.
Proof.
  intros HC U1 U2 H.
  assert (Hone : forall rname buf name w fs, valid_record_name rname = true -> usable buf -> Zlen name < 2 ^ 31 ->
    all_data w -> gives w fs -> sized z (size (record_layout rname (block_layout name fs))) ->
    exists ri buf' x, write_record rname buf [mkWB name cur_vers w] 0 = Ok (ri, buf') /\ encode comp z ri buf' = Ok x /\
      stored comp z rname (block_layout name fs) x).
  { intros rname buf name w fs Hn Hu Hl Hd Hg Hs. apply record_stored; try assumption.
    - apply Forall_cons; [|apply Forall_nil]. split; [apply data_ok; exact Hd|split; [exact Hl|]]. vm_compute. split; congruence.
    - unfold blocks_tags. cbn [flat_map wb_calls]. rewrite app_nil_r, data_tags by exact Hd. constructor.
    - apply g_single; [unfold small, two32; lia|exact Hg]. }
  destruct i as [r|h e only].
  - destruct H as [Hr Hs].
    destruct (Hone (str "LCRunHeader") b1 (str "RunHeader") _ _ eq_refl U1 ltac:(reflexivity) (data_runhdr _ Hr) (g_runhdr r Hr) Hs)
      as (ri & buf' & x & E & E2 & S2).
    exists [x], (WRun r). split; [|exists x; split; [reflexivity|exact S2]].
    unfold encode_item, write_run_record. change run_record with (str "LCRunHeader"). change run_block with (str "RunHeader").
    rewrite E. cbn [bind]. rewrite E2. reflexivity.
  - destruct H as (He & Hs1 & Hs2).
    destruct (Hone (str "LCEventHeader") b1 (str "EventHeader") _ _ eq_refl U1 ltac:(reflexivity) (data_evhdr _ _ _ He) (g_evhdr only h e He) Hs1)
      as (ri & buf' & x & E & E2 & S2).
    pose proof He as (_ & _ & _ & _ & _ & H6 & _ & H8 & H9).
    assert (Hcols : Forall (fun nc => exists ty, get_handler (c_type (snd nc)) = Some ty /\ coll_ok ty h (snd nc)) (stored_cols only e)).
    { eapply Forall_impl; [|exact H8]. intros nc (_ & _ & H). exact H. }
    destruct (event_blocks_spec no_sort only h (ev_cols e) Hcols) as (bs & cols' & Ebs & F1 & _).
    rewrite stored_cols_eq in F1.
    assert (Hbok : blocks_ok bs).
    { apply Forall_forall. intros b Hbin. destruct (Forall2_in_r _ _ _ _ F1 Hbin) as (nc & Hnc & nc' & Hn & Hvv & _ & ty & p' & _ & _ & _ & Hsh & _).
      split; [apply Hsh|]. rewrite Hn, Hvv. rewrite Forall_forall in H8. destruct (H8 nc Hnc) as (_ & Hl & _).
      split; [unfold vec_len in Hl; lia|]. vm_compute. split; congruence. }
    assert (Htags : blocks_tags bs = flat_map (fun nc => coll_tags h (snd nc)) (stored_cols only e)).
    { clear -F1. induction F1 as [|nc b cols bs (nc' & _ & _ & _ & ty & p' & _ & _ & _ & Hsh & _) F IH]; [reflexivity|].
      unfold blocks_tags in *. cbn [flat_map]. rewrite IH, (sh_tags _ _ _ Hsh). reflexivity. }
    assert (Hptag : part (blocks_tags bs) (flat_map (fun nc => coll_objs h (snd nc)) (stored_cols only e))).
    { rewrite Htags. apply part_flat_map. intros nc _. apply part_tags. }
    pose proof (part_NoDup _ _ Hptag H9) as Hndt.
    assert (G : gives (blocks_calls bs) (event_data only h e)).
    { unfold event_data. fold (cols_layout h (stored_cols only e)). rewrite <- stored_cols_eq. eapply blocks_laid; [|exact Ebs]. rewrite stored_cols_eq.
      eapply Forall_impl; [|exact H8]. intros nc (_ & H1 & H2). split; assumption. }
    destruct (record_stored z (str "LCEvent") b2 bs _ HC eq_refl U2 Hbok Hndt G Hs2) as (re & be & y & E3 & E4 & S4).
    exists [x; y]. eexists. split; [|exists x, y; split; [reflexivity|split; [exact S2|exact S4]]].
    unfold encode_item, write_header_record, write_event_record. rewrite Ebs. cbn [bind].
    change header_record with (str "LCEventHeader"). change header_block with (str "EventHeader"). change event_record with (str "LCEvent").
    rewrite E. cbn [bind]. rewrite E3. cbn [bind]. rewrite E2. cbn [bind]. rewrite E4. reflexivity.
Qed.
End Codec.
