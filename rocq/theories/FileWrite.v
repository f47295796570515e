(** * Writing the items of a file *)

From Coq Require Import Sorted.
From Verif Require Import Bytes StrMap SioModel SioProofs SioRecord SioRead SioFrame SioSpec Ieee ObjModel ObjSpec ObjProofs ObjCalls CollSpec
  CollProofs ListFacts EventModel EventSpec EventProofs EventFacts IndexModel IndexSpec IndexProofs FileModel FileFrame FileRead IndexFile IndexFacts FileSpec.

Lemma Ok_pair {A B} (a c : A) (b d : B) : Ok (a, b) = Ok (c, d) -> a = c /\ b = d.
Proof. intros H. injection H. auto. Qed.

(** ** One record *)

Lemma record_shape name blks : valid_record_name name = true -> blocks_ok blks -> NoDup (blocks_tags blks) ->
  record_size name blks < two32 ->
  exists d, (forall buf, usable buf ->
      write_record name buf blks 0 = Ok (mkRI 0 0 (rec_hlen name) 0 (Zlen d) (Zlen d) name, mkBuffer (rec_hdr 0 (Zlen d) (Zlen d) name ++ d) true)) /\
    Zlen d mod 4 = 0 /\ rec_hlen name + Zlen d = record_size name blks.
Proof.
  intros Hname Hok Hndt Hsz. pose proof (rec_hlen_range name (valid_name_small name Hname)) as [Hh _].
  assert (Hfits : Forall block_fits blks) by (apply blocks_ok_fits; [exact Hok|unfold record_size in Hsz; lia]).
  exists (blocks_bytes (rho_of (record_calls name (set_compression 0 false) blks)) blks). split; [|split].
  - intros buf [Hv Hne]. destruct (write_record_bytes name buf blks 0 Hname Hv Hne (blocks_fits_ok blks Hfits) Hndt Hsz) as [He _].
    rewrite He. rewrite record_render. unfold rec_bytes. rewrite !blocks_bytes_len. reflexivity.
  - rewrite blocks_bytes_len. apply render0_mod4, blocks_calls_ok, blocks_fits_ok. exact Hfits.
  - rewrite blocks_bytes_len. reflexivity.
Qed.

Lemma rec_data_shape name o d u b : rec_data (mkRI 0 0 (rec_hlen name) o d u name) (rec_hdr o d u name ++ b) = b.
Proof.
  unfold rec_data. cbn [ri_hlen]. apply skipn_app_exact. pose proof (rec_hdr_len o d u name) as E. unfold Zlen at 1 in E. lia.
Qed.

Lemma dev_over c1 x t w at_ to_ : length x = 4%nat -> t <> [] ->
  dev_call (mkW (mkBuffer (c1 ++ x ++ t) true) (Zlen c1) at_ to_) (DData (be 4 w)) = Ok (mkW (mkBuffer ((c1 ++ be 4 w) ++ t) true) (Zlen (c1 ++ be 4 w)) at_ to_).
Proof.
  intros Hx Ht. cbn [dev_call]. unfold w_data. cbn [w_buf w_cur w_at w_to].
  rewrite api_write_over; [|apply small_be; lia|rewrite padz_be4, be_length; exact Hx|exact Ht].
  cbn [bind]. rewrite padz_be4, <- app_assoc. f_equal. f_equal. rewrite Zlen_app. reflexivity.
Qed.

Section Codec.
Context (comp : Z -> bytes -> bytes) (uncomp : bytes -> option bytes).

Definition frec_of (z : Z) (name d : bytes) : frec :=
  if z =? 0 then mkF 0 (Zlen d) name d else mkF 1 (Zlen d) name (comp z d).

Lemma encode_spec z name d : codec_ok comp uncomp -> Zlen name <= 64 -> Zlen d mod 4 = 0 -> sized z (rec_hlen name + Zlen d) ->
  encode comp z (mkRI 0 0 (rec_hlen name) 0 (Zlen d) (Zlen d) name) (mkBuffer (rec_hdr 0 (Zlen d) (Zlen d) name ++ d) true)
  = Ok (f_bytes (frec_of z name d)) /\ f_ok (frec_of z name d) /\ holds uncomp (frec_of z name d) d /\ f_name (frec_of z name d) = name.
Proof.
  intros HC Hn Hd [Hs1 Hs2]. destruct (rec_hlen_range name Hn) as [Hh Hh4]. pose proof (Zlen_nonneg d) as Hd0.
  unfold encode, frec_of. destruct (Z.eqb_spec z 0) as [->|Hz]; cbn [negb].
  - split; [|split; [|split; [reflexivity|reflexivity]]].
    + f_equal. unfold stream_record, f_bytes, f_core, f_hdr, f_dlen, f_pad, rec_pad. cbn [f_opts f_ulen f_name f_data b_bytes].
      rewrite Zlen_app, rec_hdr_len, rec_padlen_zero by (rewrite Z.add_mod, Hh4, Hd by lia; reflexivity). reflexivity.
    + unfold f_ok, f_dlen, hdr_fits, is_u32. cbn [f_opts f_ulen f_name f_data]. unfold two32 in *. lia.
  - specialize (Hs2 Hz). destruct (HC z d Hz) as [Hu Hc]. specialize (Hc ltac:(lia)). pose proof (Zlen_nonneg (comp z d)) as Hc0.
    split; [|split; [|split; [|reflexivity]]].
    + unfold compress_record. cbn [b_valid negb b_bytes ri_hlen ri_options ri_start ri_end ri_ulen ri_name].
      assert (Hsp : span (rec_hdr 0 (Zlen d) (Zlen d) name ++ d) (rec_hlen name) (b_size (mkBuffer (rec_hdr 0 (Zlen d) (Zlen d) name ++ d) true) - rec_hlen name) = Ok d).
      { unfold span, b_size. cbn [b_bytes]. rewrite Zlen_app, rec_hdr_len. replace (_ <? _) with false by lia. f_equal.
        replace (rec_hlen name + Zlen d - rec_hlen name) with (Zlen d) by lia.
        pose proof (rec_hdr_len 0 (Zlen d) (Zlen d) name) as El. set (H := rec_hdr 0 (Zlen d) (Zlen d) name) in *. rewrite <- El.
        replace (H ++ d) with (H ++ d ++ []) by (rewrite app_nil_r; reflexivity). apply sub_mid. reflexivity. }
      rewrite Hsp. cbn [bind]. change (set_compression 0 true) with 1.
      unfold dev_calls. 
      assert (Hb : rec_hdr 0 (Zlen d) (Zlen d) name ++ d = [] ++ be 4 (rec_hlen name) ++ be 4 record_marker ++ be 4 0 ++ be 4 (Zlen d) ++ be 4 (Zlen d) ++ be 4 (Zlen name) ++ padz name ++ d).
      { unfold rec_hdr. rewrite <- !app_assoc. reflexivity. }
      rewrite Hb. change 0 with (Zlen (@nil Init.Byte.byte)) at 4.
      assert (NE : forall w l, be 4 w ++ l <> []).
      { intros w l E. apply (f_equal (@length _)) in E. rewrite app_length, be_length in E. discriminate E. }
      do 4 (rewrite dev_over; [|apply be_length|apply NE]; cbn [bind]).
      cbn [rethrow bind w_buf b_bytes ri_hlen].
      assert (Hu32 : u32 (Zlen (comp z d)) = Zlen (comp z d)) by (unfold u32; apply Z.mod_small; unfold two32 in *; lia).
      rewrite Hu32.
      set (H := rec_hdr 1 (Zlen (comp z d)) (Zlen d) name).
      match goal with |- context [span ?b 0 _] => replace b with ([] ++ H ++ d) by (unfold H, rec_hdr; cbn [app]; rewrite <- !app_assoc; reflexivity) end.
      assert (Hsp2 : span ([] ++ H ++ d) 0 (rec_hlen name) = Ok H).
      { unfold span. cbn [app]. rewrite Zlen_app. unfold H at 1. rewrite rec_hdr_len. replace (_ <? _) with false by lia. f_equal.
        change 0 with (Zlen (@nil Init.Byte.byte)). change (H ++ d) with ([] ++ H ++ d). rewrite <- (rec_hdr_len 1 (Zlen (comp z d)) (Zlen d) name). fold H. apply sub_mid. reflexivity. }
      rewrite Hsp2. cbn [bind]. f_equal. unfold stream_record2, f_bytes, f_core, f_hdr, f_dlen, f_pad, rec_pad. cbn [f_opts f_ulen f_name f_data].
      fold H. rewrite <- app_assoc. reflexivity.
    + unfold f_ok, f_dlen, hdr_fits, is_u32. cbn [f_opts f_ulen f_name f_data]. unfold two32 in *. lia.
    + unfold holds. cbn [f_opts f_data f_ulen]. change (is_compressed 1) with true. cbv iota. split; [exact Hu|reflexivity].
Qed.

(** ** One item *)

(** what is read back sequentially of an item written with the buffers [b1] and [b2] *)
Definition encoded (b1 b2 : buffer) (i : witem) (s : sitem) : Prop :=
  match i, s with
  | WRun r, SRun r' => r' = r
  | WEvt h e only, SEvt hd ed =>
      exists rh bh e1 re be, write_header_record b1 only e = Ok (rh, bh) /\ write_event_record b2 only h e = Ok (e1, re, be) /\
        hd = rec_data rh (b_bytes bh) /\ ed = rec_data re (b_bytes be)
  | _, _ => False
  end.
(** the records of an item *)
Definition item_recs (recs : list frec) (s : sitem) : Prop :=
  match s with
  | SRun h => exists x d, recs = [x] /\ f_name x = run_record /\ holds uncomp x d /\ read_run_record d = Ok h
  | SEvt hd ed => exists x y, recs = [x; y] /\ f_name x = header_record /\ holds uncomp x hd /\ hdr_good hd /\
                    f_name y = event_record /\ holds uncomp y ed
  end.

Lemma item_stores recs s l ss : item_recs recs s -> stores uncomp l ss -> stores uncomp (recs ++ l) (s :: ss).
Proof.
  destruct s as [h|hd ed].
  - intros (x & d & -> & H1 & H2 & H3) H. cbn [app]. eapply S_run; eassumption.
  - intros (x & y & -> & H1 & H2 & H3 & H4 & H5) H. cbn [app]. eapply S_evt; eassumption.
Qed.

Lemma one_block name bname w : valid_record_name name = true -> Zlen bname < 2 ^ 31 -> all_data w ->
  record_size name [mkWB bname cur_vers w] < two32 ->
  exists d, (forall buf, usable buf -> write_record name buf [mkWB bname cur_vers w] 0 = Ok (mkRI 0 0 (rec_hlen name) 0 (Zlen d) (Zlen d) name, mkBuffer (rec_hdr 0 (Zlen d) (Zlen d) name ++ d) true)) /\
    Zlen d mod 4 = 0 /\ rec_hlen name + Zlen d = record_size name [mkWB bname cur_vers w].
Proof.
  intros Hn Hl Hd Hs. apply record_shape; try assumption.
  - apply Forall_cons; [|apply Forall_nil]. split; [apply data_ok; exact Hd|split; [exact Hl|]]. cbn. unfold cur_vers. vm_compute. split; congruence.
  - unfold blocks_tags. cbn [flat_map]. rewrite app_nil_r, data_tags by exact Hd. constructor.
Qed.

Lemma event_shape only h e : event_ok only h e ->
  (forall bs cols, event_blocks only h (ev_cols e) = Ok (bs, cols) -> record_size event_record bs < two32) ->
  exists e1 d bs cols, (forall buf, usable buf -> write_event_record buf only h e = Ok (e1, mkRI 0 0 (rec_hlen event_record) 0 (Zlen d) (Zlen d) event_record,
                                                  mkBuffer (rec_hdr 0 (Zlen d) (Zlen d) event_record ++ d) true)) /\
    event_blocks only h (ev_cols e) = Ok (bs, cols) /\ Zlen d mod 4 = 0 /\ rec_hlen event_record + Zlen d = record_size event_record bs.
Proof.
  intros He Hfit. pose proof He as (H1 & H2 & H3 & H4 & H5 & H6 & H7 & H8 & H9).
  assert (Hcols : Forall (fun nc => exists ty, get_handler (c_type (snd nc)) = Some ty /\ coll_ok ty h (snd nc)) (stored_cols only e)).
  { eapply Forall_impl; [|exact H8]. intros nc (_ & _ & H). exact H. }
  destruct (event_blocks_spec isort only h (ev_cols e) Hcols) as (bs & cols' & Ebs & F1 & F2).
  rewrite stored_cols_eq in F1.
  assert (Hbok : blocks_ok bs).
  { apply Forall_forall. intros b Hbin. destruct (Forall2_in_r _ _ _ _ F1 Hbin) as (nc & Hnc & nc' & Hn & Hvv & _ & ty & p' & _ & _ & _ & Hsh & _).
    split; [apply Hsh|]. rewrite Hn, Hvv. rewrite Forall_forall in H8. destruct (H8 nc Hnc) as (_ & Hl & _).
    split; [unfold vec_len in Hl; lia|]. vm_compute. split; congruence. }
  assert (Htags : blocks_tags bs = flat_map (fun nc => coll_tags h (snd nc)) (stored_cols only e)).
  { clear -F1. induction F1 as [|nc b cols bs (nc' & _ & _ & _ & ty & p' & _ & _ & _ & Hsh & _) F IH]; [reflexivity|].
    unfold blocks_tags in *. cbn [flat_map]. rewrite IH, (sh_tags _ _ _ Hsh). reflexivity. }
  assert (Hptag : part (blocks_tags bs) (flat_map (fun nc => coll_objs h (snd nc)) (stored_cols only e))).
  { rewrite Htags. apply part_flat_map. intros nc _. apply part_tags. }
  pose proof (part_NoDup _ _ Hptag H9) as Hndt.
  destruct (record_shape event_record bs eq_refl Hbok Hndt (Hfit bs cols' Ebs)) as (d & E & Hm & Hl).
  unfold write_event_record. rewrite Ebs. cbn [bind]. do 4 eexists. split; [intros buf Hu; rewrite (E buf Hu); reflexivity|]. split; [reflexivity|]. split; assumption.
Qed.

Lemma item_spec z i b1 b2 : codec_ok comp uncomp -> usable b1 -> usable b2 -> item_ok (z, i) ->
  exists recs s i', encode_item comp z b1 b2 i = Ok (map f_bytes recs, item_key i, i') /\ Forall f_ok recs /\
    encoded b1 b2 i s /\ item_recs recs s.
Proof.
  intros HC U1 U2 Hi. destruct i as [r|h e only]; cbn [item_ok fst snd] in Hi.
  - destruct Hi as [Hr Hs].
    destruct (one_block run_record run_block (write_runhdr r)) as (d & E0 & Hm & Hl); try assumption; try reflexivity.
    { apply data_runhdr. exact Hr. } { destruct Hs; lia. } pose proof (E0 b1 U1) as E.
    destruct (encode_spec z run_record d HC ltac:(vm_compute; congruence) Hm ltac:(rewrite Hl; exact Hs)) as (E2 & K & Ho & N).
    destruct (run_roundtrip b1 r (proj1 U1) (proj2 U1) Hr ltac:(destruct Hs; lia)) as (ri & b' & E3 & _ & R).
    unfold write_run_record in E3. rewrite E in E3. apply Ok_pair in E3; destruct E3 as [<- <-]. cbn [b_bytes] in R. rewrite rec_data_shape in R.
    exists [frec_of z run_record d], (SRun r). eexists. split.
    { unfold encode_item, write_run_record. rewrite E. cbn [bind]. rewrite E2. cbn [bind map]. reflexivity. }
    split; [apply Forall_cons; [exact K|apply Forall_nil]|]. split; [reflexivity|].
    exists (frec_of z run_record d), d. split; [reflexivity|]. split; [exact N|]. split; [exact Ho|exact R].
  - destruct Hi as (He & Hs1 & Hs2).
    destruct (one_block header_record header_block (write_evhdr only e)) as (d & E0 & Hm & Hl); try assumption; try reflexivity.
    { eapply data_evhdr. exact He. } { destruct Hs1; lia. } pose proof (E0 b1 U1) as E.
    destruct (encode_spec z header_record d HC ltac:(vm_compute; congruence) Hm ltac:(rewrite Hl; exact Hs1)) as (E2 & K & Ho & N).
    destruct (event_shape only h e He) as (e1 & d2 & bs & cols & Ee0 & Eb & Hm2 & Hl2).
    { intros bs cols Hb. destruct (Hs2 bs cols Hb). lia. }
    destruct (encode_spec z event_record d2 HC ltac:(vm_compute; congruence) Hm2 ltac:(rewrite Hl2; exact (Hs2 _ _ Eb))) as (E4 & K2 & Ho2 & N2).
    pose proof (Ee0 b2 U2) as Ee.
    exists [frec_of z header_record d; frec_of z event_record d2], (SEvt d d2). eexists. split.
    { unfold encode_item, write_header_record. rewrite E. cbn [bind]. rewrite Ee. cbn [bind]. rewrite E2. cbn [bind]. rewrite E4. cbn [bind map]. reflexivity. }
    split; [apply Forall_cons; [exact K|apply Forall_cons; [exact K2|apply Forall_nil]]|]. split.
    { do 5 eexists. split; [exact E|]. split; [exact Ee|]. cbn [b_bytes]. rewrite !rec_data_shape. split; reflexivity. }
    do 2 eexists. split; [reflexivity|]. split; [exact N|]. split; [exact Ho|]. split; [|split; assumption].
    intros names. destruct (header_roundtrip b1 only names h e (proj1 U1) (proj2 U1) He ltac:(destruct Hs1; lia)) as (ri & b' & E3 & _ & R).
    unfold write_header_record in E3. rewrite E in E3. apply Ok_pair in E3; destruct E3 as [<- <-]. cbn [b_bytes] in R. rewrite rec_data_shape in R. eexists. exact R.
Qed.

(** the contents do not depend on the buffers *)
Lemma encoded_free z i b1 b2 c1 c2 s : usable b1 -> usable b2 -> usable c1 -> usable c2 -> item_ok (z, i) -> encoded b1 b2 i s -> encoded c1 c2 i s.
Proof.
  intros U1 U2 V1 V2 Hi. destruct i as [r|h e only], s as [r'|hd ed]; try (intros []; fail); [intros H; exact H|].
  destruct Hi as (He & Hs1 & Hs2). cbn [fst snd] in *.
  destruct (one_block header_record header_block (write_evhdr only e)) as (d & E0 & Hm & Hl); try assumption; try reflexivity.
  { eapply data_evhdr. exact He. } { destruct Hs1; lia. }
  destruct (event_shape only h e He) as (e1 & d2 & bs & cols & Ee0 & Eb & Hm2 & Hl2).
  { intros bs cols Eb. destruct (Hs2 bs cols Eb). lia. }
  intros (rh & bh & e2 & re & be & W1 & W2 & -> & ->). unfold write_header_record in W1. rewrite (E0 b1 U1) in W1. rewrite (Ee0 b2 U2) in W2.
  exists rh, bh, e2, re, be. unfold write_header_record. rewrite (E0 c1 V1), (Ee0 c2 V2). repeat split; assumption.
Qed.
Lemma encoded_unique z i b1 b2 c1 c2 s s' : usable b1 -> usable b2 -> usable c1 -> usable c2 -> item_ok (z, i) ->
  encoded b1 b2 i s -> encoded c1 c2 i s' -> s = s'.
Proof.
  intros U1 U2 V1 V2 Hi H H'. pose proof (encoded_free z i b1 b2 c1 c2 s U1 U2 V1 V2 Hi H) as H2.
  clear H. destruct i as [r|h e only], s as [r1|hd ed], s' as [r2|hd' ed']; try (exfalso; exact H'); try (exfalso; exact H2); [cbn in *; congruence|].
  destruct H2 as (rh & bh & e2 & re & be & W1 & W2 & -> & ->). destruct H' as (x0 & x1 & x2 & x3 & x4 & Y1 & Y2 & -> & ->).
  rewrite W1 in Y1. apply Ok_inj in Y1. injection Y1 as <- <-. rewrite W2 in Y2. apply Ok_inj in Y2. injection Y2 as <- <- <-. reflexivity.
Qed.

(** ** A sequence of items *)

Lemma fold_write base tail recs : forall bs o, o_state base tail bs o ->
  o_state base tail (bs ++ ftext recs) (fold_left o_write (map f_bytes recs) o).
Proof.
  induction recs as [|x recs IH]; intros bs o Ho; cbn [map fold_left ftext flat_map].
  - rewrite app_nil_r. exact Ho.
  - rewrite app_assoc. apply IH. apply o_state_write. exact Ho.
Qed.

Lemma item_text_recs z i b1 b2 recs k i' : encode_item comp z b1 b2 i = Ok (map f_bytes recs, k, i') ->
  item_text comp b1 b2 (z, i) = ftext recs.
Proof. intros E. unfold item_text. cbn [fst snd]. rewrite E. unfold ftext. rewrite flat_map_concat_map. reflexivity. Qed.

Lemma write_items_spec base tail b1 b2 its : codec_ok comp uncomp -> usable b1 -> usable b2 -> Forall item_ok its -> forall w bs,
  o_state base tail bs (wr_o w) ->
  exists w' lr ss, write_items comp w b1 b2 its = Ok w' /\
    Forall2 (encoded b1 b2) (map snd its) ss /\ Forall2 item_recs lr ss /\ Forall f_ok (concat lr) /\
    Forall2 (fun zi recs => item_text comp b1 b2 zi = ftext recs) its lr /\
    o_state base tail (bs ++ ftext (concat lr)) (wr_o w') /\
    wr_mgr w' = mkMgr (fold_left (fun m e => rm_add m (fst e) (snd e)) (placed comp b1 b2 (o_pos (wr_o w)) its) (mg_map (wr_mgr w)))
                      (mg_list (wr_mgr w)) (mg_file (wr_mgr w)) (mg_raw (wr_mgr w)).
Proof.
  intros HC U1 U2 F. induction F as [|[z i] its Hi F IH]; intros w bs Ho; cbn [write_items placed].
  - exists w, [], []. split; [reflexivity|]. split; [constructor|]. split; [constructor|]. split; [constructor|]. split; [constructor|].
    split; [cbn [concat ftext flat_map]; rewrite app_nil_r; exact Ho|]. destruct (wr_mgr w); reflexivity.
  - destruct (item_spec z i b1 b2 HC U1 U2 Hi) as (recs & s & i' & E & K & En & R).
    unfold write_item. cbn [wr_level set_level wr_o wr_mgr]. rewrite E. cbn [bind].
    pose proof (fold_write base tail recs bs (wr_o w) Ho) as Ho'.
    destruct (IH (mkWr (fold_left o_write (map f_bytes recs) (wr_o w)) (mg_add (wr_mgr w) (item_key i) (o_pos (wr_o w))) z) (bs ++ ftext recs) Ho')
      as (w' & lr & ss & E' & A & B & C & T & D & G).
    exists w', (recs :: lr), (s :: ss). split; [exact E'|]. split; [constructor; assumption|]. split; [constructor; assumption|].
    split; [cbn [concat]; apply Forall_app; auto|]. split; [constructor; [exact (item_text_recs _ _ _ _ _ _ _ E)|exact T]|].
    split; [cbn [concat]; rewrite ftext_app, app_assoc; exact D|].
    rewrite G. cbn [wr_mgr wr_o mg_add mg_map mg_list mg_file mg_raw fold_left fst snd]. f_equal. f_equal. f_equal.
    destruct Ho as [_ Hp], Ho' as [_ Hp']. rewrite Hp', Hp, (item_text_recs _ _ _ _ _ _ _ E), Zlen_app. lia.
Qed.

(** sequential reading of these records *)
Lemma items_stores lr ss l s : Forall2 item_recs lr ss -> stores uncomp l s -> stores uncomp (concat lr ++ l) (ss ++ s).
Proof.
  induction 1 as [|recs si lr ss Hr F IH]; intros H; cbn [concat app]; [exact H|]. rewrite <- app_assoc. apply item_stores; [exact Hr|]. apply IH. exact H.
Qed.

End Codec.
