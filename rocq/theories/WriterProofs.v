(** * A writer object follows its specification: proofs *)

From Verif Require Import Bytes StrMap SioModel SioProofs SioRecord SioRead SioFrame SioSpec Ieee ObjModel ObjSpec ObjProofs ObjCalls CollSpec
  CollProofs ListFacts EventModel EventSpec EventProofs EventFacts IndexModel IndexSpec IndexProofs FileModel FileFrame FileRead IndexFile IndexFacts FileSpec
  FileWrite FileSessions WriterModel WriterSpec.

Lemma save_same d n c : save d n c n = Some c.
Proof. unfold save. rewrite bytes_eqb_refl. reflexivity. Qed.
Lemma save_other d n c m : bytes_eqb m n = false -> save d n c m = d m.
Proof. intros E. unfold save. rewrite E. reflexivity. Qed.
Lemma any_usable : usable any_buffer.
Proof. split; [reflexivity|discriminate]. Qed.
Lemma shape_usable name d : Zlen name <= 64 -> usable (mkBuffer (rec_hdr 0 (Zlen d) (Zlen d) name ++ d) true).
Proof.
  intros Hn. split; [reflexivity|]. cbn [b_bytes]. intros E. pose proof (f_equal (@Zlen byte) E) as L. rewrite Zlen_app, rec_hdr_len, Zlen_nil in L.
  pose proof (Zlen_nonneg d). pose proof (rec_hlen_range name Hn). lia.
Qed.

Section Codec.
Context (comp : Z -> bytes -> bytes) (uncomp : bytes -> option bytes) (HC : codec_ok comp uncomp).

(** ** One item *)

Lemma run_put z r : item_ok (z, WRun r) -> exists ri b x, (forall c, usable c -> write_run_record c r = Ok (ri, b)) /\ usable b /\ encode comp z ri b = Ok x.
Proof.
  intros [Hr Hs]. cbn [fst snd] in *.
  destruct (one_block run_record run_block (write_runhdr r)) as (d & E0 & Hm & Hl); try assumption; try reflexivity.
  { apply data_runhdr. exact Hr. } { destruct Hs; lia. }
  destruct (encode_spec comp uncomp z run_record d HC ltac:(vm_compute; congruence) Hm ltac:(rewrite Hl; exact Hs)) as (E2 & _).
  do 3 eexists. split; [exact E0|]. split; [apply shape_usable; vm_compute; congruence|exact E2].
Qed.
Lemma event_put z h e only : item_ok (z, WEvt h e only) -> exists ri b x e' ri' b' y,
  (forall c, usable c -> write_header_record c only e = Ok (ri, b)) /\ usable b /\ encode comp z ri b = Ok x /\
  (forall c, usable c -> write_event_record c only h e = Ok (e', ri', b')) /\ usable b' /\ encode comp z ri' b' = Ok y.
Proof.
  intros (He & Hs1 & Hs2). cbn [fst snd] in *.
  destruct (one_block header_record header_block (write_evhdr only e)) as (d & E0 & Hm & Hl); try assumption; try reflexivity.
  { eapply data_evhdr. exact He. } { destruct Hs1; lia. }
  destruct (encode_spec comp uncomp z header_record d HC ltac:(vm_compute; congruence) Hm ltac:(rewrite Hl; exact Hs1)) as (E2 & _).
  destruct (event_shape only h e He) as (e1 & d2 & bs & cols & Ee0 & Eb & Hm2 & Hl2).
  { intros bs cols Hb. destruct (Hs2 bs cols Hb). lia. }
  destruct (encode_spec comp uncomp z event_record d2 HC ltac:(vm_compute; congruence) Hm2 ltac:(rewrite Hl2; exact (Hs2 _ _ Eb))) as (E4 & _).
  do 7 eexists. split; [exact E0|]. split; [apply shape_usable; vm_compute; congruence|]. split; [exact E2|].
  split; [exact Ee0|]. split; [apply shape_usable; vm_compute; congruence|exact E4].
Qed.

(** the bytes of an item do not depend on the buffers *)
Lemma text_free zi b1 b2 c1 c2 : item_ok zi -> usable b1 -> usable b2 -> usable c1 -> usable c2 ->
  item_text comp b1 b2 zi = item_text comp c1 c2 zi.
Proof.
  destruct zi as [z [r|h e only]]; cbn [snd]; intros Hi U1 U2 V1 V2; unfold item_text, encode_item; cbn [fst snd].
  - destruct (run_put z r Hi) as (ri & b & x & E & _ & _). rewrite (E b1 U1), (E c1 V1). reflexivity.
  - destruct (event_put z h e only Hi) as (ri & b & x & e' & ri' & b' & y & E & _ & _ & E' & _). rewrite (E b1 U1), (E c1 V1), (E' b2 U2), (E' c2 V2). reflexivity.
Qed.

Definition wo_write (w : wobj) (i : witem) : Res unit * wobj :=
  match i with WRun r => wo_run comp w r | WEvt h e _ => wo_event comp w h e end.
Definition whole (i : witem) : Prop := match i with WRun _ => True | WEvt _ _ only => only = [] end.

Lemma write_good w n o i W : wo_stream w = Some (n, o) -> wo_good w = true -> usable (wo_raw w) -> whole i -> item_ok (wo_level w, i) -> wr_o W = o -> wr_mgr W = wo_mgr w ->
  exists w1 o1 g1, wo_write w i = (Ok tt, w1) /\ wo_stream w1 = Some (n, o1) /\ wo_good w1 = true /\ usable (wo_raw w1) /\ wo_level w1 = wo_level w /\ wo_mgr w1 = g1 /\
    wo_disk w1 n = Some (o_data o1) /\ (forall m, bytes_eqb m n = false -> wo_disk w1 m = wo_disk w m) /\
    write_item comp (set_level W (wo_level w)) any_buffer any_buffer i = Ok (mkWr o1 g1 (wo_level w)).
Proof.
  intros Hs Hg Hu Hw Hi HWo HWg. destruct i as [r|h e only]; cbn [wo_write].
  - destruct (run_put _ _ Hi) as (ri & b & x & E & Ub & Ex). unfold wo_run. rewrite Hs, (E _ Hu). unfold wo_put. rewrite Ex. cbn [set_raw wo_stream wo_good]. rewrite Hs, Hg.
    eexists _, (o_write o x), _. split; [reflexivity|]. cbn [set_mgr put_stream set_raw wo_disk wo_stream wo_good wo_raw wo_level wo_mgr].
    split; [reflexivity|]. split; [reflexivity|]. split; [exact Ub|]. split; [reflexivity|]. split; [reflexivity|]. split; [apply save_same|].
    split; [intros m Hm; apply save_other; exact Hm|]. unfold write_item, encode_item. cbn [set_level wr_level wr_o wr_mgr]. rewrite (E _ any_usable). cbn [bind]. rewrite Ex. cbn [bind fold_left].
    rewrite HWo, HWg. reflexivity.
  - cbn [whole] in Hw. subst only. destruct (event_put _ _ _ _ Hi) as (ri & b & x & e' & ri' & b' & y & E & Ub & Ex & E' & Ub' & Ey).
    unfold wo_event. rewrite Hs, (E _ Hu). unfold wo_put. rewrite Ex. cbn [set_raw wo_stream wo_good]. rewrite Hs, Hg.
    cbv beta iota zeta. cbn [set_mgr put_stream set_raw wo_disk wo_stream wo_good wo_raw wo_level wo_mgr]. rewrite (E' _ Ub). cbv beta iota zeta.
    cbn [set_mgr put_stream set_raw wo_disk wo_stream wo_good wo_raw wo_level wo_mgr]. rewrite Ey. cbv beta iota zeta.
    eexists _, (o_write (o_write o x) y), _. split; [reflexivity|]. cbn [set_mgr put_stream set_raw wo_disk wo_stream wo_good wo_raw wo_level wo_mgr].
    split; [reflexivity|]. split; [reflexivity|]. split; [exact Ub'|]. split; [reflexivity|]. split; [reflexivity|]. split; [apply save_same|].
    split; [intros m Hm; rewrite !save_other by exact Hm; reflexivity|]. unfold write_item, encode_item. cbn [set_level wr_level wr_o wr_mgr].
    rewrite (E _ any_usable). cbn [bind]. rewrite (E' _ any_usable). cbn [bind]. rewrite Ex. cbn [bind]. rewrite Ey. cbn [bind fold_left]. rewrite HWo, HWg. reflexivity.
Qed.

(** a stream that failed *)
Lemma write_stuck w n o i : wo_stream w = Some (n, o) -> wo_good w = false -> usable (wo_raw w) -> whole i -> item_ok (wo_level w, i) ->
  exists b, wo_write w i = (Throw EBadState, set_raw w b) /\ usable b.
Proof.
  intros Hs Hg Hu Hw Hi. destruct i as [r|h e only]; cbn [wo_write].
  - destruct (run_put _ _ Hi) as (ri & b & x & E & Ub & Ex). unfold wo_run. rewrite Hs, (E _ Hu). unfold wo_put. rewrite Ex. cbn [set_raw wo_stream wo_good]. rewrite Hs, Hg.
    exists b. split; [reflexivity|exact Ub].
  - cbn [whole] in Hw. subst only. destruct (event_put _ _ _ _ Hi) as (ri & b & x & e' & ri' & b' & y & E & Ub & Ex & E' & Ub' & Ey).
    unfold wo_event. rewrite Hs, (E _ Hu). unfold wo_put. rewrite Ex. cbn [set_raw wo_stream wo_good]. rewrite Hs, Hg.
    exists b. split; [reflexivity|exact Ub].
Qed.

Lemma write_items_snoc b1 b2 l : forall w zi, write_items comp w b1 b2 (l ++ [zi]) = do w' <- write_items comp w b1 b2 l; write_item comp (set_level w' (fst zi)) b1 b2 (snd zi).
Proof.
  induction l as [|[z i] l IH]; intros w zi; cbn [app write_items].
  - destruct zi as [z i]. cbn [bind fst snd]. destruct (write_item _ _ _ _ _); reflexivity.
  - destruct (write_item comp (set_level w z) b1 b2 i); cbn [bind]; [apply IH|reflexivity|reflexivity].
Qed.

(** ** Sessions *)

Lemma opening_new raw : usable raw -> mgr_ready (new_mgr raw) (Zlen (@nil byte)).
Proof.
  intros U. split; [exact no_remap_ok|]. split; [exact U|]. destruct new_file_good as (G1 & G2 & G3). split; [exact G1|]. split; [cbn; lia|]. left. split; reflexivity.
Qed.
Lemma open_append_ext d d' name name' lv raw : sio_filename name = sio_filename name' -> d (sio_filename name) = d' (sio_filename name') -> open_append uncomp d name lv raw = open_append uncomp d' name' lv raw.
Proof. intros _ E. unfold open_append. rewrite E. reflexivity. Qed.
Lemma append_sessions_snoc name l : forall d s, append_sessions comp uncomp d name (l ++ [s]) = do d' <- append_sessions comp uncomp d name l; append_session comp uncomp d' name s.
Proof.
  induction l as [|x l IH]; intros d s; cbn [app append_sessions].
  - cbn [bind]. destruct (append_session _ _ _ _ _); reflexivity.
  - destruct (append_session comp uncomp d name x); cbn [bind]; [apply IH|reflexivity|reflexivity].
Qed.

(** a file that was closed can be opened for appending *)
Lemma opening_append d f raw : wf_ok comp uncomp d f -> usable raw -> exists base tail g s',
  d (wf_name f) = Some (base ++ tail) /\ Zlen tail = access_size /\ init_append uncomp (open_ifs (base ++ tail)) (new_mgr raw) = (Ok true, s', g) /\
  mg_map g = no_remap /\ mgr_ready g (Zlen base) /\ mgr_count g <= 2 * count (wf_sess f) /\ Zlen base <= volume comp (wf_sess f) + 400 * count (wf_sess f).
Proof.
  intros [(K1 & K2 & K3 & K4) (d0 & d1 & name & En & Es & Ed)] U. unfold wf_sess in *.
  destruct (sessions_inv comp uncomp d0 name (wf_first f) (wf_more f) HC K1 K2 K3 K4) as (d' & data & body & E & Ess & S & Es' & Hd & _ & Hinv).
  rewrite Es in Es'. apply Ok_inj in Es'. subst d'. rewrite <- En in Hd.
  destruct Hinv as (lb & fra & fr & xa & a & I1 & I2 & I3 & I4 & I5 & I6 & I7 & I8 & I9 & I10 & I11 & I12 & I13 & I14 & I15 & I16 & I17 & I18 & I19 & I20 & I21).
  destruct (append_open comp uncomp data body fra fr xa a raw I2 I4 I7 I8) as (s' & raw' & Ea & Hraw').
  assert (Hra : ra_next fr < Zlen body). { pose proof (rec_at_range _ _ _ (proj2 (access_name _ _ I8)) I7). lia. }
  exists body, (f_bytes fra), (mkMgr no_remap [a] (Some fr) raw'), s'.
  split; [rewrite Ed, Hd, I2; reflexivity|]. split; [destruct I4 as (_ & _ & E4 & _); rewrite f_bytes_len, E4; reflexivity|]. split; [rewrite <- I2; exact Ea|].
  split; [reflexivity|]. split.
  { split; [exact no_remap_ok|]. split; [exact Hraw'|]. split; [exact I9|]. split; [cbn [file_start mg_file]; lia|]. right. exists a. cbn [mg_list].
    split; [reflexivity|]. split; [exact I10|]. split; [exact I11|]. rewrite I12. exact Hra. }
  split; [|exact I20]. unfold mgr_count. cbn [file_start mg_file mg_list mg_map no_remap rm_map fold_right]. change (Zlen (@nil (runevt * Z))) with 0. lia.
Qed.

(** ** The state between calls *)

(** how the writer of an open file was before the first item *)
Record origin (n : bytes) (before : list session) (base tail : bytes) (g : ramgr) (raw : buffer) : Prop := mkOrigin {
  or_raw : usable raw; or_map : mg_map g = no_remap; or_ready : mgr_ready g (Zlen base); or_tail : Zlen tail <= access_size;
  or_count : mgr_count g <= 2 * items_in before; or_base : Zlen base <= bytes_in comp before + 400 * items_in before;
  or_case : (before = [] /\ base = [] /\ tail = [] /\ g = new_mgr raw) \/
    (exists d f s', wf_ok comp uncomp d f /\ wf_name f = n /\ map ss_items (wf_sess f) = before /\ d n = Some (base ++ tail) /\ Zlen tail = access_size /\
       init_append uncomp (open_ifs (base ++ tail)) (new_mgr raw) = (Ok true, s', g)) }.

Lemma items_in_app l x : items_in (l ++ [x]) = items_in l + Zlen x.
Proof. induction l as [|y l IH]; cbn [app items_in fold_right]; [lia|]. fold (items_in (l ++ [x])). rewrite IH. fold (items_in l). lia. Qed.
Lemma bytes_in_app l x : bytes_in comp (l ++ [x]) = bytes_in comp l + Zlen (flat_map (item_text comp any_buffer any_buffer) x).
Proof. induction l as [|y l IH]; cbn [app bytes_in fold_right]; [lia|]. fold (bytes_in comp (l ++ [x])). rewrite IH. fold (bytes_in comp l). lia. Qed.
Lemma items_in_nonneg l : 0 <= items_in l.
Proof. induction l as [|s l IH]; cbn [items_in fold_right]; [lia|]. fold (items_in l). pose proof (Zlen_nonneg s). lia. Qed.
Lemma bytes_in_nonneg l : 0 <= bytes_in comp l.
Proof. induction l as [|s l IH]; cbn [bytes_in fold_right]; [lia|]. fold (bytes_in comp l). pose proof (Zlen_nonneg (flat_map (item_text comp any_buffer any_buffer) s)). lia. Qed.
Lemma count_items l : count l = items_in (map ss_items l).
Proof. induction l as [|s l IH]; [reflexivity|]. cbn [map items_in count fold_right]. fold (count l) (items_in (map ss_items l)). rewrite IH. reflexivity. Qed.
Lemma text_any s : sess_ok s -> sess_text comp s = flat_map (item_text comp any_buffer any_buffer) (ss_items s).
Proof.
  intros (_ & U1 & U2 & F & _). unfold sess_text. induction F as [|zi l Hi F IH]; [reflexivity|]. cbn [flat_map]. f_equal; [|exact IH].
  apply text_free; try assumption; exact any_usable.
Qed.
Lemma volume_bytes l : Forall sess_ok l -> volume comp l = bytes_in comp (map ss_items l).
Proof.
  induction 1 as [|s l Hs F IH]; [reflexivity|]. cbn [map bytes_in volume fold_right]. fold (volume comp l) (bytes_in comp (map ss_items l)).
  rewrite IH, (text_any s Hs). reflexivity.
Qed.
Lemma session_sess lv raw its : usable raw -> session_ok its -> sess_ok (mkSess lv raw any_buffer any_buffer its).
Proof. intros U [F R]. split; [exact U|]. split; [exact any_usable|]. split; [exact any_usable|]. split; [exact F|exact R]. Qed.

Lemma on_disk_ext d d' n x : d n = d' n -> on_disk comp uncomp d n x -> on_disk comp uncomp d' n x.
Proof.
  intros E. unfold on_disk. destruct x as [l|]; [|congruence]. destruct (begun l); [|congruence].
  intros (f & <- & [K (d0 & d1 & name & A & B & C)] & M). exists f. split; [reflexivity|]. split; [|exact M]. split; [exact K|]. exists d0, d1, name. split; [exact A|]. split; [exact B|congruence].
Qed.

Lemma begun_app l x : begun l = true -> begun (l ++ [x]) = true.
Proof. destruct l as [|[|y s] l]; try discriminate. reflexivity. Qed.
Lemma begun_wf f l : ss_items (wf_first f) <> [] -> map ss_items (wf_sess f) = l -> begun l = true.
Proof. unfold wf_sess. cbn [map]. intros H <-. cbn [begun]. destruct (ss_items (wf_first f)); [contradiction|reflexivity]. Qed.

(** closing a file *)
Lemma closing n before base tail g lv raw now w' : (exists name, n = sio_filename name) -> origin n before base tail g raw -> sessions_fit comp (before ++ [now]) ->
  write_items comp (mkWr (mkO (base ++ tail) (Zlen base)) g lv) any_buffer any_buffer now = Ok w' ->
  match now with
  | [] => w' = mkWr (mkO (base ++ tail) (Zlen base)) g lv /\ forall d, d n = Some (base ++ tail) -> on_disk comp uncomp d n (Some (before ++ [now]))
  | _ => rm_map (mg_map (wr_mgr w')) <> [] /\ exists g' o', write_access (wr_mgr w') (wr_o w') = Ok (g', o') /\ usable (mg_raw g') /\
           forall d, d n = Some (o_data o') -> on_disk comp uncomp d n (Some (before ++ [now]))
  end.
Proof.
  intros [name0 Hname] [Hraw Hmap Hready Htail Hcnt Hbase Hcase] (Hs & Hi & Hv) Hw.
  rewrite items_in_app in Hi. rewrite bytes_in_app in Hv. apply Forall_app in Hs. destruct Hs as [Hs1 Hs2]. inversion Hs2 as [|? ? Hs _]; subst x l.
  pose proof (items_in_nonneg before) as Hi0. pose proof (bytes_in_nonneg before) as Hb0.
  set (s := mkSess lv raw any_buffer any_buffer now).
  assert (Hsok : sess_ok s) by (apply session_sess; assumption).
  (* the file after the session, if the writer is run *)
  assert (Hdone : forall data, run_writer comp (mkWr (mkO (base ++ tail) (Zlen base)) g lv) s = Ok data -> (before = [] -> now <> []) ->
            forall d, d n = Some data -> on_disk comp uncomp d n (Some (before ++ [now]))).
  { intros data Hrun Hne d Hd. destruct Hcase as [(-> & -> & -> & ->)|(d1 & f & s' & [(K1 & K2 & K3 & K4) (d0 & d1' & name & En & Es & Ed)] & <- & Hm & Hdn & Ht & Hia)].
    - specialize (Hne eq_refl). cbn [app]. unfold on_disk. replace (begun [now]) with true by (destruct now; [contradiction|reflexivity]).
      exists (mkWF n s []). split; [reflexivity|]. split; [|reflexivity]. split.
      + split; [constructor; [exact Hsok|constructor]|]. split; [exact Hne|]. unfold wf_sess. cbn [wf_first wf_more].
        rewrite count_items, volume_bytes by (constructor; [exact Hsok|constructor]). cbn [map ss_items s items_in bytes_in fold_right]. cbn [items_in bytes_in fold_right] in Hi, Hv. lia.
      + exists (fun _ => None), (save (fun _ => None) n data), name0. cbn [wf_name wf_first wf_more]. split; [exact Hname|]. split.
        * unfold sessions, new_session, open_new. cbn [bind ss_level ss_raw s]. unfold s in *. cbn [app] in Hrun. rewrite Zlen_nil in Hrun. rewrite Hrun. cbn [bind append_sessions]. rewrite Hname. reflexivity.
        * rewrite save_same. exact Hd.
    - unfold wf_sess in *. assert (Hb : begun before = true) by (eapply begun_wf; [exact K2|exact Hm]). unfold on_disk. rewrite (begun_app _ _ Hb).
      exists (mkWF (wf_name f) (wf_first f) (wf_more f ++ [s])). split; [reflexivity|].
      assert (Hm2 : map ss_items (wf_first f :: wf_more f ++ [s]) = before ++ [now]).
      { cbn [map]. rewrite map_app. cbn [map] in *. rewrite <- Hm. reflexivity. }
      split; [|exact Hm2]. split.
      + unfold wf_sess. cbn [wf_first wf_more]. assert (F : Forall sess_ok (wf_first f :: wf_more f ++ [s])).
        { inversion K1; subst. constructor; [assumption|]. apply Forall_app. split; [assumption|]. constructor; [exact Hsok|constructor]. }
        split; [exact F|]. split; [exact K2|]. rewrite count_items, volume_bytes by exact F. rewrite Hm2, items_in_app, bytes_in_app. lia.
      + exists d0, (save d1' (wf_name f) data), name. cbn [wf_name wf_first wf_more]. split; [exact En|]. split; [|rewrite save_same; exact Hd].
        unfold sessions in *. destruct (new_session comp d0 name (wf_first f)) as [dx|?|?]; try discriminate Es. cbn [bind] in *.
        rewrite append_sessions_snoc, Es. cbn [bind]. unfold append_session, open_append. rewrite <- En, <- Ed, Hdn. cbn [ss_level ss_raw s]. rewrite Hia. cbn [bind].
        assert (Hl : Zlen (base ++ tail) - access_size = Zlen base) by (rewrite Zlen_app; lia).
        replace (Zlen (base ++ tail) <? access_size) with false by (pose proof (Zlen_nonneg base); lia). cbn [bind]. rewrite Hl. rewrite Hrun. reflexivity. }
  assert (HA : now = [] -> w' = mkWr (mkO (base ++ tail) (Zlen base)) g lv /\ forall d, d n = Some (base ++ tail) -> on_disk comp uncomp d n (Some (before ++ [now]))).
  { intros Hnow. rewrite Hnow in Hw. cbn [write_items] in Hw. apply Ok_inj in Hw. split; [symmetry; exact Hw|]. intros d Hd.
    destruct Hcase as [(Q1 & Q2 & Q3 & _)|Hc].
    + rewrite Q1, Hnow. rewrite Q2, Q3 in Hd. cbn [app] in *. exact Hd.
    + apply (Hdone (base ++ tail)); [|intros Q; destruct Hc as (? & f & ? & [(_ & K2 & _) _] & _ & Hm & _); apply (begun_wf f _ K2) in Hm; rewrite Q in Hm; discriminate Hm|exact Hd].
      unfold run_writer. cbn [ss_items s]. rewrite Hnow. cbn [write_items bind]. unfold close_writer, write_access. cbn [wr_mgr wr_o]. rewrite Hmap. reflexivity. }
  assert (HB : now <> [] -> rm_map (mg_map (wr_mgr w')) <> [] /\ exists g' o', write_access (wr_mgr w') (wr_o w') = Ok (g', o') /\ usable (mg_raw g') /\
           forall d, d n = Some (o_data o') -> on_disk comp uncomp d n (Some (before ++ [now]))).
  { intros Hne. clear HA.
    pose proof (text_any s Hsok) as Ht. cbn [ss_items s] in Ht. pose proof (Zlen_nonneg now) as Hn0.
    pose proof (Zlen_nonneg (flat_map (item_text comp any_buffer any_buffer) now)) as Hx0.
    assert (B0 : Zlen now < 2 ^ 27) by lia. assert (B1 : mgr_count g + Zlen now < 2 ^ 31) by lia.
    assert (B2 : Zlen base + Zlen (sess_text comp s) < 2 ^ 62) by (rewrite Ht; lia).
    destruct (session_step comp uncomp g lv base tail s HC Hsok Hne Hmap Hready Htail B0 B1 B2)
      as (lr & ss & ix & ra & fra & a & f & (w2 & g' & o' & Ew & Ea & Ug) & Er & _). cbn [ss_b1 ss_b2 ss_items s] in Ew.
    rewrite Hw in Ew. apply Ok_inj in Ew. subst w2. split.
    + destruct (write_items_spec comp uncomp base tail any_buffer any_buffer now HC any_usable any_usable (proj1 Hs) (mkWr (mkO (base ++ tail) (Zlen base)) g lv) [] (o_state_start _ _))
        as (w2 & _ & _ & Ew2 & _ & _ & _ & _ & _ & Hmg). rewrite Hw in Ew2. apply Ok_inj in Ew2. subst w2. rewrite Hmg. cbn [mg_map wr_mgr wr_o o_pos]. rewrite Hmap.
      fold (index_of (placed comp any_buffer any_buffer (Zlen base) now)).
      assert (He : Forall entry_ok (placed comp any_buffer any_buffer (Zlen base) now)).
      { apply placed_ok; [exact (proj1 Hs)|apply Zlen_nonneg|]. rewrite Ht in B2. lia. }
      destruct now as [|zi now0]; [contradiction|]. apply index_nonempty. exact He.
    + exists g', o'. split; [exact Ea|]. split; [exact Ug|]. apply Hdone; [|intros _; exact Hne].
      unfold run_writer. cbn [ss_b1 ss_b2 ss_items s]. rewrite Hw. cbn [bind]. unfold close_writer. rewrite Ea. reflexivity. }
  destruct now as [|zi now0]; [apply HA; reflexivity|apply HB; discriminate].
Qed.

End Codec.
