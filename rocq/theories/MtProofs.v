(** * MT::LCWriter follows its specification: proofs *)

From Verif Require Import Bytes StrMap SioModel SioProofs SioRecord SioRead SioFrame SioSpec Ieee ObjModel ObjSpec ObjProofs ObjCalls CollSpec
  CollProofs ListFacts EventModel EventSpec EventProofs EventFacts IndexModel IndexSpec IndexProofs FileModel FileFrame FileRead IndexFile IndexFacts FileSpec
  FileWrite FileSessions FileSeq FileDeliver FileFacts FileUse FileDirect FileMore ThreadModel ThreadProofs WriterModel WriterSpec WriterProofs WriterRun MtModel MtSpec.

Section Codec.
Context (comp : Z -> bytes -> bytes) (uncomp : bytes -> option bytes) (HC : codec_ok comp uncomp).

Lemma encode_text z rb : encode comp z (fst rb) (snd rb) = if negb (z =? 0) then comp_text comp z rb else Ok (plain_text rb).
Proof. unfold encode, comp_text, plain_text. destruct (negb (z =? 0)); reflexivity. Qed.

(** the records of an item *)
Lemma item_records z n i : 0 < n -> item_ok (z, i) -> exists raws recs i', raw_item n i = Ok (raws, item_key i) /\ 0 < last_size raws < two32 /\
  (if negb (z =? 0) then comp_texts comp z raws else Ok (map plain_text raws)) = Ok recs /\
  encode_item comp z any_buffer any_buffer i = Ok (recs, item_key i, i').
Proof.
  intros Hn Hi. destruct (new_buffer_ok n Hn) as (b & Eb & Ub). pose proof any_usable as Ua.
  destruct i as [r|h e only]; cbn [item_ok fst snd] in Hi; cbn [raw_item item_key].
  - destruct Hi as [Hr Hs].
    destruct (one_block run_record run_block (write_runhdr r)) as (d & E0 & Hm & Hl); try assumption; try reflexivity.
    { apply data_runhdr. exact Hr. } { destruct Hs; lia. }
    destruct (encode_spec comp uncomp z run_record d HC ltac:(vm_compute; congruence) Hm ltac:(rewrite Hl; exact Hs)) as (E2 & _).
    rewrite Eb. cbn [bind]. unfold write_run_record. rewrite (E0 b Ub). cbn [bind]. eexists _, _, _. split; [reflexivity|].
    split; [cbn [last_size fold_left snd b_bytes]; eapply shape_size; [exact Hl|apply Hs|vm_compute; discriminate]|].
    unfold encode_item, write_run_record. rewrite (E0 _ Ua). cbn [bind]. rewrite E2. cbn [bind]. split; [|reflexivity].
    match goal with |- context [comp_texts _ _ [?rb]] => pose proof (encode_text z rb) as Q end. cbn [fst snd] in Q. rewrite E2 in Q.
    cbn [comp_texts map]. destruct (negb (z =? 0)); [rewrite <- Q; reflexivity|]. apply Ok_inj in Q. rewrite Q. reflexivity.
  - destruct Hi as (He & Hs1 & Hs2).
    destruct (one_block header_record header_block (write_evhdr only e)) as (d & E0 & Hm & Hl); try assumption; try reflexivity.
    { eapply data_evhdr. exact He. } { destruct Hs1; lia. }
    destruct (encode_spec comp uncomp z header_record d HC ltac:(vm_compute; congruence) Hm ltac:(rewrite Hl; exact Hs1)) as (E2 & _).
    destruct (event_shape only h e He) as (e1 & d2 & bs & cols & Ee0 & Ebs & Hm2 & Hl2).
    { intros bs cols Hb. destruct (Hs2 bs cols Hb). lia. }
    destruct (encode_spec comp uncomp z event_record d2 HC ltac:(vm_compute; congruence) Hm2 ltac:(rewrite Hl2; exact (Hs2 _ _ Ebs))) as (E4 & _).
    rewrite Eb. cbn [bind]. unfold write_header_record. rewrite (E0 b Ub). cbn [bind]. rewrite (Ee0 b Ub). cbn [bind]. eexists _, _, _. split; [reflexivity|].
    split; [cbn [last_size fold_left snd b_bytes]; eapply shape_size; [exact Hl2|apply (Hs2 _ _ Ebs)|vm_compute; discriminate]|].
    unfold encode_item, write_header_record. rewrite (E0 _ Ua). cbn [bind]. rewrite (Ee0 _ Ua). cbn [bind]. rewrite E2. cbn [bind]. rewrite E4. cbn [bind]. split; [|reflexivity].
    match goal with |- context [comp_texts _ _ [?rb; ?rc]] => pose proof (encode_text z rb) as Q; pose proof (encode_text z rc) as Q2 end. cbn [fst snd] in Q, Q2. rewrite E2 in Q. rewrite E4 in Q2.
    cbn [comp_texts map]. destruct (negb (z =? 0)); [rewrite <- Q; cbn [bind]; rewrite <- Q2; reflexivity|]. apply Ok_inj in Q. apply Ok_inj in Q2. rewrite Q, Q2. reflexivity.
Qed.

Context (mraw : buffer) (Um : usable mraw) (U : list bytes).

(** the writer and the disk are as the specification says *)
Record mfollows (w : mobj) (s : mp) : Prop := mkMF {
  mf_w : follows comp uncomp U (mo_w w) (fst s); mf_stuck : sp_stuck (fst s) = false; mf_there : mo_there w = snd s;
  mf_cur : sp_cur (fst s) <> None -> snd s = true; mf_max : 0 < mo_max w < two32 }.

Lemma mt_follow_write w s i : mfollows w s -> item_ok (sp_level (fst s), i) -> sp_fits comp (snd (sp_write (fst s) i)) ->
  exists w1, mt_write comp w i = (fst (sp_write (fst s) i), w1) /\ mfollows w1 (snd (sp_write (fst s) i), snd s) /\ (forall m, ~ In m U -> wo_disk (mo_w w1) m = wo_disk (mo_w w) m).
Proof.
  intros [[Hl Hr Hf Hfit Hc] Hst Hth Hcur Hmax] Hi Hfit1. destruct s as [s there]. cbn [fst snd] in *. rewrite <- Hl in Hi.
  destruct (item_records _ _ _ (proj1 Hmax) Hi) as (raws & recs & i' & E1 & Hsz & E2 & E3). unfold mt_write. rewrite E1. cbn [bind]. rewrite E2. cbn [bind].
  unfold sp_write in *. destruct (sp_cur s) as [[[n before] now]|] eqn:Ec.
  - rewrite Hst in *. cbn [fst snd] in *. specialize (Hcur ltac:(discriminate)). rewrite Hcur in *.
    destruct Hc as (base & tail & g & lv & raw & w' & Hname & HU & Hs & Hg & Hne & Hd & Hor & Hwi & Hmg). rewrite Hs, Hg, Hth. cbn [negb].
    eexists. split; [reflexivity|]. cbn [mo_w]. split.
    + constructor; cbn [fst snd mo_w mo_there mo_max sp_stuck sp_cur]; try reflexivity.
      * constructor; cbn [WriterModel.set_mgr put_stream wo_level wo_raw wo_disk wo_stream wo_good wo_mgr sp_level sp_cur sp_files sp_stuck]; [exact Hl|exact Hr| |exact Hfit1|].
        { intros m Hm Hcm. unfold is_cur in *. cbn [sp_cur] in Hcm. rewrite Ec in Hf. apply (on_disk_ext comp uncomp (wo_disk (mo_w w))); [symmetry; apply save_other; exact Hcm|]. apply Hf; [exact Hm|exact Hcm]. }
        exists base, tail, g, lv, raw, (mkWr (fold_left o_write recs (wr_o w')) (mg_add (wr_mgr w') (item_key i) (o_pos (wr_o w'))) (sp_level s)). cbn [wr_o wr_mgr negb].
        split; [exact Hname|]. split; [exact HU|]. split; [reflexivity|]. split; [reflexivity|]. split; [exact Hne|]. split; [apply save_same|]. split; [exact Hor|]. split; [|rewrite Hmg; reflexivity].
        rewrite write_items_snoc, Hwi. cbn [bind fst snd]. unfold write_item. cbn [set_level wr_level wr_o wr_mgr]. rewrite <- Hl, E3. cbn [bind]. reflexivity.
      * destruct (mo_max w <? last_size raws); [|exact Hmax]. unfold u32. rewrite Z.mod_small by lia. exact Hsz.
    + intros m Hm. cbn [WriterModel.set_mgr put_stream wo_disk]. apply save_other. destruct (bytes_eqb m n) eqn:Q; [|reflexivity]. apply bytes_eqb_eq in Q. subst m. contradiction.
  - destruct Hc as [Hs Hm]. rewrite Hs. cbn [fst snd]. exists w. split; [reflexivity|]. split; [|reflexivity].
    constructor; cbn [fst snd]; try assumption; [|rewrite Ec; exact Hcur]. constructor; try assumption. rewrite Ec. split; assumption.
Qed.

Lemma mt_follow_open w s name mode : mfollows w s -> In (sio_filename name) U -> sp_cur (fst s) = None -> sp_fits comp (snd (sp_open (fst s) name mode)) ->
  exists w1, mt_open uncomp mraw w name mode = (fst (sp_open (fst s) name mode), w1) /\ mfollows w1 (snd (sp_open (fst s) name mode), true) /\ (forall m, ~ In m U -> wo_disk (mo_w w1) m = wo_disk (mo_w w) m).
Proof.
  intros [Hw Hst Hth Hcur Hmax] HU Ec Hfit1. destruct s as [s there]. cbn [fst snd] in *.
  assert (Hfo : follows comp uncomp U (WriterModel.set_mgr (mo_w w) (new_mgr mraw)) s).
  { destruct Hw as [Hl Hr Hf Hfit Hc]. rewrite Ec in Hc. constructor; cbn [WriterModel.set_mgr wo_level wo_raw wo_disk wo_stream wo_good wo_mgr]; try assumption.
    rewrite Ec. split; [exact (proj1 Hc)|]. exists mraw. split; [reflexivity|exact Um]. }
  assert (Hcov : forall md, covered s (COpen name md)).
  { intros md. cbn [covered]. rewrite Ec. destruct md as [|[p|p|]|p]; try exact Logic.I. }
  destruct (follow_call comp uncomp HC U _ s (COpen name mode) Hfo ltac:(intros x [<-|[]]; exact HU) (Hcov mode) Logic.I Hfit1) as (w1 & E & Hfo1 & Ho).
  cbn [wo_do sp_do] in E, Hfo1. unfold mt_open. rewrite E. eexists. split; [reflexivity|]. cbn [mo_w]. split; [|exact Ho].
  constructor; cbn [fst snd mo_w mo_there mo_max]; try assumption; try reflexivity.
  unfold sp_open. cbv zeta. rewrite Ec. destruct (mode =? 0); [reflexivity|]. destruct (mode =? 1); [|exact Hst]. destruct (sp_files s (sio_filename name)) as [l|]; [destruct (begun l)|]; (reflexivity || exact Hst).
Qed.

Lemma mt_follow_call w s c : mfollows w s -> incl (mt_name c) U -> one_at_a_time (fst s) c -> item_fits (fst s) c -> sp_fits comp (fst (snd (mp_do s c))) ->
  exists w1, mt_do comp uncomp mraw w c = (fst (mp_do s c), w1) /\ mfollows w1 (snd (mp_do s c)) /\ (forall m, ~ In m U -> wo_disk (mo_w w1) m = wo_disk (mo_w w) m).
Proof.
  intros Hfo HU Hone Hfits Hfit1. destruct c as [name|name mode|z|i|]; cbn [mt_do mp_do mt_name one_at_a_time item_fits] in *.
  - assert (Hn : In (sio_filename name) U) by (apply HU; left; reflexivity). unfold mt_create. pose proof Hfo as [[_ _ Hf _ Hc] _ _ _ _].
    destruct (sp_files (fst s) (sio_filename name)) as [l|] eqn:Efile.
    + assert (Hex : wo_disk (mo_w w) (sio_filename name) <> None).
      { destruct (is_cur (fst s) (sio_filename name)) eqn:Q.
        - unfold is_cur in Q. destruct (sp_cur (fst s)) as [[[n b] nw]|]; [|discriminate Q]. destruct Hc as (base & tail & g & lv & raw & w' & _ & _ & _ & _ & _ & Hd & _).
          apply bytes_eqb_eq in Q. rewrite Q, Hd. discriminate.
        - specialize (Hf _ Hn Q). rewrite Efile in Hf. cbn [on_disk] in Hf. destruct (begun l); [|congruence].
          destruct Hf as (f & Hnm & Hwf & _). destruct (opening_append comp uncomp HC (wo_disk (mo_w w)) f any_buffer Hwf any_usable) as (base & tail & _ & _ & Hd & _). rewrite Hnm in Hd. congruence. }
      destruct (wo_disk (mo_w w) (sio_filename name)); [|contradiction]. exists w. split; [reflexivity|]. split; [exact Hfo|reflexivity].
    + destruct Hone as [Hone|Hone]; [|contradiction]. assert (Q : is_cur (fst s) (sio_filename name) = false) by (unfold is_cur; rewrite Hone; reflexivity).
      specialize (Hf _ Hn Q). rewrite Efile in Hf. cbn [on_disk] in Hf. rewrite Hf.
      destruct (mt_follow_open w s name 0 Hfo Hn Hone) as (w1 & E & Hfo1 & Ho); [destruct (sp_open (fst s) name 0); exact Hfit1|].
      exists w1. rewrite E. destruct (sp_open (fst s) name 0) as [r s1]. cbn [fst snd] in *. split; [reflexivity|]. split; assumption.
  - assert (Hn : In (sio_filename name) U) by (apply HU; left; reflexivity).
    destruct (mt_follow_open w s name mode Hfo Hn Hone) as (w1 & E & Hfo1 & Ho); [destruct (sp_open (fst s) name mode); exact Hfit1|].
    exists w1. rewrite E. destruct (sp_open (fst s) name mode) as [r s1]. cbn [fst snd] in *. split; [reflexivity|]. split; assumption.
  - eexists. split; [reflexivity|]. split; [|reflexivity]. destruct Hfo as [[Hl Hr Hf Hfit Hc] Hst Hth Hcur Hmax].
    constructor; cbn [fst snd mo_w mo_there mo_max sp_stuck sp_cur]; try assumption.
    constructor; cbn [wo_level wo_raw wo_disk wo_stream wo_good wo_mgr sp_level sp_files sp_cur sp_stuck]; try assumption. reflexivity.
  - destruct (mt_follow_write w s i Hfo Hfits) as (w1 & E & Hfo1 & Ho); [destruct (sp_write (fst s) i); exact Hfit1|].
    exists w1. rewrite E. destruct (sp_write (fst s) i) as [r s1]. cbn [fst snd] in *. split; [reflexivity|]. split; assumption.
  - destruct s as [s there]. cbn [fst snd] in *. destruct Hfo as [Hw Hst Hth Hcur Hmax]. cbn [fst snd] in *. unfold mt_close. rewrite Hth. destruct there; cbn [negb].
    + destruct (follow_close comp uncomp HC U _ _ Hw) as (w1 & E & Hfo1 & Ho). rewrite E.
      assert (Q : fst (sp_do s CClose) = Ok tt /\ sp_stuck (snd (sp_do s CClose)) = false /\ sp_cur (snd (sp_do s CClose)) = None).
      { cbn [sp_do]. destruct (sp_cur s) as [[[n b] nw]|] eqn:Ec; [rewrite Hst; cbn [andb fst snd sp_stuck sp_cur]; auto|]. cbn [fst snd]. auto. }
      destruct (sp_do s CClose) as [r s1]. cbn [fst snd] in *. destruct Q as (-> & Q1 & Q2). eexists. split; [reflexivity|]. cbn [mo_w]. split; [|exact Ho].
      constructor; cbn [fst snd mo_w mo_there mo_max]; try assumption; [reflexivity|]. rewrite Q2. intros Q; contradiction.
    + cbn [fst snd]. exists w. split; [reflexivity|]. split; [|reflexivity]. constructor; assumption.
Qed.

Theorem mt_follow_all l : forall w s, mfollows w s -> incl (mt_named l) U -> mt_program_ok comp s l ->
  exists w1, mt_all comp uncomp mraw w l = (fst (mp_all s l), w1) /\ mfollows w1 (snd (mp_all s l)) /\ (forall m, ~ In m U -> wo_disk (mo_w w1) m = wo_disk (mo_w w) m).
Proof.
  induction l as [|c l IH]; intros w s Hfo HU Hok.
  - exists w. split; [reflexivity|]. split; [exact Hfo|reflexivity].
  - cbn [mt_program_ok] in Hok. destruct Hok as (H1 & H2 & H3 & H4). cbv zeta in *. unfold mt_named in HU. cbn [flat_map] in HU. apply incl_app_inv in HU. destruct HU as [HU1 HU2].
    destruct (mt_follow_call w s c Hfo HU1 H1 H2 H3) as (w1 & E & Hfo1 & Ho1). cbn [mt_all mp_all]. rewrite E.
    destruct (IH w1 (snd (mp_do s c)) Hfo1 HU2 H4) as (w2 & E2 & Hfo2 & Ho2). destruct (mp_do s c) as [r s1]. cbn [fst snd] in *.
    destruct r as [u|e|k]; [| |exists w1; split; [reflexivity|]; split; assumption];
      (rewrite E2; destruct (mp_all s1 l) as [rs s2]; cbn [fst snd] in *; exists w2; split; [reflexivity|]; split; [exact Hfo2|]; intros m Hm; rewrite Ho2, Ho1 by exact Hm; reflexivity).
Qed.
End Codec.

Theorem mt_calls comp uncomp d files raw mraw max l : codec_ok comp uncomp -> 0 < max < two32 -> usable raw -> usable mraw -> (forall n, In n (mt_named l) -> on_disk comp uncomp d n (files n)) ->
  mt_program_ok comp (mkSp files None false (-1), false) l ->
  let s := mp_all (mkSp files None false (-1), false) l in
  let w := mt_all comp uncomp mraw (new_mobj d raw max) l in
  fst w = fst s /\ (forall n, In n (mt_named l) -> is_cur (fst (snd s)) n = false -> on_disk comp uncomp (wo_disk (mo_w (snd w))) n (sp_files (fst (snd s)) n)) /\
  (forall n, ~ In n (mt_named l) -> wo_disk (mo_w (snd w)) n = d n).
Proof.
  intros HC Hmax Hr Hm Hd Hok. cbv zeta.
  assert (H0 : mfollows comp uncomp (mt_named l) (new_mobj d raw max) (mkSp files None false (-1), false)).
  { constructor; cbn [new_mobj mo_w mo_there mo_max fst snd sp_stuck sp_cur]; try reflexivity; [|intros Q; contradiction|exact Hmax].
    constructor; cbn [wo_level wo_raw wo_disk wo_stream wo_good wo_mgr sp_level sp_files sp_cur sp_stuck]; try assumption; try reflexivity.
    - intros m Hin _. apply Hd. exact Hin.
    - split; [reflexivity|]. exists raw. split; [reflexivity|exact Hr]. }
  destruct (mt_follow_all comp uncomp HC mraw Hm (mt_named l) l _ _ H0 (incl_refl _) Hok) as (w1 & E & Hfo & Ho).
  rewrite E. cbn [fst snd]. split; [reflexivity|]. split; [exact (fo_files _ _ _ _ _ (mf_w _ _ _ _ _ Hfo))|exact Ho].
Qed.
