(** * A writer object follows its specification: any sequence of calls *)

From Verif Require Import Bytes StrMap SioModel SioProofs SioRecord SioRead SioFrame SioSpec Ieee ObjModel ObjSpec ObjProofs ObjCalls CollSpec
  CollProofs ListFacts EventModel EventSpec EventProofs EventFacts IndexModel IndexSpec IndexProofs FileModel FileFrame FileRead IndexFile IndexFacts FileSpec
  FileWrite FileSessions FileSeq FileDeliver FileFacts FileUse FileDirect FileMore WriterModel WriterSpec WriterProofs.

Section Codec.
Context (comp : Z -> bytes -> bytes) (uncomp : bytes -> option bytes) (HC : codec_ok comp uncomp).
Context (U : list bytes).

Definition is_cur (s : sp) (m : bytes) : bool := match sp_cur s with Some (n, _, _) => bytes_eqb m n | None => false end.

(** the writer and the disk are as the specification says *)
Record follows (w : wobj) (s : sp) : Prop := mkFollows {
  fo_level : wo_level w = sp_level s; fo_raw : usable (wo_raw w);
  fo_files : forall m, In m U -> is_cur s m = false -> on_disk comp uncomp (wo_disk w) m (sp_files s m);
  fo_fits : sp_fits comp s;
  fo_cur : match sp_cur s with
    | None => wo_stream w = None /\ exists raw, wo_mgr w = new_mgr raw /\ usable raw
    | Some (n, before, now) => exists base tail g lv raw w', (exists name, n = sio_filename name) /\ In n U /\
        wo_stream w = Some (n, wr_o w') /\ wo_good w = negb (sp_stuck s) /\
        sp_files s n <> None /\ wo_disk w n = Some (o_data (wr_o w')) /\ origin comp uncomp n before base tail g raw /\
        write_items comp (mkWr (mkO (base ++ tail) (Zlen base)) g lv) any_buffer any_buffer now = Ok w' /\ wr_mgr w' = wo_mgr w
    end }.

Lemma empty_append raw : init_append uncomp (open_ifs []) (new_mgr raw) = (Throw LIOException, s_seek (open_ifs []) 0, new_mgr raw).
Proof. reflexivity. Qed.

Lemma follow_write w s i : follows w s -> whole i -> item_ok (sp_level s, i) -> sp_fits comp (snd (sp_write s i)) ->
  exists w1, wo_write comp w i = (fst (sp_write s i), w1) /\ follows w1 (snd (sp_write s i)) /\ (forall m, ~ In m U -> wo_disk w1 m = wo_disk w m).
Proof.
  intros [Hl Hr Hf Hfit Hc] Hw Hi Hfit1. unfold sp_write in *. destruct (sp_cur s) as [[[n before] now]|] eqn:Ec.
  - destruct Hc as (base & tail & g & lv & raw & w' & Hname & HU & Hs & Hg & Hne & Hd & Hor & Hwi & Hmg). rewrite <- Hl in Hi.
    destruct (sp_stuck s) eqn:Est; cbn [negb fst snd] in *.
    + destruct (write_stuck comp uncomp HC w n (wr_o w') i Hs Hg Hr Hw Hi) as (b & E & Ub). exists (set_raw w b). split; [exact E|]. split; [|intros m _; reflexivity].
      constructor; cbn [set_raw wo_level wo_raw wo_disk wo_stream wo_good wo_mgr]; try assumption. rewrite Ec.
      exists base, tail, g, lv, raw, w'. rewrite Est. cbn [negb]. repeat (split; [assumption|]). assumption.
    + destruct (write_good comp uncomp HC w n (wr_o w') i w' Hs Hg Hr Hw Hi eq_refl Hmg) as (w1 & o1 & g1 & E & A1 & A2 & A3 & A4 & A5 & A6 & A7 & A8).
      exists w1. split; [exact E|]. split.
      * constructor; cbn [sp_level sp_cur sp_files sp_stuck]; [congruence|exact A3| |exact Hfit1|].
        { intros m Hm Hcm. unfold is_cur in *. cbn [sp_cur] in Hcm. rewrite Ec in Hf. apply (on_disk_ext comp uncomp (wo_disk w)); [symmetry; apply A7; exact Hcm|]. apply Hf; [exact Hm|exact Hcm]. }
        exists base, tail, g, lv, raw, (mkWr o1 g1 (wo_level w)). cbn [wr_o wr_mgr negb]. split; [exact Hname|]. split; [exact HU|]. split; [exact A1|]. split; [exact A2|]. split; [exact Hne|].
        split; [exact A6|]. split; [exact Hor|]. split; [|symmetry; exact A5].
        rewrite write_items_snoc, Hwi. cbn [bind fst snd]. rewrite <- Hl. exact A8.
      * intros m Hm. apply A7. destruct (bytes_eqb m n) eqn:Q; [|reflexivity]. apply bytes_eqb_eq in Q. subst m. contradiction.
  - destruct Hc as [Hs Hm]. exists w. split.
    + destruct i as [r|h e only]; cbn [wo_write fst]; [unfold wo_run|unfold wo_event]; rewrite Hs; reflexivity.
    + cbn [snd]. split; [|reflexivity]. constructor; try assumption. rewrite Ec. split; assumption.
Qed.

Lemma follow_new w s name : follows w s -> In (sio_filename name) U -> sp_fits comp (snd (sp_open s name 0)) ->
  exists w1, wo_open uncomp w name 0 = (fst (sp_open s name 0), w1) /\ follows w1 (snd (sp_open s name 0)) /\ (forall m, ~ In m U -> wo_disk w1 m = wo_disk w m).
Proof.
  intros [Hl Hr Hf Hfit Hc] HU Hfit1. unfold wo_open, sp_open, check_open, stream_open in *. cbn [Z.eqb] in *. change (0 =? 0) with true in *. cbv iota in *.
  destruct (sp_cur s) as [[[n before] now]|] eqn:Ec; cbn [fst snd] in *.
  - destruct Hc as (base & tail & g & lv & raw & w' & Hname & HUn & Hs & Hg & Hne & Hd & Hor & Hwi & Hmg). rewrite Hs. cbn [set_stream wo_stream wo_good].
    eexists. split; [reflexivity|]. split; [|reflexivity].
    constructor; cbn [set_stream wo_level wo_raw wo_disk wo_stream wo_good wo_mgr sp_level sp_files sp_cur sp_stuck]; try assumption.
    + intros m Hm Hcm. apply Hf; [exact Hm|]. unfold is_cur in *. rewrite Ec. exact Hcm.
    + exists base, tail, g, lv, raw, w'. cbn [negb]. repeat (split; [first [assumption|reflexivity]|]). assumption.
  - destruct Hc as [Hs (raw & Hm & Ur)]. rewrite Hs. cbn [put_stream wo_stream wo_good]. eexists. split; [reflexivity|]. split.
    + constructor; cbn [put_stream wo_level wo_raw wo_disk wo_stream wo_good wo_mgr sp_level sp_files sp_cur sp_stuck]; try assumption.
      * intros m Hm' Hcm. unfold is_cur in *. rewrite Ec in Hf. cbn [sp_cur] in Hcm. unfold put_file. rewrite Hcm.
        apply (on_disk_ext comp uncomp (wo_disk w)); [symmetry; apply save_other; exact Hcm|]. apply Hf; [exact Hm'|reflexivity].
      * exists [], [], (new_mgr raw), 0, raw, (mkWr (mkO [] 0) (new_mgr raw) 0). cbn [negb wr_o wr_mgr o_data].
        split; [exists name; reflexivity|]. split; [exact HU|]. split; [reflexivity|]. split; [reflexivity|]. split; [unfold put_file; rewrite bytes_eqb_refl; discriminate|].
        split; [apply save_same|]. split; [|split; [reflexivity|symmetry; exact Hm]].
        constructor; [exact Ur|reflexivity|apply opening_new; exact Ur|rewrite Zlen_nil; unfold access_size; lia|cbn; lia|cbn; lia|]. left. repeat split; reflexivity.
    + intros m Hm'. cbn [put_stream wo_disk]. apply save_other. destruct (bytes_eqb m (sio_filename name)) eqn:Q; [|reflexivity]. apply bytes_eqb_eq in Q. subst m. contradiction.
Qed.

Lemma follow_append w s name : follows w s -> In (sio_filename name) U -> covered s (COpen name 1) -> sp_fits comp (snd (sp_open s name 1)) ->
  exists w1, wo_open uncomp w name 1 = (fst (sp_open s name 1), w1) /\ follows w1 (snd (sp_open s name 1)) /\ (forall m, ~ In m U -> wo_disk w1 m = wo_disk w m).
Proof.
  intros Hfo HU Hcov Hfit1. pose proof Hfo as [Hl Hr Hf Hfit Hc]. unfold wo_open, sp_open in *. change (1 =? 0) with false in *. change (1 =? 1) with true in *. cbv iota zeta in *.
  cbn [covered] in Hcov. set (n := sio_filename name) in *.
  destruct (sp_files s n) as [l|] eqn:Efile.
  - (* the file exists, nothing is open *)
    destruct (sp_cur s) as [c|] eqn:Ec; [contradiction|]. destruct Hc as [Hs (raw & Hm & Ur)].
    assert (Hod : on_disk comp uncomp (wo_disk w) n (Some l)) by (rewrite <- Efile; apply Hf; [exact HU|unfold is_cur; rewrite Ec; reflexivity]).
    unfold on_disk in Hod. destruct (begun l) eqn:Eb; cbn [fst snd] in *.
    + destruct Hod as (f & Hn & Hwf & Hit). destruct (opening_append comp uncomp HC (wo_disk w) f raw Hwf Ur) as (base & tail & g & s' & Hd & Ht & Hia & Hmap & Hready & Hcnt & Hbase).
      rewrite Hn in Hd. rewrite Hd, Hm, Hia. cbn [set_mgr stream_open wo_stream]. unfold stream_open. cbn [set_mgr wo_stream]. rewrite Hs. cbn [put_stream wo_good negb orb].
      assert (Hlen : Zlen (base ++ tail) - access_size = Zlen base) by (rewrite Zlen_app; lia).
      replace (Zlen (base ++ tail) <? access_size) with false by (pose proof (Zlen_nonneg base); lia). unfold check_open. cbn [wo_stream wo_good put_stream set_mgr]. eexists. split; [reflexivity|].
      destruct Hwf as [(K1 & K2 & K3 & K4) Hmade]. pose proof (conj (conj K1 (conj K2 (conj K3 K4))) Hmade : wf_ok comp uncomp (wo_disk w) f) as Hwf.
      split.
      * constructor; cbn [put_stream set_mgr wo_level wo_raw wo_disk wo_stream wo_good wo_mgr sp_level sp_files sp_cur sp_stuck]; try assumption.
        -- intros m Hm' Hcm. unfold is_cur in *. cbn [sp_cur] in Hcm. rewrite Ec in Hf. apply (on_disk_ext comp uncomp (wo_disk w)); [symmetry; apply save_other; exact Hcm|]. apply Hf; [exact Hm'|reflexivity].
        -- exists base, tail, g, 0, raw, (mkWr (mkO (base ++ tail) (Zlen base)) g 0). cbn [negb wr_o wr_mgr o_data].
           split; [exists name; reflexivity|]. split; [exact HU|]. split; [rewrite Hlen; reflexivity|]. split; [reflexivity|]. split; [rewrite Efile; discriminate|].
           split; [apply save_same|]. split; [|split; reflexivity].
           rewrite count_items, Hit in Hcnt. rewrite count_items, (volume_bytes comp uncomp HC _ K1), Hit in Hbase.
           constructor; [exact Ur|exact Hmap|exact Hready|lia|exact Hcnt|exact Hbase|]. right. exists (wo_disk w), f, s'. repeat (split; [assumption|]). exact Hia.
      * intros m Hm'. cbn [put_stream wo_disk set_mgr]. apply save_other. destruct (bytes_eqb m n) eqn:Q; [|reflexivity]. apply bytes_eqb_eq in Q. subst m. contradiction.
    + rewrite Hod, Hm, empty_append. cbv iota. eexists. split; [reflexivity|]. split; [|reflexivity].
      constructor; cbn [set_mgr wo_level wo_raw wo_disk wo_stream wo_good wo_mgr]; try assumption. rewrite Ec. split; [exact Hs|]. exists raw. split; [reflexivity|exact Ur].
  - (* it does not *)
    assert (Hcm : is_cur s n = false).
    { unfold is_cur. destruct (sp_cur s) as [[[n' b] nw]|]; [|reflexivity]. destruct Hc as (base & tail & g & lv & raw & w' & _ & _ & _ & _ & Hne & _).
      destruct (bytes_eqb n n') eqn:Q; [|reflexivity]. apply bytes_eqb_eq in Q. subst n'. contradiction. }
    pose proof (Hf n HU Hcm) as Hod. rewrite Efile in Hod. cbn [on_disk] in Hod. rewrite Hod. exists w. split; [reflexivity|]. split; [|reflexivity]. exact Hfo.
Qed.

Lemma follow_close w s : follows w s ->
  exists w1, wo_close w = (fst (sp_do s CClose), w1) /\ follows w1 (snd (sp_do s CClose)) /\ (forall m, ~ In m U -> wo_disk w1 m = wo_disk w m).
Proof.
  intros Hfo. pose proof Hfo as [Hl Hr Hf Hfit Hc]. cbn [sp_do]. unfold wo_close. destruct (sp_cur s) as [[[n before] now]|] eqn:Ec.
  - destruct Hc as (base & tail & g & lv & raw & w' & Hname & HU & Hs & Hg & Hne & Hd & Hor & Hwi & Hmg).
    unfold sp_fits in Hfit. rewrite Ec in Hfit. pose proof (closing comp uncomp HC n before base tail g lv raw now w' Hname Hor Hfit Hwi) as Hcl.
    destruct now as [|zi now].
    + rewrite andb_false_r. cbn [fst snd]. destruct Hcl as [Ew Hod]. rewrite <- Hmg. rewrite Ew. cbn [wr_mgr]. rewrite (or_map _ _ _ _ _ _ _ _ Hor). cbn [no_remap rm_map].
      eexists. split; [reflexivity|]. split; [|reflexivity].
      constructor; cbn [set_stream set_mgr wo_level wo_raw wo_disk wo_stream wo_good wo_mgr sp_level sp_files sp_cur sp_stuck]; try assumption; [|exact Logic.I|].
      * intros m Hm _. unfold put_file. destruct (bytes_eqb m n) eqn:Q.
        -- apply bytes_eqb_eq in Q. subst m. apply Hod. rewrite Hd, Ew. reflexivity.
        -- apply Hf; [exact Hm|]. unfold is_cur. rewrite Ec. exact Q.
      * split; [reflexivity|]. exists (mg_raw g). split; [reflexivity|]. exact (proj1 (proj2 (or_ready _ _ _ _ _ _ _ _ Hor))).
    + destruct Hcl as (Hnm & g' & o' & Ea & Ug & Hod). rewrite <- Hmg, Hs, Hg, andb_true_r.
      destruct (rm_map (mg_map (wr_mgr w'))) as [|x xs] eqn:Er; [contradiction|].
      destruct (sp_stuck s) eqn:Est; cbn [negb fst snd].
      * unfold write_access in Ea. rewrite Er in Ea. destruct (rethrow EIoFailure (write_index (mg_map (wr_mgr w')))) as [ix|?|?]; try discriminate Ea. cbn [bind] in *.
        destruct (put_record (wr_o w') (mg_raw (wr_mgr w')) index_record [mkWB index_record cur_vers ix]) as [y|?|?]; try discriminate Ea.
        exists w. split; [reflexivity|]. split; [exact Hfo|reflexivity].
      * rewrite Ea. eexists. split; [reflexivity|]. split.
        -- constructor; cbn [set_stream put_stream set_mgr wo_level wo_raw wo_disk wo_stream wo_good wo_mgr sp_level sp_files sp_cur sp_stuck]; try assumption; [|exact Logic.I|].
           ++ intros m Hm _. unfold put_file. destruct (bytes_eqb m n) eqn:Q.
              ** apply bytes_eqb_eq in Q. subst m. apply Hod. apply save_same.
              ** apply (on_disk_ext comp uncomp (wo_disk w)); [symmetry; apply save_other; exact Q|]. apply Hf; [exact Hm|]. unfold is_cur. rewrite Ec. exact Q.
           ++ split; [reflexivity|]. exists (mg_raw g'). split; [reflexivity|exact Ug].
        -- intros m Hm. cbn [set_stream put_stream set_mgr wo_disk]. apply save_other. destruct (bytes_eqb m n) eqn:Q; [|reflexivity]. apply bytes_eqb_eq in Q. subst m. contradiction.
  - destruct Hc as [Hs (raw & Hm & Ur)]. rewrite Hm. cbn [new_mgr mg_map no_remap rm_map fst snd]. eexists. split; [reflexivity|]. split; [|reflexivity].
    constructor; cbn [set_stream set_mgr wo_level wo_raw wo_disk wo_stream wo_good wo_mgr]; try assumption. rewrite Ec. split; [reflexivity|]. exists raw. split; [reflexivity|exact Ur].
Qed.

Lemma follow_call w s c : follows w s -> incl (call_name c) U -> covered s c -> call_fits s c -> sp_fits comp (snd (sp_do s c)) ->
  exists w1, wo_do comp uncomp w c = (fst (sp_do s c), w1) /\ follows w1 (snd (sp_do s c)) /\ (forall m, ~ In m U -> wo_disk w1 m = wo_disk w m).
Proof.
  intros Hfo HU Hcov Hfits Hfit1. destruct c as [name|name mode|z|r|h e| |].
  - cbn [wo_do sp_do call_name] in *. unfold wo_create. assert (Hn : In (sio_filename name) U) by (apply HU; left; reflexivity).
    destruct (sp_files s (sio_filename name)) as [l|] eqn:Efile.
    + assert (Hex : wo_disk w (sio_filename name) <> None).
      { pose proof Hfo as [_ _ Hf _ Hc]. destruct (is_cur s (sio_filename name)) eqn:Q.
        - unfold is_cur in Q. destruct (sp_cur s) as [[[n b] nw]|]; [|discriminate Q]. destruct Hc as (base & tail & g & lv & raw & w' & _ & _ & _ & _ & _ & Hd & _).
          apply bytes_eqb_eq in Q. rewrite Q, Hd. discriminate.
        - specialize (Hf _ Hn Q). rewrite Efile in Hf. cbn [on_disk] in Hf. destruct (begun l); [|congruence].
          destruct Hf as (f & Hnm & Hwf & _). destruct (opening_append comp uncomp HC (wo_disk w) f any_buffer Hwf any_usable) as (base & tail & _ & _ & Hd & _). rewrite Hnm in Hd. congruence. }
      destruct (wo_disk w (sio_filename name)); [|contradiction]. exists w. split; [reflexivity|]. split; [exact Hfo|reflexivity].
    + assert (Hno : wo_disk w (sio_filename name) = None).
      { pose proof Hfo as [_ _ Hf _ Hc]. assert (Q : is_cur s (sio_filename name) = false).
        { unfold is_cur. destruct (sp_cur s) as [[[n b] nw]|]; [|reflexivity]. destruct Hc as (base & tail & g & lv & raw & w' & _ & _ & _ & _ & Hne & _).
          destruct (bytes_eqb (sio_filename name) n) eqn:Q; [|reflexivity]. apply bytes_eqb_eq in Q. rewrite Q in Efile. contradiction. }
        specialize (Hf _ Hn Q). rewrite Efile in Hf. exact Hf. }
      rewrite Hno. apply follow_new; assumption.
  - cbn [wo_do sp_do call_name] in *. assert (Hn : In (sio_filename name) U) by (apply HU; left; reflexivity).
    destruct (Z.eqb_spec mode 0) as [->|N0]; [apply follow_new; assumption|]. destruct (Z.eqb_spec mode 1) as [->|N1]; [apply follow_append; assumption|].
    unfold wo_open, sp_open. rewrite (proj2 (Z.eqb_neq mode 0) N0), (proj2 (Z.eqb_neq mode 1) N1). cbv zeta. unfold check_open.
    pose proof Hfo as [_ _ _ _ Hc]. destruct (sp_cur s) as [[[n b] nw]|] eqn:Ec.
    + destruct Hc as (base & tail & g & lv & raw & w' & _ & _ & Hs & Hg & _). rewrite Hs, Hg. destruct (sp_stuck s); cbn [negb]; (exists w; split; [reflexivity|]; split; [exact Hfo|reflexivity]).
    + destruct Hc as [Hs _]. rewrite Hs. exists w. split; [reflexivity|]. split; [exact Hfo|reflexivity].
  - cbn [wo_do sp_do fst snd]. eexists. split; [reflexivity|]. split; [|reflexivity]. destruct Hfo as [Hl Hr Hf Hfit Hc].
    constructor; cbn [wo_level wo_raw wo_disk wo_stream wo_good wo_mgr sp_level sp_files sp_cur sp_stuck]; try assumption. reflexivity.
  - exact (follow_write w s (WRun r) Hfo Logic.I Hfits Hfit1).
  - exact (follow_write w s (WEvt h e []) Hfo eq_refl Hfits Hfit1).
  - cbn [wo_do sp_do fst snd]. exists w. split; [reflexivity|]. split; [exact Hfo|reflexivity].
  - exact (follow_close w s Hfo).
Qed.

Lemma sp_no_ub s c : match fst (sp_do s c) with UB _ => False | _ => True end.
Proof.
  assert (Hopen : forall name mode, match fst (sp_open s name mode) with UB _ => False | _ => True end).
  { intros name mode. unfold sp_open. cbv zeta. destruct (mode =? 0); [destruct (sp_cur s); exact Logic.I|]. destruct (mode =? 1).
    - destruct (sp_files s (sio_filename name)) as [l|]; [destruct (begun l)|]; exact Logic.I.
    - destruct (sp_cur s); [destruct (sp_stuck s)|]; exact Logic.I. }
  assert (Hwr : forall i, match fst (sp_write s i) with UB _ => False | _ => True end).
  { intros i. unfold sp_write. destruct (sp_cur s) as [[[n b] nw]|]; [destruct (sp_stuck s)|]; exact Logic.I. }
  destruct c as [name|name mode|z|r|h e| |]; cbn [sp_do]; try exact Logic.I; try apply Hwr; try apply Hopen.
  - destruct (sp_files s (sio_filename name)); [exact Logic.I|apply Hopen].
  - destruct (sp_cur s) as [[[n b] nw]|]; [|exact Logic.I]. destruct (sp_stuck s && match nw with [] => false | _ => true end); exact Logic.I.
Qed.

Theorem follow_all l : forall w s, follows w s -> incl (named l) U -> program_ok comp s l ->
  exists w1, wo_all comp uncomp w l = (fst (sp_all s l), w1) /\ follows w1 (snd (sp_all s l)) /\ (forall m, ~ In m U -> wo_disk w1 m = wo_disk w m).
Proof.
  induction l as [|c l IH]; intros w s Hfo HU Hok.
  - exists w. split; [reflexivity|]. split; [exact Hfo|reflexivity].
  - cbn [program_ok] in Hok. destruct Hok as (H1 & H2 & H3 & H4). cbv zeta in *. unfold named in HU. cbn [flat_map] in HU. apply incl_app_inv in HU. destruct HU as [HU1 HU2].
    destruct (follow_call w s c Hfo HU1 H1 H2 H3) as (w1 & E & Hfo1 & Ho1). pose proof (sp_no_ub s c) as Hub.
    destruct (IH w1 (snd (sp_do s c)) Hfo1 HU2 H4) as (w2 & E2 & Hfo2 & Ho2). cbn [wo_all sp_all]. rewrite E. destruct (sp_do s c) as [r s1]. cbn [fst snd] in *.
    rewrite E2. destruct (sp_all s1 l) as [rs s2]. cbn [fst snd] in *. exists w2. split; [destruct r; [reflexivity|reflexivity|contradiction]|].
    split; [exact Hfo2|]. intros m Hm. rewrite Ho2, Ho1 by exact Hm. reflexivity.
Qed.

End Codec.

(** ** Programs *)

Section Programs.
Context (comp : Z -> bytes -> bytes) (uncomp : bytes -> option bytes) (HC : codec_ok comp uncomp).

Lemma follows_new U d files raw mraw : usable raw -> usable mraw -> (forall m, In m U -> on_disk comp uncomp d m (files m)) ->
  follows comp uncomp U (new_wobj d raw mraw) (mkSp files None false 0).
Proof.
  intros Hr Hm Hd. constructor; cbn [new_wobj wo_level wo_raw wo_disk wo_stream wo_good wo_mgr sp_level sp_files sp_cur sp_stuck]; try assumption; try reflexivity.
  - intros m Hin _. apply Hd. exact Hin.
  - split; [reflexivity|]. exists mraw. split; [reflexivity|exact Hm].
Qed.

Theorem writer_calls d files raw mraw l : usable raw -> usable mraw -> (forall n, In n (named l) -> on_disk comp uncomp d n (files n)) ->
  program_ok comp (mkSp files None false 0) l ->
  let s := sp_all (mkSp files None false 0) l in
  let w := wo_all comp uncomp (new_wobj d raw mraw) l in
  fst w = fst s /\ (forall n, In n (named l) -> is_cur (snd s) n = false -> on_disk comp uncomp (wo_disk (snd w)) n (sp_files (snd s) n)) /\
  (forall n, ~ In n (named l) -> wo_disk (snd w) n = d n).
Proof.
  intros Hr Hm Hd Hok. cbv zeta. destruct (follow_all comp uncomp HC (named l) l _ _ (follows_new _ d files raw mraw Hr Hm Hd) (incl_refl _) Hok) as (w1 & E & Hfo & Ho).
  rewrite E. cbn [fst snd]. split; [reflexivity|]. split; [exact (fo_files _ _ _ _ _ Hfo)|exact Ho].
Qed.

Lemma items_concat f l : map ss_items (wf_sess f) = l -> items_of (wf_sess f) = map snd (concat l).
Proof. intros <-. unfold items_of. induction (wf_sess f) as [|x xs IH]; [reflexivity|]. cbn [flat_map map concat]. rewrite map_app, IH. reflexivity. Qed.

Theorem file_read d n l srt ignore_null steps names raw cbuf mraw next : on_disk comp uncomp d n (Some l) -> begun l = true ->
  Forall (readable ignore_null names) (map snd (concat l)) -> Forall step_ok steps -> 0 < next ->
  answers srt names n false (map snd (concat l)) next (Some (map snd (concat l))) steps
    (use_file uncomp srt ignore_null d n steps (new_reader false false names raw cbuf mraw next)).
Proof.
  intros Hod Hb Hr Hs Hn. cbn [on_disk] in Hod. rewrite Hb in Hod. destruct Hod as (f & <- & Hwf & Hit). rewrite <- (items_concat f l Hit) in *.
  apply (file_answers comp); try assumption. discriminate.
Qed.

Theorem fortran_read d n l srt ignore_null steps names raw cbuf mraw next : on_disk comp uncomp d n (Some l) -> begun l = true ->
  Forall (readable ignore_null names) (map snd (concat l)) -> Forall step_ok steps -> 0 < next ->
  exists rs, answers srt names n false (map snd (concat l)) next (Some (map snd (concat l))) steps rs /\
    lcrdr uncomp srt ignore_null d n steps (new_reader false false names raw cbuf mraw next) = FStatus 1 :: pointers rs.
Proof.
  intros Hod Hb Hr Hs Hn. pose proof (file_read d n l srt ignore_null steps names raw cbuf mraw next Hod Hb Hr Hs Hn) as H.
  pose proof (file_read d n l srt ignore_null [] names raw cbuf mraw next Hod Hb Hr (Forall_nil _) Hn) as H0.
  unfold use_file in *. unfold lcrdr. destruct (open_file uncomp d n (new_reader false false names raw cbuf mraw next)) as [[u|e|k] r'].
  - exists (run_steps uncomp srt ignore_null d steps r'). split; [exact H|reflexivity].
  - inversion H0.
  - inversion H0.
Qed.

Theorem fortran_calls d files raw mraw l : usable raw -> usable mraw -> (forall n, In n (named l) -> on_disk comp uncomp d n (files n)) ->
  program_ok comp (mkSp files None false 0) l ->
  let s := sp_all (mkSp files None false 0) l in
  let w := lcwrt comp uncomp (new_wobj d raw mraw) l in
  fst w = map (fun r => Ok (match r with Ok _ => 1 | _ => 0 end)) (fst s) /\
  (forall n, In n (named l) -> is_cur (snd s) n = false -> on_disk comp uncomp (snd w) n (sp_files (snd s) n)).
Proof.
  intros Hr Hm Hd Hok. cbv zeta. destruct (writer_calls d files raw mraw l Hr Hm Hd Hok) as (H1 & H2 & _). unfold lcwrt.
  destruct (wo_all comp uncomp (new_wobj d raw mraw) l) as [rs w]. cbn [fst snd] in *. subst rs. split; [|exact H2].
  clear. generalize (mkSp files None false 0) as s. induction l as [|c l IH]; intros s; [reflexivity|]. cbn [sp_all]. pose proof (sp_no_ub s c) as Hu. destruct (sp_do s c) as [r s1]. specialize (IH s1).
  destruct (sp_all s1 l) as [rs s2]. cbn [fst map] in *. f_equal; [destruct r; [reflexivity|reflexivity|contradiction]|exact IH].
Qed.

End Programs.

Theorem second_open comp s n before now name l : sp_cur s = Some (n, before, now) -> now <> [] ->
  fst (sp_do s (COpen name 0)) = Throw ENotOpen /\
  let s1 := snd (sp_do s (COpen name 0)) in
  (program_ok comp s1 l -> Forall2 (fun c r => match c with CRunHeader _ | CEvent _ _ | CClose => r = Throw EBadState | _ => True end) l (fst (sp_all s1 l)) /\
     sp_cur (snd (sp_all s1 l)) = Some (n, before, now)).
Proof.
  intros Ec Hn. cbn [sp_do]. unfold sp_open. change (0 =? 0) with true. cbv iota zeta. rewrite Ec. cbn [fst snd]. split; [reflexivity|].
  assert (Hgen : forall l s1, sp_cur s1 = Some (n, before, now) -> sp_stuck s1 = true -> program_ok comp s1 l ->
    Forall2 (fun c r => match c with CRunHeader _ | CEvent _ _ | CClose => r = Throw EBadState | _ => True end) l (fst (sp_all s1 l)) /\ sp_cur (snd (sp_all s1 l)) = Some (n, before, now)).
  { clear l. induction l as [|c l IH]; intros s1 E1 Es Hok; [split; [constructor|exact E1]|]. cbn [program_ok] in Hok. cbv zeta in Hok. destruct Hok as (Hcov & _ & _ & Hok).
    assert (Hopen : forall nm mode, covered s1 (COpen nm mode) -> sp_cur (snd (sp_open s1 nm mode)) = Some (n, before, now) /\ sp_stuck (snd (sp_open s1 nm mode)) = true).
    { intros nm mode Hc. unfold sp_open. cbv zeta. destruct (mode =? 0); [rewrite E1; split; [exact eq_refl|reflexivity]|].
      destruct (Z.eqb_spec mode 1) as [->|]; [|rewrite E1, Es; split; [exact E1|exact Es]]. cbn [covered] in Hc. rewrite E1 in Hc.
      destruct (sp_files s1 (sio_filename nm)); [contradiction|]. split; assumption. }
    assert (Hstep : (match c with CRunHeader _ | CEvent _ _ | CClose => fst (sp_do s1 c) = Throw EBadState | _ => True end) /\ sp_cur (snd (sp_do s1 c)) = Some (n, before, now) /\ sp_stuck (snd (sp_do s1 c)) = true).
    { destruct c as [nm|nm mode|z|r|h e| |]; cbn [sp_do].
      - split; [exact Logic.I|]. destruct (sp_files s1 (sio_filename nm)); [split; assumption|]. apply Hopen. exact Logic.I.
      - split; [exact Logic.I|]. apply Hopen. exact Hcov.
      - split; [exact Logic.I|]. split; assumption.
      - unfold sp_write. rewrite E1, Es. cbn [fst snd]. auto.
      - unfold sp_write. rewrite E1, Es. cbn [fst snd]. auto.
      - split; [exact Logic.I|]. split; assumption.
      - rewrite E1, Es. cbn [andb]. destruct now; [contradiction|]. cbn [fst snd]. auto. }
    destruct Hstep as (K1 & K2 & K3). destruct (IH _ K2 K3 Hok) as [L1 L2]. cbn [sp_all]. destruct (sp_do s1 c) as [r s2]. cbn [fst snd] in *.
    destruct (sp_all s2 l) as [rs s3]. cbn [fst snd] in *. split; [constructor; assumption|exact L2]. }
  intros Hok. apply Hgen; [reflexivity|reflexivity|exact Hok].
Qed.
