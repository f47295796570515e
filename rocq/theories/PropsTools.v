(** * The programs that split files and add an index *)

From Verif Require Import Bytes StrMap SioModel SioProofs SioSpec Ieee ObjModel ObjSpec CollSpec EventModel EventSpec EventProofs EventFacts EventExamples
  IndexModel IndexSpec IndexProofs FileModel IndexFile IndexFacts IndexExamples FileSpec FileWrite FileSessions FileRead FileSeq FileDeliver FileFacts FileUse FileDirect FileMore
  PostProofs FileExamples StreamSpec FileStream BitModel BitSpec SplitModel SplitSpec SplitProofs CopySpec CopyObj CopySize CopyEvent MergeModel MergeProofs ToolProofs PropsCopy.

(** ** C49: the parts of a split file are read like the whole *)

(** lcio_split_file writes the items of a file, in order and each once, to new files numbered from 0,
    leaves all other files as they are, begins a new file as soon as the last one has more than the given
    number of bytes and not before, and whoever reads the new files one after the other is given, item for
    item, what was written to the original file. *)
Theorem C49_split : forall comp uncomp b1 b2 srt ignore_null, sort_ok srt -> forall d f base max level wraw raw cbuf mraw next,
  codec_ok comp uncomp -> usable wraw -> usable b1 -> usable b2 -> wf_ok comp uncomp d f -> 0 < next -> 0 <= max ->
  Forall (fun w => readable ignore_null [] (snd w)) (wf_items f) -> Forall (rewritable level) (wf_items f) ->
  runs_close (map (fun w => item_key (snd w)) (wf_items f)) -> Zlen (wf_items f) < 2 ^ 27 ->
  base <> [] -> Zlen base + 6 < two32 -> free d base (str ".slcio") (Zlen (wf_items f)) ->
  exists d' names groups,
    split_file comp uncomp srt ignore_null d (wf_name f) (base ++ str ".slcio") max level wraw b1 b2 (new_reader false false [] raw cbuf mraw next) = Ok (Done, d') /\
    concat groups = map snd (wf_items f) /\ length names = length groups /\ NoDup names /\
    (forall k n, nth_error names k = Some n -> file_number base (str ".slcio") (Z.of_nat k) n) /\
    (forall n, ~ In n names -> d' n = d n) /\
    (exists copies, Forall2 (fun g c => length g = length c /\ Forall (fun zi => fst zi = level) c) groups copies /\
      Forall2 (holds_items comp uncomp b1 b2 d') names copies /\ split_at comp b1 b2 max copies) /\
    forall ig tags ops raw' cbuf' mraw' next', 0 < next' -> Forall (fun w => readable ig tags (snd w)) (wf_items f) ->
      trace srt tags at_null next' (flat_map (fun ng => map (pair (fst ng)) (snd ng)) (combine names groups)) ops
        (read_all uncomp srt ig d' names ops (new_reader false false tags raw' cbuf' mraw' next')).
Proof. exact split_file_ok. Qed.
Print Assumptions C49_split.

(** the file [ex_file] with two run headers and three events, split behind every 1000 bytes *)
Definition ex_parts : disk :=
  match split_file ex_comp ex_uncomp isort false ex_disk ex_name (str "part.slcio") 1000 6 ex_buf ex_buf ex_buf (ex_read false) with Ok (Done, d) => d | _ => empty_disk end.
Lemma ex_disk_other n : n <> ex_name -> ex_disk n = None.
Proof.
  intros H. assert (Hb : bytes_eqb n (sio_filename (str "x")) = false) by (apply bytes_eqb_neq; exact H).
  unfold ex_disk, sessions, new_session. cbn [append_sessions]. destruct (open_new empty_disk (str "x") (ss_level ex_sess1) (ss_raw ex_sess1)) as [w|e|k]; cbn [bind disk_of]; try reflexivity.
  destruct (run_writer ex_comp w ex_sess1) as [c|e|k]; cbn [bind disk_of]; try reflexivity. unfold append_session.
  destruct (open_append ex_uncomp (save empty_disk (sio_filename (str "x")) c) (str "x") (ss_level ex_sess2) (ss_raw ex_sess2)) as [w2|e|k]; cbn [bind disk_of]; try reflexivity.
  destruct (run_writer ex_comp w2 ex_sess2) as [c2|e|k]; cbn [bind disk_of]; try reflexivity. unfold save. rewrite Hb. reflexivity.
Qed.
Example C49_case : wf_ok ex_comp ex_uncomp ex_disk ex_file /\ Forall (fun w => readable false [] (snd w)) (wf_items ex_file) /\ Forall (rewritable 6) (wf_items ex_file) /\
  runs_close (map (fun w => item_key (snd w)) (wf_items ex_file)) /\ free ex_disk (str "part") (str ".slcio") (Zlen (wf_items ex_file)).
Proof.
  split; [exact (proj1 ex_wf)|]. split; [apply Forall_map; exact ex_readable|]. split; [exact ex_rewritable|]. split.
  - apply ex_close. intros k Hk.
    unfold wf_items, items_of in Hk. cbn [flat_map wf_sess wf_first wf_more ex_file ex_sess1 ex_sess2 ss_items map app snd wf_name item_key ev_run ev_num ex_ev rh_run ex_rn In] in Hk.
    repeat match goal with H : _ \/ _ |- _ => destruct H as [<-|H] | H : False |- _ => destruct H end; cbn [fst]; lia.
  - intros k n _ (c & ds & _ & _ & _ & ->). apply ex_disk_other. intros H. discriminate H.
Qed.
Example C49_parts : let names := [str "part.000.slcio"; str "part.001.slcio"; str "part.002.slcio"] in
  map (fun n => match ex_parts n with Some c => Zlen c | None => -1 end) (names ++ [str "part.003.slcio"]) = [1684; 1440; 1684; -1] /\
  map (fun n => ex_use_all ex_parts [n] false [Next true; Next true]) names = [[SEvt 42 7; SNull]; [SEvt 42 3; SNull]; [SEvt 43 7; SNull]] /\
  ex_use_all ex_parts names false (map Next [false; true; true; false; true; true]) = [SRun 42; SEvt 42 7; SEvt 42 3; SRun 43; SEvt 43 7; SNull].
Proof. vm_compute. repeat split; reflexivity. Qed.

(** ** C50: addRandomAccess does not change what is in a file *)

(** For every file closed by a writer, addRandomAccess succeeds, changes no other file, and afterwards every
    sequence of calls of a reader, sequential or with direct access, is answered by the items that were
    written to the file (by the specification used in C16). *)
Theorem C50_index_added : forall comp uncomp d f name level raw,
  codec_ok comp uncomp -> wf_ok comp uncomp d f -> usable raw -> sio_filename name = wf_name f ->
  exists d', add_access uncomp d name level raw = Ok d' /\ (forall n, n <> wf_name f -> d' n = d n) /\
    forall srt ig steps direct tags raw' cbuf mraw next, (direct = true -> Forall (sess_covers comp) (wf_sess f) /\ numbered (items_of (wf_sess f))) ->
      Forall (readable ig tags) (items_of (wf_sess f)) -> Forall step_ok steps -> 0 < next ->
      answers srt tags (wf_name f) direct (items_of (wf_sess f)) next (Some (items_of (wf_sess f))) steps
        (use_file uncomp srt ig d' (wf_name f) steps (new_reader direct false tags raw' cbuf mraw next)).
Proof. exact add_access_answers. Qed.
Print Assumptions C50_index_added.

(** several files, some of which do not exist and some of which may be given more than once: each one
    stays a file closed by a writer, with the same items; no file is created *)
Theorem C50_several_files : forall comp uncomp level raw names d files, codec_ok comp uncomp -> usable raw -> Forall (wf_ok comp uncomp d) files ->
  NoDup (map wf_name files) -> (forall n, In n names -> d (sio_filename n) = None \/ In (sio_filename n) (map wf_name files)) ->
  exists d' files', add_access_all uncomp d names level raw = Ok d' /\ Forall2 (fun f f' => wf_name f' = wf_name f /\ wf_items f' = wf_items f) files files' /\
    Forall (wf_ok comp uncomp d') files' /\ (forall n, ~ In n (map wf_name files) -> d' n = d n).
Proof. exact add_access_all_ok. Qed.
Print Assumptions C50_several_files.

Example C50_case : sio_filename (str "x") = wf_name ex_file /\
  (forall n, In n [str "x"; str "y"; str "x"] -> ex_disk (sio_filename n) = None \/ In (sio_filename n) (map wf_name [ex_file])) /\
  let d := disk_of (add_access_all ex_uncomp ex_disk [str "x"; str "y"; str "x"] 6 ex_buf) in
  ex_use d true [GetEvt 43 7; GetRun 42; GetEvt 42 3; Next true; GetEvt 42 4] = [SEvt 43 7; SRun 42; SEvt 42 3; SEvt 43 7; SNull] /\ d (sio_filename (str "y")) = None.
Proof.
  split; [reflexivity|]. split; [|vm_compute; split; reflexivity].
  intros n [<-|[<-|[<-|[]]]]; [right; left; reflexivity|left; apply ex_disk_other; intros H; discriminate H|right; left; reflexivity].
Qed.

(** "appends the records needed for direct access - if they don't exist" (addRandomAccess.cc:19): a file
    that ends behind its last event, without index records, and from which all events can be read, has none
    afterwards. *)
Theorem C50_no_index_refuted : exists d d', add_access ex_uncomp d ex_name 6 ex_buf = Ok d' /\
  ex_use d false (map Next [true; true; true; true]) = [SEvt 42 7; SEvt 42 3; SEvt 43 7; SNull] /\
  ex_use d' false (map Next [true; true; true; true]) = [SNull; SThrow EBadState; SThrow EBadState; SThrow EBadState].
Proof.
  exists (ex_cut 368 ex_disk), (disk_of (add_access ex_uncomp (ex_cut 368 ex_disk) ex_name 6 ex_buf)). split; [apply disk_of_ok; vm_compute; reflexivity|].
  split; vm_compute; reflexivity.
Qed.
(** With -f ("will create a TOC for direct access in any case") the same happens to files that have an index. *)
Theorem C50_force_refuted : exists d f d', wf_ok ex_comp ex_uncomp d f /\ force_access ex_uncomp d (wf_name f) 6 ex_buf = Ok d' /\
  map brief (use_file ex_uncomp isort false d (wf_name f) (map Next [true; true; true; true]) (ex_read false)) = [SEvt 42 7; SEvt 42 3; SEvt 43 7; SNull] /\
  map brief (use_file ex_uncomp isort false d' (wf_name f) (map Next [true; true; true; true]) (ex_read false)) = [SNull; SThrow EBadState; SThrow EBadState; SThrow EBadState].
Proof.
  exists ex_disk, ex_file, (disk_of (force_access ex_uncomp ex_disk ex_name 6 ex_buf)). split; [exact (proj1 ex_wf)|]. split; [apply disk_of_ok; vm_compute; reflexivity|].
  split; vm_compute; reflexivity.
Qed.
(** and for a file that does not exist a null pointer is passed to fclose *)
Theorem C50_force_missing_refuted : exists d name, d name = None /\ force_access ex_uncomp d name 6 ex_buf = UB UBNullDeref.
Proof. exists ex_disk, (str "y.slcio"). split; vm_compute; reflexivity. Qed.
