(** * Tools: repairing a file that was cut off, counting events *)

From Verif Require Import Bytes StrMap SioModel SioProofs SioSpec Ieee ObjModel ObjSpec CollSpec EventModel EventSpec EventProofs EventFacts EventExamples
  IndexModel IndexSpec IndexProofs FileModel IndexFile IndexFacts IndexExamples FileSpec FileWrite FileSessions FileRead FileSeq FileDeliver FileFacts FileUse FileDirect FileMore FileCount
  PostProofs FileExamples StreamSpec FileStream CopySpec CopyObj CopySize CopyEvent MergeModel MergeProofs PropsCopy FixModel FixProofs.

(** ** C58: copyfix recovers what is complete *)

(** A file made by any number of writing sessions is cut off behind [k] bytes.  There is a number [m]: the
    first [m] items end in front of the cut (but for up to 3 bytes of padding behind the last one), all
    others end behind it.  copyfix writes a file from which exactly the first [m] items are read, in
    order, whichever collections are selected and whether events or run headers are asked for, and then
    null; no other file changes.  Unless there are none the new file is one that is made by a session of a
    writer, with the run and event numbers of the recovered items, so that all that is proved about such
    files (direct access, counting, appending) applies to it. *)
Theorem C58_repaired : forall comp uncomp srt ignore_null, sort_ok srt -> forall d0 d f k out level wraw b1 b2 raw cbuf mraw next data,
  codec_ok comp uncomp -> wf_ok comp uncomp d0 f -> d0 (wf_name f) = Some data -> 0 <= k ->
  d (wf_name f) = Some (firstn (Z.to_nat k) data) -> sio_filename out <> wf_name f ->
  usable wraw -> usable b1 -> usable b2 -> 0 < next ->
  Forall (fun w => readable ignore_null [] (snd w)) (wf_items f) -> Forall (rewritable level) (wf_items f) ->
  runs_close (map (fun w => item_key (snd w)) (wf_items f)) ->
  exists ps m d', located data 0 (texts comp (wf_sess f)) ps /\
    (forall j p t, nth_error ps j = Some p -> nth_error (texts comp (wf_sess f)) j = Some t ->
       ((j < m)%nat -> p + Zlen t <= k + 3) /\ ((m <= j)%nat -> k < p + Zlen t)) /\
    copy_fix comp uncomp srt ignore_null d (wf_name f) out level wraw b1 b2 (new_reader false false [] raw cbuf mraw next) = Ok d' /\
    (forall n, n <> sio_filename out -> d' n = d n) /\
    (forall ig names ops raw' cbuf' mraw' next', 0 < next' -> Forall (fun w => readable ig names (snd w)) (firstn m (wf_items f)) ->
      trace srt names at_null next' (map (fun w => (sio_filename out, snd w)) (firstn m (wf_items f))) ops
        (read_all uncomp srt ig d' [sio_filename out] ops (new_reader false false names raw' cbuf' mraw' next'))) /\
    (m <> 0%nat -> exists g, wf_name g = sio_filename out /\ wf_ok comp uncomp d' g /\
       map (fun w => item_key (snd w)) (wf_items g) = map (fun w => item_key (snd w)) (firstn m (wf_items f))).
Proof. exact repaired. Qed.
Print Assumptions C58_repaired.

Definition ex_fixed (n : Z) : disk :=
  disk_of (copy_fix ex_comp ex_uncomp isort false (ex_cut n ex_disk) ex_name ex_out 6 ex_buf ex_buf ex_buf (ex_read false)).
Example C58_case : wf_ok ex_comp ex_uncomp ex_disk ex_file /\ Forall (fun w => readable false [] (snd w)) (wf_items ex_file) /\ Forall (rewritable 6) (wf_items ex_file) /\
  runs_close (map (fun w => item_key (snd w)) (wf_items ex_file)) /\ sio_filename ex_out <> wf_name ex_file /\
  ex_use_all (ex_cut 2500 ex_disk) [ex_name] false (map Next [false; true; true]) = [SRun 42; SEvt 42 7; SThrow EIoFailure] /\
  ex_use_all (ex_fixed 2500) [sio_filename ex_out] false (map Next [false; true; true]) = [SRun 42; SEvt 42 7; SNull] /\
  ex_use_all (ex_fixed 2500) [sio_filename ex_out] true [GetEvt 42 7; GetEvt 42 3] = [SEvt 42 7; SNull].
Proof.
  split; [exact (proj1 ex_wf)|]. split; [apply Forall_map; exact ex_readable|]. split; [exact ex_rewritable|]. split; [|split; [|split; [|split]]; try (vm_compute; reflexivity)].
  - apply ex_close. intros k Hk.
    unfold wf_items, items_of in Hk. cbn [flat_map wf_sess wf_first wf_more ex_file ex_sess1 ex_sess2 ss_items map app snd wf_name item_key ev_run ev_num ex_ev rh_run ex_rn In] in Hk.
    repeat match goal with H : _ \/ _ |- _ => destruct H as [<-|H] | H : False |- _ => destruct H end; cbn [fst]; lia.
  - intros H. assert (E : bytes_eqb ex_name (sio_filename ex_out) = false) by (vm_compute; reflexivity). apply bytes_eqb_neq in E. apply E. symmetry. exact H.
Qed.
(** a file of which not even the first record is complete gives an empty file *)
Example C58_nothing_case : ex_use_all (save (ex_cut 0 ex_disk) ex_name (str "short")) [ex_name] false [Next true] = [SNull] /\
  (exists d', copy_fix ex_comp ex_uncomp isort false (save (ex_cut 0 ex_disk) ex_name (str "short")) ex_name ex_out 6 ex_buf ex_buf ex_buf (ex_read false) = Ok d' /\
   d' (sio_filename ex_out) = Some []).
Proof. split; [vm_compute; reflexivity|]. eexists. split; [reflexivity|vm_compute; reflexivity]. Qed.

(** ** C59: lcio_event_counter counts the events *)

(** The number for any list of files, also if a file is given several times, is the number of events that
    were written to them. *)
Theorem C59_counted : forall comp uncomp d files raw cbuf mraw next, codec_ok comp uncomp -> Forall (wf_ok comp uncomp d) files ->
  Forall (fun f => Forall (sess_covers comp) (wf_sess f) /\ numbered (items_of (wf_sess f))) files ->
  count_files uncomp d (new_reader false false [] raw cbuf mraw next) (map wf_name files) =
    Ok (Zlen (item_events (map snd (flat_map wf_items files)))).
Proof. exact counted. Qed.
Print Assumptions C59_counted.

Example C59_case : Forall (wf_ok ex_comp ex_uncomp ex_disk) [ex_file; ex_file] /\
  Forall (fun f => Forall (sess_covers ex_comp) (wf_sess f) /\ numbered (items_of (wf_sess f))) [ex_file; ex_file] /\
  count_files ex_uncomp ex_disk (ex_read false) (map wf_name [ex_file; ex_file]) = Ok 6.
Proof.
  split; [repeat (apply Forall_cons; [exact (proj1 ex_wf)|]); apply Forall_nil|].
  split; [repeat (apply Forall_cons; [split; [exact (proj1 ex_covers)|exact ex_numbered]|]); apply Forall_nil|]. vm_compute. reflexivity.
Qed.

(** A file that does not exist ends the program with an exception, no number is printed. *)
Theorem C59_missing_file : forall comp uncomp d files n more raw cbuf mraw next, codec_ok comp uncomp -> Forall (wf_ok comp uncomp d) files ->
  Forall (fun f => Forall (sess_covers comp) (wf_sess f) /\ numbered (items_of (wf_sess f))) files -> d n = None ->
  count_files uncomp d (new_reader false false [] raw cbuf mraw next) (map wf_name files ++ n :: more) = Throw ENotOpen.
Proof. exact counted_missing. Qed.
Print Assumptions C59_missing_file.
Example C59_missing_case : ex_disk (str "y.slcio") = None /\ count_files ex_uncomp ex_disk (ex_read false) [ex_name; str "y.slcio"; ex_name] = Throw ENotOpen.
Proof. split; vm_compute; reflexivity. Qed.

(** [numbered] is needed: events with the same numbers are counted once.  Six events are read from a file
    that was merged from two copies; three are counted. *)
Theorem C59_same_numbers_refuted : exists d n, 
  ex_use_all d [n] false (map Next [true; true; true; true; true; true; true]) = [SEvt 42 7; SEvt 42 3; SEvt 43 7; SEvt 42 7; SEvt 42 3; SEvt 43 7; SNull] /\
  count_files ex_uncomp d (ex_read false) [n] = Ok 3.
Proof. exists (ex_merged ex_disk [ex_name; ex_name]), (sio_filename ex_out). split; vm_compute; reflexivity. Qed.
Print Assumptions C59_same_numbers_refuted.

(** A file that was cut off, from which an event can be read, is not counted at all. *)
Theorem C59_cut_refuted : exists d n, ex_use_all d [n] false [Next true] = [SEvt 42 7] /\
  count_files ex_uncomp d (ex_read false) [n] = Throw EIoFailure.
Proof. exists (ex_cut 2500 ex_disk), ex_name. split; vm_compute; reflexivity. Qed.
Print Assumptions C59_cut_refuted.

(** After copyfix it is. *)
Example C59_fixed_case : count_files ex_uncomp (ex_fixed 2500) (ex_read false) [sio_filename ex_out] = Ok 1.
Proof. vm_compute. reflexivity. Qed.
