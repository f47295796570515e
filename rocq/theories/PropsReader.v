(** * SIOReader: listeners, and the records it returns *)

From Verif Require Import Bytes StrMap SioModel SioProofs SioSpec Ieee ObjModel ObjSpec CollSpec EventModel EventSpec EventProofs EventFacts EventExamples
  IndexModel IndexSpec FileModel FileSpec FileExamples StreamSpec FileStream ReaderModel ReaderSpec ReaderProofs.

(** ** C51: registered listeners *)

(** For files that were written, and every program that registers and removes listeners and calls
    readStream in between: the records are those of C47, and each of them is given to all listeners registered
    then, once, in the order of their addresses.  Each listener may change the record first, which it
    gets as the listeners before it left it, and then gets it read only. *)
Theorem C51_listeners : forall comp uncomp srt ignore_null change_evt change_run d files ops direct names raw cbuf mraw next,
  codec_ok comp uncomp -> files <> [] -> Forall (wf_ok comp uncomp d) files ->
  (direct = true -> match files with f :: _ => Forall (sess_covers comp) (wf_sess f) | [] => True end) ->
  Forall (fun w => readable ignore_null names (snd w)) (flat_map wf_items files) -> 0 < next ->
  Forall streaming ops -> proper ops -> Forall (fun o => forall m, o = OStream m -> 0 < m <= max_int) ops ->
  exists plain, streams srt names next (Some (flat_map wf_items files)) (limits ops) plain /\
    notified change_evt change_run [] ops plain
      (sio_program uncomp srt ignore_null change_evt change_run d (map wf_name files) ops (new_reader direct false names raw cbuf mraw next)).
Proof. exact sio_listeners. Qed.
Print Assumptions C51_listeners.

(** The listeners for any contents of the files, as long as reading is defined. *)
Theorem C51_any_files : forall uncomp srt ignore_null change_evt change_run d ops h s, Forall streaming ops -> proper (h ++ ops) -> listed h s ->
  (forall x cs, In (x, cs) (run_streams uncomp srt ignore_null d (limits ops) (sr_reader s)) -> forall k, x <> UB k) ->
  notified change_evt change_run h ops (run_streams uncomp srt ignore_null d (limits ops) (sr_reader s))
    (sio_run uncomp srt ignore_null change_evt change_run d ops s).
Proof. exact notified_run. Qed.
Print Assumptions C51_any_files.

(** listeners that set the event number and the run number to their address *)
Definition ex_change_evt (l : Z) (e : levent) : levent :=
  mkLE (mkEvt (ev_run (le_evt e)) l (ev_time (le_evt e)) (ev_det (le_evt e)) (ev_par (le_evt e)) (ev_cols (le_evt e))) (le_heap e) (le_rec e).
Definition ex_change_run (l : Z) (h : runhdr) : runhdr := mkRun l (rh_det h) (rh_desc h) (rh_subs h) (rh_par h).
Definition ex_ops51 : list rop := [OAddEvt 30; OAddRun 9; OAddEvt 20; OAddEvt 30; OStream 2; ODropEvt 30; OStream max_int].
Definition ex_note (n : note) := (nt_listener n, nt_modify n, nt_readonly n, match nt_record n with CRun h => SRun (rh_run h) | CEvt l => SEvt (ev_run (le_evt l)) (ev_num (le_evt l)) end).
Definition ex_reply (r : reply) :=
  match r with
  | PCalls x l => (SDone, map ex_note l)
  | PEvt (Some l) => (SEvt (ev_run (le_evt l)) (ev_num (le_evt l)), [])
  | PRun (Some h) => (SRun (rh_run h), [])
  | PEvt None | PRun None => (SNull, [])
  | PDone => (SDone, [])
  | PThrow e => (SThrow e, [])
  | PUB k => (SUB k, [])
  end.
Definition ex_sio (d : disk) (ops : list rop) := map ex_reply (sio_program ex_uncomp isort false ex_change_evt ex_change_run d [ex_name] ops (ex_read false)).

Lemma ex_proper : proper ex_ops51.
Proof.
  intros h1 h2 l. split; intros E.
  - assert (H : h1 = firstn 5 ex_ops51 /\ l = 30).
    { unfold ex_ops51 in E. do 5 (destruct h1 as [|? h1]; [discriminate E|]; injection E as <- E). destruct h1 as [|? h1]; [injection E as <- _; split; reflexivity|].
      injection E as <- E. do 1 (destruct h1 as [|? h1]; [discriminate E|]; injection E as <- E). destruct h1; discriminate E. }
    destruct H as [-> ->]. exists [OAddEvt 30; OAddRun 9; OAddEvt 20], [OStream 2]. split; [reflexivity|]. intros [H|[]]; discriminate H.
  - exfalso. unfold ex_ops51 in E. do 7 (destruct h1 as [|? h1]; [discriminate E|]; injection E as <- E). destruct h1; discriminate E.
Qed.
Example C51_case : Forall streaming ex_ops51 /\ proper ex_ops51 /\ Forall (fun o => forall m, o = OStream m -> 0 < m <= max_int) ex_ops51 /\
  nth_error (ex_sio ex_disk ex_ops51) 4 = Some (SDone,
    [(9, true, false, SRun 42); (9, false, true, SRun 9);
     (20, true, false, SEvt 42 7); (20, false, true, SEvt 42 20); (30, true, false, SEvt 42 20); (30, false, true, SEvt 42 30)]) /\
  nth_error (ex_sio ex_disk ex_ops51) 6 = Some (SDone,
    [(20, true, false, SEvt 42 3); (20, false, true, SEvt 42 20); (9, true, false, SRun 43); (9, false, true, SRun 9);
     (20, true, false, SEvt 43 7); (20, false, true, SEvt 43 20)]).
Proof.
  split; [repeat (apply Forall_cons; [first [left; exact I|right; eexists; reflexivity]|]); apply Forall_nil|]. split; [exact ex_proper|].
  split; [|split; vm_compute; reflexivity].
  repeat (apply Forall_cons; [intros m E; try discriminate E; injection E as <-; unfold max_int; lia|]). apply Forall_nil.
Qed.

(** Removing a listener that is not registered is undefined. *)
Theorem C51_remove_twice_refuted : exists ops, ex_sio ex_disk ops = [(SDone, []); (SDone, []); (SUB UBPrecondition, [])].
Proof. exists [OAddEvt 20; ODropEvt 20; ODropEvt 20]. vm_compute. reflexivity. Qed.

(** ** C52: the records returned by SIOReader *)

(** For every file and every sequence of calls for reading, SIOReader returns what MT::LCReader returns, up to
    the first call for an event (run header) behind a call that returned an event (run header) and the next
    one, which threw an exception: then the first of them is deleted a second time. *)
Theorem C52_same_records : forall uncomp srt ignore_null change_evt change_run d st r,
  wrapped [] [] st (run_steps uncomp srt ignore_null d st r) (sio_run uncomp srt ignore_null change_evt change_run d (map op_of st) (new_sio r)).
Proof. exact sio_reads. Qed.
Print Assumptions C52_same_records.
Theorem C52_no_exception : forall uncomp srt ignore_null change_evt change_run d st r,
  (forall e, ~ In (RThrow e) (run_steps uncomp srt ignore_null d st r)) ->
  sio_run uncomp srt ignore_null change_evt change_run d (map op_of st) (new_sio r) = map reply_of (run_steps uncomp srt ignore_null d st r).
Proof. exact sio_reads_same. Qed.
Print Assumptions C52_no_exception.
(** A record that was returned is not deleted before the next call for a record of its kind. *)
Theorem C52_record_stays : forall uncomp srt ignore_null change_evt change_run d o l s s',
  (forall e, sio_step uncomp srt ignore_null change_evt change_run d o s = (PEvt (Some e), s') -> Forall (fun o => ~ op_reads_evt o) l ->
     sr_evt (sio_end uncomp srt ignore_null change_evt change_run d l s') = HRecord e) /\
  (forall h, sio_step uncomp srt ignore_null change_evt change_run d o s = (PRun (Some h), s') -> Forall (fun o => ~ op_reads_run o) l ->
     sr_run (sio_end uncomp srt ignore_null change_evt change_run d l s') = HRecord h).
Proof. exact record_stays. Qed.
Print Assumptions C52_record_stays.

Definition ex_steps52 : list step := [Next false; Next true; Skip 1; Next false; Next true; Next true].
Example C52_case : ex_use ex_disk false ex_steps52 = [SRun 42; SEvt 42 7; SDone; SRun 43; SEvt 43 7; SNull] /\
  map fst (ex_sio ex_disk (map op_of ex_steps52)) = ex_use ex_disk false ex_steps52.
Proof. vm_compute. split; reflexivity. Qed.

(** A file that is read to its end: readNextRunHeader throws, and when it is called once more the run header that was
    returned first is deleted again. *)
Theorem C52_deleted_twice_refuted : exists d f st, wf_ok ex_comp ex_uncomp d f /\
  ex_use d false st = [SRun 42; SEvt 42 7; SEvt 42 3; SEvt 43 7; SNull; SThrow EBadState; SThrow EBadState] /\
  map fst (ex_sio d (map op_of st)) = [SRun 42; SEvt 42 7; SEvt 42 3; SEvt 43 7; SNull; SThrow EBadState; SUB UBPrecondition].
Proof. exists ex_disk, ex_file, (map Next [false; true; true; true; true; false; false]). split; [exact (proj1 ex_wf)|]. split; vm_compute; reflexivity. Qed.
(** A file that was cut off: the same happens with readNextEvent. *)
Theorem C52_cut_file_refuted : exists d st, ex_use d false st = [SEvt 42 7; SEvt 42 3; SThrow EIoFailure; SThrow EBadState] /\
  map fst (ex_sio d (map op_of st)) = [SEvt 42 7; SEvt 42 3; SThrow EIoFailure; SUB UBPrecondition].
Proof. exists (ex_cut 600 ex_disk), (map Next [true; true; true; true]). split; vm_compute; reflexivity. Qed.
