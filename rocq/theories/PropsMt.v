(** * C79: an object of MT::LCWriter under any sequence of calls *)

From Verif Require Import Bytes StrMap SioModel SioProofs SioSpec Ieee ObjModel ObjSpec CollSpec EventModel EventSpec EventProofs EventFacts EventExamples
  IndexModel IndexSpec IndexProofs FileModel IndexFile IndexFacts IndexExamples FileSpec FileWrite FileSessions FileRead FileSeq FileDeliver FileFacts FileUse FileDirect FileMore
  FileExamples ThreadModel WriterModel WriterSpec WriterProofs WriterRun WriterExamples MtModel MtSpec MtProofs.

(** Any program of calls, going on after exceptions, in which no file is opened while another is open: each call
    returns or throws as the specification says, a close is undefined if no open was tried since the last close
    and only then, the files that were named and are not open hold the sessions of the specification, and no
    other file was touched.  [max], the size of the first buffers, is 2465792 in the code. *)
Theorem C79_calls : forall comp uncomp d files raw mraw max l, codec_ok comp uncomp -> 0 < max < two32 -> usable raw -> usable mraw ->
  (forall n, In n (mt_named l) -> on_disk comp uncomp d n (files n)) -> mt_program_ok comp (mkSp files None false (-1), false) l ->
  let s := mp_all (mkSp files None false (-1), false) l in
  let w := mt_all comp uncomp mraw (new_mobj d raw max) l in
  fst w = fst s /\
  (forall n, In n (mt_named l) -> is_cur (fst (snd s)) n = false -> on_disk comp uncomp (wo_disk (mo_w (snd w))) n (sp_files (fst (snd s)) n)) /\
  (forall n, ~ In n (mt_named l) -> wo_disk (mo_w (snd w)) n = d n).
Proof. exact mt_calls. Qed.
Print Assumptions C79_calls.

Definition mt_program : list mtcall :=
  [ MCreate (str "x"); MLevel 0; MWrite (WRun (ex_rn 42)); MLevel 6; MWrite (WEvt ex_heap (ex_ev 42 7) []); MClose;
    MOpen (str "y") 1; MOpen (str "x") 1; MLevel 1; MWrite (WRun (ex_rn 43)); MCreate (str "x"); MLevel 9; MWrite (WEvt ex_heap (ex_ev 43 7) []); MClose;
    MLevel 6; MWrite (WEvt ex_heap (ex_ev 42 7) []); MCreate (str "x"); MClose; MCreate (str "y") ].
Definition mt_start : mp := (mkSp no_files None false (-1), false).

Lemma mt_program_step comp s c l r s1 : mp_do s c = (r, s1) -> one_at_a_time (fst s) c -> item_fits (fst s) c -> sp_fits comp (fst s1) -> mt_program_ok comp s1 l -> mt_program_ok comp s (c :: l).
Proof. intros E H1 H2 H3 H4. cbn [mt_program_ok]. rewrite E. cbv zeta. cbn [snd]. auto. Qed.
Ltac mt_reduce Q1 Q2 :=
  cbn [mp_do sp_do one_at_a_time item_fits fst snd]; unfold sp_write, sp_open, put_file, no_files; cbn [sp_cur sp_files sp_stuck sp_level Z.eqb Pos.eqb]; cbv zeta; rewrite ?bytes_eqb_refl, ?Q1, ?Q2;
  cbn [begun app andb fst snd].
Ltac mt_step A B C D := lazymatch goal with
  | |- None = None => reflexivity
  | |- _ \/ _ => first [left; reflexivity|right; discriminate]
  | |- _ => ex_step A B C D
  end.

Example C79_program_case : codec_ok ex_comp ex_uncomp /\ usable ex_buf /\ (forall n, In n (mt_named mt_program) -> on_disk ex_comp ex_uncomp empty_disk n (no_files n)) /\
  mt_program_ok ex_comp mt_start mt_program /\
  fst (mp_all mt_start mt_program) =
    [Ok tt; Ok tt; Ok tt; Ok tt; Ok tt; Ok tt; Throw LIOException; Ok tt; Ok tt; Ok tt; Throw LIOException; Ok tt; Ok tt; Ok tt; Ok tt; Throw LIOException; Throw LIOException; UB UBNullDeref] /\
  sp_files (fst (snd (mp_all mt_start mt_program))) (sio_filename (str "x")) = Some ex_written.
Proof.
  split; [exact ex_codec|]. split; [split; [reflexivity|discriminate]|]. split; [intros n _; reflexivity|]. split; [|split; reflexivity].
  destruct ex_four_ok as (A & B & C & D). destruct xy as [Q1 Q2]. unfold mt_program, mt_start.
  repeat (eapply mt_program_step; [mt_reduce Q1 Q2; reflexivity|mt_reduce Q1 Q2; mt_step A B C D|mt_reduce Q1 Q2; mt_step A B C D|cbn [fst snd]; mt_step A B C D|]).
  exact Logic.I.
Qed.

(** A write that throws changes nothing, in whatever state the writer is; one that returns changes no file but
    the one that is open. *)
Theorem C79_write : forall comp w i, (forall e, fst (mt_write comp w i) = Throw e -> snd (mt_write comp w i) = w) /\
  (fst (mt_write comp w i) = Ok tt -> exists n o, wo_stream (mo_w w) = Some (n, o) /\ forall m, m <> n -> wo_disk (mo_w (snd (mt_write comp w i))) m = wo_disk (mo_w w) m).
Proof.
  intros comp w i. unfold mt_write. destruct (do '(raws, key) <- raw_item (mo_max w) i; _) as [[[recs key] size]|e|k]; cbn [fst snd]; [|split; [reflexivity|discriminate]|split; [reflexivity|discriminate]].
  destruct (wo_stream (mo_w w)) as [[n o]|]; [|split; [reflexivity|discriminate]]. destruct (negb (wo_good (mo_w w))); [split; [reflexivity|discriminate]|].
  destruct (negb (mo_there w)); [split; [reflexivity|discriminate]|]. split; [discriminate|]. intros _. exists n, o. split; [reflexivity|]. intros m Hm.
  cbn [fst snd mo_w WriterModel.set_mgr put_stream wo_disk]. apply save_other. destruct (bytes_eqb m n) eqn:Q; [|reflexivity]. apply bytes_eqb_eq in Q. contradiction.
Qed.
Print Assumptions C79_write.

Definition mt_ex (l : list mtcall) : list (Res unit) * mobj := mt_all ex_comp ex_uncomp ex_buf (new_mobj empty_disk ex_buf 16) l.
Definition mt_disk (l : list mtcall) : disk := wo_disk (mo_w (snd (mt_ex l))).

Example C79_write_case : fst (mt_ex [MWrite (WRun (ex_rn 42)); MCreate (str "x"); MWrite (WRun (ex_rn 42)); MWrite (WEvt ex_heap (ex_ev 42 7) [str "nothing"])]) = [Throw LIOException; Ok tt; Ok tt; Ok tt] /\
  fst (mt_ex [MCreate (str "x"); MOpen (str "y") 0; MWrite (WRun (ex_rn 42))]) = [Ok tt; Throw ENotOpen; Throw EBadState].
Proof. split; vm_compute; reflexivity. Qed.

(** what is counted in a file, and what is read from it *)
Definition mt_counts (l : list mtcall) : Res Z := fst (number_of_events ex_uncomp (snd (open_file ex_uncomp (mt_disk l) ex_name (ex_read true)))).
Definition mt_reads (l : list mtcall) (n : nat) := map brief (use_file ex_uncomp isort false (mt_disk l) ex_name (repeat (Next true) n) (ex_read false)).

(** An open that throws while a file is open takes the index of that file away: the file is written on and is
    closed without an error, but only the event behind the open is counted. *)
Theorem C79_failed_open_refuted : exists l, fst (mt_ex l) = [Ok tt; Ok tt; Throw LIOException; Ok tt; Ok tt] /\
  l = [MCreate (str "x"); MWrite (WEvt ex_heap (ex_ev 42 7) []); MOpen (str "y") 1; MWrite (WEvt ex_heap (ex_ev 43 7) []); MClose] /\
  sio_filename (str "x") = ex_name /\ mt_reads l 3 = [SEvt 42 7; SEvt 43 7; SNull] /\ mt_counts l = Ok 1.
Proof. eexists. split; [|split; [reflexivity|]]; [vm_compute; reflexivity|]. split; [reflexivity|]. split; vm_compute; reflexivity. Qed.
Print Assumptions C79_failed_open_refuted.

(** An open of a second file throws, and the first one is closed without an index; all it contains is lost when
    it is opened for appending. *)
Theorem C79_second_open_refuted : exists l l', fst (mt_ex l) = [Ok tt; Ok tt; Throw ENotOpen; Ok tt] /\
  l = [MCreate (str "x"); MWrite (WEvt ex_heap (ex_ev 42 7) []); MOpen (str "y") 0; MClose] /\ mt_reads l 2 = [SEvt 42 7; SNull] /\
  l' = l ++ [MOpen (str "x") 1; MWrite (WEvt ex_heap (ex_ev 43 7) []); MClose] /\
  fst (mt_ex l') = [Ok tt; Ok tt; Throw ENotOpen; Ok tt; Ok tt; Ok tt; Ok tt] /\ mt_reads l' 2 = [SEvt 43 7; SNull].
Proof. eexists _, _. split; [|split; [reflexivity|]]; [vm_compute; reflexivity|]. split; [vm_compute; reflexivity|]. split; [reflexivity|]. split; vm_compute; reflexivity. Qed.
Print Assumptions C79_second_open_refuted.

(** An open with a mode that does not exist, while a file is open, does not throw and takes the index
    away: the event can be read but is not counted. *)
Theorem C79_mode_refuted : exists l, fst (mt_ex l) = [Ok tt; Ok tt; Ok tt; Ok tt] /\
  l = [MCreate (str "x"); MWrite (WEvt ex_heap (ex_ev 42 7) []); MOpen (str "y") 7; MClose] /\ mt_reads l 2 = [SEvt 42 7; SNull] /\ mt_counts l = Ok 0.
Proof. eexists. split; [|split; [reflexivity|]]; [vm_compute; reflexivity|]. split; vm_compute; reflexivity. Qed.
Print Assumptions C79_mode_refuted.
