(** * C74: a writer object under any sequence of calls, in C++ and in Fortran *)

From Verif Require Import Bytes StrMap SioModel SioProofs SioSpec Ieee ObjModel ObjSpec CollSpec EventModel EventSpec EventProofs EventFacts EventExamples
  IndexModel IndexSpec IndexProofs FileModel IndexFile IndexFacts IndexExamples FileSpec FileWrite FileSessions FileRead FileSeq FileDeliver FileFacts FileUse FileDirect FileMore
  FileExamples WriterModel WriterSpec WriterProofs WriterRun WriterExamples.

(** Any program of calls of one writer, going on after exceptions, in which no existing file is opened
    for appending while another is open: each call returns or throws as the specification says, the
    files that were named and are not open hold the sessions of the specification, and no other file
    was touched. *)
Theorem C74_writer_calls : forall comp uncomp, codec_ok comp uncomp -> forall d files raw mraw l,
  usable raw -> usable mraw -> (forall n, In n (named l) -> on_disk comp uncomp d n (files n)) -> program_ok comp (mkSp files None false 0) l ->
  let s := sp_all (mkSp files None false 0) l in
  let w := wo_all comp uncomp (new_wobj d raw mraw) l in
  fst w = fst s /\
  (forall n, In n (named l) -> is_cur (snd s) n = false -> on_disk comp uncomp (wo_disk (snd w)) n (sp_files (snd s) n)) /\
  (forall n, ~ In n (named l) -> wo_disk (snd w) n = d n).
Proof. exact writer_calls. Qed.
Print Assumptions C74_writer_calls.

Example C74_program_case : codec_ok ex_comp ex_uncomp /\ usable ex_buf /\ (forall n, In n (named ex_program) -> on_disk ex_comp ex_uncomp empty_disk n (no_files n)) /\
  program_ok ex_comp ex_start ex_program /\ named ex_program <> [] /\
  fst (sp_all ex_start ex_program) =
    [Throw LIOException; Ok tt; Ok tt; Ok tt; Ok tt; Ok tt; Ok tt; Ok tt; Ok tt; Throw LIOException; Ok tt; Ok tt; Ok tt; Ok tt; Throw LIOException; Ok tt; Ok tt; Ok tt] /\
  sp_files (snd (sp_all ex_start ex_program)) (sio_filename (str "x")) = Some ex_written.
Proof.
  split; [exact ex_codec|]. split; [split; [reflexivity|discriminate]|]. split; [intros n _; reflexivity|]. split; [exact ex_program_ok|]. split; [discriminate|].
  split; [exact (proj1 ex_program_result)|exact (proj1 (proj2 (proj2 ex_program_result)))].
Qed.

(** A file that holds sessions, the first of them with an item, gives back all items in the order in
    which they were written, whatever calls are made of a reader. *)
Theorem C74_read_back : forall comp uncomp, codec_ok comp uncomp -> forall d n l srt ignore_null steps names raw cbuf mraw next,
  on_disk comp uncomp d n (Some l) -> begun l = true -> Forall (readable ignore_null names) (map snd (concat l)) -> Forall step_ok steps -> 0 < next ->
  answers srt names n false (map snd (concat l)) next (Some (map snd (concat l))) steps
    (use_file uncomp srt ignore_null d n steps (new_reader false false names raw cbuf mraw next)).
Proof. exact file_read. Qed.
Print Assumptions C74_read_back.

Example C74_read_case : begun ex_written = true /\ Forall (readable false []) (map snd (concat ex_written)) /\
  ex_use (ex_after ex_program) false [Next false; Next true; Next false; Next true; Next true] = [SRun 42; SEvt 42 7; SRun 43; SEvt 43 7; SNull].
Proof. split; [reflexivity|]. split; [exact ex_readable_written|vm_compute; reflexivity]. Qed.

(** Once a second file is opened while the first, with something written to it, is still open, no call
    of the writer writes or closes anything any more. *)
Theorem C74_second_open : forall comp s n before now name l, sp_cur s = Some (n, before, now) -> now <> [] ->
  fst (sp_do s (COpen name 0)) = Throw ENotOpen /\
  let s1 := snd (sp_do s (COpen name 0)) in
  (program_ok comp s1 l -> Forall2 (fun c r => match c with CRunHeader _ | CEvent _ _ | CClose => r = Throw EBadState | _ => True end) l (fst (sp_all s1 l)) /\
     sp_cur (snd (sp_all s1 l)) = Some (n, before, now)).
Proof. exact second_open. Qed.
Print Assumptions C74_second_open.

Example C74_second_case :
  ex_says [COpen (str "x") 0; CRunHeader (ex_rn 42); COpen (str "y") 0; CEvent ex_heap (ex_ev 42 7); CClose; COpen (str "z") 7; CClose] =
    [Ok tt; Ok tt; Throw ENotOpen; Throw EBadState; Throw EBadState; Throw ENotOpen; Throw EBadState].
Proof. vm_compute. reflexivity. Qed.

(** An open that throws does not leave the writer as it was. *)
Theorem C74_failed_open_refuted : exists d raw mraw l name l', usable raw /\ usable mraw /\
  nth_error (fst (wo_all ex_comp ex_uncomp (new_wobj d raw mraw) (l ++ COpen name 0 :: l'))) (length l) = Some (Throw ENotOpen) /\
  skipn (S (length l)) (fst (wo_all ex_comp ex_uncomp (new_wobj d raw mraw) (l ++ COpen name 0 :: l'))) <>
  skipn (length l) (fst (wo_all ex_comp ex_uncomp (new_wobj d raw mraw) (l ++ l'))).
Proof.
  exists empty_disk, ex_buf, ex_buf, [COpen (str "x") 0; CRunHeader (ex_rn 42)], (str "y"), [CClose].
  split; [split; [reflexivity|discriminate]|]. split; [split; [reflexivity|discriminate]|]. split; [vm_compute; reflexivity|]. vm_compute. discriminate.
Qed.
Print Assumptions C74_failed_open_refuted.

(** An open that returns need not have opened the file: with a mode that does not exist the file that
    was open stays open, and takes what is written. *)
Theorem C74_open_mode_refuted : exists d raw mraw name mode l, usable raw /\ usable mraw /\
  nth_error (fst (wo_all ex_comp ex_uncomp (new_wobj d raw mraw) l)) 1 = Some (Ok tt) /\ nth_error l 1 = Some (COpen name mode) /\
  forallb (fun r => match r with Ok _ => true | _ => false end) (fst (wo_all ex_comp ex_uncomp (new_wobj d raw mraw) l)) = true /\
  wo_disk (snd (wo_all ex_comp ex_uncomp (new_wobj d raw mraw) l)) (sio_filename name) = None /\
  map brief (use_file ex_uncomp isort false (wo_disk (snd (wo_all ex_comp ex_uncomp (new_wobj d raw mraw) l))) (sio_filename (str "x")) [Next false] (ex_read false)) = [SRun 42].
Proof.
  exists empty_disk, ex_buf, ex_buf, (str "y"), 7, [COpen (str "x") 0; COpen (str "y") 7; CRunHeader (ex_rn 42); CClose].
  split; [split; [reflexivity|discriminate]|]. split; [split; [reflexivity|discriminate]|]. split; [vm_compute; reflexivity|]. split; [reflexivity|].
  split; [vm_compute; reflexivity|]. split; vm_compute; reflexivity.
Qed.
Print Assumptions C74_open_mode_refuted.

(** In Fortran each call gives 1 where the C++ call returns and 0 where it throws, and leaves the same
    files. *)
Theorem C74_fortran_writer : forall comp uncomp, codec_ok comp uncomp -> forall d files raw mraw l,
  usable raw -> usable mraw -> (forall n, In n (named l) -> on_disk comp uncomp d n (files n)) -> program_ok comp (mkSp files None false 0) l ->
  let s := sp_all (mkSp files None false 0) l in
  let w := lcwrt comp uncomp (new_wobj d raw mraw) l in
  fst w = map (fun r => Ok (match r with Ok _ => 1 | _ => 0 end)) (fst s) /\
  (forall n, In n (named l) -> is_cur (snd s) n = false -> on_disk comp uncomp (snd w) n (sp_files (snd s) n)).
Proof. exact fortran_calls. Qed.
Print Assumptions C74_fortran_writer.

Example C74_fortran_case :
  fst (lcwrt ex_comp ex_uncomp ex_writer [CRunHeader (ex_rn 42); COpen (str "x") 1; COpen (str "x") 0; CRunHeader (ex_rn 42); CClose; CClose]) = [Ok 0; Ok 0; Ok 1; Ok 1; Ok 1; Ok 1] /\
  forallb fortran_call [CRunHeader (ex_rn 42); COpen (str "x") 1; COpen (str "x") 0; CRunHeader (ex_rn 42); CClose; CClose] = true.
Proof. split; [vm_compute; reflexivity|reflexivity]. Qed.

(** Fortran reads: 1 from the open, then a pointer to each item asked for, in the order of writing. *)
Theorem C74_fortran_reader : forall comp uncomp, codec_ok comp uncomp -> forall d n l srt ignore_null steps names raw cbuf mraw next,
  on_disk comp uncomp d n (Some l) -> begun l = true -> Forall (readable ignore_null names) (map snd (concat l)) -> Forall step_ok steps -> 0 < next ->
  exists rs, answers srt names n false (map snd (concat l)) next (Some (map snd (concat l))) steps rs /\
    lcrdr uncomp srt ignore_null d n steps (new_reader false false names raw cbuf mraw next) = FStatus 1 :: pointers rs.
Proof. exact fortran_read. Qed.
Print Assumptions C74_fortran_reader.

(** what a pointer leads to, briefly *)
Definition points (x : freply) : list Z :=
  match x with
  | FNull => [0] | FEvent l => [1; ev_run (le_evt l); ev_num (le_evt l)] | FRun h => [2; rh_run h] | FStatus z => [3; z] | FTerminate => [4] | FUB _ => [5]
  end.

Example C74_fortran_read_case :
  map points (lcrdr ex_uncomp isort false (ex_after ex_program) ex_name [Next false; Next true; Skip 1; Next true] (ex_read false)) = [[3; 1]; [2; 42]; [1; 42; 7]; [3; 1]; [0]] /\
  map points (lcrdr ex_uncomp isort false empty_disk ex_name [Next false] (ex_read false)) = [[3; 0]; [4]].
Proof. split; vm_compute; reflexivity. Qed.

(** A read that finds the end gives the null pointer, but one more read ends the program: the exception
    is not caught. *)
Theorem C74_read_after_end_refuted : exists d n steps r, wf_ok ex_comp ex_uncomp d ex_file /\
  map points (lcrdr ex_uncomp isort false d n steps r) = [[3; 1]; [2; 42]; [2; 43]; [0]; [4]].
Proof. exists ex_disk, ex_name, [Next false; Next false; Next false; Next false], (ex_read false). split; [exact (proj1 ex_wf)|vm_compute; reflexivity]. Qed.
Print Assumptions C74_read_after_end_refuted.

(** The name of the file: the name that was given if it ends with ".slcio", otherwise with that appended; so
    the name is the same whether or not it is given with the extension. *)
Theorem C74_file_name : forall n, (forall p, n = p ++ str ".slcio" -> sio_filename n = n) /\
  ((forall p, n <> p ++ str ".slcio") -> sio_filename n = n ++ str ".slcio") /\
  sio_filename (n ++ str ".slcio") = n ++ str ".slcio" /\ sio_filename (sio_filename n) = sio_filename n.
Proof.
  intros n.
  assert (H : forall p, sio_filename (p ++ str ".slcio") = p ++ str ".slcio").
  { intros p. unfold sio_filename. change extension with (str ".slcio"). rewrite app_length, Nat.add_sub, skipn_app, skipn_all, Nat.sub_diag. cbn [app skipn]. rewrite bytes_eqb_refl. reflexivity. }
  assert (O : sio_filename n = n \/ sio_filename n = n ++ str ".slcio") by (unfold sio_filename; destruct (bytes_eqb _ _); [left|right]; reflexivity).
  split; [intros p ->; apply H|]. split; [|split; [apply H|]].
  - intros Hn. unfold sio_filename. destruct (bytes_eqb _ extension) eqn:E; [|reflexivity]. apply bytes_eqb_eq in E.
    destruct (Hn (firstn (length n - length extension) n)). change (str ".slcio") with extension. rewrite <- E at 2. symmetry. apply firstn_skipn.
  - destruct O as [E|E]; rewrite E; [exact E|apply H].
Qed.
Print Assumptions C74_file_name.
Example C74_file_name_case : sio_filename (str "a.slcio") = str "a.slcio" /\ sio_filename (str "a.slcio.b") = str "a.slcio.b.slcio" /\ sio_filename (str "a") = str "a.slcio" /\
  sio_filename (str "slcio") = str "slcio.slcio" /\ sio_filename [] = str ".slcio" /\ (forall p, str "a" <> p ++ str ".slcio").
Proof. do 5 (split; [reflexivity|]). intros p E. apply (f_equal (@length _)) in E. rewrite app_length in E. cbn in E. lia. Qed.
