(** * Merging and splitting files, adding an index

    Model of src/cpp/src/EXAMPLE/lcio_merge_files.cc, lcio_split_file.cc and addRandomAccess.cc. *)

From Verif Require Import Bytes StrMap SioModel Ieee ObjModel ObjSpec EventModel IndexModel FileModel BitModel SplitModel.

Section Merge.
Context (comp : Z -> bytes -> bytes) (uncomp : bytes -> option bytes) (srt : forall A : Type, (A -> Z) -> list A -> list A)
  (ignore_null : bool).

(** RunEventProcessor::processEvent and processRunHeader, lcio_merge_files.cc:58-65 and 70-78: what is
    given to the listener is written.  The listener is registered with a SIOReader, which is itself the
    one listener of the readStream that is modelled (src/cpp/src/SIO/SIOReader.cc:94-96, 181-207). *)
Definition item_of_call (c : call) : witem :=
  match c with CRun h => WRun h | CEvt l => WEvt (le_heap l) (le_evt l) [] end.
Fixpoint write_calls (w : writer) (b1 b2 : buffer) (cs : list (nat * call)) : Res writer :=
  match cs with
  | [] => Ok w
  | kc :: cs' => do w' <- write_item comp w b1 b2 (item_of_call (snd kc)); write_calls w' b1 b2 cs'
  end.

(** main, lcio_merge_files.cc:84-137.  The files are opened for reading (109-115), then the output with
    WRITE_NEW (RunEventProcessor, 36-48), then readStream (127), without a limit, and the destructor
    closes the output (50-54) also if readStream has thrown.

    Simplified: the listener writes while the files are being read; here first all calls are collected
    and then written, which makes no difference because a file that is written is not read.  An output
    that is also one of the inputs is outside the model.  If writing throws, the contents of the output
    are not modelled. *)
Definition merge_files (d : disk) (out : bytes) (files : list bytes) (level : Z) (wraw b1 b2 : buffer) (r : reader) : Res disk :=
  match open_files uncomp d files r with
  | (Throw e, _) => Throw e
  | (UB k, _) => UB k
  | (Ok _, r1) =>
      if existsb (bytes_eqb (sio_filename out)) files then UB UBPrecondition else
      do w <- open_new d out level wraw;
      match read_stream uncomp srt ignore_null d 1 (two31 - 1) r1 with
      | (UB k, _, _) => UB k
      | (_, cs, _) =>
          do w' <- write_calls w b1 b2 cs;
          do c <- close_writer w';
          Ok (save d (sio_filename out) c)
      end
  end.

(** RunEventProcessor of lcio_split_file.cc: the calls of LCSplitWriter until one of them throws,
    open 38, writeEvent 60, writeRunHeader 72.  The destructor closes the writer in any case, 48-52. *)
Fixpoint split_calls (b1 b2 : buffer) (s : split) (l : list sop) : Res (answer * split) :=
  match l with
  | [] => Ok (Done, s)
  | o :: l' =>
      do '(a, s1) <- sp_step comp b1 b2 s o;
      match a with Done => split_calls b1 b2 s1 l' | Threw e => Ok (Threw e, s1) end
  end.
(** main, lcio_split_file.cc:80-130: a failure to open one of the files ends the program (106-111, 38-44).
    Simplified as above; the name of an output file is free (see LCSplitWriter::open), so that no input is
    written.  The result is the disk and whether all calls of the writer were successful. *)
Definition split_file (d : disk) (inp out : bytes) (max level : Z) (wraw b1 b2 : buffer) (r : reader) : Res (answer * disk) :=
  match open_files uncomp d [inp] r with
  | (Throw e, _) => Throw e
  | (UB k, _) => UB k
  | (Ok _, r1) =>
      do '(a0, s0) <- sp_step comp b1 b2 (new_split d wraw level max) (SOpen out);
      match a0 with
      | Threw e => Throw e
      | Done =>
          match read_stream uncomp srt ignore_null d 1 (two31 - 1) r1 with
          | (UB k, _, _) => UB k
          | (_, cs, _) =>
              do '(a, s) <- split_calls b1 b2 s0 (map (fun kc => SWrite (item_of_call (snd kc))) cs);
              do '(a', s') <- sp_step comp b1 b2 s SClose;
              match a' with
              | Threw e => Throw e
              | Done => Ok (a, sp_disk s')
              end
          end
      end
  end.

(** main of addRandomAccess.cc:20-96, without -f, for one file: opened for appending and closed (83-85) *)
Definition add_access (d : disk) (name : bytes) (level : Z) (raw : buffer) : Res disk :=
  do w <- open_append uncomp d name level raw;
  do c <- close_writer w;
  Ok (save d (sio_filename name) c).
(** several files, addRandomAccess.cc:50-93: if there is no such file, IOException is caught and the loop
    goes on; the writer was not used then.  Other exceptions are not followed further. *)
Fixpoint add_access_all (d : disk) (names : list bytes) (level : Z) (raw : buffer) : Res disk :=
  match names with
  | [] => Ok d
  | n :: names' =>
      match d (sio_filename n) with
      | None => add_access_all d names' level raw
      | Some _ => do d' <- add_access d n level raw; add_access_all d' names' level raw
      end
  end.

(** with -f, addRandomAccess.cc:57-81: if the 16 bytes which start 112 bytes (6) before the end are the name
    of an index record, or fewer than 16 could be read, they are replaced by LCIORandomIGNORE; in a file of
    fewer than 112 bytes the position stays at the beginning, and in one of fewer than 16 bytes the second
    fseek fails, too, and the new name goes to the end; if there is no such file, fclose is called for a null
    pointer (80).  The file is opened here by the name as given (59), by the writer by sio_filename. *)
Definition force_name (data : bytes) : bytes :=
  let p := Z.to_nat (Z.max 0 (if Zlen data <? 112 then 0 else Zlen data - 112)) in
  let got := firstn 16 (skipn p data) in
  if bytes_eqb got (str "LCIORandomAccess") || negb (Zlen got =? 16) then
    let q := if Zlen got =? 16 then p else (p + length got)%nat in
    firstn q data ++ str "LCIORandomIGNORE" ++ skipn (q + 16) data
  else data.
Definition force_access (d : disk) (name : bytes) (level : Z) (raw : buffer) : Res disk :=
  match d name with
  | None => UB UBNullDeref
  | Some data => add_access (save d name (force_name data)) name level raw
  end.

End Merge.
