(** * Repairing files and counting events

    Model of src/cpp/src/EXAMPLE/copyfix.cc and lcio_event_counter.cc. *)

From Verif Require Import Bytes StrMap SioModel Ieee ObjModel ObjSpec EventModel IndexModel FileModel MergeModel.

Section Fix.
Context (comp : Z -> bytes -> bytes) (uncomp : bytes -> option bytes) (srt : forall A : Type, (A -> Z) -> list A -> list A)
  (ignore_null : bool).

(** main, copyfix.cc:80-127.  The input is opened (99), then the output with WRITE_NEW (RunEventProcessor,
    33-46), then readStream (114) without a limit, whose listener writes what it is given (56-74, the same
    as in lcio_merge_files.cc, see [write_calls]).  If readStream throws, the destructor closes the output
    (48-52) before the exception is caught (121-123).

    Simplified as in [merge_files]: the calls are collected before they are written; an output that is also
    the input is outside the model; if writing throws, the contents of the output are not modelled. *)
Definition copy_fix (d : disk) (inp out : bytes) (level : Z) (wraw b1 b2 : buffer) (r : reader) : Res disk :=
  match open_file uncomp d inp r with
  | (Throw e, _) => Throw e
  | (UB k, _) => UB k
  | (Ok _, r1) =>
      if bytes_eqb (sio_filename out) inp then UB UBPrecondition else
      do w <- open_new d out level wraw;
      match read_stream uncomp srt ignore_null d 1 (two31 - 1) r1 with
      | (UB k, _, _) => UB k
      | (_, cs, _) =>
          do w' <- write_calls comp w b1 b2 cs;
          do c <- close_writer w';
          Ok (save d (sio_filename out) c)
      end
  end.

(** the loop of lcio_event_counter.cc:35-70, for files whose names do not end with .stdhep: for each of them
    a new reader is made without direct access (62), opened and asked (64-65).  The sum is a long, which
    overflows only for more files than there can be. *)
Fixpoint count_loop (d : disk) (new : reader) (total : Z) (files : list bytes) : Res Z :=
  match files with
  | [] => Ok total
  | n :: files' =>
      match open_file uncomp d n new with
      | (Throw e, _) => Throw e
      | (UB k, _) => UB k
      | (Ok _, r1) =>
          do c <- fst (number_of_events uncomp r1);
          count_loop d new (total + c) files'
      end
  end.
(** lcio_event_counter.cc:17-75 *)
Definition count_files (d : disk) (new : reader) (files : list bytes) : Res Z := count_loop d new 0 files.

End Fix.
