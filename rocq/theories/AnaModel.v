(** * The program anajob

    Model of src/cpp/src/EXAMPLE/anajob.cc.  What it prints is given as the numbers, run headers and events
    that are printed; the printing itself (LCTOOLS::dumpRunHeader and dumpEvent) is not modelled. *)

From Verif Require Import Bytes BitModel StrMap SioModel Ieee ObjModel EventModel IndexModel FileModel ShowModel.

(** the program prints how it is to be used (anajob.cc:26-31); or for each file the numbers of runs and events,
    the run headers, whether there was a message about them, and the events; or it ends with an exception *)
Inductive anaout : Type :=
| AUsage | ADone (counts : list (Z * Z)) (hdrs : list runhdr) (message : bool) (evs : list levent) | ATerminate (e : exn) | AUB (k : ub).

Section Ana.
Context (uncomp : bytes -> option bytes) (srt : forall A : Type, (A -> Z) -> list A -> list A) (ignore_null : bool).

(** the numbers of runs and events of each file, anajob.cc:64-75, with one reader (the order of the two calls in one expression, 69-70, is fixed here) *)
Fixpoint ana_counts (d : disk) (files : list bytes) (r : reader) : Res (list (Z * Z)) * reader :=
  match files with
  | [] => (Ok [], r)
  | n :: files' =>
      match open_file uncomp d n r with
      | (Ok _, r1) =>
          let '(runs, r2) := number_of_runs uncomp r1 in
          let '(evts, r3) := number_of_events uncomp r2 in
          match (do a <- runs; do b <- evts; Ok (a, b)) with
          | Ok ab => let '(x, r4) := ana_counts d files' (close_reader r3) in ((do l <- x; Ok (ab :: l)), r4)
          | Throw e => (Throw e, r3)
          | UB k => (UB k, r3)
          end
      | (Throw e, r1) => (Throw e, r1)
      | (UB k, r1) => (UB k, r1)
      end
  end.
(** the loop over the run headers, anajob.cc:85-98: an IOException ends it with a message, and also an
    EndOfDataException (src/cpp/include/Exceptions.h:108) *)
Fixpoint ana_runs (fuel : nat) (d : disk) (r : reader) : Res (list runhdr * bool) * reader :=
  match fuel with
  | O => (UB UBDiverge, r)
  | S fuel' =>
      match read_next_run uncomp d r with
      | (Ok (Some h), r1) => let '(x, r2) := ana_runs fuel' d r1 in ((do '(l, m) <- x; Ok (h :: l, m)), r2)
      | (Ok None, r1) => (Ok ([], false), r1)
      | (Throw LIOException, r1) | (Throw LEndOfData, r1) => (Ok ([], true), r1)
      | (Throw e, r1) => (Throw e, r1)
      | (UB k, r1) => (UB k, r1)
      end
  end.
(** the loop over the events, anajob.cc:119-123 *)
Fixpoint ana_events (fuel : nat) (d : disk) (r : reader) : Res (list levent) :=
  match fuel with
  | O => UB UBDiverge
  | S fuel' =>
      match read_next_event uncomp srt ignore_null d r with
      | (Ok (Some l), r1) => do ls <- ana_events fuel' d r1; Ok (l :: ls)
      | (Ok None, _) => Ok []
      | (Throw e, _) => Throw e
      | (UB k, _) => UB k
      end
  end.
(** opening all files, anajob.cc:79 and 106 *)
Definition ana_open (d : disk) (files : list bytes) (r : reader) : Res reader :=
  match open_files uncomp d files r with (Ok _, r1) => Ok r1 | (Throw e, _) => Throw e | (UB k, _) => UB k end.
(** main, anajob.cc:23-135; [new] gives the reader of line 37 with the names of collections, [fuel] bounds the
    loops *)
Definition anajob (fuel : nat) (d : disk) (files : list bytes) (env : option bytes) (new : list bytes -> reader) : anaout :=
  match files with
  | [] => AUsage
  | _ =>
      let '(x, r1) := ana_counts d files (new (env_names env)) in
      match (do counts <- x;
             do r2 <- ana_open d files r1;
             let '(y, r3) := ana_runs fuel d r2 in
             do '(hdrs, m) <- y;
             do r4 <- ana_open d files (close_reader r3);
             do evs <- ana_events fuel d r4;
             Ok (ADone counts hdrs m evs)) with
      | Ok out => out
      | Throw e => ATerminate e
      | UB k => AUB k
      end
  end.
End Ana.
