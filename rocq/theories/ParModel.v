(** * The program lcio_parallel_read

    Model of src/cpp/src/EXAMPLE/lcio_parallel_read.cc: one thread for each file, each with its own reader.
    The only object that the threads share besides the output is the mutex (line 39); printing an event is one
    step, since it is done with the mutex locked (57-59).  The printing itself is not modelled, and new objects
    of each reader have addresses of their own. *)

From Verif Require Import Bytes StrMap SioModel Ieee ObjModel EventModel IndexModel FileModel.

(** where a thread is: before opening its file; before reading an event, with the number of events so far; before
    printing; at the end, with the number it returns; or ended by an exception, which the future keeps *)
Inductive thr : Type :=
| TNew | TRead (r : reader) (n : Z) | TPrint (r : reader) (n : Z) (l : levent) | TDone (n : Z) | TThrow (e : exn) | TUB (k : ub).

(** what the threads have done: where each is, and what was printed, with the number of the thread *)
Record parst : Type := mkPar { par_thr : nat -> thr; par_out : list (nat * levent) }.
(** before the threads run, lcio_parallel_read.cc:31-46 *)
Definition par_start : parst := mkPar (fun _ => TNew) [].
(** what main does: it prints how the program is used (25-29); waits for a thread; prints the number of events
    (74); or is ended by an exception of a thread, which [get] throws again (71) *)
Inductive parout : Type := PUsage | PWait | PTotal (n : Z) | PTerminate (e : exn) | PUB (k : ub).

Section Par.
Context (uncomp : bytes -> option bytes) (srt : forall A : Type, (A -> Z) -> list A -> list A) (ignore_null : bool).

(** the files, each with the new reader of its thread, lcio_parallel_read.cc:42-50 *)
Definition par_jobs (new : nat -> reader) (names : list bytes) : list (bytes * reader) := combine names (map new (seq 0 (length names))).
(** one step of a thread for the file [name] with a new reader [r0], lcio_parallel_read.cc:46-65: opening the file
    (50), reading an event (55), printing it and counting (57-59; an int) *)
Definition thr_step (d : disk) (name : bytes) (r0 : reader) (t : thr) : thr * option levent :=
  match t with
  | TNew =>
      match open_file uncomp d name r0 with
      | (Ok _, r) => (TRead r 0, None)
      | (Throw e, _) => (TThrow e, None)
      | (UB k, _) => (TUB k, None)
      end
  | TRead r n =>
      match read_next_event uncomp srt ignore_null d r with
      | (Ok (Some l), r1) => (TPrint r1 n l, None)
      | (Ok None, _) => (TDone n, None)
      | (Throw e, _) => (TThrow e, None)
      | (UB k, _) => (TUB k, None)
      end
  | TPrint r n l => ((if n + 1 <? 2 ^ 31 then TRead r (n + 1) else TUB UBOverflow), Some l)
  | TDone _ | TThrow _ | TUB _ => (t, None)
  end.
(** the next step is one of thread [i], if there is such a thread, lcio_parallel_read.cc:42-66 *)
Definition par_step (d : disk) (jobs : list (bytes * reader)) (s : parst) (i : nat) : parst :=
  match nth_error jobs i with
  | None => s
  | Some (name, r0) =>
      let '(t, o) := thr_step d name r0 (par_thr s i) in
      mkPar (fun j => if Nat.eqb j i then t else par_thr s j) (match o with Some l => par_out s ++ [(i, l)] | None => par_out s end)
  end.
(** the threads run in any order, given by [sched]; lcio_parallel_read.cc:42-66 *)
Definition par_run (d : disk) (jobs : list (bytes * reader)) (sched : list nat) : parst := fold_left (par_step d jobs) sched par_start.
(** the sum over the threads, lcio_parallel_read.cc:68-72; [total] is an int *)
Fixpoint par_total (total : Z) (l : list thr) : parout :=
  match l with
  | [] => PTotal total
  | TDone n :: l' => if total + n <? 2 ^ 31 then par_total (total + n) l' else PUB UBOverflow
  | TThrow e :: _ => PTerminate e
  | TUB k :: _ => PUB k
  | _ => PWait
  end.
(** undefined behaviour in one of the threads is undefined behaviour of the program (no line of its own) *)
Fixpoint par_ub (l : list thr) : option ub := match l with [] => None | TUB k :: _ => Some k | _ :: l' => par_ub l' end.
(** main, lcio_parallel_read.cc:22-77, when the threads have run in the order [sched] *)
Definition par_main (d : disk) (jobs : list (bytes * reader)) (sched : list nat) : parout :=
  match jobs with
  | [] => PUsage
  | _ =>
      let l := map (par_thr (par_run d jobs sched)) (seq 0 (length jobs)) in
      match par_ub l with Some k => PUB k | None => par_total 0 l end
  end.
End Par.
