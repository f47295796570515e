(** * Processing events in parallel

    Model of src/cpp/src/EXAMPLE/lcio_parallel_processing.cc.  A step is one step of the main thread or of
    one task; the steps of different threads follow each other in any order.  Printing a line, which is done
    with a mutex (23-24), is one step.  Run headers are printed without it (99), which is also one step. *)

From Verif Require Import Bytes StrMap SioModel ObjModel EventModel IndexModel FileModel.

(** the number of tasks, lcio_parallel_processing.cc:129-136: [hw] is what hardware_concurrency() returns,
    [env] what atoi returns for the variable LCIO_MAX_THREADS if it is set *)
Definition n_threads (hw : Z) (env : option Z) : Z :=
  match env with
  | None => hw
  | Some z => let n := u32 z in if n <=? 0 then 1 else n
  end.

(** a task, 49-59: it has not printed yet, has printed, has returned *)
Inductive tstat := TReady (l : levent) | TPrinted | TReturned.
(** what happens, in order (no code of its own): a task is started, 48-49; a task prints the numbers of its event, 51-54;
    a task returns, 59; a run header is printed, 99 *)
Inductive entry := EStart (k : nat) (l : levent) | EProc (k : nat) (run num : Z) | EEnd (k : nat) | ERun (h : runhdr).

(** why waitForAll is called: for a run header, 98, with the calls that follow; by the destructor, 40 *)
Inductive why := WRun (h : runhdr) (cs : list call) (x : Res unit) | WEnd.
(** where the main thread is.  [cs] are the calls of the listener that readNextRecord makes, and [x] is how
    it returns after them. *)
Inductive mpc :=
| MRead                                                     (* 146 *)
| MCalls (cs : list call) (x : Res unit)                    (* 91 and 95, 148 *)
| MTest (l : levent) (cs : list call) (x : Res unit)        (* 44 *)
| MSweep (n : nat) (l : levent) (cs : list call) (x : Res unit) (* 74-84: the iterator points to the n-th future *)
| MWait (n : nat) (w : why)                                 (* 64-66: i is n *)
| MDone                                                     (* 153, the scheduler is deleted *)
| MFail (e : exn)                                           (* an exception leaves main: the program is terminated *)
| MUndef (k : ub).

(** main and the members of Scheduler, lines 103-104 and 126; [sd_fut] are the numbers of the tasks of _futures, [sd_tasks]
    all tasks that were started *)
Record sched := mkSc { sd_pc : mpc; sd_reader : reader; sd_fut : list nat; sd_tasks : list tstat; sd_log : list entry }.

(** the future is ready, 75 *)
Definition ready (s : sched) (k : nat) : bool := match nth_error (sd_tasks s) k with Some TReturned => true | _ => false end.
(** members with another value (no code of their own) *)
Definition at_pc (s : sched) (p : mpc) : sched := mkSc p (sd_reader s) (sd_fut s) (sd_tasks s) (sd_log s).
Definition with_task (s : sched) (k : nat) (t : tstat) (e : entry) : sched :=
  mkSc (sd_pc s) (sd_reader s) (sd_fut s) (firstn k (sd_tasks s) ++ t :: skipn (S k) (sd_tasks s)) (sd_log s ++ [e]).

Section Scheduler.
Context (uncomp : bytes -> option bytes) (srt : forall A : Type, (A -> Z) -> list A -> list A) (ignore_null : bool) (d : disk).
Context (max : Z).

(** a step of the main thread; [None] if it has to wait or has ended *)
Definition main_step (s : sched) : option sched :=
  match sd_pc s with
  | MRead => (* 146, LCReader.cc:539-541 *)
      let '(x, cs, r) := read_stream uncomp srt ignore_null d 1 1 (sd_reader s) in
      Some (mkSc (MCalls (map snd cs) x) r (sd_fut s) (sd_tasks s) (sd_log s))
  | MCalls [] x =>
      Some (at_pc s (match x with
                     | Ok _ => MRead
                     | Throw LEndOfData => MWait 0 WEnd     (* 148-149, 40 *)
                     | Throw e => MFail e
                     | UB k => MUndef k
                     end))
  | MCalls (CEvt l :: cs) x => Some (at_pc s (MTest l cs x))
  | MCalls (CRun h :: cs) x => Some (at_pc s (MWait 0 (WRun h cs x)))
  | MTest l cs x =>
      if Z.of_nat (length (sd_fut s)) <? max then  (* 88 *)
        Some (mkSc (MCalls cs x) (sd_reader s) (sd_fut s ++ [length (sd_tasks s)]) (sd_tasks s ++ [TReady l])
                   (sd_log s ++ [EStart (length (sd_tasks s)) l]))
      else Some (at_pc s (MSweep 0 l cs x))
  | MSweep n l cs x =>
      match nth_error (sd_fut s) n with
      | None => Some (at_pc s (MTest l cs x))
      | Some k =>
          if ready s k then
            Some (mkSc (MSweep n l cs x) (sd_reader s) (firstn n (sd_fut s) ++ skipn (S n) (sd_fut s)) (sd_tasks s) (sd_log s))
          else Some (at_pc s (MSweep (S n) l cs x))
      end
  | MWait n w =>
      match nth_error (sd_fut s) n with
      | Some k => if ready s k then Some (at_pc s (MWait (S n) w)) else None   (* get() waits, 65 *)
      | None => (* 67 *)
          match w with
          | WRun h cs x => Some (mkSc (MCalls cs x) (sd_reader s) [] (sd_tasks s) (sd_log s ++ [ERun h]))
          | WEnd => Some (mkSc MDone (sd_reader s) [] (sd_tasks s) (sd_log s))
          end
      end
  | MDone | MFail _ | MUndef _ => None
  end.
(** a step of the [k]-th task, 51-59; there are none after the program has ended *)
Definition task_step (k : nat) (s : sched) : option sched :=
  match sd_pc s with
  | MDone | MFail _ | MUndef _ => None
  | _ =>
      match nth_error (sd_tasks s) k with
      | Some (TReady l) => Some (with_task s k TPrinted (EProc k (ev_run (le_evt l)) (ev_num (le_evt l))))
      | Some TPrinted => Some (with_task s k TReturned (EEnd k))
      | _ => None
      end
  end.

(** who makes a step (no code of its own) *)
Inductive who := Main | Task (k : nat).
Definition sched_step (w : who) (s : sched) : option sched := match w with Main => main_step s | Task k => task_step k s end.
(** a schedule; choices that are not possible are left out *)
Fixpoint sched_run (ws : list who) (s : sched) : sched :=
  match ws with
  | [] => s
  | w :: ws' => sched_run ws' (match sched_step w s with Some s' => s' | None => s end)
  end.
(** main up to line 141: the files are opened *)
Definition sched_start (files : list bytes) (r : reader) : sched :=
  let '(x, r') := open_files uncomp d files r in
  mkSc (match x with Ok _ => MRead | Throw e => MFail e | UB k => MUndef k end) r' [] [] [].

End Scheduler.
