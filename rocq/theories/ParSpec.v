(** * What lcio_parallel_read is to print *)

From Verif Require Import Bytes StrMap SioModel Ieee ObjModel EventModel EventSpec IndexModel FileModel FileSpec AnaSpec.

(** what was printed by one thread *)
Definition printed_by {A} (i : nat) (out : list (nat * A)) : list A := map snd (filter (fun x => Nat.eqb (fst x) i) out).
(** each thread runs often enough: it opens the file, reads and prints each event, and finds the end *)
Definition long_enough (sched : list nat) (files : list wfile) : Prop :=
  forall i f, nth_error files i = Some f -> 2 * evts (items_of (wf_sess f)) + 2 <= Z.of_nat (count_occ Nat.eq_dec sched i).
(** the number of events in all files *)
Definition all_events (files : list wfile) : Z := fold_right (fun f s => evts (items_of (wf_sess f)) + s) 0 files.
