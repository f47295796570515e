(** * readStream: specification *)

From Verif Require Import Bytes StrMap SioModel Ieee ObjModel ObjSpec CollSpec EventModel EventSpec EventProofs EventFacts
  IndexModel IndexSpec FileModel FileSpec.

(** the parents of the particles of a collection are in the same collection *)
Definition mc_own (h : heap) (cols : list (bytes * coll)) : Prop :=
  forall nc a p, In nc cols -> is_mc (snd nc) = true -> In a (c_elems (snd nc)) -> In p (parents h a) -> In p (c_elems (snd nc)).

(** what an event must satisfy if there are [n] listeners: with more than one of them the event is post
    processed several times *)
Definition shareable (names : list bytes) (n : nat) (i : witem) : Prop :=
  match i with
  | WRun _ => True
  | WEvt h e only => (n <= 1)%nat \/ mc_own h (read_back only names e)
  end.

Section Streams.
Context (srt : forall A : Type, (A -> Z) -> list A -> list A) (names : list bytes).

(** one call of each listener *)
Definition to_all (n : nat) (c : call) : list (nat * call) := map (fun k => (k, c)) (seq 0 n).

(** the calls of [n] listeners for the items, in order; the first object of the next event is at
    [next] before and at [next'] behind *)
Inductive streamed (n : nat) : addr -> list (bytes * witem) -> addr -> list (nat * call) -> Prop :=
| St_nil next : streamed n next [] next []
| St_run next f h l next' cs : streamed n next l next' cs ->
    streamed n next ((f, WRun h) :: l) next' (to_all n (CRun (run_copy f h)) ++ cs)
| St_evt next f h e only l le next' cs : event_copy srt names next h e only le ->
    streamed n (next + Zlen (event_objs only names h e)) l next' cs ->
    streamed n next ((f, WEvt h e only) :: l) next' (to_all n (CEvt le) ++ cs).

(** several calls of readStream, each with a number of listeners and a limit; [max_int]: no limit *)
Definition max_int : Z := 2 ^ 31 - 1.
Inductive streams : addr -> option (list (bytes * witem)) -> list (nat * Z) -> list (Res unit * list (nat * call)) -> Prop :=
| SS_nil next W : streams next W [] []
| SS_some next W1 W2 n max next' cs ops rs : 0 < max < max_int -> Zlen W1 = max -> streamed n next W1 next' cs ->
    streams next' (Some W2) ops rs -> streams next (Some (W1 ++ W2)) ((n, max) :: ops) ((Ok tt, cs) :: rs)
| SS_short next W n max next' cs ops rs : 0 < max < max_int -> Zlen W < max -> streamed n next W next' cs ->
    streams next' None ops rs -> streams next (Some W) ((n, max) :: ops) ((Throw LEndOfData, cs) :: rs)
| SS_all next W n next' cs ops rs : streamed n next W next' cs ->
    streams next' None ops rs -> streams next (Some W) ((n, max_int) :: ops) ((Ok tt, cs) :: rs)
| SS_late next n max ops rs : streams next None ops rs ->
    streams next None ((n, max) :: ops) ((Throw EBadState, []) :: rs).

End Streams.

(** a program that opens files and calls readStream several times *)
Section Program.
Context (uncomp : bytes -> option bytes) (srt : forall A : Type, (A -> Z) -> list A -> list A) (ignore_null : bool).

Fixpoint run_streams (d : disk) (ops : list (nat * Z)) (r : reader) : list (Res unit * list (nat * call)) :=
  match ops with
  | [] => []
  | (n, max) :: ops' =>
      let '(x, cs, r') := read_stream uncomp srt ignore_null d n max r in
      (x, cs) :: match x with UB _ => [] | _ => run_streams d ops' r' end
  end.
Definition stream_files (d : disk) (files : list bytes) (ops : list (nat * Z)) (r : reader) : list (Res unit * list (nat * call)) :=
  match open_files uncomp d files r with
  | (Ok _, r') => run_streams d ops r'
  | (Throw e, _) => [(Throw e, [])]
  | (UB k, _) => [(UB k, [])]
  end.
End Program.
