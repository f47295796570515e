(** * What anajob is to print *)

From Verif Require Import Bytes StrMap SioModel Ieee ObjModel EventModel EventSpec IndexModel FileModel FileSpec.

(** the run headers among items, each with the name of its file *)
Definition headers (W : list (bytes * witem)) : list runhdr :=
  flat_map (fun w => match snd w with WRun h => [run_copy (fst w) h] | WEvt _ _ _ => [] end) W.
(** the events [l] are copies of those among the items, in order; new objects are put at [next] and behind *)
Inductive copies srt (names : list bytes) : addr -> list (bytes * witem) -> list levent -> Prop :=
| copies_nil next : copies srt names next [] []
| copies_run next n h W l : copies srt names next W l -> copies srt names next ((n, WRun h) :: W) l
| copies_evt next n h e only W le l : event_copy srt names next h e only le ->
    copies srt names (next + Zlen (event_objs only names h e)) W l -> copies srt names next ((n, WEvt h e only) :: W) (le :: l).
