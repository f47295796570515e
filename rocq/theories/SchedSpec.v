(** * Processing events in parallel: specification, over what happened *)

From Verif Require Import Bytes StrMap SioModel ObjModel EventModel IndexModel FileModel SchedModel.

(** run headers and events in the order in which they were printed, or their tasks were started *)
Fixpoint handled (l : list entry) : list call :=
  match l with
  | [] => []
  | EStart _ e :: l' => CEvt e :: handled l'
  | ERun h :: l' => CRun h :: handled l'
  | _ :: l' => handled l'
  end.
Fixpoint starts (l : list entry) : nat := match l with [] => O | EStart _ _ :: l' => S (starts l') | _ :: l' => starts l' end.
Fixpoint ends (l : list entry) : nat := match l with [] => O | EEnd _ :: l' => S (ends l') | _ :: l' => ends l' end.

(** what may happen next: at most [max] tasks at a time, each of which prints and returns once; a run header is printed
    when all events in front of it were processed *)
Definition may (max : Z) (before : list entry) (e : entry) : Prop :=
  match e with
  | EStart k _ => k = starts before /\ Z.of_nat (starts before - ends before) < max
  | EProc k run num => (exists l, In (EStart k l) before /\ run = ev_run (le_evt l) /\ num = ev_num (le_evt l)) /\ forall r n, ~ In (EProc k r n) before
  | EEnd k => (exists r n, In (EProc k r n) before) /\ ~ In (EEnd k) before
  | ERun _ => forall k l, In (EStart k l) before -> In (EEnd k) before
  end.
Definition orderly (max : Z) (l : list entry) : Prop := forall before e after, l = before ++ e :: after -> may max before e.
