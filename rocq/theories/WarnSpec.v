(** * What is known of a warning from the calls that were made *)

From Verif Require Import Bytes StrMap WarnModel.

Definition id_of (c : wcall) : bytes := match c with WRegister id _ _ => id | WPrint id => id end.
(** the text and the maximal number of a warning: the first call with its name is its registration.  (Later registrations fail; a warning
    that was to be printed before is not registered any more.) *)
Definition declared (calls : list wcall) (id txt : bytes) (max : Z) : Prop :=
  exists a b, calls = a ++ WRegister id txt max :: b /\ ~ In id (map id_of a).
(** how often it was to be printed *)
Definition asked (calls : list wcall) (id : bytes) : Z :=
  Zlen (filter (fun c => match c with WPrint i => bytes_eqb i id | _ => false end) calls).
(** what a call shows after [calls] *)
Inductive shows (calls : list wcall) : wcall -> Res (list wshow) -> Prop :=
| first_register id txt max : ~ In id (map id_of calls) -> shows calls (WRegister id txt max) (Ok [])
| again_register id txt max : In id (map id_of calls) -> shows calls (WRegister id txt max) (Throw LException)
| unknown_print id : (forall txt max, ~ declared calls id txt max) -> shows calls (WPrint id) (Ok [])
| more_print id txt max : declared calls id txt max -> asked calls id + 1 < max -> shows calls (WPrint id) (Ok [WText txt max (max - 1 - asked calls id)])
| last_print id txt max : declared calls id txt max -> asked calls id + 1 = max -> shows calls (WPrint id) (Ok [WLast txt])
| over_print id txt max : declared calls id txt max -> max <= asked calls id -> shows calls (WPrint id) (Ok []).
(** what the calls of a program show, each after those before *)
Fixpoint all_show (before calls : list wcall) (outs : list (Res (list wshow))) : Prop :=
  match calls, outs with
  | [], [] => True
  | c :: calls', o :: outs' => shows before c o /\ all_show (before ++ [c]) calls' outs'
  | _, _ => False
  end.
(** a warning was shown *)
Definition was_shown (calls : list wcall) (id txt : bytes) : Prop := exists max, declared calls id txt max /\ 0 < max /\ 0 < asked calls id.
