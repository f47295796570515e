(** * What dumpevent is asked for *)

From Verif Require Import Bytes BitModel BitSpec.

(** [spaced s l]: the text [s] consists of the words [l] with white space between and around them *)
Inductive spaced : bytes -> list bytes -> Prop :=
| spaced_end ws : Forall (fun c => In c white) ws -> spaced ws []
| spaced_word ws w s l : Forall (fun c => In c white) ws -> w <> [] -> Forall (fun c => ~ In c white) w ->
    (forall c r, s = c :: r -> In c white) -> spaced s l -> spaced (ws ++ w ++ s) (w :: l).
(** the environment variable names the collections [l]; no names: all collections *)
Definition selects (env : option bytes) (l : list bytes) : Prop := match env with None => l = [] | Some s => spaced s l end.
