(** * What is to be seen in the table of particles *)

From Coq Require Import ZArith List Bool.
From Verif Require Import Bytes SioModel ObjModel.
Import ListNotations.
Open Scope Z_scope.

(** the letters of the text for the status from left to right, and the bits of the status they stand for *)
Definition status_letters : list (bytes * Z) :=
  [(str "s", 30); (str "b", 29); (str "v", 28); (str "t", 27); (str "c", 26); (str "l", 25); (str "s", 24); (str "o", 23)].
(** each letter if its bit is set, otherwise a blank, in brackets *)
Definition letters_of (l : list (bytes * Z)) (z : Z) : bytes := flat_map (fun x => if Z.testbit z (snd x) then fst x else str " ") l.
(** the number [i] stands for the particle [a] of the collection [els] *)
Definition stands_for (els : list addr) (a : addr) (i : Z) : Prop := 0 <= i /\ nth_error els (Z.to_nat i) = Some a.
(** all relatives of a particle are in the collection *)
Definition family_in (h : addr -> option obj) (els : list addr) : Prop :=
  forall a, In a els -> exists p, h a = Some (OMC p) /\ incl (mc_parents p) els /\ incl (mc_daughters p) els.
