(** * Checking the number of elements of a collection: specification *)

From Verif Require Import Bytes StrMap SioModel SioSpec Ieee ObjModel EventModel EventSpec IndexModel FileModel FileSpec CheckModel.

(** ** What the options ask for *)

(** [a] is the part [rel] of [n] as an integer: it differs from the exact part by at most 1/2 and the
    relative error 2^-24 of floats *)
Definition part_of (n : Z) (rel : Z * Z) (a : Z) : Prop :=
  Z.abs (2 * a * snd rel - 2 * n * fst rel) * 2 ^ 23 <= snd rel * 2 ^ 23 + n * fst rel.

(** how far the number of elements may be away from the expected number [x]; an average may differ by
    1 if nothing else is given *)
Definition tolerance (o : copts) (x t : Z) : Prop :=
  match o_absel o, o_relel o with
  | Some a, _ => t = a
  | None, Some rel => exists a, part_of x rel a /\ t = Z.max 1 a
  | None, None => t = if o_average o then 1 else 0
  end.
(** the smallest and the largest number of elements, if the tolerance is [t]: what is given as such has precedence *)
Definition least (o : copts) (t : Z) : Z :=
  match o_minel o, o_exp o with
  | Some m, _ => m
  | None, Some x => Z.max 0 (x - t)
  | None, None => 0
  end.
Definition most (o : copts) (t : Z) : option Z :=
  match o_maxel o, o_exp o with
  | Some m, _ => Some m
  | None, Some x => Some (x + t)
  | None, None => None
  end.
Definition given {A} (o : option A) : Prop := o <> None.
(** options that make sense together, but for the order of the bounds *)
Definition options_ok (o : copts) : Prop :=
  (forall v, o_start o = Some v -> 0 <= v) /\
  (forall v, In (Some v) [o_max o; o_exp o; o_minel o; o_maxel o; o_absel o; o_absev o] -> 1 <= v) /\
  (forall p q, In (Some (p, q)) [o_relel o; o_relev o] -> 0 < p < q) /\
  ~ (given (o_absel o) /\ given (o_relel o)) /\ ~ (given (o_absev o) /\ given (o_relev o)) /\
  ~ ((given (o_absev o) \/ given (o_relev o)) /\ o_average o = true) /\
  ((given (o_absel o) \/ given (o_relel o)) -> given (o_exp o)).
(** for how many of [n] events the check may fail *)
Definition allowance (o : copts) (n a : Z) : Prop :=
  match o_absev o, o_relev o with
  | Some v, _ => a = v
  | None, Some rel => part_of n rel a
  | None, None => a = 0
  end.

(** ** What is in the files *)

(** the number of elements of the collection [name] of each event, [None] if it is not stored in it *)
Definition sizes (name : bytes) (l : list (bytes * witem)) : list (option Z) :=
  flat_map (fun w => match snd w with
                     | WRun _ => []
                     | WEvt _ e only => [option_map (fun c => Zlen (c_elems c)) (sm_get name (read_back only [] e))]
                     end) l.
(** the events that are looked at: all behind the first [s], or the first [n] of them *)
Definition looked_at {A} (s n : option Z) (l : list A) : list A :=
  let l' := match s with Some k => skipn (Z.to_nat k) l | None => l end in
  match n with Some k => firstn (Z.to_nat k) l' | None => l' end.

Definition outside (lo : Z) (hi : option Z) (n : Z) : bool := (n <? lo) || match hi with Some h => h <? n | None => false end.
(** the elements of all collections that were found *)
Definition found (l : list (option Z)) : list Z := flat_map (fun x => match x with Some n => [n] | None => [] end) l.
Definition total (l : list Z) : Z := fold_right Z.add 0 l.
(** the events for which the check fails *)
Definition failing (o : copts) (lo : Z) (hi : option Z) (l : list (option Z)) : list (option Z) :=
  filter (fun x => match x with Some n => outside lo hi n | None => o_pedantic o end) l.
(** the number of events the average is taken over *)
Definition averaged (o : copts) (l : list (option Z)) : Z := if o_pedantic o then Zlen l else Zlen (found l).

(** the check is successful: some collection was found, and the average, or all numbers but for the
    allowed exceptions, are within the bounds *)
Definition passes (o : copts) (t a : Z) (l : list (option Z)) : Prop :=
  found l <> [] /\
  if o_average o then
    averaged o l * least o t <= total (found l) /\
    (forall h, most o t = Some h -> total (found l) <= averaged o l * h)
  else Zlen (failing o (least o t) (most o t) l) <= a.
(** for an average: the numbers are small enough for the arithmetic with floats *)
Definition small_average (o : copts) (t : Z) (l : list (option Z)) : Prop :=
  total (found l) < 2 ^ 24 /\ Zlen l < 2 ^ 24 /\ least o t < 2 ^ 24 /\ averaged o l * least o t < 2 ^ 24 /\
  (forall h, most o t = Some h -> h < 2 ^ 24 /\ averaged o l * h < 2 ^ 24 - 1).
