(** * What a Fortran program means by its arrays, and which arrays are large enough *)

From Verif Require Import Bytes StrMap SioModel ObjModel EventModel ImplModel FortModel.

(** row [j] (from 0) of a matrix of characters for strings of at most [nch] characters *)
Definition row (mem : bytes) (nch : Z) (j : nat) : bytes :=
  firstn (Z.to_nat (nch + 1)) (skipn (j * Z.to_nat (nch + 1)) mem).
(** the rows begin with these strings, each followed by a NUL *)
Definition matrix (mem : bytes) (nch : Z) (l : list bytes) : Prop :=
  forall j s, nth_error l j = Some s -> ~ In x00 s /\ exists rest, row mem nch j = s ++ x00 :: rest.

(** the first [n] elements of an array, or rows of a matrix, are these *)
Inductive stands_for : fargs -> vval -> Prop :=
| for_ints l rest : stands_for (AI (l ++ rest) (Zlen l)) (VI l)
| for_floats l rest : stands_for (AF (l ++ rest) (Zlen l)) (VF l)
| for_pointers l rest : stands_for (AP (l ++ rest) (Zlen l)) (VP l)
| for_strings l mem nch : 0 <= nch < 2 ^ 31 - 1 -> matrix mem nch l -> stands_for (AS mem (Zlen l) nch) (VS l).

(** number of elements, the first elements, and one element of a vector *)
Definition size_of (v : vval) : Z := match v with VI l | VF l | VP l => Zlen l | VS l => Zlen l end.
Definition take (m : Z) (v : vval) : vval :=
  let f {A} (l : list A) := firstn (Z.to_nat m) l in
  match v with VI l => VI (f l) | VF l => VF (f l) | VP l => VP (f l) | VS l => VS (f l) end.
Definition has_element (v : vval) (i : Z) (e : felem) : Prop :=
  match v, e with
  | VI l, ENum z | VF l, ENum z | VP l, ENum z => nth_error l (Z.to_nat (i - 1)) = Some z
  | VS l, EStr s => nth_error l (Z.to_nat (i - 1)) = Some s
  | _, _ => False
  end.
(** the strings have no NUL *)
Definition no_nul (v : vval) : Prop := match v with VS l => Forall (fun s => ~ In x00 s) l | _ => True end.

(** the arguments of a call that fetches a vector: the array has the given number of elements, of the same type, and the rows
    are long enough for the strings *)
Definition target (g : fargs) (v : vval) (n : Z) : Prop :=
  match g, v with
  | AI a n', VI _ | AF a n', VF _ | AP a n', VP _ => n' = n /\ 0 <= n <= Zlen a
  | AS mem n' nch, VS l => n' = n /\ 0 <= n /\ 0 <= nch < 2 ^ 31 - 1 /\ n * (nch + 1) <= Zlen mem /\ Forall (fun s => Zlen s <= nch) l
  | _, _ => False
  end.
(** what is behind the first [m] elements, and behind the NULs of the first rows, is as before *)
Definition rest_kept (g g' : fargs) (m : Z) (v : vval) : Prop :=
  match g, g', v with
  | AI a _, AI a' _, _ | AF a _, AF a' _, _ | AP a _, AP a' _, _ => skipn (Z.to_nat m) a' = skipn (Z.to_nat m) a /\ length a' = length a
  | AS mem _ nch, AS mem' _ nch', VS l => nch' = nch /\ length mem' = length mem /\
      skipn (Z.to_nat (m * (nch + 1))) mem' = skipn (Z.to_nat (m * (nch + 1))) mem /\
      (forall j s, (j < Z.to_nat m)%nat -> nth_error l j = Some s -> skipn (S (length s)) (row mem' nch j) = skipn (S (length s)) (row mem nch j))
  | _, _, _ => False
  end.

(** the methods of the manual for the values of a type *)
Definition methods (k : fkind) : option (bytes * bytes) :=
  match k with
  | KI => Some (str "setIntValues", str "getIntValues") | KF => Some (str "setFloatValues", str "getFloatValues")
  | KS => Some (str "setStringValues", str "getStringValues") | KP => None
  end.
(** the classes with parameters *)
Definition class_names : list bytes := [str "LCRunHeader"; str "LCEvent"; str "LCCollection"].
(** parameters are maps *)
Definition maps (s : fstate) : Prop :=
  forall a c p, f_par s a = Some (c, p) -> sm_ok (p_int p) /\ sm_ok (p_flt p) /\ sm_ok (p_str p).
