(** * What typed views are expected to do (C60, C61)

    Everything is said in terms of the calls made so far and their results. *)

From Verif Require Import Bytes SioModel ObjModel ViewModel.

(** ** Iterators *)

(** how many of the calls are next *)
Definition nexts (ops : list iop) : nat := length (filter (fun op => match op with INext => true | _ => false end) ops).
Definition no_removal (op : iop) : Prop := match op with IRemove _ => False | _ => True end.

(** ** Fixed objects

    The calls and their results so far, the last one first. *)
Definition history : Type := list (vop * vout).

(** the object that holds the data of [v]: itself, or what it is a view of *)
Fixpoint root (h : history) (v : addr) : option addr :=
  match h with
  | [] => None
  | (VObj _, OAddr a) :: h' => if v =? a then Some a else root h' v
  | (VNew _, OAddr a) :: h' => if v =? a then Some a else root h' v
  | (VWrap _ w, OAddr a) :: h' => if v =? a then root h' w else root h' v
  | _ :: h' => root h' v
  end.
(** whether an object was made and not deleted *)
Fixpoint alive (h : history) (v : addr) : bool :=
  match h with
  | [] => false
  | (VDelete w, _) :: h' => if v =? w then false else alive h' v
  | (_, OAddr a) :: h' => if v =? a then true else alive h' v
  | _ :: h' => alive h' v
  end.
(** whether it was made with a fixed number of values *)
Fixpoint fixed (h : history) (r : addr) : bool :=
  match h with
  | [] => false
  | (VObj o, OAddr a) :: h' => if r =? a then go_fixed o else fixed h' r
  | (VNew _, OAddr a) :: h' => if r =? a then true else fixed h' r
  | _ :: h' => fixed h' r
  end.
Definition kind_eqb (a b : kind) : bool := match a, b with KInt, KInt | KFloat, KFloat | KDouble, KDouble => true | _, _ => false end.
(** a call that sets a value of [r] *)
Definition on_root (h : history) (w : addr) (r : addr) : bool := match root h w with Some x => x =? r | None => false end.
(** the number of values it has *)
Fixpoint size (h : history) (r : addr) (k : kind) : Z :=
  match h with
  | [] => 0
  | (VObj o, OAddr a) :: h' => if r =? a then Zlen (vals o k) else size h' r k
  | (VNew n, OAddr a) :: h' => if r =? a then size_of n k else size h' r k
  | (VSet w k' i _, _) :: h' => if on_root h' w r && kind_eqb k k' then Z.max (size h' r k) (i + 1) else size h' r k
  | _ :: h' => size h' r k
  end.
(** the value set last, or that it was made with, or 0 *)
Fixpoint last_value (h : history) (r : addr) (k : kind) (i : Z) : Z :=
  match h with
  | [] => 0
  | (VObj o, OAddr a) :: h' => if r =? a then nth (Z.to_nat i) (vals o k) 0 else last_value h' r k i
  | (VNew _, OAddr a) :: h' => if r =? a then 0 else last_value h' r k i
  | (VSet w k' i' v, _) :: h' => if on_root h' w r && kind_eqb k k' && (i =? i') then v else last_value h' r k i
  | _ :: h' => last_value h' r k i
  end.
(** the numbers of values given when a fixed object was made *)
Fixpoint template (h : history) (v : addr) : option sizes :=
  match h with
  | [] => None
  | (VNew n, OAddr a) :: h' | (VWrap n _, OAddr a) :: h' => if v =? a then Some n else template h' v
  | (_, OAddr a) :: h' => if v =? a then None else template h' v
  | _ :: h' => template h' v
  end.

(** the object exists and so does its data *)
Definition usable_view (h : history) (v r : addr) : Prop := alive h v = true /\ root h v = Some r /\ alive h r = true.
Definition int_sizes (n : sizes) : Prop := forall k, 0 <= size_of n k < 2 ^ 31.
(** what a program may do: no object is used after it or its data was deleted; values are set and asked
    for within the size, unless it may grow; no copies *)
Definition allowed (h : history) (op : vop) : Prop :=
  match op with
  | VObj o => forall k, Zlen (vals o k) < 2 ^ 31
  | VUser => True
  | VNew n => int_sizes n
  | VWrap n a => int_sizes n /\
      (a = 0 \/ (alive h a = true /\ match root h a with Some r => alive h r = true | None => True end))
  | VSet a k i _ => exists r, usable_view h a r /\ 0 <= i < 2 ^ 31 - 1 /\ (fixed h r = true -> i < size h r k)
  | VGet a k i => exists r, usable_view h a r /\ 0 <= i < size h r k
  | VSize a k => alive h a = true /\ root h a <> None
  | VDelete a => a = 0 \/ alive h a = true
  | VCopy _ => False
  end.
(** whether [n] are the sizes of the data of [a]; of another fixed object only one with the same numbers *)
Definition view_possible (h : history) (n : sizes) (a : addr) : Prop :=
  a <> 0 /\ exists r, root h a = Some r /\ (forall k, size h r k = size_of n k) /\
    (template h a = None \/ template h a = Some n).
(** what comes back *)
Definition expected (h : history) (op : vop) (out : vout) : Prop :=
  match op with
  | VObj _ | VUser | VNew _ => exists a, out = OAddr a /\ a <> 0 /\ forall op' o, In (op', o) h -> o <> OAddr a
  | VWrap n a =>
      (view_possible h n a /\ exists v, out = OAddr v /\ v <> 0 /\ forall op' o, In (op', o) h -> o <> OAddr v)
      \/ (~ view_possible h n a /\ out = OExc)
  | VSet _ _ _ _ | VDelete _ => out = ODone
  | VGet a k i => exists r, root h a = Some r /\ out = OVal (last_value h r k i)
  | VSize a k => out = OVal (match template h a with Some n => size_of n k | None => match root h a with Some r => size h r k | None => 0 end end)
  | VCopy _ => True
  end.
(** for all calls of a program: if all of them are allowed, all results are as expected.  [h] is what
    happened before. *)
Fixpoint all_allowed (h : history) (ops : list vop) (rs : list (Res vout)) : Prop :=
  match ops, rs with
  | op :: ops', r :: rs' => allowed h op /\ match r with Ok out => all_allowed ((op, out) :: h) ops' rs' | _ => True end
  | _, _ => True
  end.
Fixpoint all_expected (h : history) (ops : list vop) (rs : list (Res vout)) : Prop :=
  match ops, rs with
  | [], [] => True
  | op :: ops', Ok out :: rs' => expected h op out /\ all_expected ((op, out) :: h) ops' rs'
  | _, _ => False
  end.
(** the history after a program *)
Fixpoint after (h : history) (ops : list vop) (rs : list (Res vout)) : history :=
  match ops, rs with
  | op :: ops', Ok out :: rs' => after ((op, out) :: h) ops' rs'
  | _, _ => h
  end.
