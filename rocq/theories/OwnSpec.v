(** * Ownership: who has to delete an object

    Independent of the destructors: every existing object has exactly one owner, and the rules below say
    what changes the owner.  A program follows the rules if it gives away only what it owns, and deletes
    only what it owns; deleting something ends the existence of everything that belongs to it, directly or
    indirectly. *)

From Verif Require Import Bytes StrMap SioModel OwnModel.

Inductive owner := ByUser | ByEvent | ByColl (c : addr) | ByObject (o : addr).
Definition owners := addr -> option owner.
Definition nobody : owners := fun _ => None.
Definition owned_by (w : owners) (y : addr) (k : owner) : owners := fun z => if z =? y then Some k else w z.
Definition all_owned_by (w : owners) (l : list addr) (k : owner) : owners :=
  fun z => if existsb (Z.eqb z) l then Some k else w z.
Definition not_null (l : list addr) : list addr := filter (fun x => negb (x =? 0)) l.

(** the owner, its owner, and so on *)
Fixpoint chain (n : nat) (w : owners) (y : addr) : list owner :=
  match n with
  | O => []
  | S n' => match w y with
            | None => []
            | Some k => k :: match k with ByColl a | ByObject a => chain n' w a | _ => [] end
            end
  end.
Definition is_owner (r : owner -> bool) (w : owners) (y : addr) : bool := existsb r (chain 3 w y).
Definition at_addr (a : addr) (k : owner) : bool :=
  match k with ByColl b | ByObject b => b =? a | _ => false end.
Definition is_event (k : owner) : bool := match k with ByEvent => true | _ => false end.
(** everything that belongs to the object at [a], with the object itself *)
Definition with_belongings (w : owners) (a y : addr) : bool := (y =? a) || is_owner (at_addr a) w y.
Definition gone (w : owners) (d : addr -> bool) : owners := fun y => if d y then None else w y.

Definition free (w : owners) (a : addr) : Prop := a <> 0 /\ w a = None.
(** an element: any LCObject, not a collection *)
Definition an_object (k : option cell) : Prop := k = Some KPart \/ exists ps, k = Some (KObj ps).

Section Rules.
Variables (s : ostate) (w : owners).
Let m := o_mem s.
Inductive rule : ocall -> owners -> Prop :=
| R_newPart a : free w a -> rule (O_newPart a) (owned_by w a ByUser)
| R_newObject a : free w a -> rule (O_newObject a) (owned_by w a ByUser)
(* not at the address of a collection that was taken before *)
| R_newCollection a : free w a -> ~ In a (o_taken s) -> rule (O_newCollection a) (owned_by w a ByUser)
(* only objects without parts *)
| R_copyShallow a o : free w a -> m o = Some (KObj []) -> rule (O_copyShallow a o) (owned_by w a ByUser)
| R_copyDeep a o ps news : free w a -> m o = Some (KObj ps) -> length news = length ps -> NoDup (a :: news) ->
    (forall p, In p news -> free w p) ->
    rule (O_copyDeep a o news) (all_owned_by (owned_by w a ByUser) news (ByObject a))
| R_givePart o p ps : m o = Some (KObj ps) -> w p = Some ByUser -> m p = Some KPart ->
    rule (O_givePart o p) (owned_by w p (ByObject o))
| R_addNull c b es : m c = Some (KColl b es) -> rule (O_addElement c 0) w
| R_addReference c x es : m c = Some (KColl true es) -> rule (O_addElement c x) w
| R_addElement c x es : m c = Some (KColl false es) -> w x = Some ByUser -> an_object (m x) ->
    rule (O_addElement c x) (owned_by w x (ByColl c))
| R_removeReference c i es x : m c = Some (KColl true es) -> 0 <= i -> nth_error es (Z.to_nat i) = Some x ->
    rule (O_removeElementAt c i) w
| R_removeNull c i b es : m c = Some (KColl b es) -> 0 <= i -> nth_error es (Z.to_nat i) = Some 0 ->
    rule (O_removeElementAt c i) w
| R_removeElement c i es x : m c = Some (KColl false es) -> 0 <= i -> nth_error es (Z.to_nat i) = Some x -> x <> 0 ->
    rule (O_removeElementAt c i) (owned_by w x ByUser)
| R_sameSubset c b es : m c = Some (KColl b es) -> rule (O_setSubset c b) w
| R_setSubset c es : m c = Some (KColl false es) -> rule (O_setSubset c true) (all_owned_by w (not_null es) ByUser)
| R_unsetSubset c es : m c = Some (KColl true es) -> NoDup (not_null es) ->
    (forall x, In x (not_null es) -> w x = Some ByUser /\ an_object (m x)) ->
    rule (O_setSubset c false) (all_owned_by w (not_null es) (ByColl c))
| R_addRefused c n : o_alive s = true -> (validate n = false \/ sm_get n (o_cols s) <> None \/ c = 0) ->
    rule (O_addCollection c n) w
(* not a collection that was taken before *)
| R_addCollection c n b es : o_alive s = true -> validate n = true -> sm_get n (o_cols s) = None ->
    m c = Some (KColl b es) -> w c = Some ByUser -> ~ In c (o_taken s) ->
    rule (O_addCollection c n) (owned_by w c ByEvent)
| R_removeOther n : o_alive s = true -> (forall c, sm_get n (o_cols s) = Some c -> w c <> Some ByEvent) ->
    rule (O_removeCollection n) w
| R_removeCollection n c : o_alive s = true -> sm_get n (o_cols s) = Some c -> w c = Some ByEvent ->
    rule (O_removeCollection n) (owned_by w c ByUser)
| R_takeNothing n : o_alive s = true -> sm_get n (o_cols s) = None -> rule (O_takeCollection n) w
| R_takeCollection n c b es : o_alive s = true -> sm_get n (o_cols s) = Some c -> m c = Some (KColl b es) ->
    rule (O_takeCollection n) (owned_by w c ByUser)
| R_deleteNull : rule (O_deleteObject 0) w
| R_deleteNoCollection : rule (O_deleteCollection 0) w
| R_deleteObject x : w x = Some ByUser -> an_object (m x) ->
    rule (O_deleteObject x) (gone w (with_belongings w x))
| R_deleteCollection c b es : w c = Some ByUser -> m c = Some (KColl b es) ->
    rule (O_deleteCollection c) (gone w (with_belongings w c))
| R_deleteEvent : o_alive s = true -> rule O_deleteEvent (gone w (is_owner is_event w)).
End Rules.

(** a program follows the rules: at every call, in the state it has reached *)
Inductive follows : ostate -> owners -> list ocall -> owners -> Prop :=
| F_nil s w : follows s w [] w
| F_call s w c w1 l w' : rule s w c w1 ->
    (forall s1, own_do s c = Ok s1 -> follows s1 w1 l w') ->
    (forall x, own_do s c = Throw x -> follows s w1 l w') ->
    follows s w (c :: l) w'.
