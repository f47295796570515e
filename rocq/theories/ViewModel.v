(** * Typed views of collections and of generic objects

    Model of src/cpp/include/UTIL/LCIterator.h, LCTypedVector.h, LCObjectHandle.h and LCFixedObject.h. *)

From Verif Require Import Bytes StrMap SioModel ObjModel ImplModel.

(** ** Views of a collection

    A collection is the list of its elements, pointers of which 0 is the null pointer.  [isT] tells for
    which objects dynamic_cast< T* > succeeds; the objects do not change their class. *)

Section Elements.
Context (isT : addr -> bool).

(** dynamic_cast< T* >( p ) as used in LCIterator.h:63 and 83, LCTypedVector.h:42, LCObjectHandle.h:28 *)
Definition dyn_cast (p : addr) : addr := if p =? 0 then 0 else if isT p then p else 0.
(** LCCollectionVec::getElementAt, src/cpp/src/IMPL/LCCollectionVec.cc:60-62 *)
Definition element_at (col : list addr) (i : Z) : Res addr :=
  if (0 <=? i) && (i <? Zlen col) then Ok (nth (Z.to_nat i) col 0) else UB UBOutOfBounds.
(** LCCollectionVec::getNumberOfElements, LCCollectionVec.cc:49-51: the size as an [int] *)
Definition number_of (col : list addr) : Z := s32 (Zlen col).

(** the members of LCIterator, LCIterator.h:119-120; the collection itself is an argument of the functions *)
Record iter := mkIter { it_n : Z; it_i : Z; it_col : bool }.
(** the constructors, LCIterator.h:50-72 and 77-92.  [None] is a null pointer, or a collection that is not
    in the event (53-57). *)
Definition it_new (col : option (list addr)) : Res iter :=
  let n := match col with Some c => number_of c | None => 0 end in
  let it := mkIter n 0 (match col with Some _ => true | None => false end) in
  match col with
  | Some c =>
      if 0 <? n then
        do p <- element_at c 0;
        if dyn_cast p =? 0 then Throw LException else Ok it
      else Ok it
  | None => Ok it
  end.
(** next, LCIterator.h:96-103.  The cast is not checked: for an object of another class it is undefined. *)
Definition it_next (col : list addr) (it : iter) : Res addr * iter :=
  if it_i it <? it_n it then
    match element_at col (it_i it) with
    | Ok p => ((if (p =? 0) || isT p then Ok p else UB UBPrecondition), mkIter (it_n it) (it_i it + 1) (it_col it))
    | Throw e => (Throw e, it)
    | UB k => (UB k, it)
    end
  else (Ok 0, it).
(** size, LCIterator.h:107 *)
Definition it_size (it : iter) : Z := it_n it.

(** what a program does with an iterator and its collection (no code of its own): next; and addElement and
    removeElementAt of the collection, LCCollectionVec.cc:103-118 *)
Inductive iop := INext | IAdd (p : addr) | IRemove (i : Z).
Definition i_step (col : list addr) (it : iter) (op : iop) : Res addr * list addr * iter :=
  match op with
  | INext => let '(r, it') := it_next col it in (r, col, it')
  | IAdd p => (Ok 0, col ++ [p], it)
  | IRemove i =>
      if (0 <=? i) && (i <? Zlen col) then (Ok 0, firstn (Z.to_nat i) col ++ skipn (S (Z.to_nat i)) col, it)
      else (UB UBOutOfBounds, col, it)
  end.
(** the results of the calls; the program ends with the first undefined one *)
Fixpoint i_run (col : list addr) (it : iter) (ops : list iop) : list (Res addr) :=
  match ops with
  | [] => []
  | op :: ops' =>
      let '(r, col', it') := i_step col it op in
      match r with UB k => [UB k] | _ => r :: i_run col' it' ops' end
  end.
(** the loop [while( T* t = it.next() )] of LCIterator.h:22-25: the elements it is executed for *)
Fixpoint it_while (fuel : nat) (col : list addr) (it : iter) : Res (list addr) :=
  match fuel with
  | O => UB UBDiverge
  | S f =>
      let '(r, it') := it_next col it in
      do p <- r;
      if p =? 0 then Ok [] else do l <- it_while f col it'; Ok (p :: l)
  end.

(** the loop of the constructor of LCTypedVector, LCTypedVector.h:40-52 *)
Fixpoint tv_loop (n : nat) (i : Z) (col : list addr) : Res (list addr) :=
  match n with
  | O => Ok []
  | S n' =>
      do p <- element_at col i;
      if (i =? 0) && (dyn_cast p =? 0) then Throw LException else
      do l <- tv_loop n' (i + 1) col;
      Ok (dyn_cast p :: l)
  end.
(** LCTypedVector( collection ), LCTypedVector.h:36-53 (a number of elements that is negative as an [int] makes resize
    throw std::length_error) *)
Definition typed_vector (col : list addr) : Res (list addr) :=
  if number_of col <? 0 then Throw StdLengthError else tv_loop (Z.to_nat (number_of col)) 0 col.
(** LCObjectHandle( LCObject* ), LCObjectHandle.h:26-32 *)
Definition handle (p : addr) : Res addr := if dyn_cast p =? 0 then Throw LException else Ok (dyn_cast p).

End Elements.

(** ** LCFixedObject *)

(** the template arguments NINT, NFLOAT, NDOUBLE, LCFixedObject.h:24 *)
Definition sizes : Type := (Z * Z * Z)%type.
Definition sizes_eqb (a b : sizes) : bool :=
  let '(a1, a2, a3) := a in let '(b1, b2, b3) := b in (a1 =? b1) && (a2 =? b2) && (a3 =? b3).
(** what lives at an address: a LCGenericObjectImpl, LCGenericObjectImpl.h:92-95; an LCFixedObject with its
    members _obj and _createdObject, LCFixedObject.h:115-116; another LCObject *)
Inductive vobj := VGen (o : genobj) | VFix (n : sizes) (o : addr) (created : bool) | VOther.
(** the memory, and the next free address (no code of its own) *)
Record vstate := mkVS { vs_mem : addr -> option vobj; vs_next : addr }.
Definition vinit : vstate := mkVS (fun _ => None) 1.
(** the memory with another content of one address (no code of its own) *)
Definition v_set (m : addr -> option vobj) (a : addr) (x : option vobj) : addr -> option vobj :=
  fun y => if y =? a then x else m y.
Definition v_alloc (s : vstate) (x : vobj) : vstate * addr :=
  (mkVS (v_set (vs_mem s) (vs_next s) (Some x)) (vs_next s + 1), vs_next s).

(** getNInt, getNFloat and getNDouble of LCGenericObjectImpl, src/cpp/src/IMPL/LCGenericObjectImpl.cc:27-36 *)
Definition gen_sizes (o : genobj) : sizes := (s32 (Zlen (go_int o)), s32 (Zlen (go_flt o)), s32 (Zlen (go_dbl o))).
(** LCGenericObjectImpl( nInt, nFloat, nDouble ), LCGenericObjectImpl.cc:20-25 *)
Definition new_gen (n : sizes) : genobj :=
  let '(ni, nf, nd) := n in
  mkGO (repeat 0 (Z.to_nat ni)) (repeat 0 (Z.to_nat nf)) (repeat 0 (Z.to_nat nd)) true (str "LCGenericObject") [].

(** which of the three kinds of values *)
Inductive kind := KInt | KFloat | KDouble.
Definition vals (o : genobj) (k : kind) : list Z := match k with KInt => go_int o | KFloat => go_flt o | KDouble => go_dbl o end.
Definition size_of (n : sizes) (k : kind) : Z := let '(ni, nf, nd) := n in match k with KInt => ni | KFloat => nf | KDouble => nd end.
(** setIntVal, setFloatVal and setDoubleVal of LCGenericObjectImpl, LCGenericObjectImpl.cc:54-70, see ImplModel *)
Definition set_call (k : kind) (i v : Z) : go_call :=
  match k with KInt => GO_setIntVal i v | KFloat => GO_setFloatVal i v | KDouble => GO_setDoubleVal i v end.

(** what a program does *)
Inductive vop :=
| VObj (o : genobj)            (* a LCGenericObjectImpl with any contents, for instance read from a file *)
| VUser                        (* an object of another class *)
| VNew (n : sizes)             (* LCFixedObject<...>(), LCFixedObject.h:37-40 *)
| VWrap (n : sizes) (a : addr) (* LCFixedObject<...>( LCObject* ), LCFixedObject.h:48-76 *)
| VSet (a : addr) (k : kind) (i v : Z) (* a setter of the object, or of obj(), LCFixedObject.h:80 *)
| VGet (a : addr) (k : kind) (i : Z)   (* getIntVal etc., LCFixedObject.h:100-108 *)
| VSize (a : addr) (k : kind)  (* getNInt etc., LCFixedObject.h:96-98 *)
| VDelete (a : addr)           (* LCFixedObject.h:85-87 *)
| VCopy (a : addr).            (* the default copy constructor, LCFixedObject.h:30 *)
(** the results *)
Inductive vout := OAddr (a : addr) | OVal (v : Z) | ODone | OExc.

(** the LCGenericObjectImpl behind an object, LCFixedObject.h:80 and 115: using one that was deleted is undefined *)
Definition data_of (s : vstate) (a : addr) : Res (addr * genobj) :=
  if a =? 0 then UB UBNullDeref else
  match vs_mem s a with
  | Some (VGen o) => Ok (a, o)
  | Some (VFix _ p _) => match vs_mem s p with Some (VGen o) => Ok (p, o) | _ => UB UBPrecondition end
  | _ => UB UBPrecondition
  end.
(** the constructor from an object, LCFixedObject.h:48-76 *)
Definition wrap (s : vstate) (n : sizes) (a : addr) : Res (option addr) :=
  if a =? 0 then Ok None else
  do p <- match vs_mem s a with
          | None => UB UBPrecondition
          | Some (VGen _) => Ok a
          | Some (VFix m p _) => Ok (if sizes_eqb m n then p else 0)
          | Some VOther => Ok 0
          end;
  if p =? 0 then Ok None else
  match vs_mem s p with
  | Some (VGen o) => Ok (if sizes_eqb (gen_sizes o) n then Some p else None)
  | _ => UB UBPrecondition
  end.
(** one call: the lines are those above *)
Definition v_step (s : vstate) (op : vop) : Res vout * vstate :=
  match op with
  | VObj o => let '(s1, a) := v_alloc s (VGen o) in (Ok (OAddr a), s1)
  | VUser => let '(s1, a) := v_alloc s VOther in (Ok (OAddr a), s1)
  | VNew n =>
      let '(s1, p) := v_alloc s (VGen (new_gen n)) in
      let '(s2, a) := v_alloc s1 (VFix n p true) in (Ok (OAddr a), s2)
  | VWrap n a =>
      match wrap s n a with
      | Ok (Some p) => let '(s1, v) := v_alloc s (VFix n p false) in (Ok (OAddr v), s1)
      | Ok None => (Ok OExc, s)
      | Throw e => (Throw e, s)
      | UB k => (UB k, s)
      end
  | VSet a k i v =>
      match data_of s a with
      | Ok (p, o) =>
          match go_do false o (set_call k i v) with
          | (o', Ok _) => (Ok ODone, mkVS (v_set (vs_mem s) p (Some (VGen o'))) (vs_next s))
          | (_, Throw e) => (Throw e, s)
          | (_, UB u) => (UB u, s)
          end
      | Throw e => (Throw e, s)
      | UB u => (UB u, s)
      end
  | VGet a k i =>
      match data_of s a with
      | Ok (_, o) => ((do v <- element_at (vals o k) i; Ok (OVal v)), s)
      | Throw e => (Throw e, s)
      | UB u => (UB u, s)
      end
  | VSize a k =>
      match vs_mem s a with
      | Some (VGen o) => (Ok (OVal (size_of (gen_sizes o) k)), s)
      | Some (VFix n _ _) => (Ok (OVal (size_of n k)), s)
      | _ => (UB UBPrecondition, s)
      end
  | VDelete a =>
      if a =? 0 then (Ok ODone, s) else
      match vs_mem s a with
      | None => (UB UBPrecondition, s)
      | Some (VFix _ p true) =>
          match vs_mem s p with
          | Some (VGen _) => (Ok ODone, mkVS (v_set (v_set (vs_mem s) p None) a None) (vs_next s))
          | _ => (UB UBPrecondition, s)
          end
      | Some _ => (Ok ODone, mkVS (v_set (vs_mem s) a None) (vs_next s))
      end
  | VCopy a =>
      match vs_mem s a with
      | Some (VFix n p c) => let '(s1, v) := v_alloc s (VFix n p c) in (Ok (OAddr v), s1)
      | _ => (UB UBPrecondition, s)
      end
  end.
(** the calls one after the other, ending with the first that is undefined *)
Fixpoint v_run (s : vstate) (ops : list vop) : list (Res vout) * vstate :=
  match ops with
  | [] => ([], s)
  | op :: ops' =>
      let '(r, s1) := v_step s op in
      match r with
      | Ok _ => let '(rs, s2) := v_run s1 ops' in (r :: rs, s2)
      | _ => ([r], s1)
      end
  end.

(** ** As elements of a collection

    What the handler of generic objects sees of an LCFixedObject, LCFixedObject.h:96-109 and
    src/cpp/src/SIO/SIOLCGenericObjectHandler.cc:101-122: its fixed numbers of values, and these values. *)
Fixpoint first_values (n : nat) (l : list Z) : Res (list Z) :=
  match n, l with
  | O, _ => Ok []
  | S n', v :: l' => do r <- first_values n' l'; Ok (v :: r)
  | S _, [] => UB UBOutOfBounds
  end.
Definition seen (s : vstate) (a : addr) (type desc : bytes) : Res genobj :=
  match vs_mem s a with
  | Some (VFix n p _) =>
      do '(_, o) <- data_of s a;
      do li <- first_values (Z.to_nat (size_of n KInt)) (go_int o);
      do lf <- first_values (Z.to_nat (size_of n KFloat)) (go_flt o);
      do ld <- first_values (Z.to_nat (size_of n KDouble)) (go_dbl o);
      Ok (mkGO li lf ld true type desc)
  | _ => UB UBPrecondition
  end.
