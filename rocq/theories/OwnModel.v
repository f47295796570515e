(** * Who deletes what: the destructors of events, collections and objects

    src/cpp/src/IMPL/LCEventImpl.cc, LCCollectionVec.cc and the destructors and copy constructors of the
    object classes.  Only addresses matter here, so an object is represented by the addresses it will
    delete.  Simplified: the event is not read only (see ImplModel for the checks of access); only calls of
    addTrackState that are accepted; the order of the parts of an object is the order in which they were
    added (addParticleID sorts them, which makes no difference to the destructor).  Destroying something
    that does not exist (any more) is undefined. *)

From Verif Require Import Bytes StrMap SioModel.

(** what lives at an address: a part of an object (ParticleIDImpl, TrackStateImpl, MCParticleCont), which
    deletes nothing; any other LCObject with the parts it deletes, for instance
    src/cpp/include/IMPL/ClusterImpl.h:155 (_pid), TrackImpl.h:211 (_trackStates),
    SimCalorimeterHitImpl.h:223 (_vec); LCCollectionVec with the bit isSubset of its flag and its elements *)
Inductive cell := KPart | KObj (parts : list addr) | KColl (subset : bool) (elems : list addr).
(** the objects that exist, by address *)
Definition memory := addr -> option cell.
(** the memory and the event: _colMap, _notOwned (LCEventImpl.h:180, 186) and whether it exists *)
Record ostate := mkO { o_mem : memory; o_cols : list (bytes * addr); o_taken : list addr; o_alive : bool }.

(** the memory with another content of one address: construction, deallocation and every modification
    below (LCCollectionVec.cc:103-118, LCEventImpl.cc:25-33) *)
Definition m_set (m : memory) (a : addr) (k : option cell) : memory := fun y => if y =? a then k else m y.

(** delete of a part: ParticleIDImpl.cc:12-13, TrackStateImpl.cc:87; nothing happens for null *)
Definition delete_part (m : memory) (p : addr) : Res memory :=
  if p =? 0 then Ok m else
  match m p with Some KPart => Ok (m_set m p None) | _ => UB UBPrecondition end.
(** the loops in ~ClusterImpl (ClusterImpl.cc:16-21), ~ReconstructedParticleImpl
    (ReconstructedParticleImpl.cc:31-36), ~TrackImpl (TrackImpl.cc:54-71) and ~SimCalorimeterHitImpl
    (SimCalorimeterHitImpl.cc:53-61) *)
Fixpoint delete_parts (m : memory) (l : list addr) : Res memory :=
  match l with
  | [] => Ok m
  | p :: l' => do m <- delete_part m p; delete_parts m l'
  end.
(** delete of an LCObject by its virtual destructor, lines as above; nothing happens for null *)
Definition delete_object (m : memory) (x : addr) : Res memory :=
  if x =? 0 then Ok m else
  match m x with
  | Some KPart => Ok (m_set m x None)
  | Some (KObj parts) => do m <- delete_parts m parts; Ok (m_set m x None)
  | _ => UB UBPrecondition
  end.
(** the loop in ~LCCollectionVec, LCCollectionVec.cc:42-44 *)
Fixpoint delete_elements (m : memory) (l : list addr) : Res memory :=
  match l with
  | [] => Ok m
  | x :: l' => do m <- delete_object m x; delete_elements m l'
  end.
(** ~LCCollectionVec, LCCollectionVec.cc:33-46 *)
Definition delete_collection (m : memory) (c : addr) : Res memory :=
  if c =? 0 then Ok m else
  match m c with
  | Some (KColl subset elems) =>
      do m <- (if subset then Ok m else delete_elements m elems); Ok (m_set m c None)
  | _ => UB UBPrecondition
  end.
(** ~LCEventImpl, LCEventImpl.cc:25-33, over the collections in the order of their names *)
Fixpoint delete_collections (m : memory) (cols : list (bytes * addr)) (taken : list addr) : Res memory :=
  match cols with
  | [] => Ok m
  | (_, c) :: l =>
      do m <- (if existsb (Z.eqb c) taken then Ok m else delete_collection m c);
      delete_collections m l taken
  end.

(** what a program does with an event.  The addresses of new objects are chosen by the allocator.
    O_newPart, O_newObject, O_newCollection: constructors of the implementation classes.
    O_copyShallow: the copy constructors of ReconstructedParticleImpl (ReconstructedParticleImpl.h:31,
    defaulted), ClusterImpl and SimCalorimeterHitImpl (implicit; the constructor at
    SimCalorimeterHitImpl.cc:20-45 is for the interface class).  O_copyDeep: TrackImpl (TrackImpl.cc:23-50)
    and SimCalorimeterHitImpl.cc:20-45, with the addresses of the new parts.
    O_givePart: addParticleID (ClusterImpl.cc:120-125, ReconstructedParticleImpl.cc:162-168), addTrackState
    (TrackImpl.cc:350-360), addMCParticleContribution (SimCalorimeterHitImpl.cc:144-189).
    O_addElement, O_removeElementAt, O_setSubset: LCCollectionVec.cc:103-118, 87-90.
    O_addCollection, O_removeCollection, O_takeCollection: LCEventImpl.cc:92-140.
    The delete expressions of the program. *)
Inductive ocall :=
| O_newPart (a : addr) | O_newObject (a : addr) | O_newCollection (a : addr)
| O_copyShallow (a o : addr) | O_copyDeep (a o : addr) (news : list addr)
| O_givePart (o p : addr)
| O_addElement (c x : addr) | O_removeElementAt (c i : Z) | O_setSubset (c : addr) (b : bool)
| O_addCollection (c : addr) (name : bytes) | O_removeCollection (name : bytes) | O_takeCollection (name : bytes)
| O_deleteObject (x : addr) | O_deleteCollection (c : addr) | O_deleteEvent.

(** new: the allocator returns an address that is not in use *)
Definition m_new (m : memory) (a : addr) (k : cell) : Res memory :=
  if a =? 0 then UB UBPrecondition else
  match m a with None => Ok (m_set m a (Some k)) | Some _ => UB UBPrecondition end.
(** the loop that copies the parts, TrackImpl.cc:45-48, SimCalorimeterHitImpl.cc:35-44 *)
Fixpoint new_parts (m : memory) (l : list addr) : Res memory :=
  match l with
  | [] => Ok m
  | a :: l' => do m <- m_new m a KPart; new_parts m l'
  end.

(** the state with another memory, LCEventImpl.h:180-186 unchanged *)
Definition with_mem (s : ostate) (m : memory) : ostate := mkO m (o_cols s) (o_taken s) (o_alive s).
(** a call on the event needs the event *)
Definition on_event (s : ostate) (r : Res ostate) : Res ostate := if o_alive s then r else UB UBPrecondition.

(** one call, lines at [ocall] *)
Definition own_do (s : ostate) (c : ocall) : Res ostate :=
  let m := o_mem s in
  match c with
  | O_newPart a => do m <- m_new m a KPart; Ok (with_mem s m)
  | O_newObject a => do m <- m_new m a (KObj []); Ok (with_mem s m)
  | O_newCollection a => do m <- m_new m a (KColl false []); Ok (with_mem s m)
  | O_copyShallow a o =>
      match m o with
      | Some (KObj parts) => do m <- m_new m a (KObj parts); Ok (with_mem s m)
      | _ => UB UBPrecondition
      end
  | O_copyDeep a o news =>
      match m o with
      | Some (KObj parts) =>
          if Nat.eqb (length news) (length parts)
          then do m <- m_new m a (KObj news); do m <- new_parts m news; Ok (with_mem s m)
          else UB UBPrecondition
      | _ => UB UBPrecondition
      end
  | O_givePart o p =>
      match m o with
      | Some (KObj parts) => Ok (with_mem s (m_set m o (Some (KObj (parts ++ [p])))))
      | _ => UB UBPrecondition
      end
  | O_addElement c x =>
      match m c with
      | Some (KColl b elems) => Ok (with_mem s (m_set m c (Some (KColl b (elems ++ [x])))))
      | _ => UB UBPrecondition
      end
  | O_removeElementAt c i =>
      match m c with
      | Some (KColl b elems) =>
          if (0 <=? i) && (i <? Zlen elems)
          then Ok (with_mem s (m_set m c (Some (KColl b (firstn (Z.to_nat i) elems ++ skipn (S (Z.to_nat i)) elems)))))
          else UB UBOutOfBounds
      | _ => UB UBPrecondition
      end
  | O_setSubset c b =>
      match m c with
      | Some (KColl _ elems) => Ok (with_mem s (m_set m c (Some (KColl b elems))))
      | _ => UB UBPrecondition
      end
  | O_addCollection c name => on_event s (
      if negb (validate name) then Throw LEventException else
      match sm_get name (o_cols s) with
      | Some _ => Throw LEventException
      | None => if c =? 0 then Throw LEventException
                else Ok (mkO m (sm_set name c (o_cols s)) (o_taken s) true)
      end)
  | O_removeCollection name => on_event s (Ok (mkO m (sm_del name (o_cols s)) (o_taken s) true))
  | O_takeCollection name => on_event s (
      match sm_get name (o_cols s) with
      | None => Throw LDataNotAvailable
      | Some c => match m c with
                  | Some (KColl _ _) => Ok (mkO m (o_cols s) (c :: o_taken s) true)
                  | _ => UB UBPrecondition
                  end
      end)
  | O_deleteObject x => do m <- delete_object m x; Ok (with_mem s m)
  | O_deleteCollection c => do m <- delete_collection m c; Ok (with_mem s m)
  | O_deleteEvent => on_event s (
      do m <- delete_collections m (o_cols s) (o_taken s); Ok (mkO m [] [] false))
  end.

(** a program: the calls one after the other; exceptions are caught and change nothing
    (LCEventImpl.cc:71-83, 111-126) *)
Fixpoint own_run (s : ostate) (l : list ocall) : Res ostate :=
  match l with
  | [] => Ok s
  | c :: l' => match own_do s c with
               | Ok s' => own_run s' l'
               | Throw _ => own_run s l'
               | UB u => UB u
               end
  end.
(** a new event, LCEventImpl.cc:17-22, and nothing else *)
Definition own_init : ostate := mkO (fun _ => None) [] [] true.
