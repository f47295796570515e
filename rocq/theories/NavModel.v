(** * Relations: LCRelationNavigator and the relations of LCRTRelations *)

From Coq Require Import ZArith List Bool Lia.
From Verif Require Import Bytes StrMap ZMap SioModel ObjModel FlagModel ImplModel.
Import ListNotations.
Open Scope Z_scope.

(** ** LCRelationNavigator

    src/cpp/src/UTIL/LCRelationNavigator.cc.  Simplified: the loop counters ([int], [unsigned]) do not
    overflow. *)

(** RelMap, src/cpp/include/UTIL/LCRelationNavigator.h:25 *)
Definition relmap := list (addr * (list addr * list Z)).
(** the members, LCRelationNavigator.h:94-97 *)
Record nav := mkNav { n_map : relmap; n_rmap : relmap; n_from : bytes; n_to : bytes }.

(** [map[ k ]], which inserts a pair of empty vectors: std::map::operator[] as used at
    LCRelationNavigator.cc:51-68, 82-83 *)
Definition rm_at (m : relmap) (k : addr) : list addr * list Z := match zm_get k m with Some p => p | None => ([], []) end.
Definition rm_touch (m : relmap) (k : addr) : relmap := zm_set k (rm_at m k) m.

(** the loop LCRelationNavigator.cc:85-98: add to the weight of an existing entry, else append; a weight
    vector that is shorter is accessed outside *)
Fixpoint rel_upd (fadd : Z -> Z -> Z) (vto : list addr) (vw : list Z) (to : addr) (w : Z) : Res (list addr * list Z) :=
  match vto with
  | [] => Ok ([to], vw ++ [w])
  | x :: vto' =>
      match vw with
      | [] => if x =? to then UB UBOutOfBounds else do p <- rel_upd fadd vto' [] to w; Ok (x :: fst p, snd p)
      | v :: vw' => if x =? to then Ok (vto, fadd v w :: vw') else do p <- rel_upd fadd vto' vw' to w; Ok (x :: fst p, v :: snd p)
      end
  end.
(** addRelation on one map, LCRelationNavigator.cc:77-99 *)
Definition rm_add (fadd : Z -> Z -> Z) (m : relmap) (from to : addr) (w : Z) : Res relmap :=
  let (vto, vw) := rm_at m from in
  do p <- rel_upd fadd vto vw to w;
  Ok (zm_set from p m).
(** addRelation, LCRelationNavigator.cc:71-75 *)
Definition nav_add (fadd : Z -> Z -> Z) (n : nav) (from to : addr) (w : Z) : Res nav :=
  do m <- rm_add fadd (n_map n) from to w;
  do r <- rm_add fadd (n_rmap n) to from w;
  Ok (mkNav m r (n_from n) (n_to n)).

(** std::find and the distance from the begin, LCRelationNavigator.cc:121-127 *)
Fixpoint index_of (x : addr) (l : list addr) : option nat :=
  match l with [] => None | y :: l' => if y =? x then Some 0%nat else match index_of x l' with Some i => Some (S i) | None => None end end.
(** std::vector::erase at a position; outside it is undefined *)
Definition erase_at {A} (i : nat) (l : list A) : Res (list A) :=
  if Nat.ltb i (length l) then Ok (firstn i l ++ skipn (S i) l) else UB UBOutOfBounds.
(** removeRelation on one map, LCRelationNavigator.cc:110-140 (the [assert] is not compiled in) *)
Definition rm_remove (m : relmap) (from to : addr) : Res relmap :=
  match zm_get from m with
  | None => Ok m
  | Some (vto, vw) =>
      match index_of to vto with
      | None => Ok m
      | Some i =>
          do vto' <- erase_at i vto;
          do vw' <- erase_at i vw;
          match vto' with
          | [] => Ok (zm_del from m)
          | _ => Ok (zm_set from (vto', vw') m)
          end
      end
  end.
(** removeRelation, LCRelationNavigator.cc:103-106 *)
Definition nav_remove (n : nav) (from to : addr) : Res nav :=
  do m <- rm_remove (n_map n) from to;
  do r <- rm_remove (n_rmap n) to from;
  Ok (mkNav m r (n_from n) (n_to n)).

(** getRelatedToObjects, getRelatedFromObjects, getRelatedToWeights, getRelatedFromWeights,
    LCRelationNavigator.cc:48-69: the answer and the navigator afterwards *)
Definition nav_to_objects (n : nav) (a : addr) : nav * list addr :=
  (mkNav (rm_touch (n_map n) a) (n_rmap n) (n_from n) (n_to n), fst (rm_at (n_map n) a)).
Definition nav_from_objects (n : nav) (a : addr) : nav * list addr :=
  (mkNav (n_map n) (rm_touch (n_rmap n) a) (n_from n) (n_to n), fst (rm_at (n_rmap n) a)).
Definition nav_to_weights (n : nav) (a : addr) : nav * list Z :=
  (mkNav (rm_touch (n_map n) a) (n_rmap n) (n_from n) (n_to n), snd (rm_at (n_map n) a)).
Definition nav_from_weights (n : nav) (a : addr) : nav * list Z :=
  (mkNav (n_map n) (rm_touch (n_rmap n) a) (n_from n) (n_to n), snd (rm_at (n_rmap n) a)).

(** the names of the parameters, LCRelationNavigator.cc:10-11 *)
Definition k_fromtype : bytes := str "FromType".
Definition k_totype : bytes := str "ToType".
(** LCIO::LCRELATION, src/cpp/src/IMPL/LCIO.cc:65 *)
Definition t_relation : bytes := str "LCRelation".

(** the relations of the map in the order of the loops LCRelationNavigator.cc:152-168; the second vector
    is read at the indices of the first *)
Definition entry_rels (e : addr * (list addr * list Z)) : Res (list lcrel) :=
  if Nat.ltb (length (snd (snd e))) (length (fst (snd e))) then UB UBOutOfBounds else
  Ok (map (fun p => mkREL (fst e) (fst p) (snd p)) (combine (fst (snd e)) (snd (snd e)))).
Fixpoint map_rels (m : relmap) : Res (list lcrel) :=
  match m with
  | [] => Ok []
  | e :: m' => do l <- entry_rels e; do l' <- map_rels m'; Ok (l ++ l')
  end.
(** createLCCollection, LCRelationNavigator.cc:142-176: type, parameters, flag and new relations *)
Record relcoll := mkRelColl { k_type : bytes; k_par : params; k_flag : Z; k_rels : list lcrel }.
Definition nav_collection (n : nav) : Res relcoll :=
  let p1 := fst (par_do false no_params (P_setString k_fromtype (n_from n))) in
  let p2 := fst (par_do false p1 (P_setString k_totype (n_to n))) in
  do l <- map_rels (n_map n);
  do f <- (if existsb (fun r => negb (re_weight r =? f32_one)) l then flag_set_bit 0 LCREL_WEIGHTED else Ok 0);
  Ok (mkRelColl t_relation p2 f l).

(** initialize, LCRelationNavigator.cc:27-43; the elements as seen by the [dynamic_cast] *)
Fixpoint nav_fill (fadd : Z -> Z -> Z) (n : nav) (l : list (option lcrel)) : Res nav :=
  match l with
  | [] => Ok n
  | None :: _ => UB UBNullDeref
  | Some r :: l' => do n' <- nav_add fadd n (re_from r) (re_to r) (re_weight r); nav_fill fadd n' l'
  end.
(** the constructor from a collection, LCRelationNavigator.cc:19-25 *)
Definition nav_of_collection (fadd : Z -> Z -> Z) (ty : bytes) (p : params) (l : list (option lcrel)) : Res nav :=
  do f <- par_val [] (p_str p) k_fromtype;
  do t <- par_val [] (p_str p) k_totype;
  let n := mkNav [] [] f t in
  if bytes_eqb ty t_relation then nav_fill fadd n l else Ok n.

(** calls on a navigator, LCRelationNavigator.cc:50-136 *)
Inductive nav_call :=
| NAdd (from to : addr) (w : Z) | NRemove (from to : addr)
| NAskTo (a : addr) | NAskFrom (a : addr) | NAskToWeights (a : addr) | NAskFromWeights (a : addr).
(** LCRelationNavigator.cc, as above (50-136) *)
Definition nav_do (fadd : Z -> Z -> Z) (n : nav) (c : nav_call) : Res nav :=
  match c with
  | NAdd f t w => nav_add fadd n f t w
  | NRemove f t => nav_remove n f t
  | NAskTo a => Ok (fst (nav_to_objects n a))
  | NAskFrom a => Ok (fst (nav_from_objects n a))
  | NAskToWeights a => Ok (fst (nav_to_weights n a))
  | NAskFromWeights a => Ok (fst (nav_from_weights n a))
  end.
(** no code of its own: a program that uses LCRelationNavigator.cc:50-136 *)
Fixpoint nav_run (fadd : Z -> Z -> Z) (n : nav) (cs : list nav_call) : Res nav :=
  match cs with [] => Ok n | c :: cs' => do n' <- nav_do fadd n c; nav_run fadd n' cs' end.

(** ** Relations between objects at run time

    src/cpp/include/LCRTRelations.h: the extension map of an object holds for each relation and direction
    one pointer, initially null, or one list, initially empty (ptr, 531-554; the helpers 96-137, 142-178).
    One relation is modelled: the pointers or lists of all objects for the direction "to" and for the
    direction "from".  The address 0 is the null pointer. *)

(** 1-to-1 *)
Record rt1 := mkRt1 { r1_to : addr -> addr; r1_from : addr -> addr }.
(** assignment *)
Definition set_at {A} (g : addr -> A) (a : addr) (x : A) : addr -> A := fun b => if b =? a then x else g b.
(** unset_relation, LCRTRelations.h:564-577 *)
Definition unset_relation (s : rt1) (f : addr) : rt1 :=
  if f =? 0 then s else
  let t := r1_to s f in
  let from' := if t =? 0 then r1_from s else set_at (r1_from s) t 0 in
  mkRt1 (set_at (r1_to s) f 0) from'.
(** set_relation, LCRTRelations.h:579-588; a null [t] is dereferenced first, a null [f] afterwards *)
Definition set_relation (s : rt1) (f t : addr) : Res rt1 :=
  if (t =? 0) || (f =? 0) then UB UBNullDeref else
  let s1 := unset_relation s f in
  let s2 := unset_relation s1 (r1_from s1 t) in
  Ok (mkRt1 (set_at (r1_to s2) f t) (set_at (r1_from s2) t f)).

(** N-to-N, RelationManySide on both sides, LCRTRelations.h:133-137 *)
Record rtn := mkRtn { rn_to : addr -> list addr; rn_from : addr -> list addr }.
(** std::list::remove, used at LCRTRelations.h:162 *)
Definition list_remove (x : addr) (l : list addr) : list addr := filter (fun y => negb (y =? x)) l.
(** add_relation, LCRTRelations.h:593-601 *)
Definition add_relation (s : rtn) (f t : addr) : Res rtn :=
  if (f =? 0) || (t =? 0) then UB UBNullDeref else
  Ok (mkRtn (set_at (rn_to s) f (rn_to s f ++ [t])) (set_at (rn_from s) t (rn_from s t ++ [f]))).
(** remove_relation, LCRTRelations.h:606-613 *)
Definition remove_relation (s : rtn) (f t : addr) : Res rtn :=
  if (f =? 0) || (t =? 0) then UB UBNullDeref else
  Ok (mkRtn (set_at (rn_to s) f (list_remove t (rn_to s f))) (set_at (rn_from s) t (list_remove f (rn_from s t)))).
(** remove_relations, LCRTRelations.h:616-627 *)
Definition remove_relations (s : rtn) (f : addr) : Res rtn :=
  if f =? 0 then UB UBNullDeref else
  Ok (mkRtn (set_at (rn_to s) f [])
            (fold_left (fun g t => set_at g t (list_remove f (g t))) (rn_to s f) (rn_from s))).
(** std::list::merge: both lists have to be sorted; the order of equal pointers cannot be seen *)
Fixpoint sortedb (l : list addr) : bool :=
  match l with x :: ((y :: _) as l') => (x <=? y) && sortedb l' | _ => true end.
Fixpoint list_merge (l1 l2 : list addr) {struct l1} : list addr :=
  match l1 with
  | [] => l2
  | x :: l1' =>
      (fix inner (l2 : list addr) : list addr :=
         match l2 with [] => l1 | y :: l2' => if y <? x then y :: inner l2' else x :: list_merge l1' l2 end) l2
  end.
(** merge_relations, LCRTRelations.h:629-642; merging a list with itself does nothing *)
Definition merge_relations (s : rtn) (f1 f2 : addr) : Res rtn :=
  if (f1 =? 0) || (f2 =? 0) then UB UBNullDeref else
  let l2 := rn_to s f2 in
  let from' := fold_left (fun g t => let g1 := set_at g t (list_remove f2 (g t)) in set_at g1 t (g1 t ++ [f1])) l2 (rn_from s) in
  if f1 =? f2 then Ok (mkRtn (rn_to s) from') else
  if negb (sortedb (rn_to s f1) && sortedb l2) then UB UBPrecondition else
  Ok (mkRtn (set_at (set_at (rn_to s) f1 (list_merge (rn_to s f1) l2)) f2 []) from').

(** 1-to-N: a list on the "to" side, one pointer on the "from" side *)
Record rt1n := mkRt1n { ro_to : addr -> list addr; ro_from : addr -> addr }.
(** add_relation, LCRTRelations.h:593-601 with objorcont<false>::add, 170-171 *)
Definition add_relation_1n (s : rt1n) (f t : addr) : Res rt1n :=
  if (f =? 0) || (t =? 0) then UB UBNullDeref else
  Ok (mkRt1n (set_at (ro_to s) f (ro_to s f ++ [t])) (set_at (ro_from s) t f)).
(** remove_relation, LCRTRelations.h:606-613 with objorcont<false>::remove, 173-174 *)
Definition remove_relation_1n (s : rt1n) (f t : addr) : Res rt1n :=
  if (f =? 0) || (t =? 0) then UB UBNullDeref else
  Ok (mkRt1n (set_at (ro_to s) f (list_remove t (ro_to s f))) (set_at (ro_from s) t 0)).
(** remove_relations, LCRTRelations.h:616-627 *)
Definition remove_relations_1n (s : rt1n) (f : addr) : Res rt1n :=
  if f =? 0 then UB UBNullDeref else
  Ok (mkRt1n (set_at (ro_to s) f []) (fold_left (fun g t => set_at g t 0) (ro_to s f) (ro_from s))).

(** programs that use LCRTRelations.h:564-642 *)
Inductive call1 := Set1 (f t : addr) | Unset1 (f : addr).
Definition do1 (s : rt1) (c : call1) : Res rt1 :=
  match c with Set1 f t => set_relation s f t | Unset1 f => Ok (unset_relation s f) end.
Fixpoint run1 (s : rt1) (cs : list call1) : Res rt1 :=
  match cs with [] => Ok s | c :: cs' => do s' <- do1 s c; run1 s' cs' end.
Inductive calln := AddN (f t : addr) | RemoveN (f t : addr) | RemoveAllN (f : addr) | MergeN (f1 f2 : addr).
Definition don (s : rtn) (c : calln) : Res rtn :=
  match c with
  | AddN f t => add_relation s f t | RemoveN f t => remove_relation s f t
  | RemoveAllN f => remove_relations s f | MergeN f1 f2 => merge_relations s f1 f2
  end.
Fixpoint runn (s : rtn) (cs : list calln) : Res rtn :=
  match cs with [] => Ok s | c :: cs' => do s' <- don s c; runn s' cs' end.
Definition do1n (s : rt1n) (c : calln) : Res rt1n :=
  match c with
  | AddN f t => add_relation_1n s f t | RemoveN f t => remove_relation_1n s f t
  | RemoveAllN f => remove_relations_1n s f | MergeN _ _ => Ok s
  end.
Fixpoint run1n (s : rt1n) (cs : list calln) : Res rt1n :=
  match cs with [] => Ok s | c :: cs' => do s' <- do1n s c; run1n s' cs' end.
