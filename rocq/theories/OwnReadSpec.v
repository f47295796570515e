(** * Who deletes the objects of an event that was read

    The event with the objects at their addresses, as ownership sees it: every collection and every object
    was allocated by itself, at an address that nothing else uses.  The parts of an object (particle ids, track
    states, contributions) are at any addresses, only not at the same one. *)

From Verif Require Import Bytes SioModel ObjModel EventModel OwnModel OwnSpec.

Record in_memory (place : bytes -> addr) (parts : addr -> list addr) (e : event) (h : heap) (s : ostate) : Prop := mkIM {
  im_alive : o_alive s = true;
  im_taken : o_taken s = [];
  im_names : o_cols s = map (fun nc => (fst nc, place (fst nc))) (ev_cols e);
  im_zero : o_mem s 0 = None;
  im_colls : forall n c, In (n, c) (ev_cols e) -> o_mem s (place n) = Some (KColl (Z.testbit (c_flag c) 18) (c_elems c));
  im_apart : forall n n', In n (map fst (ev_cols e)) -> In n' (map fst (ev_cols e)) -> place n = place n' -> n = n';
  im_objs : forall a, h a <> None -> o_mem s a = Some (KObj (parts a));
  im_parts : forall a p, h a <> None -> In p (parts a) -> o_mem s p = Some KPart;
  im_once : forall a, h a <> None -> NoDup (parts a);
  im_other : forall a b p, h a <> None -> h b <> None -> In p (parts a) -> In p (parts b) -> a = b;
  im_only : forall y, o_mem s y <> None ->
    (exists n, In n (map fst (ev_cols e)) /\ y = place n) \/ h y <> None \/ exists a, h a <> None /\ In y (parts a) }.

(** the collections belong to the event, the elements of a collection that is not a subset to the collection, the parts of
    an object to the object; nothing else exists *)
Record owned_as_read (s : ostate) (w : owners) : Prop := mkOR {
  or_colls : forall n c, In (n, c) (o_cols s) -> w c = Some ByEvent;
  or_elems : forall n c es x, In (n, c) (o_cols s) -> o_mem s c = Some (KColl false es) -> In x es -> w x = Some (ByColl c);
  or_parts : forall n c es o ps p, In (n, c) (o_cols s) -> o_mem s c = Some (KColl false es) -> In o es ->
     o_mem s o = Some (KObj ps) -> In p ps -> w p = Some (ByObject o);
  or_none : forall y, o_mem s y = None -> w y = None }.
