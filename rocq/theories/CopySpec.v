(** * Events that can be copied: specification *)

From Verif Require Import Bytes StrMap SioModel SioSpec Ieee ObjModel ObjSpec CollSpec EventModel EventSpec EventFacts.

(** every element of a subset collection is an element of a collection that owns its elements, and
    can be pointed at there *)
Definition owners_ok (h : heap) (cols : list (bytes * coll)) : Prop :=
  forall nc a, In nc cols -> is_subset (snd nc) = true -> In a (c_elems (snd nc)) ->
  exists nc' o, In nc' cols /\ is_subset (snd nc') = false /\ In a (c_elems (snd nc')) /\ h a = Some o /\
    pointable (c_flag (snd nc')) o = true.
(** a subset of generic objects that are all of fixed size: so are all objects of the collections
    they are from *)
Definition fixed_subsets_ok (h : heap) (cols : list (bytes * coll)) : Prop :=
  forall nc nc' a, In nc cols -> In nc' cols -> is_subset (snd nc) = true -> is_subset (snd nc') = false ->
    In a (c_elems (snd nc)) -> In a (c_elems (snd nc')) ->
    stores_fixed TGO h (snd nc) = true -> stores_fixed TGO h (snd nc') = true.
(** generic objects have a type name *)
Definition type_names_ok (h : heap) (cols : list (bytes * coll)) : Prop :=
  forall nc a o, In nc cols -> In a (c_elems (snd nc)) -> h a = Some (OGO o) -> go_type o <> [].

(** an event whose copy can be stored again *)
Definition copyable (only : list bytes) (h : heap) (e : event) : Prop :=
  let cols := read_back only [] e in
  mc_links_ok h cols /\ pids_ordered h cols /\ owners_ok h cols /\ fixed_subsets_ok h cols /\ type_names_ok h cols /\
  Forall (fun nc => Zlen (p_str (c_par (snd nc))) + 4 < 2 ^ 28) cols.

From Verif Require Import IndexModel IndexSpec FileModel FileSpec.

(** an item that was read from the file [fst w] can be written at level [z] *)
Definition rewritable (z : Z) (w : bytes * witem) : Prop :=
  match snd w with
  | WRun h => item_ok (z, WRun (run_copy (fst w) h))
  | WEvt h e only => copyable only h e /\ item_ok (z, WEvt h e only)
  end.
