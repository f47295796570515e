(** * What of a collection is stored: specification

    Nothing here mentions bytes or device calls. *)

From Verif Require Import Bytes StrMap SioModel Ieee ObjModel ObjSpec.

(** ** LCParameters *)

(** the maps have their invariant, and counts and values fit the format *)
Definition map_ok {V} (P : V -> Prop) (m : list (bytes * list V)) : Prop :=
  sm_ok m /\ vec_len m /\ Forall (fun kv => vec_len (fst kv) /\ vec_len (snd kv) /\ Forall P (snd kv)) m.
Definition params_ok (p : params) : Prop :=
  map_ok int32 (p_int p) /\ map_ok word32 (p_flt p) /\ map_ok (@vec_len byte) (p_str p).

(** [p'] has the parameters of [p] except for the string parameters in [keys] *)
Definition same_params_but (keys : list bytes) (p p' : params) : Prop :=
  p_int p' = p_int p /\ p_flt p' = p_flt p /\
  forall k, ~ In k keys -> sm_get k (p_str p') = sm_get k (p_str p).

(** ** Collections *)

(** is the collection a collection of generic objects all of fixed size? *)
Definition stores_fixed (ty : otype) (h : heap) (c : coll) : bool :=
  match ty with
  | TGO => forallb (fun a => match h a with Some (OGO o) => go_fixed o | _ => false end) (c_elems c)
  | _ => false
  end.
(** bit 31 of the flag word of such a collection is set on writing *)
Definition stored_flag (ty : otype) (h : heap) (c : coll) : Z :=
  if stores_fixed ty h c then Z.lor (c_flag c) (2 ^ 31) else c_flag c.
(** the string parameters that writing may set *)
Definition own_keys (ty : otype) : list bytes :=
  match ty with
  | TVX => [alg_key]
  | TGO => [typename_key; descr_key]
  | _ => []
  end.
(** the parameters of the collection after writing.  Vertices: the set of their algorithm types,
    in alphabetical order; generic objects: type name and, if all are of fixed size, data
    description of the first object, unless the parameter has a value *)
Definition vertex_types (h : heap) (l : list addr) : list bytes :=
  fold_left (fun s a => match h a with Some (OVX v) => ss_add (vx_type v) s | _ => s end) l [].
Definition has_value (p : params) (k : bytes) : bool :=
  match sm_get k (p_str p) with Some ((_ :: _) :: _) => true | _ => false end.
Definition default_value (p : params) (k v : bytes) : params :=
  if has_value p k then p else mkP (p_int p) (p_flt p) (sm_set k [v] (p_str p)).
Definition stored_params (ty : otype) (h : heap) (c : coll) : params :=
  let p := c_par c in
  match ty with
  | TVX => mkP (p_int p) (p_flt p) (sm_set alg_key (vertex_types h (c_elems c)) (p_str p))
  | TGO => match c_elems c with
           | a :: _ => match h a with
                       | Some (OGO o) =>
                           let p1 := default_value p typename_key (go_type o) in
                           if stores_fixed ty h c then default_value p1 descr_key (go_desc o) else p1
                       | _ => p
                       end
           | [] => p
           end
  | _ => p
  end.
Definition is_subset (c : coll) : bool := Z.testbit (c_flag c) 18.

(** what every stored object must satisfy on its own *)
Definition elem_ok (flag : Z) (o : obj) : Prop :=
  match o with OVX x => vertex_ok x | OGO x => genobj_ok x | _ => obj_ok flag [] None o end.
(** the elements point at objects of the type of the collection *)
Definition typed (ty : otype) (h : heap) (l : list addr) : Prop :=
  forall a, In a l -> a <> 0 /\ exists o, h a = Some o /\ type_of o = ty.
Definition elems_ok (flag : Z) (h : heap) (l : list addr) : Prop :=
  forall a o, In a l -> h a = Some o -> elem_ok flag o.

(** conditions on generic objects: descriptions that fit the format, the FIXED bit only if all
    objects are of fixed size (see C38), common sizes if all are of fixed size *)
Definition generic_ok (h : heap) (c : coll) : Prop :=
  (forall k, In k (own_keys TGO) -> sm_get k (p_str (c_par c)) <> Some []) /\
  (forall a o, In a (c_elems c) -> h a = Some (OGO o) -> vec_len (go_type o) /\ vec_len (go_desc o)) /\
  (Z.testbit (c_flag c) 31 = true -> stores_fixed TGO h c = true) /\
  (stores_fixed TGO h c = true ->
   exists s, int32 (fst (fst s)) /\ int32 (snd (fst s)) /\ int32 (snd s) /\
     forall a o, In a (c_elems c) -> h a = Some (OGO o) -> genobj_sizes o = s).
Definition vertices_ok (h : heap) (c : coll) : Prop :=
  forall a o, In a (c_elems c) -> h a = Some (OVX o) -> vec_len (vx_type o).

(** a collection of type [ty] that can be written: *)
Definition coll_ok (ty : otype) (h : heap) (c : coll) : Prop :=
  word32 (c_flag c) /\ params_ok (c_par c) /\ Zlen (p_str (c_par c)) + 2 < 2 ^ 28 /\ vec_len (c_elems c) /\
  (is_subset c = false -> typed ty h (c_elems c) /\ elems_ok (c_flag c) h (c_elems c)) /\
  (ty = TVX -> typed TVX h (c_elems c) /\ vertices_ok h c) /\
  (ty = TGO -> typed TGO h (c_elems c) /\ elems_ok (c_flag c) h (c_elems c) /\ generic_ok h c).

(** objects owned by a collection, in the order in which the reader creates their copies *)
Definition own_objs (h : heap) (l : list addr) : list addr :=
  flat_map (fun a => a :: match h a with Some o => owned o | None => [] end) l.
Definition coll_objs (h : heap) (c : coll) : list addr :=
  if is_subset c then [] else own_objs h (c_elems c).

(** what can be pointed at, and what is pointed at *)
Definition coll_tags (h : heap) (c : coll) : list addr :=
  if is_subset c then [] else
  flat_map (fun a => match h a with
                     | Some o => owned o ++ (if pointable (c_flag c) o then [a] else [])
                     | None => [] end) (c_elems c).
Definition coll_refs (ty : otype) (h : heap) (c : coll) : list addr :=
  if is_subset c then c_elems c else
  flat_map (fun a => match h a with
                     | Some o => refs (stored (c_flag c) (stores_fixed ty h c) o)
                     | None => [] end) (c_elems c).

(** [f] numbers the objects of [l] from [n] on *)
Definition numbers (f : addr -> addr) (l : list addr) (n : Z) : Prop :=
  forall i a, nth_error l i = Some a -> f a = n + Z.of_nat i.

(** the copy of the object at [a] *)
Definition read_copy (srt : forall A : Type, (A -> Z) -> list A -> list A) (new ptr : addr -> addr)
    (flag : Z) (fixed : bool) (o : obj) : obj :=
  map_refs ptr (resort srt (map_owned new (stored flag fixed o))).
