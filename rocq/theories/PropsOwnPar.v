(** * The parameters that writing adds to a collection (C75) *)

From Coq Require Import ZArith List Bool.
From Verif Require Import Bytes StrMap SioModel SioSpec ObjModel ObjSpec CollSpec CopyEvent.
Import ListNotations.
Open Scope Z_scope.

(** The parameters in the layout of a stored collection ([stored_params] in [event_layout], C75_event_record) contain
    under these names: for vertices the types of their algorithms; for user defined objects the type name of the
    first one and, if all have a fixed size, its data description, unless the user has set them.  All others are
    those of the collection. *)
Theorem C75_own_parameters : forall h c, sm_ok (p_str (c_par c)) ->
  sm_get (str "_lcio.VertexAlgorithmTypes") (p_str (stored_params TVX h c)) = Some (vertex_types h (c_elems c)) /\
  (forall k, k <> str "_lcio.VertexAlgorithmTypes" -> sm_get k (p_str (stored_params TVX h c)) = sm_get k (p_str (c_par c))) /\
  (forall a l o, c_elems c = a :: l -> h a = Some (OGO o) ->
     sm_get (str "TypeName") (p_str (stored_params TGO h c)) =
       (if has_value (c_par c) (str "TypeName") then sm_get (str "TypeName") (p_str (c_par c)) else Some [go_type o]) /\
     sm_get (str "DataDescription") (p_str (stored_params TGO h c)) =
       (if has_value (c_par c) (str "DataDescription") then sm_get (str "DataDescription") (p_str (c_par c))
        else if stores_fixed TGO h c then Some [go_desc o] else sm_get (str "DataDescription") (p_str (c_par c))) /\
     forall k, k <> str "TypeName" -> k <> str "DataDescription" -> sm_get k (p_str (stored_params TGO h c)) = sm_get k (p_str (c_par c))).
Proof.
  intros h c Hs. change (str "_lcio.VertexAlgorithmTypes") with alg_key. change (str "TypeName") with typename_key. change (str "DataDescription") with descr_key.
  assert (Kne : descr_key <> typename_key) by (vm_compute; discriminate).
  assert (SET : forall k (v : list bytes) m, sm_ok m -> sm_get k (sm_set k v m) = Some v) by (intros k v m H; rewrite sm_get_set by exact H; rewrite bytes_eqb_refl; reflexivity).
  assert (DV : forall p k v, sm_ok (p_str p) -> sm_get k (p_str (default_value p k v)) = if has_value p k then sm_get k (p_str p) else Some [v]).
  { intros p k v H. unfold default_value. destruct (has_value p k); [reflexivity|]. cbn [p_str]. apply SET. exact H. }
  split; [|split].
  - unfold stored_params. cbn [p_str]. apply SET. exact Hs.
  - intros k N. unfold stored_params. cbn [p_str]. rewrite sm_get_set by exact Hs. destruct (bytes_eqb k alg_key) eqn:E; [|reflexivity]. apply bytes_eqb_eq in E. contradiction.
  - intros a l o El Ea. unfold stored_params. rewrite El, Ea. set (p1 := default_value (c_par c) typename_key (go_type o)).
    assert (H1 : sm_ok (p_str p1)) by (unfold p1, default_value; destruct (has_value (c_par c) typename_key); [exact Hs|cbn [p_str]; apply sm_set_ok; exact Hs]).
    assert (V : has_value p1 descr_key = has_value (c_par c) descr_key) by (unfold has_value, p1; rewrite default_value_other by assumption; reflexivity).
    split; [|split].
    + destruct (stores_fixed TGO h c); [rewrite default_value_other by (try exact H1; congruence)|]; apply DV; exact Hs.
    + destruct (stores_fixed TGO h c).
      * rewrite DV by exact H1. rewrite V. unfold p1. rewrite default_value_other by assumption. reflexivity.
      * unfold p1. rewrite default_value_other by assumption. destruct (has_value (c_par c) descr_key); reflexivity.
    + intros k N1 N2. destruct (stores_fixed TGO h c); [rewrite default_value_other by assumption|]; apply default_value_other; assumption.
Qed.
Print Assumptions C75_own_parameters.

(** two vertices with algorithms in reverse order and a repetition; objects of the user, with and without a type name set *)
Definition vx75 (t : bytes) : obj := OVX (mkVX 0 t 0 0 [] [] [] 0).
Definition ex_heap75 : addr -> option obj := fun a =>
  if a =? 1 then Some (vx75 (str "ZVTOP")) else if a =? 2 then Some (vx75 (str "Kinfit")) else if a =? 3 then Some (vx75 (str "ZVTOP"))
  else if a =? 4 then Some (OGO (mkGO [1] [] [] true (str "Calib") (str "i:gain"))) else if a =? 5 then Some (OGO (mkGO [1; 2] [] [] false (str "Other") (str "i:x"))) else None.
Definition named75 : params := mkP [] [] [(str "TypeName", [str "Mine"])].
Example C75_own_parameters_case : sm_ok (p_str no_params) /\
  sm_get (str "_lcio.VertexAlgorithmTypes") (p_str (stored_params TVX ex_heap75 (mkColl (str "Vertex") 0 no_params [1; 2; 3]))) = Some [str "Kinfit"; str "ZVTOP"] /\
  sm_ok (p_str named75) /\
  p_str (stored_params TGO ex_heap75 (mkColl (str "LCGenericObject") 0 named75 [4; 4])) = [(str "DataDescription", [str "i:gain"]); (str "TypeName", [str "Mine"])] /\
  p_str (stored_params TGO ex_heap75 (mkColl (str "LCGenericObject") 0 no_params [4; 5])) = [(str "TypeName", [str "Calib"])].
Proof. split; [constructor|]. split; [vm_compute; reflexivity|]. split; [repeat constructor|]. split; vm_compute; reflexivity. Qed.
