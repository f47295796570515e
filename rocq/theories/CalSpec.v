(** * What readcalibration is to print *)

From Verif Require Import Bytes StrMap SioModel Ieee ObjModel ObjSpec CollSpec EventModel EventSpec IndexModel FileModel FileSpec.

(** the name of the type of the objects in a stored collection: what the user has set, or the name that the first
    object gives *)
Definition type_name (h : heap) (c : coll) : bytes :=
  match sm_get (str "TypeName") (p_str (c_par c)) with
  | Some ((b :: n) :: _) => b :: n
  | _ => if bytes_eqb (c_type c) (str "LCGenericObject")
         then match c_elems c with a :: _ => match h a with Some (OGO o) => go_type o | _ => [] end | [] => [] end
         else []
  end.
Definition is_calibration (h : heap) (c : coll) : bool := bytes_eqb (type_name h c) (str "CalibrationConstant").
(** the values of a calibration constant *)
Definition is_constant (o : obj) (v : Z * Z * Z) : Prop := let '(i, x, y) := v in exists f t d, o = OGO (mkGO [i] [x; y] [] f t d).
(** an object is written with one of the collections: pointers to it can be restored *)
Definition written_in (ty : bytes) (cols : list (bytes * coll)) (a : addr) : Prop :=
  exists nc, In nc cols /\ c_type (snd nc) = ty /\ is_subset (snd nc) = false /\ In a (c_elems (snd nc)).
(** the collections of calibration constants contain such objects, written with the event, and no parameter TypeName
    is an empty list *)
Definition calibrated (h : heap) (cols : list (bytes * coll)) (c : coll) : Prop :=
  sm_get (str "TypeName") (p_str (c_par c)) <> Some [] /\
  (is_calibration h c = true -> c_type c = str "LCGenericObject" /\ Forall (fun a => exists o v, h a = Some o /\ is_constant o v) (c_elems c) /\
     (is_subset c = true -> Forall (written_in (str "LCGenericObject") cols) (c_elems c))).
(** [l] are the values of the constants in the events among the items, in order *)
Inductive constants : list witem -> list (Z * Z * Z) -> Prop :=
| con_nil : constants [] []
| con_run r W l : constants W l -> constants (WRun r :: W) l
| con_evt h e only W l1 l : Forall2 (fun a v => exists o, h a = Some o /\ is_constant o v)
      (flat_map (fun nc => if is_calibration h (snd nc) then c_elems (snd nc) else []) (stored_cols only e)) l1 ->
    constants W l -> constants (WEvt h e only :: W) (l1 ++ l).
Definition calibrated_item (i : witem) : Prop :=
  match i with WRun _ => True | WEvt h e only => Forall (fun nc => calibrated h (stored_cols only e) (snd nc)) (stored_cols only e) end.
