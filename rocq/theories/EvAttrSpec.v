(** * What is expected of the attributes of events and run headers *)
From Verif Require Import Bytes StrMap ObjModel EventModel ImplModel ImplSpec EvAttrModel.

(** ** Events: histories of calls with their outcomes *)

(** the value of the last successful call that [f] knows *)
Definition last_good {V} (f : wcall -> option V) (d : V) (h : list (wcall * Res unit)) : V :=
  fold_left (fun acc cr => match cr with (c, Ok _) => match f c with Some v => v | None => acc end | _ => acc end) h d.
Definition run_set (c : wcall) : option Z := match c with WEv (V_setRunNumber v) => Some v | _ => None end.
Definition num_set (c : wcall) : option Z := match c with WEv (V_setEventNumber v) => Some v | _ => None end.
Definition det_set (c : wcall) : option bytes := match c with WEv (V_setDetectorName v) => Some v | _ => None end.
Definition time_set (c : wcall) : option Z := match c with WEv (V_setTimeStamp v) => Some v | _ => None end.
(** read only (mode 0) or update (1) *)
Definition mode_set (c : wcall) : option bool := match c with WEv (V_setAccessMode m) => Some (m =? 0) | _ => None end.
Definition locked (h : list (wcall * Res unit)) : bool := last_good mode_set false h.
(** the changes of the parameters of the event: a weight is the parameter "_weight" *)
Definition par_change (cr : wcall * Res unit) : list par_call :=
  match cr with
  | (WEv (V_setWeight v), Ok _) => [P_setFloat (str "_weight") v]
  | (WEv (V_parameters c), _) => [c]
  | _ => []
  end.
Definition par_changes (h : list (wcall * Res unit)) : list par_call := flat_map par_change h.
(** the calls that a read only event rejects *)
Definition event_setter (c : evcall) : Prop :=
  match c with V_setRunNumber _ | V_setEventNumber _ | V_setDetectorName _ | V_setTimeStamp _ | V_setWeight _ => True | _ => False end.
(** the weight for what was last set as the parameter: 1 if that is nothing or zero *)
Definition weight_of (l : option (list Z)) : Res Z :=
  match l with
  | None => Ok 0x3F800000
  | Some [] => UB UBOutOfBounds
  | Some (v :: _) => Ok (if Z.eq_dec v 0 then 0x3F800000 else if Z.eq_dec v 0x80000000 then 0x3F800000 else v)
  end.

(** ** Run headers: what is set while the header is not read only *)
Fixpoint open_calls (ro : bool) (cs : list rhcall) : list rhcall :=
  match cs with
  | [] => []
  | R_setReadOnly b :: r => open_calls b r
  | c :: r => if ro then open_calls ro r else c :: open_calls ro r
  end.
Definition rh_run_set (c : rhcall) : option Z := match c with R_setRunNumber v => Some v | _ => None end.
Definition rh_det_set (c : rhcall) : option bytes := match c with R_setDetectorName v => Some v | _ => None end.
Definition rh_desc_set (c : rhcall) : option bytes := match c with R_setDescription v => Some v | _ => None end.
Definition rh_sub_added (c : rhcall) : list bytes := match c with R_addActiveSubdetector v => [v] | _ => [] end.
Definition rh_par_change (c : rhcall) : list par_call := match c with R_parameters p => [p] | _ => [] end.
Definition or_else {V} (o : option V) (d : V) : V := match o with Some v => v | None => d end.
