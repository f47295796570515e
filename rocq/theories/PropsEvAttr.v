(** * Attributes of events and run headers: properties *)
From Verif Require Import Bytes StrMap Ieee SioModel ObjModel EventModel ImplModel ImplSpec ImplProofs EvAttrModel EvAttrSpec EvAttrProofs.

(** ** C72 *)

(** C72: after any program on a new event, its collections and their objects, the run number, event number,
    time stamp and detector name are those of the last setter that did not throw, the parameters are what the
    changes made of them, and the weight is the parameter "_weight", or 1 if that is absent or zero *)
Theorem C72_event : forall fadd srt w cs, w_ev w = new_estate ->
  let e := w_ev (run fadd srt w cs) in let h := outcomes fadd srt w cs in
  es_run e = last_good run_set 0 h /\ es_num e = last_good num_set 0 h /\ es_time e = last_good time_set 0 h /\
  es_det e = last_good det_set (str "unknown") h /\
  (forall k, getters_give 0 (p_int (es_par e)) k (last_of (ints_set k) (par_changes h)) /\
             getters_give 0 (p_flt (es_par e)) k (last_of (floats_set k) (par_changes h)) /\
             getters_give [] (p_str (es_par e)) k (last_of (strings_set k) (par_changes h))) /\
  ev_weight e = weight_of (last_of (floats_set (str "_weight")) (par_changes h)).
Proof. exact event_values. Qed.
Print Assumptions C72_event.

(** C72: the setters throw ReadOnlyException and change nothing when the last access mode set is READ_ONLY, and
    succeed otherwise *)
Theorem C72_event_setters : forall fadd srt w cs c, w_ev w = new_estate -> event_setter c ->
  let w1 := run fadd srt w cs in
  if locked (outcomes fadd srt w cs) then exec fadd srt w1 (WEv c) = (w1, Throw LReadOnly) else snd (exec fadd srt w1 (WEv c)) = Ok tt.
Proof. exact event_setters. Qed.
Print Assumptions C72_event_setters.

Definition blank_world : world := mkW new_estate (fun _ => None) (fun _ => None).
Definition as_is (A : Type) (f : A -> Z) (l : list A) : list A := l.
Definition some_program : list wcall :=
  [WEv (V_setRunNumber 4711); WEv (V_setEventNumber 7); WEv (V_setDetectorName (str "ILD")); WEv (V_setWeight 0x40000000);
   WEv (V_setAccessMode 0); WEv (V_setRunNumber 4712); WEv (V_setWeight 0x3F000000); WEv (V_setAccessMode 1); WEv (V_setTimeStamp 99);
   WEv (V_setEventNumber 8)].
Example C72_event_case :
  let e := w_ev (run Z.add as_is blank_world some_program) in let h := outcomes Z.add as_is blank_world some_program in
  w_ev blank_world = new_estate /\ map snd h = [Ok tt; Ok tt; Ok tt; Ok tt; Ok tt; Throw LReadOnly; Throw LReadOnly; Ok tt; Ok tt; Ok tt] /\
  (es_run e, es_num e, es_time e, es_det e) = (4711, 8, 99, str "ILD") /\ ev_weight e = Ok 0x40000000 /\ locked h = false /\
  locked (outcomes Z.add as_is blank_world (firstn 6 some_program)) = true.
Proof. split; [reflexivity|]. split; [vm_compute; reflexivity|]. split; [vm_compute; reflexivity|]. split; [vm_compute; reflexivity|]. split; vm_compute; reflexivity. Qed.

(** C72: a weight that is a [float], not zero and not NaN, comes back as it was set *)
Theorem C72_weight : forall fadd srt w cs v, w_ev w = new_estate -> locked (outcomes fadd srt w cs) = false ->
  is_u32 v -> f_nan v = false -> v <> 0 -> v <> 0x80000000 ->
  get_weight (w_ev (run fadd srt w (cs ++ [set_weight (f2d v)]))) = Ok (f2d v).
Proof. exact weight_back. Qed.
Print Assumptions C72_weight.

Example C72_weight_case : is_u32 0x3F000000 /\ f_nan 0x3F000000 = false /\ f2d 0x3F000000 = 0x3FE0000000000000 /\
  get_weight (w_ev (run Z.add as_is blank_world (some_program ++ [set_weight 0x3FE0000000000000]))) = Ok 0x3FE0000000000000.
Proof. split; [unfold is_u32, two32; lia|]. split; [reflexivity|]. split; vm_compute; reflexivity. Qed.

(** C72: "getWeight returns the weight set last" is false: 0 becomes 1, and 0.1 is rounded to a float *)
Theorem C72_weight_refuted : exists fadd srt w z t,
  w_ev w = new_estate /\ z = 0 /\ t = 0x3FB999999999999A /\
  get_weight (w_ev (run fadd srt w [set_weight z])) = Ok 0x3FF0000000000000 /\
  get_weight (w_ev (run fadd srt w [set_weight t])) = Ok 0x3FB99999A0000000.
Proof. exists Z.add, as_is, blank_world, 0, 0x3FB999999999999A. split; [reflexivity|]. split; [reflexivity|]. split; [reflexivity|]. split; vm_compute; reflexivity. Qed.
Print Assumptions C72_weight_refuted.

(** C72: "the weight of a read only event does not change" is false: parameters() gives access to it *)
Theorem C72_locked_weight_refuted : exists fadd srt w cs c, w_ev w = new_estate /\ locked (outcomes fadd srt w cs) = true /\
  ev_weight (w_ev (run fadd srt w cs)) = Ok 0x3F800000 /\ snd (exec fadd srt (run fadd srt w cs) c) = Ok tt /\
  ev_weight (w_ev (run fadd srt w (cs ++ [c]))) = Ok 0x40000000.
Proof.
  exists Z.add, as_is, blank_world, [WEv (V_setAccessMode 0)], (WEv (V_parameters (P_setFloat (str "_weight") 0x40000000))).
  split; [reflexivity|]. split; [vm_compute; reflexivity|]. split; [vm_compute; reflexivity|]. split; vm_compute; reflexivity.
Qed.
Print Assumptions C72_locked_weight_refuted.

(** C72: a run header gives the run number, detector name and description set last while it was not read only;
    all subdetectors added, in order, and all changes of its parameters, even those made when it was read only *)
Theorem C72_run_header : forall cs,
  let s := rh_run_all new_rstate cs in let op := open_calls false cs in
  rh_run (rs_hdr s) = or_else (last_of rh_run_set op) 0 /\ rh_det (rs_hdr s) = or_else (last_of rh_det_set op) [] /\
  rh_desc (rs_hdr s) = or_else (last_of rh_desc_set op) [] /\ rh_subs (rs_hdr s) = flat_map rh_sub_added cs /\
  forall k, getters_give 0 (p_int (rh_par (rs_hdr s))) k (last_of (ints_set k) (flat_map rh_par_change cs)) /\
            getters_give 0 (p_flt (rh_par (rs_hdr s))) k (last_of (floats_set k) (flat_map rh_par_change cs)) /\
            getters_give [] (p_str (rh_par (rs_hdr s))) k (last_of (strings_set k) (flat_map rh_par_change cs)).
Proof. exact run_header. Qed.
Print Assumptions C72_run_header.

Example C72_run_header_case :
  let s := rh_run_all new_rstate [R_setRunNumber 3; R_addActiveSubdetector (str "TPC"); R_setReadOnly true; R_setRunNumber 4; R_setDescription (str "x");
                                  R_addActiveSubdetector (str "VXD"); R_setReadOnly false; R_setDetectorName (str "ILD")] in
  rs_hdr s = mkRun 3 (str "ILD") [] [str "TPC"; str "VXD"] no_params.
Proof. vm_compute. reflexivity. Qed.
