(** * Endpoints, end vertices, closest track states: what the interface says *)
From Coq Require Import ZArith List Bool.
From Verif Require Import Bytes Ieee SioModel ObjModel ImplModel DerivModel.
Import ListNotations.
Open Scope Z_scope.

Definition endpoint_set (m : mcp) : Prop := Z.testbit (mc_sim m) 31 = true.
(** the vertex of the particle is the endpoint of its parents *)
Definition at_endpoint (m : mcp) : Prop := Z.testbit (mc_sim m) 28 = false.
(** EVENT/MCParticle.h:154-160: [own] if set explicitly, else the vertex of the first daughter at the endpoint, else [own] *)
Inductive endpoint_is (h : addr -> option obj) (m : mcp) : list Z -> Prop :=
| EP_own : endpoint_set m -> endpoint_is h m (mc_endpoint m)
| EP_first : forall l1 d l2 md, ~ endpoint_set m -> mc_daughters m = l1 ++ d :: l2 ->
    (forall x, In x l1 -> exists mx, h x = Some (OMC mx) /\ ~ at_endpoint mx) ->
    h d = Some (OMC md) -> at_endpoint md -> endpoint_is h m (mc_vertex md)
| EP_none : ~ endpoint_set m -> (forall x, In x (mc_daughters m) -> exists mx, h x = Some (OMC mx) /\ ~ at_endpoint mx) ->
    endpoint_is h m (mc_endpoint m).

(** index [i] is the first of the states with the smallest distance *)
Definition first_closest (dist : tstate -> Z) (l : list tstate) (i : nat) : Prop :=
  exists t, nth_error l i = Some t /\
    (forall s, In s l -> f_val (dist t) <= f_val (dist s)) /\
    (forall j s, (j < i)%nat -> nth_error l j = Some s -> f_val (dist t) < f_val (dist s)).

(** the last value of a setter among the accepted calls *)
Fixpoint last_val {C V} (arg : C -> option V) (init : V) (cs : list (bool * C)) : V :=
  match cs with
  | [] => init
  | (ro, c) :: r => last_val arg (if ro then init else match arg c with Some v => v | None => init end) r
  end.
Definition pid_type c := match c with PID_setType v => Some v | _ => None end.
Definition pid_pdg c := match c with PID_setPDG v => Some v | _ => None end.
Definition pid_like c := match c with PID_setLikelihood v => Some v | _ => None end.
Definition pid_alg c := match c with PID_setAlgorithmType v => Some v | _ => None end.
Definition pid_added (cs : list (bool * pid_call)) : list Z :=
  flat_map (fun rc => match rc with (false, PID_addParameter v) => [v] | _ => [] end) cs.
Definition ts_loc_of c := match c with TS_setLocation v => Some v | _ => None end.
Definition ts_d0_of c := match c with TS_setD0 v => Some v | _ => None end.
Definition ts_phi_of c := match c with TS_setPhi v => Some v | _ => None end.
Definition ts_omega_of c := match c with TS_setOmega v => Some v | _ => None end.
Definition ts_z0_of c := match c with TS_setZ0 v => Some v | _ => None end.
Definition ts_tanl_of c := match c with TS_setTanLambda v => Some v | _ => None end.
(** arrays shorter than 15 or 3 elements are outside of the interface *)
Definition ts_arg_ok (rc : bool * ts_call) : Prop :=
  match snd rc with TS_setCovMatrix v => (15 <= length v)%nat | TS_setReferencePoint v => (3 <= length v)%nat | _ => True end.
Definition ts_cov_of c := match c with TS_setCovMatrix v => Some (firstn 15 v) | _ => None end.
Definition ts_ref_of c := match c with TS_setReferencePoint v => Some (firstn 3 v) | _ => None end.
(** every call but setSimulatorStatus *)
Definition no_status (rc : bool * ecall) : Prop := match snd rc with EMC (MC_setSimulatorStatus _) => False | _ => True end.
