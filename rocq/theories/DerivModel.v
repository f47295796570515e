(** * Getters that follow references or search: the endpoint and end vertex of particles, the closest track state;
      ParticleIDImpl and TrackStateImpl *)
From Coq Require Import ZArith List Bool.
From Verif Require Import Bytes Ieee SioModel ObjModel ImplModel.
Import ListNotations.
Open Scope Z_scope.

(** the loop over the daughters, src/cpp/src/IMPL/MCParticleImpl.cc:145-149; bit 28 of the status: vertexIsNotEndpointOfParent,
    src/cpp/include/IMPL/MCParticleImpl.h:26-39 *)
Fixpoint end_by_daughters (h : addr -> option obj) (own : list Z) (ds : list addr) : Res (list Z) :=
  match ds with
  | [] => Ok own
  | d :: r => match h d with
              | Some (OMC m) => if Z.testbit (mc_sim m) 28 then end_by_daughters h own r else Ok (mc_vertex m)
              | _ => UB UBNullDeref
              end
  end.
(** MCParticleImpl::getEndpoint, src/cpp/src/IMPL/MCParticleImpl.cc:139-157; bit 31: BITEndpoint *)
Definition get_endpoint (h : addr -> option obj) (m : mcp) : Res (list Z) :=
  if Z.testbit (mc_sim m) 31 then Ok (mc_endpoint m)
  else match mc_daughters m with [] => Ok (mc_endpoint m) | _ => end_by_daughters h (mc_endpoint m) (mc_daughters m) end.
(** ReconstructedParticleImpl::getEndVertex, src/cpp/src/IMPL/ReconstructedParticleImpl.cc:72-77; 0 is NULL *)
Definition get_end_vertex (h : addr -> option obj) (o : recp) : Res addr :=
  match rp_parts o with
  | [] => Ok 0
  | p :: _ => match h p with Some (ORP q) => Ok (rp_sv q) | _ => UB UBNullDeref end
  end.

(** the loop of TrackImpl::getClosestTrackState, src/cpp/src/IMPL/TrackImpl.cc:140-147; [dist] is the square of the distance to the
    reference point, as it is rounded, [i] the index of the next state, [best] and [d] those of the closest so far *)
Fixpoint closest_of (dist : tstate -> Z) (best : nat) (d : Z) (i : nat) (l : list tstate) : nat :=
  match l with
  | [] => best
  | t :: r => if f_gt d (dist t) then closest_of dist i (dist t) (S i) r else closest_of dist best d (S i) r
  end.
(** getClosestTrackState, TrackImpl.cc:134-149: the index of the state it returns *)
Definition get_closest (dist : tstate -> Z) (l : list tstate) : Res nat :=
  match l with [] => UB UBOutOfBounds | t :: r => Ok (closest_of dist 0 (dist t) 1 r) end.

(** ParticleIDImpl: setType, setPDG, setLikelihood, setAlgorithmType, addParameter, src/cpp/src/IMPL/ParticleIDImpl.cc:35-57 *)
Inductive pid_call := PID_setType (v : Z) | PID_setPDG (v : Z) | PID_setLikelihood (v : Z) | PID_setAlgorithmType (v : Z) | PID_addParameter (v : Z).
(** ParticleIDImpl.cc:35-57 *)
Definition pid_do (ro : bool) (o : pid) (c : pid_call) : pid * Res unit :=
  match c with
  | PID_setType v => guarded ro o (Ok (mkPID (pi_like o) v (pi_pdg o) (pi_alg o) (pi_par o)))
  | PID_setPDG v => guarded ro o (Ok (mkPID (pi_like o) (pi_type o) v (pi_alg o) (pi_par o)))
  | PID_setLikelihood v => guarded ro o (Ok (mkPID v (pi_type o) (pi_pdg o) (pi_alg o) (pi_par o)))
  | PID_setAlgorithmType v => guarded ro o (Ok (mkPID (pi_like o) (pi_type o) (pi_pdg o) v (pi_par o)))
  | PID_addParameter v => guarded ro o (Ok (mkPID (pi_like o) (pi_type o) (pi_pdg o) (pi_alg o) (pi_par o ++ [v])))
  end.
(** ParticleIDImpl.cc:5-10 *)
Definition new_pid : pid := mkPID 0 0 0 0 [].

(** TrackStateImpl: the setters, src/cpp/src/IMPL/TrackStateImpl.cc:97-147 *)
Inductive ts_call :=
| TS_setLocation (v : Z) | TS_setD0 (v : Z) | TS_setPhi (v : Z) | TS_setOmega (v : Z) | TS_setZ0 (v : Z) | TS_setTanLambda (v : Z)
| TS_setCovMatrix (v : list Z) | TS_setReferencePoint (v : list Z).
(** TrackStateImpl.cc:97-147; setCovMatrix writes 15 elements *)
Definition ts_do (ro : bool) (o : tstate) (c : ts_call) : tstate * Res unit :=
  match c with
  | TS_setLocation v => guarded ro o (Ok (mkTS v (ts_d0 o) (ts_phi o) (ts_omega o) (ts_z0 o) (ts_tanl o) (ts_cov o) (ts_ref o)))
  | TS_setD0 v => guarded ro o (Ok (mkTS (ts_loc o) v (ts_phi o) (ts_omega o) (ts_z0 o) (ts_tanl o) (ts_cov o) (ts_ref o)))
  | TS_setPhi v => guarded ro o (Ok (mkTS (ts_loc o) (ts_d0 o) v (ts_omega o) (ts_z0 o) (ts_tanl o) (ts_cov o) (ts_ref o)))
  | TS_setOmega v => guarded ro o (Ok (mkTS (ts_loc o) (ts_d0 o) (ts_phi o) v (ts_z0 o) (ts_tanl o) (ts_cov o) (ts_ref o)))
  | TS_setZ0 v => guarded ro o (Ok (mkTS (ts_loc o) (ts_d0 o) (ts_phi o) (ts_omega o) v (ts_tanl o) (ts_cov o) (ts_ref o)))
  | TS_setTanLambda v => guarded ro o (Ok (mkTS (ts_loc o) (ts_d0 o) (ts_phi o) (ts_omega o) (ts_z0 o) v (ts_cov o) (ts_ref o)))
  | TS_setCovMatrix v => guarded ro o (do a <- arr 15 v; if (length (ts_cov o) <? 15)%nat then UB UBOutOfBounds else
      Ok (mkTS (ts_loc o) (ts_d0 o) (ts_phi o) (ts_omega o) (ts_z0 o) (ts_tanl o) (a ++ skipn 15 (ts_cov o)) (ts_ref o)))
  | TS_setReferencePoint v => guarded ro o (do a <- arr 3 v; Ok (mkTS (ts_loc o) (ts_d0 o) (ts_phi o) (ts_omega o) (ts_z0 o) (ts_tanl o) (ts_cov o) a))
  end.
(** calls one after the other, each with the read only mark of the object at that time *)
Definition pid_run (o : pid) (cs : list (bool * pid_call)) : pid := fold_left (fun x c => fst (pid_do (fst c) x (snd c))) cs o.
(** likewise *)
Definition ts_run (o : tstate) (cs : list (bool * ts_call)) : tstate := fold_left (fun x c => fst (ts_do (fst c) x (snd c))) cs o.
