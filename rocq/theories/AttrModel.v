(** * The attributes of the IMPL classes: what the constructors and the getters give

    The setters are in ImplModel.  Pointers are addresses, floating point values their bit patterns. *)
From Coq Require Import ZArith List Bool Lia.
From Verif Require Import Bytes SioModel ObjModel FlagModel ImplModel.
Import ListNotations.
Open Scope Z_scope.

(** what a getter returns, the return types of the functions in src/cpp/include/IMPL/ *)
Inductive aval :=
| VNum (z : Z) | VBool (b : bool) | VText (s : bytes) | VList (l : list Z) | VTexts (l : list bytes)
| VConts (l : list mccont) | VStates (l : list tstate) | VPids (l : list pid) | VAPids (l : list (addr * pid)).

(** the getters, AEnergy for getEnergy and so on, src/cpp/include/pre-generated/EVENT/; AHits: getTrackerHits and
    getCalorimeterHits, APrimary: isPrimary, AFixedSize: isFixedSize, AValues: the elements of a vector *)
Inductive attr :=
| ACellID0 | ACellID1 | AEnergy | AEnergyError | ATime | APosition | AType | ARawHit | AAmplitude | ATimeStamp
| AContributions | ACellID | AdEdx | AEDep | AMCParticle | AMomentum | APathLength | AQuality | ACharge
| AWords | AADCValues | AChargeValues | ACovMatrix | ATrackerData | AEDepError | ARawHits | AU | AV | AdU
| AdV | ACenter | AdRPhi | AdZ | AD0 | APhi | AOmega | AZ0 | ATanLambda | AReferencePoint | AChi2 | ANdf
| AdEdxError | ARadius | AHitNumbers | AHits | ATracks | AStates | APositionError | AITheta | AIPhi | ADirectionError
| AShape | AParticleIDs | AClusters | AHitContributions | ASubdetectorEnergies | APrimary | AAlgorithmType
| AProbability | AParameters | AAssociatedParticle | AMass | AParticleIDUsed | AGoodnessOfPID | AParticles
| AStartVertex | AParents | ADaughters | APDG | AGeneratorStatus | ASimulatorStatus | AVertex | AMomentumAtEndpoint
| AEndpoint | ASpin | AColorFlow | AFrom | ATo | AWeight | AInts | AFloats | ADoubles | AFixedSize | ATypeName
| ADataDescription | AValues.

(** the first track state, or the value for none: src/cpp/src/IMPL/TrackImpl.cc:89-101 *)
Definition first_state {A} (f : tstate -> A) (d : A) (o : track) : A := match tr_states o with [] => d | t :: _ => f t end.

(** the getters of CalorimeterHitImpl, CalorimeterHitImpl.cc:22-51 *)
Definition ch_get (o : calhit) (a : attr) : option aval :=
  match a with
  | ACellID0 => Some (VNum (ch_id0 o))
  | ACellID1 => Some (VNum (ch_id1 o))
  | AEnergy => Some (VNum (ch_energy o))
  | AEnergyError => Some (VNum (ch_err o))
  | ATime => Some (VNum (ch_time o))
  | APosition => Some (VList (ch_pos o))
  | AType => Some (VNum (ch_type o))
  | ARawHit => Some (VNum (ch_raw o))
  | _ => None
  end.
(** the getters of RawCalorimeterHitImpl, RawCalorimeterHitImpl.cc:16-30 *)
Definition rch_get (o : rawcalhit) (a : attr) : option aval :=
  match a with
  | ACellID0 => Some (VNum (rc_id0 o))
  | ACellID1 => Some (VNum (rc_id1 o))
  | AAmplitude => Some (VNum (rc_ampl o))
  | ATimeStamp => Some (VNum (rc_time o))
  | _ => None
  end.
(** the getters of SimCalorimeterHitImpl, SimCalorimeterHitImpl.cc:63-77; AContributions stands for the functions with an index, 79-119, see below *)
Definition sch_get (o : simcalhit) (a : attr) : option aval :=
  match a with
  | ACellID0 => Some (VNum (sc_id0 o))
  | ACellID1 => Some (VNum (sc_id1 o))
  | AEnergy => Some (VNum (sc_energy o))
  | APosition => Some (VList (sc_pos o))
  | AContributions => Some (VConts (sc_cont o))
  | _ => None
  end.
(** the getters of SimTrackerHitImpl, SimTrackerHitImpl.cc:40-62, SimTrackerHitImpl.h:92 *)
Definition sth_get (o : simtrkhit) (a : attr) : option aval :=
  match a with
  | ACellID => Some (VNum (st_id0 o))
  | ACellID0 => Some (VNum (st_id0 o))
  | ACellID1 => Some (VNum (st_id1 o))
  | APosition => Some (VList (st_pos o))
  | AdEdx => Some (VNum (st_edep o))
  | AEDep => Some (VNum (st_edep o))
  | ATime => Some (VNum (st_time o))
  | AMCParticle => Some (VNum (st_part o))
  | AMomentum => Some (VList (st_p o))
  | APathLength => Some (VNum (st_path o))
  | AQuality => Some (VNum (st_quality o))
  | _ => None
  end.
(** the getters of TPCHitImpl, TPCHitImpl.cc:23-29; AWords stands for 31-39, see below *)
Definition tpc_get (o : tpchit) (a : attr) : option aval :=
  match a with
  | ACellID => Some (VNum (tp_id o))
  | ATime => Some (VNum (tp_time o))
  | ACharge => Some (VNum (tp_charge o))
  | AQuality => Some (VNum (tp_quality o))
  | AWords => Some (VList (tp_raw o))
  | _ => None
  end.
(** the getters of TrackerRawDataImpl, TrackerRawDataImpl.h:30-44 *)
Definition trd_get (o : trkraw) (a : attr) : option aval :=
  match a with
  | ACellID0 => Some (VNum (td_id0 o))
  | ACellID1 => Some (VNum (td_id1 o))
  | ATime => Some (VNum (td_time o))
  | AADCValues => Some (VList (td_adc o))
  | _ => None
  end.
(** the getters of TrackerDataImpl, TrackerDataImpl.h:30-43 *)
Definition td_get (o : trkdata) (a : attr) : option aval :=
  match a with
  | ACellID0 => Some (VNum (tc_id0 o))
  | ACellID1 => Some (VNum (tc_id1 o))
  | ATime => Some (VNum (tc_time o))
  | AChargeValues => Some (VList (tc_charge o))
  | _ => None
  end.
(** the getters of TrackerPulseImpl, TrackerPulseImpl.h:39-75 *)
Definition tpu_get (o : trkpulse) (a : attr) : option aval :=
  match a with
  | ACellID0 => Some (VNum (pu_id0 o))
  | ACellID1 => Some (VNum (pu_id1 o))
  | ATime => Some (VNum (pu_time o))
  | ACharge => Some (VNum (pu_charge o))
  | ACovMatrix => Some (VList (pu_cov o))
  | AQuality => Some (VNum (pu_quality o))
  | ATrackerData => Some (VNum (pu_corr o))
  | _ => None
  end.
(** the getters of TrackerHitImpl, TrackerHitImpl.cc:32-76, TrackerHitImpl.h:59-83 *)
Definition th_get (o : trkhit) (a : attr) : option aval :=
  match a with
  | ACellID0 => Some (VNum (th_id0 o))
  | ACellID1 => Some (VNum (th_id1 o))
  | AType => Some (VNum (th_type o))
  | APosition => Some (VList (th_pos o))
  | ACovMatrix => Some (VList (th_cov o))
  | AdEdx => Some (VNum (th_edep o))
  | AEDep => Some (VNum (th_edep o))
  | AEDepError => Some (VNum (th_edeperr o))
  | ATime => Some (VNum (th_time o))
  | AQuality => Some (VNum (th_quality o))
  | ARawHits => Some (VList (th_raw o))
  | _ => None
  end.
(** the getters of TrackerHitPlaneImpl, TrackerHitPlaneImpl.h:36-102, TrackerHitPlaneImpl.cc:26-35; the covariance matrix is a member that is only
    ever initialised (TrackerHitPlaneImpl.h:150, TrackerHitPlaneImpl.cc:18) *)
Definition thp_get (o : trkhitp) (a : attr) : option aval :=
  match a with
  | ACellID0 => Some (VNum (hp_id0 o))
  | ACellID1 => Some (VNum (hp_id1 o))
  | AType => Some (VNum (hp_type o))
  | APosition => Some (VList (hp_pos o))
  | AU => Some (VList (hp_u o))
  | AV => Some (VList (hp_v o))
  | AdU => Some (VNum (hp_du o))
  | AdV => Some (VNum (hp_dv o))
  | ACovMatrix => Some (VList (repeat 0 6))
  | AdEdx => Some (VNum (hp_edep o))
  | AEDep => Some (VNum (hp_edep o))
  | AEDepError => Some (VNum (hp_edeperr o))
  | ATime => Some (VNum (hp_time o))
  | AQuality => Some (VNum (hp_quality o))
  | ARawHits => Some (VList (hp_raw o))
  | _ => None
  end.
(** the getters of TrackerHitZCylinderImpl, TrackerHitZCylinderImpl.h:35-99, TrackerHitZCylinderImpl.cc:26-36; the covariance matrix as in TrackerHitPlaneImpl *)
Definition thz_get (o : trkhitz) (a : attr) : option aval :=
  match a with
  | ACellID0 => Some (VNum (hz_id0 o))
  | ACellID1 => Some (VNum (hz_id1 o))
  | AType => Some (VNum (hz_type o))
  | APosition => Some (VList (hz_pos o))
  | ACenter => Some (VList (hz_center o))
  | AdRPhi => Some (VNum (hz_drphi o))
  | AdZ => Some (VNum (hz_dz o))
  | ACovMatrix => Some (VList (repeat 0 6))
  | AdEdx => Some (VNum (hz_edep o))
  | AEDep => Some (VNum (hz_edep o))
  | AEDepError => Some (VNum (hz_edeperr o))
  | ATime => Some (VNum (hz_time o))
  | AQuality => Some (VNum (hz_quality o))
  | ARawHits => Some (VList (hz_raw o))
  | _ => None
  end.
(** the getters of TrackImpl, TrackImpl.cc:75, 89-132; without states the values are 0 and those of a new TrackStateImpl *)
Definition trk_get (o : track) (a : attr) : option aval :=
  match a with
  | AType => Some (VNum (tr_type o))
  | AD0 => Some (VNum (first_state ts_d0 0 o))
  | APhi => Some (VNum (first_state ts_phi 0 o))
  | AOmega => Some (VNum (first_state ts_omega 0 o))
  | AZ0 => Some (VNum (first_state ts_z0 0 o))
  | ATanLambda => Some (VNum (first_state ts_tanl 0 o))
  | ACovMatrix => Some (VList (first_state ts_cov (ts_cov new_tstate) o))
  | AReferencePoint => Some (VList (first_state ts_ref (ts_ref new_tstate) o))
  | AChi2 => Some (VNum (tr_chi2 o))
  | ANdf => Some (VNum (tr_ndf o))
  | AdEdx => Some (VNum (tr_dedx o))
  | AdEdxError => Some (VNum (tr_dedxerr o))
  | ARadius => Some (VNum (tr_radius o))
  | AHitNumbers => Some (VList (tr_hitnums o))
  | AHits => Some (VList (tr_hits o))
  | ATracks => Some (VList (tr_tracks o))
  | AStates => Some (VStates (tr_states o))
  | _ => None
  end.
(** the getters of ClusterImpl, ClusterImpl.cc:23-52 *)
Definition cl_get (o : cluster) (a : attr) : option aval :=
  match a with
  | AType => Some (VNum (cl_type o))
  | AEnergy => Some (VNum (cl_energy o))
  | AEnergyError => Some (VNum (cl_energyerr o))
  | APosition => Some (VList (cl_pos o))
  | APositionError => Some (VList (cl_errpos o))
  | AITheta => Some (VNum (cl_theta o))
  | AIPhi => Some (VNum (cl_phi o))
  | ADirectionError => Some (VList (cl_errdir o))
  | AShape => Some (VList (cl_shape o))
  | AParticleIDs => Some (VPids (cl_pids o))
  | AClusters => Some (VList (cl_clusters o))
  | AHits => Some (VList (cl_hits o))
  | AHitContributions => Some (VList (cl_weights o))
  | ASubdetectorEnergies => Some (VList (cl_energies o))
  | _ => None
  end.
(** the getters of VertexImpl, VertexImpl.cc:20-28 *)
Definition vx_get (o : vertex) (a : attr) : option aval :=
  match a with
  | APrimary => Some (VBool (negb (vx_primary o =? 0)))
  | AAlgorithmType => Some (VText (vx_type o))
  | AChi2 => Some (VNum (vx_chi2 o))
  | AProbability => Some (VNum (vx_prob o))
  | APosition => Some (VList (vx_pos o))
  | ACovMatrix => Some (VList (vx_cov o))
  | AParameters => Some (VList (vx_par o))
  | AAssociatedParticle => Some (VNum (vx_part o))
  | _ => None
  end.
(** the getters of ReconstructedParticleImpl, ReconstructedParticleImpl.cc:38-68 *)
Definition rp_get (o : recp) (a : attr) : option aval :=
  match a with
  | AType => Some (VNum (rp_type o))
  | AMomentum => Some (VList (rp_p o))
  | AEnergy => Some (VNum (rp_energy o))
  | ACovMatrix => Some (VList (rp_cov o))
  | AMass => Some (VNum (rp_mass o))
  | ACharge => Some (VNum (rp_charge o))
  | AReferencePoint => Some (VList (rp_ref o))
  | AParticleIDs => Some (VAPids (rp_pids o))
  | AParticleIDUsed => Some (VNum (rp_used o))
  | AGoodnessOfPID => Some (VNum (rp_good o))
  | AParticles => Some (VList (rp_parts o))
  | AClusters => Some (VList (rp_clusters o))
  | ATracks => Some (VList (rp_tracks o))
  | AStartVertex => Some (VNum (rp_sv o))
  | _ => None
  end.
(** the getters of MCParticleImpl, MCParticleImpl.cc:67-73, 163-198; AEndpoint is getEndpoint, 139-157, of a particle whose endpoint was set or that
    has no daughters (for the others see DerivModel) *)
Definition mc_get (o : mcp) (a : attr) : option aval :=
  match a with
  | AParents => Some (VList (mc_parents o))
  | ADaughters => Some (VList (mc_daughters o))
  | APDG => Some (VNum (mc_pdg o))
  | AGeneratorStatus => Some (VNum (mc_gen o))
  | ASimulatorStatus => Some (VNum (mc_sim o))
  | AVertex => Some (VList (mc_vertex o))
  | ATime => Some (VNum (mc_time o))
  | AMomentum => Some (VList (mc_p o))
  | AMomentumAtEndpoint => Some (VList (mc_pend o))
  | AMass => Some (VNum (mc_mass o))
  | ACharge => Some (VNum (mc_charge o))
  | AEndpoint => Some (VList (mc_endpoint o))
  | ASpin => Some (VList (mc_spin o))
  | AColorFlow => Some (VList (mc_color o))
  | _ => None
  end.
(** the getters of LCRelationImpl, LCRelationImpl.h:39-41 *)
Definition rel_get (o : lcrel) (a : attr) : option aval :=
  match a with
  | AFrom => Some (VNum (re_from o))
  | ATo => Some (VNum (re_to o))
  | AWeight => Some (VNum (re_weight o))
  | _ => None
  end.
(** the getters of LCGenericObjectImpl, LCGenericObjectImpl.cc:27-53, 74-80; the values with an index as lists, see below *)
Definition go_get (o : genobj) (a : attr) : option aval :=
  match a with
  | AInts => Some (VList (go_int o))
  | AFloats => Some (VList (go_flt o))
  | ADoubles => Some (VList (go_dbl o))
  | AFixedSize => Some (VBool (go_fixed o))
  | ATypeName => Some (VText (go_type o))
  | ADataDescription => Some (VText (go_desc o))
  | _ => None
  end.
(** the elements of LCIntVec, LCFloatVec and LCStrVec, src/cpp/include/pre-generated/EVENT/LCIntVec.h:26 *)
Definition vec_get (v : aval) (a : attr) : option aval := match a with AValues => Some v | _ => None end.

(** a getter of an object; [None]: its class has no such function (functions as cited above) *)
Definition obj_get (o : obj) (a : attr) : option aval :=
  match o with
  | OCH x => ch_get x a
  | ORCH x => rch_get x a
  | OSCH x => sch_get x a
  | OSTH x => sth_get x a
  | OTPC x => tpc_get x a
  | OTRD x => trd_get x a
  | OTD x => td_get x a
  | OTPu x => tpu_get x a
  | OTH x => th_get x a
  | OTHP x => thp_get x a
  | OTHZ x => thz_get x a
  | OTRK x => trk_get x a
  | OCL x => cl_get x a
  | OVX x => vx_get x a
  | ORP x => rp_get x a
  | OMC x => mc_get x a
  | OREL x => rel_get x a
  | OGO x => go_get x a
  | OINT l | OFLT l => vec_get (VList l) a
  | OSTR l => vec_get (VTexts l) a
  end.

(** the constructors without arguments: CalorimeterHitImpl.cc:5-17;
    RawCalorimeterHitImpl.cc:5-10;
    SimCalorimeterHitImpl.cc:10-18;
    SimTrackerHitImpl.cc:16-35;
    TPCHitImpl.cc:7-14;
    TrackerRawDataImpl.cc:10-16;
    TrackerDataImpl.cc:10-15;
    TrackerPulseImpl.cc:10-19;
    TrackerHitImpl.cc:8-27;
    TrackerHitPlaneImpl.cc:8-20, TrackerHitPlaneImpl.h:140-142;
    TrackerHitZCylinderImpl.cc:8-20, TrackerHitZCylinderImpl.h:141-142;
    TrackImpl.cc:13-20, TrackImpl.h:198-211;
    ClusterImpl.cc:11-14, ClusterImpl.h:146-159;
    VertexImpl.cc:8-16, VertexImpl.h:97;
    ReconstructedParticleImpl.cc:11-29;
    MCParticleImpl.cc:32-62;
    LCRelationImpl.h:25; 1.0f is 0x3f800000;
    LCGenericObjectImpl.cc:14-17, 8-9 *)
Definition new_obj (t : otype) : obj :=
  match t with
  | TCH => OCH (mkCH 0 0 0 0 0 zeros3 0 0)
  | TRCH => ORCH (mkRCH 0 0 0 0)
  | TSCH => OSCH (mkSCH 0 0 0 zeros3 [])
  | TSTH => OSTH (mkSTH 0 0 zeros3 0 0 0 zeros3 0 0)
  | TTPC => OTPC (mkTPC 0 0 0 0 [])
  | TTRD => OTRD (mkTRD 0 0 0 [])
  | TTD => OTD (mkTD 0 0 0 [])
  | TTPu => OTPu (mkTPu 0 0 0 0 (repeat 0 3) 0 0)
  | TTH => OTH (mkTH 0 0 0 zeros3 (repeat 0 6) 0 0 0 0 [])
  | TTHP => OTHP (mkTHP 0 0 0 zeros3 [0; 0] [0; 0] 0 0 0 0 0 0 [])
  | TTHZ => OTHZ (mkTHZ 0 0 0 zeros3 [0; 0] 0 0 0 0 0 0 [])
  | TTRK => OTRK (mkTRK 0 [] 0 0 0 0 0 [] [] [])
  | TCL => OCL (mkCL 0 0 0 zeros3 (repeat 0 6) 0 0 (repeat 0 3) [] [] [] [] [] [])
  | TVX => OVX (mkVX 0 (str "Unknown") 0 0 zeros3 (repeat 0 6) [] 0)
  | TRP => ORP (mkRP 0 zeros3 0 (repeat 0 10) 0 0 zeros3 [] 0 0 [] [] [] 0)
  | TMC => OMC (mkMC [] 0 0 0 zeros3 0 zeros3 0 0 zeros3 zeros3 zeros3 [0; 0] [])
  | TREL => OREL (mkREL 0 0 1065353216)
  | TGO => OGO (mkGO [] [] [] false (str "LCGenericObject") [])
  | TINT => OINT []
  | TFLT => OFLT []
  | TSTR => OSTR []
  end.

(** ** Functions with an index *)

(** [v[i]] for a std::vector or array with an [int] index: outside of it undefined, e.g. LCGenericObjectImpl.cc:38-48 *)
Definition vat {A} (l : list A) (i : Z) : Res A :=
  if i <? 0 then UB UBOutOfBounds else match nth_error l (Z.to_nat i) with Some x => Ok x | None => UB UBOutOfBounds end.
(** getNRawDataWords and getRawDataWord, src/cpp/src/IMPL/TPCHitImpl.cc:31, 33-39 *)
Definition n_words (o : tpchit) : Z := s32 (Zlen (tp_raw o)).
Definition word (o : tpchit) (i : Z) : Res Z :=
  if (i <? 0) || (n_words o <=? i) then Throw LDataNotAvailable else vat (tp_raw o) i.
(** getNMCContributions, src/cpp/src/IMPL/SimCalorimeterHitImpl.cc:93-95 *)
Definition n_conts (o : simcalhit) : Z := s32 (Zlen (sc_cont o)).
(** getParticleCont, SimCalorimeterHitImpl.cc:97-104: at(), and the exception replaced *)
Definition cont_particle (o : simcalhit) (i : Z) : Res addr :=
  match vat (sc_cont o) i with Ok c => Ok (co_part c) | _ => Throw LException end.
(** getEnergyCont, getTimeCont, getLengthCont, getPDGCont and getStepPosition, SimCalorimeterHitImpl.cc:106-119, 79-81 *)
Definition cont_energy (o : simcalhit) (i : Z) : Res Z := do c <- vat (sc_cont o) i; Ok (co_energy c).
Definition cont_time (o : simcalhit) (i : Z) : Res Z := do c <- vat (sc_cont o) i; Ok (co_time c).
Definition cont_length (o : simcalhit) (i : Z) : Res Z := do c <- vat (sc_cont o) i; Ok (co_length c).
Definition cont_pdg (o : simcalhit) (i : Z) : Res Z := do c <- vat (sc_cont o) i; Ok (co_pdg c).
Definition cont_step (o : simcalhit) (i : Z) : Res (list Z) := do c <- vat (sc_cont o) i; Ok (co_pos c).
(** getNInt, getNFloat and getNDouble; getIntVal, getFloatVal and getDoubleVal, src/cpp/src/IMPL/LCGenericObjectImpl.cc:27-48 *)
Definition n_vals (l : list Z) : Z := s32 (Zlen l).
Definition val_at (l : list Z) (i : Z) : Res Z := vat l i.
(** the copy constructor of SimCalorimeterHitImpl, through the functions of the interface, SimCalorimeterHitImpl.cc:20-50 *)
Fixpoint copy_conts (o : simcalhit) (n : nat) (i : Z) : Res (list mccont) :=
  match n with
  | O => Ok []
  | S k => do p <- cont_particle o i; do e <- cont_energy o i; do t <- cont_time o i; do l <- cont_length o i;
           do g <- cont_pdg o i; do s <- cont_step o i;
           do r <- copy_conts o k (i + 1); Ok (mkCont p e t l g (firstn 3 s) :: r)
  end.
(** SimCalorimeterHitImpl.cc:20-50; reserve() of a negative number throws *)
Definition copy_simcalhit (o : simcalhit) : Res simcalhit :=
  if n_conts o <? 0 then Throw StdLengthError else
  do l <- copy_conts o (Z.to_nat (n_conts o)) 0; Ok (mkSCH (sc_id0 o) (sc_id1 o) (sc_energy o) (firstn 3 (sc_pos o)) l).
(** the copy constructor of TrackImpl, TrackImpl.cc:23-28: assignment to a new track *)
Definition copy_track (o : track) : track := fst (trk_do false (mkTRK 0 [] 0 0 0 0 0 [] [] []) (TRK_assign o)).

(** calls one after the other, each with the read only mark of the object at that time, AccessChecked.cc:18-28 *)
Definition obj_run (fadd : Z -> Z -> Z) (srt : forall A : Type, (A -> Z) -> list A -> list A) (o : obj) (cs : list (bool * ecall)) : obj :=
  fold_left (fun x c => fst (obj_do fadd srt (fst c) x (snd c))) cs o.
