(** * The IMPL classes: modifying calls, access control, parameters and the collections of an event

    Every modifying call gives the object after the call, also when it throws: an exception does not undo
    what was done before.  Floating point values are their bit patterns as in ObjModel; a [double] handed to
    a [float] member is given as converted.  Arrays are lists; reading behind their end is undefined. *)
From Coq Require Import ZArith List Bool Lia.
From Verif Require Import Bytes StrMap SioModel ObjModel FlagModel.
Import ListNotations.
Open Scope Z_scope.

(** ** Access control: src/cpp/src/IMPL/AccessChecked.cc *)

(** the object after a call, and its outcome; a failing update leaves the object as it is,
    shape of the setters that do not call checkAccess, e.g. src/cpp/src/IMPL/LCCollectionVec.cc:68-102 *)
Definition unguarded {A} (o : A) (r : Res A) : A * Res unit :=
  match r with Ok o' => (o', Ok tt) | Throw e => (o, Throw e) | UB u => (o, UB u) end.
(** [checkAccess(..)] as the first statement of a function: AccessChecked.cc:18-28 *)
Definition guarded {A} (ro : bool) (o : A) (r : Res A) : A * Res unit :=
  if ro then (o, Throw LReadOnly) else unguarded o r.
(** arguments that are read before the check: SimTrackerHitImpl.cc:103-106, VertexImpl.cc:57-59 *)
Definition reading {A B} (o : A) (r : Res B) (k : B -> A * Res unit) : A * Res unit :=
  match r with Ok b => k b | Throw e => (o, Throw e) | UB u => (o, UB u) end.
(** the first [n] elements of an array argument, e.g. CalorimeterHitImpl.cc:80-82 *)
Definition arr (n : nat) (l : list Z) : Res (list Z) :=
  if Nat.leb n (length l) then Ok (firstn n l) else UB UBOutOfBounds.

(** ** LCParametersImpl, src/cpp/src/IMPL/LCParametersImpl.cc *)

(** setValue and setValues: LCParametersImpl.cc:142-147, 149-154, 156-161, 166-172, 176-182, 186-192;
    setValue empties the vector of the key and appends the value *)
Inductive par_call :=
| P_setInt (k : bytes) (v : Z) | P_setFloat (k : bytes) (v : Z) | P_setString (k : bytes) (v : bytes)
| P_setInts (k : bytes) (l : list Z) | P_setFloats (k : bytes) (l : list Z) | P_setStrings (k : bytes) (l : list bytes).
(** LCParametersImpl.cc, lines as above *)
Definition par_do (ro : bool) (p : params) (c : par_call) : params * Res unit :=
  match c with
  | P_setInt k v => guarded ro p (Ok (mkP (sm_set k [v] (p_int p)) (p_flt p) (p_str p)))
  | P_setFloat k v => guarded ro p (Ok (mkP (p_int p) (sm_set k [v] (p_flt p)) (p_str p)))
  | P_setString k v => guarded ro p (Ok (mkP (p_int p) (p_flt p) (sm_set k [v] (p_str p))))
  | P_setInts k l => guarded ro p (Ok (mkP (sm_set k l (p_int p)) (p_flt p) (p_str p)))
  | P_setFloats k l => guarded ro p (Ok (mkP (p_int p) (sm_set k l (p_flt p)) (p_str p)))
  | P_setStrings k l => guarded ro p (Ok (mkP (p_int p) (p_flt p) (sm_set k l (p_str p))))
  end.

(** getIntVal, getFloatVal and getStringVal, LCParametersImpl.cc:14-23, 25-34, 36-47: [d] is the value for
    an absent key (0, 0. and the empty string); the first element of an empty vector is undefined *)
Definition par_val {V} (d : V) (m : list (bytes * list V)) (k : bytes) : Res V :=
  match sm_get k m with None => Ok d | Some [] => UB UBOutOfBounds | Some (v :: _) => Ok v end.
(** getIntVals, getFloatVals and getStringVals, LCParametersImpl.cc:49-58, 60-68, 70-78: append to the
    vector of the caller *)
Definition par_vals {V} (m : list (bytes * list V)) (k : bytes) (values : list V) : list V :=
  match sm_get k m with None => values | Some l => values ++ l end.
(** getIntKeys, getFloatKeys and getStringKeys, LCParametersImpl.cc:81-89, 91-99, 101-110 *)
Definition par_keys {V} (m : list (bytes * list V)) (keys : list bytes) : list bytes := keys ++ sm_keys m.
(** getNInt, getNFloat and getNString, LCParametersImpl.cc:112-120, 122-130, 132-140 *)
Definition par_n {V} (m : list (bytes * list V)) (k : bytes) : Z :=
  match sm_get k m with None => 0 | Some l => s32 (Zlen l) end.

(** ** Modifying calls on the elements of collections *)

(** a new TrackStateImpl, src/cpp/src/IMPL/TrackStateImpl.cc:21-34 *)
Definition new_tstate : tstate := mkTS 0 0 0 0 0 0 (repeat 0 15) zeros3.
(** the first lines of the setters of TrackImpl that work on the only track state, TrackImpl.cc:185-193 *)
Definition with_one_state (l : list tstate) (f : tstate -> Res tstate) : Res (list tstate) :=
  match l with
  | [] => do t <- f new_tstate; Ok [t]
  | [t0] => do t <- f t0; Ok [t]
  | _ => Throw LException
  end.
(** std::vector::resize( n ) for numbers *)
Definition resize (l : list Z) (n : Z) : list Z := firstn (Z.to_nat n) l ++ repeat 0 (Z.to_nat n - length l).
(** LCGenericObjectImpl::setIntVal etc., LCGenericObjectImpl.cc:54-70; [index] is an [unsigned], so is
    [index+1] *)
Definition go_put (fixed : bool) (l : list Z) (i v : Z) : Res (list Z) :=
  let l' := if (Zlen l <=? i) && negb fixed then resize l (u32 (i + 1)) else l in
  if i <? Zlen l' then Ok (firstn (Z.to_nat i) l' ++ v :: skipn (S (Z.to_nat i)) l') else UB UBOutOfBounds.

Section Calls.
(** the addition of two [float]s *)
Context (fadd : Z -> Z -> Z).
(** std::sort with PIDSort, as in ObjModel *)
Context (srt : forall A : Type, (A -> Z) -> list A -> list A).

(** the loop of the short form of SimCalorimeterHitImpl::addMCParticleContribution,
    SimCalorimeterHitImpl.cc:153-165 *)
Fixpoint add_short (l : list mccont) (p : addr) (en t : Z) : list mccont :=
  match l with
  | [] => [mkCont p en t 0 0 zeros3]
  | c :: l' =>
      if co_part c =? p then mkCont (co_part c) (fadd (co_energy c) en) (co_time c) (co_length c) (co_pdg c) (co_pos c) :: l'
      else c :: add_short l' p en t
  end.

(** *** CalorimeterHitImpl, src/cpp/src/IMPL/CalorimeterHitImpl.cc *)

(** the modifying calls: setCellID0 (53-56), setCellID1 (58-61), setEnergy (63-66), setEnergyError (68-71), setTime (73-76), setPosition (78-83), setType (86-89), setRawHit (91-94) *)
Inductive ch_call :=
| CH_setCellID0 (v : Z)
| CH_setCellID1 (v : Z)
| CH_setEnergy (v : Z)
| CH_setEnergyError (v : Z)
| CH_setTime (v : Z)
| CH_setPosition (v : list Z)
| CH_setType (v : Z)
| CH_setRawHit (v : addr).
(** their effect: CalorimeterHitImpl.cc, lines as above *)
Definition ch_do (ro : bool) (o : calhit) (c : ch_call) : calhit * Res unit :=
  match c with
  | CH_setCellID0 v => guarded ro o (Ok (mkCH v (ch_id1 o) (ch_energy o) (ch_err o) (ch_time o) (ch_pos o) (ch_type o) (ch_raw o)))
  | CH_setCellID1 v => guarded ro o (Ok (mkCH (ch_id0 o) v (ch_energy o) (ch_err o) (ch_time o) (ch_pos o) (ch_type o) (ch_raw o)))
  | CH_setEnergy v => guarded ro o (Ok (mkCH (ch_id0 o) (ch_id1 o) v (ch_err o) (ch_time o) (ch_pos o) (ch_type o) (ch_raw o)))
  | CH_setEnergyError v => guarded ro o (Ok (mkCH (ch_id0 o) (ch_id1 o) (ch_energy o) v (ch_time o) (ch_pos o) (ch_type o) (ch_raw o)))
  | CH_setTime v => guarded ro o (Ok (mkCH (ch_id0 o) (ch_id1 o) (ch_energy o) (ch_err o) v (ch_pos o) (ch_type o) (ch_raw o)))
  | CH_setPosition v => guarded ro o (do a <- arr 3 v; Ok (mkCH (ch_id0 o) (ch_id1 o) (ch_energy o) (ch_err o) (ch_time o) a (ch_type o) (ch_raw o)))
  | CH_setType v => guarded ro o (Ok (mkCH (ch_id0 o) (ch_id1 o) (ch_energy o) (ch_err o) (ch_time o) (ch_pos o) v (ch_raw o)))
  | CH_setRawHit v => guarded ro o (Ok (mkCH (ch_id0 o) (ch_id1 o) (ch_energy o) (ch_err o) (ch_time o) (ch_pos o) (ch_type o) v))
  end.

(** *** RawCalorimeterHitImpl, src/cpp/src/IMPL/RawCalorimeterHitImpl.cc *)

(** the modifying calls: setCellID0 (34-37), setCellID1 (39-42), setAmplitude (44-47), setTimeStamp (49-52) *)
Inductive rch_call :=
| RCH_setCellID0 (v : Z)
| RCH_setCellID1 (v : Z)
| RCH_setAmplitude (v : Z)
| RCH_setTimeStamp (v : Z).
(** their effect: RawCalorimeterHitImpl.cc, lines as above *)
Definition rch_do (ro : bool) (o : rawcalhit) (c : rch_call) : rawcalhit * Res unit :=
  match c with
  | RCH_setCellID0 v => guarded ro o (Ok (mkRCH v (rc_id1 o) (rc_ampl o) (rc_time o)))
  | RCH_setCellID1 v => guarded ro o (Ok (mkRCH (rc_id0 o) v (rc_ampl o) (rc_time o)))
  | RCH_setAmplitude v => guarded ro o (Ok (mkRCH (rc_id0 o) (rc_id1 o) v (rc_time o)))
  | RCH_setTimeStamp v => guarded ro o (Ok (mkRCH (rc_id0 o) (rc_id1 o) (rc_ampl o) v))
  end.

(** *** SimCalorimeterHitImpl, src/cpp/src/IMPL/SimCalorimeterHitImpl.cc *)

(** the modifying calls: setCellID0 (121-124), setCellID1 (126-129), setEnergy (131-134), setPosition (136-141), addShort (144-167), addDetailed (171-189) *)
Inductive sch_call :=
| SCH_setCellID0 (v : Z)
| SCH_setCellID1 (v : Z)
| SCH_setEnergy (v : Z)
| SCH_setPosition (v : list Z)
| SCH_addShort (p : addr) (en : Z) (t : Z)
| SCH_addDetailed (p : addr) (en : Z) (t : Z) (l : Z) (pdg : Z) (step : option (list Z)).
(** their effect: SimCalorimeterHitImpl.cc, lines as above *)
Definition sch_do (ro : bool) (o : simcalhit) (c : sch_call) : simcalhit * Res unit :=
  match c with
  | SCH_setCellID0 v => guarded ro o (Ok (mkSCH v (sc_id1 o) (sc_energy o) (sc_pos o) (sc_cont o)))
  | SCH_setCellID1 v => guarded ro o (Ok (mkSCH (sc_id0 o) v (sc_energy o) (sc_pos o) (sc_cont o)))
  | SCH_setEnergy v => guarded ro o (Ok (mkSCH (sc_id0 o) (sc_id1 o) v (sc_pos o) (sc_cont o)))
  | SCH_setPosition v => guarded ro o (do a <- arr 3 v; Ok (mkSCH (sc_id0 o) (sc_id1 o) (sc_energy o) a (sc_cont o)))
  | SCH_addShort p en t => guarded ro o (Ok (mkSCH (sc_id0 o) (sc_id1 o) (fadd (sc_energy o) en) (sc_pos o) (add_short (sc_cont o) p en t)))
  | SCH_addDetailed p en t l pdg step => guarded ro o (do s <- match step with None => Ok zeros3 | Some x => arr 3 x end; Ok (mkSCH (sc_id0 o) (sc_id1 o) (fadd (sc_energy o) en) (sc_pos o) (sc_cont o ++ [mkCont p en t l pdg s])))
  end.

(** *** SimTrackerHitImpl, src/cpp/src/IMPL/SimTrackerHitImpl.cc *)

(** the modifying calls: setCellID0 (64-67), setCellID1 (69-72), setPosition (74-79), setdEdx (82-86), setEDep (88-91), setTime (93-96), setMCParticle (98-101), setMomentum (103-115), setPathLength (117-120), setQuality (122-125), setQualityBit (127-133), setOverlay (138), setProducedBySecondary (139) *)
Inductive sth_call :=
| STH_setCellID0 (v : Z)
| STH_setCellID1 (v : Z)
| STH_setPosition (v : list Z)
| STH_setdEdx (v : Z)
| STH_setEDep (v : Z)
| STH_setTime (v : Z)
| STH_setMCParticle (v : addr)
| STH_setMomentum (v : list Z)
| STH_setPathLength (v : Z)
| STH_setQuality (v : Z)
| STH_setQualityBit (i : Z) (b : bool)
| STH_setOverlay (b : bool)
| STH_setProducedBySecondary (b : bool).
(** their effect: SimTrackerHitImpl.cc, lines as above *)
Definition sth_do (ro : bool) (o : simtrkhit) (c : sth_call) : simtrkhit * Res unit :=
  match c with
  | STH_setCellID0 v => guarded ro o (Ok (mkSTH v (st_id1 o) (st_pos o) (st_edep o) (st_time o) (st_part o) (st_p o) (st_path o) (st_quality o)))
  | STH_setCellID1 v => guarded ro o (Ok (mkSTH (st_id0 o) v (st_pos o) (st_edep o) (st_time o) (st_part o) (st_p o) (st_path o) (st_quality o)))
  | STH_setPosition v => guarded ro o (do a <- arr 3 v; Ok (mkSTH (st_id0 o) (st_id1 o) a (st_edep o) (st_time o) (st_part o) (st_p o) (st_path o) (st_quality o)))
  | STH_setdEdx v => guarded ro o (Ok (mkSTH (st_id0 o) (st_id1 o) (st_pos o) v (st_time o) (st_part o) (st_p o) (st_path o) (st_quality o)))
  | STH_setEDep v => guarded ro o (Ok (mkSTH (st_id0 o) (st_id1 o) (st_pos o) v (st_time o) (st_part o) (st_p o) (st_path o) (st_quality o)))
  | STH_setTime v => guarded ro o (Ok (mkSTH (st_id0 o) (st_id1 o) (st_pos o) (st_edep o) v (st_part o) (st_p o) (st_path o) (st_quality o)))
  | STH_setMCParticle v => guarded ro o (Ok (mkSTH (st_id0 o) (st_id1 o) (st_pos o) (st_edep o) (st_time o) v (st_p o) (st_path o) (st_quality o)))
  | STH_setMomentum v => reading o (arr 3 v) (fun a => guarded ro o (Ok (mkSTH (st_id0 o) (st_id1 o) (st_pos o) (st_edep o) (st_time o) (st_part o) a (st_path o) (st_quality o))))
  | STH_setPathLength v => guarded ro o (Ok (mkSTH (st_id0 o) (st_id1 o) (st_pos o) (st_edep o) (st_time o) (st_part o) (st_p o) v (st_quality o)))
  | STH_setQuality v => guarded ro o (Ok (mkSTH (st_id0 o) (st_id1 o) (st_pos o) (st_edep o) (st_time o) (st_part o) (st_p o) (st_path o) v))
  | STH_setQualityBit i b => guarded ro o (do q <- set_quality_bit false (st_quality o) i b; Ok (mkSTH (st_id0 o) (st_id1 o) (st_pos o) (st_edep o) (st_time o) (st_part o) (st_p o) (st_path o) q))
  | STH_setOverlay b => guarded ro o (do q <- set_quality_bit false (st_quality o) st_overlay b; Ok (mkSTH (st_id0 o) (st_id1 o) (st_pos o) (st_edep o) (st_time o) (st_part o) (st_p o) (st_path o) q))
  | STH_setProducedBySecondary b => guarded ro o (do q <- set_quality_bit false (st_quality o) st_secondary b; Ok (mkSTH (st_id0 o) (st_id1 o) (st_pos o) (st_edep o) (st_time o) (st_part o) (st_p o) (st_path o) q))
  end.

(** *** TPCHitImpl, src/cpp/src/IMPL/TPCHitImpl.cc *)

(** the modifying calls: setCellID (42-45), setTime (47-50), setCharge (52-55), setQuality (57-60), setRawData (62-71; [size] is the length), initRawArray (73-80; the new elements are uninitialised: any values [v]) *)
Inductive tpc_call :=
| TPC_setCellID (v : Z)
| TPC_setTime (v : Z)
| TPC_setCharge (v : Z)
| TPC_setQuality (v : Z)
| TPC_setRawData (v : list Z)
| TPC_initRawArray (v : list Z).
(** their effect: TPCHitImpl.cc, lines as above *)
Definition tpc_do (ro : bool) (o : tpchit) (c : tpc_call) : tpchit * Res unit :=
  match c with
  | TPC_setCellID v => guarded ro o (Ok (mkTPC v (tp_time o) (tp_charge o) (tp_quality o) (tp_raw o)))
  | TPC_setTime v => guarded ro o (Ok (mkTPC (tp_id o) v (tp_charge o) (tp_quality o) (tp_raw o)))
  | TPC_setCharge v => guarded ro o (Ok (mkTPC (tp_id o) (tp_time o) v (tp_quality o) (tp_raw o)))
  | TPC_setQuality v => guarded ro o (Ok (mkTPC (tp_id o) (tp_time o) (tp_charge o) v (tp_raw o)))
  | TPC_setRawData v => guarded ro o (Ok (mkTPC (tp_id o) (tp_time o) (tp_charge o) (tp_quality o) v))
  | TPC_initRawArray v => unguarded o (Ok (mkTPC (tp_id o) (tp_time o) (tp_charge o) (tp_quality o) v))
  end.

(** *** TrackerRawDataImpl, src/cpp/src/IMPL/TrackerRawDataImpl.cc *)

(** the modifying calls: setCellID0 (22-25), setCellID1 (27-30), setTime (32-36), setADCValues (38-43), adcValues (45-48) *)
Inductive trd_call :=
| TRD_setCellID0 (v : Z)
| TRD_setCellID1 (v : Z)
| TRD_setTime (v : Z)
| TRD_setADCValues (v : list Z)
| TRD_adcValues (v : list Z).
(** their effect: TrackerRawDataImpl.cc, lines as above *)
Definition trd_do (ro : bool) (o : trkraw) (c : trd_call) : trkraw * Res unit :=
  match c with
  | TRD_setCellID0 v => guarded ro o (Ok (mkTRD v (td_id1 o) (td_time o) (td_adc o)))
  | TRD_setCellID1 v => guarded ro o (Ok (mkTRD (td_id0 o) v (td_time o) (td_adc o)))
  | TRD_setTime v => guarded ro o (Ok (mkTRD (td_id0 o) (td_id1 o) v (td_adc o)))
  | TRD_setADCValues v => guarded ro o (Ok (mkTRD (td_id0 o) (td_id1 o) (td_time o) v))
  | TRD_adcValues v => guarded ro o (Ok (mkTRD (td_id0 o) (td_id1 o) (td_time o) v))
  end.

(** *** TrackerDataImpl, src/cpp/src/IMPL/TrackerDataImpl.cc *)

(** the modifying calls: setCellID0 (21-24), setCellID1 (26-29), setTime (31-35), setChargeValues (37-42), chargeValues (44-47) *)
Inductive td_call :=
| TD_setCellID0 (v : Z)
| TD_setCellID1 (v : Z)
| TD_setTime (v : Z)
| TD_setChargeValues (v : list Z)
| TD_chargeValues (v : list Z).
(** their effect: TrackerDataImpl.cc, lines as above *)
Definition td_do (ro : bool) (o : trkdata) (c : td_call) : trkdata * Res unit :=
  match c with
  | TD_setCellID0 v => guarded ro o (Ok (mkTD v (tc_id1 o) (tc_time o) (tc_charge o)))
  | TD_setCellID1 v => guarded ro o (Ok (mkTD (tc_id0 o) v (tc_time o) (tc_charge o)))
  | TD_setTime v => guarded ro o (Ok (mkTD (tc_id0 o) (tc_id1 o) v (tc_charge o)))
  | TD_setChargeValues v => guarded ro o (Ok (mkTD (tc_id0 o) (tc_id1 o) (tc_time o) v))
  | TD_chargeValues v => guarded ro o (Ok (mkTD (tc_id0 o) (tc_id1 o) (tc_time o) v))
  end.

(** *** TrackerPulseImpl, src/cpp/src/IMPL/TrackerPulseImpl.cc *)

(** the modifying calls: setCellID0 (25-28), setCellID1 (30-33), setTime (35-39), setCharge (45-49), setCovMatrix (56-68), setQuality (70-73), setQualityBit (75-82), setTrackerData (84-87) *)
Inductive tpu_call :=
| TPu_setCellID0 (v : Z)
| TPu_setCellID1 (v : Z)
| TPu_setTime (v : Z)
| TPu_setCharge (v : Z)
| TPu_setCovMatrix (v : list Z)
| TPu_setQuality (v : Z)
| TPu_setQualityBit (i : Z) (b : bool)
| TPu_setTrackerData (v : addr).
(** their effect: TrackerPulseImpl.cc, lines as above *)
Definition tpu_do (ro : bool) (o : trkpulse) (c : tpu_call) : trkpulse * Res unit :=
  match c with
  | TPu_setCellID0 v => guarded ro o (Ok (mkTPu v (pu_id1 o) (pu_time o) (pu_charge o) (pu_cov o) (pu_quality o) (pu_corr o)))
  | TPu_setCellID1 v => guarded ro o (Ok (mkTPu (pu_id0 o) v (pu_time o) (pu_charge o) (pu_cov o) (pu_quality o) (pu_corr o)))
  | TPu_setTime v => guarded ro o (Ok (mkTPu (pu_id0 o) (pu_id1 o) v (pu_charge o) (pu_cov o) (pu_quality o) (pu_corr o)))
  | TPu_setCharge v => guarded ro o (Ok (mkTPu (pu_id0 o) (pu_id1 o) (pu_time o) v (pu_cov o) (pu_quality o) (pu_corr o)))
  | TPu_setCovMatrix v => guarded ro o (do a <- arr 3 v; Ok (mkTPu (pu_id0 o) (pu_id1 o) (pu_time o) (pu_charge o) a (pu_quality o) (pu_corr o)))
  | TPu_setQuality v => guarded ro o (Ok (mkTPu (pu_id0 o) (pu_id1 o) (pu_time o) (pu_charge o) (pu_cov o) v (pu_corr o)))
  | TPu_setQualityBit i b => guarded ro o (do q <- set_quality_bit false (pu_quality o) i b; Ok (mkTPu (pu_id0 o) (pu_id1 o) (pu_time o) (pu_charge o) (pu_cov o) q (pu_corr o)))
  | TPu_setTrackerData v => guarded ro o (Ok (mkTPu (pu_id0 o) (pu_id1 o) (pu_time o) (pu_charge o) (pu_cov o) (pu_quality o) v))
  end.

(** *** TrackerHitImpl, src/cpp/src/IMPL/TrackerHitImpl.cc *)

(** the modifying calls: rawHits (59-62), setCellID0 (78-81), setCellID1 (83-86), setType (88-91), setPosition (93-98), setdEdx (101-105), setEDep (107-110), setEDepError (112-115), setTime (117-120), setQuality (122-125), setQualityBit (127-134), setCovMatrix (136-147) *)
Inductive th_call :=
| TH_rawHits (v : list addr)
| TH_setCellID0 (v : Z)
| TH_setCellID1 (v : Z)
| TH_setType (v : Z)
| TH_setPosition (v : list Z)
| TH_setdEdx (v : Z)
| TH_setEDep (v : Z)
| TH_setEDepError (v : Z)
| TH_setTime (v : Z)
| TH_setQuality (v : Z)
| TH_setQualityBit (i : Z) (b : bool)
| TH_setCovMatrix (v : list Z).
(** their effect: TrackerHitImpl.cc, lines as above *)
Definition th_do (ro : bool) (o : trkhit) (c : th_call) : trkhit * Res unit :=
  match c with
  | TH_rawHits v => guarded ro o (Ok (mkTH (th_id0 o) (th_id1 o) (th_type o) (th_pos o) (th_cov o) (th_edep o) (th_edeperr o) (th_time o) (th_quality o) v))
  | TH_setCellID0 v => guarded ro o (Ok (mkTH v (th_id1 o) (th_type o) (th_pos o) (th_cov o) (th_edep o) (th_edeperr o) (th_time o) (th_quality o) (th_raw o)))
  | TH_setCellID1 v => guarded ro o (Ok (mkTH (th_id0 o) v (th_type o) (th_pos o) (th_cov o) (th_edep o) (th_edeperr o) (th_time o) (th_quality o) (th_raw o)))
  | TH_setType v => guarded ro o (Ok (mkTH (th_id0 o) (th_id1 o) v (th_pos o) (th_cov o) (th_edep o) (th_edeperr o) (th_time o) (th_quality o) (th_raw o)))
  | TH_setPosition v => guarded ro o (do a <- arr 3 v; Ok (mkTH (th_id0 o) (th_id1 o) (th_type o) a (th_cov o) (th_edep o) (th_edeperr o) (th_time o) (th_quality o) (th_raw o)))
  | TH_setdEdx v => guarded ro o (Ok (mkTH (th_id0 o) (th_id1 o) (th_type o) (th_pos o) (th_cov o) v (th_edeperr o) (th_time o) (th_quality o) (th_raw o)))
  | TH_setEDep v => guarded ro o (Ok (mkTH (th_id0 o) (th_id1 o) (th_type o) (th_pos o) (th_cov o) v (th_edeperr o) (th_time o) (th_quality o) (th_raw o)))
  | TH_setEDepError v => guarded ro o (Ok (mkTH (th_id0 o) (th_id1 o) (th_type o) (th_pos o) (th_cov o) (th_edep o) v (th_time o) (th_quality o) (th_raw o)))
  | TH_setTime v => guarded ro o (Ok (mkTH (th_id0 o) (th_id1 o) (th_type o) (th_pos o) (th_cov o) (th_edep o) (th_edeperr o) v (th_quality o) (th_raw o)))
  | TH_setQuality v => guarded ro o (Ok (mkTH (th_id0 o) (th_id1 o) (th_type o) (th_pos o) (th_cov o) (th_edep o) (th_edeperr o) (th_time o) v (th_raw o)))
  | TH_setQualityBit i b => guarded ro o (do q <- set_quality_bit false (th_quality o) i b; Ok (mkTH (th_id0 o) (th_id1 o) (th_type o) (th_pos o) (th_cov o) (th_edep o) (th_edeperr o) (th_time o) q (th_raw o)))
  | TH_setCovMatrix v => guarded ro o (do a <- arr 6 v; Ok (mkTH (th_id0 o) (th_id1 o) (th_type o) (th_pos o) a (th_edep o) (th_edeperr o) (th_time o) (th_quality o) (th_raw o)))
  end.

(** *** TrackerHitPlaneImpl, src/cpp/src/IMPL/TrackerHitPlaneImpl.cc *)

(** the modifying calls: rawHits (107 (TrackerHitPlaneImpl.h)), setCellID0 (38-41), setCellID1 (43-46), setType (48-51), setPosition (53-58), setU (60-64), setV (66-70), setdU (72-75), setdV (77-80), setEDep (82-85), setEDepError (87-90), setTime (92-95), setQuality (97-100), setQualityBit (102-109) *)
Inductive thp_call :=
| THP_rawHits (v : list addr)
| THP_setCellID0 (v : Z)
| THP_setCellID1 (v : Z)
| THP_setType (v : Z)
| THP_setPosition (v : list Z)
| THP_setU (x : Z) (y : Z)
| THP_setV (x : Z) (y : Z)
| THP_setdU (v : Z)
| THP_setdV (v : Z)
| THP_setEDep (v : Z)
| THP_setEDepError (v : Z)
| THP_setTime (v : Z)
| THP_setQuality (v : Z)
| THP_setQualityBit (i : Z) (b : bool).
(** their effect: TrackerHitPlaneImpl.cc, lines as above *)
Definition thp_do (ro : bool) (o : trkhitp) (c : thp_call) : trkhitp * Res unit :=
  match c with
  | THP_rawHits v => unguarded o (Ok (mkTHP (hp_id0 o) (hp_id1 o) (hp_type o) (hp_pos o) (hp_u o) (hp_v o) (hp_du o) (hp_dv o) (hp_edep o) (hp_edeperr o) (hp_time o) (hp_quality o) v))
  | THP_setCellID0 v => guarded ro o (Ok (mkTHP v (hp_id1 o) (hp_type o) (hp_pos o) (hp_u o) (hp_v o) (hp_du o) (hp_dv o) (hp_edep o) (hp_edeperr o) (hp_time o) (hp_quality o) (hp_raw o)))
  | THP_setCellID1 v => guarded ro o (Ok (mkTHP (hp_id0 o) v (hp_type o) (hp_pos o) (hp_u o) (hp_v o) (hp_du o) (hp_dv o) (hp_edep o) (hp_edeperr o) (hp_time o) (hp_quality o) (hp_raw o)))
  | THP_setType v => guarded ro o (Ok (mkTHP (hp_id0 o) (hp_id1 o) v (hp_pos o) (hp_u o) (hp_v o) (hp_du o) (hp_dv o) (hp_edep o) (hp_edeperr o) (hp_time o) (hp_quality o) (hp_raw o)))
  | THP_setPosition v => guarded ro o (do a <- arr 3 v; Ok (mkTHP (hp_id0 o) (hp_id1 o) (hp_type o) a (hp_u o) (hp_v o) (hp_du o) (hp_dv o) (hp_edep o) (hp_edeperr o) (hp_time o) (hp_quality o) (hp_raw o)))
  | THP_setU x y => guarded ro o (Ok (mkTHP (hp_id0 o) (hp_id1 o) (hp_type o) (hp_pos o) ([x; y]) (hp_v o) (hp_du o) (hp_dv o) (hp_edep o) (hp_edeperr o) (hp_time o) (hp_quality o) (hp_raw o)))
  | THP_setV x y => guarded ro o (Ok (mkTHP (hp_id0 o) (hp_id1 o) (hp_type o) (hp_pos o) (hp_u o) ([x; y]) (hp_du o) (hp_dv o) (hp_edep o) (hp_edeperr o) (hp_time o) (hp_quality o) (hp_raw o)))
  | THP_setdU v => guarded ro o (Ok (mkTHP (hp_id0 o) (hp_id1 o) (hp_type o) (hp_pos o) (hp_u o) (hp_v o) v (hp_dv o) (hp_edep o) (hp_edeperr o) (hp_time o) (hp_quality o) (hp_raw o)))
  | THP_setdV v => guarded ro o (Ok (mkTHP (hp_id0 o) (hp_id1 o) (hp_type o) (hp_pos o) (hp_u o) (hp_v o) (hp_du o) v (hp_edep o) (hp_edeperr o) (hp_time o) (hp_quality o) (hp_raw o)))
  | THP_setEDep v => guarded ro o (Ok (mkTHP (hp_id0 o) (hp_id1 o) (hp_type o) (hp_pos o) (hp_u o) (hp_v o) (hp_du o) (hp_dv o) v (hp_edeperr o) (hp_time o) (hp_quality o) (hp_raw o)))
  | THP_setEDepError v => guarded ro o (Ok (mkTHP (hp_id0 o) (hp_id1 o) (hp_type o) (hp_pos o) (hp_u o) (hp_v o) (hp_du o) (hp_dv o) (hp_edep o) v (hp_time o) (hp_quality o) (hp_raw o)))
  | THP_setTime v => guarded ro o (Ok (mkTHP (hp_id0 o) (hp_id1 o) (hp_type o) (hp_pos o) (hp_u o) (hp_v o) (hp_du o) (hp_dv o) (hp_edep o) (hp_edeperr o) v (hp_quality o) (hp_raw o)))
  | THP_setQuality v => guarded ro o (Ok (mkTHP (hp_id0 o) (hp_id1 o) (hp_type o) (hp_pos o) (hp_u o) (hp_v o) (hp_du o) (hp_dv o) (hp_edep o) (hp_edeperr o) (hp_time o) v (hp_raw o)))
  | THP_setQualityBit i b => guarded ro o (do q <- set_quality_bit false (hp_quality o) i b; Ok (mkTHP (hp_id0 o) (hp_id1 o) (hp_type o) (hp_pos o) (hp_u o) (hp_v o) (hp_du o) (hp_dv o) (hp_edep o) (hp_edeperr o) (hp_time o) q (hp_raw o)))
  end.

(** *** TrackerHitZCylinderImpl, src/cpp/src/IMPL/TrackerHitZCylinderImpl.cc *)

(** the modifying calls: rawHits (104 (TrackerHitZCylinderImpl.h)), setCellID0 (39-42), setCellID1 (44-47), setType (50-53), setPosition (55-60), setCenter (62-66), setdRPhi (73-76), setdZ (78-81), setEDep (83-86), setEDepError (88-91), setTime (93-96), setQuality (98-101), setQualityBit (103-110) *)
Inductive thz_call :=
| THZ_rawHits (v : list addr)
| THZ_setCellID0 (v : Z)
| THZ_setCellID1 (v : Z)
| THZ_setType (v : Z)
| THZ_setPosition (v : list Z)
| THZ_setCenter (x : Z) (y : Z)
| THZ_setdRPhi (v : Z)
| THZ_setdZ (v : Z)
| THZ_setEDep (v : Z)
| THZ_setEDepError (v : Z)
| THZ_setTime (v : Z)
| THZ_setQuality (v : Z)
| THZ_setQualityBit (i : Z) (b : bool).
(** their effect: TrackerHitZCylinderImpl.cc, lines as above *)
Definition thz_do (ro : bool) (o : trkhitz) (c : thz_call) : trkhitz * Res unit :=
  match c with
  | THZ_rawHits v => unguarded o (Ok (mkTHZ (hz_id0 o) (hz_id1 o) (hz_type o) (hz_pos o) (hz_center o) (hz_drphi o) (hz_dz o) (hz_edep o) (hz_edeperr o) (hz_time o) (hz_quality o) v))
  | THZ_setCellID0 v => guarded ro o (Ok (mkTHZ v (hz_id1 o) (hz_type o) (hz_pos o) (hz_center o) (hz_drphi o) (hz_dz o) (hz_edep o) (hz_edeperr o) (hz_time o) (hz_quality o) (hz_raw o)))
  | THZ_setCellID1 v => guarded ro o (Ok (mkTHZ (hz_id0 o) v (hz_type o) (hz_pos o) (hz_center o) (hz_drphi o) (hz_dz o) (hz_edep o) (hz_edeperr o) (hz_time o) (hz_quality o) (hz_raw o)))
  | THZ_setType v => guarded ro o (Ok (mkTHZ (hz_id0 o) (hz_id1 o) v (hz_pos o) (hz_center o) (hz_drphi o) (hz_dz o) (hz_edep o) (hz_edeperr o) (hz_time o) (hz_quality o) (hz_raw o)))
  | THZ_setPosition v => guarded ro o (do a <- arr 3 v; Ok (mkTHZ (hz_id0 o) (hz_id1 o) (hz_type o) a (hz_center o) (hz_drphi o) (hz_dz o) (hz_edep o) (hz_edeperr o) (hz_time o) (hz_quality o) (hz_raw o)))
  | THZ_setCenter x y => guarded ro o (Ok (mkTHZ (hz_id0 o) (hz_id1 o) (hz_type o) (hz_pos o) ([x; y]) (hz_drphi o) (hz_dz o) (hz_edep o) (hz_edeperr o) (hz_time o) (hz_quality o) (hz_raw o)))
  | THZ_setdRPhi v => guarded ro o (Ok (mkTHZ (hz_id0 o) (hz_id1 o) (hz_type o) (hz_pos o) (hz_center o) v (hz_dz o) (hz_edep o) (hz_edeperr o) (hz_time o) (hz_quality o) (hz_raw o)))
  | THZ_setdZ v => guarded ro o (Ok (mkTHZ (hz_id0 o) (hz_id1 o) (hz_type o) (hz_pos o) (hz_center o) (hz_drphi o) v (hz_edep o) (hz_edeperr o) (hz_time o) (hz_quality o) (hz_raw o)))
  | THZ_setEDep v => guarded ro o (Ok (mkTHZ (hz_id0 o) (hz_id1 o) (hz_type o) (hz_pos o) (hz_center o) (hz_drphi o) (hz_dz o) v (hz_edeperr o) (hz_time o) (hz_quality o) (hz_raw o)))
  | THZ_setEDepError v => guarded ro o (Ok (mkTHZ (hz_id0 o) (hz_id1 o) (hz_type o) (hz_pos o) (hz_center o) (hz_drphi o) (hz_dz o) (hz_edep o) v (hz_time o) (hz_quality o) (hz_raw o)))
  | THZ_setTime v => guarded ro o (Ok (mkTHZ (hz_id0 o) (hz_id1 o) (hz_type o) (hz_pos o) (hz_center o) (hz_drphi o) (hz_dz o) (hz_edep o) (hz_edeperr o) v (hz_quality o) (hz_raw o)))
  | THZ_setQuality v => guarded ro o (Ok (mkTHZ (hz_id0 o) (hz_id1 o) (hz_type o) (hz_pos o) (hz_center o) (hz_drphi o) (hz_dz o) (hz_edep o) (hz_edeperr o) (hz_time o) v (hz_raw o)))
  | THZ_setQualityBit i b => guarded ro o (do q <- set_quality_bit false (hz_quality o) i b; Ok (mkTHZ (hz_id0 o) (hz_id1 o) (hz_type o) (hz_pos o) (hz_center o) (hz_drphi o) (hz_dz o) (hz_edep o) (hz_edeperr o) (hz_time o) q (hz_raw o)))
  end.

(** *** TrackImpl, src/cpp/src/IMPL/TrackImpl.cc *)

(** (the covariance matrix of a state is a vector of any length, TrackStateImpl.cc:55-67, of which
    TrackStateImpl::setCovMatrix, 129-140, overwrites the first 15 elements)
    the modifying calls: setTypeBit (165-168), setType (171-179), setD0 (181-196), setPhi (197-212), setOmega (213-228), setZ0 (229-244), setTanLambda (245-260), setCovMatrix (262-297), setReferencePoint (299-316), setChi2 (324-327), setNdf (328-331), setdEdx (332-335), setdEdxError (336-339), addHit (341-343), addTrack (345-348), addTrackState (350-360), trackStates (362-365), subdetectorHitNumbers (367-370), setRadiusOfInnermostHit (372-375), assign (30-51 (operator=)), stateSetLocation ((TrackStateImpl::setLocation, TrackStateImpl.cc:100-108, through a pointer to the state number [i])) *)
Inductive trk_call :=
| TRK_setTypeBit (i : Z) (b : bool)
| TRK_setType (v : Z)
| TRK_setD0 (v : Z)
| TRK_setPhi (v : Z)
| TRK_setOmega (v : Z)
| TRK_setZ0 (v : Z)
| TRK_setTanLambda (v : Z)
| TRK_setCovMatrix (v : list Z)
| TRK_setReferencePoint (v : list Z)
| TRK_setChi2 (v : Z)
| TRK_setNdf (v : Z)
| TRK_setdEdx (v : Z)
| TRK_setdEdxError (v : Z)
| TRK_addHit (v : addr)
| TRK_addTrack (v : addr)
| TRK_addTrackState (v : tstate)
| TRK_trackStates (v : list tstate)
| TRK_subdetectorHitNumbers (v : list Z)
| TRK_setRadiusOfInnermostHit (v : Z)
| TRK_assign (v : track)
| TRK_stateSetLocation (i : nat) (loc : Z).
(** their effect: TrackImpl.cc, lines as above *)
Definition trk_do (ro : bool) (o : track) (c : trk_call) : track * Res unit :=
  match c with
  | TRK_setTypeBit i b => guarded ro o (do w <- bitset_set (bitset_of (tr_type o)) i b; Ok (mkTRK (bitset_int w) (tr_states o) (tr_chi2 o) (tr_ndf o) (tr_dedx o) (tr_dedxerr o) (tr_radius o) (tr_hitnums o) (tr_tracks o) (tr_hits o)))
  | TRK_setType v => guarded ro o (Ok (mkTRK v (tr_states o) (tr_chi2 o) (tr_ndf o) (tr_dedx o) (tr_dedxerr o) (tr_radius o) (tr_hitnums o) (tr_tracks o) (tr_hits o)))
  | TRK_setD0 v => unguarded o (do l <- with_one_state (tr_states o) (fun t => Ok (mkTS (ts_loc t) v (ts_phi t) (ts_omega t) (ts_z0 t) (ts_tanl t) (ts_cov t) (ts_ref t))); Ok (mkTRK (tr_type o) l (tr_chi2 o) (tr_ndf o) (tr_dedx o) (tr_dedxerr o) (tr_radius o) (tr_hitnums o) (tr_tracks o) (tr_hits o)))
  | TRK_setPhi v => unguarded o (do l <- with_one_state (tr_states o) (fun t => Ok (mkTS (ts_loc t) (ts_d0 t) v (ts_omega t) (ts_z0 t) (ts_tanl t) (ts_cov t) (ts_ref t))); Ok (mkTRK (tr_type o) l (tr_chi2 o) (tr_ndf o) (tr_dedx o) (tr_dedxerr o) (tr_radius o) (tr_hitnums o) (tr_tracks o) (tr_hits o)))
  | TRK_setOmega v => unguarded o (do l <- with_one_state (tr_states o) (fun t => Ok (mkTS (ts_loc t) (ts_d0 t) (ts_phi t) v (ts_z0 t) (ts_tanl t) (ts_cov t) (ts_ref t))); Ok (mkTRK (tr_type o) l (tr_chi2 o) (tr_ndf o) (tr_dedx o) (tr_dedxerr o) (tr_radius o) (tr_hitnums o) (tr_tracks o) (tr_hits o)))
  | TRK_setZ0 v => unguarded o (do l <- with_one_state (tr_states o) (fun t => Ok (mkTS (ts_loc t) (ts_d0 t) (ts_phi t) (ts_omega t) v (ts_tanl t) (ts_cov t) (ts_ref t))); Ok (mkTRK (tr_type o) l (tr_chi2 o) (tr_ndf o) (tr_dedx o) (tr_dedxerr o) (tr_radius o) (tr_hitnums o) (tr_tracks o) (tr_hits o)))
  | TRK_setTanLambda v => unguarded o (do l <- with_one_state (tr_states o) (fun t => Ok (mkTS (ts_loc t) (ts_d0 t) (ts_phi t) (ts_omega t) (ts_z0 t) v (ts_cov t) (ts_ref t))); Ok (mkTRK (tr_type o) l (tr_chi2 o) (tr_ndf o) (tr_dedx o) (tr_dedxerr o) (tr_radius o) (tr_hitnums o) (tr_tracks o) (tr_hits o)))
  | TRK_setCovMatrix v => unguarded o (do l <- with_one_state (tr_states o) (fun t => do a <- arr 15 v; if Nat.leb 15 (length (ts_cov t)) then Ok (mkTS (ts_loc t) (ts_d0 t) (ts_phi t) (ts_omega t) (ts_z0 t) (ts_tanl t) (a ++ skipn 15 (ts_cov t)) (ts_ref t)) else UB UBOutOfBounds); Ok (mkTRK (tr_type o) l (tr_chi2 o) (tr_ndf o) (tr_dedx o) (tr_dedxerr o) (tr_radius o) (tr_hitnums o) (tr_tracks o) (tr_hits o)))
  | TRK_setReferencePoint v => unguarded o (do l <- with_one_state (tr_states o) (fun t => do a <- arr 3 v; Ok (mkTS (ts_loc t) (ts_d0 t) (ts_phi t) (ts_omega t) (ts_z0 t) (ts_tanl t) (ts_cov t) a)); Ok (mkTRK (tr_type o) l (tr_chi2 o) (tr_ndf o) (tr_dedx o) (tr_dedxerr o) (tr_radius o) (tr_hitnums o) (tr_tracks o) (tr_hits o)))
  | TRK_setChi2 v => guarded ro o (Ok (mkTRK (tr_type o) (tr_states o) v (tr_ndf o) (tr_dedx o) (tr_dedxerr o) (tr_radius o) (tr_hitnums o) (tr_tracks o) (tr_hits o)))
  | TRK_setNdf v => guarded ro o (Ok (mkTRK (tr_type o) (tr_states o) (tr_chi2 o) v (tr_dedx o) (tr_dedxerr o) (tr_radius o) (tr_hitnums o) (tr_tracks o) (tr_hits o)))
  | TRK_setdEdx v => guarded ro o (Ok (mkTRK (tr_type o) (tr_states o) (tr_chi2 o) (tr_ndf o) v (tr_dedxerr o) (tr_radius o) (tr_hitnums o) (tr_tracks o) (tr_hits o)))
  | TRK_setdEdxError v => guarded ro o (Ok (mkTRK (tr_type o) (tr_states o) (tr_chi2 o) (tr_ndf o) (tr_dedx o) v (tr_radius o) (tr_hitnums o) (tr_tracks o) (tr_hits o)))
  | TRK_addHit v => unguarded o (Ok (mkTRK (tr_type o) (tr_states o) (tr_chi2 o) (tr_ndf o) (tr_dedx o) (tr_dedxerr o) (tr_radius o) (tr_hitnums o) (tr_tracks o) (tr_hits o ++ [v])))
  | TRK_addTrack v => guarded ro o (Ok (mkTRK (tr_type o) (tr_states o) (tr_chi2 o) (tr_ndf o) (tr_dedx o) (tr_dedxerr o) (tr_radius o) (tr_hitnums o) (tr_tracks o ++ [v]) (tr_hits o)))
  | TRK_addTrackState v => guarded ro o (do l <- add_track_state (tr_states o) v; Ok (mkTRK (tr_type o) l (tr_chi2 o) (tr_ndf o) (tr_dedx o) (tr_dedxerr o) (tr_radius o) (tr_hitnums o) (tr_tracks o) (tr_hits o)))
  | TRK_trackStates v => guarded ro o (Ok (mkTRK (tr_type o) v (tr_chi2 o) (tr_ndf o) (tr_dedx o) (tr_dedxerr o) (tr_radius o) (tr_hitnums o) (tr_tracks o) (tr_hits o)))
  | TRK_subdetectorHitNumbers v => guarded ro o (Ok (mkTRK (tr_type o) (tr_states o) (tr_chi2 o) (tr_ndf o) (tr_dedx o) (tr_dedxerr o) (tr_radius o) v (tr_tracks o) (tr_hits o)))
  | TRK_setRadiusOfInnermostHit v => guarded ro o (Ok (mkTRK (tr_type o) (tr_states o) (tr_chi2 o) (tr_ndf o) (tr_dedx o) (tr_dedxerr o) v (tr_hitnums o) (tr_tracks o) (tr_hits o)))
  | TRK_assign v => unguarded o (Ok (mkTRK (tr_type v) (tr_states o ++ tr_states v) (tr_chi2 v) (tr_ndf v) (tr_dedx v) (tr_dedxerr v) (tr_radius v) (tr_hitnums o ++ tr_hitnums v) (tr_tracks o ++ tr_tracks v) (tr_hits o ++ tr_hits v)))
  | TRK_stateSetLocation i loc => unguarded o (do l <- match nth_error (tr_states o) i with Some t => Ok (firstn i (tr_states o) ++ (mkTS loc (ts_d0 t) (ts_phi t) (ts_omega t) (ts_z0 t) (ts_tanl t) (ts_cov t) (ts_ref t)) :: skipn (S i) (tr_states o)) | None => UB UBNullDeref end; Ok (mkTRK (tr_type o) l (tr_chi2 o) (tr_ndf o) (tr_dedx o) (tr_dedxerr o) (tr_radius o) (tr_hitnums o) (tr_tracks o) (tr_hits o)))
  end.

(** *** ClusterImpl, src/cpp/src/IMPL/ClusterImpl.cc *)

(** the modifying calls: setType (55-58), setEnergy (59-62), setEnergyError (63-66), setPosition (67-70), setPositionError (71-78), setITheta (79-82), setIPhi (83-86), setDirectionError (87-94), setShape (99-105 (appends)), addParticleID (120-125), addCluster (127-130), addHit (133-136), setTypeBit (138-141), subdetectorEnergies (143-146) *)
Inductive cl_call :=
| CL_setType (v : Z)
| CL_setEnergy (v : Z)
| CL_setEnergyError (v : Z)
| CL_setPosition (v : list Z)
| CL_setPositionError (v : list Z)
| CL_setITheta (v : Z)
| CL_setIPhi (v : Z)
| CL_setDirectionError (v : list Z)
| CL_setShape (v : list Z)
| CL_addParticleID (v : pid)
| CL_addCluster (v : addr)
| CL_addHit (h : addr) (w : Z)
| CL_setTypeBit (i : Z) (b : bool)
| CL_subdetectorEnergies (v : list Z).
(** their effect: ClusterImpl.cc, lines as above *)
Definition cl_do (ro : bool) (o : cluster) (c : cl_call) : cluster * Res unit :=
  match c with
  | CL_setType v => guarded ro o (Ok (mkCL v (cl_energy o) (cl_energyerr o) (cl_pos o) (cl_errpos o) (cl_theta o) (cl_phi o) (cl_errdir o) (cl_shape o) (cl_pids o) (cl_clusters o) (cl_hits o) (cl_weights o) (cl_energies o)))
  | CL_setEnergy v => guarded ro o (Ok (mkCL (cl_type o) v (cl_energyerr o) (cl_pos o) (cl_errpos o) (cl_theta o) (cl_phi o) (cl_errdir o) (cl_shape o) (cl_pids o) (cl_clusters o) (cl_hits o) (cl_weights o) (cl_energies o)))
  | CL_setEnergyError v => guarded ro o (Ok (mkCL (cl_type o) (cl_energy o) v (cl_pos o) (cl_errpos o) (cl_theta o) (cl_phi o) (cl_errdir o) (cl_shape o) (cl_pids o) (cl_clusters o) (cl_hits o) (cl_weights o) (cl_energies o)))
  | CL_setPosition v => guarded ro o (do a <- arr 3 v; Ok (mkCL (cl_type o) (cl_energy o) (cl_energyerr o) a (cl_errpos o) (cl_theta o) (cl_phi o) (cl_errdir o) (cl_shape o) (cl_pids o) (cl_clusters o) (cl_hits o) (cl_weights o) (cl_energies o)))
  | CL_setPositionError v => guarded ro o (do a <- arr 6 v; Ok (mkCL (cl_type o) (cl_energy o) (cl_energyerr o) (cl_pos o) a (cl_theta o) (cl_phi o) (cl_errdir o) (cl_shape o) (cl_pids o) (cl_clusters o) (cl_hits o) (cl_weights o) (cl_energies o)))
  | CL_setITheta v => guarded ro o (Ok (mkCL (cl_type o) (cl_energy o) (cl_energyerr o) (cl_pos o) (cl_errpos o) v (cl_phi o) (cl_errdir o) (cl_shape o) (cl_pids o) (cl_clusters o) (cl_hits o) (cl_weights o) (cl_energies o)))
  | CL_setIPhi v => guarded ro o (Ok (mkCL (cl_type o) (cl_energy o) (cl_energyerr o) (cl_pos o) (cl_errpos o) (cl_theta o) v (cl_errdir o) (cl_shape o) (cl_pids o) (cl_clusters o) (cl_hits o) (cl_weights o) (cl_energies o)))
  | CL_setDirectionError v => guarded ro o (do a <- arr 3 v; Ok (mkCL (cl_type o) (cl_energy o) (cl_energyerr o) (cl_pos o) (cl_errpos o) (cl_theta o) (cl_phi o) a (cl_shape o) (cl_pids o) (cl_clusters o) (cl_hits o) (cl_weights o) (cl_energies o)))
  | CL_setShape v => guarded ro o (Ok (mkCL (cl_type o) (cl_energy o) (cl_energyerr o) (cl_pos o) (cl_errpos o) (cl_theta o) (cl_phi o) (cl_errdir o) (cl_shape o ++ v) (cl_pids o) (cl_clusters o) (cl_hits o) (cl_weights o) (cl_energies o)))
  | CL_addParticleID v => guarded ro o (Ok (mkCL (cl_type o) (cl_energy o) (cl_energyerr o) (cl_pos o) (cl_errpos o) (cl_theta o) (cl_phi o) (cl_errdir o) (cl_shape o) (srt pid pi_like (cl_pids o ++ [v])) (cl_clusters o) (cl_hits o) (cl_weights o) (cl_energies o)))
  | CL_addCluster v => guarded ro o (Ok (mkCL (cl_type o) (cl_energy o) (cl_energyerr o) (cl_pos o) (cl_errpos o) (cl_theta o) (cl_phi o) (cl_errdir o) (cl_shape o) (cl_pids o) (cl_clusters o ++ [v]) (cl_hits o) (cl_weights o) (cl_energies o)))
  | CL_addHit h w => unguarded o (Ok (mkCL (cl_type o) (cl_energy o) (cl_energyerr o) (cl_pos o) (cl_errpos o) (cl_theta o) (cl_phi o) (cl_errdir o) (cl_shape o) (cl_pids o) (cl_clusters o) (cl_hits o ++ [h]) (cl_weights o ++ [w]) (cl_energies o)))
  | CL_setTypeBit i b => guarded ro o (do w <- bitset_set (bitset_of (cl_type o)) i b; Ok (mkCL (bitset_int w) (cl_energy o) (cl_energyerr o) (cl_pos o) (cl_errpos o) (cl_theta o) (cl_phi o) (cl_errdir o) (cl_shape o) (cl_pids o) (cl_clusters o) (cl_hits o) (cl_weights o) (cl_energies o)))
  | CL_subdetectorEnergies v => guarded ro o (Ok (mkCL (cl_type o) (cl_energy o) (cl_energyerr o) (cl_pos o) (cl_errpos o) (cl_theta o) (cl_phi o) (cl_errdir o) (cl_shape o) (cl_pids o) (cl_clusters o) (cl_hits o) (cl_weights o) v))
  end.

(** *** VertexImpl, src/cpp/src/IMPL/VertexImpl.cc *)

(** the modifying calls: setPrimary (32-35), setAlgorithmType (42-45), setChi2 (47-50), setProbability (52-55), setPosition (57-66), setCovMatrix (68-76), setAssociatedParticle (78-81), addParameter (83-86) *)
Inductive vx_call :=
| VX_setPrimary (b : bool)
| VX_setAlgorithmType (v : bytes)
| VX_setChi2 (v : Z)
| VX_setProbability (v : Z)
| VX_setPosition (v : list Z)
| VX_setCovMatrix (v : list Z)
| VX_setAssociatedParticle (v : addr)
| VX_addParameter (v : Z).
(** their effect: VertexImpl.cc, lines as above *)
Definition vx_do (ro : bool) (o : vertex) (c : vx_call) : vertex * Res unit :=
  match c with
  | VX_setPrimary b => guarded ro o (Ok (mkVX (if b then 1 else 0) (vx_type o) (vx_chi2 o) (vx_prob o) (vx_pos o) (vx_cov o) (vx_par o) (vx_part o)))
  | VX_setAlgorithmType v => guarded ro o (Ok (mkVX (vx_primary o) v (vx_chi2 o) (vx_prob o) (vx_pos o) (vx_cov o) (vx_par o) (vx_part o)))
  | VX_setChi2 v => guarded ro o (Ok (mkVX (vx_primary o) (vx_type o) v (vx_prob o) (vx_pos o) (vx_cov o) (vx_par o) (vx_part o)))
  | VX_setProbability v => guarded ro o (Ok (mkVX (vx_primary o) (vx_type o) (vx_chi2 o) v (vx_pos o) (vx_cov o) (vx_par o) (vx_part o)))
  | VX_setPosition v => reading o (arr 3 v) (fun a => guarded ro o (Ok (mkVX (vx_primary o) (vx_type o) (vx_chi2 o) (vx_prob o) a (vx_cov o) (vx_par o) (vx_part o))))
  | VX_setCovMatrix v => guarded ro o (do a <- arr 6 v; Ok (mkVX (vx_primary o) (vx_type o) (vx_chi2 o) (vx_prob o) (vx_pos o) a (vx_par o) (vx_part o)))
  | VX_setAssociatedParticle v => guarded ro o (Ok (mkVX (vx_primary o) (vx_type o) (vx_chi2 o) (vx_prob o) (vx_pos o) (vx_cov o) (vx_par o) v))
  | VX_addParameter v => guarded ro o (Ok (mkVX (vx_primary o) (vx_type o) (vx_chi2 o) (vx_prob o) (vx_pos o) (vx_cov o) (vx_par o ++ [v]) (vx_part o)))
  end.

(** *** ReconstructedParticleImpl, src/cpp/src/IMPL/ReconstructedParticleImpl.cc *)

(** the modifying calls: setStartVertex (79-82), setType (91-94), setMomentum (106-118), setEnergy (120-123), setCovMatrix (125-133), setMass (135-138), setCharge (140-143), setReferencePoint (145-150), setParticleIDUsed (152-155), setGoodnessOfPID (157-160), addParticleID (162-168), addParticle (170-174), addCluster (176-180), addTrack (182-186) *)
Inductive rp_call :=
| RP_setStartVertex (v : addr)
| RP_setType (v : Z)
| RP_setMomentum (v : list Z)
| RP_setEnergy (v : Z)
| RP_setCovMatrix (v : list Z)
| RP_setMass (v : Z)
| RP_setCharge (v : Z)
| RP_setReferencePoint (v : list Z)
| RP_setParticleIDUsed (v : addr)
| RP_setGoodnessOfPID (v : Z)
| RP_addParticleID (v : addr * pid)
| RP_addParticle (v : addr)
| RP_addCluster (v : addr)
| RP_addTrack (v : addr).
(** their effect: ReconstructedParticleImpl.cc, lines as above *)
Definition rp_do (ro : bool) (o : recp) (c : rp_call) : recp * Res unit :=
  match c with
  | RP_setStartVertex v => guarded ro o (Ok (mkRP (rp_type o) (rp_p o) (rp_energy o) (rp_cov o) (rp_mass o) (rp_charge o) (rp_ref o) (rp_pids o) (rp_used o) (rp_good o) (rp_parts o) (rp_tracks o) (rp_clusters o) v))
  | RP_setType v => guarded ro o (Ok (mkRP v (rp_p o) (rp_energy o) (rp_cov o) (rp_mass o) (rp_charge o) (rp_ref o) (rp_pids o) (rp_used o) (rp_good o) (rp_parts o) (rp_tracks o) (rp_clusters o) (rp_sv o)))
  | RP_setMomentum v => guarded ro o (do a <- arr 3 v; Ok (mkRP (rp_type o) a (rp_energy o) (rp_cov o) (rp_mass o) (rp_charge o) (rp_ref o) (rp_pids o) (rp_used o) (rp_good o) (rp_parts o) (rp_tracks o) (rp_clusters o) (rp_sv o)))
  | RP_setEnergy v => guarded ro o (Ok (mkRP (rp_type o) (rp_p o) v (rp_cov o) (rp_mass o) (rp_charge o) (rp_ref o) (rp_pids o) (rp_used o) (rp_good o) (rp_parts o) (rp_tracks o) (rp_clusters o) (rp_sv o)))
  | RP_setCovMatrix v => guarded ro o (do a <- arr 10 v; Ok (mkRP (rp_type o) (rp_p o) (rp_energy o) a (rp_mass o) (rp_charge o) (rp_ref o) (rp_pids o) (rp_used o) (rp_good o) (rp_parts o) (rp_tracks o) (rp_clusters o) (rp_sv o)))
  | RP_setMass v => guarded ro o (Ok (mkRP (rp_type o) (rp_p o) (rp_energy o) (rp_cov o) v (rp_charge o) (rp_ref o) (rp_pids o) (rp_used o) (rp_good o) (rp_parts o) (rp_tracks o) (rp_clusters o) (rp_sv o)))
  | RP_setCharge v => guarded ro o (Ok (mkRP (rp_type o) (rp_p o) (rp_energy o) (rp_cov o) (rp_mass o) v (rp_ref o) (rp_pids o) (rp_used o) (rp_good o) (rp_parts o) (rp_tracks o) (rp_clusters o) (rp_sv o)))
  | RP_setReferencePoint v => guarded ro o (do a <- arr 3 v; Ok (mkRP (rp_type o) (rp_p o) (rp_energy o) (rp_cov o) (rp_mass o) (rp_charge o) a (rp_pids o) (rp_used o) (rp_good o) (rp_parts o) (rp_tracks o) (rp_clusters o) (rp_sv o)))
  | RP_setParticleIDUsed v => guarded ro o (Ok (mkRP (rp_type o) (rp_p o) (rp_energy o) (rp_cov o) (rp_mass o) (rp_charge o) (rp_ref o) (rp_pids o) v (rp_good o) (rp_parts o) (rp_tracks o) (rp_clusters o) (rp_sv o)))
  | RP_setGoodnessOfPID v => guarded ro o (Ok (mkRP (rp_type o) (rp_p o) (rp_energy o) (rp_cov o) (rp_mass o) (rp_charge o) (rp_ref o) (rp_pids o) (rp_used o) v (rp_parts o) (rp_tracks o) (rp_clusters o) (rp_sv o)))
  | RP_addParticleID v => unguarded o (Ok (mkRP (rp_type o) (rp_p o) (rp_energy o) (rp_cov o) (rp_mass o) (rp_charge o) (rp_ref o) (srt (addr * pid)%type (fun ap => pi_like (snd ap)) (rp_pids o ++ [v])) (rp_used o) (rp_good o) (rp_parts o) (rp_tracks o) (rp_clusters o) (rp_sv o)))
  | RP_addParticle v => guarded ro o (Ok (mkRP (rp_type o) (rp_p o) (rp_energy o) (rp_cov o) (rp_mass o) (rp_charge o) (rp_ref o) (rp_pids o) (rp_used o) (rp_good o) (rp_parts o ++ [v]) (rp_tracks o) (rp_clusters o) (rp_sv o)))
  | RP_addCluster v => guarded ro o (Ok (mkRP (rp_type o) (rp_p o) (rp_energy o) (rp_cov o) (rp_mass o) (rp_charge o) (rp_ref o) (rp_pids o) (rp_used o) (rp_good o) (rp_parts o) (rp_tracks o) (rp_clusters o ++ [v]) (rp_sv o)))
  | RP_addTrack v => guarded ro o (Ok (mkRP (rp_type o) (rp_p o) (rp_energy o) (rp_cov o) (rp_mass o) (rp_charge o) (rp_ref o) (rp_pids o) (rp_used o) (rp_good o) (rp_parts o) (rp_tracks o ++ [v]) (rp_clusters o) (rp_sv o)))
  end.

(** *** MCParticleImpl, src/cpp/src/IMPL/MCParticleImpl.cc *)

(** the modifying calls: addDaughter (209-216), setPDG (234-237), setGeneratorStatus (238-241), setSimulatorStatus (243-248), setVertex (250-255), setTime (256-259), setMomentum (261-272), setMomentumAtEndpoint (274-285), setMass (287-290), setCharge (291-294), setEndpoint (296-304), setSpin (306-311), setColorFlow (313-317), setCreatedInSimulation (319), setBackscatter (320), setVertexIsNotEndpointOfParent (321), setDecayedInTracker (322), setDecayedInCalorimeter (323), setHasLeftDetector (324), setStopped (325), setOverlay (326) *)
Inductive mc_call :=
| MC_addDaughter (v : addr)
| MC_setPDG (v : Z)
| MC_setGeneratorStatus (v : Z)
| MC_setSimulatorStatus (v : Z)
| MC_setVertex (v : list Z)
| MC_setTime (v : Z)
| MC_setMomentum (v : list Z)
| MC_setMomentumAtEndpoint (v : list Z)
| MC_setMass (v : Z)
| MC_setCharge (v : Z)
| MC_setEndpoint (v : list Z)
| MC_setSpin (v : list Z)
| MC_setColorFlow (v : list Z)
| MC_setCreatedInSimulation (b : bool)
| MC_setBackscatter (b : bool)
| MC_setVertexIsNotEndpointOfParent (b : bool)
| MC_setDecayedInTracker (b : bool)
| MC_setDecayedInCalorimeter (b : bool)
| MC_setHasLeftDetector (b : bool)
| MC_setStopped (b : bool)
| MC_setOverlay (b : bool).
(** their effect: MCParticleImpl.cc, lines as above *)
Definition mc_do (ro : bool) (o : mcp) (c : mc_call) : mcp * Res unit :=
  match c with
  | MC_addDaughter v => guarded ro o (Ok (mkMC (mc_parents o) (mc_pdg o) (mc_gen o) (mc_sim o) (mc_vertex o) (mc_time o) (mc_p o) (mc_mass o) (mc_charge o) (mc_endpoint o) (mc_pend o) (mc_spin o) (mc_color o) (mc_daughters o ++ [v])))
  | MC_setPDG v => guarded ro o (Ok (mkMC (mc_parents o) v (mc_gen o) (mc_sim o) (mc_vertex o) (mc_time o) (mc_p o) (mc_mass o) (mc_charge o) (mc_endpoint o) (mc_pend o) (mc_spin o) (mc_color o) (mc_daughters o)))
  | MC_setGeneratorStatus v => guarded ro o (Ok (mkMC (mc_parents o) (mc_pdg o) v (mc_sim o) (mc_vertex o) (mc_time o) (mc_p o) (mc_mass o) (mc_charge o) (mc_endpoint o) (mc_pend o) (mc_spin o) (mc_color o) (mc_daughters o)))
  | MC_setSimulatorStatus v => guarded ro o (Ok (mkMC (mc_parents o) (mc_pdg o) (mc_gen o) (sim_status (bitset_of v)) (mc_vertex o) (mc_time o) (mc_p o) (mc_mass o) (mc_charge o) (mc_endpoint o) (mc_pend o) (mc_spin o) (mc_color o) (mc_daughters o)))
  | MC_setVertex v => guarded ro o (do a <- arr 3 v; Ok (mkMC (mc_parents o) (mc_pdg o) (mc_gen o) (mc_sim o) a (mc_time o) (mc_p o) (mc_mass o) (mc_charge o) (mc_endpoint o) (mc_pend o) (mc_spin o) (mc_color o) (mc_daughters o)))
  | MC_setTime v => guarded ro o (Ok (mkMC (mc_parents o) (mc_pdg o) (mc_gen o) (mc_sim o) (mc_vertex o) v (mc_p o) (mc_mass o) (mc_charge o) (mc_endpoint o) (mc_pend o) (mc_spin o) (mc_color o) (mc_daughters o)))
  | MC_setMomentum v => guarded ro o (do a <- arr 3 v; Ok (mkMC (mc_parents o) (mc_pdg o) (mc_gen o) (mc_sim o) (mc_vertex o) (mc_time o) a (mc_mass o) (mc_charge o) (mc_endpoint o) (mc_pend o) (mc_spin o) (mc_color o) (mc_daughters o)))
  | MC_setMomentumAtEndpoint v => guarded ro o (do a <- arr 3 v; Ok (mkMC (mc_parents o) (mc_pdg o) (mc_gen o) (mc_sim o) (mc_vertex o) (mc_time o) (mc_p o) (mc_mass o) (mc_charge o) (mc_endpoint o) a (mc_spin o) (mc_color o) (mc_daughters o)))
  | MC_setMass v => guarded ro o (Ok (mkMC (mc_parents o) (mc_pdg o) (mc_gen o) (mc_sim o) (mc_vertex o) (mc_time o) (mc_p o) v (mc_charge o) (mc_endpoint o) (mc_pend o) (mc_spin o) (mc_color o) (mc_daughters o)))
  | MC_setCharge v => guarded ro o (Ok (mkMC (mc_parents o) (mc_pdg o) (mc_gen o) (mc_sim o) (mc_vertex o) (mc_time o) (mc_p o) (mc_mass o) v (mc_endpoint o) (mc_pend o) (mc_spin o) (mc_color o) (mc_daughters o)))
  | MC_setEndpoint v => guarded ro o (do a <- arr 3 v; Ok (mkMC (mc_parents o) (mc_pdg o) (mc_gen o) (sim_status (sim_set (bitset_of (mc_sim o)) BEndpoint true)) (mc_vertex o) (mc_time o) (mc_p o) (mc_mass o) (mc_charge o) a (mc_pend o) (mc_spin o) (mc_color o) (mc_daughters o)))
  | MC_setSpin v => guarded ro o (do a <- arr 3 v; Ok (mkMC (mc_parents o) (mc_pdg o) (mc_gen o) (mc_sim o) (mc_vertex o) (mc_time o) (mc_p o) (mc_mass o) (mc_charge o) (mc_endpoint o) (mc_pend o) a (mc_color o) (mc_daughters o)))
  | MC_setColorFlow v => guarded ro o (do a <- arr 2 v; Ok (mkMC (mc_parents o) (mc_pdg o) (mc_gen o) (mc_sim o) (mc_vertex o) (mc_time o) (mc_p o) (mc_mass o) (mc_charge o) (mc_endpoint o) (mc_pend o) (mc_spin o) a (mc_daughters o)))
  | MC_setCreatedInSimulation b => unguarded o (Ok (mkMC (mc_parents o) (mc_pdg o) (mc_gen o) (sim_status (sim_set (bitset_of (mc_sim o)) BCreated b)) (mc_vertex o) (mc_time o) (mc_p o) (mc_mass o) (mc_charge o) (mc_endpoint o) (mc_pend o) (mc_spin o) (mc_color o) (mc_daughters o)))
  | MC_setBackscatter b => unguarded o (Ok (mkMC (mc_parents o) (mc_pdg o) (mc_gen o) (sim_status (sim_set (bitset_of (mc_sim o)) BBackscatter b)) (mc_vertex o) (mc_time o) (mc_p o) (mc_mass o) (mc_charge o) (mc_endpoint o) (mc_pend o) (mc_spin o) (mc_color o) (mc_daughters o)))
  | MC_setVertexIsNotEndpointOfParent b => unguarded o (Ok (mkMC (mc_parents o) (mc_pdg o) (mc_gen o) (sim_status (sim_set (bitset_of (mc_sim o)) BVertexNotEndpoint b)) (mc_vertex o) (mc_time o) (mc_p o) (mc_mass o) (mc_charge o) (mc_endpoint o) (mc_pend o) (mc_spin o) (mc_color o) (mc_daughters o)))
  | MC_setDecayedInTracker b => unguarded o (Ok (mkMC (mc_parents o) (mc_pdg o) (mc_gen o) (sim_status (sim_set (bitset_of (mc_sim o)) BTracker b)) (mc_vertex o) (mc_time o) (mc_p o) (mc_mass o) (mc_charge o) (mc_endpoint o) (mc_pend o) (mc_spin o) (mc_color o) (mc_daughters o)))
  | MC_setDecayedInCalorimeter b => unguarded o (Ok (mkMC (mc_parents o) (mc_pdg o) (mc_gen o) (sim_status (sim_set (bitset_of (mc_sim o)) BCalorimeter b)) (mc_vertex o) (mc_time o) (mc_p o) (mc_mass o) (mc_charge o) (mc_endpoint o) (mc_pend o) (mc_spin o) (mc_color o) (mc_daughters o)))
  | MC_setHasLeftDetector b => unguarded o (Ok (mkMC (mc_parents o) (mc_pdg o) (mc_gen o) (sim_status (sim_set (bitset_of (mc_sim o)) BLeft b)) (mc_vertex o) (mc_time o) (mc_p o) (mc_mass o) (mc_charge o) (mc_endpoint o) (mc_pend o) (mc_spin o) (mc_color o) (mc_daughters o)))
  | MC_setStopped b => unguarded o (Ok (mkMC (mc_parents o) (mc_pdg o) (mc_gen o) (sim_status (sim_set (bitset_of (mc_sim o)) BStopped b)) (mc_vertex o) (mc_time o) (mc_p o) (mc_mass o) (mc_charge o) (mc_endpoint o) (mc_pend o) (mc_spin o) (mc_color o) (mc_daughters o)))
  | MC_setOverlay b => unguarded o (Ok (mkMC (mc_parents o) (mc_pdg o) (mc_gen o) (sim_status (sim_set (bitset_of (mc_sim o)) BOverlay b)) (mc_vertex o) (mc_time o) (mc_p o) (mc_mass o) (mc_charge o) (mc_endpoint o) (mc_pend o) (mc_spin o) (mc_color o) (mc_daughters o)))
  end.

(** *** LCRelationImpl, src/cpp/src/IMPL/LCRelationImpl.cc *)

(** the modifying calls: setFrom (43 (LCRelationImpl.h)), setTo (44 (LCRelationImpl.h)), setWeight (45 (LCRelationImpl.h)) *)
Inductive rel_call :=
| REL_setFrom (v : addr)
| REL_setTo (v : addr)
| REL_setWeight (v : Z).
(** their effect: LCRelationImpl.cc, lines as above *)
Definition rel_do (ro : bool) (o : lcrel) (c : rel_call) : lcrel * Res unit :=
  match c with
  | REL_setFrom v => unguarded o (Ok (mkREL v (re_to o) (re_weight o)))
  | REL_setTo v => unguarded o (Ok (mkREL (re_from o) v (re_weight o)))
  | REL_setWeight v => unguarded o (Ok (mkREL (re_from o) (re_to o) v))
  end.

(** *** LCGenericObjectImpl, src/cpp/src/IMPL/LCGenericObjectImpl.cc *)

(** the modifying calls: setIntVal (54-58), setFloatVal (60-64), setDoubleVal (66-70) *)
Inductive go_call :=
| GO_setIntVal (i : Z) (v : Z)
| GO_setFloatVal (i : Z) (v : Z)
| GO_setDoubleVal (i : Z) (v : Z).
(** their effect: LCGenericObjectImpl.cc, lines as above *)
Definition go_do (ro : bool) (o : genobj) (c : go_call) : genobj * Res unit :=
  match c with
  | GO_setIntVal i v => unguarded o (do l <- go_put (go_fixed o) (go_int o) i v; Ok (mkGO l (go_flt o) (go_dbl o) (go_fixed o) (go_type o) (go_desc o)))
  | GO_setFloatVal i v => unguarded o (do l <- go_put (go_fixed o) (go_flt o) i v; Ok (mkGO (go_int o) l (go_dbl o) (go_fixed o) (go_type o) (go_desc o)))
  | GO_setDoubleVal i v => unguarded o (do l <- go_put (go_fixed o) (go_dbl o) i v; Ok (mkGO (go_int o) (go_flt o) l (go_fixed o) (go_type o) (go_desc o)))
  end.

(** *** Vectors of numbers and strings: LCIntVec, LCFloatVec and LCStrVec are std::vectors *)
(** any change through the interface of std::vector: src/cpp/include/pre-generated/EVENT/LCIntVec.h:26,
    LCFloatVec.h:26, LCStrVec.h *)
Inductive vec_call := V_assignInts (l : list Z) | V_assignFloats (l : list Z) | V_assignStrings (l : list bytes).

(** *** All classes *)
(** a modifying call on an element, the methods of src/cpp/include/IMPL/*.h, one constructor per kind of setter *)
Inductive ecall :=
| ECH (c : ch_call)
| ERCH (c : rch_call)
| ESCH (c : sch_call)
| ESTH (c : sth_call)
| ETPC (c : tpc_call)
| ETRD (c : trd_call)
| ETD (c : td_call)
| ETPu (c : tpu_call)
| ETH (c : th_call)
| ETHP (c : thp_call)
| ETHZ (c : thz_call)
| ETRK (c : trk_call)
| ECL (c : cl_call)
| EVX (c : vx_call)
| ERP (c : rp_call)
| EMC (c : mc_call)
| EREL (c : rel_call)
| EGO (c : go_call)
| EVEC (c : vec_call).
(** a call of a method the class does not have is no program, the setters cited with each case *)
Definition obj_do (ro : bool) (o : obj) (e : ecall) : obj * Res unit :=
  match o, e with
  | OCH x, ECH c => let (x', r) := ch_do ro x c in (OCH x', r)
  | ORCH x, ERCH c => let (x', r) := rch_do ro x c in (ORCH x', r)
  | OSCH x, ESCH c => let (x', r) := sch_do ro x c in (OSCH x', r)
  | OSTH x, ESTH c => let (x', r) := sth_do ro x c in (OSTH x', r)
  | OTPC x, ETPC c => let (x', r) := tpc_do ro x c in (OTPC x', r)
  | OTRD x, ETRD c => let (x', r) := trd_do ro x c in (OTRD x', r)
  | OTD x, ETD c => let (x', r) := td_do ro x c in (OTD x', r)
  | OTPu x, ETPu c => let (x', r) := tpu_do ro x c in (OTPu x', r)
  | OTH x, ETH c => let (x', r) := th_do ro x c in (OTH x', r)
  | OTHP x, ETHP c => let (x', r) := thp_do ro x c in (OTHP x', r)
  | OTHZ x, ETHZ c => let (x', r) := thz_do ro x c in (OTHZ x', r)
  | OTRK x, ETRK c => let (x', r) := trk_do ro x c in (OTRK x', r)
  | OCL x, ECL c => let (x', r) := cl_do ro x c in (OCL x', r)
  | OVX x, EVX c => let (x', r) := vx_do ro x c in (OVX x', r)
  | ORP x, ERP c => let (x', r) := rp_do ro x c in (ORP x', r)
  | OMC x, EMC c => let (x', r) := mc_do ro x c in (OMC x', r)
  | OREL x, EREL c => let (x', r) := rel_do ro x c in (OREL x', r)
  | OGO x, EGO c => let (x', r) := go_do ro x c in (OGO x', r)
  | OINT _, EVEC (V_assignInts l) => (OINT l, Ok tt)
  | OFLT _, EVEC (V_assignFloats l) => (OFLT l, Ok tt)
  | OSTR _, EVEC (V_assignStrings l) => (OSTR l, Ok tt)
  | _, _ => (o, UB UBNullDeref)
  end.
(** which classes derive from AccessChecked: the IMPL classes (class declarations in
    src/cpp/include/IMPL/); LCIntVec, LCFloatVec and LCStrVec hold an AccessChecked as a member,
    src/cpp/include/IMPL/AccessChecked.h:18-38 *)
Definition is_checked_class (o : obj) : bool := match o with OINT _ | OFLT _ | OSTR _ => false | _ => true end.

(** ** Collections: src/cpp/src/IMPL/LCCollectionVec.cc *)
(** addElement (103-109), removeElementAt (111-118), setFlag (98-100), setTransient, setDefault and
    setSubset (68-71, 78-81, 87-90), calls on parameters() (LCCollectionVec.h:143: the parameters are never
    read only), any change through the interface of std::vector (LCCollectionVec.h) *)
Inductive ccall :=
| C_addElement (a : addr) | C_removeElementAt (i : Z) | C_setFlag (f : Z) | C_setBit (b : coll_bit) (val : bool)
| C_parameters (c : par_call) | C_vector (l : list addr).
(** LCCollectionVec.cc, lines as above; an index outside is undefined *)
Definition coll_do (ro : bool) (c : coll) (x : ccall) : coll * Res unit :=
  match x with
  | C_addElement a => guarded ro c (Ok (mkColl (c_type c) (c_flag c) (c_par c) (c_elems c ++ [a])))
  | C_removeElementAt i =>
      guarded ro c (if (0 <=? i) && (i <? Zlen (c_elems c))
                    then Ok (mkColl (c_type c) (c_flag c) (c_par c) (firstn (Z.to_nat i) (c_elems c) ++ skipn (S (Z.to_nat i)) (c_elems c)))
                    else UB UBOutOfBounds)
  | C_setFlag f => unguarded c (Ok (mkColl (c_type c) f (c_par c) (c_elems c)))
  | C_setBit b val => unguarded c (do f <- coll_set (c_flag c) b val; Ok (mkColl (c_type c) f (c_par c) (c_elems c)))
  | C_parameters pc => let (p, r) := par_do false (c_par c) pc in (mkColl (c_type c) (c_flag c) p (c_elems c), r)
  | C_vector l => unguarded c (Ok (mkColl (c_type c) (c_flag c) (c_par c) l))
  end.

(** ** Events: src/cpp/src/IMPL/LCEventImpl.cc *)
(** the members, src/cpp/include/IMPL/LCEventImpl.h:174-186; the collections are LCCollectionVecs, given by
    their addresses, in the order of their names; [es_ro] is the flag of AccessChecked *)
Record estate := mkES {
  es_ro : bool; es_run : Z; es_num : Z; es_time : Z; es_det : bytes; es_par : params;
  es_cols : list (bytes * addr); es_notowned : list addr }.
(** LCEventImpl.cc:16-22 *)
Definition new_estate : estate := mkES false 0 0 0 (str "unknown") no_params [] [].

(** an event, the collections and the objects of a program, with the flag of AccessChecked,
    src/cpp/include/IMPL/AccessChecked.h:35, LCEventImpl.h:174-188 *)
Record world := mkW {
  w_ev : estate; w_col : addr -> option (bool * coll); w_obj : addr -> option (bool * obj) }.
(** the assignment to a location, no code of its own: the state after a setter *)
Definition put {A} (f : addr -> option A) (a : addr) (x : A) : addr -> option A :=
  fun b => if b =? a then Some x else f b.

(** getCollectionNames, LCEventImpl.cc:60-67 *)
Definition ev_names (e : estate) : list bytes := sm_keys (es_cols e).
(** getCollection, LCEventImpl.cc:71-89 *)
Definition ev_get (e : estate) (name : bytes) : Res addr :=
  match sm_get name (es_cols e) with Some a => Ok a | None => Throw LDataNotAvailable end.
(** EVT_WGT, LCEventImpl.cc:6 *)
Definition evt_wgt : bytes := str "_weight".
(** getWeight, LCEventImpl.cc:54-57, before the conversion to [double]; both zeros are equal to 0 *)
Definition ev_weight (e : estate) : Res Z :=
  do w <- par_val 0 (p_flt (es_par e)) evt_wgt;
  Ok (if (w =? 0) || (w =? two31) then 1065353216 else w).

(** the modifying calls: takeCollection (92-102), addCollection (107-130), removeCollection (134-140),
    setRunNumber .. setWeight (144-171), setAccessMode (174-190), calls on parameters()
    (LCEventImpl.h:135) *)
Inductive evcall :=
| V_take (name : bytes) | V_add (a : addr) (name : bytes) | V_remove (name : bytes)
| V_setRunNumber (v : Z) | V_setEventNumber (v : Z) | V_setDetectorName (v : bytes) | V_setTimeStamp (v : Z)
| V_setWeight (v : Z) | V_setAccessMode (m : Z) | V_parameters (c : par_call).
(** LCIO::READ_ONLY, cmake/LCIO.h.in:96 *)
Definition READ_ONLY : Z := 0.

(** LCCollectionVec::setReadOnly, LCCollectionVec.cc:20-31, on the elements; a null element is skipped by
    the dynamic_cast *)
Definition lock_objs (ro : bool) (elems : list addr) (f : addr -> option (bool * obj)) : addr -> option (bool * obj) :=
  fold_left (fun g a => match g a with
                        | Some (_, o) => if is_checked_class o then put g a (ro, o) else g
                        | None => g
                        end) elems f.
(** LCCollectionVec::setReadOnly, LCCollectionVec.cc:20-31 *)
Definition lock_coll (ro : bool) (w : world) (a : addr) : world :=
  match w_col w a with
  | Some (_, c) => mkW (w_ev w) (put (w_col w) a (ro, c)) (lock_objs ro (c_elems c) (w_obj w))
  | None => w
  end.
(** setReadOnly of the event itself, AccessChecked.cc:14-16 *)
Definition lock_ev (ro : bool) (e : estate) : estate :=
  mkES ro (es_run e) (es_num e) (es_time e) (es_det e) (es_par e) (es_cols e) (es_notowned e).
(** setAccessMode, LCEventImpl.cc:174-190 *)
Definition set_access_mode (w : world) (m : Z) : world :=
  let ro := m =? READ_ONLY in
  fold_left (lock_coll ro) (map snd (es_cols (w_ev w))) (mkW (lock_ev ro (w_ev w)) (w_col w) (w_obj w)).

(** the event with other collections, src/cpp/include/IMPL/LCEventImpl.h:180 *)
Definition with_cols (e : estate) (cols : list (bytes * addr)) : estate :=
  mkES (es_ro e) (es_run e) (es_num e) (es_time e) (es_det e) (es_par e) cols (es_notowned e).
(** addCollection, LCEventImpl.cc:107-130 (no check of access); the address 0 is the null pointer *)
Definition ev_add (e : estate) (a : addr) (name : bytes) : estate * Res unit :=
  if negb (validate name) then (e, Throw LEventException) else
  match sm_get name (es_cols e) with
  | Some _ => (e, Throw LEventException)
  | None => if a =? 0 then (e, Throw LEventException) else (with_cols e (sm_set name a (es_cols e)), Ok tt)
  end.
(** removeCollection, LCEventImpl.cc:134-140 *)
Definition ev_remove (e : estate) (name : bytes) : estate * Res unit :=
  guarded (es_ro e) e (Ok (with_cols e (sm_del name (es_cols e)))).

(** LCEventImpl.cc, lines as above (97-210) *)
Definition ev_do (w : world) (c : evcall) : world * Res unit :=
  let e := w_ev w in
  let on (er : estate * Res unit) := (mkW (fst er) (w_col w) (w_obj w), snd er) in
  match c with
  | V_take name =>
      match ev_get e name with
      | Ok a => match w_col w a with
                | Some (ro, c) =>
                    let (c', r) := coll_do ro c (C_setBit BTransient true) in
                    match r with
                    | Ok _ => (mkW (mkES (es_ro e) (es_run e) (es_num e) (es_time e) (es_det e) (es_par e) (es_cols e) (a :: es_notowned e))
                                   (put (w_col w) a (ro, c')) (w_obj w), Ok tt)
                    | _ => (w, r)
                    end
                | None => (w, UB UBNullDeref)
                end
      | Throw x => (w, Throw x)
      | UB u => (w, UB u)
      end
  | V_add a name => on (ev_add e a name)
  | V_remove name => on (ev_remove e name)
  | V_setRunNumber v => on (guarded (es_ro e) e (Ok (mkES (es_ro e) v (es_num e) (es_time e) (es_det e) (es_par e) (es_cols e) (es_notowned e))))
  | V_setEventNumber v => on (guarded (es_ro e) e (Ok (mkES (es_ro e) (es_run e) v (es_time e) (es_det e) (es_par e) (es_cols e) (es_notowned e))))
  | V_setDetectorName v => on (guarded (es_ro e) e (Ok (mkES (es_ro e) (es_run e) (es_num e) (es_time e) v (es_par e) (es_cols e) (es_notowned e))))
  | V_setTimeStamp v => on (guarded (es_ro e) e (Ok (mkES (es_ro e) (es_run e) (es_num e) v (es_det e) (es_par e) (es_cols e) (es_notowned e))))
  | V_setWeight v => on (guarded (es_ro e) e (Ok (mkES (es_ro e) (es_run e) (es_num e) (es_time e) (es_det e) (fst (par_do false (es_par e) (P_setFloat evt_wgt v))) (es_cols e) (es_notowned e))))
  | V_setAccessMode m => (set_access_mode w m, Ok tt)
  | V_parameters pc => let (p, r) := par_do false (es_par e) pc in
                       on (mkES (es_ro e) (es_run e) (es_num e) (es_time e) (es_det e) p (es_cols e) (es_notowned e), r)
  end.

(** ** Programs *)
(** MCParticleImpl::addParent, src/cpp/src/IMPL/MCParticleImpl.cc:218-232: changes the particle, then the
    parent; a parent that is no MCParticleImpl (or null) is only listed *)
Definition add_parent (w : world) (a parent : addr) : world * Res unit :=
  match w_obj w a with
  | Some (ro, OMC o) =>
      if ro then (w, Throw LReadOnly) else
      if existsb (Z.eqb parent) (mc_parents o) then (w, Ok tt) else
      let o' := mkMC (mc_parents o ++ [parent]) (mc_pdg o) (mc_gen o) (mc_sim o) (mc_vertex o) (mc_time o) (mc_p o) (mc_mass o)
                     (mc_charge o) (mc_endpoint o) (mc_pend o) (mc_spin o) (mc_color o) (mc_daughters o) in
      let f := put (w_obj w) a (ro, OMC o') in
      match f parent with
      | Some (mro, OMC m) =>
          let (m', r) := mc_do mro m (MC_addDaughter a) in
          (mkW (w_ev w) (w_col w) (put f parent (mro, OMC m')), r)
      | _ => (mkW (w_ev w) (w_col w) f, Ok tt)
      end
  | _ => (w, UB UBNullDeref)
  end.

(** a call on the event, on a collection, on an element,
    a program in terms of the functions above, LCEventImpl.cc:92-190 *)
Inductive wcall := WEv (c : evcall) | WCol (a : addr) (c : ccall) | WObj (a : addr) (c : ecall) | WParent (a parent : addr).
(** a call through a pointer to nothing is undefined,
    LCEventImpl.cc:92-190, LCCollectionVec.cc and the setters cited above *)
Definition exec (w : world) (c : wcall) : world * Res unit :=
  match c with
  | WEv x => ev_do w x
  | WCol a x => match w_col w a with
                | Some (ro, c) => let (c', r) := coll_do ro c x in (mkW (w_ev w) (put (w_col w) a (ro, c')) (w_obj w), r)
                | None => (w, UB UBNullDeref)
                end
  | WObj a x => match w_obj w a with
                | Some (ro, o) => let (o', r) := obj_do ro o x in (mkW (w_ev w) (w_col w) (put (w_obj w) a (ro, o')), r)
                | None => (w, UB UBNullDeref)
                end
  | WParent a p => add_parent w a p
  end.
(** a program that catches exceptions and carries on, no code of its own: a program that uses LCEventImpl.cc:92-190 *)
Definition run (w : world) (cs : list wcall) : world := fold_left (fun w c => fst (exec w c)) cs w.

End Calls.
