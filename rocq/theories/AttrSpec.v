(** * What the attributes of an object are: the initial values and the effect of each modifying call

    Read off the interface: a setter gives the attribute its new value, an adder appends, and nothing else changes. *)
From Coq Require Import ZArith List Bool Lia.
From Verif Require Import Bytes SioModel ObjModel ImplModel AttrModel.
Import ListNotations.
Open Scope Z_scope.

(** ** The attributes of a class and their values in a new object *)
Definition n0 := VNum 0.
Definition none := VList [].
Definition zeros (n : nat) := VList (repeat 0 n).
Definition initial (t : otype) : list (attr * aval) :=
  match t with
  | TCH =>
      [ (ACellID0, n0); (ACellID1, n0); (AEnergy, n0); (AEnergyError, n0); (ATime, n0); (APosition, zeros 3); 
        (AType, n0); (ARawHit, n0) ]
  | TRCH =>
      [ (ACellID0, n0); (ACellID1, n0); (AAmplitude, n0); (ATimeStamp, n0) ]
  | TSCH =>
      [ (ACellID0, n0); (ACellID1, n0); (AEnergy, n0); (APosition, zeros 3); (AContributions, VConts []) ]
  | TSTH =>
      [ (ACellID, n0); (ACellID0, n0); (ACellID1, n0); (APosition, zeros 3); (AdEdx, n0); (AEDep, n0); 
        (ATime, n0); (AMCParticle, n0); (AMomentum, zeros 3); (APathLength, n0); (AQuality, n0) ]
  | TTPC =>
      [ (ACellID, n0); (ATime, n0); (ACharge, n0); (AQuality, n0); (AWords, none) ]
  | TTRD =>
      [ (ACellID0, n0); (ACellID1, n0); (ATime, n0); (AADCValues, none) ]
  | TTD =>
      [ (ACellID0, n0); (ACellID1, n0); (ATime, n0); (AChargeValues, none) ]
  | TTPu =>
      [ (ACellID0, n0); (ACellID1, n0); (ATime, n0); (ACharge, n0); (ACovMatrix, zeros 3); (AQuality, n0); 
        (ATrackerData, n0) ]
  | TTH =>
      [ (ACellID0, n0); (ACellID1, n0); (AType, n0); (APosition, zeros 3); (ACovMatrix, zeros 6); (AdEdx, n0); 
        (AEDep, n0); (AEDepError, n0); (ATime, n0); (AQuality, n0); (ARawHits, none) ]
  | TTHP =>
      [ (ACellID0, n0); (ACellID1, n0); (AType, n0); (APosition, zeros 3); (AU, zeros 2); (AV, zeros 2); 
        (AdU, n0); (AdV, n0); (ACovMatrix, zeros 6); (AdEdx, n0); (AEDep, n0); (AEDepError, n0); (ATime, n0); 
        (AQuality, n0); (ARawHits, none) ]
  | TTHZ =>
      [ (ACellID0, n0); (ACellID1, n0); (AType, n0); (APosition, zeros 3); (ACenter, zeros 2); (AdRPhi, n0); 
        (AdZ, n0); (ACovMatrix, zeros 6); (AdEdx, n0); (AEDep, n0); (AEDepError, n0); (ATime, n0); 
        (AQuality, n0); (ARawHits, none) ]
  | TTRK =>
      [ (AType, n0); (AD0, n0); (APhi, n0); (AOmega, n0); (AZ0, n0); (ATanLambda, n0); (ACovMatrix, zeros 15); 
        (AReferencePoint, zeros 3); (AChi2, n0); (ANdf, n0); (AdEdx, n0); (AdEdxError, n0); (ARadius, n0); 
        (AHitNumbers, none); (AHits, none); (ATracks, none); (AStates, VStates []) ]
  | TCL =>
      [ (AType, n0); (AEnergy, n0); (AEnergyError, n0); (APosition, zeros 3); (APositionError, zeros 6); 
        (AITheta, n0); (AIPhi, n0); (ADirectionError, zeros 3); (AShape, none); (AParticleIDs, VPids []); 
        (AClusters, none); (AHits, none); (AHitContributions, none); (ASubdetectorEnergies, none) ]
  | TVX =>
      [ (APrimary, VBool false); (AAlgorithmType, VText (str "Unknown")); (AChi2, n0); (AProbability, n0); 
        (APosition, zeros 3); (ACovMatrix, zeros 6); (AParameters, none); (AAssociatedParticle, n0) ]
  | TRP =>
      [ (AType, n0); (AMomentum, zeros 3); (AEnergy, n0); (ACovMatrix, zeros 10); (AMass, n0); (ACharge, n0); 
        (AReferencePoint, zeros 3); (AParticleIDs, VAPids []); (AParticleIDUsed, n0); (AGoodnessOfPID, n0); 
        (AParticles, none); (AClusters, none); (ATracks, none); (AStartVertex, n0) ]
  | TMC =>
      [ (AParents, none); (ADaughters, none); (APDG, n0); (AGeneratorStatus, n0); (ASimulatorStatus, n0); 
        (AVertex, zeros 3); (ATime, n0); (AMomentum, zeros 3); (AMomentumAtEndpoint, zeros 3); (AMass, n0); 
        (ACharge, n0); (AEndpoint, zeros 3); (ASpin, zeros 3); (AColorFlow, zeros 2) ]
  | TREL =>
      [ (AFrom, n0); (ATo, n0); (AWeight, VNum 1065353216) ]
  | TGO =>
      [ (AInts, none); (AFloats, none); (ADoubles, none); (AFixedSize, VBool false); 
        (ATypeName, VText (str "LCGenericObject")); (ADataDescription, VText []) ]
  | TINT | TFLT => [ (AValues, none) ]
  | TSTR => [ (AValues, VTexts []) ]
  end.

(** ** The effect of a call on one attribute *)
Inductive effect :=
| ESet (v : aval)                    (* has the value *)
| EAppend (l : list Z)               (* the list is continued *)
| EBit (i : Z) (b : bool)            (* bit [i] is [b], the other 31 bits are as before *)
| EPlus (x : Z)                      (* the number is added *)
| EPut (i : Z) (v : Z)               (* element [i] has the value; new elements before it are 0 *)
| EAddContribution (c : mccont)      (* one more contribution *)
| EAddShort (p : addr) (e t : Z)     (* the energy is added to the contribution of the particle, or one more contribution *)
| EAddPid (p : pid)                  (* one more, in the order of std::sort *)
| EAddAPid (p : addr * pid)
| EOneState                          (* one track state, at the location of the only one before *)
| ESetStates (l : list tstate)
| EAddStates (l : list tstate)
| EMoveState (i : nat) (loc : Z)     (* state [i] has this location *)
| EOfFirst (f : tstate -> aval) (d : aval) (* as in the first track state, [d] without states *)
| EOverwrite (l : list Z).           (* the first elements are those given, the others as before *)

Section Effects.
Context (fadd : Z -> Z -> Z) (srt : forall A : Type, (A -> Z) -> list A -> list A).
(** [old] and [new]: the getters before and after the call *)
Definition meets (old new : attr -> option aval) (a : attr) (e : effect) : Prop :=
  match e with
  | ESet v => new a = Some v
  | EAppend l => exists l0, old a = Some (VList l0) /\ new a = Some (VList (l0 ++ l))
  | EBit i b => exists q q', old a = Some (VNum q) /\ new a = Some (VNum q') /\
                (forall k, 0 <= k < 32 -> Z.testbit q' k = if k =? i then b else Z.testbit q k) /\ (is_i32 q -> is_i32 q')
  | EPlus x => exists q, old a = Some (VNum q) /\ new a = Some (VNum (fadd q x))
  | EPut i v => exists l l', old a = Some (VList l) /\ new a = Some (VList l') /\
                Zlen l' = Z.max (Zlen l) (i + 1) /\
                (forall k, 0 <= k < Zlen l' -> nth (Z.to_nat k) l' 0 = if k =? i then v else nth (Z.to_nat k) l 0)
  | EAddContribution c => exists l, old a = Some (VConts l) /\ new a = Some (VConts (l ++ [c]))
  | EAddShort p en t => exists l l', old a = Some (VConts l) /\ new a = Some (VConts l') /\
      ((~ In p (map co_part l) /\ l' = l ++ [mkCont p en t 0 0 [0; 0; 0]]) \/
       (exists l1 c l2, l = l1 ++ c :: l2 /\ ~ In p (map co_part l1) /\ co_part c = p /\
          l' = l1 ++ mkCont p (fadd (co_energy c) en) (co_time c) (co_length c) (co_pdg c) (co_pos c) :: l2))
  | EAddPid p => exists l, old a = Some (VPids l) /\ new a = Some (VPids (srt pid pi_like (l ++ [p])))
  | EAddAPid p => exists l, old a = Some (VAPids l) /\ new a = Some (VAPids (srt (addr * pid)%type (fun x => pi_like (snd x)) (l ++ [p])))
  | EOneState => exists l t, old a = Some (VStates l) /\ new a = Some (VStates [t]) /\ ts_loc t = match l with [] => 0 | t0 :: _ => ts_loc t0 end
  | ESetStates l => new a = Some (VStates l)
  | EAddStates l => exists l0, old a = Some (VStates l0) /\ new a = Some (VStates (l0 ++ l))
  | EMoveState i loc => exists l1 t l2, old a = Some (VStates (l1 ++ t :: l2)) /\ length l1 = i /\
      new a = Some (VStates (l1 ++ mkTS loc (ts_d0 t) (ts_phi t) (ts_omega t) (ts_z0 t) (ts_tanl t) (ts_cov t) (ts_ref t) :: l2))
  | EOfFirst f d => exists l, new AStates = Some (VStates l) /\ new a = Some (match l with [] => d | t :: _ => f t end)
  | EOverwrite l => exists l0 l1 l2, old a = Some (VList l0) /\ l0 = l1 ++ l2 /\ length l1 = length l /\ new a = Some (VList (l ++ l2))
  end.
End Effects.

(** ** The effects of the calls *)
Definition num (a : attr) (v : Z) := [(a, ESet (VNum v))].
Definition lst (a : attr) (v : list Z) := [(a, ESet (VList v))].
(** an array of [n] numbers *)
Definition vec (a : attr) (n : nat) (v : list Z) := [(a, ESet (VList (firstn n v)))].
(** the deprecated getdEdx gives the deposited energy *)
Definition edep (v : Z) := [(AEDep, ESet (VNum v)); (AdEdx, ESet (VNum v))].
(** the attributes of a track that are those of its first state *)
Definition of_first :=
  [ (AD0, EOfFirst (fun t => VNum (ts_d0 t)) (VNum 0)); (APhi, EOfFirst (fun t => VNum (ts_phi t)) (VNum 0));
    (AOmega, EOfFirst (fun t => VNum (ts_omega t)) (VNum 0)); (AZ0, EOfFirst (fun t => VNum (ts_z0 t)) (VNum 0));
    (ATanLambda, EOfFirst (fun t => VNum (ts_tanl t)) (VNum 0)); (ACovMatrix, EOfFirst (fun t => VList (ts_cov t)) (zeros 15));
    (AReferencePoint, EOfFirst (fun t => VList (ts_ref t)) (zeros 3)) ].

Definition effects (e : ecall) : list (attr * effect) :=
  match e with
  | ECH c => match c with
      | CH_setCellID0 v => num ACellID0 v | CH_setCellID1 v => num ACellID1 v | CH_setEnergy v => num AEnergy v
      | CH_setEnergyError v => num AEnergyError v | CH_setTime v => num ATime v | CH_setPosition v => vec APosition 3 v
      | CH_setType v => num AType v | CH_setRawHit v => num ARawHit v end
  | ERCH c => match c with
      | RCH_setCellID0 v => num ACellID0 v | RCH_setCellID1 v => num ACellID1 v
      | RCH_setAmplitude v => num AAmplitude v | RCH_setTimeStamp v => num ATimeStamp v end
  | ESCH c => match c with
      | SCH_setCellID0 v => num ACellID0 v | SCH_setCellID1 v => num ACellID1 v | SCH_setEnergy v => num AEnergy v
      | SCH_setPosition v => vec APosition 3 v
      | SCH_addShort p en t => [(AEnergy, EPlus en); (AContributions, EAddShort p en t)]
      | SCH_addDetailed p en t l g None => [(AEnergy, EPlus en); (AContributions, EAddContribution (mkCont p en t l g [0; 0; 0]))]
      | SCH_addDetailed p en t l g (Some s) => [(AEnergy, EPlus en); (AContributions, EAddContribution (mkCont p en t l g (firstn 3 s)))] end
  | ESTH c => match c with
      | STH_setCellID0 v => num ACellID0 v ++ num ACellID v | STH_setCellID1 v => num ACellID1 v | STH_setPosition v => vec APosition 3 v
      | STH_setdEdx v => edep v | STH_setEDep v => edep v | STH_setTime v => num ATime v | STH_setMCParticle v => num AMCParticle v
      | STH_setMomentum v => vec AMomentum 3 v | STH_setPathLength v => num APathLength v | STH_setQuality v => num AQuality v
      | STH_setQualityBit i b => [(AQuality, EBit i b)] | STH_setOverlay b => [(AQuality, EBit 31 b)]
      | STH_setProducedBySecondary b => [(AQuality, EBit 30 b)] end
  | ETPC c => match c with
      | TPC_setCellID v => num ACellID v | TPC_setTime v => num ATime v | TPC_setCharge v => num ACharge v
      | TPC_setQuality v => num AQuality v | TPC_setRawData v => lst AWords v | TPC_initRawArray v => lst AWords v end
  | ETRD c => match c with
      | TRD_setCellID0 v => num ACellID0 v | TRD_setCellID1 v => num ACellID1 v | TRD_setTime v => num ATime v
      | TRD_setADCValues v => lst AADCValues v | TRD_adcValues v => lst AADCValues v end
  | ETD c => match c with
      | TD_setCellID0 v => num ACellID0 v | TD_setCellID1 v => num ACellID1 v | TD_setTime v => num ATime v
      | TD_setChargeValues v => lst AChargeValues v | TD_chargeValues v => lst AChargeValues v end
  | ETPu c => match c with
      | TPu_setCellID0 v => num ACellID0 v | TPu_setCellID1 v => num ACellID1 v | TPu_setTime v => num ATime v
      | TPu_setCharge v => num ACharge v | TPu_setCovMatrix v => vec ACovMatrix 3 v | TPu_setQuality v => num AQuality v
      | TPu_setQualityBit i b => [(AQuality, EBit i b)] | TPu_setTrackerData v => num ATrackerData v end
  | ETH c => match c with
      | TH_rawHits v => lst ARawHits v | TH_setCellID0 v => num ACellID0 v | TH_setCellID1 v => num ACellID1 v | TH_setType v => num AType v
      | TH_setPosition v => vec APosition 3 v | TH_setdEdx v => edep v | TH_setEDep v => edep v | TH_setEDepError v => num AEDepError v
      | TH_setTime v => num ATime v | TH_setQuality v => num AQuality v | TH_setQualityBit i b => [(AQuality, EBit i b)]
      | TH_setCovMatrix v => vec ACovMatrix 6 v end
  | ETHP c => match c with
      | THP_rawHits v => lst ARawHits v | THP_setCellID0 v => num ACellID0 v | THP_setCellID1 v => num ACellID1 v | THP_setType v => num AType v
      | THP_setPosition v => vec APosition 3 v | THP_setU x y => lst AU [x; y] | THP_setV x y => lst AV [x; y]
      | THP_setdU v => num AdU v | THP_setdV v => num AdV v | THP_setEDep v => edep v | THP_setEDepError v => num AEDepError v
      | THP_setTime v => num ATime v | THP_setQuality v => num AQuality v | THP_setQualityBit i b => [(AQuality, EBit i b)] end
  | ETHZ c => match c with
      | THZ_rawHits v => lst ARawHits v | THZ_setCellID0 v => num ACellID0 v | THZ_setCellID1 v => num ACellID1 v | THZ_setType v => num AType v
      | THZ_setPosition v => vec APosition 3 v | THZ_setCenter x y => lst ACenter [x; y]
      | THZ_setdRPhi v => num AdRPhi v | THZ_setdZ v => num AdZ v | THZ_setEDep v => edep v | THZ_setEDepError v => num AEDepError v
      | THZ_setTime v => num ATime v | THZ_setQuality v => num AQuality v | THZ_setQualityBit i b => [(AQuality, EBit i b)] end
  | ETRK c => match c with
      | TRK_setTypeBit i b => [(AType, EBit i b)] | TRK_setType v => num AType v
      | TRK_setD0 v => (AStates, EOneState) :: num AD0 v | TRK_setPhi v => (AStates, EOneState) :: num APhi v
      | TRK_setOmega v => (AStates, EOneState) :: num AOmega v | TRK_setZ0 v => (AStates, EOneState) :: num AZ0 v
      | TRK_setTanLambda v => (AStates, EOneState) :: num ATanLambda v
      | TRK_setCovMatrix v => [(AStates, EOneState); (ACovMatrix, EOverwrite (firstn 15 v))]
      | TRK_setReferencePoint v => (AStates, EOneState) :: vec AReferencePoint 3 v
      | TRK_setChi2 v => num AChi2 v | TRK_setNdf v => num ANdf v | TRK_setdEdx v => num AdEdx v | TRK_setdEdxError v => num AdEdxError v
      | TRK_addHit v => [(AHits, EAppend [v])] | TRK_addTrack v => [(ATracks, EAppend [v])]
      | TRK_addTrackState v => (AStates, EAddStates [v]) :: of_first | TRK_trackStates v => (AStates, ESetStates v) :: of_first
      | TRK_subdetectorHitNumbers v => lst AHitNumbers v | TRK_setRadiusOfInnermostHit v => num ARadius v
      | TRK_assign o => num AType (tr_type o) ++ num AChi2 (tr_chi2 o) ++ num ANdf (tr_ndf o) ++ num AdEdx (tr_dedx o) ++
          num AdEdxError (tr_dedxerr o) ++ num ARadius (tr_radius o) ++
          [(AHitNumbers, EAppend (tr_hitnums o)); (ATracks, EAppend (tr_tracks o)); (AHits, EAppend (tr_hits o)); (AStates, EAddStates (tr_states o))]
          ++ of_first
      | TRK_stateSetLocation i loc => [(AStates, EMoveState i loc)] end
  | ECL c => match c with
      | CL_setType v => num AType v | CL_setEnergy v => num AEnergy v | CL_setEnergyError v => num AEnergyError v
      | CL_setPosition v => vec APosition 3 v | CL_setPositionError v => vec APositionError 6 v | CL_setITheta v => num AITheta v
      | CL_setIPhi v => num AIPhi v | CL_setDirectionError v => vec ADirectionError 3 v | CL_setShape v => [(AShape, EAppend v)]
      | CL_addParticleID v => [(AParticleIDs, EAddPid v)] | CL_addCluster v => [(AClusters, EAppend [v])]
      | CL_addHit h w => [(AHits, EAppend [h]); (AHitContributions, EAppend [w])] | CL_setTypeBit i b => [(AType, EBit i b)]
      | CL_subdetectorEnergies v => lst ASubdetectorEnergies v end
  | EVX c => match c with
      | VX_setPrimary b => [(APrimary, ESet (VBool b))] | VX_setAlgorithmType v => [(AAlgorithmType, ESet (VText v))]
      | VX_setChi2 v => num AChi2 v | VX_setProbability v => num AProbability v | VX_setPosition v => vec APosition 3 v
      | VX_setCovMatrix v => vec ACovMatrix 6 v | VX_setAssociatedParticle v => num AAssociatedParticle v
      | VX_addParameter v => [(AParameters, EAppend [v])] end
  | ERP c => match c with
      | RP_setStartVertex v => num AStartVertex v | RP_setType v => num AType v | RP_setMomentum v => vec AMomentum 3 v
      | RP_setEnergy v => num AEnergy v | RP_setCovMatrix v => vec ACovMatrix 10 v | RP_setMass v => num AMass v | RP_setCharge v => num ACharge v
      | RP_setReferencePoint v => vec AReferencePoint 3 v | RP_setParticleIDUsed v => num AParticleIDUsed v
      | RP_setGoodnessOfPID v => num AGoodnessOfPID v | RP_addParticleID v => [(AParticleIDs, EAddAPid v)]
      | RP_addParticle v => [(AParticles, EAppend [v])] | RP_addCluster v => [(AClusters, EAppend [v])] | RP_addTrack v => [(ATracks, EAppend [v])] end
  | EMC c => match c with
      | MC_addDaughter v => [(ADaughters, EAppend [v])] | MC_setPDG v => num APDG v | MC_setGeneratorStatus v => num AGeneratorStatus v
      | MC_setSimulatorStatus v => num ASimulatorStatus v | MC_setVertex v => vec AVertex 3 v | MC_setTime v => num ATime v
      | MC_setMomentum v => vec AMomentum 3 v | MC_setMomentumAtEndpoint v => vec AMomentumAtEndpoint 3 v | MC_setMass v => num AMass v
      | MC_setCharge v => num ACharge v | MC_setEndpoint v => (ASimulatorStatus, EBit 31 true) :: vec AEndpoint 3 v
      | MC_setSpin v => vec ASpin 3 v | MC_setColorFlow v => vec AColorFlow 2 v
      | MC_setCreatedInSimulation b => [(ASimulatorStatus, EBit 30 b)] | MC_setBackscatter b => [(ASimulatorStatus, EBit 29 b)]
      | MC_setVertexIsNotEndpointOfParent b => [(ASimulatorStatus, EBit 28 b)] | MC_setDecayedInTracker b => [(ASimulatorStatus, EBit 27 b)]
      | MC_setDecayedInCalorimeter b => [(ASimulatorStatus, EBit 26 b)] | MC_setHasLeftDetector b => [(ASimulatorStatus, EBit 25 b)]
      | MC_setStopped b => [(ASimulatorStatus, EBit 24 b)] | MC_setOverlay b => [(ASimulatorStatus, EBit 23 b)] end
  | EREL c => match c with REL_setFrom v => num AFrom v | REL_setTo v => num ATo v | REL_setWeight v => num AWeight v end
  | EGO c => match c with
      | GO_setIntVal i v => [(AInts, EPut i v)] | GO_setFloatVal i v => [(AFloats, EPut i v)] | GO_setDoubleVal i v => [(ADoubles, EPut i v)] end
  | EVEC c => match c with
      | V_assignInts l => lst AValues l | V_assignFloats l => lst AValues l | V_assignStrings l => [(AValues, ESet (VTexts l))] end
  end.

(** the attributes a call concerns *)
Definition concerned (e : ecall) : list attr := map fst (effects e).

(** the arguments are what the C++ types allow: 32 bit numbers *)
Definition in_range (e : ecall) : Prop :=
  match e with
  | EMC (MC_setSimulatorStatus v) => is_i32 v
  | EGO (GO_setIntVal i _) | EGO (GO_setFloatVal i _) | EGO (GO_setDoubleVal i _) => 0 <= i < two32
  | _ => True
  end.

(** ** Which calls succeed on an object that may be modified *)
Definition call_class (e : ecall) : otype :=
  match e with
  | ECH _ => TCH | ERCH _ => TRCH | ESCH _ => TSCH | ESTH _ => TSTH | ETPC _ => TTPC | ETRD _ => TTRD | ETD _ => TTD | ETPu _ => TTPu
  | ETH _ => TTH | ETHP _ => TTHP | ETHZ _ => TTHZ | ETRK _ => TTRK | ECL _ => TCL | EVX _ => TVX | ERP _ => TRP | EMC _ => TMC
  | EREL _ => TREL | EGO _ => TGO
  | EVEC (V_assignInts _) => TINT | EVEC (V_assignFloats _) => TFLT | EVEC (V_assignStrings _) => TSTR
  end.
(** the array argument and the number of its elements that are read *)
Definition array_arg (e : ecall) : option (nat * list Z) :=
  match e with
  | ECH (CH_setPosition v) | ESCH (SCH_setPosition v) | ESCH (SCH_addDetailed _ _ _ _ _ (Some v)) | ESTH (STH_setPosition v) | ESTH (STH_setMomentum v)
  | ETPu (TPu_setCovMatrix v) | ETH (TH_setPosition v) | ETHP (THP_setPosition v) | ETHZ (THZ_setPosition v) | ETRK (TRK_setReferencePoint v)
  | ECL (CL_setPosition v) | ECL (CL_setDirectionError v) | EVX (VX_setPosition v) | ERP (RP_setMomentum v) | ERP (RP_setReferencePoint v)
  | EMC (MC_setVertex v) | EMC (MC_setMomentum v) | EMC (MC_setMomentumAtEndpoint v) | EMC (MC_setEndpoint v) | EMC (MC_setSpin v) => Some (3%nat, v)
  | ETH (TH_setCovMatrix v) | ECL (CL_setPositionError v) | EVX (VX_setCovMatrix v) => Some (6%nat, v)
  | ERP (RP_setCovMatrix v) => Some (10%nat, v)
  | ETRK (TRK_setCovMatrix v) => Some (15%nat, v)
  | EMC (MC_setColorFlow v) => Some (2%nat, v)
  | _ => None
  end.
Definition bit_arg (e : ecall) : option Z :=
  match e with
  | ESTH (STH_setQualityBit i _) | ETPu (TPu_setQualityBit i _) | ETH (TH_setQualityBit i _) | ETHP (THP_setQualityBit i _)
  | ETHZ (THZ_setQualityBit i _) | ETRK (TRK_setTypeBit i _) | ECL (CL_setTypeBit i _) => Some i
  | _ => None
  end.
(** the setters of a track that work on its only state *)
Definition one_state_call (e : ecall) : bool :=
  match e with
  | ETRK (TRK_setD0 _) | ETRK (TRK_setPhi _) | ETRK (TRK_setOmega _) | ETRK (TRK_setZ0 _) | ETRK (TRK_setTanLambda _)
  | ETRK (TRK_setCovMatrix _) | ETRK (TRK_setReferencePoint _) => true
  | _ => false
  end.
(** setIntVal and the others: the element exists, or the object has no fixed size; the last index would need 2^32 elements *)
Definition go_succeeds (vals fixed : option aval) (i : Z) : Prop :=
  exists l f, vals = Some (VList l) /\ fixed = Some (VBool f) /\ (i < Zlen l \/ (f = false /\ i < two32 - 1)).
Definition succeeds (get : attr -> option aval) (e : ecall) : Prop :=
  (forall n v, array_arg e = Some (n, v) -> (n <= length v)%nat) /\
  (forall i, bit_arg e = Some i -> 0 <= i <= 31) /\
  (one_state_call e = true -> exists l, get AStates = Some (VStates l) /\ (length l <= 1)%nat) /\
  match e with
  | ETRK (TRK_setCovMatrix _) => exists l, get ACovMatrix = Some (VList l) /\ (15 <= length l)%nat
  | ETRK (TRK_addTrackState t) => ts_loc t = 0 \/ exists l, get AStates = Some (VStates l) /\ ~ In (ts_loc t) (map ts_loc l)
  | ETRK (TRK_stateSetLocation i _) => exists l, get AStates = Some (VStates l) /\ (i < length l)%nat
  | EGO (GO_setIntVal i _) => go_succeeds (get AInts) (get AFixedSize) i
  | EGO (GO_setFloatVal i _) => go_succeeds (get AFloats) (get AFixedSize) i
  | EGO (GO_setDoubleVal i _) => go_succeeds (get ADoubles) (get AFixedSize) i
  | _ => True
  end.
