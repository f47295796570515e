(** * What is expected of parameters, events, tracks, particles and hits *)
From Coq Require Import ZArith List Bool.
From Verif Require Import Bytes StrMap SioModel ObjModel FlagModel ImplModel.
Import ListNotations.
Open Scope Z_scope.

(** ** Histories *)

(** the last value given by [f] to a call of the history *)
Definition last_of {C V} (f : C -> option V) (cs : list C) : option V :=
  fold_left (fun acc c => match f c with Some v => Some v | None => acc end) cs None.

(** the vector a call stores for the key [k] in the map of integers, floats, strings *)
Definition ints_set (k : bytes) (c : par_call) : option (list Z) :=
  match c with
  | P_setInt k' v => if bytes_dec k' k then Some [v] else None
  | P_setInts k' l => if bytes_dec k' k then Some l else None
  | _ => None
  end.
Definition floats_set (k : bytes) (c : par_call) : option (list Z) :=
  match c with
  | P_setFloat k' v => if bytes_dec k' k then Some [v] else None
  | P_setFloats k' l => if bytes_dec k' k then Some l else None
  | _ => None
  end.
Definition strings_set (k : bytes) (c : par_call) : option (list bytes) :=
  match c with
  | P_setString k' v => if bytes_dec k' k then Some [v] else None
  | P_setStrings k' l => if bytes_dec k' k then Some l else None
  | _ => None
  end.
(** parameters after a history of calls that change them *)
Definition params_after (cs : list par_call) : params := fold_left (fun p c => fst (par_do false p c)) cs no_params.
(** the getters for the key [k] of a map for which [l] was last set *)
Definition getters_give {V} (d : V) (m : list (bytes * list V)) (k : bytes) (l : option (list V)) : Prop :=
  (forall buf, par_vals m k buf = buf ++ match l with Some v => v | None => [] end) /\
  par_val d m k = match l with None => Ok d | Some [] => UB UBOutOfBounds | Some (v :: _) => Ok v end /\
  par_n m k = match l with None => 0 | Some v => s32 (Zlen v) end /\
  (In k (par_keys m []) <-> l <> None).

(** ** The collections of an event *)

(** a program and the outcomes of its calls *)
Fixpoint outcomes (fadd : Z -> Z -> Z) (srt : forall A : Type, (A -> Z) -> list A -> list A) (w : world) (cs : list wcall)
  : list (wcall * Res unit) :=
  match cs with
  | [] => []
  | c :: cs' => (c, snd (exec fadd srt w c)) :: outcomes fadd srt (fst (exec fadd srt w c)) cs'
  end.
(** the collection present under a name after a history of calls *)
Definition present (h : list (wcall * Res unit)) (name : bytes) : option addr :=
  fold_left (fun acc cr => match cr with
                           | (WEv (V_add a n), Ok _) => if bytes_dec n name then Some a else acc
                           | (WEv (V_remove n), Ok _) => if bytes_dec n name then None else acc
                           | _ => acc
                           end) h None.

(** identifiers of C *)
Definition letter (z : Z) : Prop := 65 <= z <= 90 \/ 97 <= z <= 122 \/ z = 95.
Definition letter_or_digit (z : Z) : Prop := letter z \/ 48 <= z <= 57.
Definition identifier (n : bytes) : Prop :=
  match n with [] => False | b :: s => letter (Zb b) /\ Forall (fun c => letter_or_digit (Zb c)) s end.
(** names that are the same as C strings and as C++ strings *)
Definition no_nul (n : bytes) : Prop := Forall (fun b => Zb b <> 0) n.

(** ** Track states *)

(** calls of a track that work on the track states *)
Definition states_call (c : trk_call) : bool :=
  match c with
  | TRK_setD0 _ | TRK_setPhi _ | TRK_setOmega _ | TRK_setZ0 _ | TRK_setTanLambda _ | TRK_setCovMatrix _
  | TRK_setReferencePoint _ | TRK_addTrackState _ | TRK_trackStates _ | TRK_assign _ | TRK_stateSetLocation _ _ => true
  | _ => false
  end.
(** calls that hand out or copy in track states without going through addTrackState *)
Definition raw_states_call (c : trk_call) : bool :=
  match c with TRK_trackStates _ | TRK_assign _ | TRK_stateSetLocation _ _ => true | _ => false end.
(** a new track, src/cpp/src/IMPL/TrackImpl.cc:13-20 *)
Definition new_track : track := mkTRK 0 [] 0 0 0 0 0 [] [] [].
(** the track after a history of calls *)
Definition track_after (cs : list trk_call) : track := fold_left (fun o c => fst (trk_do false o c)) cs new_track.
(** the first state a history adds at a location *)
Fixpoint first_added (cs : list trk_call) (loc : Z) : option tstate :=
  match cs with
  | [] => None
  | TRK_addTrackState t :: cs' => if ts_loc t =? loc then Some t else first_added cs' loc
  | _ :: cs' => first_added cs' loc
  end.

(** ** Family links of Monte Carlo particles *)

(** how often [x] is in a list *)
Definition times (x : Z) (l : list Z) : nat := count_occ Z.eq_dec l x.
(** the particle at an address *)
Definition particle (w : world) (a : addr) (o : mcp) : Prop := exists ro, w_obj w a = Some (ro, OMC o).
(** parents and daughters mirror each other and no pair is listed twice *)
Definition mirrored (w : world) : Prop :=
  forall d p od op, particle w d od -> particle w p op ->
    times p (mc_parents od) = times d (mc_daughters op) /\ (times p (mc_parents od) <= 1)%nat.
(** no object is read only *)
Definition modifiable (w : world) : Prop := forall a ro o, w_obj w a = Some (ro, o) -> ro = false.
(** the calls in question: everything but the direct use of addDaughter and the change of the access mode *)
Definition family_call (c : wcall) : bool :=
  match c with WObj _ (EMC (MC_addDaughter _)) => false | WEv (V_setAccessMode _) => false | _ => true end.

(** ** Contributions to a simulated hit *)

(** the hit after a history of calls *)
Definition hit_after (fadd : Z -> Z -> Z) (o : simcalhit) (cs : list sch_call) : simcalhit :=
  fold_left (fun o c => fst (sch_do fadd false o c)) cs o.
Definition is_short (c : sch_call) : Prop := match c with SCH_addShort _ _ _ => True | _ => False end.
Definition is_detailed (c : sch_call) : Prop :=
  match c with SCH_addDetailed _ _ _ _ _ None => True | SCH_addDetailed _ _ _ _ _ (Some s) => length s = 3%nat | _ => False end.
(** the energies handed over, in the order of the calls *)
Definition energy_of (c : sch_call) : list Z :=
  match c with SCH_addShort _ e _ => [e] | SCH_addDetailed _ e _ _ _ _ => [e] | _ => [] end.
(** energies and times of the contributions of the particle [p] *)
Definition from_particle (p : addr) (c : sch_call) : list (Z * Z) :=
  match c with SCH_addShort p' e t => if p' =? p then [(e, t)] else [] | _ => [] end.
(** the entry of a particle with these contributions *)
Definition short_entry (fadd : Z -> Z -> Z) (p : addr) (l : list (Z * Z)) : option mccont :=
  match l with [] => None | (e, t) :: l' => Some (mkCont p (fold_left fadd (map fst l') e) t 0 0 [0; 0; 0]) end.
(** the entry of a detailed call *)
Definition detailed_entry (c : sch_call) : list mccont :=
  match c with
  | SCH_addDetailed p e t l pdg s => [mkCont p e t l pdg (match s with Some x => x | None => [0; 0; 0] end)]
  | _ => []
  end.
(** the particle of a contribution *)
Definition part_of (c : sch_call) : list addr :=
  match c with SCH_addShort p _ _ => [p] | SCH_addDetailed p _ _ _ _ _ => [p] | _ => [] end.

(** ** Read only data *)

(** the calls the library does not check: on elements *)
Definition unchecked_elem (e : ecall) : bool :=
  match e with
  | ETPC (TPC_initRawArray _)
  | ETHP (THP_rawHits _) | ETHZ (THZ_rawHits _)
  | ETRK (TRK_setD0 _) | ETRK (TRK_setPhi _) | ETRK (TRK_setOmega _) | ETRK (TRK_setZ0 _) | ETRK (TRK_setTanLambda _)
  | ETRK (TRK_setCovMatrix _) | ETRK (TRK_setReferencePoint _) | ETRK (TRK_addHit _) | ETRK (TRK_assign _)
  | ETRK (TRK_stateSetLocation _ _)
  | ECL (CL_addHit _ _)
  | ERP (RP_addParticleID _)
  | EMC (MC_setCreatedInSimulation _) | EMC (MC_setBackscatter _) | EMC (MC_setVertexIsNotEndpointOfParent _)
  | EMC (MC_setDecayedInTracker _) | EMC (MC_setDecayedInCalorimeter _) | EMC (MC_setHasLeftDetector _)
  | EMC (MC_setStopped _) | EMC (MC_setOverlay _)
  | EREL _ | EGO _ | EVEC _ => true
  | _ => false
  end.
(** on collections *)
Definition unchecked_coll (c : ccall) : bool :=
  match c with C_setFlag _ | C_setBit _ _ | C_parameters _ | C_vector _ => true | _ => false end.
(** on events *)
Definition unchecked_ev (c : evcall) : bool :=
  match c with V_take _ | V_add _ _ | V_setAccessMode _ | V_parameters _ => true | _ => false end.
(** the class whose method is called *)
Definition class_of (e : ecall) (o : obj) : Prop :=
  match e, o with
  | ECH _, OCH _ | ERCH _, ORCH _ | ESCH _, OSCH _ | ESTH _, OSTH _ | ETPC _, OTPC _ | ETRD _, OTRD _ | ETD _, OTD _
  | ETPu _, OTPu _ | ETH _, OTH _ | ETHP _, OTHP _ | ETHZ _, OTHZ _ | ETRK _, OTRK _ | ECL _, OCL _ | EVX _, OVX _
  | ERP _, ORP _ | EMC _, OMC _ | EREL _, OREL _ | EGO _, OGO _ => True
  | EVEC (V_assignInts _), OINT _ | EVEC (V_assignFloats _), OFLT _ | EVEC (V_assignStrings _), OSTR _ => True
  | _, _ => False
  end.
(** the arrays of three numbers that are read before the check *)
Definition args_ok (e : ecall) : Prop :=
  match e with ESTH (STH_setMomentum v) | EVX (VX_setPosition v) => (3 <= length v)%nat | _ => True end.

(** the collections of the event and their elements *)
Definition event_coll (w : world) (a : addr) (c : coll) : Prop :=
  In a (map snd (es_cols (w_ev w))) /\ exists ro, w_col w a = Some (ro, c).
Definition event_elem (w : world) (a : addr) (o : obj) : Prop :=
  exists b c ro, event_coll w b c /\ In a (c_elems c) /\ w_obj w a = Some (ro, o).
(** a checked modifying call on the event, one of its collections or one of their elements *)
Definition checked_call (w : world) (c : wcall) : Prop :=
  match c with
  | WEv x => unchecked_ev x = false
  | WCol a x => (exists co, event_coll w a co) /\ unchecked_coll x = false
  | WObj a e => (exists o, event_elem w a o /\ class_of e o) /\ args_ok e /\ unchecked_elem e = false
  | WParent a _ => exists o, event_elem w a (OMC o)
  end.
(** nothing that can be observed differs *)
Definition same_world (w w' : world) : Prop :=
  w_ev w = w_ev w' /\ (forall a, w_col w a = w_col w' a) /\ (forall a, w_obj w a = w_obj w' a).
Definition no_mode_change (cs : list wcall) : Prop :=
  Forall (fun c => match c with WEv (V_setAccessMode _) => False | _ => True end) cs.
