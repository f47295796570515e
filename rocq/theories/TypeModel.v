(** * Names of classes and the summary of an event

    Model of src/cpp/include/UTIL/LCIOTypeInfo.h and src/cpp/include/UTIL/EventSummary.h. *)

From Verif Require Import Bytes StrMap SioModel ObjModel ImplModel ViewModel.

(** ** LCIOTypeInfo.h *)

(** [lctypename<T>()], LCIOTypeInfo.h:46-72, with the names of src/cpp/src/IMPL/LCIO.cc:46-68.  There is no
    specialisation for TPCHit; its lcobject_type is TPCHit itself (pre-generated/EVENT/TPCHit.h:30), so that the
    primary template, 46-49, calls itself for ever. *)
Definition static_name (t : otype) : Res bytes :=
  match t with
  | TMC => Ok (str "MCParticle")
  | TSCH => Ok (str "SimCalorimeterHit")
  | TCH => Ok (str "CalorimeterHit")
  | TRCH => Ok (str "RawCalorimeterHit")
  | TSTH => Ok (str "SimTrackerHit")
  | TTRD => Ok (str "TrackerRawData")
  | TTD => Ok (str "TrackerData")
  | TTPu => Ok (str "TrackerPulse")
  | TTH => Ok (str "TrackerHit")
  | TTHP => Ok (str "TrackerHitPlane")
  | TTHZ => Ok (str "TrackerHitZCylinder")
  | TSTR => Ok (str "LCStrVec")
  | TFLT => Ok (str "LCFloatVec")
  | TINT => Ok (str "LCIntVec")
  | TTRK => Ok (str "Track")
  | TCL => Ok (str "Cluster")
  | TRP => Ok (str "ReconstructedParticle")
  | TREL => Ok (str "LCRelation")
  | TGO => Ok (str "LCGenericObject")
  | TVX => Ok (str "Vertex")
  | TTPC => UB UBDiverge
  end.

(** equality of classes (no code of its own) *)
Definition otype_eq_dec (a b : otype) : {a = b} + {a <> b}. Proof. decide equality. Defined.
(** whether dynamic_cast to a pointer of the interface class [t] succeeds for an object: the interfaces of
    planes and cylinders are derived from TrackerHit (pre-generated/EVENT/TrackerHitPlane.h:30,
    TrackerHitZCylinder.h:28); all others only from LCObject *)
Definition isa (o : obj) (t : otype) : bool :=
  if otype_eq_dec (type_of o) t then true else
  match t, o with TTH, OTHP _ => true | TTH, OTHZ _ => true | _, _ => false end.
(** the casts in the order in which they are tried, LCIOTypeInfo.h:93-113 *)
Definition casts : list otype :=
  [TMC; TSCH; TCH; TRCH; TSTH; TTRD; TTD; TTPu; TTH; TTHP; TTHZ; TSTR; TFLT; TINT; TTRK; TCL; TRP; TREL; TGO; TVX].
(** [lctypename( const LCObject* )], LCIOTypeInfo.h:91-116; [None] is the null pointer *)
Definition dynamic_name (p : option obj) : Res bytes :=
  match find (fun t => match p with Some o => isa o t | None => false end) casts with
  | Some t => static_name t
  | None => Ok (str "UNKNOWN")
  end.
(** [lctypename( const T* )] for a pointer whose class is known, LCIOTypeInfo.h:80-83 *)
Definition pointer_name (t : otype) (p : option obj) : Res bytes := static_name t.

(** ** EventSummary.h *)

(** EventSummaryIntValues, EventSummary.h:13-28 *)
Inductive esi := runnum | evtnum | chpfonum | neupfonum | elnum | munum | taunum | phonum | jetnum | bcpfonum | trknum | clunum | mcproc.
(** [(int) intval], EventSummary.h:13-28 and 90 *)
Definition esi_pos (e : esi) : Z :=
  match e with
  | runnum => 0 | evtnum => 1 | chpfonum => 2 | neupfonum => 3 | elnum => 4 | munum => 5 | taunum => 6 | phonum => 7
  | jetnum => 8 | bcpfonum => 9 | trknum => 10 | clunum => 11 | mcproc => 12
  end.
(** EventSummaryFloatValues, EventSummary.h:34-51 *)
Inductive esf := epfotot | emcptot | thrust | spher | emiss | pxmiss | pymiss | pzmiss | y12 | y23 | y34 | y45 | y56 | y67 | y78.
(** [(int) floatval], EventSummary.h:34-51 and 95 *)
Definition esf_pos (e : esf) : Z :=
  match e with
  | epfotot => 0 | emcptot => 1 | thrust => 2 | spher => 3 | emiss => 4 | pxmiss => 5 | pymiss => 6 | pzmiss => 7
  | y12 => 8 | y23 => 9 | y34 => 10 | y45 => 11 | y56 => 12 | y67 => 13 | y78 => 14
  end.
(** the template arguments, EventSummary.h:70: ESI::SIZE is 13 and ESF::SIZE is 15.  ESD is a second name of
    EventSummaryFloatValues (61), not of EventSummaryDoubleValues (57-59): ESD::SIZE is 15. *)
Definition es_sizes : sizes := (13, 15, 15).
(** getTypeName, EventSummary.h:124-126 *)
Definition es_type : bytes := str "EventSummary".
(** getDataDescription, EventSummary.h:128-130 *)
Definition es_desc : bytes := str "i:runnum,i:evtnum,i:chpfonum,i:neupfonum,i:elnum,i:munum,i:taunum,i:phonum,i:jetnum,i:bcpfonum,i:trknum,i:clunum,i:mcproc,f:epfotot,f:emcptot,f:thrust,f:spher,f:emiss,f:pxmiss,f:pymiss,f:pzmiss,f:y12,f:y23,f:y34,f:y45,f:y56,f:y67,f:y78".
(** the calls: getI, getF, getD (90, 95, 100), setI, setF, setD (105, 110, 115).  Values are patterns of bits. *)
Inductive es_call := GetI (e : esi) | GetF (e : esf) | GetD (e : esf) | SetI (e : esi) (v : Z) | SetF (e : esf) (v : Z) | SetD (e : esf) (v : Z).
(** which value a call is about (lines above) *)
Definition es_at (c : es_call) : kind * Z :=
  match c with
  | GetI e => (KInt, esi_pos e) | GetF e => (KFloat, esf_pos e) | GetD e => (KDouble, esf_pos e)
  | SetI e _ => (KInt, esi_pos e) | SetF e _ => (KFloat, esf_pos e) | SetD e _ => (KDouble, esf_pos e)
  end.
(** one call on the object with the data, EventSummary.h:90-115; getIntVal etc. are vector::operator[],
    src/cpp/src/IMPL/LCGenericObjectImpl.cc:38-52.  The result of a setter is shown as 0. *)
Definition es_step (o : genobj) (c : es_call) : Res Z * genobj :=
  let '(k, i) := es_at c in
  match c with
  | GetI _ | GetF _ | GetD _ => (element_at (vals o k) i, o)
  | SetI _ v | SetF _ v | SetD _ v =>
      match go_do false o (set_call k i v) with
      | (o', Ok _) => (Ok 0, o')
      | (o', Throw e) => (Throw e, o')
      | (o', UB u) => (UB u, o')
      end
  end.
(** a program that makes calls, one after the other (no code of its own) *)
Fixpoint es_run (o : genobj) (cs : list es_call) : list (Res Z) * genobj :=
  match cs with
  | [] => ([], o)
  | c :: cs' => let '(r, o1) := es_step o c in let '(rs, o2) := es_run o1 cs' in (r :: rs, o2)
  end.
(** EventSummary(), EventSummary.h:76 *)
Definition es_new : genobj := new_gen es_sizes.
