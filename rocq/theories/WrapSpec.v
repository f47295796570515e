(** * The Fortran interface: what its functions for one object are expected to do

    Read off the names of the functions: which attribute of which class a function sets or returns.  Effects and attributes are
    those of AttrSpec. *)
From Coq Require Import ZArith List Bool Lia.
From Verif Require Import Bytes SioModel ObjModel ImplModel AttrModel AttrSpec Ieee F77Model WrapModel.
Import ListNotations.
Open Scope Z_scope.

(** the characters before the first NUL *)
Definition up_to_nul (s : bytes) : bytes := hd [] (map fst (filter (fun p => match snd p with [] => true | b :: _ => Byte.eqb b x00 end)
  (map (fun n => (firstn n s, skipn n s)) (seq 0 (S (length s)))))).
(** an argument that is a pointer to an object of one of the classes: itself, or null; [k]: the class of the object at an address *)
Definition of_class (k : addr -> option otype) (ts : list otype) (p : addr) : addr :=
  match k p with Some t => if in_dec (fun a b : otype => ltac:(decide equality)) t ts then p else 0 | None => 0 end.

(** ** What the functions set *)
Definition sets (k : addr -> option otype) (s : fset) : list (attr * effect) :=
  match s with
  | Lcrcpsettype v => num AType v
  | Lcrcpsetmomentum v => vec AMomentum 3 v
  | Lcrcpsetenergy v => num AEnergy v
  | Lcrcpsetcovmatrix v => vec ACovMatrix 10 v
  | Lcrcpsetmass v => num AMass v
  | Lcrcpsetcharge v => num ACharge v
  | Lcrcpsetreferencepoint v => vec AReferencePoint 3 v
  | Lcrcpsetgoodnessofpid v => num AGoodnessOfPID v
  | Lcrcpaddparticle p => [(AParticles, EAppend [of_class k [TRP] p])]
  | Lcrcpaddcluster p => [(AClusters, EAppend [of_class k [TCL] p])]
  | Lcrcpaddtrack p => [(ATracks, EAppend [of_class k [TTRK] p])]
  | Lcrcpsetstartvertex p => num AStartVertex (of_class k [TVX] p)
  | Lctrksettypebit i v => [(AType, EBit i (negb (v =? 0)))]
  | Lctrksetomega v => (AStates, EOneState) :: num AOmega v
  | Lctrksettanlambda v => (AStates, EOneState) :: num ATanLambda v
  | Lctrksetphi v => (AStates, EOneState) :: num APhi v
  | Lctrksetd0 v => (AStates, EOneState) :: num AD0 v
  | Lctrksetz0 v => (AStates, EOneState) :: num AZ0 v
  | Lctrksetcovmatrix v => [(AStates, EOneState); (ACovMatrix, EOverwrite (firstn 15 v))]
  | Lctrksetreferencepoint v => (AStates, EOneState) :: vec AReferencePoint 3 v
  | Lctrksetchi2 v => num AChi2 v
  | Lctrksetndf v => num ANdf v
  | Lctrksetdedx v => num AdEdx v
  | Lctrksetdedxerror v => num AdEdxError v
  | Lctrksetradiusofinnermosthit v => num ARadius v
  | Lctrkaddtrack p => [(ATracks, EAppend [of_class k [TTRK] p])]
  | Lctrkaddhit p => [(AHits, EAppend [of_class k [TTH; TTHP; TTHZ] p])]
  | Lctrksetsubdetectorhitnumbers v n => lst AHitNumbers (firstn (Z.to_nat n) v)
  | Lctrhsetposition v => vec APosition 3 v
  | Lctrhsetcovmatrix v => vec ACovMatrix 6 v
  | Lctrhsetdedx v => edep v
  | Lctrhsetedep v => edep v
  | Lctrhsetedeperr v => num AEDepError v
  | Lctrhsettime v => num ATime v
  | Lctrhsettype v => num AType v
  | Lctrhsetquality v => num AQuality v
  | Lctrhsetcellid0 v => num ACellID0 v
  | Lctrhsetcellid1 v => num ACellID1 v
  | Lctrhaddrawhit p => [(ARawHits, EAppend [p])]
  | Lccahsetcellid0 v => num ACellID0 v
  | Lccahsetcellid1 v => num ACellID1 v
  | Lccahsetenergy v => num AEnergy v
  | Lccahsetenergyerr v => num AEnergyError v
  | Lccahsettime v => num ATime v
  | Lccahsetposition v => vec APosition 3 v
  | Lccahsettype v => num AType v
  | Lccahsetrawhit p => num ARawHit p
  | Lctphsetcellid v => num ACellID v
  | Lctphsettime v => num ATime v
  | Lctphsetcharge v => num ACharge v
  | Lctphsetquality v => num AQuality v
  | Lctphsetrawdata v n => lst AWords (firstn (Z.to_nat n) v)
  | Lcgobsetintval i v => [(AInts, EPut (i - 1) v)]
  | Lcgobsetfloatval i v => [(AFloats, EPut (i - 1) v)]
  | Lcgobsetdoubleval i v => [(ADoubles, EPut (i - 1) v)]
  | Lcrelsetfrom p => num AFrom p
  | Lcrelsetto p => num ATo p
  | Lcrelsetweight v => num AWeight v
  | Lcmcpsetpdg v => num APDG v
  | Lcmcpsetgeneratorstatus v => num AGeneratorStatus v
  | Lcmcpsetsimulatorstatus v => num ASimulatorStatus v
  | Lcmcpsetvertex v => vec AVertex 3 v
  | Lcmcpsetendpoint v => (ASimulatorStatus, EBit 31 true) :: vec AEndpoint 3 v
  | Lcmcpsetmomentum v => vec AMomentum 3 (map f2d v)
  | Lcmcpsetmass v => num AMass (f2d v)
  | Lcmcpsetcharge v => num ACharge v
  | Lcmcpsetspin v => vec ASpin 3 v
  | Lcmcpsetcolorflow v => vec AColorFlow 2 v
  | Lcsthsetcellid0 v => num ACellID0 v ++ num ACellID v
  | Lcsthsetcellid1 v => num ACellID1 v
  | Lcsthsetposition v => vec APosition 3 v
  | Lcsthsetmomentum v => vec AMomentum 3 v
  | Lcsthsetmomentumxyz x y z => lst AMomentum [x; y; z]
  | Lcsthsetpathlength v => num APathLength v
  | Lcsthsetdedx v => edep v
  | Lcsthsetedep v => edep v
  | Lcsthsettime v => num ATime v
  | Lcsthsetmcparticle p => num AMCParticle (of_class k [TMC] p)
  | Lcsthsetquality v => num AQuality v
  | Lcschsetcellid0 v => num ACellID0 v
  | Lcschsetcellid1 v => num ACellID1 v
  | Lcschsetenergy v => num AEnergy v
  | Lcschsetposition v => vec APosition 3 v
  | Lcschaddmcparticlecontribution p en t pdg => [(AEnergy, EPlus en); (AContributions, EAddContribution (mkCont (of_class k [TMC] p) en t 0 pdg [0; 0; 0]))]
  | Lcvtxsetprimary b => [(APrimary, ESet (VBool b))]
  | Lcvtxsetalgorithmtype v => [(AAlgorithmType, ESet (VText (up_to_nul v)))]
  | Lcvtxsetchi2 v => num AChi2 v
  | Lcvtxsetprobability v => num AProbability v
  | Lcvtxsetposition v => vec APosition 3 v
  | Lcvtxsetcovmatrix v => vec ACovMatrix 6 v
  | Lcvtxaddparameter v => [(AParameters, EAppend [v])]
  | Lcvtxsetassociatedparticle p => num AAssociatedParticle (of_class k [TRP] p)
  | Lcclusettypebit i v => [(AType, EBit i (negb (v =? 0)))]
  | Lcclusetenergy v => num AEnergy v
  | Lcclusetenergyerr v => num AEnergyError v
  | Lcclusetposition v => vec APosition 3 v
  | Lcclusetpositionerror v => vec APositionError 6 v
  | Lcclusetitheta v => num AITheta v
  | Lcclusetiphi v => num AIPhi v
  | Lcclusetdirectionerror v => vec ADirectionError 3 v
  | Lcclusetshape v => [(AShape, EAppend v)]
  | Lccluaddcluster p => [(AClusters, EAppend [of_class k [TCL] p])]
  | Lccluaddhit p w => [(AHits, EAppend [of_class k [TCH] p]); (AHitContributions, EAppend [w])]
  | Lcclusetsubdetectorenergies v n => lst ASubdetectorEnergies (firstn (Z.to_nat n) v)
  end.
(** the attributes a function concerns *)
Definition touched (s : fset) : list attr := map fst (sets (fun _ => None) s).

(** ** What the functions return *)
(** an attribute; the characters of a string, up to the first NUL; its first elements; its number of elements; its i-th element,
    counted from 1; as many elements as fit into the array of the caller *)
Inductive shape :=
| Whole (a : attr) | Chars (a : attr) | First (n : nat) (a : attr) | Length (a : attr) | Nth (a : attr) (i : Z) | UpTo (a : attr) (n : Z).
Definition returns (g : fget) : otype * shape :=
  match g with
  | Lcrcpgettype => (TRP, Whole AType)
  | Lcrcpgetmomentum => (TRP, First 3 AMomentum)
  | Lcrcpgetenergy => (TRP, Whole AEnergy)
  | Lcrcpgetcovmatrix => (TRP, First 10 ACovMatrix)
  | Lcrcpgetmass => (TRP, Whole AMass)
  | Lcrcpgetcharge => (TRP, Whole ACharge)
  | Lcrcpgetreferencepoint => (TRP, First 3 AReferencePoint)
  | Lcrcpgetgoodnessofpid => (TRP, Whole AGoodnessOfPID)
  | Lcrcpgetparticles => (TRP, Whole AParticles)
  | Lcrcpgetclusters => (TRP, Whole AClusters)
  | Lcrcpgettracks => (TRP, Whole ATracks)
  | Lcrcpgetstartvertex => (TRP, Whole AStartVertex)
  | Lctrkgettype => (TTRK, Whole AType)
  | Lctrkgetomega => (TTRK, Whole AOmega)
  | Lctrkgettanlambda => (TTRK, Whole ATanLambda)
  | Lctrkgetphi => (TTRK, Whole APhi)
  | Lctrkgetd0 => (TTRK, Whole AD0)
  | Lctrkgetz0 => (TTRK, Whole AZ0)
  | Lctrkgetcovmatrix => (TTRK, First 15 ACovMatrix)
  | Lctrkgetreferencepoint => (TTRK, First 3 AReferencePoint)
  | Lctrkgetchi2 => (TTRK, Whole AChi2)
  | Lctrkgetndf => (TTRK, Whole ANdf)
  | Lctrkgetdedx => (TTRK, Whole AdEdx)
  | Lctrkgetdedxerror => (TTRK, Whole AdEdxError)
  | Lctrkgetradiusofinnermosthit => (TTRK, Whole ARadius)
  | Lctrkgettracks => (TTRK, Whole ATracks)
  | Lctrkgettrackerhits => (TTRK, Whole AHits)
  | Lctrkgetsubdetectorhitnumbers n => (TTRK, UpTo AHitNumbers n)
  | Lctrhgetposition => (TTH, First 3 APosition)
  | Lctrhgetcovmatrix => (TTH, First 6 ACovMatrix)
  | Lctrhgetdedx => (TTH, Whole AEDep)
  | Lctrhgetedep => (TTH, Whole AEDep)
  | Lctrhgetedeperr => (TTH, Whole AEDepError)
  | Lctrhgettime => (TTH, Whole ATime)
  | Lctrhgettype => (TTH, Whole AType)
  | Lctrhgetquality => (TTH, Whole AQuality)
  | Lctrhgetcellid0 => (TTH, Whole ACellID0)
  | Lctrhgetcellid1 => (TTH, Whole ACellID1)
  | Lctrhgetrawhits => (TTH, Whole ARawHits)
  | Lccahgetcellid0 => (TCH, Whole ACellID0)
  | Lccahgetcellid1 => (TCH, Whole ACellID1)
  | Lccahgetenergy => (TCH, Whole AEnergy)
  | Lccahgetenergyerr => (TCH, Whole AEnergyError)
  | Lccahgettime => (TCH, Whole ATime)
  | Lccahgetposition => (TCH, First 3 APosition)
  | Lccahgettype => (TCH, Whole AType)
  | Lccahgetrawhit => (TCH, Whole ARawHit)
  | Lctphgetcellid => (TTPC, Whole ACellID)
  | Lctphgettime => (TTPC, Whole ATime)
  | Lctphgcharge => (TTPC, Whole ACharge)
  | Lctphgetquality => (TTPC, Whole AQuality)
  | Lctphgetnrawdatawords => (TTPC, Length AWords)
  | Lctphgetrawdataword i => (TTPC, Nth AWords i)
  | Lcgobgetnint => (TGO, Length AInts)
  | Lcgobgetintval i => (TGO, Nth AInts i)
  | Lcgobgetnfloat => (TGO, Length AFloats)
  | Lcgobgetfloatval i => (TGO, Nth AFloats i)
  | Lcgobgetndouble => (TGO, Length ADoubles)
  | Lcgobgetdoubleval i => (TGO, Nth ADoubles i)
  | Lcgobisfixedsize => (TGO, Whole AFixedSize)
  | Lcgobgettypename => (TGO, Chars ATypeName)
  | Lcgobgetdatadescription => (TGO, Chars ADataDescription)
  | Lcrelgetfrom => (TREL, Whole AFrom)
  | Lcrelgetto => (TREL, Whole ATo)
  | Lcrelgetweight => (TREL, Whole AWeight)
  | Lcmcpgetpdg => (TMC, Whole APDG)
  | Lcmcpgetgeneratorstatus => (TMC, Whole AGeneratorStatus)
  | Lcmcpgetsimulatorstatus => (TMC, Whole ASimulatorStatus)
  | Lcmcpgetvertex => (TMC, First 3 AVertex)
  | Lcmcpgettime => (TMC, Whole ATime)
  | Lcmcpgetmomentum => (TMC, First 3 AMomentum)
  | Lcmcpgetmass => (TMC, Whole AMass)
  | Lcmcpgetcharge => (TMC, Whole ACharge)
  | Lcmcpgetspin => (TMC, First 3 ASpin)
  | Lcmcpgetcolorflow => (TMC, First 2 AColorFlow)
  | Lcsthgetcellid => (TSTH, Whole ACellID0)
  | Lcsthgetcellid0 => (TSTH, Whole ACellID0)
  | Lcsthgetcellid1 => (TSTH, Whole ACellID1)
  | Lcsthgetposition i => (TSTH, Nth APosition (i + 1))
  | Lcsthgetmomentum i => (TSTH, Nth AMomentum (i + 1))
  | Lcsthgetpathlength => (TSTH, Whole APathLength)
  | Lcsthgetdedx => (TSTH, Whole AEDep)
  | Lcsthgetedep => (TSTH, Whole AEDep)
  | Lcsthgettime => (TSTH, Whole ATime)
  | Lcsthgetmcparticle => (TSTH, Whole AMCParticle)
  | Lcsthgetquality => (TSTH, Whole AQuality)
  | Lcschgetcellid0 => (TSCH, Whole ACellID0)
  | Lcschgetcellid1 => (TSCH, Whole ACellID1)
  | Lcschgetenergy => (TSCH, Whole AEnergy)
  | Lcschgetposition => (TSCH, First 3 APosition)
  | Lcvtxisprimary => (TVX, Whole APrimary)
  | Lcvtxgetalgorithmtype => (TVX, Chars AAlgorithmType)
  | Lcvtxgetchi2 => (TVX, Whole AChi2)
  | Lcvtxgetprobability => (TVX, Whole AProbability)
  | Lcvtxgetposition => (TVX, First 3 APosition)
  | Lcvtxgetcovmatrix => (TVX, First 6 ACovMatrix)
  | Lcvtxgetassociatedparticle => (TVX, Whole AAssociatedParticle)
  | Lcclugettype => (TCL, Whole AType)
  | Lcclugetenergy => (TCL, Whole AEnergy)
  | Lcclugetenergyerr => (TCL, Whole AEnergyError)
  | Lcclugetposition => (TCL, First 3 APosition)
  | Lcclugetpositionerror => (TCL, First 6 APositionError)
  | Lcclugetitheta => (TCL, Whole AITheta)
  | Lcclugetiphi => (TCL, Whole AIPhi)
  | Lcclugetdirectionerror => (TCL, First 3 ADirectionError)
  | Lcclugetshape => (TCL, Whole AShape)
  | Lcclugetclusters => (TCL, Whole AClusters)
  | Lcclugetcalorimeterhits => (TCL, Whole AHits)
  | Lcclugetsubdetectorenergies => (TCL, Whole ASubdetectorEnergies)
  end.
Definition shape_attr (h : shape) : attr :=
  match h with Whole a | Chars a | First _ a | Length a | Nth a _ | UpTo a _ => a end.
(** [r] is what the function returns if the attribute has the value [v] *)
Definition shows (h : shape) (v : aval) (r : wout) : Prop :=
  match h, v with
  | Whole _, VNum z => r = WNum z
  | Whole _, VBool b => r = WBool b
  | Whole _, VList l => r = WArr l
  | Chars _, VText s => r = WText (up_to_nul s)
  | First n _, VList l => (n <= length l)%nat /\ r = WArr (firstn n l)
  | Length _, VList l => r = WNum (Zlen l)
  | Nth _ i, VList l => 1 <= i <= Zlen l /\ r = WNum (nth (Z.to_nat (i - 1)) l 0)
  | UpTo _ n, VList l => 0 <= n /\ r = WArrN (firstn (Z.to_nat n) l) (Z.min n (Zlen l))
  | _, _ => False
  end.

(** ** Conditions *)
(** the class of the object at an address *)
Definition kind (m : wmem) (p : addr) : option otype :=
  if p =? 0 then None else match m p with Some (_, o) => Some (type_of o) | None => None end.
(** the arguments are [int]s *)
Definition int_args (s : fset) : Prop :=
  match s with
  | Lcmcpsetsimulatorstatus v => is_i32 v
  | Lcgobsetintval i _ | Lcgobsetfloatval i _ | Lcgobsetdoubleval i _ => is_i32 i
  | _ => True
  end.
(** indices count from 1 *)
Definition from_1 (s : fset) : Prop :=
  match s with
  | Lcgobsetintval i _ | Lcgobsetfloatval i _ | Lcgobsetdoubleval i _ => 1 <= i
  | _ => True
  end.
(** the names of generic objects: the pointer returned is of no use *)
Definition name_of_gob (g : fget) : bool := match g with Lcgobgettypename | Lcgobgetdatadescription => true | _ => false end.
(** arguments that are [int]s; an array of the caller has no negative length *)
Definition get_args (g : fget) : Prop :=
  match g with
  | Lctphgetrawdataword i | Lcgobgetintval i | Lcgobgetfloatval i | Lcgobgetdoubleval i => - two31 < i < two31
  | Lctrkgetsubdetectorhitnumbers n => 0 <= n
  | _ => True
  end.
(** no list of the object has 2^31 elements or more *)
Definition short_lists (o : obj) : Prop := forall a l, obj_get o a = Some (VList l) -> Zlen l < two31.
(** the function that uses the vector as if to modify it *)
Definition is_hitnumbers (g : fget) : bool := match g with Lctrkgetsubdetectorhitnumbers _ => true | _ => false end.
(** a call that does not concern the attribute of the object at the address *)
Definition leaves (a : addr) (x : attr) (c : wcall2) : Prop :=
  match c with
  | Create _ b | CreateRel _ _ _ b | CreateFixed _ _ _ b => b <> a
  | Set_ b s => int_args s /\ (b = a -> ~ In x (touched s))
  | Get_ _ _ => True
  end.
