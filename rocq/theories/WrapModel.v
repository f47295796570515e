(** * The Fortran interface: the functions for one object

    Model of the functions of src/cpp/src/CPPFORT that set or return one attribute of an object: lcrcp.cc, lctrk.cc,
    lctrh.cc, lccah.cc, lctph.cc, lcgob.cc, lcrel.cc, lcmcp.cc, lcsth.cc, lcsch.cc, lcvtx.cc, lcclu.cc.  The classes behind
    them are those of ImplModel (setters) and AttrModel (getters).  Pointers are addresses.  A function that returns the
    address of a vector of the object is modelled by the elements of that vector.  Left out: deleting objects, the
    functions for particle ids, those of F77Model, and getters of values that are computed. *)
From Coq Require Import ZArith List Bool Lia.
From Verif Require Import Bytes SioModel ObjModel ImplModel AttrModel TypeModel Ieee F77Model.
Import ListNotations.
Open Scope Z_scope.

(** the memory: the objects with the read only flag of AccessChecked, src/cpp/include/IMPL/AccessChecked.h:18-38 *)
Definition wmem := addr -> option (bool * obj).

(** the functions that modify an object, with the arguments after the object *)
Inductive fset :=
| Lcrcpsettype (v : Z)   (* lcrcp.cc:185-189 *)
| Lcrcpsetmomentum (v : list Z)   (* lcrcp.cc:197-201 *)
| Lcrcpsetenergy (v : Z)   (* lcrcp.cc:203-207 *)
| Lcrcpsetcovmatrix (v : list Z)   (* lcrcp.cc:209-213 *)
| Lcrcpsetmass (v : Z)   (* lcrcp.cc:215-219 *)
| Lcrcpsetcharge (v : Z)   (* lcrcp.cc:221-225 *)
| Lcrcpsetreferencepoint (v : list Z)   (* lcrcp.cc:227-231 *)
| Lcrcpsetgoodnessofpid (v : Z)   (* lcrcp.cc:240-244 *)
| Lcrcpaddparticle (p : addr)   (* lcrcp.cc:246-251 *)
| Lcrcpaddcluster (p : addr)   (* lcrcp.cc:253-258 *)
| Lcrcpaddtrack (p : addr)   (* lcrcp.cc:260-265 *)
| Lcrcpsetstartvertex (p : addr)   (* lcrcp.cc:274-279 *)
| Lctrksettypebit (i v : Z)   (* lctrk.cc:157-161 *)
| Lctrksetomega (v : Z)   (* lctrk.cc:163-167 *)
| Lctrksettanlambda (v : Z)   (* lctrk.cc:169-173 *)
| Lctrksetphi (v : Z)   (* lctrk.cc:175-179 *)
| Lctrksetd0 (v : Z)   (* lctrk.cc:181-185 *)
| Lctrksetz0 (v : Z)   (* lctrk.cc:187-191 *)
| Lctrksetcovmatrix (v : list Z)   (* lctrk.cc:193-197 *)
| Lctrksetreferencepoint (v : list Z)   (* lctrk.cc:199-203 *)
| Lctrksetchi2 (v : Z)   (* lctrk.cc:211-215 *)
| Lctrksetndf (v : Z)   (* lctrk.cc:217-221 *)
| Lctrksetdedx (v : Z)   (* lctrk.cc:223-227 *)
| Lctrksetdedxerror (v : Z)   (* lctrk.cc:229-233 *)
| Lctrksetradiusofinnermosthit (v : Z)   (* lctrk.cc:235-239 *)
| Lctrkaddtrack (p : addr)   (* lctrk.cc:241-246 *)
| Lctrkaddhit (p : addr)   (* lctrk.cc:248-253 *)
| Lctrksetsubdetectorhitnumbers (v : list Z) (n : Z)   (* lctrk.cc:256-264 *)
| Lctrhsetposition (v : list Z)   (* lctrh.cc:98-102 *)
| Lctrhsetcovmatrix (v : list Z)   (* lctrh.cc:104-108 *)
| Lctrhsetdedx (v : Z)   (* lctrh.cc:111-115 *)
| Lctrhsetedep (v : Z)   (* lctrh.cc:117-121 *)
| Lctrhsetedeperr (v : Z)   (* lctrh.cc:123-127 *)
| Lctrhsettime (v : Z)   (* lctrh.cc:129-133 *)
| Lctrhsettype (v : Z)   (* lctrh.cc:135-139 *)
| Lctrhsetquality (v : Z)   (* lctrh.cc:141-145 *)
| Lctrhsetcellid0 (v : Z)   (* lctrh.cc:147-151 *)
| Lctrhsetcellid1 (v : Z)   (* lctrh.cc:152-156 *)
| Lctrhaddrawhit (p : addr)   (* lctrh.cc:158-163 *)
| Lccahsetcellid0 (v : Z)   (* lccah.cc:58-62 *)
| Lccahsetcellid1 (v : Z)   (* lccah.cc:63-67 *)
| Lccahsetenergy (v : Z)   (* lccah.cc:68-72 *)
| Lccahsetenergyerr (v : Z)   (* lccah.cc:73-77 *)
| Lccahsettime (v : Z)   (* lccah.cc:78-82 *)
| Lccahsetposition (v : list Z)   (* lccah.cc:83-87 *)
| Lccahsettype (v : Z)   (* lccah.cc:88-92 *)
| Lccahsetrawhit (p : addr)   (* lccah.cc:93-97 *)
| Lctphsetcellid (v : Z)   (* lctph.cc:52-56 *)
| Lctphsettime (v : Z)   (* lctph.cc:57-61 *)
| Lctphsetcharge (v : Z)   (* lctph.cc:62-66 *)
| Lctphsetquality (v : Z)   (* lctph.cc:67-71 *)
| Lctphsetrawdata (v : list Z) (n : Z)   (* lctph.cc:72-76 *)
| Lcgobsetintval (i v : Z)   (* lcgob.cc:64-68 *)
| Lcgobsetfloatval (i v : Z)   (* lcgob.cc:70-74 *)
| Lcgobsetdoubleval (i v : Z)   (* lcgob.cc:76-80 *)
| Lcrelsetfrom (p : addr)   (* lcrel.cc:50-55 *)
| Lcrelsetto (p : addr)   (* lcrel.cc:57-62 *)
| Lcrelsetweight (v : Z)   (* lcrel.cc:64-68 *)
| Lcmcpsetpdg (v : Z)   (* lcmcp.cc:121-125 *)
| Lcmcpsetgeneratorstatus (v : Z)   (* lcmcp.cc:126-130 *)
| Lcmcpsetsimulatorstatus (v : Z)   (* lcmcp.cc:131-135 *)
| Lcmcpsetvertex (v : list Z)   (* lcmcp.cc:136-140 *)
| Lcmcpsetendpoint (v : list Z)   (* lcmcp.cc:141-145 *)
| Lcmcpsetmomentum (v : list Z)   (* lcmcp.cc:146-150 *)
| Lcmcpsetmass (v : Z)   (* lcmcp.cc:151-155 *)
| Lcmcpsetcharge (v : Z)   (* lcmcp.cc:156-160 *)
| Lcmcpsetspin (v : list Z)   (* lcmcp.cc:161-165 *)
| Lcmcpsetcolorflow (v : list Z)   (* lcmcp.cc:166-170 *)
| Lcsthsetcellid0 (v : Z)   (* lcsth.cc:81-85 *)
| Lcsthsetcellid1 (v : Z)   (* lcsth.cc:86-90 *)
| Lcsthsetposition (v : list Z)   (* lcsth.cc:92-96 *)
| Lcsthsetmomentum (v : list Z)   (* lcsth.cc:98-102 *)
| Lcsthsetmomentumxyz (x y z : Z)   (* lcsth.cc:104-108 *)
| Lcsthsetpathlength (v : Z)   (* lcsth.cc:110-114 *)
| Lcsthsetdedx (v : Z)   (* lcsth.cc:117-121 *)
| Lcsthsetedep (v : Z)   (* lcsth.cc:123-127 *)
| Lcsthsettime (v : Z)   (* lcsth.cc:129-133 *)
| Lcsthsetmcparticle (p : addr)   (* lcsth.cc:135-140 *)
| Lcsthsetquality (v : Z)   (* lcsth.cc:142-146 *)
| Lcschsetcellid0 (v : Z)   (* lcsch.cc:74-78 *)
| Lcschsetcellid1 (v : Z)   (* lcsch.cc:79-83 *)
| Lcschsetenergy (v : Z)   (* lcsch.cc:84-88 *)
| Lcschsetposition (v : list Z)   (* lcsch.cc:89-93 *)
| Lcschaddmcparticlecontribution (p : addr) (en t pdg : Z)   (* lcsch.cc:94-99 *)
| Lcvtxsetprimary (b : bool)   (* lcvtx.cc:87-91 *)
| Lcvtxsetalgorithmtype (v : bytes)   (* lcvtx.cc:93-97 *)
| Lcvtxsetchi2 (v : Z)   (* lcvtx.cc:99-103 *)
| Lcvtxsetprobability (v : Z)   (* lcvtx.cc:105-109 *)
| Lcvtxsetposition (v : list Z)   (* lcvtx.cc:111-115 *)
| Lcvtxsetcovmatrix (v : list Z)   (* lcvtx.cc:117-121 *)
| Lcvtxaddparameter (v : Z)   (* lcvtx.cc:123-127 *)
| Lcvtxsetassociatedparticle (p : addr)   (* lcvtx.cc:129-134 *)
| Lcclusettypebit (i v : Z)   (* lcclu.cc:140-144 *)
| Lcclusetenergy (v : Z)   (* lcclu.cc:146-150 *)
| Lcclusetenergyerr (v : Z)   (* lcclu.cc:152-156 *)
| Lcclusetposition (v : list Z)   (* lcclu.cc:158-162 *)
| Lcclusetpositionerror (v : list Z)   (* lcclu.cc:165-169 *)
| Lcclusetitheta (v : Z)   (* lcclu.cc:171-175 *)
| Lcclusetiphi (v : Z)   (* lcclu.cc:177-181 *)
| Lcclusetdirectionerror (v : list Z)   (* lcclu.cc:183-187 *)
| Lcclusetshape (v : list Z)   (* lcclu.cc:189-194 *)
| Lccluaddcluster (p : addr)   (* lcclu.cc:222-227 *)
| Lccluaddhit (p : addr) (w : Z)   (* lcclu.cc:229-234 *)
| Lcclusetsubdetectorenergies (v : list Z) (n : Z).   (* lcclu.cc:236-245 *)

(** the functions that return an attribute *)
Inductive fget :=
| Lcrcpgettype   (* lcrcp.cc:31-34 *)
| Lcrcpgetmomentum   (* lcrcp.cc:41-45 *)
| Lcrcpgetenergy   (* lcrcp.cc:47-50 *)
| Lcrcpgetcovmatrix   (* lcrcp.cc:52-56 *)
| Lcrcpgetmass   (* lcrcp.cc:58-61 *)
| Lcrcpgetcharge   (* lcrcp.cc:63-66 *)
| Lcrcpgetreferencepoint   (* lcrcp.cc:68-72 *)
| Lcrcpgetgoodnessofpid   (* lcrcp.cc:80-83 *)
| Lcrcpgetparticles   (* lcrcp.cc:85-89 *)
| Lcrcpgetclusters   (* lcrcp.cc:107-111 *)
| Lcrcpgettracks   (* lcrcp.cc:129-133 *)
| Lcrcpgetstartvertex   (* lcrcp.cc:170-174 *)
| Lctrkgettype   (* lctrk.cc:33-36 *)
| Lctrkgetomega   (* lctrk.cc:48-51 *)
| Lctrkgettanlambda   (* lctrk.cc:58-61 *)
| Lctrkgetphi   (* lctrk.cc:63-66 *)
| Lctrkgetd0   (* lctrk.cc:68-71 *)
| Lctrkgetz0   (* lctrk.cc:73-76 *)
| Lctrkgetcovmatrix   (* lctrk.cc:78-82 *)
| Lctrkgetreferencepoint   (* lctrk.cc:84-88 *)
| Lctrkgetchi2   (* lctrk.cc:95-98 *)
| Lctrkgetndf   (* lctrk.cc:100-103 *)
| Lctrkgetdedx   (* lctrk.cc:105-108 *)
| Lctrkgetdedxerror   (* lctrk.cc:110-113 *)
| Lctrkgetradiusofinnermosthit   (* lctrk.cc:115-118 *)
| Lctrkgettracks   (* lctrk.cc:136-140 *)
| Lctrkgettrackerhits   (* lctrk.cc:142-146 *)
| Lctrkgetsubdetectorhitnumbers (n : Z)   (* lctrk.cc:120-134 *)
| Lctrhgetposition   (* lctrh.cc:30-34 *)
| Lctrhgetcovmatrix   (* lctrh.cc:36-40 *)
| Lctrhgetdedx   (* lctrh.cc:43-46 *)
| Lctrhgetedep   (* lctrh.cc:48-51 *)
| Lctrhgetedeperr   (* lctrh.cc:53-56 *)
| Lctrhgettime   (* lctrh.cc:58-61 *)
| Lctrhgettype   (* lctrh.cc:68-71 *)
| Lctrhgetquality   (* lctrh.cc:73-76 *)
| Lctrhgetcellid0   (* lctrh.cc:78-81 *)
| Lctrhgetcellid1   (* lctrh.cc:82-85 *)
| Lctrhgetrawhits   (* lctrh.cc:88-93 *)
| Lccahgetcellid0   (* lccah.cc:23-26 *)
| Lccahgetcellid1   (* lccah.cc:27-30 *)
| Lccahgetenergy   (* lccah.cc:31-34 *)
| Lccahgetenergyerr   (* lccah.cc:35-38 *)
| Lccahgettime   (* lccah.cc:39-42 *)
| Lccahgetposition   (* lccah.cc:43-47 *)
| Lccahgettype   (* lccah.cc:48-51 *)
| Lccahgetrawhit   (* lccah.cc:53-56 *)
| Lctphgetcellid   (* lctph.cc:24-27 *)
| Lctphgettime   (* lctph.cc:28-31 *)
| Lctphgcharge   (* lctph.cc:33-36 *)
| Lctphgetquality   (* lctph.cc:37-40 *)
| Lctphgetnrawdatawords   (* lctph.cc:42-45 *)
| Lctphgetrawdataword (i : Z)   (* lctph.cc:46-49 *)
| Lcgobgetnint   (* lcgob.cc:33-36 *)
| Lcgobgetintval (i : Z)   (* lcgob.cc:48-51 *)
| Lcgobgetnfloat   (* lcgob.cc:38-41 *)
| Lcgobgetfloatval (i : Z)   (* lcgob.cc:53-56 *)
| Lcgobgetndouble   (* lcgob.cc:43-46 *)
| Lcgobgetdoubleval (i : Z)   (* lcgob.cc:58-61 *)
| Lcgobisfixedsize   (* lcgob.cc:83-86 *)
| Lcgobgettypename   (* lcgob.cc:88-91 *)
| Lcgobgetdatadescription   (* lcgob.cc:93-96 *)
| Lcrelgetfrom   (* lcrel.cc:33-37 *)
| Lcrelgetto   (* lcrel.cc:39-43 *)
| Lcrelgetweight   (* lcrel.cc:45-48 *)
| Lcmcpgetpdg   (* lcmcp.cc:52-55 *)
| Lcmcpgetgeneratorstatus   (* lcmcp.cc:56-59 *)
| Lcmcpgetsimulatorstatus   (* lcmcp.cc:60-63 *)
| Lcmcpgetvertex   (* lcmcp.cc:64-68 *)
| Lcmcpgettime   (* lcmcp.cc:69-72 *)
| Lcmcpgetmomentum   (* lcmcp.cc:73-77 *)
| Lcmcpgetmass   (* lcmcp.cc:78-81 *)
| Lcmcpgetcharge   (* lcmcp.cc:82-85 *)
| Lcmcpgetspin   (* lcmcp.cc:91-95 *)
| Lcmcpgetcolorflow   (* lcmcp.cc:96-100 *)
| Lcsthgetcellid   (* lcsth.cc:25-28 *)
| Lcsthgetcellid0   (* lcsth.cc:29-32 *)
| Lcsthgetcellid1   (* lcsth.cc:34-37 *)
| Lcsthgetposition (i : Z)   (* lcsth.cc:40-43 *)
| Lcsthgetmomentum (i : Z)   (* lcsth.cc:45-48 *)
| Lcsthgetpathlength   (* lcsth.cc:50-53 *)
| Lcsthgetdedx   (* lcsth.cc:56-59 *)
| Lcsthgetedep   (* lcsth.cc:61-64 *)
| Lcsthgettime   (* lcsth.cc:66-69 *)
| Lcsthgetmcparticle   (* lcsth.cc:71-74 *)
| Lcsthgetquality   (* lcsth.cc:76-79 *)
| Lcschgetcellid0   (* lcsch.cc:28-31 *)
| Lcschgetcellid1   (* lcsch.cc:32-35 *)
| Lcschgetenergy   (* lcsch.cc:36-39 *)
| Lcschgetposition   (* lcsch.cc:40-44 *)
| Lcvtxisprimary   (* lcvtx.cc:31-34 *)
| Lcvtxgetalgorithmtype   (* lcvtx.cc:36-39 *)
| Lcvtxgetchi2   (* lcvtx.cc:41-44 *)
| Lcvtxgetprobability   (* lcvtx.cc:46-49 *)
| Lcvtxgetposition   (* lcvtx.cc:51-55 *)
| Lcvtxgetcovmatrix   (* lcvtx.cc:57-61 *)
| Lcvtxgetassociatedparticle   (* lcvtx.cc:78-82 *)
| Lcclugettype   (* lcclu.cc:30-33 *)
| Lcclugetenergy   (* lcclu.cc:40-43 *)
| Lcclugetenergyerr   (* lcclu.cc:44-47 *)
| Lcclugetposition   (* lcclu.cc:48-52 *)
| Lcclugetpositionerror   (* lcclu.cc:54-58 *)
| Lcclugetitheta   (* lcclu.cc:60-63 *)
| Lcclugetiphi   (* lcclu.cc:65-68 *)
| Lcclugetdirectionerror   (* lcclu.cc:70-74 *)
| Lcclugetshape   (* lcclu.cc:88-92 *)
| Lcclugetclusters   (* lcclu.cc:100-104 *)
| Lcclugetcalorimeterhits   (* lcclu.cc:106-110 *)
| Lcclugetsubdetectorenergies.   (* lcclu.cc:112-116 *)

(** what the caller gets: a status; a number, an address; a truth value; the characters of a [char*]; an array; an array
    and the number of its elements *)
Inductive wout := WStatus (s : Z) | WNum (z : Z) | WBool (b : bool) | WText (s : bytes) | WArr (l : list Z) | WArrN (l : list Z) (n : Z).

(** the class whose object the function asks for, the first line of each function *)
Definition set_class (s : fset) : otype :=
  match s with
  | Lcrcpsettype _ => TRP
  | Lcrcpsetmomentum _ => TRP
  | Lcrcpsetenergy _ => TRP
  | Lcrcpsetcovmatrix _ => TRP
  | Lcrcpsetmass _ => TRP
  | Lcrcpsetcharge _ => TRP
  | Lcrcpsetreferencepoint _ => TRP
  | Lcrcpsetgoodnessofpid _ => TRP
  | Lcrcpaddparticle _ => TRP
  | Lcrcpaddcluster _ => TRP
  | Lcrcpaddtrack _ => TRP
  | Lcrcpsetstartvertex _ => TRP
  | Lctrksettypebit _ _ => TTRK
  | Lctrksetomega _ => TTRK
  | Lctrksettanlambda _ => TTRK
  | Lctrksetphi _ => TTRK
  | Lctrksetd0 _ => TTRK
  | Lctrksetz0 _ => TTRK
  | Lctrksetcovmatrix _ => TTRK
  | Lctrksetreferencepoint _ => TTRK
  | Lctrksetchi2 _ => TTRK
  | Lctrksetndf _ => TTRK
  | Lctrksetdedx _ => TTRK
  | Lctrksetdedxerror _ => TTRK
  | Lctrksetradiusofinnermosthit _ => TTRK
  | Lctrkaddtrack _ => TTRK
  | Lctrkaddhit _ => TTRK
  | Lctrksetsubdetectorhitnumbers _ _ => TTRK
  | Lctrhsetposition _ => TTH
  | Lctrhsetcovmatrix _ => TTH
  | Lctrhsetdedx _ => TTH
  | Lctrhsetedep _ => TTH
  | Lctrhsetedeperr _ => TTH
  | Lctrhsettime _ => TTH
  | Lctrhsettype _ => TTH
  | Lctrhsetquality _ => TTH
  | Lctrhsetcellid0 _ => TTH
  | Lctrhsetcellid1 _ => TTH
  | Lctrhaddrawhit _ => TTH
  | Lccahsetcellid0 _ => TCH
  | Lccahsetcellid1 _ => TCH
  | Lccahsetenergy _ => TCH
  | Lccahsetenergyerr _ => TCH
  | Lccahsettime _ => TCH
  | Lccahsetposition _ => TCH
  | Lccahsettype _ => TCH
  | Lccahsetrawhit _ => TCH
  | Lctphsetcellid _ => TTPC
  | Lctphsettime _ => TTPC
  | Lctphsetcharge _ => TTPC
  | Lctphsetquality _ => TTPC
  | Lctphsetrawdata _ _ => TTPC
  | Lcgobsetintval _ _ => TGO
  | Lcgobsetfloatval _ _ => TGO
  | Lcgobsetdoubleval _ _ => TGO
  | Lcrelsetfrom _ => TREL
  | Lcrelsetto _ => TREL
  | Lcrelsetweight _ => TREL
  | Lcmcpsetpdg _ => TMC
  | Lcmcpsetgeneratorstatus _ => TMC
  | Lcmcpsetsimulatorstatus _ => TMC
  | Lcmcpsetvertex _ => TMC
  | Lcmcpsetendpoint _ => TMC
  | Lcmcpsetmomentum _ => TMC
  | Lcmcpsetmass _ => TMC
  | Lcmcpsetcharge _ => TMC
  | Lcmcpsetspin _ => TMC
  | Lcmcpsetcolorflow _ => TMC
  | Lcsthsetcellid0 _ => TSTH
  | Lcsthsetcellid1 _ => TSTH
  | Lcsthsetposition _ => TSTH
  | Lcsthsetmomentum _ => TSTH
  | Lcsthsetmomentumxyz _ _ _ => TSTH
  | Lcsthsetpathlength _ => TSTH
  | Lcsthsetdedx _ => TSTH
  | Lcsthsetedep _ => TSTH
  | Lcsthsettime _ => TSTH
  | Lcsthsetmcparticle _ => TSTH
  | Lcsthsetquality _ => TSTH
  | Lcschsetcellid0 _ => TSCH
  | Lcschsetcellid1 _ => TSCH
  | Lcschsetenergy _ => TSCH
  | Lcschsetposition _ => TSCH
  | Lcschaddmcparticlecontribution _ _ _ _ => TSCH
  | Lcvtxsetprimary _ => TVX
  | Lcvtxsetalgorithmtype _ => TVX
  | Lcvtxsetchi2 _ => TVX
  | Lcvtxsetprobability _ => TVX
  | Lcvtxsetposition _ => TVX
  | Lcvtxsetcovmatrix _ => TVX
  | Lcvtxaddparameter _ => TVX
  | Lcvtxsetassociatedparticle _ => TVX
  | Lcclusettypebit _ _ => TCL
  | Lcclusetenergy _ => TCL
  | Lcclusetenergyerr _ => TCL
  | Lcclusetposition _ => TCL
  | Lcclusetpositionerror _ => TCL
  | Lcclusetitheta _ => TCL
  | Lcclusetiphi _ => TCL
  | Lcclusetdirectionerror _ => TCL
  | Lcclusetshape _ => TCL
  | Lccluaddcluster _ => TCL
  | Lccluaddhit _ _ => TCL
  | Lcclusetsubdetectorenergies _ _ => TCL
  end.

(** a character string of Fortran is passed with a NUL at its end: the characters before the first one *)
Fixpoint c_string (s : bytes) : bytes :=
  match s with [] => [] | b :: s' => if Byte.eqb b x00 then [] else b :: c_string s' end.
(** [f2c_pointer<T,LCObject>( p )] for an argument, src/cpp/include/CPPFORT/cpointer.h:24-31: null for null and for an object that is
    none of the classes derived from T *)
Definition cast (m : wmem) (ts : list otype) (p : addr) : Res addr :=
  if p =? 0 then Ok 0 else
  match m p with
  | Some (_, o) => if existsb (fun t => if otype_eq_dec (type_of o) t then true else false) ts then Ok p else Ok 0
  | None => UB UBPrecondition
  end.
(** resize( n ) and the loop of lctrksetsubdetectorhitnumbers, lctrk.cc:256-264, and lcclusetsubdetectorenergies, lcclu.cc:236-247; for a
    read only object the access to the vector fails before *)
Definition resized (ro : bool) (v : list Z) (n : Z) : Res (list Z) :=
  if ro then Throw LReadOnly else if n <? 0 then Throw StdLengthError else arr (Z.to_nat n) v.
(** new and memcpy of TPCHitImpl::setRawData, src/cpp/src/IMPL/TPCHitImpl.cc:62-71; [new int[n]] with a negative number throws
    std::bad_array_new_length and leaves the hit without its array: not modelled, undefined here *)
Definition copied (ro : bool) (v : list Z) (n : Z) : Res (list Z) :=
  if ro then Throw LReadOnly else if n <? 0 then UB UBPrecondition else arr (Z.to_nat n) v.
(** rawHits() of a hit, src/cpp/src/IMPL/TrackerHitImpl.cc:59-62 *)
Definition raw_hits (o : obj) : list addr := match o with OTH x => th_raw x | _ => [] end.

(** the C++ call a function makes *)
Definition set_call (m : wmem) (ro : bool) (o : obj) (s : fset) : Res ecall :=
  match s with
  | Lcrcpsettype v => Ok (ERP (RP_setType v))
  | Lcrcpsetmomentum v => Ok (ERP (RP_setMomentum v))
  | Lcrcpsetenergy v => Ok (ERP (RP_setEnergy v))
  | Lcrcpsetcovmatrix v => Ok (ERP (RP_setCovMatrix v))
  | Lcrcpsetmass v => Ok (ERP (RP_setMass v))
  | Lcrcpsetcharge v => Ok (ERP (RP_setCharge v))
  | Lcrcpsetreferencepoint v => Ok (ERP (RP_setReferencePoint v))
  | Lcrcpsetgoodnessofpid v => Ok (ERP (RP_setGoodnessOfPID v))
  | Lcrcpaddparticle p => do q <- cast m [TRP] p; Ok (ERP (RP_addParticle q))
  | Lcrcpaddcluster p => do q <- cast m [TCL] p; Ok (ERP (RP_addCluster q))
  | Lcrcpaddtrack p => do q <- cast m [TTRK] p; Ok (ERP (RP_addTrack q))
  | Lcrcpsetstartvertex p => do q <- cast m [TVX] p; Ok (ERP (RP_setStartVertex q))
  | Lctrksettypebit i v => Ok (ETRK (TRK_setTypeBit i (negb (v =? 0))))
  | Lctrksetomega v => Ok (ETRK (TRK_setOmega v))
  | Lctrksettanlambda v => Ok (ETRK (TRK_setTanLambda v))
  | Lctrksetphi v => Ok (ETRK (TRK_setPhi v))
  | Lctrksetd0 v => Ok (ETRK (TRK_setD0 v))
  | Lctrksetz0 v => Ok (ETRK (TRK_setZ0 v))
  | Lctrksetcovmatrix v => Ok (ETRK (TRK_setCovMatrix v))
  | Lctrksetreferencepoint v => Ok (ETRK (TRK_setReferencePoint v))
  | Lctrksetchi2 v => Ok (ETRK (TRK_setChi2 v))
  | Lctrksetndf v => Ok (ETRK (TRK_setNdf v))
  | Lctrksetdedx v => Ok (ETRK (TRK_setdEdx v))
  | Lctrksetdedxerror v => Ok (ETRK (TRK_setdEdxError v))
  | Lctrksetradiusofinnermosthit v => Ok (ETRK (TRK_setRadiusOfInnermostHit v))
  | Lctrkaddtrack p => do q <- cast m [TTRK] p; Ok (ETRK (TRK_addTrack q))
  | Lctrkaddhit p => do q <- cast m [TTH; TTHP; TTHZ] p; Ok (ETRK (TRK_addHit q))
  | Lctrksetsubdetectorhitnumbers v n => do l <- resized ro v n; Ok (ETRK (TRK_subdetectorHitNumbers l))
  | Lctrhsetposition v => Ok (ETH (TH_setPosition v))
  | Lctrhsetcovmatrix v => Ok (ETH (TH_setCovMatrix v))
  | Lctrhsetdedx v => Ok (ETH (TH_setEDep v))
  | Lctrhsetedep v => Ok (ETH (TH_setEDep v))
  | Lctrhsetedeperr v => Ok (ETH (TH_setEDepError v))
  | Lctrhsettime v => Ok (ETH (TH_setTime v))
  | Lctrhsettype v => Ok (ETH (TH_setType v))
  | Lctrhsetquality v => Ok (ETH (TH_setQuality v))
  | Lctrhsetcellid0 v => Ok (ETH (TH_setCellID0 v))
  | Lctrhsetcellid1 v => Ok (ETH (TH_setCellID1 v))
  | Lctrhaddrawhit p => Ok (ETH (TH_rawHits (raw_hits o ++ [p])))
  | Lccahsetcellid0 v => Ok (ECH (CH_setCellID0 v))
  | Lccahsetcellid1 v => Ok (ECH (CH_setCellID1 v))
  | Lccahsetenergy v => Ok (ECH (CH_setEnergy v))
  | Lccahsetenergyerr v => Ok (ECH (CH_setEnergyError v))
  | Lccahsettime v => Ok (ECH (CH_setTime v))
  | Lccahsetposition v => Ok (ECH (CH_setPosition v))
  | Lccahsettype v => Ok (ECH (CH_setType v))
  | Lccahsetrawhit p => Ok (ECH (CH_setRawHit p))
  | Lctphsetcellid v => Ok (ETPC (TPC_setCellID v))
  | Lctphsettime v => Ok (ETPC (TPC_setTime v))
  | Lctphsetcharge v => Ok (ETPC (TPC_setCharge v))
  | Lctphsetquality v => Ok (ETPC (TPC_setQuality v))
  | Lctphsetrawdata v n => do l <- copied ro v n; Ok (ETPC (TPC_setRawData l))
  | Lcgobsetintval i v => do j <- minus1 i; Ok (EGO (GO_setIntVal (u32 j) v))
  | Lcgobsetfloatval i v => do j <- minus1 i; Ok (EGO (GO_setFloatVal (u32 j) v))
  | Lcgobsetdoubleval i v => do j <- minus1 i; Ok (EGO (GO_setDoubleVal (u32 j) v))
  | Lcrelsetfrom p => Ok (EREL (REL_setFrom p))
  | Lcrelsetto p => Ok (EREL (REL_setTo p))
  | Lcrelsetweight v => Ok (EREL (REL_setWeight v))
  | Lcmcpsetpdg v => Ok (EMC (MC_setPDG v))
  | Lcmcpsetgeneratorstatus v => Ok (EMC (MC_setGeneratorStatus v))
  | Lcmcpsetsimulatorstatus v => Ok (EMC (MC_setSimulatorStatus v))
  | Lcmcpsetvertex v => Ok (EMC (MC_setVertex v))
  | Lcmcpsetendpoint v => Ok (EMC (MC_setEndpoint v))
  | Lcmcpsetmomentum v => Ok (EMC (MC_setMomentum (map f2d v)))
  | Lcmcpsetmass v => Ok (EMC (MC_setMass (f2d v)))
  | Lcmcpsetcharge v => Ok (EMC (MC_setCharge v))
  | Lcmcpsetspin v => Ok (EMC (MC_setSpin v))
  | Lcmcpsetcolorflow v => Ok (EMC (MC_setColorFlow v))
  | Lcsthsetcellid0 v => Ok (ESTH (STH_setCellID0 v))
  | Lcsthsetcellid1 v => Ok (ESTH (STH_setCellID1 v))
  | Lcsthsetposition v => Ok (ESTH (STH_setPosition v))
  | Lcsthsetmomentum v => Ok (ESTH (STH_setMomentum v))
  | Lcsthsetmomentumxyz x y z => Ok (ESTH (STH_setMomentum [x; y; z]))
  | Lcsthsetpathlength v => Ok (ESTH (STH_setPathLength v))
  | Lcsthsetdedx v => Ok (ESTH (STH_setEDep v))
  | Lcsthsetedep v => Ok (ESTH (STH_setEDep v))
  | Lcsthsettime v => Ok (ESTH (STH_setTime v))
  | Lcsthsetmcparticle p => do q <- cast m [TMC] p; Ok (ESTH (STH_setMCParticle q))
  | Lcsthsetquality v => Ok (ESTH (STH_setQuality v))
  | Lcschsetcellid0 v => Ok (ESCH (SCH_setCellID0 v))
  | Lcschsetcellid1 v => Ok (ESCH (SCH_setCellID1 v))
  | Lcschsetenergy v => Ok (ESCH (SCH_setEnergy v))
  | Lcschsetposition v => Ok (ESCH (SCH_setPosition v))
  | Lcschaddmcparticlecontribution p en t pdg => do q <- cast m [TMC] p; Ok (ESCH (SCH_addDetailed q en t 0 pdg None))
  | Lcvtxsetprimary b => Ok (EVX (VX_setPrimary b))
  | Lcvtxsetalgorithmtype v => Ok (EVX (VX_setAlgorithmType (c_string v)))
  | Lcvtxsetchi2 v => Ok (EVX (VX_setChi2 v))
  | Lcvtxsetprobability v => Ok (EVX (VX_setProbability v))
  | Lcvtxsetposition v => Ok (EVX (VX_setPosition v))
  | Lcvtxsetcovmatrix v => Ok (EVX (VX_setCovMatrix v))
  | Lcvtxaddparameter v => Ok (EVX (VX_addParameter v))
  | Lcvtxsetassociatedparticle p => do q <- cast m [TRP] p; Ok (EVX (VX_setAssociatedParticle q))
  | Lcclusettypebit i v => Ok (ECL (CL_setTypeBit i (negb (v =? 0))))
  | Lcclusetenergy v => Ok (ECL (CL_setEnergy v))
  | Lcclusetenergyerr v => Ok (ECL (CL_setEnergyError v))
  | Lcclusetposition v => Ok (ECL (CL_setPosition v))
  | Lcclusetpositionerror v => Ok (ECL (CL_setPositionError v))
  | Lcclusetitheta v => Ok (ECL (CL_setITheta v))
  | Lcclusetiphi v => Ok (ECL (CL_setIPhi v))
  | Lcclusetdirectionerror v => Ok (ECL (CL_setDirectionError v))
  | Lcclusetshape v => Ok (ECL (CL_setShape v))
  | Lccluaddcluster p => do q <- cast m [TCL] p; Ok (ECL (CL_addCluster q))
  | Lccluaddhit p w => do q <- cast m [TCH] p; Ok (ECL (CL_addHit q w))
  | Lcclusetsubdetectorenergies v n => do l <- resized ro v n; Ok (ECL (CL_subdetectorEnergies l))
  end.

Section Wrap.
(** the addition of two [float]s, SimCalorimeterHitImpl.cc:181; std::sort *)
Context (fadd : Z -> Z -> Z) (srt : forall A : Type, (A -> Z) -> list A -> list A).

(** one function on an object: of another class [f2c_pointer] gives a null pointer (cpointer.h:24-31), the reinterpret_casts of
    lcgob.cc and lcrel.cc no such object *)
Definition set_do (m : wmem) (ro : bool) (o : obj) (s : fset) : obj * Res unit :=
  if otype_eq_dec (type_of o) (set_class s) then
    match set_call m ro o s with Ok e => obj_do fadd srt ro o e | Throw x => (o, Throw x) | UB u => (o, UB u) end
  else (o, UB UBNullDeref).

(** a getter of the class, called through the pointer; the getters cited in AttrModel *)
Definition attr_of (t : otype) (a : attr) (o : obj) : Res aval :=
  if otype_eq_dec (type_of o) t then match obj_get o a with Some v => Ok v | None => UB UBPrecondition end else UB UBNullDeref.
(** [return obj->getX()], e.g. lcrcp.cc:31-34 *)
Definition get_num (t : otype) (a : attr) (o : obj) : Res wout :=
  do v <- attr_of t a o; match v with VNum z => Ok (WNum z) | _ => UB UBPrecondition end.
(** the same for a [bool], e.g. lcvtx.cc:31-34 *)
Definition get_bool (t : otype) (a : attr) (o : obj) : Res wout :=
  do v <- attr_of t a o; match v with VBool b => Ok (WBool b) | _ => UB UBPrecondition end.
(** [.c_str()] of a string of the object, lcvtx.cc:36-39 *)
Definition get_text (t : otype) (a : attr) (o : obj) : Res wout :=
  do v <- attr_of t a o; match v with VText s => Ok (WText (c_string s)) | _ => UB UBPrecondition end.
(** the address of a vector, here its elements, e.g. lcrcp.cc:85-89 *)
Definition get_list (t : otype) (a : attr) (o : obj) : Res wout :=
  do v <- attr_of t a o; match v with VList l => Ok (WArr l) | _ => UB UBPrecondition end.
(** the loop over [n] elements, e.g. lcrcp.cc:41-45 *)
Definition get_array (t : otype) (a : attr) (n : nat) (o : obj) : Res wout :=
  do v <- attr_of t a o; match v with VList l => do x <- arr n l; Ok (WArr x) | _ => UB UBPrecondition end.
(** [size()] as an [int], e.g. lcgob.cc:33-36 *)
Definition n_of (t : otype) (a : attr) (o : obj) : Res wout :=
  do v <- attr_of t a o; match v with VList l => Ok (WNum (n_vals l)) | _ => UB UBPrecondition end.
(** element [i] of an array or vector of the object, e.g. lcgob.cc:48-51, lcsth.cc:40-43 *)
Definition element (t : otype) (a : attr) (o : obj) (i : Z) : Res wout :=
  do v <- attr_of t a o; match v with VList l => do x <- vat l i; Ok (WNum x) | _ => UB UBPrecondition end.
(** lctphgetrawdataword, lctph.cc:46-49 *)
Definition raw_word (o : obj) (i : Z) : Res wout :=
  match o with OTPC x => do j <- minus1 i; do w <- word x j; Ok (WNum w) | _ => UB UBNullDeref end.
(** lctrkgetsubdetectorhitnumbers, lctrk.cc:120-134: through the function that allows to modify the vector, TrackImpl.cc:367-370 *)
Definition hit_numbers (ro : bool) (o : obj) (n : Z) : Res wout :=
  match o with
  | OTRK x =>
      if ro then Throw LReadOnly else
      let size := n_vals (tr_hitnums x) in
      let k := if n <? size then n else size in
      do l <- arr (Z.to_nat k) (tr_hitnums x); Ok (WArrN l k)
  | _ => UB UBNullDeref
  end.
(** [.c_str()] of a std::string that the getter returns by value, lcgob.cc:88-96, LCGenericObjectImpl.cc:72-78: the string is gone when
    the function returns, the characters the caller reads are no longer there *)
Definition dangling (t : otype) (o : obj) : Res wout :=
  if otype_eq_dec (type_of o) t then UB UBUninit else UB UBNullDeref.

(** one function that returns an attribute *)
Definition get_do (ro : bool) (o : obj) (g : fget) : Res wout :=
  match g with
  | Lcrcpgettype => get_num TRP AType o
  | Lcrcpgetmomentum => get_array TRP AMomentum 3 o
  | Lcrcpgetenergy => get_num TRP AEnergy o
  | Lcrcpgetcovmatrix => get_array TRP ACovMatrix 10 o
  | Lcrcpgetmass => get_num TRP AMass o
  | Lcrcpgetcharge => get_num TRP ACharge o
  | Lcrcpgetreferencepoint => get_array TRP AReferencePoint 3 o
  | Lcrcpgetgoodnessofpid => get_num TRP AGoodnessOfPID o
  | Lcrcpgetparticles => get_list TRP AParticles o
  | Lcrcpgetclusters => get_list TRP AClusters o
  | Lcrcpgettracks => get_list TRP ATracks o
  | Lcrcpgetstartvertex => get_num TRP AStartVertex o
  | Lctrkgettype => get_num TTRK AType o
  | Lctrkgetomega => get_num TTRK AOmega o
  | Lctrkgettanlambda => get_num TTRK ATanLambda o
  | Lctrkgetphi => get_num TTRK APhi o
  | Lctrkgetd0 => get_num TTRK AD0 o
  | Lctrkgetz0 => get_num TTRK AZ0 o
  | Lctrkgetcovmatrix => get_array TTRK ACovMatrix 15 o
  | Lctrkgetreferencepoint => get_array TTRK AReferencePoint 3 o
  | Lctrkgetchi2 => get_num TTRK AChi2 o
  | Lctrkgetndf => get_num TTRK ANdf o
  | Lctrkgetdedx => get_num TTRK AdEdx o
  | Lctrkgetdedxerror => get_num TTRK AdEdxError o
  | Lctrkgetradiusofinnermosthit => get_num TTRK ARadius o
  | Lctrkgettracks => get_list TTRK ATracks o
  | Lctrkgettrackerhits => get_list TTRK AHits o
  | Lctrkgetsubdetectorhitnumbers n => hit_numbers ro o n
  | Lctrhgetposition => get_array TTH APosition 3 o
  | Lctrhgetcovmatrix => get_array TTH ACovMatrix 6 o
  | Lctrhgetdedx => get_num TTH AEDep o
  | Lctrhgetedep => get_num TTH AEDep o
  | Lctrhgetedeperr => get_num TTH AEDepError o
  | Lctrhgettime => get_num TTH ATime o
  | Lctrhgettype => get_num TTH AType o
  | Lctrhgetquality => get_num TTH AQuality o
  | Lctrhgetcellid0 => get_num TTH ACellID0 o
  | Lctrhgetcellid1 => get_num TTH ACellID1 o
  | Lctrhgetrawhits => get_list TTH ARawHits o
  | Lccahgetcellid0 => get_num TCH ACellID0 o
  | Lccahgetcellid1 => get_num TCH ACellID1 o
  | Lccahgetenergy => get_num TCH AEnergy o
  | Lccahgetenergyerr => get_num TCH AEnergyError o
  | Lccahgettime => get_num TCH ATime o
  | Lccahgetposition => get_array TCH APosition 3 o
  | Lccahgettype => get_num TCH AType o
  | Lccahgetrawhit => get_num TCH ARawHit o
  | Lctphgetcellid => get_num TTPC ACellID o
  | Lctphgettime => get_num TTPC ATime o
  | Lctphgcharge => get_num TTPC ACharge o
  | Lctphgetquality => get_num TTPC AQuality o
  | Lctphgetnrawdatawords => n_of TTPC AWords o
  | Lctphgetrawdataword i => raw_word o i
  | Lcgobgetnint => n_of TGO AInts o
  | Lcgobgetintval i => do j <- minus1 i; element TGO AInts o j
  | Lcgobgetnfloat => n_of TGO AFloats o
  | Lcgobgetfloatval i => do j <- minus1 i; element TGO AFloats o j
  | Lcgobgetndouble => n_of TGO ADoubles o
  | Lcgobgetdoubleval i => do j <- minus1 i; element TGO ADoubles o j
  | Lcgobisfixedsize => get_bool TGO AFixedSize o
  | Lcgobgettypename => dangling TGO o
  | Lcgobgetdatadescription => dangling TGO o
  | Lcrelgetfrom => get_num TREL AFrom o
  | Lcrelgetto => get_num TREL ATo o
  | Lcrelgetweight => get_num TREL AWeight o
  | Lcmcpgetpdg => get_num TMC APDG o
  | Lcmcpgetgeneratorstatus => get_num TMC AGeneratorStatus o
  | Lcmcpgetsimulatorstatus => get_num TMC ASimulatorStatus o
  | Lcmcpgetvertex => get_array TMC AVertex 3 o
  | Lcmcpgettime => get_num TMC ATime o
  | Lcmcpgetmomentum => get_array TMC AMomentum 3 o
  | Lcmcpgetmass => get_num TMC AMass o
  | Lcmcpgetcharge => get_num TMC ACharge o
  | Lcmcpgetspin => get_array TMC ASpin 3 o
  | Lcmcpgetcolorflow => get_array TMC AColorFlow 2 o
  | Lcsthgetcellid => get_num TSTH ACellID0 o
  | Lcsthgetcellid0 => get_num TSTH ACellID0 o
  | Lcsthgetcellid1 => get_num TSTH ACellID1 o
  | Lcsthgetposition i => element TSTH APosition o i
  | Lcsthgetmomentum i => element TSTH AMomentum o i
  | Lcsthgetpathlength => get_num TSTH APathLength o
  | Lcsthgetdedx => get_num TSTH AEDep o
  | Lcsthgetedep => get_num TSTH AEDep o
  | Lcsthgettime => get_num TSTH ATime o
  | Lcsthgetmcparticle => get_num TSTH AMCParticle o
  | Lcsthgetquality => get_num TSTH AQuality o
  | Lcschgetcellid0 => get_num TSCH ACellID0 o
  | Lcschgetcellid1 => get_num TSCH ACellID1 o
  | Lcschgetenergy => get_num TSCH AEnergy o
  | Lcschgetposition => get_array TSCH APosition 3 o
  | Lcvtxisprimary => get_bool TVX APrimary o
  | Lcvtxgetalgorithmtype => get_text TVX AAlgorithmType o
  | Lcvtxgetchi2 => get_num TVX AChi2 o
  | Lcvtxgetprobability => get_num TVX AProbability o
  | Lcvtxgetposition => get_array TVX APosition 3 o
  | Lcvtxgetcovmatrix => get_array TVX ACovMatrix 6 o
  | Lcvtxgetassociatedparticle => get_num TVX AAssociatedParticle o
  | Lcclugettype => get_num TCL AType o
  | Lcclugetenergy => get_num TCL AEnergy o
  | Lcclugetenergyerr => get_num TCL AEnergyError o
  | Lcclugetposition => get_array TCL APosition 3 o
  | Lcclugetpositionerror => get_array TCL APositionError 6 o
  | Lcclugetitheta => get_num TCL AITheta o
  | Lcclugetiphi => get_num TCL AIPhi o
  | Lcclugetdirectionerror => get_array TCL ADirectionError 3 o
  | Lcclugetshape => get_list TCL AShape o
  | Lcclugetclusters => get_list TCL AClusters o
  | Lcclugetcalorimeterhits => get_list TCL AHits o
  | Lcclugetsubdetectorenergies => get_list TCL ASubdetectorEnergies o
  end.

(** ** Programs *)
(** create (lcrcpcreate, lctrkcreate, lctrhcreate, lccahcreate, lctphcreate, lcgobcreate, lcrelcreate0, lcmcpcreate, lcsthcreate,
    lcschcreate, lcvtxcreate, lcclucreate: [new] and the address of the object, at an address that is not in use), lcrelcreate
    (lcrel.cc:15-20), lcgobcreatefixed (lcgob.cc:15-19), and the functions above on the object at an address *)
Inductive wcall2 :=
| Create (t : otype) (a : addr) | CreateRel (f t w : Z) (a : addr) | CreateFixed (ni nf nd : Z) (a : addr)
| Set_ (a : addr) (s : fset) | Get_ (a : addr) (g : fget).
(** the memory with another object at an address (no code of its own) *)
Definition wput (m : wmem) (a : addr) (x : bool * obj) : wmem := fun b => if b =? a then Some x else m b.
(** std::vector::resize of a new vector, LCGenericObjectImpl.cc:20-25 *)
Definition new_vec (n : Z) : Res (list Z) := if n <? 0 then Throw StdLengthError else Ok (repeat 0 (Z.to_nat n)).
(** LCIO::SUCCESS for the functions that modify, e.g. lcrcp.cc:185-189; the exceptions are not caught *)
Definition w_step (m : wmem) (c : wcall2) : Res wout * wmem :=
  match c with
  | Create t a => (Ok (WNum a), wput m a (false, new_obj t))
  | CreateRel f t w a => (Ok (WNum a), wput m a (false, OREL (mkREL f t w)))
  | CreateFixed ni nf nd a =>
      match (do i <- new_vec ni; do f <- new_vec nf; do d <- new_vec nd; Ok (mkGO i f d true (str "LCGenericObject") [])) with
      | Ok g => (Ok (WNum a), wput m a (false, OGO g))
      | Throw e => (Throw e, m) | UB u => (UB u, m)
      end
  | Set_ a s =>
      match m a with
      | Some (ro, o) =>
          match set_do m ro o s with
          | (o', Ok _) => (Ok (WStatus st_success), wput m a (ro, o'))
          | (o', Throw e) => (Throw e, wput m a (ro, o'))
          | (o', UB u) => (UB u, wput m a (ro, o'))
          end
      | None => (UB (if a =? 0 then UBNullDeref else UBPrecondition), m)
      end
  | Get_ a g =>
      match m a with
      | Some (ro, o) => (get_do ro o g, m)
      | None => (UB (if a =? 0 then UBNullDeref else UBPrecondition), m)
      end
  end.
(** calls one after the other (no code of its own) *)
Definition w_run (m : wmem) (cs : list wcall2) : wmem := fold_left (fun x c => snd (w_step x c)) cs m.
End Wrap.
