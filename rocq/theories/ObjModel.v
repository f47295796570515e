(** * The SIO object handlers of LCIO (src/cpp/src/SIO, src/cpp/include/SIO)

    Every handler's [write] is the list of its calls on the write device, every [read] a
    computation on the read device.  Integers are mathematical integers in the range of their
    C++ type; floats and doubles are raw IEEE words; [std::string] is a list of bytes.
    A pointer is an address (0 is null); an object just read holds in its pointer fields the
    match word of the pointer until the relocation pass (see [SioModel.reloc_ptr]). *)

From Verif Require Import Bytes StrMap SioModel Ieee.

(** ** Versions and flags *)

(** SIO_VERSION_ENCODE, SIO_VERSION_MAJOR, SIO_VERSION_MINOR:
    sio/include/sio/definitions.h:295-297, sio/src/version.cc *)
Definition ver (maj min : Z) : Z := maj * 65536 + min.
Definition ver_major (v : Z) : Z := v / 65536.
Definition ver_minor (v : Z) : Z := v mod 65536.
Definition vgt (v maj min : Z) : bool := ver maj min <? v.
(** the version of all blocks written by this release (LCIO 2.15): CMakeLists.txt (project
    version), src/cpp/src/SIO/SIOCollectionHandler.cc:21, SIOEventHandler.cc:18 *)
Definition cur_vers : Z := ver 2 15.

(** LCFlagImpl::bitSet for bits 0..31: src/cpp/src/IMPL/LCFlagImpl.cc:13 *)
Definition bit_set (flag n : Z) : bool := Z.testbit flag n.

(** LCCollection::BITSubset: src/cpp/include/pre-generated/EVENT/LCCollection.h:70;
    the flag bits of the collection types: cmake/LCIO.h.in:45-94 *)
Definition BITSubset := 18.
Definition BITTransient := 16.
Definition BITDefault := 17.
Definition CHBIT_LONG := 31.      Definition CHBIT_ID1 := 29.       Definition CHBIT_STEP := 28.
Definition RCHBIT_LONG := 31.     Definition RCHBIT_ID1 := 29.      Definition RCHBIT_NO_PTR := 28.
Definition RCHBIT_TIME := 27.     Definition RCHBIT_ENERGY_ERROR := 26.
Definition TRAWBIT_ID1 := 31.     Definition TRAWBIT_CM := 30.
Definition RTHBIT_ID1 := 31.      Definition RTHPBIT_ID1 := 31.     Definition RTHZBIT_ID1 := 31.
Definition THBIT_MOMENTUM := 30.  Definition THBIT_ID1 := 29.
Definition TRBIT_HITS := 31.      Definition CLBIT_HITS := 31.
Definition TPCBIT_RAW := 31.      Definition TPCBIT_NO_PTR := 30.
Definition LCREL_WEIGHTED := 31.  Definition GOBIT_FIXED := 31.
(** MCParticle::BITEndpoint: src/cpp/include/pre-generated/EVENT/MCParticle.h *)
Definition BITEndpoint := 31.

(** ** Loops of the handlers *)

(** [int n = v.size()], as in src/cpp/src/SIO/SIOCollectionHandler.cc:78 *)
Definition cnt {A} (l : list A) : Z := s32 (Zlen l).
(** the elements visited by [for( int i=0 ; i<n ; i++ )] with [int n = v.size()] *)
Definition upto {A} (l : list A) : list A := firstn (Z.to_nat (cnt l)) l.
(** a read loop [for( int i=0 ; i<n ; i++ )] appending to a vector *)
Definition r_loop {A} (n : Z) (m : RD A) : RD (list A) := r_repeat (Z.to_nat n) m.
(** the same after [v.resize(n)], [v.reserve(n)] or [vector v(n)]: a negative [n] is a huge
    size and throws [std::length_error] *)
Definition r_sized {A} (n : Z) (m : RD A) : RD (list A) :=
  if n <? 0 then rthrow StdLengthError else r_loop n m.
(** [SIO_DATA( device, &v[0], n )] after [v.resize(n)] *)
Definition r_sized_arr (size : nat) (n : Z) : RD (list Z) :=
  if n <? 0 then rthrow StdLengthError else r_arr size n.
(** arrays of [int] *)
Definition r_iarr (n : Z) : RD (list Z) := let* l := r_arr 4 n in rret (map s32 l).
(** a conditional field: [if( b ) SIO_DATA( ... )]; [d] is the value of the constructor *)
Definition r_when {A} (b : bool) (m : RD A) (d : A) : RD A := if b then m else rret d.
Definition w_when (b : bool) (w : list dcall) : list dcall := if b then w else [].
Definition w_ptrs (l : list addr) : list dcall := flat_map (fun a => [DPtr a]) l.
(** the [n]-th float of an array of three *)
Definition fst3 (l : list Z) := nth 0 l 0.
Definition snd3 (l : list Z) := nth 1 l 0.
Definition thd3 (l : list Z) := nth 2 l 0.
Definition zeros3 : list Z := [0; 0; 0].

(** ** LCParameters: src/cpp/src/IMPL/LCParametersImpl.cc *)

(** the three maps, src/cpp/include/IMPL/LCParametersImpl.h, 126-128 *)
Record params := mkP {
  p_int : list (bytes * list Z);
  p_flt : list (bytes * list Z);
  p_str : list (bytes * list bytes)
}.
Definition no_params : params := mkP [] [] [].

(** LCParametersImpl.cc:36-47; the first element of an empty vector is undefined *)
Definition get_string_val (p : params) (k : bytes) : Res bytes :=
  match sm_get k (p_str p) with
  | None => Ok []
  | Some [] => UB UBOutOfBounds
  | Some (s :: _) => Ok s
  end.
(** LCParametersImpl.cc:69-78 *)
Definition get_string_vals (p : params) (k : bytes) (values : list bytes) : list bytes :=
  match sm_get k (p_str p) with None => values | Some l => values ++ l end.
(** LCParametersImpl.cc:186-194 (156-162 with one value) *)
Definition set_strings (p : params) (k : bytes) (v : list bytes) : params :=
  mkP (p_int p) (p_flt p) (sm_set k v (p_str p)).

(** One of the three loops of SIOLCParameters::write, src/cpp/src/SIO/SIOLCParameters.cc:54-66,
    67-79, 80-92 *)
Definition w_map {V} (wv : V -> list dcall) (m : list (bytes * list V)) : list dcall :=
  w_i32 (cnt m)
  ++ flat_map (fun kv => w_string (fst kv) ++ w_i32 (cnt (snd kv)) ++ flat_map wv (upto (snd kv))) (upto m).
(** src/cpp/src/SIO/SIOLCParameters.cc:53-93 *)
Definition w_params (p : params) : list dcall :=
  w_map w_i32 (p_int p) ++ w_map w_f32 (p_flt p) ++ w_map w_string (p_str p).

(** One of the three loops of SIOLCParameters::read, SIOLCParameters.cc:10-22, 23-35, 36-50 *)
Definition r_map {V} (rv : RD V) (m0 : list (bytes * list V)) : RD (list (bytes * list V)) :=
  let* n := r_i32 in
  let* es := r_loop n (let* k := r_string in
                       let* nv := r_i32 in
                       let* vs := r_sized nv rv in rret (k, vs)) in
  rret (fold_left (fun m kv => sm_set (fst kv) (snd kv) m) es m0).
(** src/cpp/src/SIO/SIOLCParameters.cc:9-51, into the parameters [p] *)
Definition r_params (p : params) : RD params :=
  let* mi := r_map r_i32 (p_int p) in
  let* mf := r_map r_f32 (p_flt p) in
  let* ms := r_map r_string (p_str p) in
  rret (mkP mi mf ms).

(** ** The objects: members of the IMPL classes *)

(** src/cpp/include/IMPL/MCParticleImpl.h (members at the end); the daughters are not stored, 278-293 *)
Record mcp := mkMC {
  mc_parents : list addr; mc_pdg : Z; mc_gen : Z; mc_sim : Z;
  mc_vertex : list Z; mc_time : Z; mc_p : list Z; mc_mass : Z; mc_charge : Z;
  mc_endpoint : list Z; mc_pend : list Z; mc_spin : list Z; mc_color : list Z;
  mc_daughters : list addr
}.
(** src/cpp/include/IMPL/SimCalorimeterHitImpl.h (MCParticleCont and members), lines 15-50 and 218-223 *)
Record mccont := mkCont {
  co_part : addr; co_energy : Z; co_time : Z; co_length : Z; co_pdg : Z; co_pos : list Z
}.
(** src/cpp/include/IMPL/SimCalorimeterHitImpl.h:218-223 *)
Record simcalhit := mkSCH {
  sc_id0 : Z; sc_id1 : Z; sc_energy : Z; sc_pos : list Z; sc_cont : list mccont
}.
(** src/cpp/include/IMPL/CalorimeterHitImpl.h, lines 112-120 *)
Record calhit := mkCH {
  ch_id0 : Z; ch_id1 : Z; ch_energy : Z; ch_err : Z; ch_time : Z; ch_pos : list Z;
  ch_type : Z; ch_raw : addr
}.
(** src/cpp/include/IMPL/RawCalorimeterHitImpl.h, lines 69-72 *)
Record rawcalhit := mkRCH { rc_id0 : Z; rc_id1 : Z; rc_ampl : Z; rc_time : Z }.
(** src/cpp/include/IMPL/SimTrackerHitImpl.h, lines 162-170 *)
Record simtrkhit := mkSTH {
  st_id0 : Z; st_id1 : Z; st_pos : list Z; st_edep : Z; st_time : Z; st_part : addr;
  st_p : list Z; st_path : Z; st_quality : Z
}.
(** src/cpp/include/IMPL/TPCHitImpl.h, lines 88-93 *)
Record tpchit := mkTPC { tp_id : Z; tp_time : Z; tp_charge : Z; tp_quality : Z; tp_raw : list Z }.
(** src/cpp/include/IMPL/TrackStateImpl.h, lines 100-108 *)
Record tstate := mkTS {
  ts_loc : Z; ts_d0 : Z; ts_phi : Z; ts_omega : Z; ts_z0 : Z; ts_tanl : Z;
  ts_cov : list Z; ts_ref : list Z
}.
(** src/cpp/include/IMPL/TrackImpl.h, lines 198-211 *)
Record track := mkTRK {
  tr_type : Z; tr_states : list tstate; tr_chi2 : Z; tr_ndf : Z; tr_dedx : Z; tr_dedxerr : Z;
  tr_radius : Z; tr_hitnums : list Z; tr_tracks : list addr; tr_hits : list addr
}.
(** src/cpp/include/IMPL/TrackerRawDataImpl.h, lines 65-69 (_channelID is never used) *)
Record trkraw := mkTRD { td_id0 : Z; td_id1 : Z; td_time : Z; td_adc : list Z }.
(** src/cpp/include/IMPL/TrackerDataImpl.h, lines 65-68 *)
Record trkdata := mkTD { tc_id0 : Z; tc_id1 : Z; tc_time : Z; tc_charge : list Z }.
(** src/cpp/include/IMPL/TrackerHitImpl.h, lines 122-132 *)
Record trkhit := mkTH {
  th_id0 : Z; th_id1 : Z; th_type : Z; th_pos : list Z; th_cov : list Z; th_edep : Z;
  th_edeperr : Z; th_time : Z; th_quality : Z; th_raw : list addr
}.
(** src/cpp/include/IMPL/TrackerHitPlaneImpl.h, lines 137-151 *)
Record trkhitp := mkTHP {
  hp_id0 : Z; hp_id1 : Z; hp_type : Z; hp_pos : list Z; hp_u : list Z; hp_v : list Z;
  hp_du : Z; hp_dv : Z; hp_edep : Z; hp_edeperr : Z; hp_time : Z; hp_quality : Z;
  hp_raw : list addr
}.
(** src/cpp/include/IMPL/TrackerHitZCylinderImpl.h, lines 137-150 *)
Record trkhitz := mkTHZ {
  hz_id0 : Z; hz_id1 : Z; hz_type : Z; hz_pos : list Z; hz_center : list Z;
  hz_drphi : Z; hz_dz : Z; hz_edep : Z; hz_edeperr : Z; hz_time : Z; hz_quality : Z;
  hz_raw : list addr
}.
(** src/cpp/include/IMPL/TrackerPulseImpl.h, lines 94-100 *)
Record trkpulse := mkTPu {
  pu_id0 : Z; pu_id1 : Z; pu_time : Z; pu_charge : Z; pu_cov : list Z; pu_quality : Z;
  pu_corr : addr
}.
(** src/cpp/include/IMPL/ParticleIDImpl.h, lines 76-80 *)
Record pid := mkPID {
  pi_like : Z; pi_type : Z; pi_pdg : Z; pi_alg : Z; pi_par : list Z
}.
(** src/cpp/include/IMPL/ClusterImpl.h, lines 146-159 *)
Record cluster := mkCL {
  cl_type : Z; cl_energy : Z; cl_energyerr : Z; cl_pos : list Z; cl_errpos : list Z;
  cl_theta : Z; cl_phi : Z; cl_errdir : list Z; cl_shape : list Z; cl_pids : list pid;
  cl_clusters : list addr; cl_hits : list addr; cl_weights : list Z; cl_energies : list Z
}.
(** src/cpp/include/IMPL/VertexImpl.h, lines 93-100 *)
Record vertex := mkVX {
  vx_primary : Z; vx_type : bytes; vx_chi2 : Z; vx_prob : Z; vx_pos : list Z; vx_cov : list Z;
  vx_par : list Z; vx_part : addr
}.
(** src/cpp/include/IMPL/ReconstructedParticleImpl.h; the ParticleIDs are objects of their own
    that can be pointed at: they carry their address (138-151) *)
Record recp := mkRP {
  rp_type : Z; rp_p : list Z; rp_energy : Z; rp_cov : list Z; rp_mass : Z; rp_charge : Z;
  rp_ref : list Z; rp_pids : list (addr * pid); rp_used : addr; rp_good : Z;
  rp_parts : list addr; rp_tracks : list addr; rp_clusters : list addr; rp_sv : addr
}.
(** src/cpp/include/IMPL/LCRelationImpl.h, lines 49-51 *)
Record lcrel := mkREL { re_from : addr; re_to : addr; re_weight : Z }.
(** src/cpp/include/IMPL/LCGenericObjectImpl.h.  LCGenericObject is an interface users
    implement: type name, description and [isFixedSize] are kept as data.  Lines 92-98. *)
Record genobj := mkGO {
  go_int : list Z; go_flt : list Z; go_dbl : list Z; go_fixed : bool; go_type : bytes; go_desc : bytes
}.

(** an object of one of the classes that have a handler, src/cpp/src/SIO/SIOHandlerMgr.cc:31-53 *)
Inductive obj :=
| OMC (o : mcp) | OSCH (o : simcalhit) | ORCH (o : rawcalhit) | OCH (o : calhit)
| OSTH (o : simtrkhit) | OTPC (o : tpchit) | OTRD (o : trkraw) | OTD (o : trkdata)
| OTPu (o : trkpulse) | OTH (o : trkhit) | OTHP (o : trkhitp) | OTHZ (o : trkhitz)
| OTRK (o : track) | OCL (o : cluster) | ORP (o : recp) | OREL (o : lcrel) | OVX (o : vertex)
| OSTR (l : list bytes) | OFLT (l : list Z) | OINT (l : list Z) | OGO (o : genobj).

(** The types with a handler: src/cpp/src/SIO/SIOHandlerMgr.cc:31-52 *)
Inductive otype :=
| TMC | TSCH | TRCH | TCH | TSTH | TTPC | TTRD | TTD | TTPu | TTH | TTHP | TTHZ
| TTRK | TCL | TRP | TREL | TVX | TSTR | TFLT | TINT | TGO.

(** the class of an object, SIOHandlerMgr.cc:31-53 *)
Definition type_of (o : obj) : otype :=
  match o with
  | OMC _ => TMC | OSCH _ => TSCH | ORCH _ => TRCH | OCH _ => TCH | OSTH _ => TSTH
  | OTPC _ => TTPC | OTRD _ => TTRD | OTD _ => TTD | OTPu _ => TTPu | OTH _ => TTH
  | OTHP _ => TTHP | OTHZ _ => TTHZ | OTRK _ => TTRK | OCL _ => TCL | ORP _ => TRP
  | OREL _ => TREL | OVX _ => TVX | OSTR _ => TSTR | OFLT _ => TFLT | OINT _ => TINT | OGO _ => TGO
  end.

(** The handler map, SIOHandlerMgr.cc:31-52, with the names of src/cpp/src/IMPL/LCIO.cc:46-68 *)
Definition registry : list (bytes * otype) :=
  [ (str "MCParticle", TMC); (str "SimCalorimeterHit", TSCH); (str "RawCalorimeterHit", TRCH);
    (str "CalorimeterHit", TCH); (str "SimTrackerHit", TSTH); (str "TPCHit", TTPC);
    (str "TrackerRawData", TTRD); (str "TrackerData", TTD); (str "TrackerPulse", TTPu);
    (str "TrackerHit", TTH); (str "TrackerHitPlane", TTHP); (str "TrackerHitZCylinder", TTHZ);
    (str "Track", TTRK); (str "Cluster", TCL); (str "ReconstructedParticle", TRP);
    (str "LCRelation", TREL); (str "Vertex", TVX); (str "LCStrVec", TSTR);
    (str "LCFloatVec", TFLT); (str "LCIntVec", TINT); (str "LCGenericObject", TGO) ].
(** SIOHandlerMgr::getHandler, SIOHandlerMgr.cc:57-63; [None] is the null handler *)
Definition get_handler (name : bytes) : option otype :=
  match find (fun e => bytes_eqb name (fst e)) registry with Some e => Some (snd e) | None => None end.

(** ** The handlers *)

(** SIOParticleHandler::write, src/cpp/src/SIO/SIOParticleHandler.cc:60-90.
    getSimulatorStatus is the [int] value of the bit set; bit 31 is its sign. *)
Definition write_mcp (a : addr) (o : mcp) : list dcall :=
  [DTag a]
  ++ w_i32 (cnt (mc_parents o)) ++ w_ptrs (upto (mc_parents o))
  ++ w_i32 (mc_pdg o) ++ w_i32 (mc_gen o) ++ w_i32 (mc_sim o)
  ++ w_arr 8 (mc_vertex o) ++ w_f32 (mc_time o)
  ++ w_f32 (d2f (fst3 (mc_p o))) ++ w_f32 (d2f (snd3 (mc_p o))) ++ w_f32 (d2f (thd3 (mc_p o)))
  ++ w_f32 (d2f (mc_mass o)) ++ w_f32 (mc_charge o)
  ++ w_when (bit_set (mc_sim o) BITEndpoint)
       (w_arr 8 (mc_endpoint o)
        ++ w_f32 (d2f (fst3 (mc_pend o))) ++ w_f32 (d2f (snd3 (mc_pend o))) ++ w_f32 (d2f (thd3 (mc_pend o))))
  ++ w_f32 (fst3 (mc_spin o)) ++ w_f32 (snd3 (mc_spin o)) ++ w_f32 (thd3 (mc_spin o))
  ++ w_i32 (nth 0 (mc_color o) 0) ++ w_i32 (nth 1 (mc_color o) 0).

(** SIOParticleHandler::read, SIOParticleHandler.cc:19-56; defaults of the constructor
    src/cpp/src/IMPL/MCParticleImpl.cc:31-60 *)
Definition read_mcp (vers : Z) (na : addr) : RD mcp :=
  let* _ := r_pointed_at na in
  let* np := r_i32 in
  let* parents := r_sized np r_pointer_to in
  let* pdg := r_i32 in
  let* gen := r_i32 in
  let* sim := r_i32 in
  let* vtx := r_arr 8 3 in
  let* time := r_when (vgt vers 1 2) r_f32 0 in
  let* mom := r_arr 4 3 in
  let* mass := r_f32 in
  let* charge := r_f32 in
  let* 'endp := r_when (bit_set sim BITEndpoint)
                  (let* e := r_arr 8 3 in
                   let* p := r_when (vgt vers 2 6) (let* p := r_arr 4 3 in rret (map f2d p)) zeros3 in
                   rret (e, p)) (zeros3, zeros3) in
  let* 'sc := r_when (vgt vers 1 51)
                (let* s := r_arr 4 3 in let* c := r_iarr 2 in rret (s, c)) (zeros3, [0; 0]) in
  rret (mkMC parents pdg gen sim vtx time (map f2d mom) (f2d mass) charge
             (fst endp) (snd endp) (fst sc) (snd sc) []).

(** SIOSimCalHitHandler::write, src/cpp/src/SIO/SIOSimCalHitHandler.cc:66-94 *)
Definition write_cont (flag : Z) (c : mccont) : list dcall :=
  [DPtr (co_part c)] ++ w_f32 (co_energy c) ++ w_f32 (co_time c)
  ++ w_when (bit_set flag CHBIT_STEP)
       (w_f32 (co_length c) ++ w_i32 (co_pdg c) ++ w_arr 4 (co_pos c)).
Definition write_simcalhit (flag : Z) (a : addr) (o : simcalhit) : list dcall :=
  w_i32 (sc_id0 o)
  ++ w_when (bit_set flag CHBIT_ID1) (w_i32 (sc_id1 o))
  ++ w_f32 (sc_energy o)
  ++ w_when (bit_set flag CHBIT_LONG) (w_arr 4 (sc_pos o))
  ++ w_i32 (cnt (sc_cont o)) ++ flat_map (write_cont flag) (upto (sc_cont o))
  ++ [DTag a].
(** SIOSimCalHitHandler::read, SIOSimCalHitHandler.cc:24-62 *)
Definition read_cont (vers flag : Z) : RD mccont :=
  let* p := r_pointer_to in
  let* e := r_f32 in
  let* t := r_f32 in
  let* 's := r_when (bit_set flag CHBIT_STEP)
               (let* l := r_when (vgt vers 2 10) r_f32 0 in
                let* g := r_i32 in
                let* pos := r_when (vgt vers 1 51) (r_repeat 3 r_f32) zeros3 in
                rret (l, g, pos)) (0, 0, zeros3) in
  rret (mkCont p e t (fst (fst s)) (snd (fst s)) (snd s)).
Definition v00_08 (vers : Z) : bool := (ver_major vers =? 0) && (ver_minor vers =? 8).
Definition read_simcalhit (vers flag : Z) (na : addr) : RD simcalhit :=
  let* id0 := r_i32 in
  let* id1 := r_when (bit_set flag CHBIT_ID1 || v00_08 vers) r_i32 0 in
  let* e := r_f32 in
  let* pos := r_when (bit_set flag CHBIT_LONG) (r_arr 4 3) zeros3 in
  let* n := r_i32 in
  let* cs := r_sized n (read_cont vers flag) in
  let* _ := r_when (vgt vers 1 0) (r_pointed_at na) tt in
  rret (mkSCH id0 id1 e pos cs).

(** SIORawCalHitHandler::write, src/cpp/src/SIO/SIORawCalHitHandler.cc:40-54 *)
Definition write_rawcalhit (flag : Z) (a : addr) (o : rawcalhit) : list dcall :=
  w_i32 (rc_id0 o)
  ++ w_when (bit_set flag RCHBIT_ID1) (w_i32 (rc_id1 o))
  ++ w_i32 (rc_ampl o)
  ++ w_when (bit_set flag RCHBIT_TIME) (w_i32 (rc_time o))
  ++ w_when (negb (bit_set flag RCHBIT_NO_PTR)) [DTag a].
(** SIORawCalHitHandler::read, SIORawCalHitHandler.cc:22-36 *)
Definition read_rawcalhit (vers flag : Z) (na : addr) : RD rawcalhit :=
  let* id0 := r_i32 in
  let* id1 := r_when (bit_set flag RCHBIT_ID1 || (vers =? ver 0 8)) r_i32 0 in
  let* am := r_i32 in
  let* t := r_when (bit_set flag RCHBIT_TIME) r_i32 0 in
  let* _ := r_when (negb (bit_set flag RCHBIT_NO_PTR)) (r_pointed_at na) tt in
  rret (mkRCH id0 id1 am t).

(** SIOCalHitHandler::write, src/cpp/src/SIO/SIOCalHitHandler.cc:59-82 *)
Definition write_calhit (flag : Z) (a : addr) (o : calhit) : list dcall :=
  w_i32 (ch_id0 o)
  ++ w_when (bit_set flag RCHBIT_ID1) (w_i32 (ch_id1 o))
  ++ w_f32 (ch_energy o)
  ++ w_when (bit_set flag RCHBIT_ENERGY_ERROR) (w_f32 (ch_err o))
  ++ w_when (bit_set flag RCHBIT_TIME) (w_f32 (ch_time o))
  ++ w_when (bit_set flag RCHBIT_LONG) (w_arr 4 (ch_pos o))
  ++ w_i32 (ch_type o) ++ [DPtr (ch_raw o)]
  ++ w_when (negb (bit_set flag RCHBIT_NO_PTR)) [DTag a].
(** SIOCalHitHandler::read, SIOCalHitHandler.cc:22-55 *)
Definition read_calhit (vers flag : Z) (na : addr) : RD calhit :=
  let* id0 := r_i32 in
  let* id1 := r_when (bit_set flag RCHBIT_ID1 || v00_08 vers) r_i32 0 in
  let* e := r_f32 in
  let* err := r_when (vgt vers 1 9 && bit_set flag RCHBIT_ENERGY_ERROR) r_f32 0 in
  let* t := r_when (vgt vers 1 2 && bit_set flag RCHBIT_TIME) r_f32 0 in
  let* pos := r_when (bit_set flag RCHBIT_LONG) (r_arr 4 3) zeros3 in
  let* ty := r_when (vgt vers 1 2) r_i32 0 in
  let* raw := r_when (vgt vers 1 2) r_pointer_to 0 in
  let* _ := r_when (if vgt vers 1 2 then negb (bit_set flag RCHBIT_NO_PTR) else bit_set flag RCHBIT_NO_PTR)
              (r_pointed_at na) tt in
  rret (mkCH id0 id1 e err t pos ty raw).

(** SIOSimTrackHitHandler::write, src/cpp/src/SIO/SIOSimTrackHitHandler.cc:54-73 *)
Definition write_simtrkhit (flag : Z) (a : addr) (o : simtrkhit) : list dcall :=
  w_i32 (st_id0 o)
  ++ w_when (bit_set flag THBIT_ID1) (w_i32 (st_id1 o))
  ++ w_arr 8 (st_pos o) ++ w_f32 (st_edep o) ++ w_f32 (st_time o) ++ [DPtr (st_part o)]
  ++ w_when (bit_set flag THBIT_MOMENTUM) (w_arr 4 (st_p o) ++ w_f32 (st_path o))
  ++ w_i32 (st_quality o) ++ [DTag a].
(** SIOSimTrackHitHandler::read, SIOSimTrackHitHandler.cc:23-50 *)
Definition read_simtrkhit (vers flag : Z) (na : addr) : RD simtrkhit :=
  let* id0 := r_i32 in
  let* id1 := r_when (vgt vers 1 51 && bit_set flag THBIT_ID1) r_i32 0 in
  let* pos := r_arr 8 3 in
  let* e := r_f32 in
  let* t := r_f32 in
  let* p := r_pointer_to in
  let* 'mp := r_when (bit_set flag THBIT_MOMENTUM)
                (let* m := r_arr 4 3 in
                 let* l := r_when (vgt vers 1 6) r_f32 0 in rret (m, l)) (zeros3, 0) in
  let* q := r_when (vgt vers 2 7) r_i32 0 in
  let* _ := r_when (vgt vers 1 0) (r_pointed_at na) tt in
  rret (mkSTH id0 id1 pos e t p (fst mp) (snd mp) q).

(** SIOTPCHitHandler::write, src/cpp/src/SIO/SIOTPCHitHandler.cc:48-65 *)
Definition write_tpchit (flag : Z) (a : addr) (o : tpchit) : list dcall :=
  w_i32 (tp_id o) ++ w_f32 (tp_time o) ++ w_f32 (tp_charge o) ++ w_i32 (tp_quality o)
  ++ w_when (bit_set flag TPCBIT_RAW)
       (w_i32 (cnt (tp_raw o)) ++ flat_map w_i32 (upto (tp_raw o)))
  ++ w_when (negb (bit_set flag TPCBIT_NO_PTR)) [DTag a].
(** SIOTPCHitHandler::read, SIOTPCHitHandler.cc:22-44; [new int[n]] with a negative [n]
    throws (src/cpp/src/IMPL/TPCHitImpl.cc:73-80) *)
Definition read_tpchit (vers flag : Z) (na : addr) : RD tpchit :=
  let* id := r_i32 in
  let* t := r_f32 in
  let* c := r_f32 in
  let* q := r_i32 in
  let* raw := r_when (bit_set flag TPCBIT_RAW)
                (let* n := r_i32 in
                 if n <? 0 then rthrow StdLengthError else r_iarr n) [] in
  let* _ := r_when (if vgt vers 1 2 then negb (bit_set flag TPCBIT_NO_PTR) else bit_set flag TPCBIT_NO_PTR)
              (r_pointed_at na) tt in
  rret (mkTPC id t c q raw).

(** SIOTrackerRawDataHandler::write, src/cpp/src/SIO/SIOTrackerRawDataHandler.cc:35-45;
    the ADC values are a [vector<short>], kept as 16-bit words *)
Definition write_trkraw (flag : Z) (a : addr) (o : trkraw) : list dcall :=
  w_i32 (td_id0 o) ++ w_when (bit_set flag TRAWBIT_ID1) (w_i32 (td_id1 o))
  ++ w_i32 (td_time o) ++ w_vec 2 (td_adc o) ++ [DTag a].
(** SIOTrackerRawDataHandler::read, SIOTrackerRawDataHandler.cc:21-31 *)
Definition read_trkraw (flag : Z) (na : addr) : RD trkraw :=
  let* id0 := r_i32 in
  let* id1 := r_when (bit_set flag TRAWBIT_ID1) r_i32 0 in
  let* t := r_i32 in
  let* adc := r_vec 2 [] in
  let* _ := r_pointed_at na in
  rret (mkTRD id0 id1 t adc).

(** SIOTrackerDataHandler::write, src/cpp/src/SIO/SIOTrackerDataHandler.cc:36-46 *)
Definition write_trkdata (flag : Z) (a : addr) (o : trkdata) : list dcall :=
  w_i32 (tc_id0 o) ++ w_when (bit_set flag TRAWBIT_ID1) (w_i32 (tc_id1 o))
  ++ w_f32 (tc_time o) ++ w_vec 4 (tc_charge o) ++ [DTag a].
(** SIOTrackerDataHandler::read, SIOTrackerDataHandler.cc:22-32 *)
Definition read_trkdata (flag : Z) (na : addr) : RD trkdata :=
  let* id0 := r_i32 in
  let* id1 := r_when (bit_set flag TRAWBIT_ID1) r_i32 0 in
  let* t := r_f32 in
  let* c := r_vec 4 [] in
  let* _ := r_pointed_at na in
  rret (mkTD id0 id1 t c).

(** SIOTrackerPulseHandler::write, src/cpp/src/SIO/SIOTrackerPulseHandler.cc:45-64 *)
Definition write_trkpulse (flag : Z) (a : addr) (o : trkpulse) : list dcall :=
  w_i32 (pu_id0 o) ++ w_when (bit_set flag TRAWBIT_ID1) (w_i32 (pu_id1 o))
  ++ w_f32 (pu_time o) ++ w_f32 (pu_charge o)
  ++ w_when (bit_set flag TRAWBIT_CM) (flat_map w_f32 (pu_cov o))
  ++ w_i32 (pu_quality o) ++ [DPtr (pu_corr o)] ++ [DTag a].
(** SIOTrackerPulseHandler::read, SIOTrackerPulseHandler.cc:22-41 *)
Definition read_trkpulse (vers flag : Z) (na : addr) : RD trkpulse :=
  let* id0 := r_i32 in
  let* id1 := r_when (bit_set flag TRAWBIT_ID1) r_i32 0 in
  let* t := r_f32 in
  let* c := r_f32 in
  let* cov := r_when (vgt vers 1 12 && bit_set flag TRAWBIT_CM) (r_arr 4 3) zeros3 in
  let* q := r_i32 in
  let* corr := r_pointer_to in
  let* _ := r_pointed_at na in
  rret (mkTPu id0 id1 t c cov q corr).

(** SIOTrackerHitHandler::write, src/cpp/src/SIO/SIOTrackerHitHandler.cc:62-87 *)
Definition write_trkhit (flag : Z) (a : addr) (o : trkhit) : list dcall :=
  w_i32 (th_id0 o) ++ w_when (bit_set flag RTHBIT_ID1) (w_i32 (th_id1 o))
  ++ w_i32 (th_type o) ++ w_arr 8 (th_pos o) ++ flat_map w_f32 (th_cov o)
  ++ w_f32 (th_edep o) ++ w_f32 (th_edeperr o) ++ w_f32 (th_time o) ++ w_i32 (th_quality o)
  ++ w_i32 (cnt (th_raw o)) ++ w_ptrs (th_raw o) ++ [DTag a].
(** SIOTrackerHitHandler::read, SIOTrackerHitHandler.cc:23-58 *)
Definition read_trkhit (vers flag : Z) (na : addr) : RD trkhit :=
  let* id0 := r_when (vgt vers 1 51) r_i32 0 in
  let* id1 := r_when (vgt vers 1 51 && bit_set flag RTHBIT_ID1) r_i32 0 in
  let* ty := r_when (vgt vers 1 2) r_i32 0 in
  let* pos := r_arr 8 3 in
  let* cov := r_arr 4 6 in
  let* e := r_f32 in
  let* ee := r_when (vgt vers 1 12) r_f32 0 in
  let* t := r_f32 in
  let* q := r_when (vgt vers 1 11) r_i32 0 in
  let* n := r_when (vgt vers 1 2) r_i32 1 in
  let* raw := r_sized n r_pointer_to in
  let* _ := r_pointed_at na in
  rret (mkTH id0 id1 ty pos cov e ee t q raw).

(** SIOTrackerHitPlaneHandler::write, src/cpp/src/SIO/SIOTrackerHitPlaneHandler.cc:52-76 *)
Definition write_trkhitp (flag : Z) (a : addr) (o : trkhitp) : list dcall :=
  w_i32 (hp_id0 o) ++ w_when (bit_set flag RTHPBIT_ID1) (w_i32 (hp_id1 o))
  ++ w_i32 (hp_type o) ++ w_arr 8 (hp_pos o) ++ w_arr 4 (hp_u o) ++ w_arr 4 (hp_v o)
  ++ w_f32 (hp_du o) ++ w_f32 (hp_dv o)
  ++ w_f32 (hp_edep o) ++ w_f32 (hp_edeperr o) ++ w_f32 (hp_time o) ++ w_i32 (hp_quality o)
  ++ w_i32 (cnt (hp_raw o)) ++ w_ptrs (hp_raw o) ++ [DTag a].
(** SIOTrackerHitPlaneHandler::read, SIOTrackerHitPlaneHandler.cc:22-48 *)
Definition read_trkhitp (vers flag : Z) (na : addr) : RD trkhitp :=
  let* id0 := r_when (vgt vers 1 51) r_i32 0 in
  let* id1 := r_when (vgt vers 1 51 && bit_set flag RTHPBIT_ID1) r_i32 0 in
  let* ty := r_i32 in
  let* pos := r_arr 8 3 in
  let* u := r_arr 4 2 in
  let* v := r_arr 4 2 in
  let* du := r_f32 in
  let* dv := r_f32 in
  let* e := r_f32 in
  let* ee := r_f32 in
  let* t := r_f32 in
  let* q := r_i32 in
  let* n := r_i32 in
  let* raw := r_sized n r_pointer_to in
  let* _ := r_pointed_at na in
  rret (mkTHP id0 id1 ty pos u v du dv e ee t q raw).

(** SIOTrackerHitZCylinderHandler::write, src/cpp/src/SIO/SIOTrackerHitZCylinderHandler.cc:51-74 *)
Definition write_trkhitz (flag : Z) (a : addr) (o : trkhitz) : list dcall :=
  w_i32 (hz_id0 o) ++ w_when (bit_set flag RTHZBIT_ID1) (w_i32 (hz_id1 o))
  ++ w_i32 (hz_type o) ++ w_arr 8 (hz_pos o) ++ w_arr 4 (hz_center o)
  ++ w_f32 (hz_drphi o) ++ w_f32 (hz_dz o)
  ++ w_f32 (hz_edep o) ++ w_f32 (hz_edeperr o) ++ w_f32 (hz_time o) ++ w_i32 (hz_quality o)
  ++ w_i32 (cnt (hz_raw o)) ++ w_ptrs (hz_raw o) ++ [DTag a].
(** SIOTrackerHitZCylinderHandler::read, SIOTrackerHitZCylinderHandler.cc:22-47 *)
Definition read_trkhitz (vers flag : Z) (na : addr) : RD trkhitz :=
  let* id0 := r_when (vgt vers 1 51) r_i32 0 in
  let* id1 := r_when (vgt vers 1 51 && bit_set flag RTHZBIT_ID1) r_i32 0 in
  let* ty := r_i32 in
  let* pos := r_arr 8 3 in
  let* c := r_arr 4 2 in
  let* dr := r_f32 in
  let* dz := r_f32 in
  let* e := r_f32 in
  let* ee := r_f32 in
  let* t := r_f32 in
  let* q := r_i32 in
  let* n := r_i32 in
  let* raw := r_sized n r_pointer_to in
  let* _ := r_pointed_at na in
  rret (mkTHZ id0 id1 ty pos c dr dz e ee t q raw).

(** TrackImpl::getTrackState, src/cpp/src/IMPL/TrackImpl.cc:151-163 *)
Definition get_track_state (l : list tstate) (loc : Z) : option tstate :=
  find (fun t => ts_loc t =? loc) l.
(** TrackImpl::addTrackState, TrackImpl.cc:350-360; TrackState::AtOther is 0 *)
Definition add_track_state (l : list tstate) (t : tstate) : Res (list tstate) :=
  if negb (ts_loc t =? 0) && match get_track_state l (ts_loc t) with Some _ => true | None => false end
  then Throw LException else Ok (l ++ [t]).

(** SIOTrackHandler::write, src/cpp/src/SIO/SIOTrackHandler.cc:80-126 *)
Definition write_tstate (t : tstate) : list dcall :=
  w_i32 (ts_loc t) ++ w_f32 (ts_d0 t) ++ w_f32 (ts_phi t) ++ w_f32 (ts_omega t) ++ w_f32 (ts_z0 t)
  ++ w_f32 (ts_tanl t) ++ flat_map w_f32 (ts_cov t) ++ w_arr 4 (ts_ref t).
Definition write_track (flag : Z) (a : addr) (o : track) : list dcall :=
  w_i32 (tr_type o) ++ w_i32 (cnt (tr_states o)) ++ flat_map write_tstate (tr_states o)
  ++ w_f32 (tr_chi2 o) ++ w_i32 (tr_ndf o) ++ w_f32 (tr_dedx o) ++ w_f32 (tr_dedxerr o)
  ++ w_f32 (tr_radius o)
  ++ w_i32 (cnt (tr_hitnums o)) ++ flat_map w_i32 (upto (tr_hitnums o))
  ++ w_i32 (cnt (tr_tracks o)) ++ w_ptrs (upto (tr_tracks o))
  ++ w_when (bit_set flag TRBIT_HITS) (w_i32 (cnt (tr_hits o)) ++ w_ptrs (upto (tr_hits o)))
  ++ [DTag a].
(** SIOTrackHandler::read, SIOTrackHandler.cc:22-76 *)
Definition read_tstate (vers : Z) : RD tstate :=
  let* loc := r_when (negb (vers <? ver 2 0)) r_i32 0 in
  let* d0 := r_f32 in
  let* phi := r_f32 in
  let* om := r_f32 in
  let* z0 := r_f32 in
  let* tl := r_f32 in
  let* cov := r_arr 4 15 in
  let* ref := r_arr 4 3 in
  rret (mkTS loc d0 phi om z0 tl cov ref).
(** the loop of SIOTrackHandler.cc:32-48 *)
Fixpoint read_tstates (vers : Z) (n : nat) (l : list tstate) : RD (list tstate) :=
  match n with
  | O => rret l
  | S k => let* t := read_tstate vers in
           match add_track_state l t with
           | Ok l' => read_tstates vers k l'
           | Throw e => rthrow e
           | UB u => rub u
           end
  end.
Definition read_track (vers flag : Z) (na : addr) : RD track :=
  let* ty := r_i32 in
  let* n := r_when (negb (vers <? ver 2 0)) r_i32 1 in
  let* ts := read_tstates vers (Z.to_nat n) [] in
  let* chi2 := r_f32 in
  let* ndf := r_i32 in
  let* de := r_f32 in
  let* dee := r_f32 in
  let* rad := r_f32 in
  let* nh := r_i32 in
  let* hn := r_sized nh r_i32 in
  let* nt := r_i32 in
  let* tr := r_sized nt r_pointer_to in
  let* hits := r_when (bit_set flag TRBIT_HITS) (let* k := r_i32 in r_sized k r_pointer_to) [] in
  let* _ := r_pointed_at na in
  rret (mkTRK ty ts chi2 ndf de dee rad hn tr hits).

(** The fields of a ParticleID: SIOClusterHandler.cc:135-143, SIOReconstructedParticleHandler.cc:192-200 *)
Definition write_pid (p : pid) : list dcall :=
  w_f32 (pi_like p) ++ w_i32 (pi_type p) ++ w_i32 (pi_pdg p) ++ w_i32 (pi_alg p)
  ++ w_i32 (cnt (pi_par p)) ++ flat_map w_f32 (upto (pi_par p)).
(** SIOClusterHandler.cc:57-67, SIOReconstructedParticleHandler.cc:56-66 *)
Definition read_pid : RD pid :=
  let* l := r_f32 in
  let* t := r_i32 in
  let* g := r_i32 in
  let* a := r_i32 in
  let* n := r_i32 in
  let* ps := r_loop n r_f32 in
  rret (mkPID l t g a ps).

(** SIOClusterHandler::write, src/cpp/src/SIO/SIOClusterHandler.cc:105-169; [weights[i]] beyond
    the end of the weights is undefined *)
Definition write_hits (o : cluster) : Res (list dcall) :=
  let n := Z.to_nat (cnt (cl_hits o)) in
  if Nat.ltb (length (cl_weights o)) n then UB UBOutOfBounds
  else Ok (w_i32 (cnt (cl_hits o))
           ++ flat_map (fun hw => [DPtr (fst hw)] ++ w_f32 (snd hw))
                (combine (firstn n (cl_hits o)) (firstn n (cl_weights o)))).
Definition write_cluster (flag : Z) (a : addr) (o : cluster) : Res (list dcall) :=
  do hits <- (if bit_set flag CLBIT_HITS then write_hits o else Ok []);
  Ok (w_i32 (cl_type o) ++ w_f32 (cl_energy o) ++ w_f32 (cl_energyerr o) ++ w_arr 4 (cl_pos o)
      ++ flat_map w_f32 (cl_errpos o) ++ w_f32 (cl_theta o) ++ w_f32 (cl_phi o)
      ++ flat_map w_f32 (cl_errdir o)
      ++ w_i32 (cnt (cl_shape o)) ++ flat_map w_f32 (cl_shape o)
      ++ w_i32 (cnt (cl_pids o)) ++ flat_map write_pid (upto (cl_pids o))
      ++ w_i32 (cnt (cl_clusters o)) ++ w_ptrs (upto (cl_clusters o))
      ++ hits
      ++ w_i32 (cnt (cl_energies o)) ++ flat_map w_f32 (upto (cl_energies o))
      ++ [DTag a]).

Section Reading.
(** [std::sort( begin, end, PIDSort )] on a list of objects with the given likelihoods: the
    order of objects with equal likelihood is not specified, so the sort is a parameter. *)
Context (srt : forall A : Type, (A -> Z) -> list A -> list A).

(** ClusterImpl::addParticleID, src/cpp/src/IMPL/ClusterImpl.cc:120-125, and
    ReconstructedParticleImpl::addParticleID, ReconstructedParticleImpl.cc:162-168, for each
    particle id in turn *)
Definition add_pids {A} (key : A -> Z) (ps : list A) : list A :=
  fold_left (fun l p => srt A key (l ++ [p])) ps [].

(** SIOClusterHandler::read, SIOClusterHandler.cc:22-101 *)
Definition read_cluster (vers flag : Z) (na : addr) : RD cluster :=
  let* ty := r_i32 in
  let* e := r_f32 in
  let* ee := r_when (vgt vers 1 51) r_f32 0 in
  let* pos := r_arr 4 3 in
  let* ep := r_arr 4 6 in
  let* th := r_f32 in
  let* ph := r_f32 in
  let* ed := r_arr 4 3 in
  let* ns := r_when (vgt vers 1 2) r_i32 6 in
  let* sh := r_sized_arr 4 ns in
  let* pids := (if vgt vers 1 2 then let* np := r_i32 in r_loop np read_pid
                else let* _ := r_arr 4 3 in rret []) in
  let* nc := r_i32 in
  let* cls := r_sized nc r_pointer_to in
  let* hw := r_when (bit_set flag CLBIT_HITS)
               (let* nh := r_i32 in
                r_sized nh (let* h := r_pointer_to in let* w := r_f32 in rret (h, w))) [] in
  let* ne := r_i32 in
  let* en := r_sized ne r_f32 in
  let* _ := r_pointed_at na in
  rret (mkCL ty e ee pos ep th ph ed sh (add_pids pi_like pids) cls (map fst hw) (map snd hw) en).

(** SIOReconstructedParticleHandler.cc:192-201 *)
Definition write_rpid (ap : addr * pid) : list dcall := write_pid (snd ap) ++ [DTag (fst ap)].
(** SIOReconstructedParticleHandler.cc:55-67; the object is created first *)
Definition read_rpid : RD (addr * pid) :=
  let* a := r_new in
  let* p := read_pid in
  let* _ := r_pointed_at a in
  rret (a, p).

(** SIOReconstructedParticleHandler::write, src/cpp/src/SIO/SIOReconstructedParticleHandler.cc:172-229 *)
Definition write_recp (a : addr) (o : recp) : list dcall :=
  w_i32 (rp_type o)
  ++ w_f32 (d2f (fst3 (rp_p o))) ++ w_f32 (d2f (snd3 (rp_p o))) ++ w_f32 (d2f (thd3 (rp_p o)))
  ++ w_f32 (d2f (rp_energy o)) ++ flat_map w_f32 (rp_cov o) ++ w_f32 (d2f (rp_mass o))
  ++ w_f32 (rp_charge o) ++ w_arr 4 (rp_ref o)
  ++ w_i32 (cnt (rp_pids o)) ++ flat_map write_rpid (upto (rp_pids o))
  ++ [DPtr (rp_used o)] ++ w_f32 (rp_good o)
  ++ w_i32 (cnt (rp_parts o)) ++ w_ptrs (upto (rp_parts o))
  ++ w_i32 (cnt (rp_tracks o)) ++ w_ptrs (upto (rp_tracks o))
  ++ w_i32 (cnt (rp_clusters o)) ++ w_ptrs (upto (rp_clusters o))
  ++ [DPtr (rp_sv o)] ++ [DTag a].
(** the old format, versions up to 1.2, SIOReconstructedParticleHandler.cc:99-164: the particle ids
    (111-127) have neither a PDG code nor a pointer tag, every reference is followed by a weight,
    and [n] floats are read into one variable at the end (163-164; the count is converted to
    [size_t]) *)
Definition read_old_pid : RD (addr * pid) :=
  let* a := r_new in
  let* l := r_f32 in
  let* t := r_i32 in
  let* g := r_i32 in
  let* n := r_i32 in
  let* ps := r_loop n r_f32 in
  rret (a, mkPID l t 0 g ps).
Definition read_old_ptrs : RD (list Z) :=
  let* n := r_i32 in
  r_loop n (let* p := r_pointer_to in let* _ := r_f32 in rret p).
Definition r_dummy (n : Z) : RD unit :=
  let* _ := r_data (u64 (4 * n)) in
  if 1 <? n then rub UBOutOfBounds else rret tt.
Definition read_old_recp (na : addr) : RD recp :=
  let* ty := r_i32 in
  let* mom := r_arr 8 3 in
  let* e := r_f64 in
  let* cov := r_arr 4 10 in
  let* mass := r_f64 in
  let* ch := r_f32 in
  let* ref := r_arr 4 3 in
  let* np := r_i32 in
  let* pids := r_loop np read_old_pid in
  let* l1 := read_old_ptrs in
  let* l2 := read_old_ptrs in
  let* l3 := read_old_ptrs in
  let* nmc := r_i32 in
  let* _ := r_dummy nmc in
  let* _ := r_dummy nmc in
  let* _ := r_pointed_at na in
  rret (mkRP (Z.land 65535 ty) mom e cov mass ch ref
             (add_pids (fun ap : addr * pid => pi_like (snd ap)) pids) 0 0 l1 l2 l3 0).

(** SIOReconstructedParticleHandler::read, SIOReconstructedParticleHandler.cc:25-168 *)
Definition read_recp (vers : Z) (na : addr) : RD recp :=
  if vgt vers 1 2 then
    let* ty := r_i32 in
    let* mom := r_arr 4 3 in
    let* e := r_f32 in
    let* cov := r_arr 4 10 in
    let* mass := r_f32 in
    let* ch := r_f32 in
    let* ref := r_arr 4 3 in
    let* np := r_i32 in
    let* pids := r_loop np read_rpid in
    let* used := r_pointer_to in
    let* good := r_f32 in
    let* n1 := r_i32 in
    let* l1 := r_sized n1 r_pointer_to in
    let* n2 := r_i32 in
    let* l2 := r_sized n2 r_pointer_to in
    let* n3 := r_i32 in
    let* l3 := r_sized n3 r_pointer_to in
    let* sv := r_when (vgt vers 1 7) r_pointer_to 0 in
    let* _ := r_pointed_at na in
    rret (mkRP ty (map f2d mom) (f2d e) cov (f2d mass) ch ref
               (add_pids (fun ap : addr * pid => pi_like (snd ap)) pids) used good l1 l2 l3 sv)
  else read_old_recp na.

(** SIOLCRelationHandler::write, src/cpp/src/SIO/SIOLCRelationHandler.cc:31-40 *)
Definition write_lcrel (flag : Z) (o : lcrel) : list dcall :=
  [DPtr (re_from o)] ++ [DPtr (re_to o)] ++ w_when (bit_set flag LCREL_WEIGHTED) (w_f32 (re_weight o)).
(** SIOLCRelationHandler::read, SIOLCRelationHandler.cc:20-27; the default weight is 1.0f
    (src/cpp/include/IMPL/LCRelationImpl.h) *)
Definition f32_one : Z := 1065353216.
Definition read_lcrel (flag : Z) : RD lcrel :=
  let* f := r_pointer_to in
  let* t := r_pointer_to in
  let* w := r_when (bit_set flag LCREL_WEIGHTED) r_f32 f32_one in
  rret (mkREL f t w).

(** position of a string in the (sorted) set: [distance( _set.begin(), _set.find( s ) )],
    SIOVertexHandler.cc:83; the size of the set if it is not in it *)
Fixpoint index_of (s : bytes) (l : list bytes) : Z :=
  match l with
  | [] => 0
  | x :: l' => if bytes_eqb s x then 0 else 1 + index_of s l'
  end.
(** SIOVertexHandler::write, src/cpp/src/SIO/SIOVertexHandler.cc:80-101; isPrimary() is a
    [bool]: one byte (padded) is written *)
Definition write_vertex (algs : list bytes) (a : addr) (o : vertex) : list dcall :=
  w_i8 (if vx_primary o =? 0 then 0 else 1)
  ++ w_i32 (index_of (vx_type o) algs)
  ++ w_f32 (vx_chi2 o) ++ w_f32 (vx_prob o) ++ w_arr 4 (vx_pos o) ++ flat_map w_f32 (vx_cov o)
  ++ w_i32 (cnt (vx_par o)) ++ flat_map w_f32 (upto (vx_par o))
  ++ [DPtr (vx_part o)] ++ [DTag a].
(** SIOVertexHandler::read, SIOVertexHandler.cc:53-76; [_imr[algtype]] of an unknown index is
    the empty string *)
Definition imr_get (imr : list bytes) (i : Z) : bytes :=
  if i <? 0 then [] else nth (Z.to_nat i) imr [].
Definition read_vertex (imr : list bytes) (na : addr) : RD vertex :=
  let* pr := r_i32 in
  let* alg := r_i32 in
  let* c := r_f32 in
  let* p := r_f32 in
  let* pos := r_arr 4 3 in
  let* cov := r_arr 4 6 in
  let* n := r_i32 in
  let* par := r_loop n r_f32 in
  let* part := r_pointer_to in
  let* _ := r_pointed_at na in
  rret (mkVX pr (imr_get imr alg) c p pos cov par part).

(** SIOLCVecHandler::write, src/cpp/include/SIO/SIOLCVecHandler.h:80-92 *)
Definition write_lcvec {V} (wv : V -> list dcall) (a : addr) (l : list V) : list dcall :=
  w_i32 (cnt l) ++ flat_map wv (upto l) ++ [DTag a].
(** SIOLCVecHandler::read, SIOLCVecHandler.h:57-76 *)
Definition read_lcvec {V} (rv : RD V) (vers : Z) (na : addr) : RD (list V) :=
  let* n := r_i32 in
  let* l := r_sized n rv in
  let* _ := r_when (vgt vers 1 2) (r_pointed_at na) tt in
  rret l.

(** SIOLCGenericObjectHandler::write, src/cpp/src/SIO/SIOLCGenericObjectHandler.cc:101-122;
    [sizes] are the handler's sizes if all objects have a fixed size.  The values are written
    one by one; an index beyond the end is undefined
    (src/cpp/src/IMPL/LCGenericObjectImpl.cc:36-46). *)
Definition go_vals (wv : Z -> list dcall) (n : Z) (l : list Z) : Res (list dcall) :=
  if Nat.ltb (length l) (Z.to_nat n) then UB UBOutOfBounds
  else Ok (flat_map wv (firstn (Z.to_nat n) l)).
Definition go_sizes (o : genobj) : Z * Z * Z := (cnt (go_int o), cnt (go_flt o), cnt (go_dbl o)).
Definition w_sizes (s : Z * Z * Z) : list dcall := let '(ni, nf, nd) := s in w_i32 ni ++ w_i32 nf ++ w_i32 nd.
Definition write_genobj (sizes : option (Z * Z * Z)) (a : addr) (o : genobj) : Res (list dcall) :=
  let s := match sizes with Some s => s | None => go_sizes o end in
  let '(ni, nf, nd) := s in
  do vi <- go_vals w_i32 ni (go_int o);
  do vf <- go_vals w_f32 nf (go_flt o);
  do vd <- go_vals w_f64 nd (go_dbl o);
  Ok (match sizes with Some _ => [] | None => w_sizes s end ++ vi ++ vf ++ vd ++ [DTag a]).
(** SIOLCGenericObjectHandler::read, SIOLCGenericObjectHandler.cc:82-97; type name and
    description of the implementation class are constants (LCGenericObjectImpl.cc:8-9) *)
Definition r_sizes : RD (Z * Z * Z) :=
  let* ni := r_i32 in let* nf := r_i32 in let* nd := r_i32 in rret (ni, nf, nd).
Definition read_genobj (sizes : option (Z * Z * Z)) (na : addr) : RD genobj :=
  let* 's := (match sizes with Some s => rret s | None => r_sizes end) in
  let '(ni, nf, nd) := s in
  if (ni <? 0) || (nf <? 0) || (nd <? 0) then rthrow StdLengthError else
  let* li := r_iarr ni in
  let* lf := r_arr 4 nf in
  let* ld := r_arr 8 nd in
  let* _ := r_pointed_at na in
  rret (mkGO li lf ld (match sizes with Some _ => true | None => false end) (str "LCGenericObject") []).

(** State of a handler between [initWriting]/[initReading] and the calls for the elements: the
    flag (SIOObjectHandler.h), the algorithm names of SIOVertexHandler and the sizes of
    SIOLCGenericObjectHandler, SIOObjectHandler.h:45-50 *)
Record hstate := mkH { h_flag : Z; h_algs : list bytes; h_sizes : option (Z * Z * Z) }.

(** [_handler->write( device, obj )] for an object of the right class.  [dynamic_cast] of an
    object of another class gives a null pointer, which is dereferenced.  (Not modelled: a
    TrackerHitPlane or TrackerHitZCylinder in a collection of type TrackerHit, whose cast
    succeeds.)  SIOCollectionHandler.cc:90 *)
Definition write_obj (ty : otype) (hs : hstate) (a : addr) (o : obj) : Res (list dcall) :=
  let flag := h_flag hs in
  match ty, o with
  | TMC, OMC x => Ok (write_mcp a x)
  | TSCH, OSCH x => Ok (write_simcalhit flag a x)
  | TRCH, ORCH x => Ok (write_rawcalhit flag a x)
  | TCH, OCH x => Ok (write_calhit flag a x)
  | TSTH, OSTH x => Ok (write_simtrkhit flag a x)
  | TTPC, OTPC x => Ok (write_tpchit flag a x)
  | TTRD, OTRD x => Ok (write_trkraw flag a x)
  | TTD, OTD x => Ok (write_trkdata flag a x)
  | TTPu, OTPu x => Ok (write_trkpulse flag a x)
  | TTH, OTH x => Ok (write_trkhit flag a x)
  | TTHP, OTHP x => Ok (write_trkhitp flag a x)
  | TTHZ, OTHZ x => Ok (write_trkhitz flag a x)
  | TTRK, OTRK x => Ok (write_track flag a x)
  | TCL, OCL x => write_cluster flag a x
  | TRP, ORP x => Ok (write_recp a x)
  | TREL, OREL x => Ok (write_lcrel flag x)
  | TVX, OVX x => Ok (write_vertex (h_algs hs) a x)
  | TSTR, OSTR l => Ok (write_lcvec w_string a l)
  | TFLT, OFLT l => Ok (write_lcvec w_f32 a l)
  | TINT, OINT l => Ok (write_lcvec w_i32 a l)
  | TGO, OGO x => write_genobj (h_sizes hs) a x
  | _, _ => UB UBNullDeref
  end.

(** [_handler->read( device, obj, vers )] into the new object at [na], SIOCollectionHandler.cc:59 *)
Definition read_obj (ty : otype) (vers : Z) (hs : hstate) (na : addr) : RD obj :=
  let flag := h_flag hs in
  match ty with
  | TMC => let* x := read_mcp vers na in rret (OMC x)
  | TSCH => let* x := read_simcalhit vers flag na in rret (OSCH x)
  | TRCH => let* x := read_rawcalhit vers flag na in rret (ORCH x)
  | TCH => let* x := read_calhit vers flag na in rret (OCH x)
  | TSTH => let* x := read_simtrkhit vers flag na in rret (OSTH x)
  | TTPC => let* x := read_tpchit vers flag na in rret (OTPC x)
  | TTRD => let* x := read_trkraw flag na in rret (OTRD x)
  | TTD => let* x := read_trkdata flag na in rret (OTD x)
  | TTPu => let* x := read_trkpulse vers flag na in rret (OTPu x)
  | TTH => let* x := read_trkhit vers flag na in rret (OTH x)
  | TTHP => let* x := read_trkhitp vers flag na in rret (OTHP x)
  | TTHZ => let* x := read_trkhitz vers flag na in rret (OTHZ x)
  | TTRK => let* x := read_track vers flag na in rret (OTRK x)
  | TCL => let* x := read_cluster vers flag na in rret (OCL x)
  | TRP => let* x := read_recp vers na in rret (ORP x)
  | TREL => let* x := read_lcrel flag in rret (OREL x)
  | TVX => let* x := read_vertex (h_algs hs) na in rret (OVX x)
  | TSTR => let* l := read_lcvec r_string vers na in rret (OSTR l)
  | TFLT => let* l := read_lcvec r_f32 vers na in rret (OFLT l)
  | TINT => let* l := read_lcvec r_i32 vers na in rret (OINT l)
  | TGO => let* x := read_genobj (h_sizes hs) na in rret (OGO x)
  end.

(** ** Collections *)

(** LCCollectionVec: src/cpp/include/IMPL/LCCollectionVec.h; the elements are pointers, lines 149-151 *)
Record coll := mkColl { c_type : bytes; c_flag : Z; c_par : params; c_elems : list addr }.
(** the objects in memory, pointers to EVENT::LCObject, LCCollectionVec.h:25 *)
Definition heap := addr -> option obj.

(** src/cpp/src/SIO/SIOVertexHandler.cc:29 and 47, src/cpp/src/SIO/SIOLCGenericObjectHandler.cc:51-57 *)
Definition alg_key : bytes := str "_lcio.VertexAlgorithmTypes".
Definition typename_key : bytes := str "TypeName".
Definition descr_key : bytes := str "DataDescription".

(** SIOVertexHandler::initWriting, src/cpp/src/SIO/SIOVertexHandler.cc:40-43: the algorithm
    types of all elements; a null element or another class is dereferenced *)
Fixpoint vertex_algs (h : heap) (l : list addr) (s : list bytes) : Res (list bytes) :=
  match l with
  | [] => Ok s
  | a :: l' => if a =? 0 then UB UBNullDeref else
               match h a with
               | Some (OVX v) => vertex_algs h l' (ss_add (vx_type v) s)
               | _ => UB UBNullDeref
               end
  end.
(** SIOLCGenericObjectHandler.cc:36-43: are all objects of fixed size (the loop stops at the
    first that is not) *)
Fixpoint all_fixed (h : heap) (l : list addr) : Res bool :=
  match l with
  | [] => Ok true
  | a :: l' => if a =? 0 then UB UBNullDeref else
               match h a with
               | Some (OGO o) => if go_fixed o then all_fixed h l' else Ok false
               | _ => UB UBNullDeref
               end
  end.

(** SIOObjectHandler::initWriting, src/cpp/src/SIO/SIOObjectHandler.cc:39-43 *)
Definition init_writing0 (c : coll) : list dcall := w_u32 (c_flag c) ++ w_params (c_par c).

(** LCFlagImpl::setBit: src/cpp/src/IMPL/LCFlagImpl.cc:18-25 *)
Definition set_bit (flag n : Z) : Z := Z.lor flag (2 ^ n).

(** [initWriting] of the handlers: SIOObjectHandler.cc:39-43, SIOVertexHandler.cc:37-49,
    SIOLCGenericObjectHandler.cc:33-78.  The collection itself is modified. *)
Definition init_writing (ty : otype) (h : heap) (c : coll) : Res (coll * hstate * list dcall) :=
  match ty with
  | TVX =>
      do algs <- vertex_algs h (c_elems c) [];
      let c' := mkColl (c_type c) (c_flag c) (set_strings (c_par c) alg_key algs) (c_elems c) in
      Ok (c', mkH (c_flag c) algs None, init_writing0 c')
  | TGO =>
      do fixed <- all_fixed h (c_elems c);
      let first := match c_elems c with
                   | [] => None
                   | a :: _ => match h a with Some (OGO o) => Some o | _ => None end
                   end in
      do tn <- get_string_val (c_par c) typename_key;
      let p1 := match tn, first with
                | [], Some o => set_strings (c_par c) typename_key [go_type o]
                | _, _ => c_par c
                end in
      do p2 <- (if fixed then
                  do dd <- get_string_val p1 descr_key;
                  Ok (match dd, first with
                      | [], Some o => set_strings p1 descr_key [go_desc o]
                      | _, _ => p1
                      end)
                else Ok p1);
      let flag' := if fixed then set_bit (c_flag c) GOBIT_FIXED else c_flag c in
      let c' := mkColl (c_type c) flag' p2 (c_elems c) in
      let sizes := match first with Some o => go_sizes o | None => (0, 0, 0) end in
      Ok (c', mkH flag' [] (if fixed then Some sizes else None),
          init_writing0 c' ++ (if fixed then w_sizes sizes else []))
  | _ => Ok (c, mkH (c_flag c) [] None, init_writing0 c)
  end.

(** the loop SIOCollectionHandler.cc:89-91 *)
Fixpoint write_elems (ty : otype) (hs : hstate) (h : heap) (l : list addr) : Res (list dcall) :=
  match l with
  | [] => Ok []
  | a :: l' =>
      match (if a =? 0 then None else h a) with
      | None => UB UBNullDeref
      | Some o => do w <- write_obj ty hs a o; do ws <- write_elems ty hs h l'; Ok (w ++ ws)
      end
  end.

(** SIOCollectionHandler::write, src/cpp/src/SIO/SIOCollectionHandler.cc:75-94 *)
Definition write_coll (ty : otype) (h : heap) (c : coll) : Res (coll * list dcall) :=
  do '(c', hs, w) <- init_writing ty h c;
  if bit_set (h_flag hs) BITSubset
  then Ok (c', w ++ w_i32 (cnt (c_elems c)) ++ w_ptrs (upto (c_elems c)))
  else do ws <- write_elems ty hs h (upto (c_elems c));
       Ok (c', w ++ w_i32 (cnt (c_elems c)) ++ ws).

(** SIOObjectHandler::initReading, SIOObjectHandler.cc:29-35, into a new collection;
    SIOVertexHandler.cc:25-33; SIOLCGenericObjectHandler.cc:21-29 *)
Definition init_reading (ty : otype) (vers : Z) : RD (params * hstate) :=
  let* flag := r_u32 in
  let* p := r_when (vgt vers 1 1) (r_params no_params) no_params in
  match ty with
  | TVX => rret (p, mkH flag (get_string_vals p alg_key []) None)
  | TGO => let* s := (if bit_set flag GOBIT_FIXED then let* s := r_sizes in rret (Some s) else rret None) in
           rret (p, mkH flag [] s)
  | _ => rret (p, mkH flag [] None)
  end.

(** any exception while reading an element is rethrown as an io_failure:
    SIOCollectionHandler.cc:58-68 *)
Definition r_try {A} (m : RD A) : RD A := fun d =>
  match m d with Ok x => Ok x | Throw _ => Throw EIoFailure | UB u => UB u end.

(** a collection just read: its elements (match words for a subset) and the objects created,
    SIOCollectionHandler.cc:43-69 *)
Record rcoll := mkRC { rc_flag : Z; rc_par : params; rc_elems : list addr; rc_objs : list (addr * obj) }.

(** SIOCollectionHandler::read, SIOCollectionHandler.cc:36-71 *)
Definition read_coll (ty : otype) (vers : Z) : RD rcoll :=
  let* '(p, hs) := init_reading ty vers in
  let* n := r_i32 in
  if n <? 0 then rthrow StdLengthError else
  if bit_set (h_flag hs) BITSubset then
    let* l := r_loop n r_pointer_to in
    rret (mkRC (h_flag hs) p l [])
  else
    let* l := r_loop n (let* na := r_new in let* o := r_try (read_obj ty vers hs na) in rret (na, o)) in
    rret (mkRC (h_flag hs) p (map fst l) l).

End Reading.
