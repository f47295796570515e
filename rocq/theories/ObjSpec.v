(** * What of an object is stored in a file: specification of the object handlers

    For every type: which attributes survive under the flag word of the collection
    ([stored_…], everything else comes back with the value of the default constructor), the
    range of the attributes ([…_ok]) and the references to other objects in the order in which
    they are stored ([refs_…], [map_refs]).  Nothing here mentions bytes. *)

From Coq Require Import Permutation Sorted.
From Verif Require Import Bytes StrMap SioModel Ieee ObjModel.

Definition word32 (z : Z) : Prop := 0 <= z < 2 ^ 32.
Definition word64 (z : Z) : Prop := 0 <= z < 2 ^ 64.
Definition int32 (z : Z) : Prop := - 2 ^ 31 <= z < 2 ^ 31.
(** an array of [n] floats or doubles *)
Definition floats (n : Z) (l : list Z) : Prop := Zlen l = n /\ Forall word32 l.
Definition doubles (n : Z) (l : list Z) : Prop := Zlen l = n /\ Forall word64 l.
Definition ints (n : Z) (l : list Z) : Prop := Zlen l = n /\ Forall int32 l.
(** a vector whose length fits the (32-bit) counts and byte sizes of the format *)
Definition vec_len {A} (l : list A) : Prop := Zlen l < 2 ^ 28.
(** a double that went through a float *)
Definition as_float (d : Z) : Z := f2d (d2f d).

(** the value of a conditional attribute *)
Definition kept {A} (b : bool) (x d : A) : A := if b then x else d.

(** ** MCParticle *)
Definition mcp_ok (o : mcp) : Prop :=
  vec_len (mc_parents o) /\ int32 (mc_pdg o) /\ int32 (mc_gen o) /\ int32 (mc_sim o) /\
  doubles 3 (mc_vertex o) /\ word32 (mc_time o) /\ doubles 3 (mc_p o) /\ word64 (mc_mass o) /\
  word32 (mc_charge o) /\ doubles 3 (mc_endpoint o) /\ doubles 3 (mc_pend o) /\
  floats 3 (mc_spin o) /\ ints 2 (mc_color o).
(** momentum and mass are stored in single precision; the endpoint only with bit 31 of the
    simulator status; the daughters not at all *)
Definition stored_mcp (o : mcp) : mcp :=
  mkMC (mc_parents o) (mc_pdg o) (mc_gen o) (mc_sim o) (mc_vertex o) (mc_time o)
       (map as_float (mc_p o)) (as_float (mc_mass o)) (mc_charge o)
       (kept (Z.testbit (mc_sim o) 31) (mc_endpoint o) [0; 0; 0])
       (kept (Z.testbit (mc_sim o) 31) (map as_float (mc_pend o)) [0; 0; 0])
       (mc_spin o) (mc_color o) [].

(** ** SimCalorimeterHit *)
Definition cont_ok (c : mccont) : Prop :=
  word32 (co_energy c) /\ word32 (co_time c) /\ word32 (co_length c) /\ int32 (co_pdg c) /\ floats 3 (co_pos c).
Definition simcalhit_ok (o : simcalhit) : Prop :=
  int32 (sc_id0 o) /\ int32 (sc_id1 o) /\ word32 (sc_energy o) /\ floats 3 (sc_pos o) /\
  vec_len (sc_cont o) /\ Forall cont_ok (sc_cont o).
(** bit 28 (CHBIT_STEP): length, pdg and step position of the contributions *)
Definition stored_cont (flag : Z) (c : mccont) : mccont :=
  let st := Z.testbit flag 28 in
  mkCont (co_part c) (co_energy c) (co_time c)
         (kept st (co_length c) 0) (kept st (co_pdg c) 0) (kept st (co_pos c) [0; 0; 0]).
(** bit 29 (CHBIT_ID1): the second cell id; bit 31 (CHBIT_LONG): the position *)
Definition stored_simcalhit (flag : Z) (o : simcalhit) : simcalhit :=
  mkSCH (sc_id0 o) (kept (Z.testbit flag 29) (sc_id1 o) 0) (sc_energy o)
        (kept (Z.testbit flag 31) (sc_pos o) [0; 0; 0]) (map (stored_cont flag) (sc_cont o)).

(** ** RawCalorimeterHit: bit 29 (RCHBIT_ID1), bit 27 (RCHBIT_TIME) *)
Definition rawcalhit_ok (o : rawcalhit) : Prop :=
  int32 (rc_id0 o) /\ int32 (rc_id1 o) /\ int32 (rc_ampl o) /\ int32 (rc_time o).
Definition stored_rawcalhit (flag : Z) (o : rawcalhit) : rawcalhit :=
  mkRCH (rc_id0 o) (kept (Z.testbit flag 29) (rc_id1 o) 0) (rc_ampl o)
        (kept (Z.testbit flag 27) (rc_time o) 0).

(** ** CalorimeterHit: bit 29 (ID1), 26 (ENERGY_ERROR), 27 (TIME), 31 (LONG) *)
Definition calhit_ok (o : calhit) : Prop :=
  int32 (ch_id0 o) /\ int32 (ch_id1 o) /\ word32 (ch_energy o) /\ word32 (ch_err o) /\ word32 (ch_time o) /\
  floats 3 (ch_pos o) /\ int32 (ch_type o).
Definition stored_calhit (flag : Z) (o : calhit) : calhit :=
  mkCH (ch_id0 o) (kept (Z.testbit flag 29) (ch_id1 o) 0) (ch_energy o)
       (kept (Z.testbit flag 26) (ch_err o) 0) (kept (Z.testbit flag 27) (ch_time o) 0)
       (kept (Z.testbit flag 31) (ch_pos o) [0; 0; 0]) (ch_type o) (ch_raw o).

(** ** SimTrackerHit: bit 29 (ID1), 30 (MOMENTUM: also the path length) *)
Definition simtrkhit_ok (o : simtrkhit) : Prop :=
  int32 (st_id0 o) /\ int32 (st_id1 o) /\ doubles 3 (st_pos o) /\ word32 (st_edep o) /\ word32 (st_time o) /\
  floats 3 (st_p o) /\ word32 (st_path o) /\ int32 (st_quality o).
Definition stored_simtrkhit (flag : Z) (o : simtrkhit) : simtrkhit :=
  mkSTH (st_id0 o) (kept (Z.testbit flag 29) (st_id1 o) 0) (st_pos o) (st_edep o) (st_time o) (st_part o)
        (kept (Z.testbit flag 30) (st_p o) [0; 0; 0]) (kept (Z.testbit flag 30) (st_path o) 0) (st_quality o).

(** ** TPCHit: bit 31 (RAW) *)
Definition tpchit_ok (o : tpchit) : Prop :=
  int32 (tp_id o) /\ word32 (tp_time o) /\ word32 (tp_charge o) /\ int32 (tp_quality o) /\
  vec_len (tp_raw o) /\ Forall int32 (tp_raw o).
Definition stored_tpchit (flag : Z) (o : tpchit) : tpchit :=
  mkTPC (tp_id o) (tp_time o) (tp_charge o) (tp_quality o) (kept (Z.testbit flag 31) (tp_raw o) []).

(** ** TrackerRawData, TrackerData, TrackerPulse: bit 31 (ID1); pulse bit 30 (CM) *)
Definition trkraw_ok (o : trkraw) : Prop :=
  int32 (td_id0 o) /\ int32 (td_id1 o) /\ int32 (td_time o) /\ vec_len (td_adc o) /\
  Forall (fun z => 0 <= z < 2 ^ 16) (td_adc o).
Definition stored_trkraw (flag : Z) (o : trkraw) : trkraw :=
  mkTRD (td_id0 o) (kept (Z.testbit flag 31) (td_id1 o) 0) (td_time o) (td_adc o).
Definition trkdata_ok (o : trkdata) : Prop :=
  int32 (tc_id0 o) /\ int32 (tc_id1 o) /\ word32 (tc_time o) /\ vec_len (tc_charge o) /\
  Forall word32 (tc_charge o).
Definition stored_trkdata (flag : Z) (o : trkdata) : trkdata :=
  mkTD (tc_id0 o) (kept (Z.testbit flag 31) (tc_id1 o) 0) (tc_time o) (tc_charge o).
Definition trkpulse_ok (o : trkpulse) : Prop :=
  int32 (pu_id0 o) /\ int32 (pu_id1 o) /\ word32 (pu_time o) /\ word32 (pu_charge o) /\
  floats 3 (pu_cov o) /\ int32 (pu_quality o).
Definition stored_trkpulse (flag : Z) (o : trkpulse) : trkpulse :=
  mkTPu (pu_id0 o) (kept (Z.testbit flag 31) (pu_id1 o) 0) (pu_time o) (pu_charge o)
        (kept (Z.testbit flag 30) (pu_cov o) [0; 0; 0]) (pu_quality o) (pu_corr o).

(** ** TrackerHit, TrackerHitPlane, TrackerHitZCylinder: bit 31 (ID1) *)
Definition trkhit_ok (o : trkhit) : Prop :=
  int32 (th_id0 o) /\ int32 (th_id1 o) /\ int32 (th_type o) /\ doubles 3 (th_pos o) /\ floats 6 (th_cov o) /\
  word32 (th_edep o) /\ word32 (th_edeperr o) /\ word32 (th_time o) /\ int32 (th_quality o) /\ vec_len (th_raw o).
Definition stored_trkhit (flag : Z) (o : trkhit) : trkhit :=
  mkTH (th_id0 o) (kept (Z.testbit flag 31) (th_id1 o) 0) (th_type o) (th_pos o) (th_cov o) (th_edep o)
       (th_edeperr o) (th_time o) (th_quality o) (th_raw o).
Definition trkhitp_ok (o : trkhitp) : Prop :=
  int32 (hp_id0 o) /\ int32 (hp_id1 o) /\ int32 (hp_type o) /\ doubles 3 (hp_pos o) /\ floats 2 (hp_u o) /\
  floats 2 (hp_v o) /\ word32 (hp_du o) /\ word32 (hp_dv o) /\ word32 (hp_edep o) /\ word32 (hp_edeperr o) /\
  word32 (hp_time o) /\ int32 (hp_quality o) /\ vec_len (hp_raw o).
Definition stored_trkhitp (flag : Z) (o : trkhitp) : trkhitp :=
  mkTHP (hp_id0 o) (kept (Z.testbit flag 31) (hp_id1 o) 0) (hp_type o) (hp_pos o) (hp_u o) (hp_v o) (hp_du o)
        (hp_dv o) (hp_edep o) (hp_edeperr o) (hp_time o) (hp_quality o) (hp_raw o).
Definition trkhitz_ok (o : trkhitz) : Prop :=
  int32 (hz_id0 o) /\ int32 (hz_id1 o) /\ int32 (hz_type o) /\ doubles 3 (hz_pos o) /\ floats 2 (hz_center o) /\
  word32 (hz_drphi o) /\ word32 (hz_dz o) /\ word32 (hz_edep o) /\ word32 (hz_edeperr o) /\
  word32 (hz_time o) /\ int32 (hz_quality o) /\ vec_len (hz_raw o).
Definition stored_trkhitz (flag : Z) (o : trkhitz) : trkhitz :=
  mkTHZ (hz_id0 o) (kept (Z.testbit flag 31) (hz_id1 o) 0) (hz_type o) (hz_pos o) (hz_center o) (hz_drphi o)
        (hz_dz o) (hz_edep o) (hz_edeperr o) (hz_time o) (hz_quality o) (hz_raw o).

(** ** Track: bit 31 (HITS); no two states with the same location other than AtOther (0) *)
Definition tstate_ok (t : tstate) : Prop :=
  int32 (ts_loc t) /\ word32 (ts_d0 t) /\ word32 (ts_phi t) /\ word32 (ts_omega t) /\ word32 (ts_z0 t) /\
  word32 (ts_tanl t) /\ floats 15 (ts_cov t) /\ floats 3 (ts_ref t).
Definition track_ok (o : track) : Prop :=
  int32 (tr_type o) /\ vec_len (tr_states o) /\ Forall tstate_ok (tr_states o) /\
  NoDup (filter (fun l => negb (l =? 0)) (map ts_loc (tr_states o))) /\
  word32 (tr_chi2 o) /\ int32 (tr_ndf o) /\ word32 (tr_dedx o) /\ word32 (tr_dedxerr o) /\ word32 (tr_radius o) /\
  vec_len (tr_hitnums o) /\ Forall int32 (tr_hitnums o) /\ vec_len (tr_tracks o) /\ vec_len (tr_hits o).
Definition stored_track (flag : Z) (o : track) : track :=
  mkTRK (tr_type o) (tr_states o) (tr_chi2 o) (tr_ndf o) (tr_dedx o) (tr_dedxerr o) (tr_radius o)
        (tr_hitnums o) (tr_tracks o) (kept (Z.testbit flag 31) (tr_hits o) []).

(** ** ParticleID; Cluster: bit 31 (HITS: hits and weights) *)
Definition pid_ok (p : pid) : Prop :=
  word32 (pi_like p) /\ int32 (pi_type p) /\ int32 (pi_pdg p) /\ int32 (pi_alg p) /\
  vec_len (pi_par p) /\ Forall word32 (pi_par p).
Definition cluster_ok (o : cluster) : Prop :=
  int32 (cl_type o) /\ word32 (cl_energy o) /\ word32 (cl_energyerr o) /\ floats 3 (cl_pos o) /\
  floats 6 (cl_errpos o) /\ word32 (cl_theta o) /\ word32 (cl_phi o) /\ floats 3 (cl_errdir o) /\
  vec_len (cl_shape o) /\ Forall word32 (cl_shape o) /\ vec_len (cl_pids o) /\ Forall pid_ok (cl_pids o) /\
  vec_len (cl_clusters o) /\ vec_len (cl_hits o) /\ Forall word32 (cl_weights o) /\
  vec_len (cl_energies o) /\ Forall word32 (cl_energies o).
(** with the hits stored there must be a weight for every hit *)
Definition cluster_fits (flag : Z) (o : cluster) : Prop :=
  Z.testbit flag 31 = true -> Zlen (cl_weights o) = Zlen (cl_hits o).
Definition stored_cluster (flag : Z) (o : cluster) : cluster :=
  let h := Z.testbit flag 31 in
  mkCL (cl_type o) (cl_energy o) (cl_energyerr o) (cl_pos o) (cl_errpos o) (cl_theta o) (cl_phi o)
       (cl_errdir o) (cl_shape o) (cl_pids o) (cl_clusters o) (kept h (cl_hits o) [])
       (kept h (cl_weights o) []) (cl_energies o).

(** ** ReconstructedParticle: momentum, energy and mass in single precision *)
Definition recp_ok (o : recp) : Prop :=
  int32 (rp_type o) /\ doubles 3 (rp_p o) /\ word64 (rp_energy o) /\ floats 10 (rp_cov o) /\ word64 (rp_mass o) /\
  word32 (rp_charge o) /\ floats 3 (rp_ref o) /\ vec_len (rp_pids o) /\
  Forall (fun ap => pid_ok (snd ap)) (rp_pids o) /\ word32 (rp_good o) /\
  vec_len (rp_parts o) /\ vec_len (rp_tracks o) /\ vec_len (rp_clusters o).
Definition stored_recp (o : recp) : recp :=
  mkRP (rp_type o) (map as_float (rp_p o)) (as_float (rp_energy o)) (rp_cov o) (as_float (rp_mass o))
       (rp_charge o) (rp_ref o) (rp_pids o) (rp_used o) (rp_good o) (rp_parts o) (rp_tracks o)
       (rp_clusters o) (rp_sv o).

(** ** LCRelation: bit 31 (WEIGHTED); the weight of an unweighted relation is 1.0f *)
Definition stored_lcrel (flag : Z) (o : lcrel) : lcrel :=
  mkREL (re_from o) (re_to o) (kept (Z.testbit flag 31) (re_weight o) 1065353216).

(** ** Vertex: the [int] member behind isPrimary() is 0 or 16777216 after reading *)
Definition vertex_ok (o : vertex) : Prop :=
  Zlen (vx_type o) < 2 ^ 28 /\ word32 (vx_chi2 o) /\ word32 (vx_prob o) /\ floats 3 (vx_pos o) /\
  floats 6 (vx_cov o) /\ vec_len (vx_par o) /\ Forall word32 (vx_par o).
Definition stored_vertex (o : vertex) : vertex :=
  mkVX (if vx_primary o =? 0 then 0 else 16777216) (vx_type o) (vx_chi2 o) (vx_prob o) (vx_pos o) (vx_cov o)
       (vx_par o) (vx_part o).

(** ** LCGenericObject.  [fixed]: stored as an object of fixed size; the type name and the
    description of the user's class are not attributes of the object read. *)
Definition genobj_ok (o : genobj) : Prop :=
  vec_len (go_int o) /\ Forall int32 (go_int o) /\ vec_len (go_flt o) /\ Forall word32 (go_flt o) /\
  vec_len (go_dbl o) /\ Forall word64 (go_dbl o).
Definition stored_genobj (fixed : bool) (o : genobj) : genobj :=
  mkGO (go_int o) (go_flt o) (go_dbl o) fixed (str "LCGenericObject") [].
Definition genobj_sizes (o : genobj) : Z * Z * Z := (Zlen (go_int o), Zlen (go_flt o), Zlen (go_dbl o)).

(** ** Any object *)

(** [obj_ok flag algs sizes o]: [o] can be stored in a collection with flag word [flag]; [algs]
    are the algorithm types of the vertices of the collection, [sizes] the common sizes of its
    generic objects if they are stored with fixed size. *)
Definition obj_ok (flag : Z) (algs : list bytes) (sizes : option (Z * Z * Z)) (o : obj) : Prop :=
  match o with
  | OMC x => mcp_ok x | OSCH x => simcalhit_ok x | ORCH x => rawcalhit_ok x | OCH x => calhit_ok x
  | OSTH x => simtrkhit_ok x | OTPC x => tpchit_ok x | OTRD x => trkraw_ok x | OTD x => trkdata_ok x
  | OTPu x => trkpulse_ok x | OTH x => trkhit_ok x | OTHP x => trkhitp_ok x | OTHZ x => trkhitz_ok x
  | OTRK x => track_ok x | OCL x => cluster_ok x /\ cluster_fits flag x | ORP x => recp_ok x
  | OREL x => word32 (re_weight x) | OVX x => vertex_ok x /\ In (vx_type x) algs
  | OSTR l => vec_len l /\ Forall vec_len l | OFLT l => vec_len l /\ Forall word32 l
  | OINT l => vec_len l /\ Forall int32 l
  | OGO x => genobj_ok x /\ match sizes with Some s => genobj_sizes x = s | None => True end
  end.

Definition stored (flag : Z) (fixed : bool) (o : obj) : obj :=
  match o with
  | OMC x => OMC (stored_mcp x) | OSCH x => OSCH (stored_simcalhit flag x) | ORCH x => ORCH (stored_rawcalhit flag x)
  | OCH x => OCH (stored_calhit flag x) | OSTH x => OSTH (stored_simtrkhit flag x) | OTPC x => OTPC (stored_tpchit flag x)
  | OTRD x => OTRD (stored_trkraw flag x) | OTD x => OTD (stored_trkdata flag x) | OTPu x => OTPu (stored_trkpulse flag x)
  | OTH x => OTH (stored_trkhit flag x) | OTHP x => OTHP (stored_trkhitp flag x) | OTHZ x => OTHZ (stored_trkhitz flag x)
  | OTRK x => OTRK (stored_track flag x) | OCL x => OCL (stored_cluster flag x) | ORP x => ORP (stored_recp x)
  | OREL x => OREL (stored_lcrel flag x) | OVX x => OVX (stored_vertex x)
  | OSTR l => OSTR l | OFLT l => OFLT l | OINT l => OINT l | OGO x => OGO (stored_genobj fixed x)
  end.

(** ** References *)

Definition map_refs_mcp (f : addr -> addr) (o : mcp) : mcp :=
  mkMC (map f (mc_parents o)) (mc_pdg o) (mc_gen o) (mc_sim o) (mc_vertex o) (mc_time o) (mc_p o) (mc_mass o)
       (mc_charge o) (mc_endpoint o) (mc_pend o) (mc_spin o) (mc_color o) (map f (mc_daughters o)).
Definition map_refs_cont (f : addr -> addr) (c : mccont) : mccont :=
  mkCont (f (co_part c)) (co_energy c) (co_time c) (co_length c) (co_pdg c) (co_pos c).
Definition map_refs_simcalhit (f : addr -> addr) (o : simcalhit) : simcalhit :=
  mkSCH (sc_id0 o) (sc_id1 o) (sc_energy o) (sc_pos o) (map (map_refs_cont f) (sc_cont o)).
Definition map_refs_calhit (f : addr -> addr) (o : calhit) : calhit :=
  mkCH (ch_id0 o) (ch_id1 o) (ch_energy o) (ch_err o) (ch_time o) (ch_pos o) (ch_type o) (f (ch_raw o)).
Definition map_refs_simtrkhit (f : addr -> addr) (o : simtrkhit) : simtrkhit :=
  mkSTH (st_id0 o) (st_id1 o) (st_pos o) (st_edep o) (st_time o) (f (st_part o)) (st_p o) (st_path o) (st_quality o).
Definition map_refs_trkpulse (f : addr -> addr) (o : trkpulse) : trkpulse :=
  mkTPu (pu_id0 o) (pu_id1 o) (pu_time o) (pu_charge o) (pu_cov o) (pu_quality o) (f (pu_corr o)).
Definition map_refs_trkhit (f : addr -> addr) (o : trkhit) : trkhit :=
  mkTH (th_id0 o) (th_id1 o) (th_type o) (th_pos o) (th_cov o) (th_edep o) (th_edeperr o) (th_time o)
       (th_quality o) (map f (th_raw o)).
Definition map_refs_trkhitp (f : addr -> addr) (o : trkhitp) : trkhitp :=
  mkTHP (hp_id0 o) (hp_id1 o) (hp_type o) (hp_pos o) (hp_u o) (hp_v o) (hp_du o) (hp_dv o) (hp_edep o)
        (hp_edeperr o) (hp_time o) (hp_quality o) (map f (hp_raw o)).
Definition map_refs_trkhitz (f : addr -> addr) (o : trkhitz) : trkhitz :=
  mkTHZ (hz_id0 o) (hz_id1 o) (hz_type o) (hz_pos o) (hz_center o) (hz_drphi o) (hz_dz o) (hz_edep o)
        (hz_edeperr o) (hz_time o) (hz_quality o) (map f (hz_raw o)).
Definition map_refs_track (f : addr -> addr) (o : track) : track :=
  mkTRK (tr_type o) (tr_states o) (tr_chi2 o) (tr_ndf o) (tr_dedx o) (tr_dedxerr o) (tr_radius o) (tr_hitnums o)
        (map f (tr_tracks o)) (map f (tr_hits o)).
Definition map_refs_cluster (f : addr -> addr) (o : cluster) : cluster :=
  mkCL (cl_type o) (cl_energy o) (cl_energyerr o) (cl_pos o) (cl_errpos o) (cl_theta o) (cl_phi o) (cl_errdir o)
       (cl_shape o) (cl_pids o) (map f (cl_clusters o)) (map f (cl_hits o)) (cl_weights o) (cl_energies o).
Definition map_refs_recp (f : addr -> addr) (o : recp) : recp :=
  mkRP (rp_type o) (rp_p o) (rp_energy o) (rp_cov o) (rp_mass o) (rp_charge o) (rp_ref o) (rp_pids o)
       (f (rp_used o)) (rp_good o) (map f (rp_parts o)) (map f (rp_tracks o)) (map f (rp_clusters o)) (f (rp_sv o)).
Definition map_refs_lcrel (f : addr -> addr) (o : lcrel) : lcrel := mkREL (f (re_from o)) (f (re_to o)) (re_weight o).
Definition map_refs_vertex (f : addr -> addr) (o : vertex) : vertex :=
  mkVX (vx_primary o) (vx_type o) (vx_chi2 o) (vx_prob o) (vx_pos o) (vx_cov o) (vx_par o) (f (vx_part o)).

(** every reference of the object replaced by its image *)
Definition map_refs (f : addr -> addr) (o : obj) : obj :=
  match o with
  | OMC x => OMC (map_refs_mcp f x) | OSCH x => OSCH (map_refs_simcalhit f x) | OCH x => OCH (map_refs_calhit f x)
  | OSTH x => OSTH (map_refs_simtrkhit f x) | OTPu x => OTPu (map_refs_trkpulse f x) | OTH x => OTH (map_refs_trkhit f x)
  | OTHP x => OTHP (map_refs_trkhitp f x) | OTHZ x => OTHZ (map_refs_trkhitz f x) | OTRK x => OTRK (map_refs_track f x)
  | OCL x => OCL (map_refs_cluster f x) | ORP x => ORP (map_refs_recp f x) | OREL x => OREL (map_refs_lcrel f x)
  | OVX x => OVX (map_refs_vertex f x)
  | _ => o
  end.

(** the references of an object *)
Definition refs (o : obj) : list addr :=
  match o with
  | OMC x => mc_parents x ++ mc_daughters x
  | OSCH x => map co_part (sc_cont x)
  | OCH x => [ch_raw x]
  | OSTH x => [st_part x]
  | OTPu x => [pu_corr x]
  | OTH x => th_raw x | OTHP x => hp_raw x | OTHZ x => hz_raw x
  | OTRK x => tr_tracks x ++ tr_hits x
  | OCL x => cl_clusters x ++ cl_hits x
  | ORP x => [rp_used x] ++ rp_parts x ++ rp_tracks x ++ rp_clusters x ++ [rp_sv x]
  | OREL x => [re_from x; re_to x]
  | OVX x => [vx_part x]
  | _ => []
  end.

(** the objects owned by an object that can be pointed at: the particle ids of a
    ReconstructedParticle *)
Definition owned (o : obj) : list addr := match o with ORP x => map fst (rp_pids x) | _ => [] end.
Definition map_owned (f : addr -> addr) (o : obj) : obj :=
  match o with
  | ORP x => ORP (mkRP (rp_type x) (rp_p x) (rp_energy x) (rp_cov x) (rp_mass x) (rp_charge x) (rp_ref x)
                       (map (fun ap => (f (fst ap), snd ap)) (rp_pids x)) (rp_used x) (rp_good x) (rp_parts x)
                       (rp_tracks x) (rp_clusters x) (rp_sv x))
  | _ => o
  end.

(** can other objects of the record point at it?  Not at relations, and not at calorimeter,
    raw calorimeter and TPC hits of a collection with the NO_PTR bit *)
Definition pointable (flag : Z) (o : obj) : bool :=
  match o with
  | OREL _ => false
  | OCH _ | ORCH _ => negb (Z.testbit flag 28)
  | OTPC _ => negb (Z.testbit flag 30)
  | _ => true
  end.

(** ** The order of the particle ids *)

(** the sort used for the particle ids: any sort of numbers that are comparable *)
Definition sort_ok (srt : forall A : Type, (A -> Z) -> list A -> list A) : Prop :=
  forall A (key : A -> Z) l, Forall (fun x => f_nan (key x) = false) l ->
    Permutation (srt A key l) l /\
    StronglySorted (fun x y => f_gt (key y) (key x) = false) (srt A key l).

(** the particle ids of the object in the order of the likelihoods *)
Definition resort (srt : forall A : Type, (A -> Z) -> list A -> list A) (o : obj) : obj :=
  match o with
  | OCL x => OCL (mkCL (cl_type x) (cl_energy x) (cl_energyerr x) (cl_pos x) (cl_errpos x) (cl_theta x) (cl_phi x)
                       (cl_errdir x) (cl_shape x) (add_pids srt pi_like (cl_pids x)) (cl_clusters x) (cl_hits x)
                       (cl_weights x) (cl_energies x))
  | ORP x => ORP (mkRP (rp_type x) (rp_p x) (rp_energy x) (rp_cov x) (rp_mass x) (rp_charge x) (rp_ref x)
                       (add_pids srt (fun ap : addr * pid => pi_like (snd ap)) (rp_pids x)) (rp_used x) (rp_good x)
                       (rp_parts x) (rp_tracks x) (rp_clusters x) (rp_sv x))
  | _ => o
  end.
(** the likelihoods of the particle ids of an object *)
Definition likes (o : obj) : list Z :=
  match o with
  | OCL x => map pi_like (cl_pids x)
  | ORP x => map (fun ap => pi_like (snd ap)) (rp_pids x)
  | _ => []
  end.
(** comparable, and in strictly descending order *)
Definition likes_desc (o : obj) : Prop :=
  Forall (fun w => f_nan w = false) (likes o) /\ StronglySorted (fun x y => f_gt x y = true) (likes o).
