(** * Files of earlier versions: specification

    Which fields a record of an earlier version has, and what is seen of an object that is read
    from it.  As in LayoutSpec the fields are written out; a field that came in later than a version
    is left out.  [newer v a b]: the version [v] of the file is later than a.b. *)

From Verif Require Import Bytes StrMap SioModel Ieee ObjModel ObjSpec CollSpec EventModel EventSpec LayoutSpec.

(** a version: major and minor number *)
Definition newer (v : Z * Z) (maj min : Z) : bool := (maj <? fst v) || ((maj =? fst v) && (min <? snd v)).
Definition is_version (v : Z * Z) (maj min : Z) : bool := (maj =? fst v) && (min =? snd v).
(** the word that stands for it in the header of a block *)
Definition version_word (v : Z * Z) : Z := fst v * 65536 + snd v.
Definition version_ok (v : Z * Z) : Prop := 0 <= fst v < 32768 /\ 0 <= snd v < 65536.

Definition only_if (b : bool) (fs : list field) : list field := if b then fs else [].

(** what only files up to 1.2 have: three numbers of a cluster in the place of its particle ids; the
    weights of the references of a particle to its components, and two lists of weights of Monte
    Carlo particles *)
Record extra := mkX { x_three : list Z; x_parts : list Z; x_tracks : list Z; x_clusters : list Z; x_mc : list Z * list Z }.
Definition no_extra : extra := mkX [0; 0; 0] [] [] [] ([], []).
Definition words (l : list Z) : Prop := Forall word32 l.
Definition extra_ok (x : extra) : Prop := floats 3 (x_three x) /\ words (x_parts x) /\ words (x_tracks x) /\ words (x_clusters x).

Section Version.
Context (v : Z * Z).

(** ** The fields of the objects *)

Definition old_mcp (a : addr) (o : mcp) : list field :=
  [Id a] ++ many (fun p => [Ref p]) (mc_parents o)
  ++ [Word (mc_pdg o); Word (mc_gen o); Word (mc_sim o)]
  ++ map Long (mc_vertex o) ++ only_if (newer v 1 2) [Word (mc_time o)]
  ++ map Single (mc_p o) ++ [Single (mc_mass o); Word (mc_charge o)]
  ++ only_if (Z.testbit (mc_sim o) 31)
       (map Long (mc_endpoint o) ++ only_if (newer v 2 6) (map Single (mc_pend o)))
  ++ only_if (newer v 1 51) (map Word (mc_spin o) ++ map Word (mc_color o)).
Definition seen_mcp (o : mcp) : mcp :=
  mkMC (mc_parents o) (mc_pdg o) (mc_gen o) (mc_sim o) (mc_vertex o) (kept (newer v 1 2) (mc_time o) 0)
       (map as_float (mc_p o)) (as_float (mc_mass o)) (mc_charge o)
       (kept (Z.testbit (mc_sim o) 31) (mc_endpoint o) [0; 0; 0])
       (kept (Z.testbit (mc_sim o) 31) (kept (newer v 2 6) (map as_float (mc_pend o)) [0; 0; 0]) [0; 0; 0])
       (kept (newer v 1 51) (mc_spin o) [0; 0; 0]) (kept (newer v 1 51) (mc_color o) [0; 0]) [].

Definition old_cont (flag : Z) (c : mccont) : list field :=
  [Ref (co_part c); Word (co_energy c); Word (co_time c)]
  ++ only_if (Z.testbit flag 28)
       (only_if (newer v 2 10) [Word (co_length c)] ++ [Word (co_pdg c)] ++ only_if (newer v 1 51) (map Word (co_pos c))).
Definition seen_cont (flag : Z) (c : mccont) : mccont :=
  let st := Z.testbit flag 28 in
  mkCont (co_part c) (co_energy c) (co_time c) (kept st (kept (newer v 2 10) (co_length c) 0) 0)
         (kept st (co_pdg c) 0) (kept st (kept (newer v 1 51) (co_pos c) [0; 0; 0]) [0; 0; 0]).
(** version 0.8 has the second cell id in any case *)
Definition old_simcalhit (flag : Z) (a : addr) (o : simcalhit) : list field :=
  [Word (sc_id0 o)] ++ only_if (Z.testbit flag 29 || is_version v 0 8) [Word (sc_id1 o)] ++ [Word (sc_energy o)]
  ++ only_if (Z.testbit flag 31) (map Word (sc_pos o)) ++ many (old_cont flag) (sc_cont o)
  ++ only_if (newer v 1 0) [Id a].
Definition seen_simcalhit (flag : Z) (o : simcalhit) : simcalhit :=
  mkSCH (sc_id0 o) (kept (Z.testbit flag 29 || is_version v 0 8) (sc_id1 o) 0) (sc_energy o)
        (kept (Z.testbit flag 31) (sc_pos o) [0; 0; 0]) (map (seen_cont flag) (sc_cont o)).

Definition old_rawcalhit (flag : Z) (a : addr) (o : rawcalhit) : list field :=
  [Word (rc_id0 o)] ++ only_if (Z.testbit flag 29 || is_version v 0 8) [Word (rc_id1 o)] ++ [Word (rc_ampl o)]
  ++ only_if (Z.testbit flag 27) [Word (rc_time o)] ++ only_if (negb (Z.testbit flag 28)) [Id a].
Definition seen_rawcalhit (flag : Z) (o : rawcalhit) : rawcalhit :=
  mkRCH (rc_id0 o) (kept (Z.testbit flag 29 || is_version v 0 8) (rc_id1 o) 0) (rc_ampl o)
        (kept (Z.testbit flag 27) (rc_time o) 0).

(** up to 1.2 the bit 28 meant that the hit has a number *)
Definition old_calhit (flag : Z) (a : addr) (o : calhit) : list field :=
  [Word (ch_id0 o)] ++ only_if (Z.testbit flag 29 || is_version v 0 8) [Word (ch_id1 o)] ++ [Word (ch_energy o)]
  ++ only_if (newer v 1 9 && Z.testbit flag 26) [Word (ch_err o)]
  ++ only_if (newer v 1 2 && Z.testbit flag 27) [Word (ch_time o)]
  ++ only_if (Z.testbit flag 31) (map Word (ch_pos o))
  ++ only_if (newer v 1 2) [Word (ch_type o)] ++ only_if (newer v 1 2) [Ref (ch_raw o)]
  ++ only_if (if newer v 1 2 then negb (Z.testbit flag 28) else Z.testbit flag 28) [Id a].
Definition seen_calhit (flag : Z) (o : calhit) : calhit :=
  mkCH (ch_id0 o) (kept (Z.testbit flag 29 || is_version v 0 8) (ch_id1 o) 0) (ch_energy o)
       (kept (newer v 1 9 && Z.testbit flag 26) (ch_err o) 0) (kept (newer v 1 2 && Z.testbit flag 27) (ch_time o) 0)
       (kept (Z.testbit flag 31) (ch_pos o) [0; 0; 0]) (kept (newer v 1 2) (ch_type o) 0)
       (kept (newer v 1 2) (ch_raw o) 0).

Definition old_simtrkhit (flag : Z) (a : addr) (o : simtrkhit) : list field :=
  [Word (st_id0 o)] ++ only_if (newer v 1 51 && Z.testbit flag 29) [Word (st_id1 o)] ++ map Long (st_pos o)
  ++ [Word (st_edep o); Word (st_time o); Ref (st_part o)]
  ++ only_if (Z.testbit flag 30) (map Word (st_p o) ++ only_if (newer v 1 6) [Word (st_path o)])
  ++ only_if (newer v 2 7) [Word (st_quality o)] ++ only_if (newer v 1 0) [Id a].
Definition seen_simtrkhit (flag : Z) (o : simtrkhit) : simtrkhit :=
  mkSTH (st_id0 o) (kept (newer v 1 51 && Z.testbit flag 29) (st_id1 o) 0) (st_pos o) (st_edep o) (st_time o) (st_part o)
        (kept (Z.testbit flag 30) (st_p o) [0; 0; 0]) (kept (Z.testbit flag 30) (kept (newer v 1 6) (st_path o) 0) 0)
        (kept (newer v 2 7) (st_quality o) 0).

(** as for calorimeter hits, with bit 30 *)
Definition old_tpchit (flag : Z) (a : addr) (o : tpchit) : list field :=
  [Word (tp_id o); Word (tp_time o); Word (tp_charge o); Word (tp_quality o)]
  ++ only_if (Z.testbit flag 31) (many (one Word) (tp_raw o))
  ++ only_if (if newer v 1 2 then negb (Z.testbit flag 30) else Z.testbit flag 30) [Id a].

Definition old_trkpulse (flag : Z) (a : addr) (o : trkpulse) : list field :=
  [Word (pu_id0 o)] ++ only_if (Z.testbit flag 31) [Word (pu_id1 o)] ++ [Word (pu_time o); Word (pu_charge o)]
  ++ only_if (newer v 1 12 && Z.testbit flag 30) (map Word (pu_cov o))
  ++ [Word (pu_quality o); Ref (pu_corr o); Id a].
Definition seen_trkpulse (flag : Z) (o : trkpulse) : trkpulse :=
  mkTPu (pu_id0 o) (kept (Z.testbit flag 31) (pu_id1 o) 0) (pu_time o) (pu_charge o)
        (kept (newer v 1 12 && Z.testbit flag 30) (pu_cov o) [0; 0; 0]) (pu_quality o) (pu_corr o).

(** up to 1.2 a hit has exactly one raw hit, and no count *)
Definition old_trkhit (flag : Z) (a : addr) (o : trkhit) : list field :=
  only_if (newer v 1 51) [Word (th_id0 o)] ++ only_if (newer v 1 51 && Z.testbit flag 31) [Word (th_id1 o)]
  ++ only_if (newer v 1 2) [Word (th_type o)]
  ++ map Long (th_pos o) ++ map Word (th_cov o)
  ++ [Word (th_edep o)] ++ only_if (newer v 1 12) [Word (th_edeperr o)] ++ [Word (th_time o)]
  ++ only_if (newer v 1 11) [Word (th_quality o)]
  ++ only_if (newer v 1 2) [Word (Zlen (th_raw o))] ++ map Ref (th_raw o) ++ [Id a].
Definition seen_trkhit (flag : Z) (o : trkhit) : trkhit :=
  mkTH (kept (newer v 1 51) (th_id0 o) 0) (kept (newer v 1 51 && Z.testbit flag 31) (th_id1 o) 0)
       (kept (newer v 1 2) (th_type o) 0) (th_pos o) (th_cov o) (th_edep o)
       (kept (newer v 1 12) (th_edeperr o) 0) (th_time o) (kept (newer v 1 11) (th_quality o) 0) (th_raw o).
Definition old_trkhitp (flag : Z) (a : addr) (o : trkhitp) : list field :=
  only_if (newer v 1 51) [Word (hp_id0 o)] ++ only_if (newer v 1 51 && Z.testbit flag 31) [Word (hp_id1 o)]
  ++ [Word (hp_type o)]
  ++ map Long (hp_pos o) ++ map Word (hp_u o) ++ map Word (hp_v o) ++ [Word (hp_du o); Word (hp_dv o)]
  ++ [Word (hp_edep o); Word (hp_edeperr o); Word (hp_time o); Word (hp_quality o)]
  ++ many (fun r => [Ref r]) (hp_raw o) ++ [Id a].
Definition seen_trkhitp (flag : Z) (o : trkhitp) : trkhitp :=
  mkTHP (kept (newer v 1 51) (hp_id0 o) 0) (kept (newer v 1 51 && Z.testbit flag 31) (hp_id1 o) 0) (hp_type o) (hp_pos o)
        (hp_u o) (hp_v o) (hp_du o) (hp_dv o) (hp_edep o) (hp_edeperr o) (hp_time o) (hp_quality o) (hp_raw o).
Definition old_trkhitz (flag : Z) (a : addr) (o : trkhitz) : list field :=
  only_if (newer v 1 51) [Word (hz_id0 o)] ++ only_if (newer v 1 51 && Z.testbit flag 31) [Word (hz_id1 o)]
  ++ [Word (hz_type o)]
  ++ map Long (hz_pos o) ++ map Word (hz_center o) ++ [Word (hz_drphi o); Word (hz_dz o)]
  ++ [Word (hz_edep o); Word (hz_edeperr o); Word (hz_time o); Word (hz_quality o)]
  ++ many (fun r => [Ref r]) (hz_raw o) ++ [Id a].
Definition seen_trkhitz (flag : Z) (o : trkhitz) : trkhitz :=
  mkTHZ (kept (newer v 1 51) (hz_id0 o) 0) (kept (newer v 1 51 && Z.testbit flag 31) (hz_id1 o) 0) (hz_type o) (hz_pos o)
        (hz_center o) (hz_drphi o) (hz_dz o) (hz_edep o) (hz_edeperr o) (hz_time o) (hz_quality o) (hz_raw o).

(** before 2.0 a track has exactly one state, without a location (the version 1.65535 was never
    used) *)
Definition old_tstate (t : tstate) : list field :=
  only_if (newer v 1 65535) [Word (ts_loc t)]
  ++ [Word (ts_d0 t); Word (ts_phi t); Word (ts_omega t); Word (ts_z0 t); Word (ts_tanl t)]
  ++ map Word (ts_cov t) ++ map Word (ts_ref t).
Definition seen_tstate (t : tstate) : tstate :=
  mkTS (kept (newer v 1 65535) (ts_loc t) 0) (ts_d0 t) (ts_phi t) (ts_omega t) (ts_z0 t) (ts_tanl t) (ts_cov t) (ts_ref t).
Definition old_track (flag : Z) (a : addr) (o : track) : list field :=
  [Word (tr_type o)] ++ only_if (newer v 1 65535) [Word (Zlen (tr_states o))] ++ flat_map old_tstate (tr_states o)
  ++ [Word (tr_chi2 o); Word (tr_ndf o); Word (tr_dedx o); Word (tr_dedxerr o); Word (tr_radius o)]
  ++ many (one Word) (tr_hitnums o) ++ many (fun t => [Ref t]) (tr_tracks o)
  ++ only_if (Z.testbit flag 31) (many (fun h => [Ref h]) (tr_hits o)) ++ [Id a].
Definition seen_track (flag : Z) (o : track) : track :=
  mkTRK (tr_type o) (map seen_tstate (tr_states o)) (tr_chi2 o) (tr_ndf o) (tr_dedx o) (tr_dedxerr o) (tr_radius o)
        (tr_hitnums o) (tr_tracks o) (kept (Z.testbit flag 31) (tr_hits o) []).

(** up to 1.2 a cluster has six shape parameters, without a count, and three numbers instead of the
    particle ids *)
Definition old_cluster (x : extra) (flag : Z) (a : addr) (o : cluster) : list field :=
  [Word (cl_type o); Word (cl_energy o)] ++ only_if (newer v 1 51) [Word (cl_energyerr o)] ++ map Word (cl_pos o)
  ++ map Word (cl_errpos o) ++ [Word (cl_theta o); Word (cl_phi o)] ++ map Word (cl_errdir o)
  ++ only_if (newer v 1 2) [Word (Zlen (cl_shape o))] ++ map Word (cl_shape o)
  ++ (if newer v 1 2 then many pid_layout (cl_pids o) else map Word (x_three x))
  ++ many (fun c => [Ref c]) (cl_clusters o)
  ++ only_if (Z.testbit flag 31) (many (fun hw => [Ref (fst hw); Word (snd hw)]) (combine (cl_hits o) (cl_weights o)))
  ++ many (one Word) (cl_energies o) ++ [Id a].
Definition seen_cluster (flag : Z) (o : cluster) : cluster :=
  let h := Z.testbit flag 31 in
  mkCL (cl_type o) (cl_energy o) (kept (newer v 1 51) (cl_energyerr o) 0) (cl_pos o) (cl_errpos o) (cl_theta o) (cl_phi o)
       (cl_errdir o) (cl_shape o) (kept (newer v 1 2) (cl_pids o) []) (cl_clusters o) (kept h (cl_hits o) [])
       (kept h (cl_weights o) []) (cl_energies o).

(** up to 1.2 a particle has double precision, particle ids without PDG code and number, and weights
    for its components; the type are the lower 16 bits of a word; there is no start vertex up to 1.7 *)
Definition weighted (l ws : list Z) : list field := many (fun pw => [Ref (fst pw); Word (snd pw)]) (combine l ws).
Definition old_recp (x : extra) (a : addr) (o : recp) : list field :=
  if newer v 1 2 then
    [Word (rp_type o)] ++ map Single (rp_p o) ++ [Single (rp_energy o)] ++ map Word (rp_cov o)
    ++ [Single (rp_mass o); Word (rp_charge o)] ++ map Word (rp_ref o)
    ++ many (fun ap => pid_layout (snd ap) ++ [Id (fst ap)]) (rp_pids o)
    ++ [Ref (rp_used o); Word (rp_good o)]
    ++ many (fun p => [Ref p]) (rp_parts o) ++ many (fun t => [Ref t]) (rp_tracks o)
    ++ many (fun c => [Ref c]) (rp_clusters o) ++ only_if (newer v 1 7) [Ref (rp_sv o)] ++ [Id a]
  else
    [Word (rp_type o)] ++ map Long (rp_p o) ++ [Long (rp_energy o)] ++ map Word (rp_cov o)
    ++ [Long (rp_mass o); Word (rp_charge o)] ++ map Word (rp_ref o)
    ++ many (fun ap => [Word (pi_like (snd ap)); Word (pi_type (snd ap)); Word (pi_alg (snd ap))]
                       ++ many (one Word) (pi_par (snd ap))) (rp_pids o)
    ++ weighted (rp_parts o) (x_parts x) ++ weighted (rp_tracks o) (x_tracks x) ++ weighted (rp_clusters o) (x_clusters x)
    ++ [Word (Zlen (fst (x_mc x)))] ++ map Word (fst (x_mc x)) ++ map Word (snd (x_mc x)) ++ [Id a].
Definition seen_recp (o : recp) : recp :=
  if newer v 1 2 then
    mkRP (rp_type o) (map as_float (rp_p o)) (as_float (rp_energy o)) (rp_cov o) (as_float (rp_mass o))
         (rp_charge o) (rp_ref o) (rp_pids o) (rp_used o) (rp_good o) (rp_parts o) (rp_tracks o)
         (rp_clusters o) (kept (newer v 1 7) (rp_sv o) 0)
  else
    mkRP (rp_type o mod 65536) (rp_p o) (rp_energy o) (rp_cov o) (rp_mass o)
         (rp_charge o) (rp_ref o)
         (map (fun ap => let p := snd ap in (fst ap, mkPID (pi_like p) (pi_type p) 0 (pi_alg p) (pi_par p))) (rp_pids o))
         0 0 (rp_parts o) (rp_tracks o) (rp_clusters o) 0.

(** ** Any object *)

Definition old_layout (x : addr -> extra) (flag : Z) (types : list bytes) (fixed : bool) (a : addr) (o : obj) : list field :=
  match o with
  | OMC y => old_mcp a y
  | OSCH y => old_simcalhit flag a y
  | ORCH y => old_rawcalhit flag a y
  | OCH y => old_calhit flag a y
  | OSTH y => old_simtrkhit flag a y
  | OTPC y => old_tpchit flag a y
  | OTPu y => old_trkpulse flag a y
  | OTH y => old_trkhit flag a y
  | OTHP y => old_trkhitp flag a y
  | OTHZ y => old_trkhitz flag a y
  | OTRK y => old_track flag a y
  | OCL y => old_cluster (x a) flag a y
  | ORP y => old_recp (x a) a y
  | OSTR l => many txt l ++ only_if (newer v 1 2) [Id a]
  | OFLT l => many (one Word) l ++ only_if (newer v 1 2) [Id a]
  | OINT l => many (one Word) l ++ only_if (newer v 1 2) [Id a]
  | OTRD _ | OTD _ | OREL _ | OVX _ | OGO _ => obj_layout flag types fixed a o
  end.
Definition seen (flag : Z) (fixed : bool) (o : obj) : obj :=
  match o with
  | OMC y => OMC (seen_mcp y)
  | OSCH y => OSCH (seen_simcalhit flag y)
  | ORCH y => ORCH (seen_rawcalhit flag y)
  | OCH y => OCH (seen_calhit flag y)
  | OSTH y => OSTH (seen_simtrkhit flag y)
  | OTPu y => OTPu (seen_trkpulse flag y)
  | OTH y => OTH (seen_trkhit flag y)
  | OTHP y => OTHP (seen_trkhitp flag y)
  | OTHZ y => OTHZ (seen_trkhitz flag y)
  | OTRK y => OTRK (seen_track flag y)
  | OCL y => OCL (seen_cluster flag y)
  | ORP y => ORP (seen_recp y)
  | _ => ObjSpec.stored flag fixed o
  end.

(** what could be written at the time *)
Definition old_fits (x : extra) (o : obj) : Prop :=
  match o with
  | OTH y => newer v 1 2 = false -> Zlen (th_raw y) = 1
  | OTRK y => newer v 1 65535 = false -> Zlen (tr_states y) = 1
  | OCL y => newer v 1 2 = false -> Zlen (cl_shape y) = 6
  | ORP y => newer v 1 2 = false ->
      Zlen (x_parts x) = Zlen (rp_parts y) /\ Zlen (x_tracks x) = Zlen (rp_tracks y) /\
      Zlen (x_clusters x) = Zlen (rp_clusters y) /\
      Zlen (fst (x_mc x)) = Zlen (snd (x_mc x)) /\ Zlen (fst (x_mc x)) <= 1
  | _ => True
  end.
End Version.

(** ** Blocks, collections and headers

    [old_block]: as in LayoutSpec, with the word of the version. *)
Definition old_block (v : Z * Z) (name : bytes) (fs : list field) : list field :=
  let rest := [Word 3735928559; Word (version_word v)] ++ txt name ++ fs in
  Word (4 + size rest) :: rest.

(** parameters came after 1.1 *)
Definition old_coll (v : Z * Z) (x : addr -> extra) (ty : otype) (h : heap) (c : coll) : list field :=
  let fixed := stores_fixed ty h c in
  [Word (stored_flag ty h c)] ++ only_if (newer v 1 1) (params_layout (stored_params ty h c))
  ++ (if fixed then match c_elems c with
                    | a :: _ => match h a with Some (OGO o) => counts_layout o | _ => [] end
                    | [] => [Word 0; Word 0; Word 0]
                    end else [])
  ++ if is_subset c then many (fun a => [Ref a]) (c_elems c)
     else many (fun a => match h a with
                         | Some o => old_layout v x (c_flag c) (vertex_types h (c_elems c)) fixed a o
                         | None => []
                         end) (c_elems c).
(** what the collections must satisfy beyond [coll_ok]; vertices, whose types are in the parameters,
    and generic objects only after 1.1 *)
Definition old_coll_ok (v : Z * Z) (x : addr -> extra) (ty : otype) (h : heap) (c : coll) : Prop :=
  (ty = TVX \/ ty = TGO -> newer v 1 1 = true) /\
  (is_subset c = false -> forall a o, In a (c_elems c) -> h a = Some o -> extra_ok (x a) /\ old_fits v (x a) o).

Definition old_run_data (v : Z * Z) (r : runhdr) : list field :=
  old_block v (str "RunHeader")
    ([Word (rh_run r)] ++ txt (rh_det r) ++ txt (rh_desc r) ++ many txt (rh_subs r)
     ++ only_if (newer v 1 1) (params_layout (rh_par r))).
Definition old_header_data (v : Z * Z) (only : list bytes) (e : event) : list field :=
  old_block v (str "EventHeader")
    ([Word (ev_run e); Word (ev_num e); Long (ev_time e)] ++ txt (ev_det e)
     ++ many (fun nc => txt (fst nc) ++
          txt (c_type (snd nc) ++ if is_subset (snd nc) then str "_References" else [])) (stored_cols only e)
     ++ only_if (newer v 1 1) (params_layout (ev_par e))).
Definition old_event_data (v : Z * Z) (x : addr -> extra) (h : heap) (cols : list (bytes * coll)) : list field :=
  flat_map (fun nc => match get_handler (c_type (snd nc)) with
                      | Some ty => old_block v (fst nc) (old_coll v x ty h (snd nc))
                      | None => []
                      end) cols.

(** ** What is read *)

Definition seen_run (v : Z * Z) (r : runhdr) : runhdr :=
  mkRun (rh_run r) (rh_det r) (rh_desc r) (rh_subs r) (kept (newer v 1 1) (rh_par r) no_params).
(** the event read from the header: the collections have their types only *)
Definition seen_header (v : Z * Z) (only names : list bytes) (e : event) : event :=
  mkEvt (ev_run e) (ev_num e) (ev_time e) (ev_det e) (kept (newer v 1 1) (ev_par e) no_params)
        (map (fun nc => (fst nc, mkColl (c_type (snd nc)) 0 no_params [])) (read_back only names e)).
(** the objects that have a number in the record *)
Definition numbered_objs (v : Z * Z) (x : addr -> extra) (h : heap) (cols : list (bytes * coll)) (a : addr) : Prop :=
  In (Id a) (old_event_data v x h cols).
(** the collection [nc'] read for [nc], where [new] are the addresses of the new objects and [tgt]
    the addresses that references get *)
Definition old_as (v : Z * Z) (h : heap) (new tgt : addr -> addr) (nc nc' : bytes * coll) : Prop :=
  fst nc' = fst nc /\ c_type (snd nc') = c_type (snd nc) /\
  exists ty, get_handler (c_type (snd nc)) = Some ty /\
    c_flag (snd nc') = stored_flag ty h (snd nc) /\
    c_par (snd nc') = kept (newer v 1 1) (stored_params ty h (snd nc)) no_params /\
    c_elems (snd nc') = map (if is_subset (snd nc) then tgt else new) (c_elems (snd nc)).
(** the object read for [o] *)
Definition old_copy srt (v : Z * Z) (new tgt : addr -> addr) (flag : Z) (fixed : bool) (o : obj) : obj :=
  map_refs tgt (resort srt (map_owned new (seen v flag fixed o))).

(** the versions that are read: not those with major number 0 and minor number below 8 *)
Definition accepted (v : Z * Z) : Prop := 1 <= fst v \/ 8 <= snd v.
(** references to the objects that have a number and are read; all others become null *)
Definition refers_to (v : Z * Z) (x : addr -> extra) (h : heap) (cols : list (bytes * coll)) (new tgt : addr -> addr) : Prop :=
  forall a, (a <> 0 -> numbered_objs v x h cols a -> tgt a = new a) /\
            (a = 0 \/ ~ numbered_objs v x h cols a -> tgt a = 0).
(** the record has less than 4 GB *)
Definition fits (fs : list field) : Prop := size fs < 2 ^ 32.
