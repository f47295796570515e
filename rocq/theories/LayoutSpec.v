(** * The layout of the records of a file: specification

    A record is described as a list of fields, independently of the functions of the model that
    write it: names, markers, the version, flag bits and the order of the fields are written out
    here, as literal numbers and strings.  [field_bytes] says which bytes a field is. *)

From Verif Require Import Bytes StrMap SioModel Ieee ObjModel ObjSpec CollSpec EventModel EventSpec IndexModel.

(** ** Fields *)

Inductive field : Type :=
| Octet (z : Z)              (* one byte, padded to four *)
| Word (z : Z)               (* four bytes *)
| Long (z : Z)               (* eight bytes *)
| Shorts (l : list Z)        (* two bytes each, the whole padded to a multiple of four *)
| Text (s : bytes)           (* the characters, padded to a multiple of four *)
| Id (a : addr)              (* the number of the object at [a] *)
| Ref (a : addr).            (* a reference to the object at [a] *)

(** the [n] bytes of a number (modulo 256^n), the most significant byte first *)
Definition big (n : nat) (z : Z) : bytes :=
  map (fun i => bZ (z / 256 ^ (Z.of_nat n - 1 - Z.of_nat i))) (seq 0 n).
(** zeros up to the next multiple of four *)
Definition filled4 (bs : bytes) : bytes := bs ++ repeat x00 (Z.to_nat ((- Zlen bs) mod 4)).

(** [N] numbers the objects that are both stored and referred to *)
Definition field_bytes (N : addr -> option Z) (f : field) : bytes :=
  match f with
  | Octet z => filled4 (big 1 z)
  | Word z => big 4 z
  | Long z => big 8 z
  | Shorts l => filled4 (flat_map (big 2) l)
  | Text s => filled4 s
  | Id a => big 4 (match N a with Some k => k | None => 4294967295 end)
  | Ref a => big 4 (match N a with Some k => k | None => 0 end)
  end.
Definition layout (N : addr -> option Z) (fs : list field) : bytes := flat_map (field_bytes N) fs.

(** the size of a field does not depend on the numbering *)
Definition field_size (f : field) : Z :=
  match f with
  | Octet _ | Word _ | Id _ | Ref _ => 4
  | Long _ => 8
  | Shorts l => 4 * ((2 * Zlen l + 3) / 4)
  | Text s => 4 * ((Zlen s + 3) / 4)
  end.
Definition size (fs : list field) : Z := fold_right (fun f n => field_size f + n) 0 fs.

(** numbers are given to the objects other than null that have an [Id] and a [Ref] in the
    record; different objects have different numbers *)
Definition numbering (N : addr -> option Z) (fs : list field) : Prop :=
  (forall a, N a <> None <-> a <> 0 /\ In (Id a) fs /\ In (Ref a) fs) /\
  (forall a k, N a = Some k -> 1 <= k < 2 ^ 30) /\
  (forall a b, N a <> None -> N a = N b -> a = b).

(** the bytes [bs] have the layout [fs] *)
Definition laid_out (fs : list field) (bs : bytes) : Prop := exists N, numbering N fs /\ bs = layout N fs.

(** ** Records and blocks *)

Definition txt (s : bytes) : list field := [Word (Zlen s); Text s].
(** the number of elements, then the elements *)
Definition many {A} (f : A -> list field) (l : list A) : list field := Word (Zlen l) :: flat_map f l.
Definition one (f : Z -> field) (z : Z) : list field := [f z].
Definition if_bit (flag n : Z) (fs : list field) : list field := if Z.testbit flag n then fs else [].
Definition unless_bit (flag n : Z) (fs : list field) : list field := if Z.testbit flag n then [] else fs.

(** length of the block, 0xdeadbeef, version 2.15 as major*2^16+minor, name, contents *)
Definition block_layout (name : bytes) (fs : list field) : list field :=
  let rest := [Word 3735928559; Word 131087] ++ txt name ++ fs in
  Word (4 + size rest) :: rest.
(** length of the header, 0xabadcafe, options (not compressed), stored and original length of
    the data, name, data *)
Definition record_layout (name : bytes) (blocks : list field) : list field :=
  [Word (24 + size [Text name]); Word 2880293630; Word 0; Word (size blocks); Word (size blocks)]
  ++ txt name ++ blocks.

(** ** Parameters: integer, float and string parameters *)

Definition map_layout {V} (f : V -> list field) (m : list (bytes * list V)) : list field :=
  many (fun kv => txt (fst kv) ++ many f (snd kv)) m.
Definition params_layout (p : params) : list field :=
  map_layout (one Word) (p_int p) ++ map_layout (one Word) (p_flt p) ++ map_layout txt (p_str p).

(** ** The objects *)

(** a double stored in single precision *)
Definition Single (d : Z) : field := Word (d2f d).

Definition mcp_layout (a : addr) (o : mcp) : list field :=
  [Id a] ++ many (fun p => [Ref p]) (mc_parents o)
  ++ [Word (mc_pdg o); Word (mc_gen o); Word (mc_sim o)]
  ++ map Long (mc_vertex o) ++ [Word (mc_time o)]
  ++ map Single (mc_p o) ++ [Single (mc_mass o); Word (mc_charge o)]
  ++ if_bit (mc_sim o) 31 (map Long (mc_endpoint o) ++ map Single (mc_pend o))
  ++ map Word (mc_spin o) ++ map Word (mc_color o).
Definition cont_layout (flag : Z) (c : mccont) : list field :=
  [Ref (co_part c); Word (co_energy c); Word (co_time c)]
  ++ if_bit flag 28 ([Word (co_length c); Word (co_pdg c)] ++ map Word (co_pos c)).
Definition simcalhit_layout (flag : Z) (a : addr) (o : simcalhit) : list field :=
  [Word (sc_id0 o)] ++ if_bit flag 29 [Word (sc_id1 o)] ++ [Word (sc_energy o)]
  ++ if_bit flag 31 (map Word (sc_pos o)) ++ many (cont_layout flag) (sc_cont o) ++ [Id a].
Definition rawcalhit_layout (flag : Z) (a : addr) (o : rawcalhit) : list field :=
  [Word (rc_id0 o)] ++ if_bit flag 29 [Word (rc_id1 o)] ++ [Word (rc_ampl o)]
  ++ if_bit flag 27 [Word (rc_time o)] ++ unless_bit flag 28 [Id a].
Definition calhit_layout (flag : Z) (a : addr) (o : calhit) : list field :=
  [Word (ch_id0 o)] ++ if_bit flag 29 [Word (ch_id1 o)] ++ [Word (ch_energy o)]
  ++ if_bit flag 26 [Word (ch_err o)] ++ if_bit flag 27 [Word (ch_time o)]
  ++ if_bit flag 31 (map Word (ch_pos o)) ++ [Word (ch_type o); Ref (ch_raw o)] ++ unless_bit flag 28 [Id a].
Definition simtrkhit_layout (flag : Z) (a : addr) (o : simtrkhit) : list field :=
  [Word (st_id0 o)] ++ if_bit flag 29 [Word (st_id1 o)] ++ map Long (st_pos o)
  ++ [Word (st_edep o); Word (st_time o); Ref (st_part o)]
  ++ if_bit flag 30 (map Word (st_p o) ++ [Word (st_path o)]) ++ [Word (st_quality o); Id a].
Definition tpchit_layout (flag : Z) (a : addr) (o : tpchit) : list field :=
  [Word (tp_id o); Word (tp_time o); Word (tp_charge o); Word (tp_quality o)]
  ++ if_bit flag 31 (many (one Word) (tp_raw o)) ++ unless_bit flag 30 [Id a].
Definition trkraw_layout (flag : Z) (a : addr) (o : trkraw) : list field :=
  [Word (td_id0 o)] ++ if_bit flag 31 [Word (td_id1 o)]
  ++ [Word (td_time o); Word (Zlen (td_adc o)); Shorts (td_adc o); Id a].
Definition trkdata_layout (flag : Z) (a : addr) (o : trkdata) : list field :=
  [Word (tc_id0 o)] ++ if_bit flag 31 [Word (tc_id1 o)]
  ++ [Word (tc_time o)] ++ many (one Word) (tc_charge o) ++ [Id a].
Definition trkpulse_layout (flag : Z) (a : addr) (o : trkpulse) : list field :=
  [Word (pu_id0 o)] ++ if_bit flag 31 [Word (pu_id1 o)] ++ [Word (pu_time o); Word (pu_charge o)]
  ++ if_bit flag 30 (map Word (pu_cov o)) ++ [Word (pu_quality o); Ref (pu_corr o); Id a].
Definition trkhit_layout (flag : Z) (a : addr) (o : trkhit) : list field :=
  [Word (th_id0 o)] ++ if_bit flag 31 [Word (th_id1 o)] ++ [Word (th_type o)]
  ++ map Long (th_pos o) ++ map Word (th_cov o)
  ++ [Word (th_edep o); Word (th_edeperr o); Word (th_time o); Word (th_quality o)]
  ++ many (fun r => [Ref r]) (th_raw o) ++ [Id a].
Definition trkhitp_layout (flag : Z) (a : addr) (o : trkhitp) : list field :=
  [Word (hp_id0 o)] ++ if_bit flag 31 [Word (hp_id1 o)] ++ [Word (hp_type o)]
  ++ map Long (hp_pos o) ++ map Word (hp_u o) ++ map Word (hp_v o) ++ [Word (hp_du o); Word (hp_dv o)]
  ++ [Word (hp_edep o); Word (hp_edeperr o); Word (hp_time o); Word (hp_quality o)]
  ++ many (fun r => [Ref r]) (hp_raw o) ++ [Id a].
Definition trkhitz_layout (flag : Z) (a : addr) (o : trkhitz) : list field :=
  [Word (hz_id0 o)] ++ if_bit flag 31 [Word (hz_id1 o)] ++ [Word (hz_type o)]
  ++ map Long (hz_pos o) ++ map Word (hz_center o) ++ [Word (hz_drphi o); Word (hz_dz o)]
  ++ [Word (hz_edep o); Word (hz_edeperr o); Word (hz_time o); Word (hz_quality o)]
  ++ many (fun r => [Ref r]) (hz_raw o) ++ [Id a].
Definition tstate_layout (t : tstate) : list field :=
  [Word (ts_loc t); Word (ts_d0 t); Word (ts_phi t); Word (ts_omega t); Word (ts_z0 t); Word (ts_tanl t)]
  ++ map Word (ts_cov t) ++ map Word (ts_ref t).
Definition track_layout (flag : Z) (a : addr) (o : track) : list field :=
  [Word (tr_type o)] ++ many tstate_layout (tr_states o)
  ++ [Word (tr_chi2 o); Word (tr_ndf o); Word (tr_dedx o); Word (tr_dedxerr o); Word (tr_radius o)]
  ++ many (one Word) (tr_hitnums o) ++ many (fun t => [Ref t]) (tr_tracks o)
  ++ if_bit flag 31 (many (fun h => [Ref h]) (tr_hits o)) ++ [Id a].
Definition pid_layout (p : pid) : list field :=
  [Word (pi_like p); Word (pi_type p); Word (pi_pdg p); Word (pi_alg p)] ++ many (one Word) (pi_par p).
Definition cluster_layout (flag : Z) (a : addr) (o : cluster) : list field :=
  [Word (cl_type o); Word (cl_energy o); Word (cl_energyerr o)] ++ map Word (cl_pos o)
  ++ map Word (cl_errpos o) ++ [Word (cl_theta o); Word (cl_phi o)] ++ map Word (cl_errdir o)
  ++ many (one Word) (cl_shape o) ++ many pid_layout (cl_pids o) ++ many (fun c => [Ref c]) (cl_clusters o)
  ++ if_bit flag 31 (many (fun hw => [Ref (fst hw); Word (snd hw)]) (combine (cl_hits o) (cl_weights o)))
  ++ many (one Word) (cl_energies o) ++ [Id a].
Definition recp_layout (a : addr) (o : recp) : list field :=
  [Word (rp_type o)] ++ map Single (rp_p o) ++ [Single (rp_energy o)] ++ map Word (rp_cov o)
  ++ [Single (rp_mass o); Word (rp_charge o)] ++ map Word (rp_ref o)
  ++ many (fun ap => pid_layout (snd ap) ++ [Id (fst ap)]) (rp_pids o)
  ++ [Ref (rp_used o); Word (rp_good o)]
  ++ many (fun p => [Ref p]) (rp_parts o) ++ many (fun t => [Ref t]) (rp_tracks o)
  ++ many (fun c => [Ref c]) (rp_clusters o) ++ [Ref (rp_sv o); Id a].
Definition lcrel_layout (flag : Z) (o : lcrel) : list field :=
  [Ref (re_from o); Ref (re_to o)] ++ if_bit flag 31 [Word (re_weight o)].
(** the algorithm type as its place among the types of the collection *)
Fixpoint place (s : bytes) (l : list bytes) : Z :=
  match l with [] => 0 | x :: l' => if bytes_eqb x s then 0 else 1 + place s l' end.
Definition vertex_layout (types : list bytes) (a : addr) (o : vertex) : list field :=
  [Octet (if vx_primary o =? 0 then 0 else 1); Word (place (vx_type o) types); Word (vx_chi2 o); Word (vx_prob o)]
  ++ map Word (vx_pos o) ++ map Word (vx_cov o) ++ many (one Word) (vx_par o) ++ [Ref (vx_part o); Id a].
Definition counts_layout (o : genobj) : list field :=
  [Word (Zlen (go_int o)); Word (Zlen (go_flt o)); Word (Zlen (go_dbl o))].
Definition genobj_layout (fixed : bool) (a : addr) (o : genobj) : list field :=
  (if fixed then [] else counts_layout o)
  ++ map Word (go_int o) ++ map Word (go_flt o) ++ map Long (go_dbl o) ++ [Id a].

Definition obj_layout (flag : Z) (types : list bytes) (fixed : bool) (a : addr) (o : obj) : list field :=
  match o with
  | OMC x => mcp_layout a x
  | OSCH x => simcalhit_layout flag a x
  | ORCH x => rawcalhit_layout flag a x
  | OCH x => calhit_layout flag a x
  | OSTH x => simtrkhit_layout flag a x
  | OTPC x => tpchit_layout flag a x
  | OTRD x => trkraw_layout flag a x
  | OTD x => trkdata_layout flag a x
  | OTPu x => trkpulse_layout flag a x
  | OTH x => trkhit_layout flag a x
  | OTHP x => trkhitp_layout flag a x
  | OTHZ x => trkhitz_layout flag a x
  | OTRK x => track_layout flag a x
  | OCL x => cluster_layout flag a x
  | ORP x => recp_layout a x
  | OREL x => lcrel_layout flag x
  | OVX x => vertex_layout types a x
  | OSTR l => many txt l ++ [Id a]
  | OFLT l => many (one Word) l ++ [Id a]
  | OINT l => many (one Word) l ++ [Id a]
  | OGO x => genobj_layout fixed a x
  end.

(** ** Collections: flag word, parameters, for generic objects of fixed size their numbers of
    values (those of the first object, zeros if there is none), the number of elements, the
    elements or, in a subset collection, references to them *)
Definition coll_layout (ty : otype) (h : heap) (c : coll) : list field :=
  let fixed := stores_fixed ty h c in
  [Word (stored_flag ty h c)] ++ params_layout (stored_params ty h c)
  ++ (if fixed then match c_elems c with
                    | a :: _ => match h a with Some (OGO o) => counts_layout o | _ => [] end
                    | [] => [Word 0; Word 0; Word 0]
                    end else [])
  ++ if is_subset c then many (fun a => [Ref a]) (c_elems c)
     else many (fun a => match h a with
                         | Some o => obj_layout (c_flag c) (vertex_types h (c_elems c)) fixed a o
                         | None => []
                         end) (c_elems c).

(** ** The records *)

Definition run_data (r : runhdr) : list field :=
  block_layout (str "RunHeader")
    ([Word (rh_run r)] ++ txt (rh_det r) ++ txt (rh_desc r) ++ many txt (rh_subs r) ++ params_layout (rh_par r)).
Definition run_layout (r : runhdr) : list field := record_layout (str "LCRunHeader") (run_data r).
(** the event header names the collections that are stored and their types, with a postfix in
    the case of subset collections *)
Definition header_data (only : list bytes) (e : event) : list field :=
  block_layout (str "EventHeader")
    ([Word (ev_run e); Word (ev_num e); Long (ev_time e)] ++ txt (ev_det e)
     ++ many (fun nc => txt (fst nc) ++
          txt (c_type (snd nc) ++ if is_subset (snd nc) then str "_References" else [])) (stored_cols only e)
     ++ params_layout (ev_par e)).
Definition header_layout (only : list bytes) (e : event) : list field :=
  record_layout (str "LCEventHeader") (header_data only e).
(** the event record has one block for each stored collection *)
Definition event_data (only : list bytes) (h : heap) (e : event) : list field :=
  flat_map (fun nc => match get_handler (c_type (snd nc)) with
                      | Some ty => block_layout (fst nc) (coll_layout ty h (snd nc))
                      | None => []
                      end) (stored_cols only e).
Definition event_layout (only : list bytes) (h : heap) (e : event) : list field :=
  record_layout (str "LCEvent") (event_data only h e).

(** ** The index and the random access records

    [ents] are the entries of the index: run and event number, and position.  Run number and
    position are relative to the first entry; the run number is left out if the first and the last
    entry have the same one, and the positions have four bytes if the last entry is less than 2^31
    bytes behind the first. *)
Definition index_layout (ents : list (runevt * Z)) : list field :=
  match ents with
  | [] => []
  | ((run, _, pos) as first) :: _ =>
      let '(lastrun, _, lastpos) := last ents first in
      let single := run =? lastrun in
      let far := 2 ^ 31 <=? lastpos - pos in
      record_layout (str "LCIOIndex") (block_layout (str "LCIOIndex")
        ([Word ((if single then 1 else 0) + (if far then 2 else 0)); Word run; Long pos]
         ++ many (fun '(r, n, p) => (if single then [] else [Word (r - run)]) ++ [Word n]
                                    ++ [if far then Long (p - pos) else Word (p - pos)]) ents))
  end.
(** smallest and largest run and event number, number of run headers and events, 1 if the records
    are in order, positions of the index, of the previous and next record, and of this record; the
    last word is 0xabcd0088, for 136 bytes *)
Definition access_layout (a : racc) : list field :=
  record_layout (str "LCIORandomAccess") (block_layout (str "LCIORandomAccess")
    ([Word (fst (ra_min a)); Word (snd (ra_min a)); Word (fst (ra_max a)); Word (snd (ra_max a));
      Word (ra_nrun a); Word (ra_nevt a); Word (ra_order a)]
     ++ [Long (ra_index a); Long (ra_prev a); Long (ra_next a); Long (ra_first a); Word 2882338952])).

(** ** Records in a file

    At compression level 0 as above.  Otherwise the data are replaced by the compressed data, padded
    to a multiple of four; the options have bit 0, and the stored length is the one of the compressed
    data. *)
Definition stored (comp : Z -> bytes -> bytes) (level : Z) (name : bytes) (blocks : list field) (bs : bytes) : Prop :=
  exists N, numbering N (record_layout name blocks) /\
    let c := comp level (layout N blocks) in
    bs = (if level =? 0 then layout N (record_layout name blocks)
          else layout N ([Word (24 + size [Text name]); Word 2880293630; Word 1; Word (Zlen c); Word (size blocks)] ++ txt name)
               ++ filled4 c).
