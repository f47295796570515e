(** * What of a run header and of an event is stored: specification

    Nothing here mentions bytes or device calls. *)

From Coq Require Import Permutation.
From Verif Require Import Bytes StrMap SioModel SioSpec Ieee ObjModel ObjSpec CollSpec EventModel.

Definition int64 (z : Z) : Prop := - 2 ^ 63 <= z < 2 ^ 63.

Definition runhdr_ok (r : runhdr) : Prop :=
  int32 (rh_run r) /\ vec_len (rh_det r) /\ vec_len (rh_desc r) /\ vec_len (rh_subs r) /\
  Forall vec_len (rh_subs r) /\ params_ok (rh_par r).

(** names accepted by addCollection: a letter or '_', followed by letters, digits and '_' *)
Definition good_name (n : bytes) : Prop :=
  exists b s, n = b :: s /\ is_alpha (Zb b) = true /\ Forall (fun c => is_alnum (Zb c) = true) s.

Definition is_transient (c : coll) : bool := Z.testbit (c_flag c) 16.
(** the names in [l] are wanted; the empty list stands for all *)
Definition wanted (l : list bytes) (n : bytes) : bool :=
  match l with [] => true | _ => existsb (bytes_eqb n) l end.

(** the collections that are stored, and those that are read back *)
Definition stored_cols (only : list bytes) (e : event) : list (bytes * coll) :=
  filter (fun nc => negb (is_transient (snd nc)) && wanted only (fst nc)) (ev_cols e).
Definition read_back (only names : list bytes) (e : event) : list (bytes * coll) :=
  filter (fun nc => wanted names (fst nc)) (stored_cols only e).

Definition event_ok (only : list bytes) (h : heap) (e : event) : Prop :=
  int32 (ev_run e) /\ int32 (ev_num e) /\ int64 (ev_time e) /\ vec_len (ev_det e) /\ params_ok (ev_par e) /\
  sm_ok (ev_cols e) /\ vec_len (ev_cols e) /\
  Forall (fun nc => good_name (fst nc) /\ vec_len (fst nc) /\
            exists ty, get_handler (c_type (snd nc)) = Some ty /\ coll_ok ty h (snd nc)) (stored_cols only e) /\
  NoDup (flat_map (fun nc => coll_objs h (snd nc)) (stored_cols only e)).

(** the records are smaller than 4 GB *)
Definition event_fits (only : list bytes) (h : heap) (e : event) : Prop :=
  record_size header_record [mkWB header_block cur_vers (write_evhdr only e)] < two32 /\
  (forall bs cols, event_blocks only h (ev_cols e) = Ok (bs, cols) -> record_size event_record bs < two32).

(** objects that are read back, in the order in which they are created, and those of them that
    can be pointed at *)
Definition event_objs (only names : list bytes) (h : heap) (e : event) : list addr :=
  flat_map (fun nc => coll_objs h (snd nc)) (read_back only names e).
Definition event_tags (only names : list bytes) (h : heap) (e : event) : list addr :=
  flat_map (fun nc => coll_tags h (snd nc)) (read_back only names e).

(** [c'] is the collection [c] (of type [ty]) after reading: [elems'] are its elements *)
Definition coll_as (h : heap) (elem : bool -> addr -> addr) (nc nc' : bytes * coll) : Prop :=
  fst nc' = fst nc /\ c_type (snd nc') = c_type (snd nc) /\
  exists ty, get_handler (c_type (snd nc)) = Some ty /\
    c_flag (snd nc') = stored_flag ty h (snd nc) /\
    c_par (snd nc') = stored_params ty h (snd nc) /\
    c_elems (snd nc') = map (elem (is_subset (snd nc))) (c_elems (snd nc)).

Definition same_header (e e' : event) : Prop :=
  ev_run e' = ev_run e /\ ev_num e' = ev_num e /\ ev_time e' = ev_time e /\ ev_det e' = ev_det e /\
  ev_par e' = ev_par e.

(** the object at [a] of collection [c] as it is read back *)
Definition copy_in srt (new tgt : addr -> addr) (h : heap) (c : coll) (o : obj) : option obj :=
  match get_handler (c_type c) with
  | Some ty => Some (read_copy srt new tgt (stored_flag ty h c) (stores_fixed ty h c) o)
  | None => None
  end.

(** ** Daughters *)

Definition is_mc (c : coll) : bool := bytes_eqb (c_type c) (str "MCParticle") && negb (is_subset c).
Definition parents (h : heap) (a : addr) : list addr :=
  match h a with Some (OMC m) => mc_parents m | _ => [] end.
(** every MCParticle of the collections once for each time it names [x] as its parent *)
Definition daughters_of (h : heap) (cols : list (bytes * coll)) (x : addr) : list addr :=
  flat_map (fun nc => if is_mc (snd nc)
                      then flat_map (fun a => repeat a (count_occ Z.eq_dec (parents h a) x)) (c_elems (snd nc))
                      else []) cols.
(** parents are MCParticles that are read, in the same collection or in an earlier one *)
Definition mc_links_ok (h : heap) (cols : list (bytes * coll)) : Prop :=
  forall pre nc post a p, cols = pre ++ nc :: post -> is_mc (snd nc) = true -> In a (c_elems (snd nc)) ->
    In p (parents h a) ->
    exists nc', In nc' (pre ++ [nc]) /\ is_mc (snd nc') = true /\ In p (c_elems (snd nc')).
Definition more (ds : list addr) (o : obj) : obj :=
  match o with
  | OMC m => OMC (mkMC (mc_parents m) (mc_pdg m) (mc_gen m) (mc_sim m) (mc_vertex m) (mc_time m) (mc_p m)
                       (mc_mass m) (mc_charge m) (mc_endpoint m) (mc_pend m) (mc_spin m) (mc_color m)
                       (mc_daughters m ++ ds))
  | _ => o
  end.

(** all elements of the subset collections are read *)
Definition subsets_ok (h : heap) (tags : list addr) (cols : list (bytes * coll)) : Prop :=
  forall nc a, In nc cols -> is_subset (snd nc) = true -> In a (c_elems (snd nc)) -> a <> 0 /\ In a tags.

(** ** Type names

    The name of the class of an object, as the users of the library write it
    (src/cpp/include/EVENT/LCIO.h; src/cpp/src/IMPL/LCIO.cc:46-68). *)
Definition class_name (o : obj) : bytes :=
  match o with
  | OINT _ => str "LCIntVec" | OFLT _ => str "LCFloatVec" | OSTR _ => str "LCStrVec"
  | OGO _ => str "LCGenericObject" | OREL _ => str "LCRelation"
  | OMC _ => str "MCParticle"
  | OSTH _ => str "SimTrackerHit" | OSCH _ => str "SimCalorimeterHit"
  | ORCH _ => str "RawCalorimeterHit" | OCH _ => str "CalorimeterHit"
  | OTRD _ => str "TrackerRawData" | OTD _ => str "TrackerData" | OTPu _ => str "TrackerPulse"
  | OTPC _ => str "TPCHit" | OTH _ => str "TrackerHit" | OTHP _ => str "TrackerHitPlane"
  | OTHZ _ => str "TrackerHitZCylinder"
  | OTRK _ => str "Track" | OCL _ => str "Cluster" | OVX _ => str "Vertex"
  | ORP _ => str "ReconstructedParticle"
  end.
