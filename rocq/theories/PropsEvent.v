(** * Run headers and events: C07 - C12, C31, C38, C42 *)

From Coq Require Import Permutation Sorted.
From Verif Require Import Bytes StrMap SioModel SioSpec Ieee ObjModel ObjSpec CollSpec EventModel EventSpec
  EventProofs PostProofs EventFacts EventExamples.

(** ** C08: run headers *)

Theorem C08_run_header_roundtrip : forall buf r,
  b_valid buf = true -> b_bytes buf <> [] -> runhdr_ok r ->
  record_size run_record [mkWB run_block cur_vers (write_runhdr r)] < two32 ->
  exists ri buf', write_run_record buf r = Ok (ri, buf') /\ ri_name ri = run_record /\
    read_run_record (rec_data ri (b_bytes buf')) = Ok r.
Proof. exact run_roundtrip. Qed.
Print Assumptions C08_run_header_roundtrip.

Example C08_case : runhdr_ok ex_run /\ record_size run_record [mkWB run_block cur_vers (write_runhdr ex_run)] < two32.
Proof. exact ex_run_ok. Qed.

(** ** C07: parameters of run headers (C08), events and collections.

    A collection of vertices or of generic objects gets string parameters of its own on writing
    ([own_keys]; [stored_params] says which values). *)

Theorem C07_parameters_roundtrip : forall srt ignore_null only names h e buf1 buf2 next,
  event_ok only h e -> event_fits only h e -> usable buf1 -> usable buf2 ->
  0 < next -> mc_links_ok h (read_back only names e) ->
  ignore_null = true \/ subsets_ok h (event_tags only names h e) (read_back only names e) ->
  exists e' h' next', store_read srt ignore_null only names h e buf1 buf2 next = Ok (e', h', next') /\
    ev_par e' = ev_par e /\
    Forall2 (fun nc nc' => exists ty, get_handler (c_type (snd nc)) = Some ty /\
               c_par (snd nc') = stored_params ty h (snd nc) /\
               same_params_but (own_keys ty) (c_par (snd nc)) (c_par (snd nc'))) (read_back only names e) (ev_cols e').
Proof. exact params_read. Qed.
Print Assumptions C07_parameters_roundtrip.

(** every theorem of this file can be used with this event: three particles, a hit with two
    contributions, two generic objects, a subset collection, a transient collection, and
    parameters *)
Example C07_case : event_ok [] ex_heap ex_event /\ event_fits [] ex_heap ex_event /\ usable ex_buf /\
  mc_links_ok ex_heap (read_back [] [] ex_event) /\
  subsets_ok ex_heap (event_tags [] [] ex_heap ex_event) (read_back [] [] ex_event) /\
  pids_ordered ex_heap (read_back [] [] ex_event) /\
  (exists new, numbers new (event_objs [] [] ex_heap ex_event) 1000).
Proof.
  exact (conj (proj1 ex_event_ok) (conj (proj2 ex_event_ok) (conj ex_usable (conj (proj1 ex_links_ok) (conj (proj2 ex_links_ok)
    (conj ex_pids_ordered (numbering_exists _ 1000 (proj2 (proj2 (proj2 (proj2 (proj2 (proj2 (proj2 (proj2 (proj1 ex_event_ok)))))))))))))))).
Qed.

(** ** C09: event headers *)

Theorem C09_event_header_roundtrip : forall buf only names h e, usable buf -> event_ok only h e ->
  record_size header_record [mkWB header_block cur_vers (write_evhdr only e)] < two32 ->
  exists ri buf' e', write_header_record buf only e = Ok (ri, buf') /\ ri_name ri = header_record /\
    read_header_record names (rec_data ri (b_bytes buf')) = Ok e' /\ same_header e e' /\
    map (fun nc => (fst nc, c_type (snd nc))) (ev_cols e') = map (fun nc => (fst nc, c_type (snd nc))) (read_back only names e).
Proof. exact header_read. Qed.
Print Assumptions C09_event_header_roundtrip.

Example C09_case : event_ok [] ex_heap ex_event /\
  record_size header_record [mkWB header_block cur_vers (write_evhdr [] ex_event)] < two32 /\
  map fst (read_back [] [] ex_event) = [str "Gen"; str "Hits"; str "Sel"; str "Usr"].
Proof. exact (conj (proj1 ex_event_ok) (conj (proj1 (proj2 ex_event_ok)) eq_refl)). Qed.

(** ** C11: whole events.

    [new] is the address of the copy of each object.  A reference of an object (or an entry of a
    subset collection) is replaced by the address of the copy if its target is stored and can be
    pointed at, otherwise by null.  [stored] gives the attributes that are stored under the flag
    word of the collection (C10), [more] adds the daughters that are not stored but rebuilt
    (C31).  The particle ids are read back in the order of their likelihoods; the likelihoods of
    each object are assumed to be ordered (for any order see C10). *)

Theorem C11_event_roundtrip : forall srt ignore_null only names h e buf1 buf2 new next,
  sort_ok srt -> pids_ordered h (read_back only names e) ->
  event_ok only h e -> event_fits only h e -> usable buf1 -> usable buf2 ->
  0 < next -> numbers new (event_objs only names h e) next -> mc_links_ok h (read_back only names e) ->
  ignore_null = true \/ subsets_ok h (event_tags only names h e) (read_back only names e) ->
  let cols := read_back only names e in
  let tgt := target new (event_tags only names h e) in
  exists e' h', store_read srt ignore_null only names h e buf1 buf2 next = Ok (e', h', next + Zlen (event_objs only names h e)) /\
    same_header e e' /\
    Forall2 (coll_as h (fun sub => if sub then tgt else new)) cols (ev_cols e') /\
    forall nc ty a o, In nc cols -> is_subset (snd nc) = false -> get_handler (c_type (snd nc)) = Some ty ->
      In a (c_elems (snd nc)) -> h a = Some o ->
      h' (new a) = Some (more (map new (daughters_of h cols a)) (copy_of new tgt h ty (snd nc) o)).
Proof. exact store_read_ordered. Qed.
Print Assumptions C11_event_roundtrip.

Example C11_case : sort_ok isort /\
  event_objs [] [] ex_heap ex_event = [1; 2; 3; 10; 20; 21] /\ event_tags [] [] ex_heap ex_event = [1; 2; 3; 10; 20; 21] /\
  exists e' h', store_read isort false [] [] ex_heap ex_event ex_buf ex_buf 1000 = Ok (e', h', 1006) /\
    map (fun nc => c_elems (snd nc)) (ev_cols e') = [[1000; 1001; 1002]; [1003]; [1002; 1000]; [1004; 1005]] /\
    match h' 1003 with Some (OSCH x) => map co_part (sc_cont x) = [1001; 1002] | _ => False end.
Proof. split; [exact isort_ok|]. split; [reflexivity|]. split; [reflexivity|]. vm_compute. do 2 eexists. repeat split. Qed.

(** two states of a track at the same location: the event is written, but cannot be read *)
Theorem C11_duplicate_track_state_refuted : exists h e buf,
  (exists r, write_event_record buf [] h e = Ok r) /\ store_read isort false [] [] h e buf buf 100 = Throw EIoFailure.
Proof. exists twice_heap, twice_event, ex_buf. vm_compute. split; [eexists; reflexivity|reflexivity]. Qed.

(** a hit without weight in a cluster: undefined behaviour on writing *)
Theorem C11_cluster_weights_refuted : exists h e buf, write_event_record buf [] h e = UB UBOutOfBounds.
Proof. exists weight_heap, weight_event, ex_buf. vm_compute. reflexivity. Qed.

(** a null entry in a subset of vertices: undefined behaviour on writing *)
Theorem C11_null_vertex_refuted : exists h e buf, write_event_record buf [] h e = UB UBNullDeref.
Proof. exists ex_heap, nullvx_event, ex_buf. vm_compute. reflexivity. Qed.

(** the type name of a collection and the class of its elements: a collection is written and read
    with the handler of a class exactly if its type is the name of that class *)
Theorem C11_type_names : forall n o, get_handler n = Some (type_of o) <-> n = class_name o.
Proof.
  intros n o. split; intros H.
  - unfold get_handler in H. destruct (find _ registry) as [p|] eqn:E; [|discriminate].
    apply find_some in E. destruct E as [Hin Heq]. apply bytes_eqb_eq in Heq. subst n.
    assert (H' : snd p = type_of o) by congruence. clear H.
    unfold registry in Hin. cbn [In] in Hin.
    repeat (destruct Hin as [Hin|Hin]; [subst p; cbn [fst snd] in *; destruct o; try discriminate; reflexivity|]).
    destruct Hin.
  - subst n. destruct o; vm_compute; reflexivity.
Qed.
Print Assumptions C11_type_names.

Example C11_type_names_case :
  get_handler (str "LCIntVec") = Some (type_of (OINT [1; 2])) /\ get_handler (str "LCFloatVec") = Some (type_of (OFLT [3])) /\
  get_handler (str "TrackState") = None.
Proof. vm_compute. auto. Qed.

(** ** C10: attributes *)

Theorem C10_attributes : forall srt ignore_null only names h e buf1 buf2 new next,
  event_ok only h e -> event_fits only h e -> usable buf1 -> usable buf2 ->
  0 < next -> numbers new (event_objs only names h e) next -> mc_links_ok h (read_back only names e) ->
  ignore_null = true \/ subsets_ok h (event_tags only names h e) (read_back only names e) ->
  let cols := read_back only names e in
  let tgt := target new (event_tags only names h e) in
  exists e' h', store_read srt ignore_null only names h e buf1 buf2 next = Ok (e', h', next + Zlen (event_objs only names h e)) /\
    same_header e e' /\
    Forall2 (coll_as h (fun sub => if sub then tgt else new)) cols (ev_cols e') /\
    forall nc a o, In nc cols -> is_subset (snd nc) = false -> In a (c_elems (snd nc)) -> h a = Some o ->
      h' (new a) = option_map (more (map new (daughters_of h cols a))) (copy_in srt new tgt h (snd nc) o).
Proof. exact store_read_spec. Qed.
Print Assumptions C10_attributes.

(** with all attributes selected by the flag word nothing is lost *)
Theorem C10_all_attributes : forall flag fixed o,
  (forall n, 26 <= n <= 31 -> Z.testbit flag n = true) -> exactly_storable fixed o -> stored flag fixed o = o.
Proof. exact stored_complete. Qed.
Print Assumptions C10_all_attributes.

(** particle ids in any order: the ones stored, by descending likelihood *)
Theorem C10_particle_ids_sorted : forall srt A (key : A -> Z) l, sort_ok srt -> Forall (fun x => f_nan (key x) = false) l ->
  Permutation (add_pids srt key l) l /\ StronglySorted (fun x y => f_gt (key y) (key x) = false) (add_pids srt key l).
Proof. exact @add_pids_sorted. Qed.
Print Assumptions C10_particle_ids_sorted.

Example C10_case : exactly_storable false (OMC (ex_mc [1; 2])) /\
  stored (2 ^ 29) false (OCH (mkCH 1 2 3 4 5 [6; 7; 8] 9 10)) = OCH (mkCH 1 2 3 0 0 [0; 0; 0] 9 10) /\
  (add_pids isort (fun x => x) [1065353216; 1073741824; 0]) = [1073741824; 1065353216; 0].
Proof. exact ex_attributes. Qed.

(** ** C12: subset collections *)

Theorem C12_subset_references : forall srt only names h e buf1 buf2 new next,
  event_ok only h e -> event_fits only h e -> usable buf1 -> usable buf2 ->
  0 < next -> numbers new (event_objs only names h e) next -> mc_links_ok h (read_back only names e) ->
  let cols := read_back only names e in
  let tags := event_tags only names h e in
  exists e' h' n', store_read srt true only names h e buf1 buf2 next = Ok (e', h', n') /\
    forall n c, In (n, c) cols -> is_subset c = true ->
      exists c', In (n, c') (ev_cols e') /\ Z.testbit (c_flag c') 18 = true /\ Zlen (c_elems c') = Zlen (c_elems c) /\
        forall i a, nth_error (c_elems c) i = Some a ->
          nth_error (c_elems c') i = Some (if existsb (Z.eqb a) tags && negb (a =? 0) then new a else 0).
Proof. exact subset_read. Qed.
Print Assumptions C12_subset_references.

(** without LCIO_IGNORE_NULL_IN_SUBSET_COLLECTIONS an entry whose target is not stored makes the
    event unreadable *)
Theorem C12_missing_target_throws : forall srt only names h e buf1 buf2 next n c a,
  event_ok only h e -> event_fits only h e -> usable buf1 -> usable buf2 ->
  0 < next -> mc_links_ok h (read_back only names e) ->
  In (n, c) (read_back only names e) -> is_subset c = true -> In a (c_elems c) -> ~ In a (event_tags only names h e) ->
  store_read srt false only names h e buf1 buf2 next = Throw LException.
Proof. exact subset_missing. Qed.
Print Assumptions C12_missing_target_throws.

Example C12_case :
  In (str "Sel", ex_sel) (read_back [] [] ex_event) /\ is_subset ex_sel = true /\
  store_read isort false [] [str "Sel"] ex_heap ex_event ex_buf ex_buf 1000 = Throw LException /\
  exists e' h' n', store_read isort true [] [str "Sel"] ex_heap ex_event ex_buf ex_buf 1000 = Ok (e', h', n') /\
    map (fun nc => c_elems (snd nc)) (ev_cols e') = [[0; 0]].
Proof. split; [vm_compute; tauto|]. split; [reflexivity|]. split; [vm_compute; reflexivity|]. vm_compute. do 3 eexists. split; reflexivity. Qed.

(** ** C31: daughters *)

Theorem C31_daughters_rebuilt : forall srt ignore_null only names h e buf1 buf2 new next,
  event_ok only h e -> event_fits only h e -> usable buf1 -> usable buf2 ->
  0 < next -> numbers new (event_objs only names h e) next -> mc_links_ok h (read_back only names e) ->
  ignore_null = true \/ subsets_ok h (event_tags only names h e) (read_back only names e) ->
  exists e' h' n', store_read srt ignore_null only names h e buf1 buf2 next = Ok (e', h', n') /\
    forall p, In p (mcs (read_back only names e)) ->
    exists m, h' (new p) = Some (OMC m) /\ mc_parents m = map new (parents h p) /\
      (forall d, In d (mcs (read_back only names e)) ->
         count_occ Z.eq_dec (mc_daughters m) (new d) = count_occ Z.eq_dec (parents h d) p) /\
      (forall x, In x (mc_daughters m) -> exists d, In d (mcs (read_back only names e)) /\ x = new d /\ In p (parents h d)).
Proof. exact daughters_read. Qed.
Print Assumptions C31_daughters_rebuilt.

Example C31_case : mcs (read_back [] [] ex_event) = [1; 2; 3] /\ parents ex_heap 3 = [1; 2] /\
  exists e' h' n', store_read isort false [] [] ex_heap ex_event ex_buf ex_buf 1000 = Ok (e', h', n') /\
    match h' 1000 with Some (OMC m) => mc_daughters m = [1001; 1002] | _ => False end.
Proof. split; [reflexivity|]. split; [reflexivity|]. vm_compute. do 3 eexists. split; reflexivity. Qed.

(** a parent in a later collection: the particles of that collection lose their daughters *)
Theorem C31_parent_in_later_collection_refuted : exists h e buf e' h' n' m,
  store_read isort false [] [] h e buf buf 100 = Ok (e', h', n') /\
  parents h 3 = [2] /\ map (fun nc => c_elems (snd nc)) (ev_cols e') = [[100]; [101; 102]] /\
  h' 101 = Some (OMC m) /\ ~ In 102 (mc_daughters m).
Proof.
  exists late_heap, late_event, ex_buf. vm_compute. do 4 eexists. split; [reflexivity|]. split; [reflexivity|]. split; [reflexivity|].
  split; [reflexivity|]. intros [H|[]]. discriminate H.
Qed.

(** ** C38: generic objects *)

Theorem C38_generic_objects_roundtrip : forall srt ignore_null only names h e buf1 buf2 new next n c,
  event_ok only h e -> event_fits only h e -> usable buf1 -> usable buf2 ->
  0 < next -> numbers new (event_objs only names h e) next -> mc_links_ok h (read_back only names e) ->
  ignore_null = true \/ subsets_ok h (event_tags only names h e) (read_back only names e) ->
  In (n, c) (read_back only names e) -> c_type c = str "LCGenericObject" -> is_subset c = false ->
  exists e' h' n' c', store_read srt ignore_null only names h e buf1 buf2 next = Ok (e', h', n') /\
    In (n, c') (ev_cols e') /\ Zlen (c_elems c') = Zlen (c_elems c) /\
    forall i a, nth_error (c_elems c) i = Some a -> exists o a' o', h a = Some (OGO o) /\
      nth_error (c_elems c') i = Some a' /\ h' a' = Some (OGO o') /\
      go_int o' = go_int o /\ go_flt o' = go_flt o /\ go_dbl o' = go_dbl o /\
      (go_fixed o' = true <-> forall b x, In b (c_elems c) -> h b = Some (OGO x) -> go_fixed x = true).
Proof. exact generic_read. Qed.
Print Assumptions C38_generic_objects_roundtrip.

Example C38_case : In (str "Usr", ex_usr) (read_back [] [] ex_event) /\ c_type ex_usr = str "LCGenericObject" /\ is_subset ex_usr = false.
Proof. split; [vm_compute; tauto|]. split; reflexivity. Qed.

(** the FIXED bit is never unset: with a flag word kept from a collection of fixed size objects,
    objects of varying size are lost *)
Theorem C38_stale_fixed_bit_refuted : exists h e buf e' h' n',
  map (fun nc => c_elems (snd nc)) (ev_cols e) = [[1]] /\
  store_read isort false [] [] h e buf buf 100 = Ok (e', h', n') /\ map (fun nc => c_elems (snd nc)) (ev_cols e') = [[]].
Proof. exists stale_heap, stale_event, ex_buf. vm_compute. do 3 eexists. split; [reflexivity|]. split; reflexivity. Qed.

(** fixed size objects of different sizes: undefined behaviour on writing *)
Theorem C38_different_fixed_sizes_refuted : exists h e buf, write_event_record buf [] h e = UB UBOutOfBounds.
Proof. exists sizes_heap, sizes_event, ex_buf. vm_compute. reflexivity. Qed.

(** ** C42: selective reading.

    C11 with the collections in [names]: only the references into collections that are not read
    differ ([event_tags only names] against [event_tags only []]).  *)

Theorem C42_selective_reading : forall srt only names h e buf1 buf2 new new' next,
  sort_ok srt -> pids_ordered h (read_back only [] e) -> event_ok only h e -> event_fits only h e -> usable buf1 -> usable buf2 ->
  0 < next -> mc_links_ok h (read_back only [] e) -> mc_links_ok h (read_back only names e) ->
  numbers new (event_objs only [] h e) next -> numbers new' (event_objs only names h e) next ->
  exists ea ha na eb hb nb,
    store_read srt true only [] h e buf1 buf2 next = Ok (ea, ha, na) /\
    store_read srt true only names h e buf1 buf2 next = Ok (eb, hb, nb) /\
    same_header ea eb /\
    Forall2 (fun ca cb => fst cb = fst ca /\ c_type (snd cb) = c_type (snd ca) /\ c_flag (snd cb) = c_flag (snd ca) /\
               c_par (snd cb) = c_par (snd ca) /\
               Zlen (c_elems (snd cb)) = Zlen (c_elems (snd ca)))
            (filter (fun nc => wanted names (fst nc)) (ev_cols ea)) (ev_cols eb) /\
    forall nc ty a o, In nc (read_back only names e) -> is_subset (snd nc) = false ->
      get_handler (c_type (snd nc)) = Some ty -> In a (c_elems (snd nc)) -> h a = Some o ->
      let s := stored (stored_flag ty h (snd nc)) (stores_fixed ty h (snd nc)) o in
      ha (new a) = Some (more (map new (daughters_of h (read_back only [] e) a))
                     (map_refs (target new (event_tags only [] h e)) (map_owned new s))) /\
      hb (new' a) = Some (more (map new' (daughters_of h (read_back only names e) a))
                     (map_refs (target new' (event_tags only names h e)) (map_owned new' s))).
Proof. exact selective_read. Qed.
Print Assumptions C42_selective_reading.

Example C42_case : mc_links_ok ex_heap (read_back [] [str "Hits"; str "Usr"] ex_event) /\
  map fst (read_back [] [str "Hits"; str "Usr"] ex_event) = [str "Hits"; str "Usr"] /\
  exists e' h' n', store_read isort false [] [str "Hits"; str "Usr"] ex_heap ex_event ex_buf ex_buf 1000 = Ok (e', h', n') /\
    match h' 1000 with Some (OSCH x) => map co_part (sc_cont x) = [0; 0] | _ => False end.
Proof. split; [exact (proj1 ex_selected)|]. split; [reflexivity|]. vm_compute. do 3 eexists. split; reflexivity. Qed.

(** particles whose parents are in a collection that is not read: undefined behaviour *)
Theorem C42_unread_parents_refuted : exists h e buf names,
  (exists r, store_read isort false [] [] h e buf buf 100 = Ok r) /\
  store_read isort false [] names h e buf buf 100 = UB UBNullDeref.
Proof. exists late_heap, late_event, ex_buf, [str "A"]. vm_compute. split; [eexists; reflexivity|reflexivity]. Qed.
