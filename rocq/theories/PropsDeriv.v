(** * C71: endpoints, end vertices and closest track states *)
From Coq Require Import ZArith List Bool Lia.
From Verif Require Import Bytes StrMap Ieee SioModel SioSpec ObjModel ObjSpec ImplModel AttrModel EventModel CollSpec EventSpec EventFacts EventExamples
  DerivModel DerivSpec DerivProofs.
Import ListNotations.
Open Scope Z_scope.

(** getEndpoint gives the endpoint that was set, else the vertex of the first daughter whose vertex is the endpoint. *)
Theorem C71_endpoint h m v : get_endpoint h m = Ok v <-> endpoint_is h m v.
Proof. exact (endpoint_iff h m v). Qed.
Print Assumptions C71_endpoint.
(** It is defined if all daughters are particles that exist. *)
Theorem C71_endpoint_defined h m : (forall d, In d (mc_daughters m) -> exists md, h d = Some (OMC md)) -> exists v, endpoint_is h m v.
Proof. intros H. destruct (endpoint_total h m H) as [v E]. exists v. apply endpoint_iff. exact E. Qed.
Print Assumptions C71_endpoint_defined.
Definition mother (sim : Z) (ds : list addr) : mcp := mkMC [] 11 1 sim [0; 0; 0] 0 [0; 0; 0] 0 0 [0; 0; 0] [0; 0; 0] [0; 0; 0] [0; 0] ds.
Definition child (sim x : Z) : mcp := mkMC [1] 11 1 sim [x; 0; 0] 0 [0; 0; 0] 0 0 [0; 0; 0] [0; 0; 0] [0; 0; 0] [0; 0] [].
Definition family : heap := heap_of [(1, OMC (mother 0 [3; 2])); (2, OMC (child 0 5)); (3, OMC (child (2 ^ 28) 6)); (4, OMC (child 0 7))].
Example C71_endpoint_case : get_endpoint family (mother 0 [3; 2; 4]) = Ok [5; 0; 0] /\ get_endpoint family (mother 0 [3]) = Ok [0; 0; 0] /\
  get_endpoint family (mother (- 2 ^ 31) [2]) = Ok [0; 0; 0] /\ get_endpoint family (mother 0 [9]) = UB UBNullDeref.
Proof. repeat split; reflexivity. Qed.

(** A particle whose endpoint was not set has none of its own: (0,0,0), as long as the status word is not overwritten. *)
Theorem C71_unset_partial fadd srt cs : Forall no_status cs -> exists m, obj_run fadd srt (new_obj TMC) cs = OMC m /\
  (~ endpoint_set m -> mc_endpoint m = [0; 0; 0]).
Proof.
  intros F. destruct (run_zero fadd srt cs _ F (or_intror eq_refl : zero_unless_set (mkMC [] 0 0 0 zeros3 0 zeros3 0 0 zeros3 zeros3 zeros3 [0; 0] [])))
    as (m & E & Z). exists m. split; [exact E|]. intros N. destruct Z as [Z|Z]; [exfalso; exact (N Z)|exact Z].
Qed.
Print Assumptions C71_unset_partial.
Example C71_unset_case fadd srt : let cs := [(false, EMC (MC_setEndpoint [1; 2; 3])); (true, EMC (MC_setEndpoint [4; 5; 6])); (false, EMC (MC_setStopped true))] in
  Forall no_status cs /\ exists m, obj_run fadd srt (new_obj TMC) cs = OMC m /\ endpoint_set m /\ get_endpoint family m = Ok [1; 2; 3].
Proof. split; [repeat constructor|]. eexists. split; [reflexivity|]. split; reflexivity. Qed.
(** setSimulatorStatus clears the mark: then getEndpoint gives (1,2,3) without daughters, not (0,0,0), and with a daughter
    no longer the endpoint that was set. *)
Theorem C71_status_refuted : exists cs m, (forall fadd srt, obj_run fadd srt (new_obj TMC) cs = OMC m) /\
  ~ endpoint_set m /\ get_endpoint family m = Ok [1; 2; 3].
Proof.
  exists [(false, EMC (MC_setEndpoint [1; 2; 3])); (false, EMC (MC_setSimulatorStatus 0))]. eexists. split; [intros; reflexivity|].
  split; [discriminate|reflexivity].
Qed.
Print Assumptions C71_status_refuted.

(** getEndVertex gives the start vertex of the first of the particles, and NULL if there is none. *)
Theorem C71_end_vertex h o v : get_end_vertex h o = Ok v <->
  (rp_parts o = [] /\ v = 0) \/ (exists p r q, rp_parts o = p :: r /\ h p = Some (ORP q) /\ v = rp_sv q).
Proof.
  unfold get_end_vertex. split.
  - destruct (rp_parts o) as [|p r]; [intros H; injection H as <-; auto|].
    destruct (h p) as [[]|] eqn:E; intros H; try discriminate H. injection H as <-. right. exists p, r, o0. auto.
  - intros [[-> ->]|(p & r & q & -> & -> & ->)]; reflexivity.
Qed.
Print Assumptions C71_end_vertex.
Definition rp (parts : list addr) (sv : addr) : recp := mkRP 0 [0; 0; 0] 0 (repeat 0 10) 0 0 [0; 0; 0] [] 0 0 parts [] [] sv.
Example C71_end_vertex_case : get_end_vertex (heap_of [(2, ORP (rp [] 7)); (3, ORP (rp [] 8))]) (rp [3; 2] 1) = Ok 8.
Proof. reflexivity. Qed.

(** After writing an event and reading it the endpoint of every particle is the same, if its daughters are in the order of
    the collections and its own endpoint is zero unless marked as set. *)
Theorem C71_endpoint_stored_partial srt ignore_null only names h e buf1 buf2 new next :
  event_ok only h e -> event_fits only h e -> usable buf1 -> usable buf2 ->
  0 < next -> numbers new (event_objs only names h e) next -> mc_links_ok h (read_back only names e) ->
  ignore_null = true \/ subsets_ok h (event_tags only names h e) (read_back only names e) ->
  let cols := read_back only names e in
  exists e' h', store_read srt ignore_null only names h e buf1 buf2 next = Ok (e', h', next + Zlen (event_objs only names h e)) /\
    forall nc a m, In nc cols -> is_mc (snd nc) = true -> In a (c_elems (snd nc)) -> h a = Some (OMC m) ->
      mc_daughters m = daughters_of h cols a -> endpoint_set m \/ mc_endpoint m = [0; 0; 0] ->
      exists m', h' (new a) = Some (OMC m') /\ mc_daughters m' = map new (mc_daughters m) /\ get_endpoint h' m' = get_endpoint h m.
Proof. exact (stored_endpoint srt ignore_null only names h e buf1 buf2 new next). Qed.
Print Assumptions C71_endpoint_stored_partial.
(** an event with a mother and two daughters meets the hypotheses; the endpoint is that of the first daughter *)
Definition fam_gen : coll := mkColl (str "MCParticle") 0 no_params [1; 2; 4].
Definition fam_heap : heap := heap_of [(1, OMC (mother 0 [2; 4])); (2, OMC (child (2 ^ 28) 5)); (4, OMC (child 0 7))].
Definition fam_event : event := mkEvt 1 1 0 (str "D") no_params [(str "Gen", fam_gen)].
Example C71_endpoint_stored_event : event_ok [] fam_heap fam_event /\ event_fits [] fam_heap fam_event /\
  mc_links_ok fam_heap (read_back [] [] fam_event) /\ subsets_ok fam_heap (event_tags [] [] fam_heap fam_event) (read_back [] [] fam_event).
Proof.
  assert (P : params_ok no_params) by apply ex_coll_params.
  split; [|split; [|split]].
  - split; [unfold int32; cbn; lia|]. split; [unfold int32; cbn; lia|]. split; [unfold int64; cbn; lia|].
    split; [vm_compute; reflexivity|]. split; [exact P|]. split; [unfold sm_ok; cbn [sm_keys map fst fam_event ev_cols]; conc|].
    split; [vm_compute; reflexivity|]. split.
    + change (stored_cols [] fam_event) with [(str "Gen", fam_gen)]. apply Forall_cons; [|apply Forall_nil]. cbn [fst snd].
      split; [names|]. split; [vm_compute; reflexivity|]. exists TMC. split; [reflexivity|].
      split; [unfold word32; cbn; lia|]. split; [exact P|]. split; [vm_compute; reflexivity|]. split; [vm_compute; reflexivity|].
      split; [|split; discriminate]. intros _. split.
      * intros a Ha. cbn [c_elems fam_gen] in Ha. elim_in; (split; [lia|eexists; split; reflexivity]).
      * intros a o Ha Ho. cbn [c_elems fam_gen] in Ha. elim_in; injection Ho as <-; unfold elem_ok, obj_ok, mother, child; conc.
    + vm_compute. repeat constructor; cbn; intuition discriminate.
  - split; [vm_compute; reflexivity|]. intros bs cols H.
    assert (E : event_blocks [] fam_heap (ev_cols fam_event) = event_blocks [] fam_heap (ev_cols fam_event)) by reflexivity.
    rewrite H in E at 1. vm_compute in E. injection E as -> _. vm_compute. reflexivity.
  - intros pre nc post a p E M Ha Hp. change (read_back [] [] fam_event) with [(str "Gen", fam_gen)] in E.
    destruct pre as [|x pre]; [|destruct pre; discriminate E]. injection E as <- <-. exists (str "Gen", fam_gen).
    split; [left; reflexivity|]. split; [reflexivity|]. cbn [snd c_elems fam_gen] in Ha. elim_in; cbn in Hp; try (destruct Hp; fail); destruct Hp as [<-|[]]; left; reflexivity.
  - intros nc a Hn Hs. change (read_back [] [] fam_event) with [(str "Gen", fam_gen)] in Hn. destruct Hn as [<-|[]]. discriminate Hs.
Qed.
Example C71_endpoint_stored_case : In (str "Gen", fam_gen) (read_back [] [] fam_event) /\ is_mc fam_gen = true /\ In 1 (c_elems fam_gen) /\
  fam_heap 1 = Some (OMC (mother 0 [2; 4])) /\ [2; 4] = daughters_of fam_heap (read_back [] [] fam_event) 1 /\
  get_endpoint fam_heap (mother 0 [2; 4]) = Ok [7; 0; 0].
Proof. split; [left; reflexivity|]. split; [reflexivity|]. split; [left; reflexivity|]. split; [reflexivity|]. split; reflexivity. Qed.

(** The daughters are not stored but found again in the order of the collection: a particle whose first daughter was added
    later in the collection has another endpoint after reading. *)
Definition order_gen : coll := mkColl (str "MCParticle") 0 no_params [1; 2; 4].
Definition order_heap : heap := heap_of [(1, OMC (mother 0 [4; 2])); (2, OMC (child 0 5)); (4, OMC (child 0 7))].
Definition order_event : event := mkEvt 1 1 0 (str "D") no_params [(str "Gen", order_gen)].
Theorem C71_daughter_order_refuted : exists h e m, h 1 = Some (OMC m) /\ get_endpoint h m = Ok [7; 0; 0] /\
  exists e' h' n m', store_read isort false [] [] h e ex_buf ex_buf 100 = Ok (e', h', n) /\ h' 100 = Some (OMC m') /\ get_endpoint h' m' = Ok [5; 0; 0].
Proof.
  exists order_heap, order_event, (mother 0 [4; 2]). split; [reflexivity|]. split; [reflexivity|].
  destruct (store_read isort false [] [] order_heap order_event ex_buf ex_buf 100) as [[[e' h'] n]| |] eqn:E; revert E; vm_compute; intros E; try discriminate E.
  injection E as <- <- <-. eexists. eexists. eexists. eexists. split; [reflexivity|]. split; reflexivity.
Qed.
Print Assumptions C71_daughter_order_refuted.

(** The end vertex of every reconstructed particle is the same after reading (NULL if that vertex was not stored). *)
Theorem C71_end_vertex_stored srt ignore_null only names h e buf1 buf2 new next :
  event_ok only h e -> event_fits only h e -> usable buf1 -> usable buf2 ->
  0 < next -> numbers new (event_objs only names h e) next -> mc_links_ok h (read_back only names e) ->
  ignore_null = true \/ subsets_ok h (event_tags only names h e) (read_back only names e) ->
  let cols := read_back only names e in
  let tgt := target new (event_tags only names h e) in
  let is_rp nc := In nc cols /\ c_type (snd nc) = str "ReconstructedParticle" /\ is_subset (snd nc) = false in
  exists e' h', store_read srt ignore_null only names h e buf1 buf2 next = Ok (e', h', next + Zlen (event_objs only names h e)) /\
    forall nc a o, is_rp nc -> In a (c_elems (snd nc)) -> h a = Some (ORP o) ->
      exists o', h' (new a) = Some (ORP o') /\
        (rp_parts o = [] -> get_end_vertex h' o' = Ok 0) /\
        (forall p r nc' q, rp_parts o = p :: r -> p <> 0 -> is_rp nc' -> In p (c_elems (snd nc')) -> h p = Some (ORP q) ->
           get_end_vertex h o = Ok (rp_sv q) /\ get_end_vertex h' o' = Ok (tgt (rp_sv q))).
Proof. exact (stored_end_vertex srt ignore_null only names h e buf1 buf2 new next). Qed.
Print Assumptions C71_end_vertex_stored.
Definition rp_heap : heap := heap_of [(1, ORP (rp [2] 0)); (2, ORP (rp [] 3)); (3, OVX (mkVX 0 (str "Unknown") 0 0 [0; 0; 0] (repeat 0 6) [] 1))].
Definition rp_event : event := mkEvt 1 1 0 (str "D") no_params
  [(str "P", mkColl (str "ReconstructedParticle") 0 no_params [1; 2]); (str "V", mkColl (str "Vertex") 0 no_params [3])].
Example C71_end_vertex_stored_case : get_end_vertex rp_heap (rp [2] 0) = Ok 3 /\
  exists e' h' n o', store_read isort false [] [] rp_heap rp_event ex_buf ex_buf 100 = Ok (e', h', n) /\ h' 100 = Some (ORP o') /\
    get_end_vertex h' o' = Ok 102.
Proof.
  split; [reflexivity|].
  destruct (store_read isort false [] [] rp_heap rp_event ex_buf ex_buf 100) as [[[e' h'] n]| |] eqn:E; revert E; vm_compute; intros E; try discriminate E.
  injection E as <- <- <-. eexists. eexists. eexists. eexists. split; [reflexivity|]. split; reflexivity.
Qed.

(** getClosestTrackState gives the first of the states with the smallest distance, if there is a state and no distance is NaN. *)
Theorem C71_closest dist l : l <> [] -> (forall s, In s l -> f_nan (dist s) = false) ->
  exists i, get_closest dist l = Ok i /\ first_closest dist l i.
Proof. exact (closest_ok dist l). Qed.
Print Assumptions C71_closest.
Definition at_d (d : Z) : tstate := mkTS 0 d 0 0 0 0 (repeat 0 15) [0; 0; 0].
(** distances 4.0, 1.0, 2.0, 1.0 *)
Example C71_closest_case : (forall s, In s [at_d 1082130432; at_d 1065353216; at_d 1073741824; at_d 1065353216] -> f_nan (ts_d0 s) = false) /\
  get_closest ts_d0 [at_d 1082130432; at_d 1065353216; at_d 1073741824; at_d 1065353216] = Ok 1%nat.
Proof. split; [|reflexivity]. intros s H. repeat destruct H as [<-|H]; try reflexivity. destruct H. Qed.
(** Without states it reads beyond the vector; with a distance that is not a number the closest is not found. *)
Theorem C71_closest_refuted : (forall dist, get_closest dist [] = UB UBOutOfBounds) /\
  exists dist l, get_closest dist l = Ok 0%nat /\ (exists t, nth_error l 0 = Some t /\ f_nan (dist t) = true) /\
    (exists t, nth_error l 1 = Some t /\ dist t = 1065353216).
Proof.
  split; [reflexivity|]. exists ts_d0, [at_d 2143289344; at_d 1065353216]. split; [reflexivity|].
  split; eexists; split; reflexivity.
Qed.
Print Assumptions C71_closest_refuted.

(** A particle id has the values that were set last while it could be modified, and all parameters that were added. *)
Theorem C71_particle_id cs : pi_type (pid_run new_pid cs) = last_val pid_type 0 cs /\ pi_pdg (pid_run new_pid cs) = last_val pid_pdg 0 cs /\
  pi_like (pid_run new_pid cs) = last_val pid_like 0 cs /\ pi_alg (pid_run new_pid cs) = last_val pid_alg 0 cs /\
  pi_par (pid_run new_pid cs) = pid_added cs.
Proof. exact (pid_ok cs). Qed.
Print Assumptions C71_particle_id.
Example C71_particle_id_case : pid_run new_pid [(false, PID_setPDG 11); (false, PID_addParameter 5); (true, PID_setPDG 13); (false, PID_addParameter 6)]
  = mkPID 0 0 11 0 [5; 6].
Proof. reflexivity. Qed.
(** A track state likewise. *)
Theorem C71_track_state cs : Forall ts_arg_ok cs -> let o := ts_run new_tstate cs in
  ts_loc o = last_val ts_loc_of 0 cs /\ ts_d0 o = last_val ts_d0_of 0 cs /\ ts_phi o = last_val ts_phi_of 0 cs /\
  ts_omega o = last_val ts_omega_of 0 cs /\ ts_z0 o = last_val ts_z0_of 0 cs /\ ts_tanl o = last_val ts_tanl_of 0 cs /\
  ts_cov o = last_val ts_cov_of (repeat 0 15) cs /\ ts_ref o = last_val ts_ref_of [0; 0; 0] cs.
Proof. exact (ts_ok cs). Qed.
Print Assumptions C71_track_state.
Example C71_track_state_case : let cs := [(false, TS_setReferencePoint [1; 2; 3; 4]); (true, TS_setZ0 9); (false, TS_setZ0 8)] in
  Forall ts_arg_ok cs /\ ts_run new_tstate cs = mkTS 0 0 0 0 8 0 (repeat 0 15) [1; 2; 3].
Proof. split; [repeat constructor|reflexivity]. Qed.
