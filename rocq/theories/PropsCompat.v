(** * Records of earlier versions: C76 *)

From Verif Require Import Bytes StrMap SioModel SioSpec Ieee ObjModel ObjSpec CollSpec EventModel EventSpec EventFacts EventExamples
  PostProofs LayoutSpec LayoutProofs CompatSpec CompatProofs CompatObjs CompatColl CompatFile.

(** ** C76: records of earlier versions are read, fields that did not exist get their defaults

    The layouts [old_run_data], [old_header_data] and [old_event_data] leave out the fields that
    came in later than the version [v]; [seen_run], [seen_header] and [old_copy] say what is read. *)

(** run headers *)
Theorem C76_run_header : forall v r bs, version_ok v -> accepted v -> runhdr_ok r -> fits (old_run_data v r) ->
  laid_out (old_run_data v r) bs -> read_run_record bs = Ok (seen_run v r).
Proof. exact old_run. Qed.
Print Assumptions C76_run_header.

(** event headers *)
Theorem C76_event_header : forall v only names h e bs, version_ok v -> accepted v -> event_ok only h e ->
  fits (old_header_data v only e) -> laid_out (old_header_data v only e) bs ->
  read_header_record names bs = Ok (seen_header v only names e).
Proof. exact old_header. Qed.
Print Assumptions C76_event_header.

(** events: after the header has been read, every collection and every object of the record is read;
    the references are those of the record *)
Theorem C76_event : forall srt v x h only names e bs new next, version_ok v -> event_ok only h e ->
  (forall nc ty, In nc (stored_cols only e) -> get_handler (c_type (snd nc)) = Some ty -> old_coll_ok v x ty h (snd nc)) ->
  fits (old_event_data v x h (stored_cols only e)) -> laid_out (old_event_data v x h (stored_cols only e)) bs ->
  numbers new (event_objs only names h e) next ->
  exists tgt e' h', refers_to v x h (read_back only names e) new tgt /\
    read_event_record srt bs (seen_header v only names e) next = Ok (e', h', next + Zlen (event_objs only names h e)) /\
    same_header (seen_header v only names e) e' /\
    Forall2 (old_as v h new tgt) (read_back only names e) (ev_cols e') /\
    (forall nc ty a o, In nc (read_back only names e) -> get_handler (c_type (snd nc)) = Some ty ->
       is_subset (snd nc) = false -> In a (c_elems (snd nc)) -> h a = Some o ->
       h' (new a) = Some (old_copy srt v new tgt (stored_flag ty h (snd nc)) (stores_fixed ty h (snd nc)) o)).
Proof. intros srt v x h only names e bs new next Hv. exact (old_event srt v Hv x h only names e bs new next). Qed.
Print Assumptions C76_event.

(** records of versions below 0.8 are refused *)
Theorem C76_rejected_versions : forall v r only names e bs1 bs2, version_ok v -> ~ accepted v ->
  fits (old_run_data v r) -> laid_out (old_run_data v r) bs1 ->
  fits (old_header_data v only e) -> laid_out (old_header_data v only e) bs2 ->
  read_run_record bs1 = Throw EIoFailure /\ read_header_record names bs2 = Throw EIoFailure.
Proof.
  intros v r only names e bs1 bs2 Hv Ha F1 L1 F2 L2.
  exact (conj (rejected_run v r bs1 Hv Ha F1 L1) (rejected_header v only names e bs2 Hv Ha F2 L2)).
Qed.
Print Assumptions C76_rejected_versions.

(** ** Cases *)

Lemma no_numbers fs : ids fs = [] -> numbering (fun _ => None) fs.
Proof.
  intros E. split; [|split].
  - intros a. split; [congruence|]. intros (_ & Hi & _). apply in_ids in Hi. rewrite E in Hi. destruct Hi.
  - discriminate.
  - congruence.
Qed.

Example C76_run_case : version_ok (1, 0) /\ accepted (1, 0) /\ runhdr_ok ex_run /\ fits (old_run_data (1, 0) ex_run) /\
  laid_out (old_run_data (1, 0) ex_run) (layout (fun _ => None) (old_run_data (1, 0) ex_run)) /\
  rh_par (seen_run (1, 0) ex_run) = no_params /\ rh_par (seen_run (1, 2) ex_run) = ex_par /\
  read_run_record (layout (fun _ => None) (old_run_data (1, 0) ex_run)) = Ok (seen_run (1, 0) ex_run).
Proof.
  split; [unfold version_ok; cbn; lia|]. split; [unfold accepted; cbn; lia|]. split; [exact (proj1 ex_run_ok)|].
  split; [vm_compute; reflexivity|]. split; [eexists; split; [apply no_numbers; vm_compute; reflexivity|reflexivity]|].
  split; [reflexivity|]. split; [reflexivity|]. vm_compute. reflexivity.
Qed.

Example C76_header_case : version_ok (0, 8) /\ accepted (0, 8) /\ event_ok [] ex_heap ex_event /\
  fits (old_header_data (0, 8) [] ex_event) /\ ids (old_header_data (0, 8) [] ex_event) = [] /\
  read_header_record [] (layout (fun _ => None) (old_header_data (0, 8) [] ex_event)) = Ok (seen_header (0, 8) [] [] ex_event).
Proof.
  split; [unfold version_ok; cbn; lia|]. split; [unfold accepted; cbn; lia|]. split; [exact (proj1 ex_event_ok)|].
  split; [vm_compute; reflexivity|]. split; vm_compute; reflexivity.
Qed.

Example C76_rejected_case : version_ok (0, 7) /\ ~ accepted (0, 7) /\ fits (old_run_data (0, 7) ex_run) /\
  laid_out (old_run_data (0, 7) ex_run) (layout (fun _ => None) (old_run_data (0, 7) ex_run)) /\
  fits (old_header_data (0, 7) [] ex_event) /\
  laid_out (old_header_data (0, 7) [] ex_event) (layout (fun _ => None) (old_header_data (0, 7) [] ex_event)).
Proof.
  split; [unfold version_ok; cbn; lia|]. split; [unfold accepted; cbn; lia|].
  split; [vm_compute; reflexivity|]. split; [eexists; split; [apply no_numbers; vm_compute; reflexivity|reflexivity]|].
  split; [vm_compute; reflexivity|]. eexists; split; [apply no_numbers; vm_compute; reflexivity|reflexivity].
Qed.

(** an event of version 1.2: two particles, a hit of a calorimeter, a reconstructed particle with a
    particle id, a component with a weight, a cluster *)
Definition old_rp (parts : list addr) : recp :=
  mkRP 70000 [0; 0; 4611686018427387904] 4611686018427387904 [0; 0; 0; 0; 0; 0; 0; 0; 0; 0] 0 1065353216 [0; 0; 0]
       [(50, mkPID 1065353216 3 11 2 [1; 2])] 50 7 parts [] [40] 60.
Definition old_cl : cluster :=
  mkCL 1 1065353216 5 [1; 2; 3] [0; 0; 0; 0; 0; 0] 0 0 [0; 0; 0] [1; 2; 3; 4; 5; 6] [mkPID 1 2 3 4 []] [] [20] [1065353216] [9].
Definition old_objs : list (addr * obj) :=
  [(1, OMC (ex_mc [])); (2, OMC (ex_mc [1])); (20, OCH (mkCH 7 8 1065353216 3 4 [1; 2; 3] 5 0)); (30, ORP (old_rp [31]));
   (31, ORP (mkRP 1 [0; 0; 0] 0 [0; 0; 0; 0; 0; 0; 0; 0; 0; 0] 0 0 [0; 0; 0] [] 0 0 [] [] [] 0)); (40, OCL old_cl)].
Definition o_heap : heap := heap_of old_objs.
Definition o_event : event :=
  ev_of [(str "C", mkColl (str "Cluster") (2 ^ 31) no_params [40]);
         (str "H", mkColl (str "CalorimeterHit") (2 ^ 31 + 2 ^ 28) no_params [20]);
         (str "M", mkColl (str "MCParticle") 0 no_params [1; 2]);
         (str "R", mkColl (str "ReconstructedParticle") 0 no_params [30; 31])].
Definition o_extra (mc : list Z * list Z) (a : addr) : extra :=
  if a =? 30 then mkX [0; 0; 0] [1065353216] [] [5] mc else mkX [7; 8; 9] [] [] [] ([], []).
Definition o_N (a : addr) : option Z := if (a =? 1) || (a =? 20) || (a =? 31) || (a =? 40) then Some a else None.

Ltac ok_coll := split; [unfold word32; cbn; lia|]; split; [apply ex_coll_params|]; split; [vm_compute; reflexivity|];
  split; [vm_compute; reflexivity|]; split; [|split; discriminate]; intros _; split;
  [intros a Ha; cbn [c_elems] in Ha; elim_in; (split; [lia|eexists; split; reflexivity])|
   intros a o Ha Ho; cbn [c_elems] in Ha; elim_in; injection Ho as <-; unfold elem_ok, obj_ok].
Lemma o_event_ok : event_ok [] o_heap o_event.
Proof.
  split; [unfold int32; cbn; lia|]. split; [unfold int32; cbn; lia|]. split; [unfold int64; cbn; lia|].
  split; [vm_compute; reflexivity|]. split; [apply ex_coll_params|]. split; [|split; [vm_compute; reflexivity|split]].
  - unfold sm_ok. cbn [sm_keys map fst o_event ev_cols ev_of]. conc.
  - change (stored_cols [] o_event) with (ev_cols o_event). cbn [ev_cols o_event ev_of].
    repeat (apply Forall_cons; [cbn [fst snd]; split; [names|split; [vm_compute; reflexivity|]]|]); [| | | |apply Forall_nil].
    + exists TCL. split; [reflexivity|]. ok_coll. unfold cluster_ok, cluster_fits, pid_ok. cbn. conc. all: unfold pid_ok; cbn; conc; reflexivity.
    + exists TCH. split; [reflexivity|]. ok_coll. unfold calhit_ok. cbn. conc.
    + exists TMC. split; [reflexivity|]. ok_coll; unfold ex_mc; conc.
    + exists TRP. split; [reflexivity|]. ok_coll; unfold recp_ok, old_rp; cbn; conc; unfold pid_ok; cbn; conc.
  - vm_compute. repeat constructor; cbn; intuition discriminate.
Qed.
Definition o_data (v : Z * Z) (mc : list Z * list Z) : list field := old_event_data v (o_extra mc) o_heap (stored_cols [] o_event).
Lemma o_numbers mc : In mc [([], []); ([5], [6]); ([5; 6], [7; 8])] -> numbering o_N (o_data (1, 2) mc).
Proof.
  intros Hm. split; [|split].
  - intros a. rewrite <- in_ids, <- in_targets. split.
    + intros H. unfold o_N in H. destruct ((a =? 1) || (a =? 20) || (a =? 31) || (a =? 40)) eqn:E; [|congruence].
      rewrite !Bool.orb_true_iff, !Z.eqb_eq in E. elim_in; destruct E as [[[ -> | -> ]| -> ]| -> ]; (split; [lia|]); vm_compute; intuition reflexivity.
    + intros (_ & H1 & H2). elim_in; vm_compute in H2; repeat (destruct H2 as [<-|H2]); try destruct H2;
        try (vm_compute; discriminate); exfalso; vm_compute in H1; intuition discriminate.
  - intros a k. unfold o_N. destruct ((a =? 1) || (a =? 20) || (a =? 31) || (a =? 40)) eqn:E; [|discriminate].
    intros H. injection H as <-. rewrite !Bool.orb_true_iff, !Z.eqb_eq in E. change (2 ^ 30) with 1073741824. lia.
  - intros a b. unfold o_N. destruct ((a =? 1) || (a =? 20) || (a =? 31) || (a =? 40)); [|congruence].
    destruct ((b =? 1) || (b =? 20) || (b =? 31) || (b =? 40)); congruence.
Qed.
Lemma o_words mc a : extra_ok (o_extra mc a).
Proof. unfold o_extra, extra_ok, words. destruct (a =? 30); cbn; conc. Qed.

Example C76_event_case : version_ok (1, 2) /\ event_ok [] o_heap o_event /\
  (forall nc ty, In nc (stored_cols [] o_event) -> get_handler (c_type (snd nc)) = Some ty ->
     old_coll_ok (1, 2) (o_extra ([5], [6])) ty o_heap (snd nc)) /\
  fits (o_data (1, 2) ([5], [6])) /\ laid_out (o_data (1, 2) ([5], [6])) (layout o_N (o_data (1, 2) ([5], [6]))) /\
  (exists new, numbers new (event_objs [] [] o_heap o_event) 1000) /\
  size (o_data (1, 2) ([5], [6])) = 740.
Proof.
  split; [unfold version_ok; cbn; lia|]. split; [exact o_event_ok|]. split; [|split; [vm_compute; reflexivity|split; [|split]]].
  - intros nc ty Hnc Hty. change (stored_cols [] o_event) with (ev_cols o_event) in Hnc. cbn [ev_cols o_event ev_of] in Hnc.
    elim_in; injection Hty as <-; (split; [intros [E|E]; discriminate E|]); intros _ a o Ha Ho; (split; [apply o_words|]);
      cbn [snd c_elems] in Ha; elim_in; injection Ho as <-; try exact Logic.I; intros _; vm_compute; repeat split; discriminate.
  - exists o_N. split; [apply o_numbers; right; left; reflexivity|reflexivity].
  - apply numbering_exists. exact (proj2 (proj2 (proj2 (proj2 (proj2 (proj2 (proj2 (proj2 o_event_ok)))))))).
  - vm_compute. reflexivity.
Qed.

(** what is read of the event: the number and the first particle id of a particle, the time of a Monte
    Carlo particle and the particle ids of a cluster were not stored in 1.2 *)
Example C76_event_read : exists e' h' n, read_event_record (fun _ _ l => l) (layout o_N (o_data (1, 2) ([5], [6])))
    (seen_header (1, 2) [] [] o_event) 1000 = Ok (e', h', n) /\
  map fst (ev_cols e') = [str "C"; str "H"; str "M"; str "R"] /\
  h' 1003 = Some (OMC (mkMC [1002] 11 1 0 [4607182418800017408; 0; 0] 0 [0; 4611686018427387904; 0] 4602678819172646912 3212836864
                       [0; 0; 0] [0; 0; 0] [0; 0; 0] [0; 0] [])) /\
  h' 1001 = Some (OCH (mkCH 7 0 1065353216 0 0 [1; 2; 3] 0 0)) /\
  h' 1000 = Some (OCL (mkCL 1 1065353216 0 [1; 2; 3] [0; 0; 0; 0; 0; 0] 0 0 [0; 0; 0] [1; 2; 3; 4; 5; 6] [] [] [1001] [1065353216] [9])) /\
  h' 1004 = Some (ORP (mkRP 4464 [0; 0; 4611686018427387904] 4611686018427387904 [0; 0; 0; 0; 0; 0; 0; 0; 0; 0] 0 1065353216 [0; 0; 0]
       [(1005, mkPID 1065353216 3 0 2 [1; 2])] 0 0 [1006] [] [1000] 0)).
Proof. do 3 eexists. split; [vm_compute; reflexivity|]. vm_compute. repeat split; reflexivity. Qed.

(** a particle of version 1.2 may have several Monte Carlo particles; their weights are read into one
    variable, beyond its end if there are two or more *)
Theorem C76_old_particle_refuted : exists v x h e bs, version_ok v /\ accepted v /\ event_ok [] h e /\
  fits (old_event_data v x h (stored_cols [] e)) /\ laid_out (old_event_data v x h (stored_cols [] e)) bs /\
  (forall a, extra_ok (x a) /\ Zlen (fst (x_mc (x a))) = Zlen (snd (x_mc (x a)))) /\
  forall srt next, read_event_record srt bs (seen_header v [] [] e) next = UB UBOutOfBounds.
Proof.
  exists (1, 2), (o_extra ([5; 6], [7; 8])), o_heap, o_event, (layout o_N (o_data (1, 2) ([5; 6], [7; 8]))).
  split; [unfold version_ok; cbn; lia|]. split; [unfold accepted; cbn; lia|]. split; [exact o_event_ok|].
  split; [vm_compute; reflexivity|]. split; [exists o_N; split; [apply o_numbers; right; right; left; reflexivity|reflexivity]|].
  split; [|intros srt next; vm_compute; reflexivity].
  intros a. split; [apply o_words|]. unfold o_extra. destruct (a =? 30); reflexivity.
Qed.
Print Assumptions C76_old_particle_refuted.
