(** * stdhepjob and stdhepjob_new convert StdHep files (C78) *)

From Verif Require Import Bytes StrMap SioModel SioProofs SioSpec Ieee ObjModel ObjSpec CollSpec EventModel EventSpec EventProofs EventFacts EventExamples
  IndexModel IndexSpec IndexProofs FileModel IndexFile IndexFacts IndexExamples FileSpec FileWrite FileSessions FileRead FileSeq FileDeliver FileFacts FileUse FileExamples
  HepModel HepSpec HepProofs HepFormat HepFile HepExamples HepUpdModel HepUpdSpec StdJobModel StdJobSpec StdJobProofs.

(** Whatever the input: if the calls of the reader give the collections [cs] and then the end of the file, or
    as many as asked for, the program ends and the output is a file with the run header and one event for each of
    them, in their order.  Its other arguments change nothing, and no other file is changed. *)
Theorem C78_converted : forall comp uncomp third in_time newer d inp out max level a base wraw b1 b2 h cs,
  codec_ok comp uncomp -> usable wraw -> usable b1 -> usable b2 -> a <> 0 ->
  hep_open (d inp) = Ok h -> d (sio_filename out) = None ->
  stop third in_time newer max cs h (Ok None) \/ limit third in_time newer max cs h ->
  Forall (fun i => item_ok (level, i)) (std_items inp base cs) -> Zlen cs + 1 < 2 ^ 27 ->
  exists d' f, (forall n, (length cs < n)%nat -> std_job comp third in_time n newer d inp out max level a base wraw b1 b2 = Ok (Some d')) /\
    (forall n, n <> sio_filename out -> d' n = d n) /\ wf_name f = sio_filename out /\ wf_ok comp uncomp d' f /\
    wf_items f = map (fun i => (sio_filename out, i)) (std_items inp base cs).
Proof. exact std_converts. Qed.
Print Assumptions C78_converted.

(** The events: run 0, numbered from 0 on, the detector "Unknown", weight and process, and one collection with
    the particles. *)
Theorem C78_events : forall inp base cs, exists evs, std_items inp base cs = WRun (std_run inp) :: evs /\
  Zlen evs = Zlen cs /\ forall k c, nth_error cs k = Some c -> exists i, nth_error evs k = Some i /\ converted base (Z.of_nat k) c i.
Proof. exact std_items_events. Qed.
Print Assumptions C78_events.

(** They can be stored if the numbers are in range and the records are not too large. *)
Theorem C78_storable : forall level base k c, 0 < base -> int32 k -> Zlen (cc_parts c) < 2 ^ 28 -> Forall mcp_ok (cc_parts c) ->
  (forall i, cc_idrup c = Some i -> int32 i) -> word32 (cc_weight c) ->
  (match std_item base k c with WEvt h e only => sized level (record_size header_record [mkWB header_block cur_vers (write_evhdr only e)]) /\
      (forall bs cols, event_blocks only h (ev_cols e) = Ok (bs, cols) -> sized level (record_size event_record bs)) | _ => True end) ->
  item_ok (level, std_item base k c).
Proof. exact std_item_storable. Qed.
Print Assumptions C78_storable.

(** Reading the output in any order of readNextEvent and readNextRunHeader gives copies of them: no condition
    on the particles is needed, because parents and daughters of what the readers return mirror each other. *)
Theorem C78_read : forall comp uncomp srt third in_time newer d' f inp name base cs max h last,
  codec_ok comp uncomp -> wf_name f = name -> wf_ok comp uncomp d' f ->
  wf_items f = map (fun i => (name, i)) (std_items inp base cs) ->
  stop third in_time newer max cs h last \/ limit third in_time newer max cs h ->
  forall ig names ops raw cbuf mraw next, 0 < next ->
    trace srt names at_null next (map (fun i => (name, i)) (std_items inp base cs)) ops
      (read_all uncomp srt ig d' [name] ops (new_reader false false names raw cbuf mraw next)).
Proof. exact std_read. Qed.
Print Assumptions C78_read.

(** For a StdHep file whose tables are large enough the collections are those of its events, or of the first of
    them if fewer are asked for; with the older reader if the declared mothers declare their daughters. *)
Theorem C78_stdhep : forall third in_time newer f hd t more max, stdhep_file f hd t more ->
  let E := events_of 0 0 (et_recs t ++ flat_map et_recs more) in
  Forall tables_ok E -> newer = true \/ Forall (fun e => has (he_mo e) (2 * he_n e) /\ mothers_agree e) E ->
  exists h cs, hep_open (Some f) = Ok h /\
    Forall2 (fun e c => collection_of third in_time e = Ok (Some c)) (if max <? 0 then E else firstn (Z.to_nat max) E) cs /\
    (stop third in_time newer max cs h (Ok None) \/ limit third in_time newer max cs h).
Proof. exact (std_file (fun _ l => l) (fun _ => None)). Qed.
Print Assumptions C78_stdhep.

(** An error of the reader ends the program with that exception: the output is not closed. *)
Theorem C78_error : forall comp uncomp third in_time newer d inp out max level a base wraw b1 b2 h cs x,
  codec_ok comp uncomp -> usable wraw -> usable b1 -> usable b2 -> a <> 0 ->
  hep_open (d inp) = Ok h -> d (sio_filename out) = None ->
  stop third in_time newer max cs h (Throw x) -> x <> LEndOfData ->
  Forall (fun i => item_ok (level, i)) (std_items inp base cs) -> Zlen cs + 1 < 2 ^ 27 ->
  forall n, (length cs < n)%nat -> std_job comp third in_time n newer d inp out max level a base wraw b1 b2 = Throw x.
Proof. exact std_fails. Qed.
Print Assumptions C78_error.

(** An existing output is not overwritten. *)
Theorem C78_exists : forall comp third in_time newer d inp out max level a base wraw b1 b2 n h, hep_open (d inp) = Ok h -> d (sio_filename out) <> None ->
  std_job comp third in_time n newer d inp out max level a base wraw b1 b2 = Throw LIOException.
Proof. exact std_refuses. Qed.
Print Assumptions C78_exists.

(** ** A file with two events *)

(** charges of the particles of the example as [float]: in thirds, -3, -1, 0, 1 and 3 *)
Definition job_third (n : Z) : Z :=
  if n =? 0 then 0 else if n =? -3 then 0xBF800000 else if n =? 3 then 0x3F800000 else if n <? 0 then 0xBEAAAAAB else 0x3EAAAAAB.
Definition job_in : bytes := str "in.stdhep".
Definition job_disk : disk := save empty_disk job_in ex_hep.
Definition job_hep : option hep := match hep_open (Some ex_hep) with Ok h => Some h | _ => None end.
Definition job_cs (newer : bool) (n : nat) : list mccoll :=
  match job_hep with
  | Some h => flat_map (fun r => match r with Ok (Some c) => [c] | _ => [] end) (std_events newer job_third d2f n h)
  | None => []
  end.
Definition job_out (newer : bool) (max : Z) : disk :=
  match std_job ex_comp job_third d2f 5 newer job_disk job_in ex_name max 0 7 1000 ex_buf ex_buf ex_buf with Ok (Some d) => d | _ => empty_disk end.

Lemma job_particles newer : Forall (fun c => Forall mcp_ok (cc_parts c)) (job_cs newer 3).
Proof.
  destruct newer.
  all: match goal with |- Forall _ ?l => let v := eval vm_compute in l in change l with v end.
  all: repeat (apply Forall_cons; [cbn [cc_parts]; repeat (apply Forall_cons; [unfold mcp_ok, doubles, floats, ints, vec_len, word32, word64, int32, Zlen; cbn [mc_parents mc_pdg mc_gen mc_sim mc_vertex mc_time mc_p mc_mass mc_charge mc_endpoint mc_pend mc_spin mc_color]|]); try apply Forall_nil|]); try apply Forall_nil.
  all: repeat match goal with
    | |- _ /\ _ => split
    | |- Forall _ _ => first [apply Forall_nil|apply Forall_cons]
    | |- (_ <= _) => vm_compute; discriminate
    | |- (_ < _) => vm_compute; reflexivity
    | |- _ = _ => vm_compute; reflexivity end.
Qed.
Example C78_case : hep_open (job_disk job_in) <> Throw LIOException /\ job_disk ex_name = None /\
  map (fun c => Zlen (cc_parts c)) (job_cs true 3) = [4; 5] /\
  ex_use_all (job_out true (-1)) [ex_name] false (map Next [false; true; true; true]) = [SRun 0; SEvt 0 0; SEvt 0 1; SNull] /\
  ex_use_all (job_out false (-1)) [ex_name] true [GetEvt 0 1; GetEvt 0 2] = [SEvt 0 1; SNull] /\
  ex_use_all (job_out true 1) [ex_name] false (map Next [true; true]) = [SEvt 0 0; SNull] /\
  ex_use_all (job_out true 0) [ex_name] false (map Next [false; true]) = [SRun 0; SNull].
Proof. split; [vm_compute; discriminate|]. repeat (split; [vm_compute; reflexivity|]). vm_compute. reflexivity. Qed.
Example C78_case_hypotheses : exists h, hep_open (job_disk job_in) = Ok h /\ stop job_third d2f true (-1) (job_cs true 3) h (Ok None) /\
  limit job_third d2f false 1 (firstn 1 (job_cs false 3)) h /\
  Forall (fun i => item_ok (0, i)) (std_items job_in 1000 (job_cs true 3)).
Proof.
  destruct (hep_open (job_disk job_in)) as [h|x|u] eqn:E; [|vm_compute in E; discriminate..]. exists h. split; [reflexivity|].
  vm_compute in E. injection E as <-. split; [|split].
  - split; [vm_compute; reflexivity|]. split; [discriminate|left; lia].
  - split; vm_compute; reflexivity.
  - constructor.
    + unfold item_ok. cbn [fst snd]. split; [|split; [vm_compute; reflexivity|intros H; destruct (H eq_refl)]].
      assert (N : forall (A : Type) (P : A -> Prop), map_ok P []) by (intros A P; split; [constructor|split; [unfold vec_len; cbn; lia|constructor]]).
      split; [unfold int32; cbn [rh_run std_run]; lia|]. do 3 (split; [unfold vec_len; vm_compute; reflexivity|]). split; [constructor|]. split; [apply N|split; apply N].
    + pose proof (job_particles true) as P. apply Forall_map. remember (job_cs true 3) as l eqn:El. vm_compute in El. subst l. unfold in_order. cbn [length seq map combine].
      inversion P as [|c1 l1 P1 P2]; subst. inversion P2 as [|c2 l2 P3 P4]; subst. clear P P2 P4.
      apply Forall_cons; [|apply Forall_cons; [|apply Forall_nil]]; cbn [fst snd]; (apply std_item_storable; [lia|unfold int32; lia|vm_compute; reflexivity|assumption|
        intros i Hi; injection Hi as <-; unfold int32; lia|unfold word32; cbn [cc_weight]; lia|]);
        (split; [split; [vm_compute; reflexivity|intros H; destruct (H eq_refl)]|intros bs cols Eb; vm_compute in Eb; injection Eb as <- <-; split; [vm_compute; reflexivity|intros H; destruct (H eq_refl)]]).
Qed.

(** The numbers of the events in the StdHep file are lost. *)
Theorem C78_number_refuted : exists f hd t more e es, stdhep_file f hd t more /\ events_of 0 0 (et_recs t ++ flat_map et_recs more) = e :: es /\ he_num e = 1 /\
  exists d', std_job ex_comp job_third d2f 5 true (save empty_disk job_in f) job_in ex_name (-1) 0 7 1000 ex_buf ex_buf ex_buf = Ok (Some d') /\
    ex_use_all d' [ex_name] false [Next true] = [SEvt 0 0].
Proof.
  exists ex_hep, ex_hd, ex_t1, [ex_t2; ex_t3]. eexists _, _. split; [exact ex_stdhep|]. split; [reflexivity|]. split; [reflexivity|].
  exists (job_out true (-1)). split; [vm_compute; reflexivity|vm_compute; reflexivity].
Qed.
Print Assumptions C78_number_refuted.

(** a file that is cut in the second event: its first event can be converted if no more is asked for *)
Definition job_cut : disk := save empty_disk job_in (firstn 1200 ex_hep).
Example C78_error_case : exists h, hep_open (job_cut job_in) = Ok h /\ stop job_third d2f true (-1) (firstn 1 (job_cs true 3)) h (Throw LIOException) /\
  std_job ex_comp job_third d2f 5 true job_cut job_in ex_name (-1) 0 7 1000 ex_buf ex_buf ex_buf = Throw LIOException /\
  match std_job ex_comp job_third d2f 5 true job_cut job_in ex_name 1 0 7 1000 ex_buf ex_buf ex_buf with
  | Ok (Some d) => ex_use_all d [ex_name] false (map Next [true; true]) = [SEvt 0 0; SNull] | _ => False end.
Proof.
  destruct (hep_open (job_cut job_in)) as [h|x|u] eqn:E; [|vm_compute in E; discriminate..]. exists h. split; [reflexivity|].
  vm_compute in E. injection E as <-. split; [|split; vm_compute; reflexivity].
  split; [vm_compute; reflexivity|]. split; [discriminate|left; lia].
Qed.
Example C78_exists_case : save job_disk ex_name [] (sio_filename ex_name) <> None /\
  std_job ex_comp job_third d2f 5 true (save job_disk ex_name []) job_in ex_name (-1) 0 7 1000 ex_buf ex_buf ex_buf = Throw LIOException.
Proof. split; [vm_compute; discriminate|vm_compute; reflexivity]. Qed.
