(** * Untrusted input: readStream and direct access (C39, continued)

    The files are arbitrary byte strings.  The theorems list all the ways in which the functions of a
    reader can be undefined or not end; each of them is met by a file. *)

From Coq Require Import Relation_Operators.
From Verif Require Import Bytes StrMap SioModel SioProofs Ieee ObjModel EventModel EventFacts EventExamples IndexModel FileModel
  FileExamples InputSpec InputProofs InputObj InputEvent InputFile InputExamples InputStream InputIndex InputDirect.

(** what the abbreviations of the proofs stand for *)
Lemma C39_causes_stated : forall uncomp srt names F,
  (file_cause (event_cause uncomp srt names) F <->
     bad_header F \/ huge_record F \/
     (exists data, payload uncomp F data /\ (zero_block data \/ long_name data)) \/
     (exists ed, payload uncomp F ed /\ repeated_block ed) \/
     (exists hd ed e0, payload uncomp F hd /\ payload uncomp F ed /\ read_header_record names hd = Ok e0 /\
        bad_collection (map (fun nc => c_type (snd nc)) (ev_cols e0)) ed) \/
     (exists hd ed e0 next e h next', payload uncomp F hd /\ payload uncomp F ed /\ 0 < next /\
        read_header_record names hd = Ok e0 /\ read_event_record srt ed e0 next = Ok (e, h, next') /\ orphan h)) /\
  (rebuild_cause uncomp F <->
     bad_header F \/ huge_record F \/ exists data, payload uncomp F data /\ (zero_block data \/ long_name data)) /\
  (index_cause uncomp F <->
     rebuild_cause uncomp F \/ (exists data, payload uncomp F data /\ index_overflow data) \/
     (exists f, found F (-136) f /\ not_found F (ra_next f)) \/
     (exists p q, clos_trans Z (link F) p q /\ place F p = place F q)).
Proof. intros. split; [reflexivity|]. split; reflexivity. Qed.

(** ** Reading all of a file, and single runs and events *)

(** readStream with any number of listeners and any maximum.  The event is processed once for each
    listener, which adds no way to fail. *)
Theorem C39_stream_partial : forall uncomp srt ign d n max r k cs r', 0 < rd_next r -> 0 <= s_pos (rd_s r) ->
  read_stream uncomp srt ign d n max r = (UB k, cs, r') ->
  exists F, (F = s_data (rd_s r) \/ exists m, d m = Some F) /\ file_cause (event_cause uncomp srt (rd_names r)) F.
Proof. exact stream_cause. Qed.
Print Assumptions C39_stream_partial.

(** readEvent and readRunHeader with an index of any contents, or without: there are no other ways to
    fail than those of readNextEvent *)
Theorem C39_event_at_partial : forall uncomp srt ign d run num r k r', 0 < rd_next r -> 0 <= s_pos (rd_s r) ->
  read_event_at uncomp srt ign d run num r = (UB k, r') ->
  exists F, (F = s_data (rd_s r) \/ exists m, d m = Some F) /\ file_cause (event_cause uncomp srt (rd_names r)) F.
Proof. exact event_at_cause. Qed.
Print Assumptions C39_event_at_partial.
Theorem C39_run_at_partial : forall uncomp d run r k r', 0 < rd_next r ->
  read_run uncomp d run r = (UB k, r') ->
  exists F, (F = s_data (rd_s r) \/ exists m, d m = Some F) /\
    (bad_header F \/ huge_record F \/ exists data, payload uncomp F data /\ (zero_block data \/ long_name data)).
Proof. exact run_at_cause. Qed.
Print Assumptions C39_run_at_partial.
(** skipNEvents looks at the headers of records only *)
Theorem C39_skip_partial : forall n r k r', 0 <= s_pos (rd_s r) -> skip_events n r = (UB k, r') ->
  bad_header (s_data (rd_s r)) \/ huge_record (s_data (rd_s r)).
Proof. exact skip_events_cause. Qed.
Print Assumptions C39_skip_partial.

(** two listeners on a file with an event, and the first event of it; a file with an event that has a
    particle whose parent is missing *)
Example C39_stream_case :
  (let '(x, cs, _) := read_stream ex_uncomp isort false (fun _ => Some x_good) 2 (two31 - 1) (reading x_good) in
   x = Ok tt /\ map fst cs = [0%nat; 1%nat]) /\
  (let '(x, cs, _) := read_stream ex_uncomp isort false (fun _ => Some x_orphan) 2 (two31 - 1) (reading x_orphan) in
   x = UB UBNullDeref /\ cs = []) /\
  fst (skip_events 1 (reading x_good)) = Ok tt /\
  fst (skip_events 2 (reading x_huge)) = UB UBDiverge /\
  (exists l, fst (read_event_at ex_uncomp isort false (fun _ => Some x_good) 1 2 (reading x_good)) = Ok (Some l)) /\
  fst (read_event_at ex_uncomp isort false (fun _ => Some x_orphan) 1 2 (reading x_orphan)) = UB UBNullDeref /\
  fst (read_event_at ex_uncomp isort false (fun _ => Some x_orphan) 1 3 (reading x_orphan)) = Ok None.
Proof.
  split; [vm_compute; split; reflexivity|]. split; [vm_compute; split; reflexivity|]. split; [vm_compute; reflexivity|].
  split; [vm_compute; reflexivity|]. split; [eexists; vm_compute; reflexivity|]. split; vm_compute; reflexivity.
Qed.

(** ** Opening for direct access *)

(** Building the index, from the records at the end of a file or from all its records: undefined only
    if records or blocks are as above; or if a number of a run or a position of the index overflows; or
    if the file record points to no random access record; or if the chain of these records leads back to
    where it was. *)
Theorem C39_index_partial : forall uncomp s g k s' g', 0 <= s_pos s ->
  create_map uncomp s g = (UB k, s', g') -> index_cause uncomp (s_data s).
Proof.
  intros uncomp s g k s' g' Hp H. pose proof (create_map_ok uncomp (s_data s) s g (conj eq_refl Hp)) as M.
  rewrite H in M. exact M.
Qed.
Print Assumptions C39_index_partial.
(** the functions that do it *)
Theorem C39_open_partial : forall uncomp d ns r k r', open_files uncomp d ns r = (UB k, r') ->
  rd_direct r = true /\ exists n F, In n ns /\ d n = Some F /\ index_cause uncomp F.
Proof. exact open_files_cause. Qed.
Print Assumptions C39_open_partial.
Theorem C39_number_partial : forall uncomp r k r', 0 <= s_pos (rd_s r) ->
  (number_of_events uncomp r = (UB k, r') \/ number_of_runs uncomp r = (UB k, r')) -> index_cause uncomp (s_data (rd_s r)).
Proof. exact number_cause. Qed.
Print Assumptions C39_number_partial.
(** Whatever the file contains, the lists of runs and events are within the index. *)
Theorem C39_lists : forall uncomp d n direct lazy names raw cbuf mraw next r,
  open_file uncomp d n (new_reader direct lazy names raw cbuf mraw next) = (Ok tt, r) ->
  forall x r', number_of_events uncomp r = (Ok x, r') ->
  exists rs es, runs_of (mg_map (rd_mgr r')) = Ok rs /\ events_of (mg_map (rd_mgr r')) = Ok es.
Proof. exact lists_defined. Qed.
Print Assumptions C39_lists.
(** Opening a file to append: the chain is not followed, so that it cannot be a cycle. *)
Theorem C39_append_partial : forall uncomp d name level raw k, open_append uncomp d name level raw = UB k ->
  exists F, d (sio_filename name) = Some F /\
    (bad_header F \/ huge_record F \/ exists data, payload uncomp F data /\ (zero_block data \/ long_name data)).
Proof. exact open_append_cause. Qed.
Print Assumptions C39_append_partial.

(** A random access record that names itself as the one before it; after
    every number of turns the loop goes on. *)
Theorem C39_chain_refuted : exists F, fst (opening F) = UB UBDiverge /\
  (exists p, found F p x_found /\ ra_prev x_found = p /\ p <> 0) /\
  exists s g, forall fuel, fst (fst (chain_loop ex_uncomp fuel (Zlen x_good) s g)) = UB UBDiverge.
Proof. exact cycle_witness. Qed.
Print Assumptions C39_chain_refuted.
(** A file record behind an event, pointing to the event instead of a random access record: opening the
    file for direct access dereferences a null pointer, although the event alone can be opened. *)
Theorem C39_file_record_refuted : exists F ev, F = ev ++ x_access 0 0 0 /\ fst (opening F) = UB UBNullDeref /\ fst (opening ev) = Ok tt.
Proof. exact dangling_witness. Qed.
Print Assumptions C39_file_record_refuted.
(** A file with an event and an index, which can be read.  If its last record is missing, opening it
    for direct access dereferences a null pointer. *)
Theorem C39_cut_file_refuted : fst (opening x_direct) = Ok tt /\ (exists l, event_at x_direct = Ok (Some l)) /\
  fst (opening (firstn (length x_direct - 136) x_direct)) = UB UBNullDeref.
Proof. exact cut_witness. Qed.
Print Assumptions C39_cut_file_refuted.
(** An index in which a run is larger than 2^31 - 1, and one with a position larger than 2^63 - 1: a
    signed addition overflows. *)
Theorem C39_index_overflow_refuted : exists F G, fst (opening F) = UB UBOverflow /\ fst (opening G) = UB UBOverflow /\
  (exists data, F = x_index data /\ index_overflow data) /\ (exists data, G = x_index data /\ index_overflow data).
Proof. exact overflow_witness. Qed.
Print Assumptions C39_index_overflow_refuted.

(** all other beginnings of that file can be opened, and the event is read or not there *)
Example C39_index_case :
  cut_undefined = [(length x_direct - 136)%nat] /\ length x_direct = 656%nat /\
  (exists r, opening x_direct = (Ok tt, r) /\ fst (number_of_events ex_uncomp r) = Ok 1 /\
     events_of (mg_map (rd_mgr r)) = Ok [(1, 2)] /\ 0 <= s_pos (rd_s r)) /\
  (exists w, open_append ex_uncomp (fun _ => Some x_dangling) (str "f") 0 ex_buf = Ok w).
Proof.
  split; [vm_compute; reflexivity|]. split; [vm_compute; reflexivity|]. split.
  - exists (snd (opening x_direct)). split; [vm_compute; reflexivity|]. split; [vm_compute; reflexivity|].
    split; [vm_compute; reflexivity|]. vm_compute. discriminate.
  - eexists. vm_compute. reflexivity.
Qed.
