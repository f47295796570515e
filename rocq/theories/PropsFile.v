(** * Files: what is written is read back, by sequential reading, skipping and direct access

    A file is made by sessions: it is created in the first one and appended to in the others.
    [codec_ok] says that the decompressor inverts the compressor.  [readable] says that the links of
    an event lead to objects of the event (see PropsEvent.v).  [sess_covers] says that the index
    of each session is written in a form that is large enough, see C15_ordinary_files. *)

From Coq Require Import Permutation.
From Verif Require Import Bytes StrMap SioModel SioProofs SioSpec Ieee ObjModel ObjSpec CollSpec EventModel EventSpec EventProofs EventFacts EventExamples
  IndexModel IndexSpec IndexProofs FileModel IndexFile IndexFacts IndexExamples FileSpec FileWrite FileSessions FileRead FileSeq FileDeliver FileFacts FileUse FileDirect FileMore FileCount FileExamples.

(** ** C13: sequential reading *)

(** The written items come back in order, over all files that were opened, whatever the order in
    which events and run headers are asked for: [trace]. *)
Theorem C13_sequential_reading : forall comp uncomp srt ignore_null d files ops direct names raw cbuf mraw next,
  codec_ok comp uncomp -> files <> [] -> Forall (wf_ok comp uncomp d) files ->
  (direct = true -> match files with [] => True | f :: _ => Forall (sess_covers comp) (wf_sess f) end) ->
  Forall (fun w => readable ignore_null names (snd w)) (flat_map wf_items files) -> 0 < next ->
  trace srt names at_null next (flat_map wf_items files) ops
    (read_all uncomp srt ignore_null d (map wf_name files) ops (new_reader direct false names raw cbuf mraw next)).
Proof. exact read_sequential. Qed.
Print Assumptions C13_sequential_reading.

Example C13_case : codec_ok ex_comp ex_uncomp /\ Forall (wf_ok ex_comp ex_uncomp ex_disk) [ex_file] /\ Forall (sess_covers ex_comp) (wf_sess ex_file) /\
  Forall (fun w => readable false [] (snd w)) (flat_map wf_items [ex_file]) /\
  ex_use ex_disk false [Next false; Next true; Next true; Next true; Next true] = [SRun 42; SEvt 42 7; SEvt 42 3; SEvt 43 7; SNull] /\
  ex_use ex_disk false [Next true; Next false; Next true; Next false] = [SEvt 42 7; SRun 43; SEvt 43 7; SNull].
Proof.
  split; [exact ex_codec|]. split; [exact (Forall_cons _ (proj1 ex_wf) (Forall_nil _))|]. split; [exact (proj1 ex_covers)|].
  split; [|split; vm_compute; reflexivity]. cbn [flat_map]. rewrite app_nil_r. apply Forall_map. exact ex_readable.
Qed.

(** ** C06: compression *)

(** Two collections of files with the same items give the same results, whatever codec, compression
    level per record, buffers, and division into sessions were used, and whether or not direct
    access is asked for. *)
Theorem C06_compression_transparent : forall comp1 uncomp1 comp2 uncomp2 srt ignore_null d1 d2 files1 files2 ops direct1 direct2 names raw1 cbuf1 mraw1 raw2 cbuf2 mraw2 next,
  codec_ok comp1 uncomp1 -> codec_ok comp2 uncomp2 -> files1 <> [] ->
  Forall (wf_ok comp1 uncomp1 d1) files1 -> Forall (wf_ok comp2 uncomp2 d2) files2 ->
  map wf_name files1 = map wf_name files2 -> map (fun f => items_of (wf_sess f)) files1 = map (fun f => items_of (wf_sess f)) files2 ->
  (direct1 = true -> match files1 with [] => True | f :: _ => Forall (sess_covers comp1) (wf_sess f) end) ->
  (direct2 = true -> match files2 with [] => True | f :: _ => Forall (sess_covers comp2) (wf_sess f) end) ->
  Forall (fun w => readable ignore_null names (snd w)) (flat_map wf_items files1) -> 0 < next ->
  read_all uncomp1 srt ignore_null d1 (map wf_name files1) ops (new_reader direct1 false names raw1 cbuf1 mraw1 next) =
  read_all uncomp2 srt ignore_null d2 (map wf_name files2) ops (new_reader direct2 false names raw2 cbuf2 mraw2 next).
Proof. exact same_reading. Qed.
Print Assumptions C06_compression_transparent.

(** one file with compressed and uncompressed records in two sessions, and one without compression *)
Example C06_case : wf_ok ex_comp ex_uncomp ex_disk ex_file /\ wf_ok ex_comp ex_uncomp ex_disk2 ex_file2 /\
  items_of (wf_sess ex_file) = items_of (wf_sess ex_file2) /\ map fst (ss_items ex_sess1 ++ ss_items ex_sess2) = [0; 6; 0; 1; 9] /\
  ex_disk ex_name <> ex_disk2 ex_name.
Proof.
  split; [exact (proj1 ex_wf)|]. split; [exact (proj2 ex_wf)|]. split; [reflexivity|]. split; [reflexivity|].
  intros H. apply (f_equal (fun o => match o with Some c => Zlen c | None => 0 end)) in H. vm_compute in H. discriminate.
Qed.

(** ** C14: a file that was cut off *)

(** [m] items are left: those whose text ends before the cut (but up to three bytes of padding), no
    others; what follows is a null pointer or an exception *)
Theorem C14_truncated_file : forall comp uncomp srt ignore_null d0 d f k ops names raw cbuf mraw next data,
  codec_ok comp uncomp -> wf_ok comp uncomp d0 f -> d0 (wf_name f) = Some data -> 0 <= k ->
  d (wf_name f) = Some (firstn (Z.to_nat k) data) ->
  Forall (fun w => readable ignore_null names (snd w)) (wf_items f) -> 0 < next ->
  exists ps m, located data 0 (texts comp (wf_sess f)) ps /\
    (forall j p t, nth_error ps j = Some p -> nth_error (texts comp (wf_sess f)) j = Some t ->
      ((j < m)%nat -> p + Zlen t <= k + 3) /\ ((m <= j)%nat -> k < p + Zlen t)) /\
    trace srt names null_or_exn next (firstn m (wf_items f)) ops
      (read_all uncomp srt ignore_null d [wf_name f] ops (new_reader false false names raw cbuf mraw next)).
Proof. exact read_truncated. Qed.
Print Assumptions C14_truncated_file.

(** cuts in the index, in the last event, at a run header, and in the second event *)
Example C14_case : Forall (fun w => readable false [] (snd w)) (wf_items ex_file) /\
  ex_use (ex_cut 200 ex_disk) false (repeat (Next true) 4) = [SEvt 42 7; SEvt 42 3; SEvt 43 7; SNull] /\
  ex_use (ex_cut 900 ex_disk) false (repeat (Next true) 4) = [SEvt 42 7; SEvt 42 3; SThrow EIoFailure; SThrow EBadState] /\
  ex_use (ex_cut 1500 ex_disk) false (repeat (Next true) 4) = [SEvt 42 7; SEvt 42 3; SNull; SThrow EBadState] /\
  ex_use (ex_cut 2500 ex_disk) false (repeat (Next true) 4) = [SEvt 42 7; SThrow EIoFailure; SThrow EBadState; SThrow EBadState].
Proof. split; [apply Forall_map; exact ex_readable|]. split; [vm_compute; reflexivity|]. split; [vm_compute; reflexivity|]. split; vm_compute; reflexivity. Qed.

(** opening such a file for direct access dereferences a null pointer if just the last record is
    missing *)
Theorem C14_direct_access_refuted : exists d f k data, wf_ok ex_comp ex_uncomp d f /\ d (wf_name f) = Some data /\ 0 <= k < Zlen data /\
  use_file ex_uncomp isort false (save d (wf_name f) (firstn (Z.to_nat k) data)) (wf_name f) [] (ex_read true) = [RUB UBNullDeref].
Proof.
  exists ex_disk, ex_file. eexists. eexists (Some_or (ex_disk ex_name)). split; [exact (proj1 ex_wf)|].
  split; [exact ex_disk_data|]. instantiate (1 := Zlen (Some_or (ex_disk ex_name)) - 136). split; [vm_compute; split; [discriminate|reflexivity]|]. vm_compute. reflexivity.
Qed.

(** ** C16: direct access *)

Theorem C16_direct_access : forall comp uncomp srt ignore_null d f run num names raw cbuf mraw next,
  codec_ok comp uncomp -> wf_ok comp uncomp d f -> Forall (sess_covers comp) (wf_sess f) -> numbered (items_of (wf_sess f)) ->
  Forall (readable ignore_null names) (items_of (wf_sess f)) -> int32 run -> 0 <= num < 2 ^ 31 -> 0 < next ->
  let W := items_of (wf_sess f) in
  let res := use_file uncomp srt ignore_null d (wf_name f) [GetEvt run num] (new_reader true false names raw cbuf mraw next) in
  (forall h e only, In (WEvt h e only) W -> ev_run e = run -> ev_num e = num ->
    exists le, res = [REvt (Some le)] /\ event_copy srt names next h e only le) /\
  ((forall h e only, In (WEvt h e only) W -> ev_run e = run -> ev_num e <> num) -> res = [REvt None]).
Proof. exact direct_access. Qed.
Print Assumptions C16_direct_access.

(** the same for run headers, and after any other calls, with and without direct access: [answers] *)
Theorem C16_any_calls : forall comp uncomp srt ignore_null d f steps direct names raw cbuf mraw next,
  codec_ok comp uncomp -> wf_ok comp uncomp d f -> (direct = true -> Forall (sess_covers comp) (wf_sess f) /\ numbered (items_of (wf_sess f))) ->
  Forall (readable ignore_null names) (items_of (wf_sess f)) -> Forall step_ok steps -> 0 < next ->
  answers srt names (wf_name f) direct (items_of (wf_sess f)) next (Some (items_of (wf_sess f))) steps
    (use_file uncomp srt ignore_null d (wf_name f) steps (new_reader direct false names raw cbuf mraw next)).
Proof. exact file_answers. Qed.
Print Assumptions C16_any_calls.

(** sessions below 2 GB in which each event has its run header and each run header an event *)
Theorem C16_ordinary_sessions : forall comp s, Forall item_ok (ss_items s) -> ordinary_session comp s -> sess_covers comp s.
Proof. exact ordinary_session_covers. Qed.
Print Assumptions C16_ordinary_sessions.

Example C16_ordinary_case : Forall item_ok (ss_items ex_sess1) /\ ordinary_session ex_comp ex_sess1.
Proof.
  split; [exact (proj1 ex_items_ok)|]. split; [vm_compute; reflexivity|]. cbn [keys ex_sess1 ss_items map snd item_key].
  split; [|split]; intros k Hk; cbn in Hk; repeat match goal with H : _ \/ _ |- _ => destruct H as [<-|H] | H : False |- _ => destruct H end; cbn [fst snd]; try lia.
  - exists (42, 7). cbn. intuition lia.
  - exists (42, -1). cbn. intuition lia.
  - exists (42, -1). cbn. intuition lia.
Qed.

Example C16_case : wf_ok ex_comp ex_uncomp ex_disk ex_file /\ Forall (sess_covers ex_comp) (wf_sess ex_file) /\ numbered (items_of (wf_sess ex_file)) /\
  Forall (readable false []) (items_of (wf_sess ex_file)) /\
  ex_use ex_disk true [GetEvt 43 7; GetEvt 42 3; GetRun 43; GetEvt 42 7; GetEvt 43 3; GetRun 41] = [SEvt 43 7; SEvt 42 3; SRun 43; SEvt 42 7; SNull; SNull].
Proof.
  split; [exact (proj1 ex_wf)|]. split; [exact (proj1 ex_covers)|]. split; [exact ex_numbered|]. split; [exact ex_readable|]. vm_compute. reflexivity.
Qed.

(** A session with events of run 5, whose header is not in it, and the header of run 7: event 5/1 is
    not found, and is returned instead as the event 7/1, which was never written. *)
Theorem C16_continued_run_refuted : exists items, numbered items /\ sessions_ok ex_comp [ex_of items] /\
  Exists (fun i => item_key i = (5, 1)) items /\ ~ Exists (fun i => item_key i = (7, 1)) items /\
  ex_use (ex_make items) true [GetEvt 5 1; GetEvt 7 2; GetEvt 7 1] = [SNull; SEvt 7 2; SEvt 5 1].
Proof.
  exists ex_continued. split; [exact (proj1 ex_continued_ok)|]. split; [exact (proj2 ex_continued_ok)|].
  split; [left; reflexivity|]. split; [|vm_compute; reflexivity]. rewrite Exists_exists. intros (i & [<-|[<-|[<-|[]]]] & H); discriminate H.
Qed.

(** a negative event number finds the first event behind the run header *)
Theorem C16_negative_number_refuted : exists d f, wf_ok ex_comp ex_uncomp d f /\
  ~ Exists (fun i => match i with WEvt _ e _ => ev_run e = 42 /\ ev_num e = -1 | WRun _ => False end) (items_of (wf_sess f)) /\
  map brief (use_file ex_uncomp isort false d (wf_name f) [GetEvt 42 (-1)] (ex_read true)) = [SEvt 42 7].
Proof.
  exists ex_disk, ex_file. split; [exact (proj1 ex_wf)|]. split; [|vm_compute; reflexivity]. rewrite Exists_exists.
  intros (i & Hi & H). cbn in Hi. repeat (destruct Hi as [<-|Hi]; [cbn in H; lia|]). destruct Hi.
Qed.

(** once the end of the file was hit, events are not found any more *)
Theorem C16_after_end_refuted : exists d f, wf_ok ex_comp ex_uncomp d f /\
  map brief (use_file ex_uncomp isort false d (wf_name f) [GetEvt 42 7; Skip 5; GetEvt 42 7] (ex_read true)) = [SEvt 42 7; SDone; SThrow LIOException].
Proof. exists ex_disk, ex_file. split; [exact (proj1 ex_wf)|]. vm_compute. reflexivity. Qed.

(** A file that ends before its index (the program did not close it): the index is rebuilt, but
    contains none of the four events that sequential reading gives. *)
Theorem C16_rebuilt_index_refuted : exists d,
  ex_use d false (repeat (Next true) 5) = [SEvt 5 1; SEvt 5 2; SEvt 5 3; SEvt 5 4; SNull] /\
  ex_use d true [GetEvt 5 1; GetEvt 5 2; GetEvt 5 3; GetEvt 5 4] = [SNull; SNull; SNull; SNull].
Proof. exists (ex_cut 280 (ex_make ex_four)). split; vm_compute; reflexivity. Qed.

Definition ex_seven : list witem := [WRun (ex_rn 7); WRun (ex_rn 8); ex_small 8 1; ex_small 8 2; WRun (ex_rn 9); ex_small 9 1; ex_small 9 2].
Definition ex_ask : list step := [GetRun 7; GetRun 8; GetEvt 8 1; GetEvt 8 2; GetRun 9; GetEvt 9 1; GetEvt 9 2].
(** Rebuilding passes over the record it was looking for and reads the next one: of three run headers and four events
    only the run header and the event that come directly behind a run header are found. *)
Theorem C16_rebuilt_partly_refuted : exists d, ex_use d false (map Next [false; false; true; true; false; true; true]) = [SRun 7; SRun 8; SEvt 8 1; SEvt 8 2; SRun 9; SEvt 9 1; SEvt 9 2] /\
  ex_use d true ex_ask = [SNull; SRun 8; SNull; SNull; SNull; SEvt 9 1; SNull].
Proof. exists (ex_cut 300 (ex_make ex_seven)). split; vm_compute; reflexivity. Qed.
(** If the run headers are compressed the file cannot even be opened: the compressed bytes are taken for the data. *)
Theorem C16_rebuilt_compressed_refuted : exists d, ex_use d false (map Next [false; false; true; true; false; true; true]) = [SRun 7; SRun 8; SEvt 8 1; SEvt 8 2; SRun 9; SEvt 9 1; SEvt 9 2] /\
  ex_use d true ex_ask = [SThrow ENoMarker].
Proof.
  exists (ex_cut 300 (disk_of (sessions ex_comp ex_uncomp empty_disk (str "x") (mkSess 6 ex_buf ex_buf ex_buf (map (pair 6) ex_seven)) []))).
  split; vm_compute; reflexivity.
Qed.

(** ** C17: appending *)

(** a session with open( name ), without a mode *)
Definition create_session (comp : Z -> bytes -> bytes) (d : disk) (name : bytes) (s : sess) : Res disk :=
  do w <- open_create d name (ss_level s) (ss_raw s);
  do c <- run_writer comp w s;
  Ok (save d (sio_filename name) c).
(** without a mode no existing file is overwritten *)
Theorem C17_no_overwriting : forall comp d name s, (forall c, d (sio_filename name) = Some c -> create_session comp d name s = Throw LIOException) /\
  (forall d', create_session comp d name s = Ok d' -> d (sio_filename name) = None /\ new_session comp d name s = Ok d').
Proof.
  intros comp d name s. unfold create_session, new_session, open_create. split.
  - intros c E. rewrite E. reflexivity.
  - intros d' H. destruct (d (sio_filename name)); [discriminate H|]. split; [reflexivity|exact H].
Qed.
Print Assumptions C17_no_overwriting.
Example C17_no_overwriting_case : create_session ex_comp ex_disk (str "x") ex_sess1 = Throw LIOException /\
  exists d', create_session ex_comp ex_disk (str "y") ex_sess1 = Ok d'.
Proof.
  split; [vm_compute; reflexivity|]. exists (disk_of (create_session ex_comp ex_disk (str "y") ex_sess1)). apply disk_of_ok. vm_compute. reflexivity.
Qed.

(** [d1] has the file after the sessions [s :: l], [d2] after one more: all bytes in front of the last
    record are the same, and the index of the new file has the positions of all items. *)
Theorem C17_append : forall comp uncomp d name s l s', codec_ok comp uncomp -> sessions_ok comp (s :: l ++ [s']) ->
  exists d1 d2 data1 data2, sessions comp uncomp d name s l = Ok d1 /\ append_session comp uncomp d1 name s' = Ok d2 /\
    d1 (sio_filename name) = Some data1 /\ d2 (sio_filename name) = Some data2 /\
    (forall n, bytes_eqb n (sio_filename name) = false -> d2 n = d1 n) /\
    access_size <= Zlen data1 /\ Zlen data1 <= Zlen data2 /\
    sub data2 0 (Zlen data1 - access_size) = sub data1 0 (Zlen data1 - access_size) /\
    (numbered (items_of (s :: l ++ [s'])) -> Forall (sess_covers comp) (s :: l ++ [s']) -> forall mraw,
      exists ps, located data2 0 (texts comp (s :: l ++ [s'])) ps /\
        Forall2 (fun i p => finds uncomp data2 mraw (item_key i) p) (items_of (s :: l ++ [s'])) ps).
Proof. exact append_keeps. Qed.
Print Assumptions C17_append.

Example C17_case : codec_ok ex_comp ex_uncomp /\ sessions_ok ex_comp (ex_sess1 :: [] ++ [ex_sess2]) /\
  numbered (items_of (ex_sess1 :: [] ++ [ex_sess2])) /\ Forall (sess_covers ex_comp) (ex_sess1 :: [] ++ [ex_sess2]).
Proof. split; [exact ex_codec|]. split; [exact (proj1 ex_sessions_ok)|]. split; [exact ex_numbered|exact (proj1 ex_covers)]. Qed.

(** appending to a file that was not closed destroys what is in it *)
Theorem C17_append_destroys_refuted : exists d d', ex_use d false (repeat (Next true) 5) = [SEvt 5 1; SEvt 5 2; SEvt 5 3; SEvt 5 4; SNull] /\
  append_session ex_comp ex_uncomp d (str "x") (ex_of [ex_small 6 1]) = Ok d' /\
  ex_use d' false (repeat (Next true) 2) = [SEvt 6 1; SNull].
Proof.
  exists (ex_cut 280 (ex_make ex_four)), (disk_of (append_session ex_comp ex_uncomp (ex_cut 280 (ex_make ex_four)) (str "x") (ex_of [ex_small 6 1]))).
  split; [vm_compute; reflexivity|]. split; [apply disk_of_ok; vm_compute; reflexivity|vm_compute; reflexivity].
Qed.

(** a file that was closed before anything was written to it can be neither appended to nor opened
    for direct access *)
Theorem C17_empty_file_refuted : exists d, new_session ex_comp empty_disk (str "x") (ex_of []) = Ok d /\
  append_session ex_comp ex_uncomp d (str "x") (ex_of [ex_small 6 1]) = Throw LIOException /\
  ex_use d true [] = [SThrow LIOException] /\ ex_use d false [Next true] = [SNull].
Proof.
  exists (ex_make []). split; [apply disk_of_ok_nil|]. split; [vm_compute; reflexivity|]. split; vm_compute; reflexivity.
Qed.

(** ** C41: skipping and counting *)

(** After any calls [s0], reading [k] events and skipping [k] events lead to the same event, or both
    to the end of the file. *)
Theorem C41_skip_is_reading : forall comp uncomp srt ignore_null d f s0 k direct names raw cbuf mraw next,
  codec_ok comp uncomp -> wf_ok comp uncomp d f -> (direct = true -> Forall (sess_covers comp) (wf_sess f) /\ numbered (items_of (wf_sess f))) ->
  Forall (readable ignore_null names) (items_of (wf_sess f)) -> Forall step_ok s0 -> 0 < next -> (0 < k)%nat ->
  let use l := use_file uncomp srt ignore_null d (wf_name f) l (new_reader direct false names raw cbuf mraw next) in
  let reading := use (s0 ++ repeat (Next true) k ++ [Next true]) in
  let skipping := use (s0 ++ [Skip (Z.of_nat k); Next true]) in
  Forall is_event_result (firstn k (skipn (length s0) reading)) ->
  exists rs evs x y, reading = rs ++ evs ++ [x] /\ skipping = rs ++ [RDone; y] /\ same_event srt names (items_of (wf_sess f)) x y.
Proof. exact skip_is_reading. Qed.
Print Assumptions C41_skip_is_reading.

Example C41_case : numbered (items_of (wf_sess ex_file)) /\
  ex_use ex_disk false [Next true; Skip 1; Next true; Next true] = [SEvt 42 7; SDone; SEvt 43 7; SNull] /\
  ex_use ex_disk false [Next false; Skip 3; Next true] = [SRun 42; SDone; SNull].
Proof. split; [exact ex_numbered|]. split; vm_compute; reflexivity. Qed.

(** the numbers of events and runs, and the lists of them, are those of the items *)
Theorem C41_counting : forall comp uncomp d f direct names raw cbuf mraw next, codec_ok comp uncomp -> wf_ok comp uncomp d f ->
  Forall (sess_covers comp) (wf_sess f) -> numbered (items_of (wf_sess f)) ->
  let W := items_of (wf_sess f) in
  exists r r1, open_file uncomp d (wf_name f) (new_reader direct false names raw cbuf mraw next) = (Ok tt, r) /\
    number_of_events uncomp r = (Ok (Zlen (item_events W)), r1) /\ number_of_runs uncomp r1 = (Ok (Zlen (item_runs W)), r1) /\
    number_of_runs uncomp r = (Ok (Zlen (item_runs W)), r1) /\ number_of_events uncomp r1 = (Ok (Zlen (item_events W)), r1) /\
    (direct = true -> r1 = r) /\
    exists runs events, runs_of (mg_map (rd_mgr r1)) = Ok runs /\ events_of (mg_map (rd_mgr r1)) = Ok events /\
      Permutation runs (item_runs W) /\ Permutation events (item_events W).
Proof. exact counts. Qed.
Print Assumptions C41_counting.

Example C41_counting_case : item_events (items_of (wf_sess ex_file)) = [(42, 7); (42, 3); (43, 7)] /\ item_runs (items_of (wf_sess ex_file)) = [42; 43].
Proof. split; reflexivity. Qed.

(** counting without direct access goes back to the start of the file *)
Theorem C41_counting_rewinds_refuted : exists r r1 r2 r3 l1 l3, open_file ex_uncomp ex_disk ex_name (ex_read false) = (Ok tt, r) /\
  read_next_event ex_uncomp isort false ex_disk r = (Ok (Some l1), r1) /\
  number_of_events ex_uncomp r1 = (Ok 3, r2) /\ read_next_event ex_uncomp isort false ex_disk r2 = (Ok (Some l3), r3) /\
  ev_num (le_evt l1) = 7 /\ ev_run (le_evt l1) = 42 /\ ev_num (le_evt l3) = 7 /\ ev_run (le_evt l3) = 42.
Proof. exact ex_rewinds. Qed.

(** skipping does not go on to the next file, reading does *)
Theorem C41_next_file_refuted : exists d n1 n2,
  ex_use_all d [n1; n2] false (repeat (Next true) 6) = [SEvt 5 1; SEvt 5 2; SEvt 5 3; SEvt 5 4; SEvt 6 1; SEvt 6 2] /\
  ex_use_all d [n1; n2] false [Skip 5; Next true] = [SDone; SThrow EBadState].
Proof. exists ex_two, ex_name, (sio_filename (str "y")). split; vm_compute; reflexivity. Qed.
