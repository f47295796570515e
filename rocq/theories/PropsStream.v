(** * readStream: listeners are called for each record of the files

    [streams] says what several calls of readStream give, each with a number of listeners and a limit
    for the number of records.  [shareable] is needed for more than one listener: the event is post
    processed for each of them, which adds to the links of its MCParticles unless the parents of a
    particle are in the collection of the particle. *)

From Verif Require Import Bytes StrMap SioModel SioProofs SioSpec Ieee ObjModel ObjSpec CollSpec EventModel EventSpec EventProofs EventFacts EventExamples
  IndexModel IndexSpec IndexProofs FileModel IndexFile IndexFacts IndexExamples FileSpec FileWrite FileSessions FileRead FileSeq FileDeliver FileFacts FileUse FileDirect FileMore
  PostProofs FileExamples StreamSpec FileStream.

(** ** C47: each listener is called once for each written item, in order *)

(** Every call with a limit delivers the next items, up to the limit, over all files that were
    opened.  EndOfDataException is thrown if there are fewer; without a limit, [max_int], all of
    them are delivered.  From then on an IOException is thrown. *)
Theorem C47_listeners : forall comp uncomp srt ignore_null d files ops direct names raw cbuf mraw next,
  codec_ok comp uncomp -> files <> [] -> Forall (wf_ok comp uncomp d) files ->
  (direct = true -> match files with f :: _ => Forall (sess_covers comp) (wf_sess f) | [] => True end) ->
  Forall (fun w => readable ignore_null names (snd w)) (flat_map wf_items files) ->
  Forall (fun w => Forall (fun nm => shareable names (fst nm) (snd w)) ops) (flat_map wf_items files) ->
  Forall (fun nm => 0 < snd nm <= max_int) ops -> 0 < next ->
  streams srt names next (Some (flat_map wf_items files)) ops
    (stream_files uncomp srt ignore_null d (map wf_name files) ops (new_reader direct false names raw cbuf mraw next)).
Proof. exact stream_files_spec. Qed.
Print Assumptions C47_listeners.

(** what the listeners were called with: run headers, and run and event number of events *)
Definition ex_called (x : Res unit * list (nat * call)) : Res unit * list (nat * seen) :=
  (fst x, map (fun kc => (fst kc, match snd kc with CRun h => SRun (rh_run h) | CEvt l => SEvt (ev_run (le_evt l)) (ev_num (le_evt l)) end)) (snd x)).

Example C47_case : Forall (fun w => readable false [] (snd w)) (flat_map wf_items [ex_file; ex_file]) /\
  Forall (fun w => Forall (fun nm => shareable [] (fst nm) (snd w)) [(2%nat, 2); (1%nat, 4); (1%nat, max_int); (1%nat, 1)]) (flat_map wf_items [ex_file; ex_file]) /\
  map ex_called (stream_files ex_uncomp isort false ex_disk [ex_name; ex_name] [(2%nat, 2); (1%nat, 4); (1%nat, max_int); (1%nat, 1)] (ex_read false)) =
    [(Ok tt, [(0%nat, SRun 42); (1%nat, SRun 42); (0%nat, SEvt 42 7); (1%nat, SEvt 42 7)]);
     (Ok tt, [(0%nat, SEvt 42 3); (0%nat, SRun 43); (0%nat, SEvt 43 7); (0%nat, SRun 42)]);
     (Ok tt, [(0%nat, SEvt 42 7); (0%nat, SEvt 42 3); (0%nat, SRun 43); (0%nat, SEvt 43 7)]);
     (Throw EBadState, [])] /\
  map ex_called (stream_files ex_uncomp isort false ex_disk [ex_name] [(1%nat, 3); (1%nat, 5)] (ex_read true)) =
    [(Ok tt, [(0%nat, SRun 42); (0%nat, SEvt 42 7); (0%nat, SEvt 42 3)]); (Throw LEndOfData, [(0%nat, SRun 43); (0%nat, SEvt 43 7)])].
Proof.
  assert (R : forall P : witem -> Prop, Forall P (items_of (wf_sess ex_file)) -> Forall (fun w => P (snd w)) (flat_map wf_items [ex_file; ex_file])).
  { intros P H. cbn [flat_map]. rewrite app_nil_r. apply Forall_app. split; apply Forall_map; exact H. }
  split; [apply R; exact ex_readable|]. split; [|split; vm_compute; reflexivity].
  apply (R (fun w => Forall (fun nm => shareable [] (fst nm) w) _)).
  assert (O : forall run num n, shareable [] n (WEvt ex_heap (ex_ev run num) [])).
  { intros run num n. right. intros nc a p Hn Hm Ha Hp. cbn in Hn. repeat (destruct Hn as [<-|Hn]; [try discriminate Hm|]); [|destruct Hn].
    cbn in Ha. repeat (destruct Ha as [<-|Ha]; [cbn in Hp; cbn; tauto|]). destruct Ha. }
  repeat (apply Forall_cons; [repeat (apply Forall_cons; [first [exact I|apply O]|]); apply Forall_nil|]). apply Forall_nil.
Qed.

(** The items of a file that was cut off: those in front of the cut, as for reading the events. *)
Theorem C47_truncated_file : forall comp uncomp srt ignore_null d0 d f k n max names raw cbuf mraw next data,
  codec_ok comp uncomp -> wf_ok comp uncomp d0 f -> d0 (wf_name f) = Some data -> 0 <= k ->
  d (wf_name f) = Some (firstn (Z.to_nat k) data) ->
  Forall (fun w => readable ignore_null names (snd w)) (wf_items f) -> Forall (fun w => shareable names n (snd w)) (wf_items f) ->
  0 < next -> 0 < max <= max_int ->
  exists ps m, located data 0 (texts comp (wf_sess f)) ps /\
    (forall j p t, nth_error ps j = Some p -> nth_error (texts comp (wf_sess f)) j = Some t ->
       ((j < m)%nat -> p + Zlen t <= k + 3) /\ ((m <= j)%nat -> k < p + Zlen t)) /\
    exists x cs next', stream_files uncomp srt ignore_null d [wf_name f] [(n, max)] (new_reader false false names raw cbuf mraw next) = [(x, cs)] /\
      (if (max <? max_int) && (max <=? Zlen (firstn m (wf_items f)))
       then x = Ok tt /\ streamed srt names n next (firstn (Z.to_nat max) (wf_items f)) next' cs
       else (x = Ok tt \/ exists e, x = Throw e) /\ streamed srt names n next (firstn m (wf_items f)) next' cs).
Proof. exact stream_truncated. Qed.
Print Assumptions C47_truncated_file.

Example C47_truncated_case :
  map ex_called (stream_files ex_uncomp isort false (ex_cut 2500 ex_disk) [ex_name] [(1%nat, max_int)] (ex_read false)) = [(Throw EIoFailure, [(0%nat, SRun 42); (0%nat, SEvt 42 7)])] /\
  map ex_called (stream_files ex_uncomp isort false (ex_cut 2500 ex_disk) [ex_name] [(1%nat, 2)] (ex_read false)) = [(Ok tt, [(0%nat, SRun 42); (0%nat, SEvt 42 7)])].
Proof. split; vm_compute; reflexivity. Qed.

(** Two listeners and a particle whose parent is in another collection: the first one finds one
    parent, the second one finds it twice; without [shareable] they are not given the same. *)
Definition ex_apart : witem :=
  WEvt ex_heap (mkEvt 5 1 0 (str "D") no_params [(str "A", mkColl (str "MCParticle") 0 no_params [1]); (str "B", mkColl (str "MCParticle") 0 no_params [2])]) [].
Definition ex_kin (kc : nat * call) : list (nat * list (list addr * list addr)) :=
  match snd kc with
  | CEvt l => [(fst kc, flat_map (fun nc => map (fun a => (parents (le_heap l) a, daughters (le_heap l) a)) (c_elems (snd nc))) (ev_cols (le_evt l)))]
  | CRun _ => []
  end.
Theorem C47_two_listeners_refuted : exists d i cs, new_session ex_comp empty_disk (str "x") (ex_of [i]) = Ok d /\ readable false [] i /\
  stream_files ex_uncomp isort false d [ex_name] [(2%nat, max_int)] (ex_read false) = [(Ok tt, cs)] /\
  flat_map ex_kin cs = [(0%nat, [([], [1001]); ([1000], [])]); (1%nat, [([], [1001; 1001; 1001]); ([1000; 1000], [])])].
Proof.
  exists (disk_of (new_session ex_comp empty_disk (str "x") (ex_of [ex_apart]))), ex_apart,
    (flat_map snd (stream_files ex_uncomp isort false (disk_of (new_session ex_comp empty_disk (str "x") (ex_of [ex_apart]))) [ex_name] [(2%nat, max_int)] (ex_read false))).
  split; [apply disk_of_ok; vm_compute; reflexivity|]. split.
  - split; [|right; intros nc a Hn Hs; cbn in Hn; destruct Hn as [<-|[<-|[]]]; discriminate Hs].
    intros pre nc post a p E Hm Ha Hp. change (read_back [] [] _) with [(str "A", mkColl (str "MCParticle") 0 no_params [1]); (str "B", mkColl (str "MCParticle") 0 no_params [2])] in E.
    destruct pre as [|x [|y pre]]; cbn [app] in E.
    + injection E as <- _. cbn in Ha. destruct Ha as [<-|[]]. destruct Hp.
    + injection E as <- <- _. cbn in Ha. destruct Ha as [<-|[]]. cbn in Hp. destruct Hp as [<-|[]]. eexists. split; [left; reflexivity|]. split; [reflexivity|]. left. reflexivity.
    + destruct pre; discriminate E.
  - set (d := disk_of _).
    assert (E : map fst (stream_files ex_uncomp isort false d [ex_name] [(2%nat, max_int)] (ex_read false)) = [Ok tt]) by (vm_compute; reflexivity).
    split; [|vm_compute; reflexivity]. destruct (stream_files ex_uncomp isort false d [ex_name] [(2%nat, max_int)] (ex_read false)) as [|[x cs] [|]]; try discriminate E.
    injection E as ->. cbn [flat_map snd]. rewrite app_nil_r. reflexivity.
Qed.

(** a limit of 0: a run header is delivered nevertheless; at an event the header of the event is read
    and the event is lost, the next call throws *)
Theorem C47_limit_zero_refuted : exists d, 
  map ex_called (stream_files ex_uncomp isort false ex_disk [ex_name] [(1%nat, 0)] (ex_read false)) = [(Ok tt, [(0%nat, SRun 42)])] /\
  new_session ex_comp empty_disk (str "x") (ex_of ex_four) = Ok d /\
  map ex_called (stream_files ex_uncomp isort false d [ex_name] [(1%nat, 0); (1%nat, 1)] (ex_read false)) = [(Ok tt, []); (Throw LIOException, [])] /\
  map ex_called (stream_files ex_uncomp isort false d [ex_name] [(1%nat, 1)] (ex_read false)) = [(Ok tt, [(0%nat, SEvt 5 1)])].
Proof.
  exists (disk_of (new_session ex_comp empty_disk (str "x") (ex_of ex_four))). split; [vm_compute; reflexivity|]. split; [apply disk_of_ok; vm_compute; reflexivity|]. split; vm_compute; reflexivity.
Qed.
