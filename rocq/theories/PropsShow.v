(** * The program dumpevent (C80) *)

From Verif Require Import Bytes BitModel BitSpec BitProofs StrMap SioModel Ieee ObjModel EventModel IndexModel FileModel FileSpec FileDirect FileExamples
  ObjSpec EventFacts EventExamples IndexExamples ShowModel ShowSpec ShowProofs.

(** dumpevent file n: the n-th event of the file is shown, with the collections that the environment variable
    names; if the file has n - 1 events the program says so; if it has fewer the program is terminated by an
    exception that is not caught. *)
Theorem C80_nth_event_partial : forall comp uncomp srt ignore_null d f a n env names raw cbuf mraw next,
  codec_ok comp uncomp -> wf_ok comp uncomp d f -> Forall (readable ignore_null names) (items_of (wf_sess f)) -> 0 < next ->
  number_text a n -> 1 <= n < 2 ^ 31 -> selects env names ->
  let W := items_of (wf_sess f) in
  let out := dumpevent uncomp srt ignore_null d [wf_name f; a] env (fun direct names => new_reader direct false names raw cbuf mraw next) in
  (forall pre h e only post, W = pre ++ WEvt h e only :: post -> evts pre = n - 1 ->
     exists le, out = DShown le /\ event_copy srt names next h e only le) /\
  (evts W = n - 1 -> out = DFew n) /\
  (evts W < n - 1 -> out = DTerminate EBadState).
Proof.
  intros comp uncomp srt ig d f a n env names raw cbuf mraw next HC HW HR Hp HA HN HS W out.
  assert (E : out = of_two n (use_file uncomp srt ig d (wf_name f) [Skip (n - 1); Next true] (new_reader false false names raw cbuf mraw next))).
  { unfold out. rewrite (nth_calls uncomp srt ig d (wf_name f) a env _ n (atoi_text a n HA ltac:(lia)) ltac:(lia)). rewrite (names_selected env names HS). reflexivity. }
  assert (A := file_answers comp uncomp srt ig d f [Skip (n - 1); Next true] false names raw cbuf mraw next HC HW ltac:(discriminate) HR ltac:(repeat constructor; unfold step_ok, int32, two31 in *; lia) Hp).
  destruct (nth_answer uncomp srt names (wf_name f) W next n _ ltac:(lia) A) as (H1 & H2 & H3). rewrite E. clearbody out.
  split; [|split].
  - intros pre h e only post EW EP. destruct (H1 pre h e only post EW EP) as (le & -> & C). exists le. split; [reflexivity|exact C].
  - intros Q. rewrite (H2 Q). reflexivity.
  - intros Q. rewrite (H3 Q). reflexivity.
Qed.
Print Assumptions C80_nth_event_partial.

(** dumpevent file run event: the event with these numbers is shown, or the program says that there is none. *)
Theorem C80_selected_event : forall comp uncomp srt ignore_null d f a b rest run num env names raw cbuf mraw next,
  codec_ok comp uncomp -> wf_ok comp uncomp d f -> Forall (sess_covers comp) (wf_sess f) -> numbered (items_of (wf_sess f)) ->
  Forall (readable ignore_null names) (items_of (wf_sess f)) -> 0 < next ->
  number_text a run -> - 2 ^ 31 < run < 2 ^ 31 -> number_text b num -> 0 <= num < 2 ^ 31 -> selects env names ->
  let W := items_of (wf_sess f) in
  let out := dumpevent uncomp srt ignore_null d (wf_name f :: a :: b :: rest) env (fun direct names => new_reader direct false names raw cbuf mraw next) in
  (forall h e only, In (WEvt h e only) W -> ev_run e = run -> ev_num e = num -> exists le, out = DShown le /\ event_copy srt names next h e only le) /\
  ((forall h e only, In (WEvt h e only) W -> ev_run e = run -> ev_num e <> num) -> out = DNotFound run num).
Proof.
  intros comp uncomp srt ig d f a b rest run num env names raw cbuf mraw next HC HW Hcov Hnum HR Hp HA Hrun HB Hn HS W out.
  assert (E : out = of_one (DNotFound run num) (use_file uncomp srt ig d (wf_name f) [GetEvt run num] (new_reader true false names raw cbuf mraw next))).
  { unfold out. rewrite (selected_calls uncomp srt ig d (wf_name f) a b rest env _ run num (atoi_text a run HA ltac:(lia)) (atoi_text b num HB ltac:(lia))).
    rewrite (names_selected env names HS). reflexivity. }
  destruct (direct_access comp uncomp srt ig d f run num names raw cbuf mraw next HC HW Hcov Hnum HR ltac:(unfold int32, two31; lia) Hn Hp) as [H1 H2].
  rewrite E. clearbody out. split.
  - intros h e only HI E1 E2. destruct (H1 h e only HI E1 E2) as (le & -> & C). exists le. split; [reflexivity|exact C].
  - intros Q. rewrite (H2 Q). reflexivity.
Qed.
Print Assumptions C80_selected_event.

(** Too few arguments, or a number that is not positive: nothing is read. *)
Theorem C80_usage : forall uncomp srt ignore_null d file a n env new, number_text a n -> - 2 ^ 31 < n < 1 ->
  dumpevent uncomp srt ignore_null d [] env new = DUsage /\ dumpevent uncomp srt ignore_null d [file] env new = DUsage /\
  dumpevent uncomp srt ignore_null d [file; a] env new = DUsage.
Proof.
  intros uncomp srt ig d file a n env new HA HN. split; [reflexivity|]. split; [reflexivity|]. unfold dumpevent.
  rewrite (atoi_text a n HA ltac:(lia)). destruct (Z.ltb_spec n 1); [reflexivity|lia].
Qed.
Print Assumptions C80_usage.

(** A file that does not exist is not reported: the exception of sio is not an IOException. *)
Theorem C80_missing_file : forall uncomp srt ignore_null d file a b n m env new, d file = None ->
  number_text a n -> 1 <= n < 2 ^ 31 -> number_text b m -> - 2 ^ 31 < m < 2 ^ 31 ->
  dumpevent uncomp srt ignore_null d [file; a] env new = DTerminate ENotOpen /\
  dumpevent uncomp srt ignore_null d [file; a; b] env new = DTerminate ENotOpen.
Proof.
  intros uncomp srt ig d file a b n m env new HD HA HN HB HM. unfold dumpevent.
  rewrite (atoi_text a n HA ltac:(lia)). cbn [bind]. rewrite (atoi_text b m HB HM). cbn [bind].
  destruct (Z.ltb_spec n 1); [lia|]. unfold open_file. rewrite HD. split; reflexivity.
Qed.
Print Assumptions C80_missing_file.

(** three events in a file *)
Definition ex_show (d : disk) (args : list bytes) (env : option bytes) : dumped :=
  dumpevent ex_uncomp isort false d args env (fun direct names => new_reader direct false names [] [] ex_buf 1000).
(** the numbers and the collections of the event that is shown *)
Definition numbers (x : dumped) : option (Z * Z * list bytes) :=
  match x with DShown l => Some (ev_run (le_evt l), ev_num (le_evt l), sm_keys (ev_cols (le_evt l))) | _ => None end.

Example C80_case : codec_ok ex_comp ex_uncomp /\ wf_ok ex_comp ex_uncomp ex_disk ex_file /\ Forall (sess_covers ex_comp) (wf_sess ex_file) /\
  numbered (items_of (wf_sess ex_file)) /\ Forall (readable false []) (items_of (wf_sess ex_file)) /\ evts (items_of (wf_sess ex_file)) = 3 /\
  map (fun a => option_map fst (numbers (ex_show ex_disk [ex_name; a] None))) [str "1"; str " +2nd"; str "3"] = [Some (42, 7); Some (42, 3); Some (43, 7)] /\
  ex_show ex_disk [ex_name; str "4"] None = DFew 4 /\ ex_show ex_disk [ex_name; str "first"] None = DUsage /\
  option_map fst (numbers (ex_show ex_disk [ex_name; str "42"; str "3"] None)) = Some (42, 3) /\
  ex_show ex_disk [ex_name; str "43"; str "3"; str "more"] None = DNotFound 43 3.
Proof.
  split; [exact ex_codec|]. split; [exact (proj1 ex_wf)|]. split; [exact (proj1 ex_covers)|]. split; [exact ex_numbered|]. split; [exact ex_readable|].
  split; [reflexivity|]. repeat split; vm_compute; reflexivity.
Qed.
Example C80_names_case : spaced (str "  Gen	Sel ") [str "Gen"; str "Sel"] /\
  option_map snd (numbers (ex_show ex_disk [ex_name; str "1"] (Some (str "  Gen	Sel ")))) = Some [str "Gen"; str "Sel"] /\
  option_map snd (numbers (ex_show ex_disk [ex_name; str "1"] (Some (str "Gen")))) = Some [str "Gen"].
Proof.
  split; [|split; vm_compute; reflexivity].
  assert (W : forall l, forallb (fun c => existsb (fun x => if byte_dec c x then true else false) white) l = true -> Forall (fun c => In c white) l).
  { intros l H. apply Forall_forall. intros c Hc. rewrite forallb_forall in H. specialize (H c Hc). apply existsb_exists in H. destruct H as (x & Hx & E).
    destruct (byte_dec c x) as [->|]; [exact Hx|discriminate E]. }
  assert (V : forall l, forallb (fun c => negb (existsb (fun x => if byte_dec c x then true else false) white)) l = true -> Forall (fun c => ~ In c white) l).
  { intros l H. apply Forall_forall. intros c Hc Hin. rewrite forallb_forall in H. specialize (H c Hc). apply negb_true_iff in H.
    assert (T : existsb (fun x => if byte_dec c x then true else false) white = true) by (apply existsb_exists; exists c; split; [exact Hin|destruct (byte_dec c c); congruence]).
    congruence. }
  apply (spaced_word (str "  ") (str "Gen") (str "	Sel ") [str "Sel"]); [apply W; reflexivity|discriminate|apply V; reflexivity| |].
  - intros c r E. injection E as <- _. right. left. reflexivity.
  - apply (spaced_word (str "	") (str "Sel") (str " ") []); [apply W; reflexivity|discriminate|apply V; reflexivity| |].
    + intros c r E. injection E as <- _. left. reflexivity.
    + apply spaced_end. apply W. reflexivity.
Qed.

(** The message that there are fewer events is not printed for every number that is too large. *)
Theorem C80_far_beyond_refuted : exists d f a n, wf_ok ex_comp ex_uncomp d f /\ number_text a n /\ evts (items_of (wf_sess f)) < n /\
  ex_show d [wf_name f; a] None = DTerminate EBadState.
Proof.
  exists ex_disk, ex_file, (str "5"), 5. split; [exact (proj1 ex_wf)|]. split; [|split; [reflexivity|vm_compute; reflexivity]].
  apply (text_number [] [] (str "5") [] 5); [constructor|left; reflexivity|apply (numeral_one 5); lia|discriminate].
Qed.
Print Assumptions C80_far_beyond_refuted.

Example C80_missing_case : ex_show empty_disk [ex_name; str "1"] None = DTerminate ENotOpen /\ ex_show empty_disk [ex_name; str "42"; str "7"] None = DTerminate ENotOpen /\
  ex_show ex_disk [ex_name; str "-3"] None = DUsage.
Proof. repeat split; vm_compute; reflexivity. Qed.
