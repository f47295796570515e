(** * Processing events in parallel

    The scheduler of the example program starts a task for each event that is read, at most [max] at a time, and waits
    for all of them before it prints a run header and at the end.  The theorems are for all interleavings of the steps
    of the main thread and of the tasks. *)

From Verif Require Import Bytes StrMap SioModel SioProofs SioSpec Ieee ObjModel ObjSpec CollSpec EventModel EventSpec EventProofs EventFacts EventExamples
  IndexModel IndexSpec IndexProofs FileModel IndexFile IndexFacts IndexExamples FileSpec FileWrite FileSessions FileRead FileSeq FileDeliver FileFacts FileUse FileDirect FileMore
  PostProofs FileExamples StreamSpec FileStream SchedModel SchedSpec SchedProofs.

(** ** C62: in every schedule each event is processed once, and the program can end *)

(** [cs] are the items of the files in order, as a single listener is given them.  Whatever the schedule: at most [max]
    tasks at a time, items in the order of the files, no exception; if the program has ended all events were processed;
    if it has not ended there is a way to its end. *)
Theorem C62_schedules : forall comp uncomp srt ignore_null d files direct names raw cbuf mraw next max,
  codec_ok comp uncomp -> files <> [] -> Forall (wf_ok comp uncomp d) files ->
  (direct = true -> match files with f :: _ => Forall (sess_covers comp) (wf_sess f) | [] => True end) ->
  Forall (fun w => readable ignore_null names (snd w)) (flat_map wf_items files) -> 0 < next ->
  exists cs next', streamed srt names 1 next (flat_map wf_items files) next' (map (pair 0%nat) cs) /\
    forall ws, let s := sched_run uncomp srt ignore_null d max ws (sched_start uncomp d (map wf_name files) (new_reader direct false names raw cbuf mraw next)) in
      orderly max (sd_log s) /\ (exists rest, cs = handled (sd_log s) ++ rest) /\
      (forall e, sd_pc s <> MFail e) /\ (forall k, sd_pc s <> MUndef k) /\
      (sd_pc s = MDone -> handled (sd_log s) = cs /\
         forall k l, In (EStart k l) (sd_log s) -> In (EProc k (ev_run (le_evt l)) (ev_num (le_evt l))) (sd_log s) /\ In (EEnd k) (sd_log s)) /\
      (0 < max -> exists ws', sd_pc (sched_run uncomp srt ignore_null d max ws' s) = MDone).
Proof.
  intros comp uncomp srt ignore_null d files direct names raw cbuf mraw next max Hc Hne Hok Hdir HR Hp.
  destruct (files_laid comp uncomp d files direct names raw cbuf mraw next Hc Hne Hok Hdir) as (r & O & HL & N1 & N2).
  assert (H : streams srt names next (Some (flat_map wf_items files)) (repeat (1%nat, 1) (S (length (flat_map wf_items files))))
                (run_streams uncomp srt ignore_null d (repeat (1%nat, 1) (S (length (flat_map wf_items files)))) r)).
  { rewrite <- N2. apply (run_streams_spec comp); [|exact HL|exact N1|lia|exact HR|].
    - apply Forall_forall. intros x Hx. apply repeat_spec in Hx. subst x. cbn [snd]. unfold max_int. lia.
    - apply Forall_forall. intros w _. apply Forall_forall. intros x Hx. apply repeat_spec in Hx. subst x. cbn [fst]. unfold shareable. destruct (snd w); [exact I|left; lia]. }
  destruct (run_supply uncomp srt ignore_null d names _ _ next r eq_refl H) as (cs & next' & St & Sp).
  exists cs, next'. split; [exact St|]. intros ws. unfold sched_start. rewrite O. cbv zeta. set (s := sched_run _ _ _ _ _ ws _).
  destruct (run_ok uncomp srt ignore_null d max ws cs _ cs (start_inv uncomp srt ignore_null d max r cs Sp)) as (rem & Iv). fold s in Iv.
  split; [exact (i_order _ _ _ _ _ _ _ _ Iv)|]. split; [exists rem; exact (i_items _ _ _ _ _ _ _ _ Iv)|].
  pose proof (i_pend _ _ _ _ _ _ _ _ Iv) as Pd. split; [intros e E; rewrite E in Pd; exact Pd|]. split; [intros k E; rewrite E in Pd; exact Pd|]. split.
  - intros E. rewrite E in Pd. cbn [pending] in Pd. subst rem. pose proof (i_items _ _ _ _ _ _ _ _ Iv) as Hi. rewrite app_nil_r in Hi. split; [symmetry; exact Hi|].
    intros k l Hs. pose proof (i_wait _ _ _ _ _ _ _ _ Iv) as Z. rewrite E in Z. pose proof (i_start _ _ _ _ _ _ _ _ Iv k l Hs) as Hk.
    pose proof (i_task _ _ _ _ _ _ _ _ Iv k) as T. destruct (nth_error (sd_tasks s) k) as [t|] eqn:Et; [|apply nth_error_None in Et; lia].
    pose proof (running_zero _ Z k t Et). subst t. split; [exact (end_printed max _ k l (i_order _ _ _ _ _ _ _ _ Iv) Hs T)|exact T].
  - intros M. exact (can_end uncomp srt ignore_null d max (length rem) cs s rem M Iv (le_n _)).
Qed.
Print Assumptions C62_schedules.

(** what happened, with the numbers of the tasks and of their events *)
Inductive ex_entry := XStart (k : nat) (run num : Z) | XProc (k : nat) (run num : Z) | XEnd (k : nat) | XRun (run : Z).
Definition ex_seen (e : entry) : ex_entry :=
  match e with EStart k l => XStart k (ev_run (le_evt l)) (ev_num (le_evt l)) | EProc k r n => XProc k r n | EEnd k => XEnd k | ERun h => XRun (rh_run h) end.
Definition ex_sched (max : Z) (ws : list who) : sched :=
  sched_run ex_uncomp isort false ex_disk max ws (sched_start ex_uncomp ex_disk [ex_name] (ex_read true)).

(** The file of the other examples.  Two tasks at a time: the second task prints first and the main thread waits for
    both in front of the next run header.  One task at a time: the second event waits for the first task. *)
Example C62_case : codec_ok ex_comp ex_uncomp /\ Forall (wf_ok ex_comp ex_uncomp ex_disk) [ex_file] /\ Forall (fun w => readable false [] (snd w)) (flat_map wf_items [ex_file]) /\ Forall (sess_covers ex_comp) (wf_sess ex_file) /\
  (let s := ex_sched 2 (repeat Main 12 ++ [Task 1; Task 0; Task 1; Main; Main; Task 0] ++ repeat Main 15 ++ [Task 2; Task 2] ++ repeat Main 5) in
   sd_pc s = MDone /\ map ex_seen (sd_log s) =
    [XRun 42; XStart 0 42 7; XStart 1 42 3; XProc 1 42 3; XProc 0 42 7; XEnd 1; XEnd 0; XRun 43; XStart 2 43 7; XProc 2 43 7; XEnd 2]) /\
  (let s := ex_sched 1 (repeat Main 12 ++ [Task 1; Task 0; Task 1; Main; Main; Task 0] ++ repeat Main 7 ++ [Task 1]) in
   map ex_seen (sd_log s) = [XRun 42; XStart 0 42 7; XProc 0 42 7; XEnd 0; XStart 1 42 3; XProc 1 42 3]).
Proof.
  split; [exact ex_codec|]. split; [exact (Forall_cons _ (proj1 ex_wf) (Forall_nil _))|].
  split; [cbn [flat_map]; rewrite app_nil_r; apply Forall_map; exact ex_readable|].
  split; [exact (proj1 ex_covers)|]. split; [split; vm_compute; reflexivity|vm_compute; reflexivity].
Qed.

(** ** The number of tasks *)

(** a positive number is used as it is, 0 gives one task *)
Theorem C62_number_of_tasks : forall hw z, 0 <= z < 2 ^ 31 -> n_threads hw (Some z) = Z.max 1 z.
Proof.
  intros hw z Hz. unfold n_threads, u32. change two32 with (2 ^ 32). rewrite Z.mod_small by lia. destruct (Z.leb_spec z 0); lia.
Qed.
Print Assumptions C62_number_of_tasks.
Example C62_number_case : n_threads 8 (Some 3) = 3 /\ n_threads 8 (Some 0) = 1 /\ n_threads 8 None = 8. Proof. repeat split. Qed.

(** hardware_concurrency() may return 0.  No task is ever started then, and the program does not end for any file with
    an event. *)
Theorem C62_no_tasks_refuted : n_threads 0 None = 0 /\ forall comp uncomp srt ignore_null d files direct names raw cbuf mraw next f h e only,
  codec_ok comp uncomp -> files <> [] -> Forall (wf_ok comp uncomp d) files ->
  (direct = true -> match files with f :: _ => Forall (sess_covers comp) (wf_sess f) | [] => True end) ->
  Forall (fun w => readable ignore_null names (snd w)) (flat_map wf_items files) -> 0 < next ->
  In (f, WEvt h e only) (flat_map wf_items files) ->
  forall ws, let s := sched_run uncomp srt ignore_null d 0 ws (sched_start uncomp d (map wf_name files) (new_reader direct false names raw cbuf mraw next)) in
    starts (sd_log s) = O /\ sd_pc s <> MDone.
Proof.
  split; [reflexivity|]. intros comp uncomp srt ignore_null d files direct names raw cbuf mraw next f h e only Hc Hne Hok Hdir HR Hp Hin ws s.
  destruct (C62_schedules comp uncomp srt ignore_null d files direct names raw cbuf mraw next 0 Hc Hne Hok Hdir HR Hp) as (cs & next' & St & H).
  specialize (H ws). cbv zeta in H. fold s in H. destruct H as (Or & _ & _ & _ & Dn & _).
  assert (No : forall k l, ~ In (EStart k l) (sd_log s)).
  { intros k l Hi. apply in_split in Hi. destruct Hi as (a & b & E). destruct (Or _ _ _ E) as (_ & Lt). lia. }
  split; [revert No; generalize (sd_log s); induction l as [|[] l IH]; intros No; cbn [starts]; try reflexivity; try (apply IH; intros k0 l0 Hi; apply (No k0 l0); right; exact Hi);
    exfalso; apply (No k l0); left; reflexivity|].
  intros E. destruct (Dn E) as (Hh & _).
  assert (Ev : exists le, In (CEvt le) cs).
  { remember (map (pair 0%nat) cs) as ps eqn:Ep. clear - St Hin Ep. revert cs Ep. induction St as [|? f' h' l ? ps St IH|? f' h' e' only' l le ? ps Hc St IH]; intros cs Ep.
    - destruct Hin.
    - destruct Hin as [Hin|Hin]; [discriminate Hin|]. cbn [to_all seq map app] in Ep. destruct cs as [|c cs]; [discriminate Ep|]. injection Ep as _ Ep. destruct (IH Hin cs Ep) as (le & Hl). exists le. right. exact Hl.
    - cbn [to_all seq map app] in Ep. destruct cs as [|c cs]; [discriminate Ep|]. injection Ep as <- _. exists le. left. reflexivity. }
  destruct Ev as (le & Hl). rewrite <- Hh in Hl. revert Hl. clear - No. revert No. generalize (sd_log s). induction l as [|[] l IH]; intros No Hl; cbn [handled] in Hl.
  - exact Hl.
  - apply (No k l0). left. reflexivity.
  - apply IH; [intros k0 l0 Hi; apply (No k0 l0); right; exact Hi|exact Hl].
  - apply IH; [intros k0 l0 Hi; apply (No k0 l0); right; exact Hi|exact Hl].
  - destruct Hl as [Hl|Hl]; [discriminate Hl|]. apply IH; [intros k0 l0 Hi; apply (No k0 l0); right; exact Hi|exact Hl].
Qed.
Print Assumptions C62_no_tasks_refuted.
Example C62_no_tasks_case : In (ex_name, WEvt ex_heap (ex_ev 42 7) []) (flat_map wf_items [ex_file]) /\ map ex_seen (sd_log (ex_sched 0 (repeat Main 100))) = [XRun 42].
Proof. split; [right; left; reflexivity|vm_compute; reflexivity]. Qed.

(** a negative number of tasks in the environment: "<= 0" is never true for the unsigned number *)
Theorem C62_negative_refuted : exists z, n_threads 8 (Some z) = 4294967295 /\ z < 0.
Proof. exists (-1). split; [vm_compute; reflexivity|lia]. Qed.
Print Assumptions C62_negative_refuted.

(** two files, the second one cut off *)
Definition ex_two (m : bytes) : option bytes := if bytes_eqb m (str "cut.slcio") then ex_cut 2500 ex_disk ex_name else ex_disk m.
Definition ex_ws : list who := repeat Main 12 ++ [Task 0; Task 0; Task 1; Task 1] ++ repeat Main 12 ++ [Task 2; Task 2] ++ repeat Main 40.
Definition ex_lost : sched := sched_run ex_uncomp isort false ex_two 4 ex_ws (sched_start ex_uncomp ex_two [ex_name; str "cut.slcio"] (ex_read true)).
Lemma lost_log : forall s, sd_pc s = MFail EIoFailure ->
  map ex_seen (sd_log s) = [XRun 42; XStart 0 42 7; XStart 1 42 3; XProc 0 42 7; XEnd 0; XProc 1 42 3; XEnd 1; XRun 43; XStart 2 43 7; XProc 2 43 7; XEnd 2; XRun 42; XStart 3 42 7] ->
  sd_pc s = MFail EIoFailure /\ (exists l, In (EStart 3 l) (sd_log s)) /\ (forall r n, ~ In (EProc 3 r n) (sd_log s)) /\
  forall ws', sd_log (sched_run ex_uncomp isort false ex_two 4 ws' s) = sd_log s.
Proof.
  intros s P L. split; [exact P|]. split; [|split].
  - assert (I : In (XStart 3 42 7) (map ex_seen (sd_log s))) by (rewrite L; cbn; tauto). apply in_map_iff in I. destruct I as (e & E & I). destruct e as [k l| | |]; try discriminate E.
    cbn [ex_seen] in E. injection E as -> _ _. exists l. exact I.
  - intros r n I. apply (in_map ex_seen) in I. rewrite L in I. cbn in I. repeat (destruct I as [I|I]; [discriminate I|]). destruct I.
  - intros ws'. induction ws' as [|w ws' IH]; [reflexivity|]. cbn [sched_run].
    assert (N : sched_step ex_uncomp isort false ex_two 4 w s = None) by (destruct w; cbn [sched_step]; unfold main_step, task_step; rewrite P; reflexivity).
    rewrite N. exact IH.
Qed.
Lemma lost_pc : sd_pc ex_lost = MFail EIoFailure. Proof. vm_compute. reflexivity. Qed.
Lemma lost_seen : map ex_seen (sd_log ex_lost) =
  [XRun 42; XStart 0 42 7; XStart 1 42 3; XProc 0 42 7; XEnd 0; XProc 1 42 3; XEnd 1; XRun 43; XStart 2 43 7; XProc 2 43 7; XEnd 2; XRun 42; XStart 3 42 7].
Proof. vm_compute. reflexivity. Qed.
(** A second file that was cut off: the exception leaves main, and an event in front of the cut, for which a task was
    started, is not processed. *)
Theorem C62_cut_file_refuted : exists ws s, s = sched_run ex_uncomp isort false ex_two 4 ws (sched_start ex_uncomp ex_two [ex_name; str "cut.slcio"] (ex_read true)) /\
  sd_pc s = MFail EIoFailure /\ (exists l, In (EStart 3 l) (sd_log s)) /\ (forall r n, ~ In (EProc 3 r n) (sd_log s)) /\
  forall ws', sd_log (sched_run ex_uncomp isort false ex_two 4 ws' s) = sd_log s.
Proof. exists ex_ws, ex_lost. split; [reflexivity|]. exact (lost_log ex_lost lost_pc lost_seen). Qed.
Print Assumptions C62_cut_file_refuted.
