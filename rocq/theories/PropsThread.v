(** * C19: several threads write through one MT::LCWriter

    A schedule is a list of thread numbers; a step of a thread makes one access to what is shared.  [threads_ok]
    says that the items of each thread are in the file in the order of its program; [file_ok] says what the
    file contains. *)

From Coq Require Import Permutation.
From Verif Require Import Bytes StrMap SioModel SioSpec Ieee ObjModel ObjSpec EventModel EventSpec EventFacts EventExamples IndexModel IndexSpec IndexExamples
  FileModel FileSpec FileFacts FileExamples SplitSpec ThreadModel ThreadSpec ThreadProofs ThreadInv ThreadRun.

(** Whatever the programs of the threads, the schedule, and the point that has been reached: nothing goes
    wrong, and whenever the mutex is free, the file holds the items that were written, as one thread would
    have written them one after the other. *)
Theorem C19_every_interleaving : forall comp uncomp b1 b2 raw level progs max sched,
  codec_all comp uncomp -> usable b1 -> usable b2 -> usable raw -> programs_ok progs -> 0 < max < two32 ->
  exists sh ths, run_threads comp sched (begin_threads (mkWr (mkO [] 0) (new_mgr raw) level) max progs) = Ok (sh, ths) /\
    (Forall ended ths -> sh_lock sh = None) /\
    (sh_lock sh = None -> exists log : list entry,
      threads_ok progs log (match sh_out sh with Some _ => true | None => false end) ths /\
      Forall (fun x => label_ok (levels level progs) (fst (snd x))) log /\
      file_ok (labelled_comp comp) b1 b2 raw sh (map snd log) /\ group_ok (labelled_comp comp) b1 b2 (map snd log)).
Proof. intros comp uncomp b1 b2 raw level progs max sched HC U1 U2 Ur HP. exact (interleaving comp uncomp b1 b2 raw HC U1 U2 Ur level progs HP max sched). Qed.
Print Assumptions C19_every_interleaving.

(** nothing is lost or duplicated: when the threads have come to their end without exceptions, each has written
    what is in its program *)
Theorem C19_nothing_lost : forall progs log ths open, threads_ok progs log open ths -> Forall ended ths ->
  (forall th o a, In th ths -> In (o, a) (th_done th) -> a = TDone) ->
  (forall t p, nth_error progs t = Some p -> of_thread t log = writes p) /\
  Permutation (map (fun x => snd (snd x)) log) (flat_map writes progs).
Proof. exact all_written. Qed.
Print Assumptions C19_nothing_lost.

(** Reading the closed file gives the items in the order of the log.  By [wf_ok] all that is known about
    files holds for it, in particular C16_direct_access. *)
Theorem C19_read_back : forall comp uncomp b1 b2 raw level progs srt ignore_null max sched sh ths d name ops tags rraw cbuf mraw next,
  codec_all comp uncomp -> usable b1 -> usable b2 -> usable raw -> programs_ok progs -> 0 < max < two32 ->
  run_threads comp sched (begin_threads (mkWr (mkO [] 0) (new_mgr raw) level) max progs) = Ok (sh, ths) ->
  sh_lock sh = None -> sh_out sh = None -> d (sio_filename name) = Some (sh_file sh) ->
  Forall (readable ignore_null tags) (flat_map writes progs) -> 0 < next ->
  exists log : list entry, threads_ok progs log false ths /\
    (log <> [] -> wf_ok (labelled_comp comp) uncomp d (mkWF (sio_filename name) (mkSess 0 raw b1 b2 (map snd log)) []) /\
      trace srt tags at_null next (map (fun x => (sio_filename name, snd (snd x))) log) ops
        (read_all uncomp srt ignore_null d [sio_filename name] ops (new_reader false false tags rraw cbuf mraw next))).
Proof.
  intros comp uncomp b1 b2 raw level progs srt ignore_null max sched sh ths d name ops tags rraw cbuf mraw next HC U1 U2 Ur HP.
  exact (read_closed comp uncomp b1 b2 raw HC U1 U2 Ur level progs HP srt ignore_null max sched sh ths d name ops tags rraw cbuf mraw next).
Qed.
Print Assumptions C19_read_back.

(** No deadlock: every schedule that gives all threads a turn often enough brings all of them to their end. *)
Theorem C19_no_deadlock : forall comp uncomp b1 b2 raw level progs max blks,
  codec_all comp uncomp -> usable b1 -> usable b2 -> usable raw -> programs_ok progs -> 0 < max < two32 ->
  Forall (round (length progs)) blks -> (20 * length (concat progs) < length blks)%nat ->
  exists sh ths, run_threads comp (concat blks) (begin_threads (mkWr (mkO [] 0) (new_mgr raw) level) max progs) = Ok (sh, ths) /\ Forall ended ths.
Proof. intros comp uncomp b1 b2 raw level progs max blks HC U1 U2 Ur HP. exact (fair_end comp uncomp b1 b2 raw HC U1 U2 Ur level progs HP max blks). Qed.
Print Assumptions C19_no_deadlock.

(** ** Examples *)

Lemma ex_codec_all : codec_all ex_comp ex_uncomp.
Proof. intros z d. exact (ex_codec 1 d ltac:(lia)). Qed.

(** three threads; the compression level changes while they are writing, and the last one closes the file *)
Definition ex_progs (last : list top) : list (list top) :=
  [[TWrite (WRun (ex_rn 42)); TLevel 0; TWrite (WEvt ex_heap (ex_ev 42 7) [])];
   [TWrite (WEvt ex_heap (ex_ev 42 3) []); TLevel 6; TWrite (WEvt ex_heap (ex_ev 43 7) [])]; last].
Lemma ex_progs_ok last : writes last = [] -> (closes last <= 1)%nat -> programs_ok (ex_progs last).
Proof.
  intros Hw Hc. unfold programs_ok. replace (flat_map writes (ex_progs last)) with [WRun (ex_rn 42); WEvt ex_heap (ex_ev 42 7) []; WEvt ex_heap (ex_ev 42 3) []; WEvt ex_heap (ex_ev 43 7) []].
  2:{ unfold ex_progs. cbn [flat_map]. rewrite Hw. reflexivity. }
  split; [|split; [|split]].
  - assert (V : forall run num, (run = 42 /\ num = 7) \/ (run = 42 /\ num = 3) \/ (run = 43 /\ num = 7) -> item_ok (1, WEvt ex_heap (ex_ev run num) [])).
    { intros run num Hr. unfold item_ok. cbn [fst snd]. split; [apply ex_ev_ok; destruct Hr as [[-> ->]|[[-> ->]|[-> ->]]]; unfold int32; lia|].
      split; [|intros bs cols; apply ex_blocks]. destruct Hr as [[-> ->]|[[-> ->]|[-> ->]]]; (split; [vm_compute; reflexivity|intros _; vm_compute; reflexivity]). }
    apply Forall_cons; [|repeat (apply Forall_cons; [apply V; auto|]); apply Forall_nil].
    split; [apply ex_rn_ok; unfold int32; lia|split; [vm_compute; reflexivity|intros _; vm_compute; reflexivity]].
  - apply ex_close. intros k Hk. cbn in Hk. repeat match goal with H : _ \/ _ |- _ => destruct H as [<-|H] | H : False |- _ => destruct H end; cbn [fst]; lia.
  - vm_compute. reflexivity.
  - unfold ex_progs. cbn [concat app]. rewrite app_nil_r. unfold closes in *. cbn [filter is_close]. exact Hc.
Qed.

Definition ex_begin (last : list top) : shared * list thread := begin_threads (mkWr (mkO [] 0) (new_mgr ex_buf) 6) 64 (ex_progs last).
Fixpoint times {A} (n : nat) (l : list A) : list A := match n with O => [] | S n' => l ++ times n' l end.
(** what a file on its own contains, and the outcomes of the calls *)
Definition ex_run (sched : list nat) (last : list top) : list seen * list (list tans) :=
  match run_threads ex_comp sched (ex_begin last) with
  | Ok (sh, ths) => (ex_use (save empty_disk ex_name (sh_file sh)) false [Next true; Next true; Next true; Next true], map (fun th => map snd (th_done th)) ths)
  | _ => ([], [])
  end.
Example C19_case : codec_all ex_comp ex_uncomp /\ programs_ok (ex_progs [TClose]) /\
  Forall (readable false []) (flat_map writes (ex_progs [TClose])) /\ round 3 [0; 1; 2]%nat /\ sio_filename ex_name = ex_name.
Proof.
  split; [exact ex_codec_all|]. split; [apply ex_progs_ok; [reflexivity|cbn; lia]|]. split; [|split; [|reflexivity]].
  - assert (V : forall run num, readable false [] (WEvt ex_heap (ex_ev run num) [])).
    { intros run num. destruct ex_links_ok as [L1 L2]. split; [exact L1|]. right. exact L2. }
    repeat (apply Forall_cons; [first [exact Logic.I|apply V]|]). apply Forall_nil.
  - intros t Ht. cbn. lia.
Qed.
(** two schedules in which all threads finish before the file is closed *)
Example C19_schedules :
  ex_run (times 60 [0; 1] ++ times 8 [2])%nat [TClose] = ([SEvt 42 3; SEvt 42 7; SEvt 43 7; SNull], [[TDone; TDone; TDone]; [TDone; TDone; TDone]; [TDone]]) /\
  ex_run (times 30 [1] ++ times 30 [0] ++ times 8 [2])%nat [TClose] = ([SEvt 42 3; SEvt 43 7; SEvt 42 7; SNull], [[TDone; TDone; TDone]; [TDone; TDone; TDone]; [TDone]]).
Proof. vm_compute. repeat split; reflexivity. Qed.
(** a thread that closes the file while others write: their calls throw, what was written before is in the file *)
Example C19_closed_early :
  ex_run (times 12 [0; 1] ++ times 30 [2; 0; 1])%nat [TClose] = ([SEvt 42 3; SNull; SThrow EBadState; SThrow EBadState],
    [[TDone; TDone; TThrew LIOException]; [TDone; TDone; TThrew LIOException]; [TDone]]).
Proof. vm_compute. repeat split; reflexivity. Qed.

(** ** Where it goes wrong *)

(** Closing twice, from one thread or from two, which is harmless with SIOWriter, dereferences a null pointer. *)
Theorem C19_second_close_refuted : exists sched1 sched2 progs1 progs2, closes (concat progs1) = 2%nat /\ closes (concat progs2) = 2%nat /\
  flat_map writes progs1 = flat_map writes (ex_progs [TClose]) /\ flat_map writes progs2 = flat_map writes (ex_progs [TClose]) /\
  run_threads ex_comp sched1 (begin_threads (mkWr (mkO [] 0) (new_mgr ex_buf) 6) 64 progs1) = UB UBNullDeref /\
  run_threads ex_comp sched2 (begin_threads (mkWr (mkO [] 0) (new_mgr ex_buf) 6) 64 progs2) = UB UBNullDeref.
Proof.
  exists (times 60 [0; 1] ++ times 20 [2])%nat, (times 60 [0; 1] ++ times 20 [2; 3])%nat, (ex_progs [TClose; TClose]), (ex_progs [TClose] ++ [[TClose]]).
  vm_compute. repeat split; reflexivity.
Qed.
