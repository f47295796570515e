(** * Concrete files *)

From Verif Require Import Bytes StrMap SioModel SioProofs SioSpec Ieee ObjModel ObjSpec CollSpec EventModel EventSpec EventProofs EventFacts EventExamples
  IndexModel IndexSpec IndexProofs FileModel IndexFile IndexFacts IndexExamples FileSpec FileWrite FileSessions FileRead FileSeq FileDeliver FileFacts FileUse FileDirect FileMore.

(** a codec: a marker, and the bytes in reverse order *)
Definition ex_comp (z : Z) (d : bytes) : bytes := Init.Byte.x78 :: rev d.
Definition ex_uncomp (d : bytes) : option bytes := match d with Init.Byte.x78 :: l => Some (rev l) | _ => None end.
Lemma ex_codec : codec_ok ex_comp ex_uncomp.
Proof.
  intros z d _. split; [cbn; rewrite rev_involutive; reflexivity|]. intros H. unfold ex_comp, Zlen in *. cbn [length]. rewrite rev_length. unfold two32. lia.
Qed.

(** a run header, two events, and in a second session a run header and an event of the next run *)
Definition ex_ev (run num : Z) : event := mkEvt run num (ev_time ex_event) (ev_det ex_event) (ev_par ex_event) (ev_cols ex_event).
Definition ex_rn (run : Z) : runhdr := mkRun run (rh_det ex_run) (rh_desc ex_run) (rh_subs ex_run) (rh_par ex_run).
Definition ex_sess1 : sess := mkSess 6 ex_buf ex_buf ex_buf [(0, WRun (ex_rn 42)); (6, WEvt ex_heap (ex_ev 42 7) []); (0, WEvt ex_heap (ex_ev 42 3) [])].
Definition ex_sess2 : sess := mkSess 0 ex_buf ex_buf ex_buf [(1, WRun (ex_rn 43)); (9, WEvt ex_heap (ex_ev 43 7) [])].
(** the same items without compression, in one session *)
Definition ex_plain : sess := mkSess 0 ex_buf ex_buf ex_buf (map (fun zi => (0, snd zi)) (ss_items ex_sess1 ++ ss_items ex_sess2)).

Lemma ex_ev_ok run num : int32 run -> int32 num -> event_ok [] ex_heap (ex_ev run num).
Proof.
  intros H1 H2. destruct ex_event_ok as [(_ & _ & K3 & K4 & K5 & K6 & K7 & K8 & K9) _]. split; [exact H1|]. split; [exact H2|].
  split; [exact K3|]. split; [exact K4|]. split; [exact K5|]. split; [exact K6|]. split; [exact K7|]. split; [exact K8|exact K9].
Qed.
Lemma ex_rn_ok run : int32 run -> runhdr_ok (ex_rn run).
Proof. intros H. destruct ex_run_ok as [(_ & K) _]. split; [exact H|exact K]. Qed.
Lemma ex_blocks z run num bs cols : event_blocks [] ex_heap (ev_cols (ex_ev run num)) = Ok (bs, cols) -> sized z (record_size event_record bs).
Proof.
  intros H. assert (E : event_blocks [] ex_heap (ev_cols ex_event) = event_blocks [] ex_heap (ev_cols ex_event)) by reflexivity.
  change (ev_cols (ex_ev run num)) with (ev_cols ex_event) in H. rewrite H in E at 1. vm_compute in E. injection E as -> _.
  split; [vm_compute; reflexivity|]. intros _. vm_compute. reflexivity.
Qed.
Lemma ex_items_ok : Forall item_ok (ss_items ex_sess1) /\ Forall item_ok (ss_items ex_sess2) /\ Forall item_ok (ss_items ex_plain).
Proof.
  assert (R : forall z run, run = 42 \/ run = 43 -> item_ok (z, WRun (ex_rn run))).
  { intros z run Hr. unfold item_ok. cbn [fst snd]. split; [apply ex_rn_ok; destruct Hr as [->| ->]; unfold int32; lia|].
    destruct Hr as [->| ->]; (split; [vm_compute; reflexivity|intros _; vm_compute; reflexivity]). }
  assert (V : forall z run num, (run = 42 /\ num = 7) \/ (run = 42 /\ num = 3) \/ (run = 43 /\ num = 7) -> item_ok (z, WEvt ex_heap (ex_ev run num) [])).
  { intros z run num Hr. unfold item_ok. cbn [fst snd]. split; [apply ex_ev_ok; destruct Hr as [[-> ->]|[[-> ->]|[-> ->]]]; unfold int32; lia|].
    split; [|intros bs cols; apply ex_blocks]. destruct Hr as [[-> ->]|[[-> ->]|[-> ->]]]; (split; [vm_compute; reflexivity|intros _; vm_compute; reflexivity]). }
  split; [|split]; repeat (apply Forall_cons; [first [apply R; auto|apply V; auto]|]); apply Forall_nil.
Qed.
Lemma ex_close ks : (forall k : runevt, In k ks -> 0 <= fst k < 100) -> runs_close ks.
Proof. intros H a b Ha Hb. apply H in Ha. apply H in Hb. unfold int32. lia. Qed.
Lemma ex_sess_ok : sess_ok ex_sess1 /\ sess_ok ex_sess2 /\ sess_ok ex_plain.
Proof.
  destruct ex_items_ok as (I1 & I2 & I3). pose proof ex_usable as U.
  split; [|split]; (split; [exact U|]; split; [exact U|]; split; [exact U|]; split; [assumption|]; apply ex_close; intros k Hk; cbn in Hk;
    repeat match goal with H : _ \/ _ |- _ => destruct H as [<-|H] | H : False |- _ => destruct H end; cbn [fst]; lia).
Qed.
Lemma ex_covers : Forall (sess_covers ex_comp) [ex_sess1; ex_sess2] /\ sess_covers ex_comp ex_plain.
Proof.
  split; [apply Forall_cons; [|apply Forall_cons; [|apply Forall_nil]]|]; unfold sess_covers; apply covers_check; vm_compute; reflexivity.
Qed.
Lemma ex_sessions_ok : sessions_ok ex_comp [ex_sess1; ex_sess2] /\ sessions_ok ex_comp [ex_plain].
Proof.
  destruct ex_sess_ok as (S1 & S2 & S3). split.
  - split; [exact (Forall_cons _ S1 (Forall_cons _ S2 (Forall_nil _)))|]. split; [discriminate|]. split; vm_compute; reflexivity.
  - split; [exact (Forall_cons _ S3 (Forall_nil _))|]. split; [discriminate|]. split; vm_compute; reflexivity.
Qed.

Definition empty_disk : disk := fun _ => None.
Definition disk_of (r : Res disk) : disk := match r with Ok d => d | _ => empty_disk end.
Definition ex_name : bytes := sio_filename (str "x").
Definition ex_disk : disk := disk_of (sessions ex_comp ex_uncomp empty_disk (str "x") ex_sess1 [ex_sess2]).
Definition ex_disk2 : disk := disk_of (sessions ex_comp ex_uncomp empty_disk (str "x") ex_plain []).
Definition ex_file : wfile := mkWF ex_name ex_sess1 [ex_sess2].
Definition ex_file2 : wfile := mkWF ex_name ex_plain [].
Lemma ex_wf : wf_ok ex_comp ex_uncomp ex_disk ex_file /\ wf_ok ex_comp ex_uncomp ex_disk2 ex_file2.
Proof.
  destruct ex_sessions_ok as [H1 H2]. split.
  - split; [exact H1|]. destruct H1 as (K1 & K2 & K3 & K4).
    destruct (sessions_inv ex_comp ex_uncomp empty_disk (str "x") ex_sess1 [ex_sess2] ex_codec K1 K2 K3 K4) as (d' & _ & _ & _ & _ & _ & E & _).
    exists empty_disk, d', (str "x"). split; [reflexivity|]. split; [exact E|]. unfold ex_disk. rewrite E. reflexivity.
  - split; [exact H2|]. destruct H2 as (K1 & K2 & K3 & K4).
    destruct (sessions_inv ex_comp ex_uncomp empty_disk (str "x") ex_plain [] ex_codec K1 K2 K3 K4) as (d' & _ & _ & _ & _ & _ & E & _).
    exists empty_disk, d', (str "x"). split; [reflexivity|]. split; [exact E|]. unfold ex_disk2. rewrite E. reflexivity.
Qed.
Lemma ex_numbered : numbered (items_of (wf_sess ex_file)).
Proof.
  split; [|repeat (apply Forall_cons; [cbn; auto; lia|]); apply Forall_nil]. cbn. repeat constructor; cbn; intuition congruence.
Qed.
Lemma ex_readable : Forall (readable false []) (items_of (wf_sess ex_file)).
Proof.
  assert (V : forall run num, readable false [] (WEvt ex_heap (ex_ev run num) [])).
  { intros run num. destruct ex_links_ok as [L1 L2]. split; [exact L1|]. right. exact L2. }
  repeat (apply Forall_cons; [first [exact I|apply V]|]). apply Forall_nil.
Qed.

(** ** Files for which more cannot be claimed *)

Definition ex_read (direct : bool) : reader := new_reader direct false [] [] [] ex_buf 1000.
Definition ex_small (run num : Z) : witem := WEvt ex_heap (mkEvt run num 0 (str "D") no_params []) [].
Definition ex_of (items : list witem) : sess := mkSess 0 ex_buf ex_buf ex_buf (map (pair 0) items).
Definition ex_make (items : list witem) : disk := disk_of (sessions ex_comp ex_uncomp empty_disk (str "x") (ex_of items) []).
(** the run and event numbers of what was read *)
Inductive seen : Type := SEvt (run num : Z) | SRun (run : Z) | SNull | SDone | SThrow (e : exn) | SUB (k : ub).
Definition brief (x : result) : seen :=
  match x with
  | REvt (Some l) => SEvt (ev_run (le_evt l)) (ev_num (le_evt l))
  | RRun (Some h) => SRun (rh_run h)
  | REvt None | RRun None => SNull
  | RDone => SDone
  | RThrow e => SThrow e
  | RUB k => SUB k
  end.
Definition ex_use (d : disk) (direct : bool) (l : list step) : list seen := map brief (use_file ex_uncomp isort false d ex_name l (ex_read direct)).
Definition ex_use_all (d : disk) (names : list bytes) (direct : bool) (l : list step) : list seen :=
  match open_files ex_uncomp d names (ex_read direct) with
  | (Ok _, r) => map brief (run_steps ex_uncomp isort false d l r)
  | (Throw e, _) => [SThrow e]
  | (UB k, _) => [SUB k]
  end.
(** the file without its last [n] bytes *)
Definition ex_cut (n : Z) (d : disk) : disk :=
  match d ex_name with Some c => save d ex_name (firstn (Z.to_nat (Zlen c - n)) c) | None => d end.

(** events of run 5, whose header is in another file, and then run 7 *)
Definition ex_continued : list witem := [ex_small 5 1; WRun (ex_rn 7); ex_small 7 2].
Definition ex_four : list witem := [ex_small 5 1; ex_small 5 2; ex_small 5 3; ex_small 5 4].

Lemma ex_small_ok run num : (run = 5 /\ num = 1) \/ (run = 7 /\ num = 2) -> item_ok (0, ex_small run num).
Proof.
  intros Hr. assert (Hr' : 0 <= run < 100 /\ 0 <= num < 100) by lia. unfold item_ok, ex_small. cbn [fst snd]. split; [|split].
  - split; [unfold int32; cbn; lia|]. split; [unfold int32; cbn; lia|]. split; [unfold int64; cbn; lia|]. split; [unfold vec_len; cbn; lia|].
    split; [exact (proj2 ex_coll_params)|]. split; [cbn; constructor|]. split; [unfold vec_len; cbn; lia|]. split; constructor.
  - split; [|intros H; destruct H; reflexivity]. destruct Hr as [[-> ->]|[-> ->]]; vm_compute; reflexivity.
  - clear. intros bs cols H. cbn [ev_cols] in H. vm_compute in H. injection H as <- _. split; [vm_compute; reflexivity|intros H; destruct H; reflexivity].
Qed.
Lemma ex_continued_ok : numbered ex_continued /\ sessions_ok ex_comp [ex_of ex_continued].
Proof.
  split.
  - split; [|repeat (apply Forall_cons; [cbn; auto; lia|]); apply Forall_nil]. cbn. repeat constructor; cbn; intuition congruence.
  - assert (F : Forall item_ok (ss_items (ex_of ex_continued))).
    { apply Forall_cons; [apply ex_small_ok; auto|]. apply Forall_cons; [|apply Forall_cons; [apply ex_small_ok; auto|apply Forall_nil]].
      split; [apply ex_rn_ok; unfold int32; lia|]. split; [vm_compute; reflexivity|intros H; destruct H; reflexivity]. }
    split; [apply Forall_cons; [|apply Forall_nil]|].
    + pose proof ex_usable as U. split; [exact U|]. split; [exact U|]. split; [exact U|]. split; [exact F|]. apply ex_close. intros k Hk. cbn in Hk.
      repeat match goal with H : _ \/ _ |- _ => destruct H as [<-|H] | H : False |- _ => destruct H end; cbn [fst]; lia.
    + split; [discriminate|]. split; vm_compute; reflexivity.
Qed.
Lemma disk_of_ok r : (match r with Ok _ => true | _ => false end) = true -> r = Ok (disk_of r).
Proof. destruct r; [reflexivity|discriminate|discriminate]. Qed.
Lemma disk_of_ok_nil : new_session ex_comp empty_disk (str "x") (ex_of []) = Ok (ex_make []).
Proof.
  unfold ex_make, sessions. cbn [map append_sessions]. rewrite (disk_of_ok (new_session ex_comp empty_disk (str "x") (ex_of []))) at 1 by (vm_compute; reflexivity).
  change (ex_of (@nil witem)) with (ex_of []). destruct (new_session ex_comp empty_disk (str "x") (ex_of [])) eqn:E; [reflexivity| |]; vm_compute in E; discriminate.
Qed.
Definition ex_two : disk := disk_of (sessions ex_comp ex_uncomp (ex_make ex_four) (str "y") (ex_of [ex_small 6 1; ex_small 6 2]) []).
Definition Some_or (o : option bytes) : bytes := match o with Some c => c | None => [] end.
Lemma ex_disk_data : ex_disk ex_name = Some (Some_or (ex_disk ex_name)).
Proof. vm_compute. reflexivity. Qed.

Definition ex_opened : reader := snd (open_file ex_uncomp ex_disk ex_name (ex_read false)).
Definition got (x : Res (option levent)) : list (Z * Z) := match x with Ok (Some l) => [(ev_run (le_evt l), ev_num (le_evt l))] | _ => [] end.
Lemma got_one (p : Res (option levent) * reader) a b : got (fst p) = [(a, b)] -> exists l, p = (Ok (Some l), snd p) /\ ev_run (le_evt l) = a /\ ev_num (le_evt l) = b.
Proof. destruct p as [[[l|]| |] r]; try discriminate. cbn [fst snd got]. intros H. injection H as H1 H2. exists l. auto. Qed.
Lemma pair_fst {A B} (p : A * B) a : fst p = a -> p = (a, snd p).
Proof. destruct p. cbn. intros ->. reflexivity. Qed.
Lemma ex_rewinds : exists r r1 r2 r3 l1 l3, open_file ex_uncomp ex_disk ex_name (ex_read false) = (Ok tt, r) /\
  read_next_event ex_uncomp isort false ex_disk r = (Ok (Some l1), r1) /\
  number_of_events ex_uncomp r1 = (Ok 3, r2) /\ read_next_event ex_uncomp isort false ex_disk r2 = (Ok (Some l3), r3) /\
  ev_num (le_evt l1) = 7 /\ ev_run (le_evt l1) = 42 /\ ev_num (le_evt l3) = 7 /\ ev_run (le_evt l3) = 42.
Proof.
  assert (G4 : open_file ex_uncomp ex_disk ex_name (ex_read false) = (Ok tt, ex_opened)).
  { unfold ex_opened. apply pair_fst. vm_compute. reflexivity. }
  assert (G1 : got (fst (read_next_event ex_uncomp isort false ex_disk ex_opened)) = [(42, 7)]) by (vm_compute; reflexivity).
  assert (G3 : fst (number_of_events ex_uncomp (snd (read_next_event ex_uncomp isort false ex_disk ex_opened))) = Ok 3) by (vm_compute; reflexivity).
  assert (G2 : got (fst (read_next_event ex_uncomp isort false ex_disk (snd (number_of_events ex_uncomp (snd (read_next_event ex_uncomp isort false ex_disk ex_opened)))))) = [(42, 7)])
    by (vm_compute; reflexivity).
  exists ex_opened. generalize dependent ex_opened. intros r G4 G1 G3 G2.
  destruct (got_one _ _ _ G1) as (l1 & E1 & A1 & B1). destruct (got_one _ _ _ G2) as (l3 & E3 & A3 & B3). apply pair_fst in G3. clear G1 G2.
  do 3 eexists. exists l1, l3. split; [exact G4|]. split; [exact E1|]. split; [exact G3|]. split; [exact E3|]. auto.
Qed.
