(** * The program lcio_parallel_read (C82) *)

From Verif Require Import Bytes BitModel BitSpec StrMap SioModel Ieee ObjModel EventModel EventSpec IndexModel IndexSpec FileModel FileSpec FileDirect FileExamples
  ObjSpec EventFacts EventExamples IndexExamples AnaSpec ParModel ParSpec ParProofs.

(** In whatever order the threads run: what the thread of a file has printed are the first events of this file, in
    their order; the number that main prints is that of all events in all files; and when each thread has run
    often enough all events of all files are printed and main has not to wait. *)
Theorem C82_any_order : forall comp uncomp srt ignore_null d files sched raw cbuf mraw next,
  codec_ok comp uncomp -> files <> [] -> Forall (wf_ok comp uncomp d) files ->
  Forall (fun f => Forall (readable ignore_null []) (items_of (wf_sess f))) files -> (forall i, 0 < next i) -> all_events files < 2 ^ 31 ->
  let jobs := par_jobs (fun i => new_reader false false [] raw cbuf mraw (next i)) (map wf_name files) in
  let out := par_out (par_run uncomp srt ignore_null d jobs sched) in
  let res := par_main uncomp srt ignore_null d jobs sched in
  Forall (fun x => (fst x < length files)%nat) out /\
  (forall i f, nth_error files i = Some f -> exists W1 W2, wf_items f = W1 ++ W2 /\ copies srt [] (next i) W1 (printed_by i out)) /\
  (res = PWait \/ res = PTotal (all_events files)) /\
  (long_enough sched files -> res = PTotal (all_events files) /\ forall i f, nth_error files i = Some f -> copies srt [] (next i) (wf_items f) (printed_by i out)).
Proof. exact par_any. Qed.
Print Assumptions C82_any_order.

(** A file that does not exist ends the program with an exception, and the number of events is not printed. *)
Theorem C82_missing_file : forall comp uncomp srt ignore_null d files name more sched raw cbuf mraw next,
  codec_ok comp uncomp -> Forall (wf_ok comp uncomp d) (files ++ more) -> d name = None ->
  Forall (fun f => Forall (readable ignore_null []) (items_of (wf_sess f))) (files ++ more) -> (forall i, 0 < next i) -> all_events (files ++ more) < 2 ^ 31 ->
  long_enough sched files -> In (length files) sched ->
  par_main uncomp srt ignore_null d (par_jobs (fun i => new_reader false false [] raw cbuf mraw (next i)) (map wf_name files ++ name :: map wf_name more)) sched = PTerminate ENotOpen.
Proof. exact par_missing. Qed.
Print Assumptions C82_missing_file.

(** the file of three events in two threads, in two orders *)
Definition ex_jobs (names : list bytes) := par_jobs (fun i => new_reader false false [] [] [] ex_buf (1000 + 1000 * Z.of_nat i)) names.
Definition ex_run (sched : list nat) : list (nat * (Z * Z)) :=
  map (fun x => (fst x, (ev_run (le_evt (snd x)), ev_num (le_evt (snd x))))) (par_out (par_run ex_uncomp isort false ex_disk (ex_jobs [ex_name; ex_name]) sched)).
Definition ex_main (names : list bytes) (sched : list nat) : parout := par_main ex_uncomp isort false ex_disk (ex_jobs names) sched.
Example C82_case : codec_ok ex_comp ex_uncomp /\ Forall (wf_ok ex_comp ex_uncomp ex_disk) [ex_file; ex_file] /\
  Forall (fun f => Forall (readable false []) (items_of (wf_sess f))) [ex_file; ex_file] /\ all_events [ex_file; ex_file] = 6 /\
  long_enough (repeat 0%nat 8 ++ repeat 1%nat 8) [ex_file; ex_file] /\
  ex_run (repeat 0%nat 8 ++ repeat 1%nat 8) = [(0%nat, (42, 7)); (0%nat, (42, 3)); (0%nat, (43, 7)); (1%nat, (42, 7)); (1%nat, (42, 3)); (1%nat, (43, 7))] /\
  ex_main [ex_name; ex_name] (repeat 0%nat 8 ++ repeat 1%nat 8) = PTotal 6 /\
  ex_run [0; 1; 1; 0; 1; 1; 0; 1; 5; 0; 0]%nat = [(1%nat, (42, 7)); (0%nat, (42, 7)); (1%nat, (42, 3)); (0%nat, (42, 3))] /\
  ex_main [ex_name; ex_name] [0; 1; 1; 0; 1; 1; 0; 1; 5; 0; 0]%nat = PWait.
Proof.
  split; [exact ex_codec|]. split; [repeat (apply Forall_cons; [exact (proj1 ex_wf)|]); apply Forall_nil|].
  split; [repeat (apply Forall_cons; [exact ex_readable|]); apply Forall_nil|]. split; [reflexivity|]. split.
  - intros [|[|[|i]]] f H; cbn [nth_error] in H; try discriminate H; injection H as <-; vm_compute; discriminate.
  - repeat split; vm_compute; reflexivity.
Qed.
Example C82_missing_case : ex_main [ex_name; str "none"; ex_name] (repeat 0%nat 8 ++ [1%nat]) = PTerminate ENotOpen /\ long_enough (repeat 0%nat 8 ++ [1%nat]) [ex_file] /\
  ex_main [] [] = PUsage.
Proof.
  split; [vm_compute; reflexivity|]. split; [|reflexivity]. intros [|[|i]] f H; cbn [nth_error] in H; try discriminate H; injection H as <-; vm_compute; discriminate.
Qed.
