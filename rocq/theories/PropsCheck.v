(** * Tools: checking the number of elements of a collection *)

From Verif Require Import Bytes StrMap SioModel SioProofs SioSpec Ieee ObjModel ObjSpec CollSpec EventModel EventSpec EventProofs EventFacts EventExamples
  IndexModel IndexSpec IndexProofs FileModel IndexFile IndexFacts IndexExamples FileSpec FileWrite FileSessions FileRead FileSeq FileDeliver FileFacts FileUse
  FileExamples CheckModel CheckSpec CheckProofs.

(** ** C63: lcio_check_col_elements succeeds exactly if the collections have the expected sizes *)

(** For any list of files, each made by any number of writing sessions, and options that make sense, the
    exit status is 0 exactly if the bounds are in order and the check passes for the events that are to be looked at;
    otherwise it is 1.  At most the events of the first file are skipped; averages are small enough for
    floats, and the numbers for ints. *)
Theorem C63_checked : forall comp uncomp srt ignore_null fuel d f files o raw cbuf mraw next, codec_ok comp uncomp -> Forall (wf_ok comp uncomp d) (f :: files) ->
  let W := flat_map wf_items (f :: files) in let l := looked_at (o_start o) (o_max o) (sizes (o_name o) W) in
  Forall (fun w => readable ignore_null [] (snd w)) W -> 0 < next -> options_ok o ->
  (forall x rel, o_exp o = Some x -> o_relel o = Some rel -> x < 2 ^ 24) -> (forall x t, o_exp o = Some x -> tolerance o x t -> x + t < 2 ^ 31) ->
  (forall k, o_start o = Some k -> k <= evts (items_of (wf_sess f))) ->
  Zlen l < 2 ^ 31 -> total (found l) < 2 ^ 31 -> (given (o_relev o) -> Zlen l < 2 ^ 24) ->
  (o_average o = true -> forall t, (forall x, o_exp o = Some x -> tolerance o x t) -> small_average o t l) ->
  (length W < fuel)%nat ->
  exists t a s, (forall x, o_exp o = Some x -> tolerance o x t) /\ allowance o (Zlen l) a /\
    check_files uncomp srt ignore_null fuel d (map wf_name (f :: files)) o (new_reader false false [] raw cbuf mraw next) = Ok s /\ (s = 0 \/ s = 1) /\
    (s = 0 <-> (forall h, most o t = Some h -> least o t <= h) /\ passes o t a l).
Proof. exact checked. Qed.
Print Assumptions C63_checked.

Definition ex_opts (name : String.string) (pedantic average : bool) (start max min most exp absel absev : option Z) (relel relev : option (Z * Z)) : copts :=
  mkCO (str name) pedantic average start max min most exp absel absev relel relev.
Definition ex_check (d : disk) (files : list bytes) (o : copts) : Res Z := check_files ex_uncomp isort false 100 d files o (ex_read false).
(** 4 elements with a relative error of 1/4 in the events behind the first one, two at most *)
Definition ex_rel : copts := ex_opts "Gen" true false (Some 1) (Some 2) None None (Some 4) None (Some 1) (Some (1, 4)) None.
Definition ex_avg : copts := ex_opts "Gen" true true None None (Some 2) None (Some 3) None None None None.
Lemma ex_rel_ok : options_ok ex_rel /\ options_ok ex_avg.
Proof. split; apply options_iff; vm_compute; reflexivity. Qed.
Lemma ex_tolerance x t : Some 4 = Some x -> tolerance ex_rel x t -> x + t < 2 ^ 31.
Proof. intros E (a & H & ->). injection E as <-. unfold part_of in H. cbn [fst snd] in H. lia. Qed.

Example C63_case : codec_ok ex_comp ex_uncomp /\ Forall (wf_ok ex_comp ex_uncomp ex_disk) [ex_file] /\ Forall (fun w => readable false [] (snd w)) (wf_items ex_file) /\
  options_ok ex_rel /\ (forall x t, o_exp ex_rel = Some x -> tolerance ex_rel x t -> x + t < 2 ^ 31) /\ 1 <= evts (items_of (wf_sess ex_file)) /\
  looked_at (o_start ex_rel) (o_max ex_rel) (sizes (str "Gen") (wf_items ex_file)) = [Some 3; Some 3] /\ tolerance ex_rel 4 1 /\ passes ex_rel 1 1 [Some 3; Some 3] /\
  ex_check ex_disk [ex_name] ex_rel = Ok 0.
Proof.
  split; [exact ex_codec|]. split; [exact (Forall_cons _ (proj1 ex_wf) (Forall_nil _))|]. split; [apply Forall_map; exact ex_readable|]. split; [exact (proj1 ex_rel_ok)|].
  split; [exact ex_tolerance|]. split; [vm_compute; discriminate|]. split; [vm_compute; reflexivity|]. split; [|split; [|vm_compute; reflexivity]].
  - exists 1. split; [unfold part_of; cbn [fst snd]; lia|reflexivity].
  - split; [discriminate|]. cbn [o_average ex_rel ex_opts]. vm_compute. discriminate.
Qed.
Definition ex_both : disk := disk_of (sessions ex_comp ex_uncomp (ex_make ex_four) (str "y") ex_sess1 [ex_sess2]).
Definition ex_y : bytes := sio_filename (str "y").
(** an average over seven events, three of them with three elements and four without the collection *)
Example C63_average_case : options_ok ex_avg /\ ex_check ex_both [ex_name; ex_y] ex_avg = Ok 1 /\
  ex_check ex_both [ex_name; ex_y] (ex_opts "Gen" false true None None (Some 2) None (Some 3) None None None None) = Ok 0 /\
  ex_check ex_both [ex_name; ex_y] (ex_opts "Gen" true true None None (Some 1) (Some 1) None None None None None) = Ok 1 /\
  ex_check ex_both [ex_name; ex_y] (ex_opts "Gen" true true None None (Some 1) (Some 2) None None None None None) = Ok 0 /\
  small_average (ex_opts "Gen" true true None None (Some 1) (Some 2) None None None None None) 0 [None; None; None; None; Some 3; Some 3; Some 3].
Proof.
  split; [exact (proj2 ex_rel_ok)|]. do 4 (split; [vm_compute; reflexivity|]). do 4 (split; [vm_compute; reflexivity|]).
  intros h H. vm_compute in H. injection H as <-. split; vm_compute; reflexivity.
Qed.
(** events that may fail: a number, or a part of all *)
Example C63_failing_case : ex_check ex_both [ex_name; ex_y] (ex_opts "Gen" true false None None (Some 3) (Some 3) None None (Some 3) None None) = Ok 1 /\
  ex_check ex_both [ex_name; ex_y] (ex_opts "Gen" true false None None (Some 3) (Some 3) None None (Some 4) None None) = Ok 0 /\
  ex_check ex_both [ex_name; ex_y] (ex_opts "Gen" true false None None (Some 3) (Some 3) None None None None (Some (1, 2))) = Ok 0 /\
  ex_check ex_both [ex_name; ex_y] (ex_opts "Gen" true false None None (Some 3) (Some 3) None None None None (Some (1, 3))) = Ok 1 /\
  ex_check ex_both [ex_name; ex_y] (ex_opts "Gen" false false None None (Some 3) (Some 3) None None None None None) = Ok 0 /\
  ex_check ex_both [ex_name; ex_y] (ex_opts "None" false false None None None None None None None None None) = Ok 1.
Proof. repeat split; vm_compute; reflexivity. Qed.

(** Options that make no sense, or no file: the program fails before anything is read. *)
Theorem C63_usage : forall uncomp srt ignore_null fuel d files o new, ~ options_ok o \/ files = [] -> check_files uncomp srt ignore_null fuel d files o new = Ok 1.
Proof. exact misused. Qed.
Print Assumptions C63_usage.
Example C63_usage_case : ~ options_ok (ex_opts "Gen" false false None None None None None (Some 1) None None None) /\
  ~ options_ok (ex_opts "Gen" false false None None None None (Some 3) (Some 1) None (Some (1, 4)) None) /\
  ~ options_ok (ex_opts "Gen" false true None None None None None None (Some 1) None None) /\ ~ options_ok (ex_opts "Gen" false false None (Some 0) None None None None None None None).
Proof. repeat split; rewrite <- options_iff; vm_compute; discriminate. Qed.

(** A missing file ends the program with an exception, whichever of the files it is. *)
Theorem C63_missing_file : forall uncomp srt ignore_null fuel d files o new lo hi n, bounds o = Ok (Some (lo, hi)) -> In n files -> d n = None ->
  check_files uncomp srt ignore_null fuel d files o new = Throw LIOException.
Proof.
  intros uncomp srt ignore_null fuel d files o new lo hi n HB Hin Hd. unfold check_files. destruct files as [|m files]; [destruct Hin|].
  change (length (m :: files) =? 0)%nat with false. cbv iota. rewrite HB. cbn [bind]. unfold open_files.
  replace (existsb _ (m :: files)) with true; [reflexivity|]. symmetry. apply existsb_exists. exists n. split; [exact Hin|]. rewrite Hd. reflexivity.
Qed.
Print Assumptions C63_missing_file.
Example C63_missing_case : bounds ex_rel = Ok (Some (3, 5)) /\ ex_check ex_disk [ex_name; ex_y] ex_rel = Throw LIOException.
Proof. split; vm_compute; reflexivity. Qed.

(** If more events are to be skipped than are in the first file, an exception that is not caught ends the program,
    although the check would pass for the events of the second file. *)
Theorem C63_skip_refuted : exists d n1 n2 o t a, options_ok o /\
  ex_use_all d [n1; n2] false (repeat (Next true) 7) = [SEvt 5 1; SEvt 5 2; SEvt 5 3; SEvt 5 4; SEvt 42 7; SEvt 42 3; SEvt 43 7] /\
  passes o t a (looked_at (o_start o) (o_max o) (sizes (o_name o) (map (pair n1) ex_four ++ wf_items ex_file))) /\
  ex_check d [n1; n2] o = Throw EBadState.
Proof.
  exists ex_both, ex_name, ex_y, (ex_opts "Gen" true false (Some 5) None None None (Some 3) None None None None), 0, 0.
  split; [apply options_iff; vm_compute; reflexivity|]. split; [vm_compute; reflexivity|]. split; [|vm_compute; reflexivity].
  split; [vm_compute; discriminate|]. vm_compute. discriminate.
Qed.
Print Assumptions C63_skip_refuted.

(** An error when reading that is an lcio::IOException is only printed: the program succeeds with the events that were read
    before, here those of the first file; the second one begins with an event without its header. *)
Theorem C63_error_refuted : exists d n1 n2 o, options_ok o /\
  ex_use_all d [n1; n2] false (repeat (Next true) 4) = [SEvt 42 7; SEvt 42 3; SEvt 43 7; SThrow LIOException] /\ ex_check d [n1; n2] o = Ok 0.
Proof.
  exists (save ex_disk ex_y (skipn 108 (Some_or (ex_make [ex_small 5 1] ex_name)))), ex_name, ex_y, (ex_opts "Gen" true false None None None None (Some 3) None None None None).
  split; [apply options_iff; vm_compute; reflexivity|]. split; vm_compute; reflexivity.
Qed.
Print Assumptions C63_error_refuted.

(** Averages of more than 2^24 elements are not exact: one event with 2^24 + 1 elements is not more than 2^24. *)
Theorem C63_large_average_refuted : exists o hi c, o_average o = true /\ n_evt c = 1 /\ n_skip c = 0 /\ n_evt c * hi < n_elem c < 2 ^ 31 /\ verdict o 0 hi c = 0.
Proof.
  exists (ex_opts "Gen" false true None None None (Some (2 ^ 24)) None None None None None), (2 ^ 24), (mkCN (2 ^ 24 + 1) 1 1 0).
  do 3 (split; [reflexivity|]). split; [split; vm_compute; reflexivity|vm_compute; reflexivity].
Qed.
Print Assumptions C63_large_average_refuted.
