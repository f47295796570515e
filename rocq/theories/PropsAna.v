(** * The program anajob (C81) *)

From Verif Require Import Bytes BitModel BitSpec StrMap SioModel Ieee ObjModel EventModel EventSpec IndexModel IndexSpec FileModel FileSpec FileDirect FileCount FileExamples
  ObjSpec EventFacts EventExamples IndexExamples ShowModel ShowSpec ShowProofs AnaModel AnaSpec AnaProofs.

(** Of files that were written by the library, in any number of sessions, anajob prints for each the numbers of
    runs and events, then all run headers and then all events of all files in their order, with the collections
    that the environment variable names. *)
Theorem C81_all_files : forall comp uncomp srt ignore_null d files fuel env names raw cbuf mraw next,
  codec_ok comp uncomp -> files <> [] -> Forall (wf_ok comp uncomp d) files ->
  Forall (fun f => Forall (sess_covers comp) (wf_sess f) /\ numbered (items_of (wf_sess f))) files ->
  Forall (fun w => readable ignore_null names (snd w)) (flat_map wf_items files) -> 0 < next -> selects env names ->
  (length (flat_map wf_items files) < fuel)%nat ->
  exists evs, anajob uncomp srt ignore_null fuel d (map wf_name files) env (fun names => new_reader false false names raw cbuf mraw next) =
    ADone (map (fun f => (Zlen (item_runs (items_of (wf_sess f))), Zlen (item_events (items_of (wf_sess f))))) files) (headers (flat_map wf_items files)) false evs /\
    copies srt names next (flat_map wf_items files) evs.
Proof.
  intros comp uncomp srt ig d files fuel env names raw cbuf mraw next HC HN HW HX HR Hp HS Hfu.
  exact (ana_done comp uncomp srt ig d files fuel env names raw cbuf mraw next HC HN HW HX HR Hp (names_selected env names HS) Hfu).
Qed.
Print Assumptions C81_all_files.

(** A file that does not exist ends the program with an exception, wherever it is in the list, before any run
    header or event is printed. *)
Theorem C81_missing_file : forall comp uncomp srt ignore_null d files name post fuel env raw cbuf mraw next,
  codec_ok comp uncomp -> Forall (wf_ok comp uncomp d) files ->
  Forall (fun f => Forall (sess_covers comp) (wf_sess f) /\ numbered (items_of (wf_sess f))) files -> d name = None ->
  anajob uncomp srt ignore_null fuel d (map wf_name files ++ name :: post) env (fun names => new_reader false false names raw cbuf mraw next) = ATerminate ENotOpen.
Proof. exact ana_missing. Qed.
Print Assumptions C81_missing_file.

(** Without files the program says how it is to be used. *)
Theorem C81_usage : forall uncomp srt ignore_null fuel d files env new,
  anajob uncomp srt ignore_null fuel d files env new = AUsage <-> files = [].
Proof.
  intros uncomp srt ig fuel d files env new. split; [|intros ->; reflexivity]. destruct files as [|f files]; [reflexivity|]. unfold anajob.
  destruct (ana_counts uncomp d (f :: files) (new (env_names env))) as [[c|e|k] r1]; cbn [bind]; [|discriminate..].
  destruct (ana_open uncomp d (f :: files) r1) as [r2|e|k]; cbn [bind]; [|discriminate..].
  destruct (ana_runs uncomp fuel d r2) as [[[l m]|e|k] r3]; cbn [bind]; [|discriminate..].
  destruct (ana_open uncomp d (f :: files) (close_reader r3)) as [r4|e|k]; cbn [bind]; [|discriminate..].
  destruct (ana_events uncomp srt ig fuel d r4) as [l'|e|k]; cbn [bind]; discriminate.
Qed.
Print Assumptions C81_usage.

(** a file of two runs and three events, twice *)
Definition ex_ana (d : disk) (files : list bytes) (env : option bytes) : anaout :=
  anajob ex_uncomp isort false 20 d files env (fun names => new_reader false false names [] [] ex_buf 1000).
Definition ana_numbers (x : anaout) : option (list (Z * Z) * list (Z * bytes) * bool * list (Z * Z * list bytes)) :=
  match x with
  | ADone c h m e => Some (c, map (fun r => (rh_run r, rh_det r)) h, m, map (fun l => (ev_run (le_evt l), ev_num (le_evt l), sm_keys (ev_cols (le_evt l)))) e)
  | _ => None
  end.
Example C81_case : codec_ok ex_comp ex_uncomp /\ Forall (wf_ok ex_comp ex_uncomp ex_disk) [ex_file; ex_file] /\
  Forall (fun f => Forall (sess_covers ex_comp) (wf_sess f) /\ numbered (items_of (wf_sess f))) [ex_file; ex_file] /\
  Forall (fun w => readable false [] (snd w)) (flat_map wf_items [ex_file; ex_file]) /\ (length (flat_map wf_items [ex_file; ex_file]) < 20)%nat /\
  selects None [] /\
  ana_numbers (ex_ana ex_disk [ex_name; ex_name] (Some (str "Gen"))) =
    Some ([(2, 3); (2, 3)], [(42, str "ILD"); (43, str "ILD"); (42, str "ILD"); (43, str "ILD")], false,
          [(42, 7, [str "Gen"]); (42, 3, [str "Gen"]); (43, 7, [str "Gen"]); (42, 7, [str "Gen"]); (42, 3, [str "Gen"]); (43, 7, [str "Gen"])]).
Proof.
  assert (R : Forall (fun w => readable false [] (snd w)) (wf_items ex_file)).
  { unfold wf_items. apply Forall_forall. intros w Hw. apply in_map_iff in Hw. destruct Hw as (i & <- & Hi). pose proof ex_readable as HR. rewrite Forall_forall in HR. exact (HR i Hi). }
  split; [exact ex_codec|]. split; [repeat (apply Forall_cons; [exact (proj1 ex_wf)|]); apply Forall_nil|].
  split; [repeat (apply Forall_cons; [split; [exact (proj1 ex_covers)|exact ex_numbered]|]); apply Forall_nil|].
  split; [cbn [flat_map]; rewrite app_nil_r; apply Forall_app; split; exact R|]. split; [vm_compute; lia|]. split; [reflexivity|]. vm_compute. reflexivity.
Qed.
Example C81_missing_case : ex_ana ex_disk [ex_name; str "none"; ex_name] None = ATerminate ENotOpen /\ ex_ana ex_disk [] None = AUsage.
Proof. split; vm_compute; reflexivity. Qed.

(** the length of the detector's name in the first run header is damaged *)
Definition ex_damaged : disk :=
  fun n => match ex_disk2 n with Some b => Some (firstn 71 b ++ Init.Byte.x7f :: skipn 72 b) | None => None end.
(** If a run header cannot be read the program does not go on to the events, although they can be read: the
    exception of sio is not an IOException (anajob.cc:83-98). *)
Theorem C81_damaged_header_refuted : exists d, ex_ana d [ex_name] None = ATerminate EIoFailure /\
  match ana_open ex_uncomp d [ex_name] (new_reader false false [] [] [] ex_buf 1000) with
  | Ok r => exists l, ana_events ex_uncomp isort false 20 d r = Ok l /\ map (fun l => (ev_run (le_evt l), ev_num (le_evt l))) l = [(42, 7); (42, 3); (43, 7)]
  | _ => False
  end.
Proof.
  exists ex_damaged. split; [vm_compute; reflexivity|].
  assert (H : match (do r <- ana_open ex_uncomp ex_damaged [ex_name] (new_reader false false [] [] [] ex_buf 1000); ana_events ex_uncomp isort false 20 ex_damaged r) with
              | Ok l => map (fun l => (ev_run (le_evt l), ev_num (le_evt l))) l = [(42, 7); (42, 3); (43, 7)] | _ => False end) by (vm_compute; reflexivity).
  destruct (ana_open ex_uncomp ex_damaged [ex_name] (new_reader false false [] [] [] ex_buf 1000)) as [r|e|k]; cbn [bind] in H; [|destruct H..].
  destruct (ana_events ex_uncomp isort false 20 ex_damaged r) as [l|e|k]; [|destruct H..]. exists l. split; [reflexivity|exact H].
Qed.
Print Assumptions C81_damaged_header_refuted.
