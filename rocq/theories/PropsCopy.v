(** * Copies of what was read: writing them again, merging files *)

From Verif Require Import Bytes StrMap SioModel SioProofs SioSpec Ieee ObjModel ObjSpec CollSpec EventModel EventSpec EventProofs EventFacts EventExamples
  IndexModel IndexSpec IndexProofs FileModel IndexFile IndexFacts IndexExamples FileSpec FileWrite FileSessions FileRead FileSeq FileDeliver FileFacts FileUse FileDirect FileMore
  PostProofs FileExamples StreamSpec FileStream CopySpec CopyObj CopySize CopyEvent MergeModel MergeProofs.

(** ** C48: a merged file is read like the files it was made of *)

(** lcio_merge_files succeeds, changes no other file, and whoever reads the merged file is given, item
    for item, what was written to the original files, by the specification used for reading the
    original files (C13): whichever collections are selected for reading and in whatever order events
    and run headers are asked for. *)
Theorem C48_merged : forall comp uncomp srt ignore_null, sort_ok srt -> forall d files out level wraw b1 b2 raw cbuf mraw next,
  codec_ok comp uncomp -> files <> [] -> Forall (wf_ok comp uncomp d) files -> usable wraw -> usable b1 -> usable b2 -> 0 < next ->
  let W := flat_map wf_items files in
  ~ In (sio_filename out) (map wf_name files) ->
  Forall (fun w => readable ignore_null [] (snd w)) W -> Forall (rewritable level) W -> runs_close (map (fun w => item_key (snd w)) W) -> Zlen W < 2 ^ 27 ->
  exists d', merge_files comp uncomp srt ignore_null d out (map wf_name files) level wraw b1 b2 (new_reader false false [] raw cbuf mraw next) = Ok d' /\
    (forall n, n <> sio_filename out -> d' n = d n) /\
    forall ig names ops raw' cbuf' mraw' next', 0 < next' -> Forall (fun w => readable ig names (snd w)) W ->
      trace srt names at_null next' (map (fun w => (sio_filename out, snd w)) W) ops
        (read_all uncomp srt ig d' [sio_filename out] ops (new_reader false false names raw' cbuf' mraw' next')).
Proof. exact merged_reads. Qed.
Print Assumptions C48_merged.

(** The copy of an event that was read can be written, and what is read from that is a copy of the
    original event. *)
Theorem C48_copy_of_copy : forall srt, sort_ok srt -> forall only h e z next l, item_ok (z, WEvt h e only) -> copyable only h e -> 0 < next ->
  event_copy srt [] next h e only l ->
  item_ok (z, WEvt (le_heap l) (le_evt l) []) /\
  (forall ignore_null names, readable ignore_null names (WEvt h e only) -> readable ignore_null names (WEvt (le_heap l) (le_evt l) [])) /\
  (forall names next2 l2, event_copy srt names next2 (le_heap l) (le_evt l) [] l2 -> event_copy srt names next2 h e only l2).
Proof. exact copied. Qed.
Print Assumptions C48_copy_of_copy.

Definition ex_out : bytes := str "all".
Definition ex_merged (d : disk) (files : list bytes) : disk :=
  disk_of (merge_files ex_comp ex_uncomp isort false d ex_out files 6 ex_buf ex_buf ex_buf (ex_read false)).
Lemma ex_copyable : copyable [] ex_heap ex_event.
Proof.
  assert (B : read_back [] [] ex_event = [(str "Gen", ex_gen); (str "Hits", ex_hits); (str "Sel", ex_sel); (str "Usr", ex_usr)]) by reflexivity.
  split; [exact (proj1 ex_links_ok)|]. rewrite B.
  split; [|split; [|split; [|split]]].
  - intros nc a o Hn Ha Ho. elim_in; cbn [snd c_elems ex_gen ex_hits ex_sel ex_usr] in Ha; elim_in; injection Ho as <-; split; constructor.
  - intros nc a Hn Hs Ha. elim_in; try discriminate Hs. cbn [snd c_elems ex_sel] in Ha. exists (str "Gen", ex_gen). elim_in; (eexists; split; [left; reflexivity|]; split; [reflexivity|];
      split; [cbn; tauto|]; split; reflexivity).
  - intros nc nc' a Hn Hn' Hs Hs' Ha Ha' Hf. elim_in; try discriminate Hs; vm_compute in Hf; discriminate Hf.
  - intros nc a o Hn Ha Ho. elim_in; cbn [snd c_elems ex_gen ex_hits ex_sel ex_usr] in Ha; elim_in; try discriminate Ho; injection Ho as <-; discriminate.
  - repeat (apply Forall_cons; [vm_compute; reflexivity|]). apply Forall_nil.
Qed.
Lemma ex_run_par : params_ok (set_strings ex_par (str "LCIOFileName") [ex_name]).
Proof.
  assert (E : set_strings ex_par (str "LCIOFileName") [ex_name] =
    mkP [(str "beam", [3; -7]); (str "same", [1])] [(str "same", [1065353216])] [(str "LCIOFileName", [ex_name]); (str "same", [str "a b"; []])]) by (vm_compute; reflexivity).
  rewrite E. conc. all: cbn [fst snd]; conc.
Qed.
Lemma ex_rewritable : Forall (rewritable 6) (wf_items ex_file).
Proof.
  assert (V : forall run num, (run = 42 /\ num = 7) \/ (run = 42 /\ num = 3) \/ (run = 43 /\ num = 7) -> rewritable 6 (ex_name, WEvt ex_heap (ex_ev run num) [])).
  { intros run num Hr. split; [exact ex_copyable|]. unfold item_ok. cbn [fst snd]. split; [apply ex_ev_ok; destruct Hr as [[-> ->]|[[-> ->]|[-> ->]]]; unfold int32; lia|].
    split; [|intros bs cols; apply ex_blocks]. destruct Hr as [[-> ->]|[[-> ->]|[-> ->]]]; (split; [vm_compute; reflexivity|intros _; vm_compute; reflexivity]). }
  assert (G : forall run, run = 42 \/ run = 43 -> rewritable 6 (ex_name, WRun (ex_rn run))).
  { intros run Hr. unfold rewritable, item_ok. cbn [fst snd]. split.
    - unfold run_copy, ex_rn. cbn [rh_run rh_det rh_desc rh_subs rh_par]. destruct ex_run_ok as [(_ & K2 & K3 & K4 & K5 & _) _].
      split; [destruct Hr as [->| ->]; unfold int32; cbn; lia|]. split; [exact K2|]. split; [exact K3|]. split; [exact K4|]. split; [exact K5|]. exact ex_run_par.
    - destruct Hr as [->| ->]; (split; [vm_compute; reflexivity|intros _; vm_compute; reflexivity]). }
  unfold wf_items, items_of. cbn [flat_map wf_sess wf_first wf_more ex_file ex_sess1 ex_sess2 ss_items map app snd wf_name].
  repeat (apply Forall_cons; [first [apply G; auto|apply V; auto]|]). apply Forall_nil.
Qed.
Example C48_case : let W := flat_map wf_items [ex_file; ex_file] in
  Forall (fun w => readable false [] (snd w)) W /\ Forall (rewritable 6) W /\ runs_close (map (fun w => item_key (snd w)) W) /\ Zlen W < 2 ^ 27 /\
  ~ In (sio_filename ex_out) (map wf_name [ex_file; ex_file]) /\
  ex_use_all (ex_merged ex_disk [ex_name; ex_name]) [sio_filename ex_out] false (map Next [true; true; false; true; false; false; true; true]) =
    [SEvt 42 7; SEvt 42 3; SRun 43; SEvt 43 7; SRun 42; SRun 43; SEvt 43 7; SNull].
Proof.
  cbv zeta. cbn [flat_map]. rewrite app_nil_r.
  split; [apply Forall_app; split; apply Forall_map; exact ex_readable|]. split; [apply Forall_app; split; exact ex_rewritable|].
  split; [|split; [vm_compute; reflexivity|split; [|vm_compute; reflexivity]]].
  - apply ex_close. intros k Hk. rewrite map_app in Hk. apply in_app_or in Hk. assert (Hk' : In k (map (fun w => item_key (snd w)) (wf_items ex_file))) by (destruct Hk; assumption).
    unfold wf_items, items_of in Hk'. cbn [flat_map wf_sess wf_first wf_more ex_file ex_sess1 ex_sess2 ss_items map app snd wf_name item_key ev_run ev_num ex_ev rh_run ex_rn In] in Hk'.
    repeat match goal with H : _ \/ _ |- _ => destruct H as [<-|H] | H : False |- _ => destruct H end; cbn [fst]; lia.
  - intros H. cbn [map In wf_name ex_file] in H. assert (E : bytes_eqb ex_name (sio_filename ex_out) = false) by (vm_compute; reflexivity).
    apply bytes_eqb_neq in E. destruct H as [H|[H|H]]; [exact (E H)|exact (E H)|exact H].
Qed.

(** ** Files that cannot be merged *)

Definition ex_gob (fixed : bool) (n : Z) (name : bytes) : obj := OGO (mkGO [n] [] [] fixed name []).
Definition ex_gobs : heap := heap_of [(1, ex_gob true 7 (str "U")); (2, ex_gob false 8 (str "U")); (3, ex_gob false 9 [])].
Definition ex_gcol (flag : Z) (l : list addr) : coll := mkColl (str "LCGenericObject") flag no_params l.
(** objects 1, of fixed size, and 2, not of fixed size, and a subset with object 1 *)
Definition ex_part : witem := WEvt ex_gobs (ev_of [(str "U", ex_gcol 0 [1; 2]); (str "V", ex_gcol (2 ^ 18) [1])]) [].
(** an object without type name *)
Definition ex_noname : witem := WEvt ex_gobs (ev_of [(str "U", ex_gcol 0 [3])]) [].
(** a subset of objects that are not stored *)
Definition ex_lost : witem := WEvt ex_gobs (ev_of [(str "V", ex_gcol (2 ^ 18) [1])]) [].

Lemma ex_gcol_ok flag l : flag = 0 \/ flag = 2 ^ 18 -> l = [1; 2] \/ l = [1] \/ l = [3] -> coll_ok TGO ex_gobs (ex_gcol flag l).
Proof.
  intros Hf Hl. assert (T : typed TGO ex_gobs l).
  { intros a Ha. destruct Hl as [->|[->| ->]]; elim_in; (split; [lia|eexists; split; reflexivity]). }
  assert (O : elems_ok flag ex_gobs l).
  { intros a o Ha Ho. destruct Hl as [->|[->| ->]]; elim_in; injection Ho as <-; unfold elem_ok, obj_ok, ex_gob; conc. }
  split; [destruct Hf as [->| ->]; unfold word32; cbn; lia|]. split; [apply ex_coll_params|]. split; [vm_compute; reflexivity|].
  split; [destruct Hl as [->|[->| ->]]; vm_compute; reflexivity|]. split; [|split; [discriminate|]]. { intros _. split; assumption. }
  intros _. split; [exact T|]. split; [exact O|]. split; [|split; [|split]].
  - intros k Hk. vm_compute. discriminate.
  - intros a o Ha Ho. cbn [c_elems ex_gcol] in Ha. destruct Hl as [->|[->| ->]]; elim_in; injection Ho as <-; split; vm_compute; reflexivity.
  - cbn [c_flag ex_gcol]. destruct Hf as [->| ->]; discriminate.
  - intros _. exists (1, 0, 0). cbn [fst snd]. split; [unfold int32; lia|]. split; [unfold int32; lia|]. split; [unfold int32; lia|].
    intros a o Ha Ho. cbn [c_elems ex_gcol] in Ha. destruct Hl as [->|[->| ->]]; elim_in; injection Ho as <-; reflexivity.
Qed.
Lemma ex_one_file i e : i = WEvt ex_gobs e [] -> item_ok (0, i) -> 0 <= ev_run e < 100 ->
  volume ex_comp [ex_of [i]] < 2 ^ 61 -> wf_ok ex_comp ex_uncomp (ex_make [i]) (mkWF ex_name (ex_of [i]) []).
Proof.
  intros Hi Hok Hr Hv. assert (S : sess_ok (ex_of [i])).
  { pose proof ex_usable as U. split; [exact U|]. split; [exact U|]. split; [exact U|]. split; [exact (Forall_cons _ Hok (Forall_nil _))|].
    apply ex_close. intros k [<-|[]]. rewrite Hi. exact Hr. }
  assert (S1 : Forall sess_ok [ex_of [i]]) by exact (Forall_cons _ S (Forall_nil _)).
  assert (S2 : ss_items (ex_of [i]) <> []) by discriminate. assert (S3 : count [ex_of [i]] < 2 ^ 27) by reflexivity.
  split; [split; [exact S1|split; [exact S2|split; [exact S3|exact Hv]]]|].
  destruct (sessions_inv ex_comp ex_uncomp empty_disk (str "x") (ex_of [i]) [] ex_codec S1 S2 S3 Hv) as (d' & _ & _ & _ & _ & _ & E & _).
  exists empty_disk, d', (str "x"). split; [reflexivity|]. split; [exact E|]. unfold ex_make. cbn [wf_name]. rewrite E. reflexivity.
Qed.
Ltac one_event :=
  match goal with |- item_ok (0, ?i) => unfold item_ok, i; cbn [fst snd]; split; [|split] end;
  [ split; [unfold int32; cbn; lia|]; split; [unfold int32; cbn; lia|]; split; [unfold int64; cbn; lia|];
    split; [vm_compute; reflexivity|]; split; [apply ex_coll_params|]; split; [unfold sm_ok; cbn [sm_keys map fst ev_of ev_cols]; conc|]; split; [vm_compute; reflexivity|]; split
  | split; [vm_compute; reflexivity|intros H; destruct H; reflexivity]
  | let bs := fresh "bs" in let cs := fresh "cs" in let H := fresh "H" in intros bs cs H; vm_compute in H; injection H as <- _; split; [vm_compute; reflexivity|intros K; destruct K; reflexivity] ].

Lemma ex_part_ok : wf_ok ex_comp ex_uncomp (ex_make [ex_part]) (mkWF ex_name (ex_of [ex_part]) []).
Proof.
  eapply ex_one_file; [reflexivity| |cbn; lia|vm_compute; reflexivity]. one_event.
  - match goal with |- Forall _ ?l => change l with [(str "U", ex_gcol 0 [1; 2]); (str "V", ex_gcol (2 ^ 18) [1])] end.
    repeat (apply Forall_cons; [cbn [fst snd]; split; [names|split; [vm_compute; reflexivity|]]|]); [| |apply Forall_nil];
      (exists TGO; split; [reflexivity|apply ex_gcol_ok; auto]).
  - vm_compute. repeat constructor; cbn; intuition discriminate.
Qed.
Lemma ex_noname_ok : wf_ok ex_comp ex_uncomp (ex_make [ex_noname]) (mkWF ex_name (ex_of [ex_noname]) []).
Proof.
  eapply ex_one_file; [reflexivity| |cbn; lia|vm_compute; reflexivity]. one_event.
  - match goal with |- Forall _ ?l => change l with [(str "U", ex_gcol 0 [3])] end.
    repeat (apply Forall_cons; [cbn [fst snd]; split; [names|split; [vm_compute; reflexivity|]]|]); [|apply Forall_nil];
      (exists TGO; split; [reflexivity|apply ex_gcol_ok; auto]).
  - vm_compute. repeat constructor; cbn; intuition discriminate.
Qed.
Lemma ex_lost_ok : wf_ok ex_comp ex_uncomp (ex_make [ex_lost]) (mkWF ex_name (ex_of [ex_lost]) []).
Proof.
  eapply ex_one_file; [reflexivity| |cbn; lia|vm_compute; reflexivity]. one_event.
  - match goal with |- Forall _ ?l => change l with [(str "V", ex_gcol (2 ^ 18) [1])] end.
    repeat (apply Forall_cons; [cbn [fst snd]; split; [names|split; [vm_compute; reflexivity|]]|]); [|apply Forall_nil];
      (exists TGO; split; [reflexivity|apply ex_gcol_ok; auto]).
  - vm_compute. repeat constructor; cbn; intuition discriminate.
Qed.
Lemma ex_no_mc l : Forall (fun nc => c_type (snd nc) = str "LCGenericObject") l -> mc_links_ok ex_gobs l.
Proof.
  intros F pre nc post a p E Hm. exfalso. rewrite E in F. apply Forall_app in F. destruct F as [_ F]. apply Forall_inv in F. unfold is_mc in Hm. rewrite F in Hm.
  vm_compute in Hm. discriminate Hm.
Qed.

(** [fixed_subsets_ok] is needed: the file is read, merging it succeeds, and reading the merged file
    fails.  The subset collection of the file has the FIXED bit; the object, read as part of a
    collection without it, is not of fixed size any more, so that the sizes which belong to the bit are
    not written. *)
Theorem C48_fixed_subset_refuted : exists d f d',
  wf_ok ex_comp ex_uncomp d f /\ Forall (fun w => readable false [] (snd w)) (wf_items f) /\
  merge_files ex_comp ex_uncomp isort false d ex_out [wf_name f] 6 ex_buf ex_buf ex_buf (ex_read false) = Ok d' /\
  ex_use_all d [wf_name f] false [Next true] = [SEvt 1 1] /\
  ex_use_all d' [sio_filename ex_out] false [Next true] = [SThrow EIoFailure].
Proof.
  exists (ex_make [ex_part]), (mkWF ex_name (ex_of [ex_part]) []), (ex_merged (ex_make [ex_part]) [ex_name]).
  split; [exact ex_part_ok|]. split; [|split; [|split; vm_compute; reflexivity]].
  - constructor; [|constructor]. split; [apply ex_no_mc; repeat constructor|]. right. intros nc a Hn Hs Ha.
    change (read_back [] [] _) with [(str "U", ex_gcol 0 [1; 2]); (str "V", ex_gcol (2 ^ 18) [1])] in Hn. elim_in; try discriminate Hs.
    cbn [snd c_elems ex_gcol] in Ha. elim_in. split; [lia|vm_compute; auto].
  - unfold ex_merged. cbn [wf_name]. apply disk_of_ok. vm_compute. reflexivity.
Qed.
Print Assumptions C48_fixed_subset_refuted.

(** [type_names_ok] is needed: an empty type name is replaced. *)
Definition ex_types (d : disk) (n : bytes) : list (list (option (list bytes))) :=
  match open_files ex_uncomp d [n] (ex_read false) with
  | (Ok _, r) => map (fun x => match x with REvt (Some l) => map (fun nc => sm_get (str "TypeName") (p_str (c_par (snd nc)))) (ev_cols (le_evt l)) | _ => [] end)
                   (run_steps ex_uncomp isort false d [Next true] r)
  | _ => []
  end.
Theorem C48_type_name_refuted : exists d f d',
  wf_ok ex_comp ex_uncomp d f /\ Forall (fun w => readable false [] (snd w)) (wf_items f) /\
  merge_files ex_comp ex_uncomp isort false d ex_out [wf_name f] 6 ex_buf ex_buf ex_buf (ex_read false) = Ok d' /\
  ex_types d (wf_name f) = [[Some [[]]]] /\
  ex_types d' (sio_filename ex_out) = [[Some [str "LCGenericObject"]]].
Proof.
  exists (ex_make [ex_noname]), (mkWF ex_name (ex_of [ex_noname]) []), (ex_merged (ex_make [ex_noname]) [ex_name]).
  split; [exact ex_noname_ok|]. split; [|split; [|split; vm_compute; reflexivity]].
  - constructor; [|constructor]. split; [apply ex_no_mc; repeat constructor|]. right. intros nc a Hn Hs Ha.
    change (read_back [] [] _) with [(str "U", ex_gcol 0 [3])] in Hn. elim_in; discriminate Hs.
  - unfold ex_merged. cbn [wf_name]. apply disk_of_ok. vm_compute. reflexivity.
Qed.
Print Assumptions C48_type_name_refuted.

(** [owners_ok] is needed: a reader that accepts missing elements of subset collections gives a null
    pointer to the writer. *)
Theorem C48_null_element_refuted : exists d f,
  wf_ok ex_comp ex_uncomp d f /\ Forall (fun w => readable true [] (snd w)) (wf_items f) /\
  merge_files ex_comp ex_uncomp isort true d ex_out [wf_name f] 6 ex_buf ex_buf ex_buf (ex_read false) = UB UBNullDeref.
Proof.
  exists (ex_make [ex_lost]), (mkWF ex_name (ex_of [ex_lost]) []).
  split; [exact ex_lost_ok|]. split; [|vm_compute; reflexivity].
  constructor; [|constructor]. split; [apply ex_no_mc; repeat constructor|]. left. reflexivity.
Qed.
Print Assumptions C48_null_element_refuted.
