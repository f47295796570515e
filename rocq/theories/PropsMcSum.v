(** * readmcparticles sums the energies of the stable particles (C86) *)

From Verif Require Import Bytes BitModel BitSpec StrMap SioModel Ieee ObjModel ObjSpec CollSpec EventModel EventSpec IndexModel IndexSpec FileModel FileSpec FileSessions FileDirect FileCount
  FileExamples EventFacts EventExamples IndexExamples McSumModel McSumSpec McSumProofs.

(** For a file as the writer leaves it, in which each event has a collection MCParticle of particles that are written with it,
    the program ends with the number of events and with the sum over the events of the sums of the energies of the particles with
    generator status 1, added in the order of the file; for any arithmetic, and whatever further arguments there are. *)
Theorem C86_sum : forall comp uncomp srt ignore_null energy dadd d f fuel raw cbuf mraw next args, codec_ok comp uncomp -> wf_ok comp uncomp d f ->
  Forall (readable ignore_null []) (items_of (wf_sess f)) -> 0 < next -> (length (items_of (wf_sess f)) < fuel)%nat ->
  forall P, particles (items_of (wf_sess f)) P ->
  readmcparticles uncomp srt ignore_null energy dadd fuel d (wf_name f :: args) (new_reader false false [] raw cbuf mraw next) =
    Ok (Some (Zlen P, fold_left dadd (map (fun ms => fold_left dadd (stable_energies energy ms) 0) P) 0)).
Proof.
  intros comp uncomp srt ig energy dadd d f fuel raw cbuf mraw next args HC HW HR Hn Hf P HP.
  destruct (ms_done comp uncomp srt ig energy dadd d f fuel raw cbuf mraw next args HC HW HR Hn Hf) as (W & l & MS & G & C & ->). rewrite <- MS in HP.
  rewrite (all_sum comp uncomp srt energy dadd next W l C Hn G P HP). reflexivity.
Qed.
Print Assumptions C86_sum.
(** If an event has no such collection, the program ends with an exception; nothing is printed of the events before. *)
Theorem C86_lacking : forall comp uncomp srt ignore_null energy dadd d f fuel raw cbuf mraw next args, codec_ok comp uncomp -> wf_ok comp uncomp d f ->
  Forall (readable ignore_null []) (items_of (wf_sess f)) -> 0 < next -> (length (items_of (wf_sess f)) < fuel)%nat ->
  lacking (items_of (wf_sess f)) ->
  readmcparticles uncomp srt ignore_null energy dadd fuel d (wf_name f :: args) (new_reader false false [] raw cbuf mraw next) = Throw LDataNotAvailable.
Proof.
  intros comp uncomp srt ig energy dadd d f fuel raw cbuf mraw next args HC HW HR Hn Hf HP.
  destruct (ms_done comp uncomp srt ig energy dadd d f fuel raw cbuf mraw next args HC HW HR Hn Hf) as (W & l & MS & G & C & ->). rewrite <- MS in HP.
  rewrite (all_lacks comp uncomp srt energy dadd next W l C Hn G HP). reflexivity.
Qed.
Print Assumptions C86_lacking.

(** two events with three particles, of which two are stable *)
Definition sum_mc (gen mass : Z) (ps : list addr) : mcp := mkMC ps 11 gen 0 [0; 0; 0] 0 [0; 4611686018427387904; 0] mass 0 [0; 0; 0] [0; 0; 0] [0; 0; 0] [0; 0] [].
Definition sum_objs : list (addr * obj) :=
  [(1, OMC (sum_mc 3 0 [])); (2, OMC (sum_mc 1 4607182418800017408 [1])); (3, OMC (sum_mc 1 4602678819172646912 [1]))].
Definition sum_heap : heap := heap_of sum_objs.
Definition sum_coll : coll := mkColl (str "MCParticle") 0 no_params [1; 2; 3].
Definition sum_cols : list (bytes * coll) := [(str "MCParticle", sum_coll)].
Definition sum_item (num : Z) : witem := WEvt sum_heap (mkEvt 5 num 0 (str "D") no_params sum_cols) [].
(** and an event in which MCParticle is a subset of another collection *)
Definition sum_pick : coll := mkColl (str "MCParticle") (2 ^ 18) no_params [3; 3].
Definition pick_cols : list (bytes * coll) := [(str "Gen", sum_coll); (str "MCParticle", sum_pick)].
Definition pick_item : witem := WEvt sum_heap (mkEvt 5 2 0 (str "D") no_params pick_cols) [].
Definition sum_items : list witem := [WRun (ex_rn 5); sum_item 1; pick_item].
Definition sum_file (l : list witem) : wfile := mkWF ex_name (ex_of l) [].
(** here with arithmetic of integers *)
Definition sum_run (l : list witem) : Res (option (Z * Z)) :=
  readmcparticles ex_uncomp isort false (fun p m => fold_left Z.add p m) Z.add 20 (ex_make l) [ex_name; str "y"] (new_reader false false [] [] [] ex_buf 1000).

Lemma sum_coll_ok : coll_ok TMC sum_heap sum_coll.
Proof.
  assert (T : typed TMC sum_heap (c_elems sum_coll)).
  { intros a Ha. cbn [c_elems sum_coll] in Ha. elim_in; (split; [lia|eexists; split; reflexivity]). }
  assert (O : elems_ok (c_flag sum_coll) sum_heap (c_elems sum_coll)).
  { intros a o Ha Ho. cbn [c_elems sum_coll] in Ha. elim_in; injection Ho as <-; unfold elem_ok, obj_ok, sum_mc; conc. }
  split; [unfold word32; cbn; lia|]. split; [apply ex_coll_params|]. split; [vm_compute; reflexivity|]. split; [vm_compute; reflexivity|].
  split; [|split; [discriminate|discriminate]]. intros _. split; assumption.
Qed.
Lemma sum_item_ok num : num = 1 \/ num = 2 -> item_ok (0, sum_item num).
Proof.
  intros Hr. unfold item_ok, sum_item. cbn [fst snd]. split; [|split].
  - split; [unfold int32; cbn; lia|]. split; [unfold int32; cbn; lia|]. split; [unfold int64; cbn; lia|]. split; [vm_compute; reflexivity|].
    split; [exact (proj2 ex_coll_params)|]. split; [unfold sm_ok; cbn [sm_keys map fst ev_cols sum_cols]; conc|]. split; [vm_compute; reflexivity|]. split.
    + match goal with |- context [stored_cols [] ?e] => change (stored_cols [] e) with sum_cols end. unfold sum_cols.
      apply Forall_cons; [cbn [fst snd]; split; [names|split; [vm_compute; reflexivity|]]|apply Forall_nil]. exists TMC. split; [reflexivity|exact sum_coll_ok].
    + vm_compute. repeat constructor; cbn; intuition discriminate.
  - split; [|intros H; destruct H; reflexivity]. destruct Hr as [->| ->]; vm_compute; reflexivity.
  - clear. intros bs cols H. cbn [ev_cols] in H. vm_compute in H. injection H as <- _. split; [vm_compute; reflexivity|intros H; destruct H; reflexivity].
Qed.
Lemma pick_item_ok : item_ok (0, pick_item).
Proof.
  unfold item_ok, pick_item. cbn [fst snd]. split; [|split].
  - split; [unfold int32; cbn; lia|]. split; [unfold int32; cbn; lia|]. split; [unfold int64; cbn; lia|]. split; [vm_compute; reflexivity|].
    split; [exact (proj2 ex_coll_params)|]. split; [unfold sm_ok; cbn [sm_keys map fst ev_cols pick_cols]; conc|]. split; [vm_compute; reflexivity|]. split.
    + match goal with |- context [stored_cols [] ?e] => change (stored_cols [] e) with pick_cols end. unfold pick_cols.
      repeat (apply Forall_cons; [cbn [fst snd]; split; [names|split; [vm_compute; reflexivity|]]|]); [| |apply Forall_nil]; exists TMC; (split; [reflexivity|]); [exact sum_coll_ok|].
      split; [unfold word32; cbn; lia|]. split; [apply ex_coll_params|]. split; [vm_compute; reflexivity|]. split; [vm_compute; reflexivity|]. split; [discriminate|split; discriminate].
    + vm_compute. repeat constructor; cbn; intuition discriminate.
  - split; [vm_compute; reflexivity|intros H; destruct H; reflexivity].
  - intros bs cols H. cbn [ev_cols] in H. vm_compute in H. injection H as <- _. split; [vm_compute; reflexivity|intros H; destruct H; reflexivity].
Qed.
Lemma pick_readable : readable false [] pick_item.
Proof.
  assert (R : read_back [] [] (mkEvt 5 2 0 (str "D") no_params pick_cols) = pick_cols) by reflexivity.
  split; [|right]; rewrite R.
  - intros pre nc post a p E Hm Ha Hp. assert (Hin : In nc pick_cols) by (rewrite E; apply in_or_app; right; left; reflexivity).
    assert (Hc : nc = (str "Gen", sum_coll)) by (unfold pick_cols in Hin; elim_in; [reflexivity|discriminate Hm]). subst nc.
    exists (str "Gen", sum_coll). split; [apply in_or_app; right; left; reflexivity|]. split; [exact Hm|]. cbn [snd c_elems sum_coll] in *.
    elim_in; vm_compute in Hp; elim_in; cbn [In]; tauto.
  - intros nc a Hin Hs Ha. unfold pick_cols in Hin. elim_in; try discriminate Hs. cbn [snd c_elems sum_pick] in Ha. elim_in; (split; [lia|vm_compute; auto 10]).
Qed.
Definition pick_ms : list mcp := [sum_mc 1 4602678819172646912 [1]; sum_mc 1 4602678819172646912 [1]].
Lemma pick_has : has_particles pick_item pick_ms.
Proof.
  exists sum_pick. split; [right; left; reflexivity|]. split; [reflexivity|]. split; [|repeat constructor]. intros _. repeat (apply Forall_cons); try apply Forall_nil;
  exists (str "Gen", sum_coll); (split; [left; reflexivity|]); (split; [reflexivity|]); (split; [reflexivity|]); right; right; left; reflexivity.
Qed.
Lemma sum_wf l : l <> [] -> Forall (fun i => item_ok (0, i)) l -> runs_close (keys (ex_of l)) -> count [ex_of l] < 2 ^ 27 -> volume ex_comp [ex_of l] < 2 ^ 61 ->
  wf_ok ex_comp ex_uncomp (ex_make l) (sum_file l).
Proof.
  intros Hl HI HR H3 H4. assert (H : sessions_ok ex_comp [ex_of l]).
  { split; [apply Forall_cons; [|apply Forall_nil]|].
    - pose proof ex_usable as U. split; [exact U|]. split; [exact U|]. split; [exact U|]. split; [|exact HR]. unfold ex_of. cbn [ss_items]. apply Forall_map. exact HI.
    - split; [destruct l; [contradiction|discriminate]|]. split; assumption. }
  split; [exact H|]. destruct H as (K1 & K2 & K3 & K4).
  destruct (sessions_inv ex_comp ex_uncomp empty_disk (str "x") (ex_of l) [] ex_codec K1 K2 K3 K4) as (d' & _ & _ & _ & _ & _ & E & _).
  exists empty_disk, d', (str "x"). split; [reflexivity|]. split; [exact E|]. unfold ex_make. rewrite E. reflexivity.
Qed.
Lemma sum_keys l : Forall (fun k => 0 <= fst k < 100) (keys (ex_of l)) -> runs_close (keys (ex_of l)).
Proof. intros H. rewrite Forall_forall in H. exact (ex_close _ H). Qed.
Lemma sum_readable num : readable false [] (sum_item num).
Proof.
  assert (R : read_back [] [] (mkEvt 5 num 0 (str "D") no_params sum_cols) = sum_cols) by reflexivity.
  split; [|right]; rewrite R.
  - intros pre nc post a p E Hm Ha Hp. exists nc. split; [apply in_or_app; right; left; reflexivity|]. split; [exact Hm|].
    assert (Hin : In nc sum_cols) by (rewrite E; apply in_or_app; right; left; reflexivity). clear E. unfold sum_cols in Hin. elim_in. cbn [snd c_elems sum_coll] in *.
    elim_in; vm_compute in Hp; elim_in; cbn [In]; tauto.
  - intros nc a Hin Hs. unfold sum_cols in Hin. elim_in. discriminate Hs.
Qed.
Definition sum_ms : list mcp := [sum_mc 3 0 []; sum_mc 1 4607182418800017408 [1]; sum_mc 1 4602678819172646912 [1]].
Lemma sum_has num : has_particles (sum_item num) sum_ms.
Proof. exists sum_coll. split; [left; reflexivity|]. split; [reflexivity|]. split; [discriminate|]. repeat constructor. Qed.
Example C86_case : codec_ok ex_comp ex_uncomp /\ wf_ok ex_comp ex_uncomp (ex_make sum_items) (sum_file sum_items) /\
  Forall (readable false []) (items_of (wf_sess (sum_file sum_items))) /\ (length (items_of (wf_sess (sum_file sum_items))) < 20)%nat /\
  particles (items_of (wf_sess (sum_file sum_items))) [sum_ms; pick_ms] /\
  sum_run sum_items = Ok (Some (2, 4 * 4611686018427387904 + 4607182418800017408 + 3 * 4602678819172646912)).
Proof.
  split; [exact ex_codec|]. split.
  { apply sum_wf; [discriminate| |apply sum_keys; vm_compute; repeat constructor; discriminate|vm_compute; reflexivity|vm_compute; reflexivity].
    apply Forall_cons; [|apply Forall_cons; [apply sum_item_ok; auto|apply Forall_cons; [exact pick_item_ok|apply Forall_nil]]].
    split; [apply ex_rn_ok; unfold int32; lia|]. split; [vm_compute; reflexivity|intros H; destruct H; reflexivity]. }
  change (items_of (wf_sess (sum_file sum_items))) with sum_items.
  split; [apply Forall_cons; [exact Logic.I|]; apply Forall_cons; [apply sum_readable|]; apply Forall_cons; [exact pick_readable|]; apply Forall_nil|]. split; [vm_compute; lia|].
  split; [|vm_compute; reflexivity]. apply par_run; [exact Logic.I|]. apply par_evt; [apply sum_has|]. apply par_evt; [exact pick_has|]. constructor.
Qed.
Definition sum_lack : list witem := [sum_item 1; ex_small 7 2; sum_item 2].
Example C86_lacking_case : wf_ok ex_comp ex_uncomp (ex_make sum_lack) (sum_file sum_lack) /\ Forall (readable false []) (items_of (wf_sess (sum_file sum_lack))) /\
  lacking (items_of (wf_sess (sum_file sum_lack))) /\ sum_run sum_lack = Throw LDataNotAvailable.
Proof.
  split.
  { apply sum_wf; [discriminate| |apply sum_keys; vm_compute; repeat constructor; discriminate|vm_compute; reflexivity|vm_compute; reflexivity].
    apply Forall_cons; [apply sum_item_ok; auto|]. apply Forall_cons; [apply ex_small_ok; auto|]. apply Forall_cons; [apply sum_item_ok; auto|apply Forall_nil]. }
  change (items_of (wf_sess (sum_file sum_lack))) with sum_lack. split.
  - apply Forall_cons; [apply sum_readable|]. apply Forall_cons; [|apply Forall_cons; [apply sum_readable|apply Forall_nil]].
    split; [|right]; [intros pre nc post a p E; destruct pre; discriminate E|intros nc a []].
  - split; [|vm_compute; reflexivity]. apply lack_evt with sum_ms; [apply sum_has|]. apply lack_here. intros [].
Qed.

(** The class of the elements is not asked: a collection with this name that holds other objects is undefined behaviour. *)
Definition sum_other : list witem := [WEvt ex_heap (mkEvt 5 1 0 (str "D") no_params [(str "MCParticle", mkColl (str "LCGenericObject") 0 no_params [20; 21])]) []].
Theorem C86_class_refuted : exists l, ex_make l ex_name <> None /\ sum_run l = UB UBPrecondition.
Proof. exists sum_other. split; [vm_compute; discriminate|vm_compute; reflexivity]. Qed.
Print Assumptions C86_class_refuted.
(** Nor are null pointers skipped, as a reader that is told to ignore them leaves in a subset whose particles were not written. *)
Definition sum_sub : list witem := [WEvt sum_heap (mkEvt 5 1 0 (str "D") no_params [(str "MCParticle", mkColl (str "MCParticle") (2 ^ 18) no_params [1; 2])]) []].
Theorem C86_null_refuted : exists l, ex_make l ex_name <> None /\
  readmcparticles ex_uncomp isort true (fun p m => fold_left Z.add p m) Z.add 20 (ex_make l) [ex_name] (new_reader false false [] [] [] ex_buf 1000) = UB UBPrecondition.
Proof. exists sum_sub. split; [vm_compute; discriminate|vm_compute; reflexivity]. Qed.
Print Assumptions C86_null_refuted.
