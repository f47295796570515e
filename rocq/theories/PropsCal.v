(** * readcalibration prints the calibration constants of a file (C85) *)

From Verif Require Import Bytes BitModel BitSpec StrMap SioModel Ieee ObjModel ObjSpec CollSpec EventModel EventSpec IndexModel IndexSpec FileModel FileSpec FileSessions FileDirect FileCount
  FileExamples EventFacts EventExamples IndexExamples ImplModel ViewModel CalModel CalSpec CalProofs.

(** For a file as the writer leaves it, in any number of sessions and with any levels of compression, the lines are
    the values of all objects in collections of calibration constants, in order, and the number printed is that of
    the events. *)
Theorem C85_lines : forall comp uncomp srt ignore_null d f fuel raw cbuf mraw next, codec_ok comp uncomp -> wf_ok comp uncomp d f ->
  Forall (readable ignore_null []) (items_of (wf_sess f)) -> Forall calibrated_item (items_of (wf_sess f)) -> 0 < next -> (length (items_of (wf_sess f)) < fuel)%nat ->
  exists vs, readcalibration uncomp srt ignore_null fuel d [wf_name f] (new_reader false false [] raw cbuf mraw next) =
      Ok (Some (vs, Zlen (filter (fun i => match i with WEvt _ _ _ => true | WRun _ => false end) (items_of (wf_sess f))))) /\
    constants (items_of (wf_sess f)) vs.
Proof.
  intros comp uncomp srt ig d f fuel raw cbuf mraw next HC HW HR HK Hn Hf. destruct (cal_done comp uncomp srt ig d f fuel raw cbuf mraw next HC HW HR HK Hn Hf) as (vs & E & C).
  exists vs. split; [|exact C]. rewrite E. reflexivity.
Qed.
Print Assumptions C85_lines.
(** and the items determine the lines *)
Theorem C85_determined : forall W l, constants W l -> forall l', constants W l' -> l' = l.
Proof.
  assert (A : forall (h : heap) es l1, Forall2 (fun a v => exists o, h a = Some o /\ is_constant o v) es l1 -> forall l2, Forall2 (fun a v => exists o, h a = Some o /\ is_constant o v) es l2 -> l2 = l1).
  { intros h es l1 F. induction F as [|a v es l1 (o & Ho & Hv) _ IH]; intros l2 G; inversion G as [|? v' ? l2' (o' & Ho' & Hv') G']; subst; [reflexivity|]. f_equal; [|apply IH; exact G'].
    rewrite Ho in Ho'. injection Ho' as <-. destruct v as [[i x] y], v' as [[i' x'] y']. destruct Hv as (f & t & dd & ->). destruct Hv' as (f' & t' & dd' & E). injection E as -> -> ->. reflexivity. }
  intros W l H. induction H as [|r W l _ IH|h e only W l1 l F _ IH]; intros l' G; inversion G; subst; [reflexivity|apply IH; assumption|]. f_equal; [eapply A; eassumption|apply IH; assumption].
Qed.
Print Assumptions C85_determined.

Theorem C85_usage : forall uncomp srt ignore_null fuel d args r,
  readcalibration uncomp srt ignore_null fuel d args r = Ok None <-> length args <> 1%nat.
Proof.
  intros uncomp srt ig fuel d args r. destruct args as [|n [|m args]]; [split; [discriminate|reflexivity]| |split; [discriminate|reflexivity]].
  split; [|intros H; destruct H; reflexivity]. unfold readcalibration. destruct (open_file uncomp d n r) as [[u|e|k] r1]; try discriminate.
  destruct (cal_loop uncomp srt ig fuel d r1); cbn [bind]; discriminate.
Qed.
Print Assumptions C85_usage.
Theorem C85_missing_file : forall uncomp srt ignore_null fuel d name raw cbuf mraw next, d name = None ->
  readcalibration uncomp srt ignore_null fuel d [name] (new_reader false false [] raw cbuf mraw next) = Throw ENotOpen.
Proof. intros uncomp srt ig fuel d name raw cbuf mraw next H. unfold readcalibration, open_file. cbn. rewrite H. reflexivity. Qed.
Print Assumptions C85_missing_file.

(** two constants in one event, one of them also in a subset, and other objects in another collection *)
Definition cal_objs : list (addr * obj) :=
  [(30, OGO (mkGO [5] [1065353216; 1073741824] [] true (str "CalibrationConstant") (str "i:cellId,f:offset,f:gain")));
   (31, OGO (mkGO [-6] [7; 8] [] true (str "CalibrationConstant") (str "i:cellId,f:offset,f:gain")));
   (40, OGO (mkGO [1; -2] [] [7] true (str "Calib") (str "i:a,i:b,d:c")))].
Definition cal_heap : heap := heap_of cal_objs.
Definition cal_coll : coll := mkColl (str "LCGenericObject") 0 no_params [30; 31].
Definition cal_other : coll := mkColl (str "LCGenericObject") 0 no_params [40].
Definition cal_sel : coll := mkColl (str "LCGenericObject") (2 ^ 18) no_params [31].
Definition cal_cols : list (bytes * coll) := [(str "Cal", cal_coll); (str "Sel", cal_sel); (str "Usr", cal_other)].
Definition cal_item (num : Z) : witem := WEvt cal_heap (mkEvt 5 num 0 (str "D") no_params cal_cols) [].
Definition cal_items : list witem := [WRun (ex_rn 5); cal_item 1; cal_item 2].
Definition cal_file : wfile := mkWF ex_name (ex_of cal_items) [].
Definition cal_run (d : disk) : Res (option (list calline * Z)) := readcalibration ex_uncomp isort false 20 d [ex_name] (new_reader false false [] [] [] ex_buf 1000).

Lemma cal_generic c s : (c = cal_coll \/ c = cal_sel) /\ s = (1, 2, 0) \/ c = cal_other /\ s = (2, 0, 1) -> coll_ok TGO cal_heap c.
Proof.
  intros Hc.
  assert (T : typed TGO cal_heap (c_elems c)).
  { intros a Ha. destruct Hc as [[[->| ->] _]|[-> _]]; cbn [c_elems cal_coll cal_sel cal_other] in Ha; elim_in; (split; [lia|eexists; split; reflexivity]). }
  assert (O : elems_ok (c_flag c) cal_heap (c_elems c)).
  { intros a o Ha Ho. destruct Hc as [[[->| ->] _]|[-> _]]; cbn [c_elems cal_coll cal_sel cal_other] in Ha; elim_in; injection Ho as <-; unfold elem_ok; conc. }
  assert (Hp : c_par c = no_params) by (destruct Hc as [[[->| ->] _]|[-> _]]; reflexivity). assert (Hf : c_flag c = 0 \/ c_flag c = 2 ^ 18) by (destruct Hc as [[[->| ->] _]|[-> _]]; auto).
  split; [unfold word32; lia|]. split; [rewrite Hp; apply ex_coll_params|]. split; [destruct Hc as [[[->| ->] _]|[-> _]]; vm_compute; reflexivity|]. split; [destruct Hc as [[[->| ->] _]|[-> _]]; vm_compute; reflexivity|].
  split; [|split; [discriminate|]]. { intros _. split; assumption. }
  intros _. split; [exact T|]. split; [exact O|]. split; [|split; [|split]].
  - intros k Hk. destruct Hc as [[[->| ->] _]|[-> _]]; vm_compute; discriminate.
  - intros a o Ha Ho. destruct Hc as [[[->| ->] _]|[-> _]]; cbn [c_elems cal_coll cal_sel cal_other] in Ha; elim_in; injection Ho as <-; split; vm_compute; reflexivity.
  - destruct Hc as [[[->| ->] _]|[-> _]]; reflexivity.
  - intros _. exists s. destruct Hc as [[[->| ->] ->]|[-> ->]]; cbn [fst snd]; (split; [unfold int32; lia|]; split; [unfold int32; lia|]; split; [unfold int32; lia|]);
      intros a o Ha Ho; cbn [c_elems cal_coll cal_sel cal_other] in Ha; elim_in; injection Ho as <-; reflexivity.
Qed.
Lemma cal_item_ok num : num = 1 \/ num = 2 -> item_ok (0, cal_item num).
Proof.
  intros Hr. unfold item_ok, cal_item. cbn [fst snd]. split; [|split].
  - split; [unfold int32; cbn; lia|]. split; [unfold int32; cbn; lia|]. split; [unfold int64; cbn; lia|]. split; [vm_compute; reflexivity|].
    split; [exact (proj2 ex_coll_params)|]. split; [unfold sm_ok; cbn [sm_keys map fst ev_cols cal_cols]; conc|]. split; [vm_compute; reflexivity|]. split.
    + match goal with |- context [stored_cols [] ?e] => change (stored_cols [] e) with cal_cols end; unfold cal_cols.
      repeat (apply Forall_cons; [cbn [fst snd]; split; [names|split; [vm_compute; reflexivity|]]|]); [| | |apply Forall_nil];
        exists TGO; (split; [reflexivity|]); eapply cal_generic; [left; split; [left|]|left; split; [right|]|right; split]; reflexivity.
    + vm_compute. repeat constructor; cbn; intuition discriminate.
  - split; [|intros H; destruct H; reflexivity]. destruct Hr as [->| ->]; vm_compute; reflexivity.
  - clear. intros bs cols H. cbn [ev_cols] in H. vm_compute in H. injection H as <- _. split; [vm_compute; reflexivity|intros H; destruct H; reflexivity].
Qed.
Lemma cal_wf : wf_ok ex_comp ex_uncomp (ex_make cal_items) cal_file.
Proof.
  assert (H : sessions_ok ex_comp [ex_of cal_items]).
  { split; [apply Forall_cons; [|apply Forall_nil]|].
    - pose proof ex_usable as U. split; [exact U|]. split; [exact U|]. split; [exact U|]. split; [|apply ex_close; intros k Hk; cbn in Hk;
      repeat match goal with H : _ \/ _ |- _ => destruct H as [<-|H] | H : False |- _ => destruct H end; cbn [fst]; lia].
      apply Forall_cons; [|repeat (apply Forall_cons; [apply cal_item_ok; auto|]); apply Forall_nil].
      split; [apply ex_rn_ok; unfold int32; lia|]. split; [vm_compute; reflexivity|intros H; destruct H; reflexivity].
    - split; [discriminate|]. split; vm_compute; reflexivity. }
  split; [exact H|]. destruct H as (K1 & K2 & K3 & K4).
  destruct (sessions_inv ex_comp ex_uncomp empty_disk (str "x") (ex_of cal_items) [] ex_codec K1 K2 K3 K4) as (d' & _ & _ & _ & _ & _ & E & _).
  exists empty_disk, d', (str "x"). split; [reflexivity|]. split; [exact E|]. unfold ex_make. rewrite E. reflexivity.
Qed.
Example C85_case : codec_ok ex_comp ex_uncomp /\ wf_ok ex_comp ex_uncomp (ex_make cal_items) cal_file /\
  Forall (readable false []) (items_of (wf_sess cal_file)) /\ Forall calibrated_item (items_of (wf_sess cal_file)) /\ (length (items_of (wf_sess cal_file)) < 20)%nat /\
  cal_run (ex_make cal_items) = Ok (Some ([(5, 1065353216, 1073741824); (-6, 7, 8); (-6, 7, 8); (5, 1065353216, 1073741824); (-6, 7, 8); (-6, 7, 8)], 2)).
Proof.
  assert (R : forall num, read_back [] [] (mkEvt 5 num 0 (str "D") no_params cal_cols) = cal_cols) by reflexivity.
  split; [exact ex_codec|]. split; [exact cal_wf|]. split; [|split; [|split; [vm_compute; lia|vm_compute; reflexivity]]]; change (items_of (wf_sess cal_file)) with cal_items.
  - assert (V : forall num, readable false [] (cal_item num)).
    { intros num. split; [|right]; rewrite R.
      - intros pre nc post a p E Hm. assert (Hin : In nc cal_cols) by (rewrite E; apply in_or_app; right; left; reflexivity). clear E. unfold cal_cols in Hin. elim_in; discriminate Hm.
      - intros nc a Hin Hs Ha. unfold cal_cols in Hin. elim_in; try discriminate Hs. cbn [snd c_elems cal_sel] in Ha. elim_in. split; [lia|vm_compute; auto]. }
    apply Forall_cons; [exact Logic.I|]. repeat (apply Forall_cons; [apply V|]). apply Forall_nil.
  - assert (V : forall num, calibrated_item (cal_item num)).
    { intros num. unfold calibrated_item, cal_item. match goal with |- context [stored_cols [] ?e] => change (stored_cols [] e) with cal_cols end; unfold cal_cols.
      assert (C1 : exists o v, cal_heap 30 = Some o /\ is_constant o v) by (eexists; exists (5, 1065353216, 1073741824); split; [reflexivity|]; do 3 eexists; reflexivity).
      assert (C2 : exists o v, cal_heap 31 = Some o /\ is_constant o v) by (eexists; exists (-6, 7, 8); split; [reflexivity|]; do 3 eexists; reflexivity).
      apply Forall_cons; [|apply Forall_cons; [|apply Forall_cons; [|apply Forall_nil]]]; (split; [vm_compute; discriminate|]); [| |intros H; vm_compute in H; discriminate H].
      - intros _. split; [reflexivity|]. split; [apply Forall_cons; [exact C1|apply Forall_cons; [exact C2|apply Forall_nil]]|discriminate].
      - intros _. split; [reflexivity|]. split; [apply Forall_cons; [exact C2|apply Forall_nil]|]. intros _. apply Forall_cons; [|apply Forall_nil].
        exists (str "Cal", cal_coll). split; [left; reflexivity|]. split; [reflexivity|]. split; [reflexivity|]. right. left. reflexivity. }
    apply Forall_cons; [exact Logic.I|]. repeat (apply Forall_cons; [apply V|]). apply Forall_nil.
Qed.
Example C85_usage_case : readcalibration ex_uncomp isort false 20 (ex_make cal_items) [ex_name; ex_name] (new_reader false false [] [] [] ex_buf 1000) = Ok None /\
  readcalibration ex_uncomp isort false 20 (ex_make cal_items) [str "x"] (new_reader false false [] [] [] ex_buf 1000) = Throw ENotOpen.
Proof. split; vm_compute; reflexivity. Qed.

(** The parameter TypeName does not tell that a collection holds such objects.  In a file whose second event has a
    collection of particles with this parameter, the program ends with an exception, and the constants of the third event
    are not printed. *)
Definition cal_named (num : Z) : witem :=
  WEvt ex_heap (mkEvt 5 num 0 (str "D") no_params [(str "Gen", mkColl (str "MCParticle") 0 (mkP [] [] [(str "TypeName", [str "CalibrationConstant"])]) [1])]) [].
Theorem C85_type_refuted : exists d, d = ex_make [cal_item 1; cal_named 2; cal_item 3] /\ d ex_name <> None /\ cal_run d = Throw LException /\
  cal_run (ex_make [cal_item 1; cal_item 3]) = Ok (Some ([(5, 1065353216, 1073741824); (-6, 7, 8); (-6, 7, 8); (5, 1065353216, 1073741824); (-6, 7, 8); (-6, 7, 8)], 2)).
Proof. eexists. split; [reflexivity|]. split; [vm_compute; discriminate|]. split; vm_compute; reflexivity. Qed.
Print Assumptions C85_type_refuted.
