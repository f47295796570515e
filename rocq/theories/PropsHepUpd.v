(** * The older StdHep reader, and events filled from StdHep files (C55) *)

From Verif Require Import Bytes StrMap SioModel Ieee ObjModel EventModel ImplModel HepModel HepSpec HepProofs HepFormat HepFile HepExamples HepUpdModel HepUpdSpec HepUpdProofs.

(** ** The two readers *)

(** Whatever the file: in the collection that LCStdHepRdr::readEvent returns there is a particle for every
    line, with the attributes of the line; parents and daughters mirror each other; the links declared by
    the parent's range of daughters are there, and no others but those that repair decays. *)
Theorem C55_older : forall third in_time h c h', hep_event_old third in_time h = (Ok (Some c), Some h') ->
  Zlen (cc_parts c) = he_n (h_evt h') /\ mirrored (cc_parts c) /\
  (forall i o, at_ (cc_parts c) i o -> attributes_of third in_time (h_evt h') i o) /\
  (forall p d, 0 <= p < he_n (h_evt h') -> declared (h_evt h') p d -> linked (cc_parts c) p d) /\
  (forall p d, linked (cc_parts c) p d -> declared (h_evt h') p d \/ repairs (h_evt h') p d) /\
  cc_weight c = d2f (he_wgt (h_evt h')) /\ cc_idrup c = (if he_idrup (h_evt h') =? 0 then None else Some (s32 (he_idrup (h_evt h')))).
Proof. exact hep_event_old_spec. Qed.
Print Assumptions C55_older.

(** An event that the newer reader reads is read by the older one too, with the same weight, process and
    particles; the older one has no link that the newer one has not, and lacks only links to declared
    mothers. *)
Theorem C55_fewer_links : forall third in_time h c h', hep_event third in_time h = (Ok (Some c), Some h') ->
  exists c1, hep_event_old third in_time h = (Ok (Some c1), Some h') /\
  cc_weight c1 = cc_weight c /\ cc_idrup c1 = cc_idrup c /\ length (cc_parts c1) = length (cc_parts c) /\
  (forall p d, linked (cc_parts c1) p d -> linked (cc_parts c) p d) /\
  (forall p d, linked (cc_parts c) p d -> linked (cc_parts c1) p d \/ mother (h_evt h') d p).
Proof. exact hep_event_old_new. Qed.
Print Assumptions C55_fewer_links.

(** If all declared mothers declare their daughters, the two readers return the same for the whole file. *)
Theorem C55_same : forall third in_time f hd t more, stdhep_file f hd t more ->
  Forall (fun e => has (he_mo e) (2 * he_n e) /\ mothers_agree e) (events_of 0 0 (et_recs t ++ flat_map et_recs more)) ->
  exists h, hep_open (Some f) = Ok h /\ forall n, hep_events_old third in_time n h = hep_events third in_time n h.
Proof. exact stdhep_agree. Qed.
Print Assumptions C55_same.

(** the event with a Z boson *)
Definition z_table : etable := mkTab 0 (str "1.00") (-2) [] [] [] [] [Zlen (w_header ex_hd ++ w_table (mkTab 0 (str "1.00") (-2) [] [] [] [] [0] []))] [ex_rec (Event ex_gen1)].
Example C55_same_file : stdhep_file (one_event ex_gen1) ex_hd z_table [].
Proof.
  destruct ex_records_ok as (_ & R2 & _). destruct ex_stdhep as (_ & HH & _).
  assert (P : forall k b p, nth_error [w_header ex_hd; w_table z_table; w_record (ex_rec (Event ex_gen1))] k = Some b ->
    Zlen (concat (firstn k [w_header ex_hd; w_table z_table; w_record (ex_rec (Event ex_gen1))])) = p -> lies (one_event ex_gen1) p b) by (intros k b p; apply lies_at).
  split; [|split; [exact HH|split]].
  - exists [], (w_record (ex_rec (Event ex_gen1))). split; [|reflexivity]. vm_compute. reflexivity.
  - split; [unfold table_ok; lists|]. split; [|reflexivity]. constructor; [split; [apply (P 2%nat); [reflexivity|vm_compute; reflexivity]|exact R2]|constructor].
  - apply Nat.leb_le. vm_compute. reflexivity.
Qed.
Example C55_same_agrees : Forall (fun e => has (he_mo e) (2 * he_n e) /\ mothers_agree e) (events_of 0 0 (et_recs z_table ++ flat_map et_recs [])).
Proof.
  constructor; [|constructor]. split; [eexists; split; [reflexivity|vm_compute; discriminate]|]. intros d p Hd. change (he_n _) with 4 in *.
  unfold mother, declared, first_mother, last_mother, first_daughter, last_daughter, entry. cbn [event_of he_mo he_da ex_gen1 g_mo g_da he_n g_n].
  assert (d = 0 \/ d = 1 \/ d = 2 \/ d = 3) as [-> | [-> | [-> | ->]]] by lia; cbn -[Z.rem s32 Z.le Z.lt]; repeat match goal with |- context [s32 ?a] => let v := eval vm_compute in (s32 a) in change (s32 a) with v end;
    intros H; assert (p = 1 \/ 4 <= p \/ p < 0 \/ p = 0 \/ p = 2 \/ p = 3) as [-> | Hp] by lia; try lia; (split; [lia|]); left; vm_compute; repeat split; discriminate.
Qed.
Example C55_case :
  match hep_open (Some (one_event ex_gen1)) with
  | Ok h => map (fun r => family r) (hep_events_old (fun n => n) (fun t => t) 2 h) = [[([], [1]); ([0], [2; 3]); ([1], []); ([1], [])]; []]
  | _ => False
  end.
Proof. vm_compute. reflexivity. Qed.

(** Links that only the daughters declare are lost with the older reader. *)
Theorem C55_mothers_refuted : exists g, g_mo g = [0; 0; 0; 0; 2; 0] /\ g_da g = [0; 0; 0; 0; 0; 0] /\
  family (first_event (one_event g)) = [([], []); ([], [2]); ([1], [])] /\
  match hep_open (Some (one_event g)) with Ok h => family (fst (hep_event_old (fun n => n) (fun t => t) h)) = [([], []); ([], []); ([], [])] | _ => False end.
Proof.
  exists (mkGen 1 3 [3; 2; 1] [11; 23; 13] [0; 0; 0; 0; 2; 0] [0; 0; 0; 0; 0; 0] (repeat one 15) (repeat one 12) None).
  split; [reflexivity|]. split; [reflexivity|]. split; vm_compute; reflexivity.
Qed.
Print Assumptions C55_mothers_refuted.

(** ** updateNextEvent *)

(** The event gets the particles under the name, the weight and the process of the StdHep event and, if
    asked for, its number; all else is as before.  [a] and [base] are where the new objects are. *)
Theorem C55_update : forall third in_time number h c h' a base name w, hep_event third in_time h = (Ok (Some c), Some h') ->
  es_ro (w_ev w) = false -> maps_ok (w_ev w) -> validate name = true -> sm_get name (es_cols (w_ev w)) = None -> free w a base (length (cc_parts c)) ->
  exists w', update_next_new third in_time true number h a base name w = (w', Ok tt, Some h') /\
    updated c (if number then Some (he_num (h_evt h')) else None) a base name w w'.
Proof. exact update_next_new_updated. Qed.
Print Assumptions C55_update.
Theorem C55_update_older : forall third in_time h c h' a base name w, hep_event_old third in_time h = (Ok (Some c), Some h') ->
  es_ro (w_ev w) = false -> maps_ok (w_ev w) -> validate name = true -> sm_get name (es_cols (w_ev w)) = None -> free w a base (length (cc_parts c)) ->
  exists w', update_next_old third in_time true h a base name w = (w', Ok tt, Some h') /\ updated c None a base name w w'.
Proof. exact update_next_old_updated. Qed.
Print Assumptions C55_update_older.

(** At the end of the file both readers say so, and nothing is changed. *)
Theorem C55_end : forall third in_time number h h' a base name w, hep_event third in_time h = (Ok None, h') ->
  update_next_new third in_time true number h a base name w = (w, Throw LEndOfData, h') /\
  update_next_old third in_time true h a base name w = (w, Throw LEndOfData, h').
Proof. exact update_next_end. Qed.
Print Assumptions C55_end.

(** A name that is not allowed or in use, and an event that must not be changed, are refused; no collection
    is added or replaced. *)
Theorem C55_refused : forall c number a base name w, es_ro (w_ev w) = true \/ validate name = false \/ sm_get name (es_cols (w_ev w)) <> None ->
  let (w', r) := update_event true (Ok (Some c)) number a base name w in
  r = (if es_ro (w_ev w) then Throw LReadOnly else Throw LEventException) /\ es_cols (w_ev w') = es_cols (w_ev w) /\ es_num (w_ev w') = es_num (w_ev w).
Proof. exact update_event_refused. Qed.
Print Assumptions C55_refused.

(** an event with a collection, filled from the file with the Z boson *)
Definition some_event : world :=
  mkW (mkES false 7 8 9 (str "det") (mkP [(str "n", [3])] [] []) [(str "Hits", 50)] [])
      (fun x => if x =? 50 then Some (false, mkColl (str "SimTrackerHit") 0 no_params []) else None) (fun _ => None).
Definition filled (w : world) (name : bytes) : world * Res unit :=
  match hep_open (Some (one_event ex_gen1)) with
  | Ok h => fst (update_next_new (fun n => n) (fun t => t) true true h 100 1000 name w)
  | _ => (w, Throw LException)
  end.
Example C55_update_case : maps_ok (w_ev some_event) /\ free some_event 100 1000 4 /\
  (let (w, r) := filled some_event (str "MCParticle") in
   r = Ok tt /\ es_num (w_ev w) = 1 /\ es_run (w_ev w) = 7 /\ es_cols (w_ev w) = [(str "Hits", 50); (str "MCParticle", 100)] /\
   es_par (w_ev w) = mkP [(str "_idrup", [91]); (str "n", [3])] [(str "_weight", [0x40200000])] [] /\
   option_map (fun x => c_elems (snd x)) (w_col w 100) = Some [1000; 1001; 1002; 1003] /\
   match w_obj w 1001 with Some (_, OMC o) => mc_pdg o = 23 /\ mc_parents o = [1000] /\ mc_daughters o = [1002; 1003] | _ => False end).
Proof.
  split; [repeat split; cbn; repeat constructor|]. split; [split; [lia|split; reflexivity]|]. vm_compute. repeat split.
Qed.

(** A refused event has the weight and the process of the StdHep event nevertheless, or (if it must not be
    changed) its process; and the StdHep event is consumed. *)
Theorem C55_refused_changes_refuted : exists w name, es_cols (w_ev w) = [(name, 50)] /\ p_flt (es_par (w_ev w)) = [] /\
  (let (w', r) := filled w name in r = Throw LEventException /\ p_flt (es_par (w_ev w')) = [(str "_weight", [0x40200000])] /\ p_int (es_par (w_ev w')) = [(str "_idrup", [91]); (str "n", [3])]) /\
  (let (w', r) := filled (set_access_mode w 0) name in r = Throw LReadOnly /\ p_int (es_par (w_ev w')) = [(str "_idrup", [91]); (str "n", [3])]).
Proof. exists some_event, (str "Hits"). split; [reflexivity|]. split; [reflexivity|]. vm_compute. repeat split. Qed.
Print Assumptions C55_refused_changes_refuted.

(** An event of weight 0 has weight 1 afterwards. *)
Theorem C55_weight_refuted : exists c number a base name w w', cc_weight c = 0 /\ updated c number a base name w w' /\ ev_weight (w_ev w') = Ok 0x3F800000.
Proof.
  destruct (update_event_updated (mkMCC None 0 []) None 100 1000 (str "MCParticle") some_event eq_refl (proj1 C55_update_case) eq_refl eq_refl) as (w' & _ & U).
  { split; [lia|split; reflexivity]. }
  exists (mkMCC None 0 []), None, 100, 1000, (str "MCParticle"), some_event, w'. split; [reflexivity|]. split; [exact U|]. exact (updated_weight _ _ _ _ _ _ _ U).
Qed.
Print Assumptions C55_weight_refuted.
