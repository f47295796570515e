(** * The conversion of StdHep files: proofs *)

From Verif Require Import Bytes StrMap SioModel SioProofs SioSpec Ieee ObjModel ObjSpec CollSpec EventModel EventSpec EventProofs EventFacts
  IndexModel IndexSpec IndexProofs FileModel IndexFile IndexFacts FileSpec FileWrite FileSessions FileRead FileSeq FileDeliver FileFacts FileUse
  PostProofs CopySpec CopyObj MergeModel MergeProofs ImplModel HepModel HepSpec HepProofs HepFormat HepFile HepUpdModel HepUpdSpec HepUpdProofs StdJobModel StdJobSpec.

Lemma std_item_converted base k c : converted base k c (std_item base k c).
Proof.
  unfold std_item. eexists _, _, _. split; [reflexivity|]. cbn [ev_run ev_num ev_time ev_det ev_par ev_cols]. do 5 (split; [reflexivity|]). split; [reflexivity|].
  cbn [c_type c_flag c_par c_elems p_flt p_int p_str]. do 5 (split; [reflexivity|]). split; [unfold Zlen; rewrite map_length, seq_length; reflexivity|].
  intros j o [Hj Ho]. pose proof (proj1 (nth_error_Some (cc_parts c) (Z.to_nat j)) ltac:(congruence)) as Hl. exists (at_address base o). split; [|split].
  - rewrite (map_nth_error (fun i => base + Z.of_nat i) (Z.to_nat j) (seq 0 (length (cc_parts c))) (d := Z.to_nat j)); [f_equal; lia|].
    rewrite (nth_error_nth' _ 0%nat) by (rewrite seq_length; lia). rewrite seq_nth by lia. reflexivity.
  - replace (_ && _) with true by (unfold Zlen; lia). replace (base + j - base) with j by lia. rewrite Ho. reflexivity.
  - eexists. split; [reflexivity|]. cbn. repeat (split; [reflexivity|]). reflexivity.
Qed.

Definition numbered_world (k : Z) : world := mkW (mkES false 0 k 0 (str "Unknown") no_params [] []) (fun _ => None) (fun _ => None).
Lemma job_start k : calls job_new [V_setRunNumber 0; V_setEventNumber k; V_setDetectorName (str "Unknown")] = (numbered_world k, Ok tt).
Proof. reflexivity. Qed.
Lemma job_update a base k c : a <> 0 -> exists w, update_event true (Ok (Some c)) None a base (str "MCParticle") (numbered_world k) = (w, Ok tt) /\ job_given w = std_item base k c.
Proof.
  intros Ha. unfold update_event. cbn [negb].
  assert (P1 : par_val 0 (p_int (mccoll_params c)) idrup_name = Ok (match cc_idrup c with Some i => i | None => 0 end)).
  { unfold par_val, mccoll_params. cbn [p_int]. destruct (cc_idrup c); reflexivity. }
  assert (P2 : par_val 0 (p_flt (mccoll_params c)) evtwgt_name = Ok (cc_weight c)) by reflexivity.
  rewrite P1, P2. unfold numbered_world.
  cbn [app calls ev_do par_do guarded unguarded made w_ev w_col w_obj fst snd es_ro es_run es_num es_time es_det es_par es_cols es_notowned p_int p_flt p_str].
  unfold ev_add. change (validate (str "MCParticle")) with true. cbn [negb es_cols sm_get]. replace (a =? 0) with false by lia. eexists. split; [reflexivity|].
  unfold job_given, std_item. cbn [fst snd with_cols es_ro es_run es_num es_time es_det es_par es_cols es_notowned w_ev w_col w_obj sm_set flat_map app]. unfold put. rewrite Z.eqb_refl. reflexivity.
Qed.
Section Loop.
Context (third in_time : Z -> Z).
Definition one_read (newer : bool) (h : hep) := if newer then hep_event third in_time h else hep_event_old third in_time h.
Lemma std_events_S newer n h : std_events newer third in_time (S n) h =
  match one_read newer h with (r, None) => [r] | (r, Some h') => r :: std_events newer third in_time n h' end.
Proof. destruct newer; reflexivity. Qed.
Lemma job_next_read newer h a base w : job_next third in_time newer h a base w = (let (r, h') := one_read newer h in (update_event true r None a base (str "MCParticle") w, h')).
Proof. unfold job_next, one_read. destruct newer; unfold update_next_new, update_next_old; cbn [negb]; destruct (_ third in_time h) as [r [h'|]]; reflexivity. Qed.
Lemma one_read_some newer h c o : one_read newer h = (Ok (Some c), o) -> exists h', o = Some h'.
Proof.
  destruct newer; cbn [one_read]; unfold hep_event, hep_event_old; destruct (hep_read h) as [[k h']|x|u]; try discriminate;
    (destruct (k =? 0); [|destruct (k =? ENDOFFILE); discriminate]); intros E; injection E as _ <-; eexists; reflexivity.
Qed.

End Loop.
Fixpoint items_from (base : addr) (k : Z) (cs : list mccoll) : list witem :=
  match cs with [] => [] | c :: cs' => std_item base k c :: items_from base (k + 1) cs' end.
Lemma items_from_eq base cs : items_from base 0 cs = map (fun kc => std_item base (fst kc) (snd kc)) (in_order cs).
Proof.
  unfold in_order. change 0 with (Z.of_nat 0). generalize 0%nat. induction cs as [|c cs IH]; intros k; [reflexivity|]. cbn [items_from length seq map combine fst snd].
  rewrite <- (IH (S k)). f_equal. f_equal. lia.
Qed.
Lemma items_from_length base cs : forall k, length (items_from base k cs) = length cs.
Proof. induction cs as [|c cs IH]; intros k; [reflexivity|]. cbn. f_equal. apply IH. Qed.

Section Loop2.
Context (comp : Z -> bytes -> bytes) (third in_time : Z -> Z).
Notation loop := (job_loop comp third in_time).
Fixpoint written (w : writer) (b1 b2 : buffer) (l : list witem) : Res writer :=
  match l with [] => Ok w | i :: l' => do w' <- write_item comp w b1 b2 i; written w' b1 b2 l' end.

Lemma write_level w b1 b2 i w' : write_item comp w b1 b2 i = Ok w' -> wr_level w' = wr_level w.
Proof. unfold write_item. destruct (encode_item _ _ _ _ _) as [[[recs re] x]|y|y]; cbn [bind]; try discriminate. intros E. injection E as <-. reflexivity. Qed.
Lemma written_items b1 b2 l : forall w, written w b1 b2 l = write_items comp w b1 b2 (map (fun i => (wr_level w, i)) l).
Proof.
  induction l as [|i l IH]; intros w; [reflexivity|]. cbn [written map write_items]. replace (set_level w (wr_level w)) with w by (destruct w; reflexivity).
  destruct (write_item comp w b1 b2 i) as [w'|y|y] eqn:E; cbn [bind]; try reflexivity. rewrite IH, (write_level _ _ _ _ _ E). reflexivity.
Qed.

Lemma loop_runs newer max a base b1 b2 : a <> 0 -> forall cs k h w last n, 0 <= k -> k + Zlen cs < two31 - 1 -> (length cs < n)%nat ->
  (std_events newer third in_time (S (length cs)) h = map (fun c => Ok (Some c)) cs ++ [last] /\ (forall c, last <> Ok (Some c)) /\ (max < 0 \/ k + Zlen cs < max) \/
   std_events newer third in_time (length cs) h = map (fun c => Ok (Some c)) cs /\ k + Zlen cs = max /\ last = Ok None) ->
  loop n newer max k a base b1 b2 h w = do w' <- written w b1 b2 (items_from base k cs);
    match last with Ok _ => Ok (Some w') | Throw LEndOfData => Ok (Some w') | Throw x => Throw x | UB u => UB u end.
Proof.
  intros Ha cs. induction cs as [|c cs IH]; intros k h w last n Hk Hk2 Hn HS.
  - destruct n as [|n]; [cbn in Hn; lia|]. cbn [length map app items_from written bind] in *. change (Zlen (@nil mccoll)) with 0 in *. cbn [job_loop].
    destruct HS as [(E & HL & Hm)|(_ & Hm & ->)].
    + replace ((max <? 0) || (k <? max)) with true by lia. rewrite job_start, job_next_read. rewrite std_events_S in E.
      destruct (one_read third in_time newer h) as [r o] eqn:R. assert (r = last) as -> by (destruct o; injection E; congruence).
      destruct (update_event_end true last None a base (str "MCParticle") (numbered_world k) HL) as (_ & U2 & U3 & _).
      destruct (update_event true last None a base (str "MCParticle") (numbered_world k)) as [w' u] eqn:EU. cbn [fst snd] in *.
      destruct last as [[c|]|x|ux]; [destruct (HL c eq_refl)| | |].
      * rewrite (U2 eq_refl eq_refl). reflexivity.
      * rewrite (U3 eq_refl x eq_refl). destruct x; reflexivity.
      * unfold update_event in EU. cbn [negb] in EU. injection EU as _ <-. reflexivity.
    + replace ((max <? 0) || (k <? max)) with false by lia. reflexivity.
  - destruct n as [|n]; [cbn in Hn; lia|]. rewrite Zlen_cons in *. pose proof (Zlen_nonneg cs) as Hc0. cbn [length map app items_from written] in *. cbn [job_loop].
    replace ((max <? 0) || (k <? max)) with true by (destruct HS as [(_ & _ & [H|H])|(_ & H & _)]; lia).
    rewrite job_start, job_next_read.
    assert (R : exists h', one_read third in_time newer h = (Ok (Some c), Some h') /\
      (std_events newer third in_time (S (length cs)) h' = map (fun c => Ok (Some c)) cs ++ [last] /\ (forall c, last <> Ok (Some c)) /\ (max < 0 \/ k + 1 + Zlen cs < max) \/
       std_events newer third in_time (length cs) h' = map (fun c => Ok (Some c)) cs /\ k + 1 + Zlen cs = max /\ last = Ok None)).
    { destruct HS as [(E & H)|(E & H)]; rewrite std_events_S in E; destruct (one_read third in_time newer h) as [r o] eqn:R.
      - assert (r = Ok (Some c)) as -> by (destruct o; injection E; congruence). destruct (one_read_some _ _ _ _ _ _ R) as (h' & ->). exists h'. split; [reflexivity|]. left. injection E as E. split; [exact E|].
        destruct H as [H1 H2]. split; [exact H1|lia].
      - assert (r = Ok (Some c)) as -> by (destruct o; injection E; congruence). destruct (one_read_some _ _ _ _ _ _ R) as (h' & ->). exists h'. split; [reflexivity|]. right. injection E as E. split; [exact E|].
        destruct H as [H1 H2]. split; [lia|exact H2]. }
    destruct R as (h' & R & H'). rewrite R. destruct (job_update a base k c Ha) as (e & U & G). rewrite U, G.
    destruct (write_item comp w b1 b2 (std_item base k c)) as [w'|y|y]; cbn [bind]; try reflexivity.
    replace (k =? two31 - 1) with false by lia. rewrite (IH (k + 1) h' w' last n) by (first [exact H'|lia]). reflexivity.
Qed.
End Loop2.

(** ** The file *)

Section Job.
Context (comp : Z -> bytes -> bytes) (uncomp : bytes -> option bytes) (third in_time : Z -> Z).

Lemma std_keys inp base cs : forall k, In k (map item_key (std_items inp base cs)) -> fst k = 0.
Proof.
  intros k. unfold std_items. cbn [map In item_key rh_run std_run]. intros [<-|H]; [reflexivity|]. rewrite map_map in H. apply in_map_iff in H. destruct H as ([j c] & <- & _). reflexivity.
Qed.
Lemma std_items_length inp base cs : Zlen (std_items inp base cs) = 1 + Zlen cs.
Proof. unfold std_items. rewrite Zlen_cons, Zlen_map. unfold in_order, Zlen. rewrite combine_length, map_length, seq_length. lia. Qed.

Lemma items_file d out level wraw b1 b2 l : codec_ok comp uncomp -> usable wraw -> usable b1 -> usable b2 -> l <> [] ->
  Forall (fun i => item_ok (level, i)) l -> runs_close (map item_key l) -> Zlen l < 2 ^ 27 ->
  exists d' f w', write_items comp (mkWr (mkO [] 0) (new_mgr wraw) level) b1 b2 (map (fun i => (level, i)) l) = Ok w' /\ (do c <- close_writer w'; Ok (save d (sio_filename out) c)) = Ok d' /\
    (forall n, n <> sio_filename out -> d' n = d n) /\ wf_name f = sio_filename out /\ wf_ok comp uncomp d' f /\ wf_items f = map (fun i => (sio_filename out, i)) l.
Proof.
  intros HC Uw U1 U2 HWne F HK HL.
  set (s := mkSess level wraw b1 b2 (map (fun i => (level, i)) l)).
  assert (Hlen : Zlen (ss_items s) = Zlen l) by (cbn [ss_items s]; apply Zlen_map).
  assert (Hitems : Forall item_ok (ss_items s)) by (cbn [ss_items s]; apply Forall_map; exact F).
  assert (Hkeys : keys s = map item_key l) by (unfold keys; cbn [ss_items s]; rewrite map_map; reflexivity).
  assert (Hs : sess_ok s).
  { split; [exact Uw|]. split; [exact U1|]. split; [exact U2|]. split; [exact Hitems|]. rewrite Hkeys. exact HK. }
  assert (Hsne : ss_items s <> []).
  { intros E. rewrite E in Hlen. unfold Zlen in Hlen. destruct l; [congruence|cbn in Hlen; lia]. }
  assert (Hvol : Zlen (sess_text comp s) < 2 ^ 61).
  { pose proof (text_size comp uncomp b1 b2 (ss_items s) HC U1 U2 Hitems) as T. rewrite Hlen in T. unfold sess_text. cbn [ss_b1 ss_b2 s] in *. cbn [ss_items s] in T |- *. lia. }
  destruct (new_inv comp uncomp d out s HC Hs Hsne) as (data & body & E & Es & S & HN & _); [lia|exact Hvol|].
  pose proof HN as HN'. unfold new_session, run_writer in HN. cbn [bind open_new ss_level ss_raw ss_b1 ss_b2 ss_items s] in HN.
  destruct (write_items comp _ b1 b2 _) as [w'|y|y] eqn:Ew; cbn [bind] in HN |- *; try discriminate.
  exists (save d (sio_filename out) data), (mkWF (sio_filename out) s []), w'. split; [reflexivity|].
  split; [destruct (close_writer w') as [c|y|y]; cbn [bind] in HN |- *; try discriminate; exact HN|]. split; [|split; [reflexivity|split]].
  - intros n Hnn. unfold save. destruct (bytes_eqb n (sio_filename out)) eqn:Eb; [apply bytes_eqb_eq in Eb; contradiction|reflexivity].
  - split.
    + unfold sessions_ok, wf_sess. cbn [wf_first wf_more]. split; [constructor; [exact Hs|constructor]|]. split; [exact Hsne|].
      cbn [count volume fold_right]. split; [rewrite Z.add_0_r, Hlen; exact HL|rewrite Z.add_0_r; exact Hvol].
    + cbn [wf_name wf_first wf_more]. exists d, (save d (sio_filename out) data), out. split; [reflexivity|]. unfold sessions. rewrite HN'. cbn [bind append_sessions]. split; reflexivity.
  - unfold wf_items, wf_sess, items_of. cbn [wf_name wf_first wf_more flat_map ss_items s]. rewrite app_nil_r, !map_map. reflexivity.
Qed.

Theorem std_converts newer d inp out max level a base wraw b1 b2 h cs : codec_ok comp uncomp -> usable wraw -> usable b1 -> usable b2 -> a <> 0 ->
  hep_open (d inp) = Ok h -> d (sio_filename out) = None ->
  stop third in_time newer max cs h (Ok None) \/ limit third in_time newer max cs h ->
  Forall (fun i => item_ok (level, i)) (std_items inp base cs) -> Zlen cs + 1 < 2 ^ 27 ->
  exists d' f, (forall n, (length cs < n)%nat -> std_job comp third in_time n newer d inp out max level a base wraw b1 b2 = Ok (Some d')) /\
    (forall n, n <> sio_filename out -> d' n = d n) /\ wf_name f = sio_filename out /\ wf_ok comp uncomp d' f /\
    wf_items f = map (fun i => (sio_filename out, i)) (std_items inp base cs).
Proof.
  intros HC Uw U1 U2 Ha HO HE HS F HL.
  destruct (items_file d out level wraw b1 b2 (std_items inp base cs) HC Uw U1 U2) as (d' & f & w' & E1 & E2 & E3 & E4 & E5 & E6).
  { discriminate. } { exact F. }
  { intros x y Hx Hy. rewrite (std_keys _ _ _ _ Hx), (std_keys _ _ _ _ Hy). unfold int32. lia. }
  { rewrite std_items_length. lia. }
  exists d', f. split; [|split; [exact E3|split; [exact E4|split; [exact E5|exact E6]]]].
  intros n Hn. unfold std_job. rewrite HO. cbn [bind]. unfold open_create. rewrite HE. cbn [open_new bind].
  change (map (fun i => (level, i)) (std_items inp base cs)) with (map (fun i => (wr_level (mkWr (mkO [] 0) (new_mgr wraw) level), i)) (std_items inp base cs)) in E1.
  rewrite <- written_items in E1. cbn [std_items written] in E1. change (std_run inp) with (job_run inp) in E1.
  destruct (write_item comp _ b1 b2 (WRun (job_run inp))) as [w1|y|y]; cbn [bind] in E1 |- *; try discriminate.
  rewrite (loop_runs comp third in_time newer max a base b1 b2 Ha cs 0 h w1 (Ok None) n); [|lia|unfold two31; lia|exact Hn|].
  - rewrite items_from_eq, E1. cbn [bind]. destruct (close_writer w') as [c|y|y]; cbn [bind] in E2 |- *; [|discriminate..].
    injection E2 as <-. reflexivity.
  - destruct HS as [(H1 & H2 & H3)|(H1 & H2)]; [left|right]; repeat split; try assumption; lia.
Qed.
(** an exception of the reader escapes *)
Theorem std_fails newer d inp out max level a base wraw b1 b2 h cs x : codec_ok comp uncomp -> usable wraw -> usable b1 -> usable b2 -> a <> 0 ->
  hep_open (d inp) = Ok h -> d (sio_filename out) = None ->
  stop third in_time newer max cs h (Throw x) -> x <> LEndOfData ->
  Forall (fun i => item_ok (level, i)) (std_items inp base cs) -> Zlen cs + 1 < 2 ^ 27 ->
  forall n, (length cs < n)%nat -> std_job comp third in_time n newer d inp out max level a base wraw b1 b2 = Throw x.
Proof.
  intros HC Uw U1 U2 Ha HO HE HS Hx F HL n Hn.
  destruct (items_file d out level wraw b1 b2 (std_items inp base cs) HC Uw U1 U2) as (d' & f & w' & E1 & E2 & E3 & E4 & E5 & E6).
  { discriminate. } { exact F. }
  { intros y z Hy Hz. rewrite (std_keys _ _ _ _ Hy), (std_keys _ _ _ _ Hz). unfold int32. lia. }
  { rewrite std_items_length. lia. }
  unfold std_job. rewrite HO. cbn [bind]. unfold open_create. rewrite HE. cbn [open_new bind].
  change (map (fun i => (level, i)) (std_items inp base cs)) with (map (fun i => (wr_level (mkWr (mkO [] 0) (new_mgr wraw) level), i)) (std_items inp base cs)) in E1.
  rewrite <- written_items in E1. cbn [std_items written] in E1. change (std_run inp) with (job_run inp) in E1.
  destruct (write_item comp _ b1 b2 (WRun (job_run inp))) as [w1|y|y]; cbn [bind] in E1 |- *; try discriminate.
  destruct HS as (H1 & H2 & H3).
  rewrite (loop_runs comp third in_time newer max a base b1 b2 Ha cs 0 h w1 (Throw x) n); [|lia|unfold two31; lia|exact Hn|left; split; [exact H1|split; [exact H2|lia]]].
  rewrite items_from_eq, E1. cbn [bind]. destruct x; try reflexivity. congruence.
Qed.
Theorem std_refuses newer d inp out max level a base wraw b1 b2 n h : hep_open (d inp) = Ok h -> d (sio_filename out) <> None ->
  std_job comp third in_time n newer d inp out max level a base wraw b1 b2 = Throw LIOException.
Proof. intros HO HE. unfold std_job. rewrite HO. cbn [bind]. unfold open_create. destruct (d (sio_filename out)); [reflexivity|congruence]. Qed.

(** the particles that are read mirror each other *)
Lemma std_mirrored newer cs more : forall n h, std_events newer third in_time n h = map (fun c => Ok (Some c)) cs ++ more -> Forall (fun c => mirrored (cc_parts c)) cs.
Proof.
  induction cs as [|c cs IH]; intros n h E; [constructor|]. destruct n as [|n]; [destruct newer; discriminate E|]. rewrite std_events_S in E. cbn [map app] in E.
  destruct (one_read third in_time newer h) as [r o] eqn:R. assert (r = Ok (Some c)) as -> by (destruct o; injection E; congruence). destruct (one_read_some _ _ _ _ _ _ R) as (h' & ->).
  injection E as E. constructor; [|exact (IH n h' E)]. destruct newer; cbn [one_read] in R.
  - exact (hep_event_mirrored _ _ _ _ _ R).
  - exact (proj1 (proj2 (hep_event_old_spec _ _ _ _ _ R))).
Qed.
Lemma std_readable inp base cs ig names : Forall (fun c => mirrored (cc_parts c)) cs -> Forall (fun w => readable ig names w) (std_items inp base cs).
Proof.
  intros F. constructor; [exact Logic.I|]. apply Forall_map. apply Forall_forall. intros [k c] Hin. cbn [fst snd].
  assert (M : mirrored (cc_parts c)) by (apply (proj1 (Forall_forall _ _) F); unfold in_order in Hin; exact (in_combine_r _ _ _ _ Hin)).
  unfold std_item, readable. set (h := fun x => _). set (col := mkColl _ _ _ _). set (e := mkEvt _ _ _ _ _ _).
  assert (R : read_back [] names e = [] \/ read_back [] names e = [(str "MCParticle", col)]).
  { unfold read_back, stored_cols. cbn [ev_cols e filter fst snd]. change (is_transient col) with false. cbn [negb andb wanted filter fst]. destruct (wanted names _); [right|left]; reflexivity. }
  split.
  - intros pre nc post x p E Hmc Hx Hp. destruct R as [R|R]; rewrite R in E; [destruct pre; discriminate|].
    destruct pre as [|y pre]; [|destruct pre; discriminate]. cbn [app] in E. injection E as <- _. cbn [app]. exists (str "MCParticle", col). split; [left; reflexivity|]. split; [reflexivity|].
    cbn [snd col c_elems] in Hx |- *. apply in_map_iff in Hx. destruct Hx as (j & <- & Hj). apply in_seq in Hj.
    unfold parents, h in Hp. replace ((base <=? base + Z.of_nat j) && (base + Z.of_nat j <? base + Zlen (cc_parts c))) with true in Hp by (unfold Zlen; lia).
    replace (Z.to_nat (base + Z.of_nat j - base)) with j in Hp by lia. destruct (nth_error (cc_parts c) j) as [o|] eqn:En; [|destruct Hp]. cbn [option_map snd at_address mc_parents] in Hp.
    apply in_map_iff in Hp. destruct Hp as (q & <- & Hq). pose proof (proj2 M (Z.of_nat j) o q ltac:(split; [lia|rewrite Nat2Z.id; exact En]) (or_introl Hq)) as Hr.
    apply in_map_iff. exists (Z.to_nat q). split; [lia|]. apply in_seq. unfold Zlen in Hr. lia.
  - right. intros nc x Hnc Hs. destruct R as [R|R]; rewrite R in Hnc; [destruct Hnc|]. destruct Hnc as [<-|[]]. discriminate Hs.
Qed.
(** the items can be stored if the numbers fit and the records are not too large *)
Lemma std_item_ok level base k c : 0 < base -> int32 k -> Zlen (cc_parts c) < 2 ^ 28 -> Forall mcp_ok (cc_parts c) ->
  (forall i, cc_idrup c = Some i -> int32 i) -> word32 (cc_weight c) ->
  (match std_item base k c with WEvt h e only => sized level (record_size header_record [mkWB header_block cur_vers (write_evhdr only e)]) /\
      (forall bs cols, event_blocks only h (ev_cols e) = Ok (bs, cols) -> sized level (record_size event_record bs)) | _ => True end) -> item_ok (level, std_item base k c).
Proof.
  intros Hb Hk Hl Hm Hi Hw Hs. unfold std_item in *. set (h := fun x : Z => option_map (@snd bool obj) _) in *. set (col := mkColl _ _ _ _) in *. set (e := mkEvt _ _ _ _ _ _) in *. cbn [item_ok snd fst]. split; [|exact Hs].
  assert (I0 : int32 0) by (unfold int32; lia).
  assert (Hid : int32 (match cc_idrup c with Some i => i | None => 0 end)) by (destruct (cc_idrup c); [apply Hi; reflexivity|exact I0]).
  assert (MS : forall (A : Type) (P : A -> Prop) n x, (Zlen n < 100) -> P x -> map_ok P [(n, [x])]).
  { intros A P n x Hn Hx. unfold map_ok. split; [repeat constructor|]. split; [unfold vec_len; cbn; lia|]. constructor; [|constructor]. cbn [fst snd]. unfold vec_len. split; [lia|]. split; [cbn; lia|]. constructor; [exact Hx|constructor]. }
  assert (MN : forall (A : Type) (P : A -> Prop), map_ok P []).
  { intros A P. unfold map_ok. split; [constructor|]. split; [unfold vec_len; cbn; lia|constructor]. }
  assert (Hel : forall x, In x (c_elems col) -> exists o, In o (cc_parts c) /\ h x = Some (at_address base o) /\ 0 < x).
  { intros x Hx. cbn [col c_elems] in Hx. apply in_map_iff in Hx. destruct Hx as (j & <- & Hj). apply in_seq in Hj.
    destruct (nth_error (cc_parts c) j) as [o|] eqn:En; [|apply nth_error_None in En; lia]. exists o. split; [exact (nth_error_In _ _ En)|]. split; [|lia].
    unfold h. replace ((base <=? base + Z.of_nat j) && (base + Z.of_nat j <? base + Zlen (cc_parts c))) with true by (unfold Zlen; lia).
    replace (Z.to_nat (base + Z.of_nat j - base)) with j by lia. rewrite En. reflexivity. }
  assert (Hty : typed TMC h (c_elems col)).
  { intros x Hx. destruct (Hel x Hx) as (o & _ & E & Hp). split; [lia|]. exists (at_address base o). split; [exact E|reflexivity]. }
  assert (Hee : elems_ok 0 h (c_elems col)).
  { intros x o Hx Ho. destruct (Hel x Hx) as (q & Hq & E & _). rewrite E in Ho. injection Ho as <-. pose proof (proj1 (Forall_forall _ _) Hm q Hq) as (Q1 & Q).
    cbn [elem_ok at_address obj_ok]. split; [|exact Q]. cbn [mc_parents]. unfold vec_len. rewrite Zlen_map. exact Q1. }
  assert (Hst : stored_cols [] e = [(str "MCParticle", col)]) by reflexivity.
  unfold event_ok. rewrite Hst. cbn [ev_run ev_num ev_time ev_det ev_par ev_cols e]. split; [exact I0|]. split; [exact Hk|]. split; [unfold int64; lia|]. split; [unfold vec_len; vm_compute; reflexivity|].
  split; [split; [apply MS; [vm_compute; reflexivity|exact Hid]|split; [apply MS; [vm_compute; reflexivity|exact Hw]|apply MN]]|].
  split; [repeat constructor|]. split; [unfold vec_len; cbn; lia|]. split.
  - constructor; [|constructor]. cbn [fst snd]. split; [|split; [unfold vec_len; vm_compute; reflexivity|]].
    + eexists _, _. split; [reflexivity|]. split; [reflexivity|]. repeat constructor.
    + exists TMC. split; [reflexivity|]. unfold coll_ok. cbn [c_flag c_par c_elems col]. split; [unfold word32; lia|]. split.
      { split; [|split; [apply MS; [vm_compute; reflexivity|exact Hw]|apply MN]]. cbn [p_int]. destruct (cc_idrup c) as [i|]; [apply MS; [vm_compute; reflexivity|exact Hid]|apply MN]. }
      split; [cbn; lia|]. split; [unfold vec_len; rewrite Zlen_map; unfold Zlen in *; rewrite seq_length; exact Hl|].
      split; [intros _; split; [exact Hty|exact Hee]|]. split; discriminate.
  - cbn [flat_map snd]. rewrite app_nil_r. unfold coll_objs. change (is_subset col) with false. cbv iota.
    assert (O : own_objs h (c_elems col) = c_elems col).
    { clear -Hel. unfold own_objs. induction (c_elems col) as [|x l IH]; [reflexivity|]. cbn [flat_map]. destruct (Hel x (or_introl eq_refl)) as (o & _ & E & _). rewrite E. cbn [at_address owned app]. f_equal.
      apply IH. intros y Hy. apply Hel. right. exact Hy. }
    rewrite O. cbn [col c_elems]. apply FinFun.Injective_map_NoDup; [intros x y; lia|apply seq_NoDup].
Qed.

(** the collections of a StdHep file *)
Theorem std_file newer f hd t more max : stdhep_file f hd t more ->
  let E := events_of 0 0 (et_recs t ++ flat_map et_recs more) in
  Forall tables_ok E -> newer = true \/ Forall (fun e => has (he_mo e) (2 * he_n e) /\ mothers_agree e) E ->
  exists h cs, hep_open (Some f) = Ok h /\
    Forall2 (fun e c => collection_of third in_time e = Ok (Some c)) (if max <? 0 then E else firstn (Z.to_nat max) E) cs /\
    (stop third in_time newer max cs h (Ok None) \/ limit third in_time newer max cs h).
Proof.
  intros HF E HT HN. destruct (stdhep_events third in_time f hd t more HF) as (h & HO & HE). fold E in HE.
  assert (HEn : forall n, std_events newer third in_time n h = firstn n (map (collection_of third in_time) E ++ repeat (Ok None) n)).
  { intros n. destruct HN as [->|HN]; [exact (HE n)|]. destruct newer; [exact (HE n)|]. destruct (stdhep_agree third in_time f hd t more HF HN) as (h2 & HO2 & HA).
    rewrite HO in HO2. injection HO2 as <-. cbn [std_events]. rewrite HA. exact (HE n). }
  assert (HC : exists cs, Forall2 (fun e c => collection_of third in_time e = Ok (Some c)) E cs).
  { clear -HT. induction HT as [|e E He _ [cs IH]]; [exists []; constructor|]. destruct (particles_ok third in_time e He) as (l & Hl). eexists (_ :: cs). constructor; [|exact IH].
    unfold collection_of. rewrite Hl. cbn [bind]. reflexivity. }
  destruct HC as (cs & HC). assert (HM : map (collection_of third in_time) E = map (fun c => Ok (Some c)) cs).
  { clear -HC. induction HC as [|e c E cs H _ IH]; [reflexivity|]. cbn [map]. rewrite H, IH. reflexivity. }
  assert (HL : length cs = length E) by (pose proof (f_equal (@length _) HM) as H; rewrite !map_length in H; lia). rewrite HM in HEn.
  exists h. destruct ((max <? 0) || (Zlen cs <? max)) eqn:Em.
  - exists cs. split; [exact HO|]. split.
    + destruct (max <? 0); [exact HC|]. rewrite firstn_all2; [exact HC|]. unfold Zlen in Em. cbn [orb] in Em. lia.
    + left. split; [|split; [discriminate|lia]]. rewrite HEn, firstn_app, firstn_all2 by (rewrite map_length; lia). rewrite map_length.
      replace (S (length cs) - length cs)%nat with 1%nat by lia. reflexivity.
  - apply Bool.orb_false_iff in Em. destruct Em as [E1 E2]. rewrite E1. exists (firstn (Z.to_nat max) cs). split; [exact HO|]. split.
    + clear -HC. revert cs HC. generalize (Z.to_nat max). induction E as [|e E IH]; intros n cs HC; inversion HC; subst; [destruct n; constructor|]. destruct n; [constructor|]. cbn [firstn]. constructor; [assumption|]. apply IH. assumption.
    + right. assert (L : length (firstn (Z.to_nat max) cs) = Z.to_nat max) by (rewrite firstn_length; unfold Zlen in E2; lia). split; [|unfold Zlen; rewrite L; lia].
      rewrite L, HEn, firstn_app, map_length. replace (Z.to_nat max - length cs)%nat with 0%nat by (unfold Zlen in E2; lia). cbn [firstn]. rewrite app_nil_r, firstn_map. reflexivity.
Qed.
End Job.

(** reading what was written *)
Theorem std_read comp uncomp srt third in_time newer d' f inp name base cs max h last : codec_ok comp uncomp -> wf_name f = name -> wf_ok comp uncomp d' f ->
  wf_items f = map (fun i => (name, i)) (std_items inp base cs) ->
  stop third in_time newer max cs h last \/ limit third in_time newer max cs h ->
  forall ig names ops raw cbuf mraw next, 0 < next ->
    trace srt names at_null next (map (fun i => (name, i)) (std_items inp base cs)) ops
      (read_all uncomp srt ig d' [name] ops (new_reader false false names raw cbuf mraw next)).
Proof.
  intros HC Hf Hw HI HS ig names ops raw cbuf mraw next Hn.
  assert (M : Forall (fun c => mirrored (cc_parts c)) cs).
  { destruct HS as [(H & _)|(H & _)]; [exact (std_mirrored third in_time newer cs _ _ _ H)|]. apply (std_mirrored third in_time newer cs [] (length cs) h). rewrite app_nil_r. exact H. }
  pose proof (read_sequential comp uncomp srt ig d' [f] ops false names raw cbuf mraw next HC ltac:(discriminate) (Forall_cons _ Hw (Forall_nil _))
    (fun E => False_ind _ (Bool.diff_false_true E))) as T.
  cbn [flat_map map] in T. rewrite app_nil_r, Hf, HI in T. apply T; [|exact Hn]. apply Forall_map. cbn [snd]. apply (std_readable comp uncomp third in_time). exact M.
Qed.

Lemma std_items_events inp base cs : exists evs, std_items inp base cs = WRun (std_run inp) :: evs /\
  Zlen evs = Zlen cs /\ forall k c, nth_error cs k = Some c -> exists i, nth_error evs k = Some i /\ converted base (Z.of_nat k) c i.
Proof.
  eexists. split; [reflexivity|]. split.
  - rewrite Zlen_map. unfold in_order, Zlen. rewrite combine_length, map_length, seq_length. lia.
  - intros k c Hk. exists (std_item base (Z.of_nat k) c). split; [|apply std_item_converted]. rewrite <- items_from_eq.
    enough (G : forall cs k j, nth_error cs k = Some c -> nth_error (items_from base j cs) k = Some (std_item base (j + Z.of_nat k) c)) by (rewrite (G cs k 0 Hk); reflexivity).
    clear. induction cs as [|x cs IH]; intros [|k] j H; try discriminate; cbn [nth_error items_from] in *; [injection H as ->; f_equal; f_equal; lia|].
    rewrite (IH k (j + 1) H). f_equal. f_equal. lia.
Qed.
Definition std_item_storable := fun level => std_item_ok (fun _ l => l) (fun _ => None) (fun n => n) (fun n => n) level.

