(** * Counting the runs and events of a file *)

From Coq Require Import Permutation.
From Verif Require Import Bytes StrMap SioModel SioProofs SioRecord SioRead SioFrame SioSpec Ieee ObjModel ObjSpec ObjProofs ObjCalls CollSpec
  CollProofs ListFacts EventModel EventSpec EventProofs PostProofs EventFacts IndexModel IndexSpec IndexProofs FileModel FileFrame IndexFile IndexFacts FileSpec FileWrite FileSessions FileRead FileSeq FileDeliver FileFacts FileUse FileDirect.

Lemma insert_keys k pos m x : In x (map fst (fst (rm_insert k pos m))) -> x = k \/ In x (map fst m).
Proof.
  induction m as [|[k' p'] m IH]; cbn [rm_insert fst map]; [intros [<-|[]]; left; reflexivity|].
  destruct (re_lt k k'); [cbn [fst map]; intros [<-|H]; [left; reflexivity|right; exact H]|].
  destruct (re_lt k' k).
  - destruct (rm_insert k pos m) as [r b]. cbn [fst map] in *. intros [<-|H]; [right; left; reflexivity|]. destruct (IH H) as [->|H']; [left; reflexivity|right; right; exact H'].
  - cbn [fst map]. intros [<-|H]; right; [left; reflexivity|right; exact H].
Qed.
Lemma add_keys m k pos x : key_ok k -> In x (map fst (rm_map (rm_add m k pos))) -> x = k \/ In x (map fst (rm_map m)).
Proof.
  intros Hk. unfold rm_add. rewrite re_norm by exact Hk. pose proof (insert_keys k pos (rm_map m) x) as H. destruct (rm_insert k pos (rm_map m)) as [r b]. cbn [fst] in H.
  destruct b; [destruct (-1 <? snd k)|]; exact H.
Qed.
Lemma fold_keys (l : list (runevt * Z)) : forall m x, Forall entry_ok l -> In x (map fst (rm_map (fold_left (fun m (e : runevt * Z) => rm_add m (fst e) (snd e)) l m))) ->
  In x (map fst l) \/ In x (map fst (rm_map m)).
Proof.
  induction l as [|e l IH]; intros m x F H; cbn [fold_left] in H; [right; exact H|]. inversion F as [|? ? He Fl]; subst.
  destruct (IH _ _ Fl H) as [H'|H']; [left; right; exact H'|]. destruct (add_keys _ _ _ _ (proj1 He) H') as [->|H'']; [left; left; reflexivity|right; exact H''].
Qed.
Lemma sorted_nodup m : sorted m -> NoDup (map fst m).
Proof.
  intros H. induction H as [|e m Hs IH Hf]; cbn [map]; constructor; [|exact IH]. intros Hi. apply in_map_iff in Hi. destruct Hi as (x & E & Hx).
  rewrite Forall_forall in Hf. specialize (Hf _ Hx). rewrite E in Hf. apply re_lt_spec in Hf. lia.
Qed.

Lemma whole_index_ok Es : Forall entry_ok (concat Es) -> remap_ok (whole_index Es).
Proof. intros F. exact (proj1 (fold_add_spec (merged Es) no_remap no_remap_ok (merged_ok Es F))). Qed.
Lemma whole_index_perm Es : Forall entry_ok (concat Es) -> distinct (map fst (concat Es)) -> Permutation (map fst (rm_map (whole_index Es))) (map fst (concat Es)).
Proof.
  intros F [Hd Hn]. pose proof (whole_index_ok Es F) as Hok. apply NoDup_Permutation; [exact (sorted_nodup _ (ro_sorted _ Hok))|exact Hd|].
  assert (Hm : forall c, In c (merged Es) -> In (fst c) (map fst (concat Es))).
  { intros c Hc. unfold merged in Hc. apply in_concat in Hc. destruct Hc as (x & Hx & Hc). apply in_map_iff in Hx. destruct Hx as (l & <- & Hl). apply in_rev in Hl.
    assert (Fl : Forall entry_ok l) by (rewrite Forall_forall in F; apply Forall_forall; intros e He; apply F; apply in_concat; exists l; auto).
    destruct (fold_keys l no_remap (fst c) Fl) as [H|[]]; [apply in_map; exact Hc|]. apply in_map_iff in H. destruct H as (e & <- & He). apply in_map, in_concat. exists l. auto. }
  intros k. split; intros Hk.
  - destruct (fold_keys _ _ _ (merged_ok Es F) Hk) as [H|[]]. apply in_map_iff in H. destruct H as (c & <- & Hc). exact (Hm c Hc).
  - apply in_map_iff in Hk. destruct Hk as (e & <- & He). destruct (merged_forth Es e F He) as (c & Hc & Hs).
    destruct (fold_add_spec (merged Es) no_remap no_remap_ok (merged_ok Es F)) as (_ & _ & Hx). cbv zeta in Hx. fold (whole_index Es) in Hx.
    destruct (proj2 (Hx (fst e))) as (c' & Hc' & Hs'); [left; exists c; auto|].
    assert (Hc1 : In (fst c') (map fst (concat Es))).
    { destruct (fold_keys (merged Es) no_remap (fst c') (merged_ok Es F)) as [H|[]]; [apply in_map; exact Hc'|]. apply in_map_iff in H. destruct H as (c2 & <- & Hc2). exact (Hm c2 Hc2). }
    rewrite Forall_forall in Hn. rewrite <- (same_eq _ _ Hs' (Hn _ Hc1) (Hn _ (in_map fst _ _ He))). apply in_map. exact Hc'.
Qed.

Definition item_runs (W : list witem) : list Z := flat_map (fun i => match i with WRun h => [rh_run h] | WEvt _ _ _ => [] end) W.
Definition item_events (W : list witem) : list (Z * Z) := flat_map (fun i => match i with WRun _ => [] | WEvt _ e _ => [(ev_run e, ev_num e)] end) W.

Lemma perm_filter {A} (f : A -> bool) l l' : Permutation l l' -> Permutation (filter f l) (filter f l').
Proof.
  induction 1 as [|x l l' H IH|x y l|l l' l'' H1 IH1 H2 IH2]; cbn [filter].
  - constructor.
  - destruct (f x); [constructor; exact IH|exact IH].
  - destruct (f x), (f y); try apply Permutation_refl; constructor.
  - etransitivity; eassumption.
Qed.
Lemma map_filter_fst (f : runevt -> bool) (m : list (runevt * Z)) : map fst (filter (fun e => f (fst e)) m) = filter f (map fst m).
Proof. induction m as [|e m IH]; [reflexivity|]. cbn [filter map]. destruct (f (fst e)); cbn [map]; rewrite IH; reflexivity. Qed.
Lemma keys_runs W : numbered W -> map fst (filter (fun k : runevt => snd k <? 0) (map item_key W)) = item_runs W.
Proof.
  intros [_ H]. induction H as [|i W Hi H IH]; [reflexivity|]. cbn [map filter item_runs flat_map]. destruct i as [h|h e only]; cbn [item_key snd].
  - cbn [Z.ltb]. change (-1 <? 0) with true. cbn [map fst app]. rewrite IH. reflexivity.
  - replace (ev_num e <? 0) with false by lia. cbn [app]. exact IH.
Qed.
Lemma keys_events W : numbered W -> filter (fun k : runevt => negb (snd k <? 0)) (map item_key W) = item_events W.
Proof.
  intros [_ H]. induction H as [|i W Hi H IH]; [reflexivity|]. cbn [map filter item_events flat_map]. destruct i as [h|h e only]; cbn [item_key snd].
  - change (-1 <? 0) with true. cbn [negb app]. exact IH.
  - replace (ev_num e <? 0) with false by lia. cbn [negb app]. rewrite IH. reflexivity.
Qed.

Section Count.
Context (comp : Z -> bytes -> bytes) (uncomp : bytes -> option bytes).

Theorem counts d f direct names raw cbuf mraw next : codec_ok comp uncomp -> wf_ok comp uncomp d f ->
  Forall (sess_covers comp) (wf_sess f) -> numbered (items_of (wf_sess f)) ->
  let W := items_of (wf_sess f) in
  exists r r1, open_file uncomp d (wf_name f) (new_reader direct false names raw cbuf mraw next) = (Ok tt, r) /\
    number_of_events uncomp r = (Ok (Zlen (item_events W)), r1) /\ number_of_runs uncomp r1 = (Ok (Zlen (item_runs W)), r1) /\
    number_of_runs uncomp r = (Ok (Zlen (item_runs W)), r1) /\ number_of_events uncomp r1 = (Ok (Zlen (item_events W)), r1) /\
    (direct = true -> r1 = r) /\
    exists runs events, runs_of (mg_map (rd_mgr r1)) = Ok runs /\ events_of (mg_map (rd_mgr r1)) = Ok events /\
      Permutation runs (item_runs W) /\ Permutation events (item_events W).
Proof.
  intros Hc (Hs & Hm) Hcov Hn W. destruct (made_inv comp uncomp d (wf_name f) (wf_first f) (wf_more f) Hc Hs Hm) as (data & body & E & Es & S & Hd & Hi).
  fold (wf_sess f) in Hs, Hi. destruct (inv_closed comp uncomp _ _ _ _ _ _ Hi Hcov) as (fr & Hcl).
  pose proof (inv_entries comp uncomp _ _ _ _ _ _ Hi Hs) as HE.
  destruct (create_closed uncomp data body fr _ (open_ifs data) (new_mgr mraw) Hcl (conj eq_refl eq_refl) eq_refl) as (g' & Eg & Em).
  destruct Hi as (lb & fra & f0 & xa & a & I1 & I2 & I3 & I4 & I5 & I6 & I7 & I8 & I9 & I10 & I11 & I12 & I13 & I14 & I15 & I16 & I17 & I18 & I19 & I20 & I21).
  rewrite item_keys in I18. pose proof (numbered_distinct _ Hn) as Hdis. rewrite <- I18 in Hdis. rewrite I16 in HE, Hdis, I18. fold W in I18, Hn.
  pose proof (whole_index_perm Es HE Hdis) as HP. rewrite I18 in HP. pose proof (whole_index_ok Es HE) as Hok.
  change (mg_map (new_mgr mraw)) with no_remap in Em. fold (merged Es) in Em. change (mg_map g' = whole_index Es) in Em.
  assert (P1 : Permutation (map (fun e : runevt * Z => fst (fst e)) (negs (rm_map (whole_index Es)))) (item_runs W)).
  { rewrite <- (keys_runs W Hn). unfold negs. rewrite <- map_map, (map_filter_fst (fun k => snd k <? 0)). apply Permutation_map, perm_filter, HP. }
  assert (P2 : Permutation (map fst (nons (rm_map (whole_index Es)))) (item_events W)).
  { rewrite <- (keys_events W Hn). unfold nons. rewrite (map_filter_fst (fun k => negb (snd k <? 0))). apply perm_filter, HP. }
  assert (N1 : rm_nrun (whole_index Es) = Zlen (item_runs W)).
  { rewrite (ro_nrun _ Hok). apply Permutation_length in P1. rewrite map_length in P1. unfold Zlen. congruence. }
  assert (N2 : rm_nevt (whole_index Es) = Zlen (item_events W)).
  { rewrite (ro_nevt _ Hok). apply Permutation_length in P2. rewrite map_length in P2. exact (f_equal Z.of_nat P2). }
  assert (HL : Zlen (rm_map (whole_index Es)) = rm_nrun (whole_index Es) + rm_nevt (whole_index Es)).
  { rewrite (ro_nrun _ Hok), (ro_nevt _ Hok). rewrite (sorted_split _ (ro_sorted _ Hok)) at 1. apply Zlen_app. }
  assert (HR : exists runs events, runs_of (whole_index Es) = Ok runs /\ events_of (whole_index Es) = Ok events /\ Permutation runs (item_runs W) /\ Permutation events (item_events W)).
  { unfold runs_of, events_of. pose proof (Zlen_nonneg (item_events W)). replace (Zlen (rm_map (whole_index Es)) <? rm_nrun (whole_index Es)) with false by lia.
    replace (Zlen (rm_map (whole_index Es)) <? rm_nrun (whole_index Es) + rm_nevt (whole_index Es)) with false by lia.
    rewrite (remap_run_list _ Hok), (remap_evt_list _ Hok). eexists. eexists. split; [reflexivity|]. split; [reflexivity|]. split; assumption. }
  set (rd := mkRd (at_pos data 0) raw cbuf [wf_name f] 0 true false g' names (rd_max (new_reader direct false names raw cbuf mraw next)) next).
  assert (C1 : number_of_events uncomp rd = (Ok (Zlen (item_events W)), rd)) by (unfold number_of_events, need_map, rd; cbn [rd_direct rd_mgr bind]; rewrite Em, N2; reflexivity).
  assert (C2 : number_of_runs uncomp rd = (Ok (Zlen (item_runs W)), rd)) by (unfold number_of_runs, need_map, rd; cbn [rd_direct rd_mgr bind]; rewrite Em, N1; reflexivity).
  assert (HR' : exists runs events, runs_of (mg_map (rd_mgr rd)) = Ok runs /\ events_of (mg_map (rd_mgr rd)) = Ok events /\
      Permutation runs (item_runs W) /\ Permutation events (item_events W)) by (unfold rd; cbn [rd_mgr]; rewrite Em; exact HR).
  destruct direct.
  - exists rd, rd. split.
    + unfold open_file, get_map, with_s, with_files, with_mgr, new_reader. rewrite Hd. cbn [rd_direct rd_s rd_mgr rd_files rd_idx rd_raw rd_comp rd_lazy rd_names rd_max rd_next].
      rewrite Eg. reflexivity.
    + split; [exact C1|]. split; [exact C2|]. split; [exact C2|]. split; [exact C1|]. split; [reflexivity|exact HR'].
  - exists (mkRd (open_ifs data) raw cbuf [wf_name f] 0 false false (new_mgr mraw) names (rd_max rd) next), rd. split; [|split; [|split; [exact C2|split; [|split; [exact C1|split; [discriminate|exact HR']]]]]].
    + unfold open_file, with_s, with_files, new_reader. rewrite Hd. reflexivity.
    + unfold number_of_events, need_map, get_map, with_mgr. cbn [rd_direct rd_s rd_mgr rd_files rd_idx rd_raw rd_comp rd_lazy rd_names rd_max rd_next].
      rewrite Eg. cbn [bind rd_mgr]. rewrite Em, N2. reflexivity.
    + unfold number_of_runs, need_map, get_map, with_mgr. cbn [rd_direct rd_s rd_mgr rd_files rd_idx rd_raw rd_comp rd_lazy rd_names rd_max rd_next].
      rewrite Eg. cbn [bind rd_mgr]. rewrite Em, N1. reflexivity.
Qed.
End Count.

(** ** Sessions whose index has room for all entries *)

(** less than 2 GB; run numbers are not negative; each run header has an event and each event its run
    header in the same session *)
Definition ordinary_session (comp : Z -> bytes -> bytes) (s : sess) : Prop :=
  Zlen (sess_text comp s) < 2 ^ 31 /\
  (forall k, In k (keys s) -> 0 <= fst k) /\
  (forall k, In k (keys s) -> snd k < 0 -> exists k', In k' (keys s) /\ 0 <= snd k' /\ fst k' = fst k) /\
  (forall k, In k (keys s) -> 0 <= snd k -> exists k', In k' (keys s) /\ snd k' < 0 /\ fst k' = fst k).
Theorem ordinary_session_covers comp s : Forall item_ok (ss_items s) -> ordinary_session comp s -> sess_covers comp s.
Proof.
  intros F (H1 & H2 & H3 & H4). unfold sess_covers. unfold sess_text in H1.
  pose proof (placed_ok comp (ss_b1 s) (ss_b2 s) (ss_items s) 0 F ltac:(lia) ltac:(lia)) as FE.
  assert (HK : map fst (placed comp (ss_b1 s) (ss_b2 s) 0 (ss_items s)) = keys s) by apply placed_keys.
  assert (Hk : forall e, In e (placed comp (ss_b1 s) (ss_b2 s) 0 (ss_items s)) -> In (fst e) (keys s)) by (intros e He; rewrite <- HK; apply in_map; exact He).
  assert (Hb : forall k, In k (keys s) -> exists e, In e (placed comp (ss_b1 s) (ss_b2 s) 0 (ss_items s)) /\ fst e = k).
  { intros k Hi. rewrite <- HK in Hi. apply in_map_iff in Hi. destruct Hi as (e & E & Hi). exists e. auto. }
  apply ordinary_covers; [exact FE|]. split; [|split].
  - intros e He. rewrite Forall_forall in FE. destruct (FE e He) as [[Hr _] _]. unfold int32 in Hr. specialize (H2 _ (Hk e He)).
    pose proof (placed_range comp (ss_b1 s) (ss_b2 s) (ss_items s) 0 e He). lia.
  - intros e He Hn. destruct (H3 _ (Hk e He) Hn) as (k' & Hi & P1 & P2). destruct (Hb k' Hi) as (e' & He' & <-). exists e'. auto.
  - intros e He Hn. destruct (H4 _ (Hk e He) Hn) as (k' & Hi & P1 & P2). destruct (Hb k' Hi) as (e' & He' & <-). exists e'. auto.
Qed.
