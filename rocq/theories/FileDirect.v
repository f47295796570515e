(** * Direct access: the index of a file leads to its items *)

From Verif Require Import Bytes StrMap SioModel SioProofs SioRecord SioRead SioFrame SioSpec Ieee ObjModel ObjSpec ObjProofs ObjCalls CollSpec
  CollProofs ListFacts EventModel EventSpec EventProofs PostProofs EventFacts IndexModel IndexSpec IndexProofs FileModel FileFrame IndexFile IndexFacts FileSpec FileWrite FileSessions FileRead FileSeq FileDeliver FileFacts FileUse.

(** ** The index of several sessions *)

Definition merged (Es : list (list (runevt * Z))) : list (runevt * Z) := concat (map (fun l => rm_map (index_of l)) (rev Es)).
Definition whole_index (Es : list (list (runevt * Z))) : remap := fold_left (fun m (e : runevt * Z) => rm_add m (fst e) (snd e)) (merged Es) no_remap.

Lemma index_back l c : Forall entry_ok l -> In c (rm_map (index_of l)) -> exists e, In e l /\ same_key (fst e) (fst c) /\ snd c = snd e.
Proof.
  intros F Hc. pose proof (find_in_sorted c _ (ro_sorted _ (index_of_ok l F)) Hc) as E. rewrite (index_of_find l (fst c) F) in E. unfold last_position in E.
  destruct (last_position_in (fst c) l None) as [E'|(e & Hi & Hk & E')]; rewrite E in E'; [discriminate|]. exists e. split; [exact Hi|]. split; [exact Hk|congruence].
Qed.
Lemma merged_back Es c : Forall entry_ok (concat Es) -> In c (merged Es) -> exists e, In e (concat Es) /\ same_key (fst e) (fst c) /\ snd c = snd e.
Proof.
  intros F Hc. unfold merged in Hc. apply in_concat in Hc. destruct Hc as (x & Hx & Hc). apply in_map_iff in Hx. destruct Hx as (l & <- & Hl). apply in_rev in Hl.
  rewrite Forall_forall in F. assert (Hin : forall e, In e l -> In e (concat Es)) by (intros e He; apply in_concat; exists l; auto).
  destruct (index_back l c) as (e & He & Hk & Hp); [apply Forall_forall; intros e He; apply F, Hin, He|exact Hc|]. exists e. split; [apply Hin; exact He|auto].
Qed.
Lemma merged_forth Es e : Forall entry_ok (concat Es) -> In e (concat Es) -> exists c, In c (merged Es) /\ same_key (fst c) (fst e).
Proof.
  intros F He. apply in_concat in He. destruct He as (l & Hl & He). rewrite Forall_forall in F.
  assert (Fl : Forall entry_ok l) by (apply Forall_forall; intros x Hx; apply F; apply in_concat; exists l; auto).
  destruct (proj2 (index_of_mem l (fst e) Fl)) as (c & Hc & Hk); [exists e; split; [exact He|left; reflexivity]|].
  exists c. split; [|exact Hk]. unfold merged. apply in_concat. exists (rm_map (index_of l)). split; [|exact Hc]. apply in_map_iff. exists l. split; [reflexivity|]. apply -> in_rev. exact Hl.
Qed.
Lemma merged_ok Es : Forall entry_ok (concat Es) -> Forall entry_ok (merged Es).
Proof.
  intros F. apply Forall_forall. intros c Hc. unfold merged in Hc. apply in_concat in Hc. destruct Hc as (x & Hx & Hc). apply in_map_iff in Hx. destruct Hx as (l & <- & Hl). apply in_rev in Hl.
  rewrite Forall_forall in F. assert (Fl : Forall entry_ok l) by (apply Forall_forall; intros e He; apply F; apply in_concat; exists l; auto).
  pose proof (ro_keys _ (index_of_ok l Fl)) as H. rewrite Forall_forall in H. exact (H _ Hc).
Qed.
Lemma last_some k (l : list (runevt * Z)) : forall r, (exists p, r = Some p) \/ (exists e, In e l /\ same_key (fst e) k) ->
  exists p, fold_left (fun (r : option Z) (e : runevt * Z) => if same_keyb (fst e) k then Some (snd e) else r) l r = Some p.
Proof.
  induction l as [|e l IH]; intros r H; cbn [fold_left].
  - destruct H as [H|(e & [] & _)]; exact H.
  - apply IH. destruct (same_keyb (fst e) k) eqn:Es; [left; eexists; reflexivity|]. destruct H as [H|(e' & [<-|Hi] & Hk)]; [left; exact H| |right; exists e'; auto].
    apply same_keyb_iff in Hk. congruence.
Qed.

(** keys that are the same are equal *)
Definition distinct (ks : list runevt) : Prop := NoDup ks /\ Forall (fun k : runevt => -1 <= snd k) ks.
Lemma same_eq (a b : runevt) : same_key a b -> -1 <= snd a -> -1 <= snd b -> a = b.
Proof. intros [->|(H1 & H2 & H3)] Ha Hb; [reflexivity|]. destruct a, b. cbn [fst snd] in *. subst. f_equal. lia. Qed.

Lemma whole_index_find Es k p : Forall entry_ok (concat Es) -> distinct (map fst (concat Es)) -> In (k, p) (concat Es) -> rm_pos (whole_index Es) k = p.
Proof.
  intros F [Hd Hn] Hi. rewrite Forall_forall in Hn. assert (Hk : key_ok k) by (rewrite Forall_forall in F; exact (proj1 (F _ Hi))).
  unfold rm_pos. rewrite re_norm by exact Hk. destruct (fold_add_spec (merged Es) no_remap no_remap_ok (merged_ok Es F)) as (_ & Hf & _). cbv zeta in Hf.
  unfold whole_index. rewrite Hf. change (rm_find k (rm_map no_remap)) with (@None Z).
  destruct (merged_forth Es (k, p) F Hi) as (c & Hc & Hck).
  destruct (last_some k (merged Es) None) as (q & Eq); [right; exists c; split; assumption|]. rewrite Eq.
  destruct (last_position_in k (merged Es) None) as [E|(c' & Hc' & Hk' & E)]; rewrite Eq in E; [discriminate|]. injection E as ->.
  destruct (merged_back Es c' F Hc') as (e & He & Hke & ->).
  assert (Hek : same_key (fst e) k) by (unfold same_key in *; destruct Hk' as [<-|Hk']; [exact Hke|]; destruct Hke as [->|Hke]; [right; exact Hk'|right; lia]).
  assert (Hin : In (fst e) (map fst (concat Es))) by (apply in_map; exact He).
  assert (Hin' : In k (map fst (concat Es))) by (apply in_map_iff; exists (k, p); auto).
  pose proof (same_eq _ _ Hek (Hn _ Hin) (Hn _ Hin')) as Ek.
  clear -Hd He Hi Ek. induction (concat Es) as [|x E IH]; [destruct Hi|]. cbn [map] in Hd. inversion Hd as [|? ? Hx Hd']; subst.
  destruct He as [->|He], Hi as [->|Hi].
  - reflexivity.
  - exfalso. apply Hx. apply in_map_iff. exists (fst e, p). split; [reflexivity|exact Hi].
  - exfalso. apply Hx. cbn [fst]. apply in_map. exact He.
  - apply IH; assumption.
Qed.
Lemma whole_index_none Es k : Forall entry_ok (concat Es) -> distinct (map fst (concat Es)) -> key_ok k -> -1 <= snd k -> ~ In k (map fst (concat Es)) -> rm_pos (whole_index Es) k = -1.
Proof.
  intros F [Hd Hn] Hk Hk1 Hi. rewrite Forall_forall in Hn. 
  unfold rm_pos. rewrite re_norm by exact Hk. destruct (fold_add_spec (merged Es) no_remap no_remap_ok (merged_ok Es F)) as (_ & Hf & _). cbv zeta in Hf.
  unfold whole_index. rewrite Hf. change (rm_find k (rm_map no_remap)) with (@None Z).
  destruct (last_position_in k (merged Es) None) as [->|(c' & Hc' & Hk' & E)]; [reflexivity|]. exfalso.
  destruct (merged_back Es c' F Hc') as (e & He & Hke & _).
  assert (Hek : same_key (fst e) k) by (unfold same_key in *; destruct Hk' as [<-|Hk']; [exact Hke|]; destruct Hke as [->|Hke]; [right; exact Hk'|right; lia]).
  assert (Hin : In (fst e) (map fst (concat Es))) by (apply in_map; exact He).
  rewrite (same_eq _ _ Hek (Hn _ Hin) Hk1) in Hin. contradiction.
Qed.

(** ** The index of a file *)

Section Direct.
Context (comp : Z -> bytes -> bytes) (uncomp : bytes -> option bytes) (srt : forall A : Type, (A -> Z) -> list A -> list A) (ignore_null : bool).

Lemma item_keys l : flat_map keys l = map item_key (items_of l).
Proof. unfold items_of. induction l as [|s l IH]; [reflexivity|]. cbn [flat_map]. rewrite map_app, IH. f_equal. unfold keys. rewrite map_map. reflexivity. Qed.
Lemma numbered_distinct W : numbered W -> distinct (map item_key W).
Proof.
  intros [H1 H2]. split; [exact H1|]. apply Forall_forall. intros k Hk. apply in_map_iff in Hk. destruct Hk as (i & <- & Hi). rewrite Forall_forall in H2. specialize (H2 _ Hi).
  destruct i; cbn in *; lia.
Qed.
Lemma inv_entries l data body E Es S : file_inv comp uncomp l data body E Es S -> sessions_ok comp l -> Forall entry_ok E.
Proof.
  intros (lb & fra & f & xa & a & I1 & I2 & I3 & I4 & I5 & I6 & I7 & I8 & I9 & I10 & I11 & I12 & I13 & I14 & I15 & I16 & I17 & I18 & I19 & I20 & I21) (Hok & _ & Hcount & Hvol).
  apply Forall_forall. intros e He. split.
  - assert (Hk : In (fst e) (flat_map keys l)) by (rewrite <- I18; apply in_map; exact He).
    apply in_flat_map in Hk. destruct Hk as (s & Hs & Hk). apply in_map_iff in Hk. destruct Hk as (zi & Ezi & Hzi). cbv beta in Ezi. rewrite <- Ezi.
    rewrite Forall_forall in Hok. destruct (Hok s Hs) as (_ & _ & _ & F & _). rewrite Forall_forall in F. exact (item_key_ok comp _ (F _ Hzi)).
  - pose proof (layout_nonneg comp uncomp _ _ _ _ _ I5 I3 e He) as H. rewrite I1 in I20. unfold int64. lia.
Qed.

Lemma inv_right l data body E Es S : file_inv comp uncomp l data body E Es S -> sessions_ok comp l -> numbered (items_of l) ->
  index_right uncomp data (items_of l) (whole_index Es).
Proof.
  intros Hi Hok Hn. pose proof (inv_entries _ _ _ _ _ _ Hi Hok) as HE. pose proof (inv_stored comp uncomp _ _ _ _ _ _ Hi (proj1 Hok)) as HF.
  destruct Hi as (lb & fra & f & xa & a & I1 & I2 & I3 & I4 & I5 & I6 & I7 & I8 & I9 & I10 & I11 & I12 & I13 & I14 & I15 & I16 & I17 & I18 & I19 & I20 & I21).
  rewrite item_keys in I18. pose proof (numbered_distinct _ Hn) as Hd. rewrite <- I18 in Hd. rewrite I16 in HE, Hd.
  split.
  - intros pre i li Eq. rewrite Eq in I18. rewrite map_app in I18. cbn [map] in I18.
    assert (Hsplit : exists E1 p E2, E = E1 ++ (item_key i, p) :: E2 /\ length E1 = length pre).
    { clear -I18. revert E I18. induction pre as [|w pre IH]; intros [|[k p] E] H; try discriminate H; cbn [app map] in H; injection H as H1 H2.
      - exists [], p, E. cbn [fst] in H1. subst k. split; reflexivity.
      - destruct (IH E H2) as (E1 & q & E2 & -> & HL). exists ((k, p) :: E1), q, E2. split; [reflexivity|]. cbn [length]. lia. }
    destruct Hsplit as (E1 & p & E2 & EE & HL).
    destruct (layout_at comp uncomp _ _ _ _ _ I5 _ _ _ _ EE) as (l1 & l2 & T1 & T2 & S1 & S2 & Q1 & Q2 & Q3 & Q4 & Q5 & Q6).
    assert (Hp : rm_pos (whole_index Es) (item_key i) = p).
    { apply whole_index_find; [exact HE|exact Hd|]. rewrite <- I16, EE. apply in_or_app. right. left. reflexivity. }
    rewrite Hp. exists (l2 ++ [fra]), S2. pose proof (Zlen_nonneg (ftext l1)). split; [lia|]. split; [|split].
    + assert (Hf : Forall f_ok (l2 ++ [fra])).
      { rewrite Q1 in I3. apply Forall_app in I3. apply Forall_app. split; [exact (proj2 I3)|]. constructor; [exact (proj2 (access_name _ _ I4))|constructor]. }
      pose proof (view_records (l2 ++ [fra]) (ftext l1) Hf) as V. rewrite ftext_app in V. cbn [ftext flat_map] in V. rewrite app_nil_r in V.
      rewrite I2, I1, Q1, ftext_app, <- app_assoc. rewrite Q2. exact V.
    + rewrite <- (app_nil_r S2). eapply layout_stores; [exact Q6|]. apply S_other; [exact (proj1 (access_name _ _ I4))|constructor].
    + rewrite Eq, Q4 in HF. apply Forall2_app_inv_l in HF. destruct HF as (Sa & Sb & F1 & F2 & ES).
      assert (HS : length S1 = length Sa) by (clear -F1 HL Q5; rewrite Q5, HL; clear -F1; induction F1; cbn [length]; [reflexivity|f_equal; assumption]).
      assert (S2 = Sb). { clear -ES HS. revert Sa ES HS. induction S1 as [|x S1 IH]; intros [|y Sa] ES HS; try discriminate HS; [exact ES|]. injection ES as _ ES. injection HS as HS. exact (IH _ ES HS). }
      subst. exact F2.
  - intros k Hk Hk1 Hni. apply whole_index_none; try assumption. rewrite <- I16, I18. exact Hni.
Qed.

(** ** Opening *)

Lemma file_state d f direct names raw cbuf mraw next : codec_ok comp uncomp -> wf_ok comp uncomp d f ->
  (direct = true -> Forall (sess_covers comp) (wf_sess f) /\ numbered (items_of (wf_sess f))) ->
  Forall (readable ignore_null names) (items_of (wf_sess f)) ->
  exists data r, open_file uncomp d (wf_name f) (new_reader direct false names raw cbuf mraw next) = (Ok tt, r) /\ rd_next r = next /\
    state_ok uncomp ignore_null (wf_name f) data names direct (items_of (wf_sess f)) r (Some (items_of (wf_sess f))).
Proof.
  intros Hc (Hs & Hm) Hdir HR. destruct (made_inv comp uncomp d (wf_name f) (wf_first f) (wf_more f) Hc Hs Hm) as (data & body & E & Es & S & Hd & Hi).
  fold (wf_sess f) in Hs, Hi. pose proof (inv_content comp uncomp _ _ _ _ _ _ _ _ Hi Hd) as (data' & lb & Hd' & Hv & Hlb). rewrite Hd in Hd'. injection Hd' as <-.
  pose proof (inv_stored comp uncomp _ _ _ _ _ _ Hi (proj1 Hs)) as HF. pose proof (inv_right _ _ _ _ _ _ Hi Hs) as HI.
  exists data. unfold open_file. rewrite Hd. cbn [with_s with_files new_reader rd_direct]. destruct direct.
  - destruct (inv_closed comp uncomp _ _ _ _ _ _ Hi (proj1 (Hdir eq_refl))) as (fr & Hcl). unfold get_map. cbn [with_s with_files new_reader rd_s rd_mgr rd_direct].
    destruct (create_closed uncomp data body fr _ (open_ifs data) (new_mgr mraw) Hcl (conj eq_refl eq_refl) eq_refl) as (g' & Eg & Em). rewrite Eg. cbn [bind].
    eexists. split; [reflexivity|]. split; [reflexivity|].
    split; [reflexivity|]. split; [reflexivity|]. split; [reflexivity|]. split; [reflexivity|]. split; [reflexivity|]. split.
    + intros _. change (index_right uncomp data (items_of (wf_sess f)) (mg_map g')). rewrite Em. exact (HI (proj2 (Hdir eq_refl))).
    + split; [exact (known_tail ignore_null names _ [] _ HR eq_refl)|]. exists S. split; [|exact HF]. exists 0, lb. split; [reflexivity|]. split; assumption.
  - eexists. split; [reflexivity|]. split; [reflexivity|].
    split; [reflexivity|]. split; [reflexivity|]. split; [reflexivity|]. split; [reflexivity|]. split; [reflexivity|]. split; [discriminate|].
    split; [exact (known_tail ignore_null names _ [] _ HR eq_refl)|]. exists S. split; [|exact HF]. exists 0, lb. split; [reflexivity|]. split; assumption.
Qed.

Theorem file_answers d f steps direct names raw cbuf mraw next : codec_ok comp uncomp -> wf_ok comp uncomp d f ->
  (direct = true -> Forall (sess_covers comp) (wf_sess f) /\ numbered (items_of (wf_sess f))) ->
  Forall (readable ignore_null names) (items_of (wf_sess f)) -> Forall step_ok steps -> 0 < next ->
  answers srt names (wf_name f) direct (items_of (wf_sess f)) next (Some (items_of (wf_sess f))) steps
    (use_file uncomp srt ignore_null d (wf_name f) steps (new_reader direct false names raw cbuf mraw next)).
Proof.
  intros Hc Hok Hdir HR Hst Hp. destruct (file_state d f direct names raw cbuf mraw next Hc Hok Hdir HR) as (data & r & Eo & Hnx & Hs).
  unfold use_file. rewrite Eo. rewrite <- Hnx at 1. apply (use_answers comp uncomp srt ignore_null d (wf_name f) data names direct _ steps Hst HR (fun D => proj2 (proj2 (Hdir D))) r _ Hs). lia.
Qed.

(** ** Direct access *)

Theorem direct_access d f run num names raw cbuf mraw next : codec_ok comp uncomp -> wf_ok comp uncomp d f ->
  Forall (sess_covers comp) (wf_sess f) -> numbered (items_of (wf_sess f)) ->
  Forall (readable ignore_null names) (items_of (wf_sess f)) -> int32 run -> 0 <= num < 2 ^ 31 -> 0 < next ->
  let W := items_of (wf_sess f) in
  let res := use_file uncomp srt ignore_null d (wf_name f) [GetEvt run num] (new_reader true false names raw cbuf mraw next) in
  (forall h e only, In (WEvt h e only) W -> ev_run e = run -> ev_num e = num -> exists le, res = [REvt (Some le)] /\ event_copy srt names next h e only le) /\
  ((forall h e only, In (WEvt h e only) W -> ev_run e = run -> ev_num e <> num) -> res = [REvt None]).
Proof.
  intros Hc Hok Hdir Hn HR Hrun Hnum Hp W res.
  pose proof (file_answers d f [GetEvt run num] true names raw cbuf mraw next Hc Hok (fun _ => conj Hdir Hn) HR ltac:(repeat constructor; unfold int32 in *; lia) Hp) as H.
  fold W in H. fold res in H. inversion H; subst; try discriminate.
  - match goal with K : answers _ _ _ _ _ _ _ [] _ |- _ => inversion K; subst end. split.
    + intros h' e' only' Hi Er En. assert (EW : W = pre ++ WEvt h e only :: l) by assumption.
      assert (Heq : WEvt h' e' only' = WEvt h e only).
      { destruct Hn as [Hnd _]. fold W in Hnd. assert (Hi2 : In (WEvt h e only) W) by (rewrite EW; apply in_or_app; right; left; reflexivity).
        assert (Hk : item_key (WEvt h' e' only') = item_key (WEvt h e only)) by (cbn [item_key]; rewrite Er, En; reflexivity).
        revert Hnd Hi Hi2 Hk. generalize (WEvt h' e' only') (WEvt h e only). clear. intros x y. induction W as [|w W IH]; [intros _ []|].
        cbn [map]. intros Hnd Hx Hy Hk. inversion Hnd as [|? ? Hni Hnd']; subst. destruct Hx as [->|Hx], Hy as [->|Hy]; [reflexivity| | |apply IH; assumption].
        - exfalso. apply Hni. rewrite Hk. apply in_map. exact Hy.
        - exfalso. apply Hni. rewrite <- Hk. apply in_map. exact Hx. }
      injection Heq as -> -> ->. exists le. split; [reflexivity|assumption].
    + intros Hno. exfalso. apply (Hno h e only); [|reflexivity|reflexivity]. assert (EW : W = pre ++ WEvt h e only :: l) by assumption. rewrite EW. apply in_or_app. right. left. reflexivity.
  - match goal with K : answers _ _ _ _ _ _ _ [] _ |- _ => inversion K; subst end. split; [|reflexivity].
    intros h e only Hi Er En. exfalso. assert (Hx : existsb (has_numbers run num) W = false) by assumption.
    assert (X : existsb (has_numbers run num) W = true); [|congruence]. apply existsb_exists. exists (WEvt h e only). split; [exact Hi|]. cbn. lia.
Qed.

(** ** Skipping *)

Definition is_event_result (x : result) : Prop := exists l, x = REvt (Some l).
(** two answers show the same event of [W], or that there is none *)
Definition same_event (names : list bytes) (W : list witem) (x y : result) : Prop :=
  (x = REvt None /\ y = REvt None) \/
  exists h e only n1 n2 l1 l2, In (WEvt h e only) W /\ x = REvt (Some l1) /\ y = REvt (Some l2) /\
    event_copy srt names n1 h e only l1 /\ event_copy srt names n2 h e only l2.

Section State.
Context (d : disk) (n data : bytes) (names : list bytes) (direct : bool) (W : list witem).
Notation state_ok := (state_ok uncomp ignore_null n data names direct W).
Notation run_steps := (run_steps uncomp srt ignore_null d).

Lemma read_many k : forall r l, state_ok r (Some l) -> 0 < rd_next r -> 1 <= Z.of_nat k ->
  (Z.of_nat k <= evts l /\ exists r' pre h e only l', l = pre ++ WEvt h e only :: l' /\ evts pre = Z.of_nat k - 1 /\ state_ok r' (Some l') /\ 0 < rd_next r' /\
     exists evs, Forall is_event_result evs /\ length evs = k /\ forall s1, run_steps (repeat (Next true) k ++ s1) r = evs ++ run_steps s1 r') \/
  (evts l < Z.of_nat k /\ forall s1, exists evs more, run_steps (repeat (Next true) k ++ s1) r = evs ++ REvt None :: more /\ (length evs < k)%nat).
Proof.
  induction k as [|k IH]; intros r l Hst Hp Hk; [lia|]. cbn [repeat app].
  destruct (existsb is_wevt l) eqn:El.
  - destruct (split_at _ _ El) as (pre & i & l' & -> & Hpre & Hi). destruct i as [h|h e only]; [discriminate|].
    destruct (next_event comp uncomp srt ignore_null d n data names direct W r pre h e only l' Hst Hp Hpre) as (le & r' & E & Hc & Hst' & Hnx).
    assert (Hp' : 0 < rd_next r') by (rewrite Hnx; pose proof (Zlen_nonneg (event_objs only names h e)); lia).
    assert (Ee : evts pre = 0).
    { clear -Hpre. unfold evts. induction pre as [|i pre IHp]; [reflexivity|]. cbn [existsb filter] in *. destruct (is_wevt i); [discriminate|]. exact (IHp Hpre). }
    assert (El2 : evts (pre ++ WEvt h e only :: l') = 1 + evts l').
    { rewrite evts_app, Ee. unfold evts, Zlen. cbn [filter is_wevt length]. lia. }
    destruct k as [|k].
    + left. split; [rewrite El2; pose proof (Zlen_nonneg (filter is_wevt l')); unfold evts; lia|]. exists r', pre, h, e, only, l'. split; [reflexivity|]. split; [lia|]. split; [exact Hst'|]. split; [exact Hp'|].
      exists [REvt (Some le)]. split; [repeat constructor; exists le; reflexivity|]. split; [reflexivity|]. intros s1. cbn [repeat app FileSpec.run_steps one_step one_op]. rewrite E. reflexivity.
    + destruct (IH r' l' Hst' Hp') as [(Hle & r2 & pre2 & h2 & e2 & only2 & l2 & -> & Hp2 & Hst2 & Hpo2 & evs & Fe & Le & He)|(Hlt & He)]; [lia| |].
      * left. split; [lia|]. exists r2, (pre ++ WEvt h e only :: pre2), h2, e2, only2, l2. split; [rewrite <- app_assoc; reflexivity|].
        split; [rewrite evts_app, Ee; unfold evts, Zlen in *; cbn [filter is_wevt length]; lia|]. split; [exact Hst2|]. split; [exact Hpo2|].
        exists (REvt (Some le) :: evs). split; [constructor; [exists le; reflexivity|exact Fe]|]. split; [cbn [length]; lia|]. intros s1. cbn [FileSpec.run_steps one_step one_op]. rewrite E.
        cbn [app]. rewrite He. reflexivity.
      * right. split; [lia|]. intros s1. destruct (He s1) as (evs & more & Eq & Hl). exists (REvt (Some le) :: evs), more. split; [|cbn [length]; lia].
        cbn [FileSpec.run_steps one_step one_op]. rewrite E, Eq. reflexivity.
  - right. assert (Ee : evts l = 0).
    { clear -El. unfold evts. induction l as [|i l IHp]; [reflexivity|]. cbn [existsb filter] in *. destruct (is_wevt i); [discriminate|]. exact (IHp El). }
    split; [lia|]. intros s1. destruct (next_event_none comp uncomp srt ignore_null d n data names direct W r l Hst El) as (r' & E & Hst' & Hnx).
    exists [], (run_steps (repeat (Next true) k ++ s1) r'). cbn [FileSpec.run_steps one_step one_op]. rewrite E. split; [reflexivity|]. cbn [length]. lia.
Qed.
End State.

Theorem skip_is_reading d f s0 k direct names raw cbuf mraw next : codec_ok comp uncomp -> wf_ok comp uncomp d f ->
  (direct = true -> Forall (sess_covers comp) (wf_sess f) /\ numbered (items_of (wf_sess f))) ->
  Forall (readable ignore_null names) (items_of (wf_sess f)) -> Forall step_ok s0 -> 0 < next -> (0 < k)%nat ->
  let use l := use_file uncomp srt ignore_null d (wf_name f) l (new_reader direct false names raw cbuf mraw next) in
  let reading := use (s0 ++ repeat (Next true) k ++ [Next true]) in
  let skipping := use (s0 ++ [Skip (Z.of_nat k); Next true]) in
  Forall is_event_result (firstn k (skipn (length s0) reading)) ->
  exists rs evs x y, reading = rs ++ evs ++ [x] /\ skipping = rs ++ [RDone; y] /\ same_event names (items_of (wf_sess f)) x y.
Proof.
  intros Hc Hok Hdir HR Hs0 Hp Hk. destruct (file_state d f direct names raw cbuf mraw next Hc Hok Hdir HR) as (data & r & Eo & Hnx & Hs).
  unfold use_file. rewrite Eo. set (W := items_of (wf_sess f)) in *.
  destruct (use_more comp uncomp srt ignore_null d (wf_name f) data names direct W s0 Hs0 HR (fun D => proj2 (proj2 (Hdir D))) r _ Hs ltac:(lia)) as (r1 & cur1 & Hst1 & Hp1 & Hrun & _).
  set (rs := run_steps uncomp srt ignore_null d s0 r) in *.
  cbv zeta. rewrite !Hrun. assert (Hl : length rs = length s0).
  { unfold rs. clear -Hs0 HR Hdir Hs Hp Hnx comp. assert (Hp' : 0 < rd_next r) by lia. clear Hp Hnx. revert r Hs Hp'. generalize (Some W). induction Hs0 as [|st s0 Hst _ IH]; intros cur r Hs Hp; [reflexivity|].
    destruct (step_answers comp uncomp srt ignore_null d (wf_name f) data names direct W st Hst HR (fun D => proj2 (proj2 (Hdir D))) r cur Hs Hp) as (x & r' & cur' & E & Hx & Hst' & Hp' & _).
    cbn [FileSpec.run_steps length]. rewrite E. destruct x as [? |? | |? |k0]; try (cbn [length]; rewrite (IH cur' r' Hst' Hp'); reflexivity). destruct (Hx k0 eq_refl). }
  rewrite <- Hl, skipn_app_exact by reflexivity. intros Hev. exists rs.
  destruct cur1 as [l|].
  - destruct (read_many d (wf_name f) data names direct W k r1 l Hst1 Hp1 ltac:(lia)) as [(Hle & r2 & pre & h & e & only & l' & El & Hpre & Hst2 & Hp2 & evs & Fe & Le & He)|(Hlt & He)].
    + rewrite He. subst l. destruct (skip_ok comp uncomp ignore_null (wf_name f) data names direct W (Z.of_nat k) r1 pre h e only l' Hst1 Hpre) as (r3 & E3 & Hst3 & Hnx3).
      cbn [FileSpec.run_steps one_step]. rewrite E3. cbn [FileSpec.run_steps one_step one_op].
      destruct (existsb is_wevt l') eqn:El.
      * destruct (split_at _ _ El) as (pre4 & i & l4 & -> & Hpre4 & Hi). destruct i as [h4|h4 e4 only4]; [discriminate|].
        destruct (next_event comp uncomp srt ignore_null d _ data names direct W r2 pre4 h4 e4 only4 l4 Hst2 Hp2 Hpre4) as (le5 & r5 & E5 & Hc5 & _).
        destruct (next_event comp uncomp srt ignore_null d _ data names direct W r3 pre4 h4 e4 only4 l4 Hst3 ltac:(lia) Hpre4) as (le6 & r6 & E6 & Hc6 & _).
        rewrite E5, E6. exists evs, (REvt (Some le5)), (REvt (Some le6)). split; [reflexivity|]. split; [reflexivity|]. right. exists h4, e4, only4, (rd_next r2), (rd_next r3), le5, le6.
        split; [|auto]. destruct Hst2 as (_ & _ & _ & _ & _ & _ & HK & _). apply Forall_app in HK. destruct HK as [_ HK]. inversion HK as [|? ? HK1 _]; subst. exact (proj2 HK1).
      * destruct (next_event_none comp uncomp srt ignore_null d _ data names direct W r2 l' Hst2 El) as (r5 & E5 & _).
        destruct (next_event_none comp uncomp srt ignore_null d _ data names direct W r3 l' Hst3 El) as (r6 & E6 & _).
        rewrite E5, E6. exists evs, (REvt None), (REvt None). split; [reflexivity|]. split; [reflexivity|]. left. auto.
    + exfalso. destruct (He [Next true]) as (evs & more & Eq & Hlen). rewrite Eq in Hev. rewrite Forall_forall in Hev.
      destruct (Hev (REvt None)) as (le & Hle); [|discriminate Hle]. rewrite firstn_app, (firstn_all2 evs) by lia. apply in_or_app. right. destruct (k - length evs)%nat eqn:Ek; [lia|]. left. reflexivity.
  - exfalso. destruct k as [|k]; [lia|]. cbn [repeat app FileSpec.run_steps one_step one_op] in Hev. pose proof Hst1 as (_ & _ & _ & _ & _ & _ & HA).
    destruct (stop_evt uncomp srt ignore_null r1 HA) as (r' & E & A & Hsm & _). unfold read_next_event in Hev. rewrite (over_single uncomp ignore_null d _ data names direct W _ r1 r' _ _ Hst1 E Hsm) in Hev.
    cbn [firstn] in Hev. inversion Hev as [|? ? (le & X) _]; subst. discriminate X.
Qed.
End Direct.
