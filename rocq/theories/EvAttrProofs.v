(** * Proofs about the attributes of events and run headers *)
From Verif Require Import Bytes StrMap Ieee SioModel ObjModel EventModel FlagModel ImplModel ImplSpec ImplProofs EvAttrModel EvAttrSpec.

Section Events.
Variable fadd : Z -> Z -> Z.
Variable srt : forall A : Type, (A -> Z) -> list A -> list A.

Lemma last_good_snoc {V} (f : wcall -> option V) d h cr :
  last_good f d (h ++ [cr]) = match cr with (c, Ok _) => match f c with Some v => v | None => last_good f d h end | _ => last_good f d h end.
Proof. unfold last_good. rewrite fold_left_app. cbn [fold_left]. destruct cr as [c [?| |]]; reflexivity. Qed.
Lemma par_changes_snoc h cr : par_changes (h ++ [cr]) = par_changes h ++ par_change cr.
Proof. unfold par_changes. rewrite flat_map_app. cbn [flat_map]. rewrite app_nil_r. reflexivity. Qed.
Lemma params_after_app cs l : params_after (cs ++ l) = fold_left (fun p c => fst (par_do false p c)) l (params_after cs).
Proof. unfold params_after. apply fold_left_app. Qed.

(** the event after one call *)
Definition ev_after (c : wcall) (r : Res unit) (e : estate) : estate :=
  let get {V} (f : wcall -> option V) (d : V) := match r with Ok _ => or_else (f c) d | _ => d end in
  mkES (get mode_set (es_ro e)) (get run_set (es_run e)) (get num_set (es_num e)) (get time_set (es_time e)) (get det_set (es_det e))
    (fold_left (fun p c => fst (par_do false p c)) (par_change (c, r)) (es_par e)) (es_cols e) (es_notowned e).
Definition same_attributes (e e' : estate) : Prop :=
  es_ro e = es_ro e' /\ es_run e = es_run e' /\ es_num e = es_num e' /\ es_time e = es_time e' /\ es_det e = es_det e' /\ es_par e = es_par e'.
Lemma exec_after w c : same_attributes (w_ev (fst (exec fadd srt w c))) (ev_after c (snd (exec fadd srt w c)) (w_ev w)).
Proof.
  assert (R : forall e, same_attributes e e) by (intros e; repeat split).
  destruct c as [x|a x|a x|a p]; cbn [exec].
  - destruct x as [n|a n|n|v|v|v|v|v|m|pc]; cbn [ev_do].
    + destruct (ev_get (w_ev w) n) as [a|e|u]; try (repeat split; fail).
      destruct (w_col w a) as [[ro c]|]; [|repeat split].
      destruct (coll_do ro c (C_setBit BTransient true)) as [c' [t|e|u]]; repeat split.
    + unfold ev_add. destruct (negb (validate n)); [repeat split|].
      destruct (sm_get n (es_cols (w_ev w))); [repeat split|]. destruct (a =? 0); repeat split.
    + unfold ev_remove, guarded, unguarded. destruct (es_ro (w_ev w)) eqn:E; repeat split.
    + unfold guarded, unguarded. destruct (es_ro (w_ev w)) eqn:E; repeat split; first [exact E|exact (eq_sym E)].
    + unfold guarded, unguarded. destruct (es_ro (w_ev w)) eqn:E; repeat split; first [exact E|exact (eq_sym E)].
    + unfold guarded, unguarded. destruct (es_ro (w_ev w)) eqn:E; repeat split; first [exact E|exact (eq_sym E)].
    + unfold guarded, unguarded. destruct (es_ro (w_ev w)) eqn:E; repeat split; first [exact E|exact (eq_sym E)].
    + unfold guarded, unguarded. destruct (es_ro (w_ev w)) eqn:E; repeat split; first [exact E|exact (eq_sym E)].
    + cbn [fst snd]. rewrite mode_ev. repeat split.
    + destruct (par_do false (es_par (w_ev w)) pc) as [p r] eqn:E. unfold ev_after. cbn [fst snd w_ev par_change fold_left]. rewrite E. cbn [fst].
      destruct r; repeat split.
  - destruct (w_col w a) as [[ro c]|]; [|repeat split]. destruct (coll_do ro c x) as [c' [?| |]]; repeat split.
  - destruct (w_obj w a) as [[ro o]|]; [|repeat split]. destruct (obj_do fadd srt ro o x) as [o' [?| |]]; repeat split.
  - unfold add_parent. destruct (w_obj w a) as [[ro o]|]; [|repeat split]. destruct o; try (repeat split; fail).
    destruct ro; [repeat split|]. destruct (existsb (Z.eqb p) (mc_parents o)); [repeat split|]. cbv zeta.
    destruct (put _ _ _ _) as [[mro m]|]; [|repeat split]. destruct m; try (repeat split; fail).
    destruct (mc_do mro o0 (MC_addDaughter a)) as [m' [?| |]]; repeat split.
Qed.
Lemma attributes w cs : w_ev w = new_estate ->
  let e := w_ev (run fadd srt w cs) in let h := outcomes fadd srt w cs in
  es_ro e = locked h /\ es_run e = last_good run_set 0 h /\ es_num e = last_good num_set 0 h /\ es_time e = last_good time_set 0 h /\
  es_det e = last_good det_set (str "unknown") h /\ es_par e = params_after (par_changes h).
Proof.
  intros H0. cbv zeta. induction cs as [|c cs IH] using rev_ind.
  - unfold run. cbn [fold_left outcomes]. rewrite H0. repeat split.
  - rewrite run_snoc, outcomes_snoc. destruct IH as (I1 & I2 & I3 & I4 & I5 & I6).
    destruct (exec_after (run fadd srt w cs) c) as (E1 & E2 & E3 & E4 & E5 & E6). rewrite E1, E2, E3, E4, E5, E6. clear E1 E2 E3 E4 E5 E6.
    unfold locked in *. rewrite !last_good_snoc, par_changes_snoc, params_after_app, <- I6. unfold ev_after.
    cbn [es_ro es_run es_num es_time es_det es_par]. rewrite <- I1, <- I2, <- I3, <- I4, <- I5.
    destruct (snd (exec fadd srt (run fadd srt w cs) c)); repeat split.
Qed.
Lemma event_values w cs : w_ev w = new_estate ->
  let e := w_ev (run fadd srt w cs) in let h := outcomes fadd srt w cs in
  es_run e = last_good run_set 0 h /\ es_num e = last_good num_set 0 h /\ es_time e = last_good time_set 0 h /\
  es_det e = last_good det_set (str "unknown") h /\
  (forall k, getters_give 0 (p_int (es_par e)) k (last_of (ints_set k) (par_changes h)) /\
             getters_give 0 (p_flt (es_par e)) k (last_of (floats_set k) (par_changes h)) /\
             getters_give [] (p_str (es_par e)) k (last_of (strings_set k) (par_changes h))) /\
  ev_weight e = weight_of (last_of (floats_set (str "_weight")) (par_changes h)).
Proof.
  intros H0. destruct (attributes w cs H0) as (_ & E2 & E3 & E4 & E5 & E6). cbv zeta in *. split; [exact E2|]. split; [exact E3|]. split; [exact E4|]. split; [exact E5|].
  rewrite E6. split; [intros k; apply parameters_ok|].
  destruct (parameters_ok (par_changes (outcomes fadd srt w cs)) (str "_weight")) as (_ & (_ & G & _) & _).
  unfold ev_weight. rewrite E6. unfold evt_wgt. rewrite G. unfold weight_of. destruct (last_of _ _) as [[|v l]|]; cbn [bind]; [reflexivity| |reflexivity].
  change two31 with 2147483648. destruct (Z.eqb_spec v 0), (Z.eqb_spec v 2147483648), (Z.eq_dec v 0), (Z.eq_dec v 2147483648); try contradiction; reflexivity.
Qed.
Lemma event_setters w cs c : w_ev w = new_estate -> event_setter c ->
  let w1 := run fadd srt w cs in
  if locked (outcomes fadd srt w cs) then exec fadd srt w1 (WEv c) = (w1, Throw LReadOnly) else snd (exec fadd srt w1 (WEv c)) = Ok tt.
Proof.
  intros H0 S. cbv zeta. destruct (attributes w cs H0) as (E1 & _). cbv zeta in E1. rewrite <- E1. destruct (run fadd srt w cs) as [e col ob].
  cbn [w_ev]. destruct c; try destruct S; cbn [exec ev_do w_ev w_col w_obj]; unfold guarded, unguarded; destruct (es_ro e); reflexivity.
Qed.
End Events.

(** ** Weights as doubles *)
Lemma weight_back fadd srt w cs v : w_ev w = new_estate -> locked (outcomes fadd srt w cs) = false ->
  is_u32 v -> f_nan v = false -> v <> 0 -> v <> 0x80000000 ->
  get_weight (w_ev (run fadd srt w (cs ++ [set_weight (f2d v)]))) = Ok (f2d v).
Proof.
  intros H0 L U N Z1 Z2. pose proof (event_values fadd srt w (cs ++ [set_weight (f2d v)]) H0) as E. cbv zeta in E. destruct E as (_ & _ & _ & _ & _ & E).
  unfold get_weight. rewrite E. rewrite outcomes_snoc, par_changes_snoc.
  pose proof (event_setters fadd srt w cs (V_setWeight (d2f (f2d v))) H0 Logic.I) as S. cbv zeta in S. rewrite L in S. unfold set_weight in *. rewrite S.
  cbn [par_change]. rewrite last_of_snoc. cbn [floats_set]. destruct (bytes_dec (str "_weight") (str "_weight")) as [_|C]; [|congruence].
  cbn [weight_of bind]. rewrite d2f_f2d by assumption. destruct (Z.eq_dec v 0); [contradiction|]. destruct (Z.eq_dec v 2147483648); [contradiction|]. reflexivity.
Qed.

(** ** Run headers *)
Lemma rh_inv : forall cs s,
  rs_hdr (rh_run_all s cs) =
  mkRun (or_else (last_of rh_run_set (open_calls (rs_ro s) cs)) (rh_run (rs_hdr s))) (or_else (last_of rh_det_set (open_calls (rs_ro s) cs)) (rh_det (rs_hdr s)))
    (or_else (last_of rh_desc_set (open_calls (rs_ro s) cs)) (rh_desc (rs_hdr s))) (rh_subs (rs_hdr s) ++ flat_map rh_sub_added cs)
    (fold_left (fun p c => fst (par_do false p c)) (flat_map rh_par_change cs) (rh_par (rs_hdr s))).
Proof.
  assert (LC : forall V (f : rhcall -> option V) c l d, or_else (last_of f (c :: l)) d = or_else (last_of f l) (or_else (f c) d)).
  { intros V f c l d. unfold last_of. cbn [fold_left].
    assert (G : forall l a, fold_left (fun acc c => match f c with Some v => Some v | None => acc end) l a =
      match fold_left (fun acc c => match f c with Some v => Some v | None => acc end) l None with Some v => Some v | None => a end).
    { clear. induction l as [|x l IH]; intros a; cbn [fold_left]; [reflexivity|]. rewrite IH. rewrite (IH (match f x with Some v => Some v | None => None end)).
      destruct (fold_left _ l None); [reflexivity|]. destruct (f x); reflexivity. }
    rewrite G. destruct (f c) as [v|]; destruct (fold_left _ l None); reflexivity. }
  induction cs as [|c cs IH]; intros s; unfold rh_run_all in *; cbn [fold_left].
  - destruct s as [ro [a b d e p]]. cbn. rewrite app_nil_r. reflexivity.
  - rewrite IH. clear IH. destruct s as [ro hd]. destruct c as [v|v|v|v|b|p]; cbn [rh_do rs_ro rs_hdr open_calls flat_map rh_sub_added rh_par_change app].
    + destruct ro; cbn [guarded unguarded fst snd rs_ro rs_hdr rh_run rh_det rh_desc rh_subs rh_par]; [reflexivity|rewrite !LC; reflexivity].
    + destruct ro; cbn [guarded unguarded fst snd rs_ro rs_hdr rh_run rh_det rh_desc rh_subs rh_par]; [reflexivity|rewrite !LC; reflexivity].
    + destruct ro; cbn [guarded unguarded fst snd rs_ro rs_hdr rh_run rh_det rh_desc rh_subs rh_par]; [reflexivity|rewrite !LC; reflexivity].
    + destruct ro; cbn [unguarded fst snd rs_ro rs_hdr rh_run rh_det rh_desc rh_subs rh_par]; [|rewrite !LC]; rewrite <- app_assoc; reflexivity.
    + reflexivity.
    + destruct (par_do false (rh_par hd) p) as [q r] eqn:E. cbn [fst snd rs_ro rs_hdr rh_run rh_det rh_desc rh_subs rh_par fold_left]. rewrite E. cbn [fst].
      destruct ro; [reflexivity|rewrite !LC; reflexivity].
Qed.
Lemma run_header cs :
  let s := rh_run_all new_rstate cs in let op := open_calls false cs in
  rh_run (rs_hdr s) = or_else (last_of rh_run_set op) 0 /\ rh_det (rs_hdr s) = or_else (last_of rh_det_set op) [] /\
  rh_desc (rs_hdr s) = or_else (last_of rh_desc_set op) [] /\ rh_subs (rs_hdr s) = flat_map rh_sub_added cs /\
  forall k, getters_give 0 (p_int (rh_par (rs_hdr s))) k (last_of (ints_set k) (flat_map rh_par_change cs)) /\
            getters_give 0 (p_flt (rh_par (rs_hdr s))) k (last_of (floats_set k) (flat_map rh_par_change cs)) /\
            getters_give [] (p_str (rh_par (rs_hdr s))) k (last_of (strings_set k) (flat_map rh_par_change cs)).
Proof.
  cbv zeta. rewrite (rh_inv cs new_rstate). cbn [rh_run rh_det rh_desc rh_subs rh_par]. split; [reflexivity|]. split; [reflexivity|]. split; [reflexivity|]. split; [reflexivity|].
  intros k. apply (parameters_ok (flat_map rh_par_change cs) k).
Qed.
