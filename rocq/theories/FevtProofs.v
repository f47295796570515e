(** * Proofs about the Fortran functions for events, run headers and navigators *)
From Coq Require Import Lia Permutation.
From Verif Require Import Bytes StrMap SioModel ObjModel EventModel ImplModel ImplSpec ImplProofs EvAttrModel EvAttrSpec NavModel NavSpec NavProofs FortModel FevtModel FevtSpec.

Section P.
Context (fadd : Z -> Z -> Z).

(** ** Histories are read call by call *)
Lemma last_of_snoc : forall {C V} (f : C -> option V) cs c, last_of f (cs ++ [c]) = match f c with Some v => Some v | None => last_of f cs end.
Proof. intros C V f cs c. unfold last_of. rewrite fold_left_app. reflexivity. Qed.

(** the run, seen from its end: the memory before the last call *)
Lemma run_inv : forall (P : list (fcall77 * Res out77) -> fmemory -> Prop) (Q : fcall77 -> Prop),
  (forall h s c o s', Q c -> P h s -> step77 fadd s c = (Ok o, s') -> P (h ++ [(c, Ok o)]) s') ->
  forall cs h0 s h s', Forall Q cs -> P h0 s -> run77 fadd s cs = (h, s') -> all_returned h -> P (h0 ++ h) s'.
Proof.
  intros P Q St. induction cs as [|c cs IH]; intros h0 s h s' HQ HP R A; cbn [run77] in R.
  - injection R as <- <-. rewrite app_nil_r. exact HP.
  - inversion HQ as [|? ? Qc Qcs]; subst. destruct (step77 fadd s c) as [r s1] eqn:E. destruct r as [o|t|u].
    + destruct (run77 fadd s1 cs) as [h2 s2] eqn:R2. injection R as <- <-. inversion A; subst.
      replace (h0 ++ (c, Ok o) :: h2) with ((h0 ++ [(c, Ok o)]) ++ h2) by (rewrite <- app_assoc; reflexivity).
      apply (IH _ s1); auto. apply (St _ s); auto.
    + injection R as <- <-. inversion A as [|? ? [o Ho] ?]; subst. discriminate Ho.
    + injection R as <- <-. inversion A as [|? ? [o Ho] ?]; subst. discriminate Ho.
Qed.

(** ** One call *)
Lemma put_same : forall {A} (f : addr -> option A) a x, put f a x a = Some x.
Proof. intros. unfold put. rewrite Z.eqb_refl. reflexivity. Qed.
Lemma put_other : forall {A} (f : addr -> option A) a b x, b <> a -> put f a x b = f b.
Proof. intros. unfold put. destruct (Z.eqb_spec b a); congruence. Qed.
Lemma gone_other : forall {A} (f : addr -> option A) a b, b <> a -> gone f a b = f b.
Proof. intros. unfold gone. destruct (Z.eqb_spec b a); congruence. Qed.

(** what calls that do not name the event do to it *)
Definition names_ev (a : addr) (c : fcall77) : Prop :=
  match c with
  | Lcevtdelete e | Lcevtaddcollection e _ _ | Lcevtremovecollection e _ | Lcevtsetrunnumber e _ | Lcevtseteventnumber e _
  | Lcevtsetdetectorname e _ | Lcevtsettimestamp e _ => e = a
  | _ => False
  end.
Ltac one E :=
  repeat match type of E with
  | context [on_ev ?s ?a _] => unfold on_ev in E
  | context [on_rh ?s ?a _] => unfold on_rh in E
  | context [on_nav ?s ?a _] => unfold on_nav in E
  | context [bind ?x _] => destruct x eqn:?; cbn [bind] in E; try discriminate E
  | context [if ?b then _ else _] => destruct b eqn:?
  | context [match ?x with _ => _ end] => destruct x eqn:?
  end; try discriminate E.
Lemma delete_owned_sub : forall l cols kept cols', delete_owned cols kept l = Ok cols' -> forall b, cols' b = None \/ cols' b = cols b.
Proof.
  induction l as [|x l IH]; intros cols kept cols' E b; cbn [delete_owned] in E.
  - injection E as <-. auto.
  - destruct (existsb (Z.eqb x) kept); [exact (IH _ _ _ E b)|]. destruct (cols x); [|discriminate E].
    destruct (IH _ _ _ E b) as [H|H]; [auto|]. rewrite H. unfold gone. destruct (b =? x); auto.
Qed.

Lemma step_usable : forall s c o s', usable_memory s -> step77 fadd s c = (Ok o, s') -> usable_memory s' /\ fm_next s <= fm_next s'.
Proof.
  intros s c o s' [N U] E.
  assert (K : forall f g k m, (forall a, f a <> None -> 0 < a < fm_next s) -> (forall a, g a <> None -> 0 < a < fm_next s) ->
                (forall a, k a <> None -> 0 < a < fm_next s) -> (forall a, m a <> None -> 0 < a < fm_next s) ->
                usable_memory (mkFM (fm_next s) f g k m)).
  { intros f g k m F G H M. split; [exact N|]. cbn. intros a [X|[X|[X|X]]]; auto. }
  assert (Ue : forall a, fm_evs s a <> None -> 0 < a < fm_next s) by (intros; apply U; auto).
  assert (Ur : forall a, fm_rhs s a <> None -> 0 < a < fm_next s) by (intros; apply U; auto).
  assert (Un : forall a, fm_navs s a <> None -> 0 < a < fm_next s) by (intros; apply U; auto).
  assert (Uc : forall a, fm_cols s a <> None -> 0 < a < fm_next s) by (intros; apply U; auto).
  assert (PP : forall A (f : addr -> option A) a x, (forall b, f b <> None -> 0 < b < fm_next s) -> f a <> None -> forall b, put f a x b <> None -> 0 < b < fm_next s).
  { intros A f a x H Ha b. unfold put. destruct (Z.eqb_spec b a) as [->|]; auto. }
  assert (GG : forall A (f : addr -> option A) a, (forall b, f b <> None -> 0 < b < fm_next s) -> forall b, gone f a b <> None -> 0 < b < fm_next s).
  { intros A f a H b. unfold gone. destruct (b =? a); [congruence|auto]. }
  assert (NN : forall f g k m, (forall a, f a <> None -> 0 < a < fm_next s + 1) -> (forall a, g a <> None -> 0 < a < fm_next s + 1) ->
                (forall a, k a <> None -> 0 < a < fm_next s + 1) -> (forall a, m a <> None -> 0 < a < fm_next s + 1) ->
                usable_memory (mkFM (fm_next s + 1) f g k m)).
  { intros f g k m F G H M. split; [cbn; lia|]. cbn. intros a [X|[X|[X|X]]]; auto. }
  assert (LL : forall A (f : addr -> option A), (forall b, f b <> None -> 0 < b < fm_next s) -> forall b, f b <> None -> 0 < b < fm_next s + 1).
  { intros A f H b Hb. specialize (H b Hb). lia. }
  assert (PN : forall A (f : addr -> option A) x, (forall b, f b <> None -> 0 < b < fm_next s) -> forall b, put f (fm_next s) x b <> None -> 0 < b < fm_next s + 1).
  { intros A f x H b. unfold put. destruct (Z.eqb_spec b (fm_next s)) as [->|]; [intros _; lia|]. intros Hb. specialize (H b Hb). lia. }
  assert (SS : forall x y : fmemory, usable_memory s /\ fm_next s <= fm_next s) by (intros; split; [split; auto|lia]).
  destruct c; cbn [step77] in E; unfold ev_setter, ev_caught, rh_setter, with_ev, with_rh, with_nav, with_col in E;
    one E; injection E; clear E; intros; subst; try exact (SS s s);
    (split; [first [apply K|apply NN]; eauto 3|cbn; lia]).
  all: try (apply PP; auto; congruence).
  intros b Hb. destruct (delete_owned_sub _ _ _ _ Heqr b) as [H|H]; rewrite H in Hb; [congruence|auto].
Qed.

Ltac openstep E := cbn [step77] in E; unfold ev_setter, ev_caught, rh_setter, with_ev, with_rh, with_nav, with_col in E;
    one E; injection E; clear E; intros; subst.
Lemma put_next : forall {A} (f : addr -> option A) n x a, a < n -> put f n x a = f a.
Proof. intros. apply put_other. lia. Qed.

Lemma ev_frame : forall s c o s' a, a < fm_next s -> ~ names_ev a c -> step77 fadd s c = (Ok o, s') -> fm_evs s' a = fm_evs s a.
Proof.
  intros s c o s' a L N E. destruct c; openstep E; cbn [fm_evs names_ev] in *; try reflexivity;
    try (apply put_next; exact L); try (apply put_other; congruence); apply gone_other; congruence.
Qed.
Definition names_rh (a : addr) (c : fcall77) : Prop :=
  match c with
  | Lcrhddelete r | Lcrhdsetrunnumber r _ | Lcrhdsetdetectorname r _ | Lcrhdsetdescription r _ | Lcrhdaddactivesubdetector r _ => r = a
  | _ => False
  end.
Lemma rh_frame : forall s c o s' a, a < fm_next s -> ~ names_rh a c -> step77 fadd s c = (Ok o, s') -> fm_rhs s' a = fm_rhs s a.
Proof.
  intros s c o s' a L N E. destruct c; openstep E; cbn [fm_rhs names_rh] in *; try reflexivity;
    try (apply put_next; exact L); try (apply put_other; congruence); apply gone_other; congruence.
Qed.
Definition names_nav (a : addr) (c : fcall77) : Prop :=
  match c with
  | Lcrnvdelete n | Lcrnvgetrelatedtoobjects n _ | Lcrnvgetrelatedfromobjects n _ | Lcrnvgetrelatedtoweights n _
  | Lcrnvgetrelatedfromweights n _ | Lcrnvgaddrelation n _ _ _ | Lcrnvgremoverelation n _ _ => n = a
  | _ => False
  end.
Lemma nav_frame : forall s c o s' a, a < fm_next s -> ~ names_nav a c -> step77 fadd s c = (Ok o, s') -> fm_navs s' a = fm_navs s a.
Proof.
  intros s c o s' a L N E. destruct c; openstep E; cbn [fm_navs names_nav] in *; try reflexivity;
    try (apply put_next; exact L); try (apply put_other; congruence); apply gone_other; congruence.
Qed.

(** ** Events *)
Definition ev_inv (a : addr) (ro : bool) (h : list (fcall77 * Res out77)) (s : fmemory) : Prop :=
  usable_memory s /\ 0 < a < fm_next s /\
  exists e, fm_evs s a = Some e /\ es_ro e = ro /\ es_notowned e = [] /\
    es_run e = or_else (last_of (run_given a) h) 0 /\ es_num e = or_else (last_of (num_given a) h) 0 /\
    es_time e = or_else (last_of (time_given a) h) 0 /\ es_det e = or_else (last_of (det_given a) h) (str "unknown") /\
    sm_ok (es_cols e) /\ forall n, sm_get n (es_cols e) = held77 a h n.

Lemma held_snoc : forall a h cr n, held77 a (h ++ [cr]) n =
  match cr with
  | (Lcevtaddcollection e c m, Ok (OStatus 1)) => if e =? a then if bytes_dec (c_str m) n then Some c else held77 a h n else held77 a h n
  | (Lcevtremovecollection e m, Ok (OStatus 1)) => if e =? a then if bytes_dec (c_str m) n then None else held77 a h n else held77 a h n
  | _ => held77 a h n
  end.
Proof. intros a h cr n. unfold held77. rewrite fold_left_app. reflexivity. Qed.

Lemma ev_step_inv : forall a h s c o s', c <> Lcevtdelete a -> ev_inv a false h s -> step77 fadd s c = (Ok o, s') -> ev_inv a false (h ++ [(c, Ok o)]) s'.
Proof.
  intros a h s c o s' ND (U & [A0 A] & e & Ee & Ro & No & H1 & H2 & H3 & H4 & Ok' & Hg) E.
  destruct (step_usable _ _ _ _ U E) as [U' LN]. split; [exact U'|]. split; [lia|].
  assert (Same : ~ names_ev a c -> exists e', fm_evs s' a = Some e' /\ e' = e).
  { intros N. exists e. split; [|reflexivity]. rewrite (ev_frame _ _ _ _ _ A N E). exact Ee. }
  assert (Dec : names_ev a c \/ ~ names_ev a c) by (destruct c; cbn [names_ev]; try (right; tauto); lia).
  destruct Dec as [Nm|Nm].
  - destruct c; cbn [names_ev] in Nm; try contradiction; subst; [congruence| | | | | |];
      cbn [step77] in E; unfold ev_setter, ev_caught, on_ev in E; rewrite Ee in E.
    + (* add *)
      unfold ev_add in E. destruct (validate (c_str name)) eqn:V; cbn [negb] in E.
      * destruct (sm_get (c_str name) (es_cols e)) eqn:G.
        -- injection E as <- <-. exists e. cbn [with_ev fm_evs]. rewrite put_same, !last_of_snoc. repeat split; auto.
           intros n. rewrite held_snoc. apply Hg.
        -- destruct (Z.eqb_spec c 0) as [->|Nz].
           ++ injection E as <- <-. exists e. cbn [with_ev fm_evs]. rewrite put_same, !last_of_snoc. repeat split; auto.
              intros n. rewrite held_snoc. apply Hg.
           ++ injection E as <- <-. eexists. cbn [with_ev fm_evs]. rewrite put_same, !last_of_snoc. split; [reflexivity|].
              cbn. repeat split; auto; [apply sm_set_ok; exact Ok'|].
              intros n. rewrite held_snoc, Z.eqb_refl, sm_get_set by exact Ok'. unfold SUCCESS77. rewrite Hg.
              destruct (bytes_eqb n (c_str name)) eqn:Q; [apply bytes_eqb_eq in Q|]; destruct (bytes_dec (c_str name) n) as [F|F]; try reflexivity; try congruence;
                rewrite <- F, (proj2 (bytes_eqb_eq _ _) eq_refl) in Q; discriminate Q.
      * injection E as <- <-. exists e. cbn [with_ev fm_evs]. rewrite put_same, !last_of_snoc. repeat split; auto.
        intros n. rewrite held_snoc. apply Hg.
    + (* remove *)
      unfold ev_remove, guarded in E. rewrite Ro in E. injection E as <- <-. eexists. cbn [with_ev fm_evs]. rewrite put_same, !last_of_snoc.
      split; [reflexivity|]. cbn. repeat split; auto; [apply sm_del_ok; exact Ok'|].
      intros n. rewrite held_snoc, Z.eqb_refl, sm_get_del by exact Ok'. unfold SUCCESS77. rewrite Hg.
      destruct (bytes_eqb n (c_str name)) eqn:Q; [apply bytes_eqb_eq in Q|]; destruct (bytes_dec (c_str name) n) as [F|F]; try reflexivity; try congruence;
                rewrite <- F, (proj2 (bytes_eqb_eq _ _) eq_refl) in Q; discriminate Q.
    + cbn in E. rewrite Ro in E. cbn in E. injection E as <- <-. eexists. cbn [with_ev fm_evs w_ev]. rewrite put_same, !last_of_snoc. split; [reflexivity|].
      cbn. rewrite !Z.eqb_refl. cbn. repeat split; auto.
      intros n. rewrite held_snoc. apply Hg.
    + cbn in E. rewrite Ro in E. cbn in E. injection E as <- <-. eexists. cbn [with_ev fm_evs w_ev]. rewrite put_same, !last_of_snoc. split; [reflexivity|].
      cbn. rewrite !Z.eqb_refl. cbn. repeat split; auto.
      intros n. rewrite held_snoc. apply Hg.
    + cbn [ev_do w_ev] in E. rewrite Ro in E. cbn [guarded fst snd bind w_ev] in E. injection E as <- <-. eexists. cbn [with_ev fm_evs w_ev]. rewrite put_same, !last_of_snoc. split; [reflexivity|].
      cbn [run_given num_given time_given det_given fst]. rewrite !Z.eqb_refl. cbn [or_else]. repeat split; auto.
      intros n. rewrite held_snoc. apply Hg.
    + cbn in E. rewrite Ro in E. cbn in E. injection E as <- <-. eexists. cbn [with_ev fm_evs w_ev]. rewrite put_same, !last_of_snoc. split; [reflexivity|].
      cbn. rewrite !Z.eqb_refl. cbn. repeat split; auto.
      intros n. rewrite held_snoc. apply Hg.
  - destruct (Same Nm) as (e' & -> & ->). exists e. rewrite !last_of_snoc.
    assert (X : run_given a (c, Ok o) = None /\ num_given a (c, Ok o) = None /\ time_given a (c, Ok o) = None /\ det_given a (c, Ok o) = None).
    { destruct c; cbn [names_ev] in Nm; cbn [run_given num_given time_given det_given fst]; try (repeat split; reflexivity);
        rewrite (proj2 (Z.eqb_neq _ _) Nm); repeat split; reflexivity. }
    destruct X as (-> & -> & -> & ->). repeat split; auto.
    intros n. rewrite held_snoc, Hg. destruct c; cbn [names_ev] in Nm; try reflexivity; rewrite (proj2 (Z.eqb_neq _ _) Nm); destruct o; try reflexivity;
      repeat match goal with |- context [match ?z with _ => _ end] => is_var z; destruct z end; reflexivity.
Qed.

Lemma last_of_In : forall {C V} (f : C -> option V) cs v, last_of f cs = Some v -> exists c, f c = Some v.
Proof.
  intros C V f cs v. induction cs as [|c cs IH] using rev_ind; [discriminate|]. rewrite last_of_snoc.
  destruct (f c) eqn:F; [intros E; injection E as <-; exists c; exact F|exact IH].
Qed.
Lemma c_str_idem : forall x, c_str (c_str x) = c_str x.
Proof. induction x as [|b x IH]; [reflexivity|]. cbn [c_str]. destruct (byte_dec b x00) eqn:E; [reflexivity|]. cbn [c_str]. rewrite E, IH. reflexivity. Qed.
Lemma c_str_no_nul : forall x, no_nul (c_str x).
Proof.
  induction x as [|b x IH]; [constructor|]. cbn [c_str]. destruct (byte_dec b x00) as [|N]; constructor; [|exact IH].
  intros Z. apply N. apply Zb_inj. exact Z.
Qed.
Lemma given_c_str : forall f d (h : list (fcall77 * Res out77)), (forall cr v, f cr = Some v -> c_str v = v) -> c_str d = d ->
  c_str (or_else (last_of f h) d) = or_else (last_of f h) d.
Proof. intros f d h F D. destruct (last_of f h) eqn:E; cbn [or_else]; [|exact D]. destruct (last_of_In _ _ _ E) as [c Hc]. exact (F _ _ Hc). Qed.

(** the start: the event has just been made *)
Lemma ev_start : forall s, usable_memory s -> let s1 := snd (step77 fadd s Lcevtcreate) in ev_inv (fm_next s) false [(Lcevtcreate, Ok (OAddr (fm_next s)))] s1.
Proof.
  intros s U s1. destruct (step_usable s Lcevtcreate _ s1 U eq_refl) as [U1 _]. split; [exact U1|].
  split; [destruct U; cbn; lia|]. exists new_estate. cbn. rewrite put_same. repeat split; auto. apply sm_ok_nil.
Qed.
Lemma run_first : forall s c cs h s' o, step77 fadd s c = (Ok o, snd (step77 fadd s c)) -> run77 fadd s (c :: cs) = (h, s') ->
  exists h1, h = (c, Ok o) :: h1 /\ run77 fadd (snd (step77 fadd s c)) cs = (h1, s').
Proof.
  intros s c cs h s' o E R. cbn [run77] in R. rewrite E in R. destruct (run77 fadd (snd (step77 fadd s c)) cs) as [h2 s2]. injection R as <- <-.
  exists h2. auto.
Qed.
Lemma ev_after : forall s cs h s', usable_memory s -> run77 fadd s (Lcevtcreate :: cs) = (h, s') -> ~ In (Lcevtdelete (fm_next s)) cs -> all_returned h ->
  ev_inv (fm_next s) false h s'.
Proof.
  intros s cs h s' U R ND A. destruct (run_first s Lcevtcreate cs h s' (OAddr (fm_next s)) eq_refl R) as (h1 & -> & R1).
  inversion A; subst. apply (run_inv (ev_inv (fm_next s) false) (fun c => c <> Lcevtdelete (fm_next s))) with (h0 := [(Lcevtcreate, Ok (OAddr (fm_next s)))]) (cs := cs) (s := snd (step77 fadd s Lcevtcreate)); auto.
  - intros. eapply ev_step_inv; eauto.
  - apply Forall_forall. intros c Hc ->. exact (ND Hc).
  - apply ev_start. exact U.
Qed.

Theorem event_getters : forall s cs h s', usable_memory s -> run77 fadd s (Lcevtcreate :: cs) = (h, s') -> ~ In (Lcevtdelete (fm_next s)) cs -> all_returned h ->
  let a := fm_next s in
  returns77 fadd s' (Lcevtgetrunnumber a) (ONum (or_else (last_of (run_given a) h) 0)) /\
  returns77 fadd s' (Lcevtgeteventnumber a) (ONum (or_else (last_of (num_given a) h) 0)) /\
  returns77 fadd s' (Lcevtgettimestamp a) (ONum (or_else (last_of (time_given a) h) 0)) /\
  returns77 fadd s' (Lcevtgetdetectorname a) (OText (or_else (last_of (det_given a) h) (str "unknown"))) /\
  (forall n, returns77 fadd s' (Lcevtgetcollection a n) (OAddr (or_else (held77 a h (c_str n)) 0))) /\
  exists l, returns77 fadd s' (Lcevtgetcollectionnames a) (OTexts l) /\ NoDup l /\ forall n, In n l <-> held77 a h n <> None.
Proof.
  intros s cs h s' U R ND A a. destruct (ev_after _ _ _ _ U R ND A) as (U' & L & e & Ee & Ro & No & H1 & H2 & H3 & H4 & Ok' & Hg).
  fold a in Ee, H1, H2, H3, H4, Hg. unfold returns77. cbn [step77]. unfold on_ev. rewrite Ee. cbn [fst]. rewrite <- H1, <- H2, <- H3.
  split; [reflexivity|]. split; [reflexivity|]. split; [reflexivity|].
  split. { rewrite H4, given_c_str; [reflexivity| |reflexivity]. intros [c r] v. unfold det_given. cbn [fst]. destruct c; try discriminate.
    destruct (e0 =? a); [|discriminate]. intros X. injection X as <-. apply c_str_idem. }
  split. { intros n. unfold ev_get. rewrite Hg. destruct (held77 a h (c_str n)); reflexivity. }
  exists (ev_names e). split; [reflexivity|]. split; [apply sm_keys_nodup; exact Ok'|]. intros n. unfold ev_names. rewrite <- sm_get_keys by exact Ok'. rewrite Hg. reflexivity.
Qed.

Theorem event_setters_return : forall s cs h s', usable_memory s -> run77 fadd s (Lcevtcreate :: cs) = (h, s') -> ~ In (Lcevtdelete (fm_next s)) cs -> all_returned h ->
  let a := fm_next s in
  (forall v, returns77 fadd s' (Lcevtsetrunnumber a v) (OStatus 1)) /\ (forall v, returns77 fadd s' (Lcevtseteventnumber a v) (OStatus 1)) /\
  (forall v, returns77 fadd s' (Lcevtsetdetectorname a v) (OStatus 1)) /\ (forall v, returns77 fadd s' (Lcevtsettimestamp a v) (OStatus 1)) /\
  (forall n, returns77 fadd s' (Lcevtremovecollection a n) (OStatus 1)) /\
  forall b n,
    (returns77 fadd s' (Lcevtaddcollection a b n) (OStatus 1) /\ identifier (c_str n) /\ held77 a h (c_str n) = None /\ b <> 0) \/
    (returns77 fadd s' (Lcevtaddcollection a b n) (OStatus 0) /\ (~ identifier (c_str n) \/ held77 a h (c_str n) <> None \/ b = 0)).
Proof.
  intros s cs h s' U R ND A a. destruct (ev_after _ _ _ _ U R ND A) as (U' & L & e & Ee & Ro & No & H1 & H2 & H3 & H4 & Ok' & Hg).
  fold a in Ee, Hg. unfold returns77. cbn [step77]. unfold ev_setter, ev_caught, on_ev. rewrite Ee. cbn [ev_do w_ev]. rewrite Ro. cbn [guarded fst snd bind].
  split; [reflexivity|]. split; [reflexivity|]. split; [reflexivity|]. split; [reflexivity|].
  split. { intros n. unfold ev_remove, guarded. rewrite Ro. reflexivity. }
  intros b n. unfold ev_add. destruct (validate (c_str n)) eqn:V; cbn [negb].
  - apply (proj1 (validate_iff fadd _ (c_str_no_nul n))) in V. rewrite Hg. destruct (held77 a h (c_str n)) eqn:G.
    + right. split; [reflexivity|]. right. left. discriminate.
    + destruct (Z.eqb_spec b 0) as [->|Nb]; [right; split; [reflexivity|auto]|left; auto].
  - right. split; [reflexivity|]. left. intros I'. apply (proj2 (validate_iff fadd _ (c_str_no_nul n))) in I'. congruence.
Qed.

(** deletion *)
Lemma delete_all : forall l cols, NoDup l -> (forall b, In b l -> cols b <> None) ->
  exists cols', delete_owned cols [] l = Ok cols' /\ forall b, (In b l -> cols' b = None) /\ (~ In b l -> cols' b = cols b).
Proof.
  induction l as [|x l IH]; intros cols ND H; cbn [delete_owned existsb].
  - exists cols. split; [reflexivity|]. intros b. split; [intros []|reflexivity].
  - inversion ND as [|? ? Nx ND']; subst. destruct (cols x) eqn:Ex; [|exfalso; exact (H x (or_introl eq_refl) Ex)].
    destruct (IH (gone cols x) ND') as (cols' & -> & P).
    { intros b Hb. rewrite gone_other; [apply H; right; exact Hb|]. intros ->. exact (Nx Hb). }
    exists cols'. split; [reflexivity|]. intros b. destruct (P b) as [P1 P2]. split.
    + intros [->|Hb]; [|exact (P1 Hb)]. rewrite (P2 Nx). unfold gone. rewrite Z.eqb_refl. reflexivity.
    + intros Nb. rewrite P2 by (intros Hb; apply Nb; right; exact Hb). apply gone_other. intros ->. apply Nb. left. reflexivity.
Qed.
Theorem event_deleted : forall s cs h s', usable_memory s -> run77 fadd s (Lcevtcreate :: cs) = (h, s') -> ~ In (Lcevtdelete (fm_next s)) cs -> all_returned h ->
  let a := fm_next s in
  (forall n m b, held77 a h n = Some b -> held77 a h m = Some b -> n = m) -> (forall n b, held77 a h n = Some b -> fm_cols s' b <> None) ->
  exists s2, step77 fadd s' (Lcevtdelete a) = (Ok (OStatus 1), s2) /\ fm_evs s2 a = None /\
    (forall x, x <> a -> fm_evs s2 x = fm_evs s' x) /\
    (forall b, (exists n, held77 a h n = Some b) -> fm_cols s2 b = None) /\
    (forall b, (forall n, held77 a h n <> Some b) -> fm_cols s2 b = fm_cols s' b).
Proof.
  intros s cs h s' U R ND A a Inj Al. destruct (ev_after _ _ _ _ U R ND A) as (U' & L & e & Ee & Ro & No & H1 & H2 & H3 & H4 & Ok' & Hg).
  fold a in Ee, Hg, L. cbn [step77]. destruct (Z.eqb_spec a 0) as [->|_]; [lia|]. rewrite Ee, No.
  assert (Mem : forall b, In b (map snd (es_cols e)) <-> exists n, held77 a h n = Some b).
  { intros b. rewrite in_map_iff. split.
    - intros ([n x] & Ex & I'). cbn in Ex. subst x. exists n. rewrite <- Hg. apply sm_get_In; auto.
    - intros [n Hn]. exists (n, b). split; [reflexivity|]. apply sm_get_In; [exact Ok'|]. rewrite Hg. exact Hn. }
  assert (NDm : NoDup (map snd (es_cols e))).
  { assert (K : NoDup (map fst (es_cols e))) by (apply sm_keys_nodup; exact Ok').
    assert (J : forall n m b, In (n, b) (es_cols e) -> In (m, b) (es_cols e) -> n = m).
    { intros n m b X Y. apply (Inj n m b); rewrite <- Hg; apply sm_get_In; auto. }
    clear - K J. induction (es_cols e) as [|[n b] l IH]; [constructor|]. cbn [map fst snd] in *. inversion K as [|? ? K1 K2]; subst. constructor.
    - intros X. apply in_map_iff in X. destruct X as ([m b'] & Eb & X). cbn in Eb. subst b'. assert (n = m) by (apply (J n m b); [left; reflexivity|right; exact X]).
      subst m. apply K1. apply in_map_iff. exists (n, b). auto.
    - apply IH; [exact K2|]. intros x y z X Y. apply (J x y z); right; assumption. }
  destruct (delete_all _ (fm_cols s') NDm) as (cols' & -> & P).
  { intros b Hb. apply Mem in Hb. destruct Hb as [n Hn]. exact (Al n b Hn). }
  eexists. split; [reflexivity|]. cbn [fm_evs fm_cols]. split; [unfold gone; rewrite Z.eqb_refl; reflexivity|]. split; [intros x Nx; apply gone_other; exact Nx|].
  split.
  - intros b Hb. apply P. apply Mem. exact Hb.
  - intros b Hb. apply P. intros X. apply Mem in X. destruct X as [n Hn]. exact (Hb n Hn).
Qed.
(** a collection that is held twice or is gone: the deletion is not defined *)
Lemma delete_bad : forall l cols, ~ NoDup l \/ (exists b, In b l /\ cols b = None) -> delete_owned cols [] l = UB UBPrecondition.
Proof.
  induction l as [|x l IH]; intros cols H; cbn [delete_owned existsb].
  - exfalso. destruct H as [H|(b & [] & _)]. apply H. constructor.
  - destruct (cols x) eqn:Ex; [|reflexivity]. apply IH. destruct H as [H|(b & [->|Hb] & Nb)].
    + destruct (in_dec Z.eq_dec x l) as [I'|I']; [right; exists x; split; [exact I'|unfold gone; rewrite Z.eqb_refl; reflexivity]|left; intros K; apply H; constructor; auto].
    + congruence.
    + right. exists b. split; [exact Hb|]. unfold gone. destruct (b =? x); auto.
Qed.
Theorem event_delete_undefined : forall s cs h s', usable_memory s -> run77 fadd s (Lcevtcreate :: cs) = (h, s') -> ~ In (Lcevtdelete (fm_next s)) cs -> all_returned h ->
  let a := fm_next s in
  (exists n m b, n <> m /\ held77 a h n = Some b /\ held77 a h m = Some b) \/ (exists n b, held77 a h n = Some b /\ fm_cols s' b = None) ->
  fst (step77 fadd s' (Lcevtdelete a)) = UB UBPrecondition.
Proof.
  intros s cs h s' U R ND A a H. destruct (ev_after _ _ _ _ U R ND A) as (U' & L & e & Ee & Ro & No & H1 & H2 & H3 & H4 & Ok' & Hg).
  fold a in Ee, Hg, L. cbn [step77]. destruct (Z.eqb_spec a 0) as [->|_]; [lia|]. rewrite Ee, No. rewrite delete_bad; [reflexivity|].
  destruct H as [(n & m & b & Nm & X & Y)|(n & b & X & Y)].
  - left. intros K. apply Nm. rewrite <- Hg in X, Y. apply sm_get_In in X, Y; try exact Ok'.
    clear - K X Y. induction (es_cols e) as [|[k c] l IH]; [contradiction|]. cbn [map snd] in K. inversion K as [|? ? K1 K2]; subst.
    destruct X as [X|X]; destruct Y as [Y|Y]; try congruence; [| |auto]; exfalso; apply K1; apply in_map_iff;
      [injection X as -> ->; exists (m, b)|injection Y as -> ->; exists (n, b)]; auto.
  - right. exists b. split; [|exact Y]. apply in_map_iff. exists (n, b). split; [reflexivity|]. apply sm_get_In; [exact Ok'|]. rewrite Hg. exact X.
Qed.

(** an event that is read only *)
Theorem event_read_only : forall s a e, fm_evs s a = Some e -> es_ro e = true ->
  (forall v, fst (step77 fadd s (Lcevtsetrunnumber a v)) = Throw LReadOnly) /\ (forall v, fst (step77 fadd s (Lcevtseteventnumber a v)) = Throw LReadOnly) /\
  (forall v, fst (step77 fadd s (Lcevtsetdetectorname a v)) = Throw LReadOnly) /\ (forall v, fst (step77 fadd s (Lcevtsettimestamp a v)) = Throw LReadOnly) /\
  (forall n, returns77 fadd s (Lcevtremovecollection a n) (OStatus 0)).
Proof.
  intros s a e Ee Ro. unfold returns77. cbn [step77]. unfold ev_setter, ev_caught, on_ev. rewrite Ee. cbn [ev_do w_ev]. rewrite Ro. cbn [guarded fst snd bind].
  repeat (split; [reflexivity|]). intros n. unfold ev_remove, guarded. rewrite Ro. reflexivity.
Qed.

(** ** Run headers *)
Definition rh_inv (a : addr) (h : list (fcall77 * Res out77)) (s : fmemory) : Prop :=
  usable_memory s /\ 0 < a < fm_next s /\
  exists r, fm_rhs s a = Some r /\ rs_ro r = false /\
    rh_run (rs_hdr r) = or_else (last_of (hrun_given a) h) 0 /\ rh_det (rs_hdr r) = or_else (last_of (hdet_given a) h) [] /\
    rh_desc (rs_hdr r) = or_else (last_of (hdesc_given a) h) [] /\ rh_subs (rs_hdr r) = subs_given a h.
Lemma subs_snoc : forall a h cr, subs_given a (h ++ [cr]) = subs_given a h ++ subs_given a [cr].
Proof. intros. unfold subs_given. apply flat_map_app. Qed.
Lemma rh_step_inv : forall a h s c o s', c <> Lcrhddelete a -> rh_inv a h s -> step77 fadd s c = (Ok o, s') -> rh_inv a (h ++ [(c, Ok o)]) s'.
Proof.
  intros a h s c o s' ND (U & [A0 A] & e & Ee & Ro & H1 & H2 & H3 & H4) E.
  destruct (step_usable _ _ _ _ U E) as [U' LN]. split; [exact U'|]. split; [lia|].
  assert (Dec : names_rh a c \/ ~ names_rh a c) by (destruct c; cbn [names_rh]; try (right; tauto); lia).
  destruct Dec as [Nm|Nm].
  - destruct c; cbn [names_rh] in Nm; try contradiction; subst; [congruence| | | |];
      cbn [step77] in E; unfold rh_setter, on_rh in E; rewrite Ee in E; cbn [rh_do] in E; try rewrite Ro in E;
      cbn [guarded unguarded fst snd bind] in E; injection E as <- <-; eexists; cbn [with_rh fm_rhs]; rewrite put_same, !last_of_snoc, subs_snoc;
      (split; [reflexivity|]); cbn [rs_ro rs_hdr rh_run rh_det rh_desc rh_subs hrun_given hdet_given hdesc_given fst subs_given flat_map];
      rewrite ?Z.eqb_refl; cbn [or_else]; rewrite ?app_nil_r; rewrite ?H4; repeat split; auto.
  - exists e. rewrite (rh_frame _ _ _ _ _ A Nm E), !last_of_snoc, subs_snoc.
    assert (X : hrun_given a (c, Ok o) = None /\ hdet_given a (c, Ok o) = None /\ hdesc_given a (c, Ok o) = None /\ subs_given a [(c, Ok o)] = []).
    { destruct c; cbn [names_rh] in Nm; cbn [hrun_given hdet_given hdesc_given fst subs_given flat_map app]; try (repeat split; reflexivity);
        rewrite (proj2 (Z.eqb_neq _ _) Nm); repeat split; reflexivity. }
    destruct X as (-> & -> & -> & ->). rewrite app_nil_r. repeat split; auto.
Qed.
Lemma rh_after : forall s cs h s', usable_memory s -> run77 fadd s (Lcrhdcreate :: cs) = (h, s') -> ~ In (Lcrhddelete (fm_next s)) cs -> all_returned h ->
  rh_inv (fm_next s) h s'.
Proof.
  intros s cs h s' U R ND A. destruct (run_first s Lcrhdcreate cs h s' (OAddr (fm_next s)) eq_refl R) as (h1 & -> & R1).
  inversion A; subst. apply (run_inv (rh_inv (fm_next s)) (fun c => c <> Lcrhddelete (fm_next s))) with (h0 := [(Lcrhdcreate, Ok (OAddr (fm_next s)))]) (cs := cs) (s := snd (step77 fadd s Lcrhdcreate)); auto.
  - intros. eapply rh_step_inv; eauto.
  - apply Forall_forall. intros c Hc ->. exact (ND Hc).
  - destruct (step_usable s Lcrhdcreate _ _ U eq_refl) as [U1 _]. split; [exact U1|]. split; [destruct U; cbn; lia|].
    exists new_rstate. cbn. rewrite put_same. repeat split; auto.
Qed.
Theorem run_header_functions : forall s cs h s', usable_memory s -> run77 fadd s (Lcrhdcreate :: cs) = (h, s') -> ~ In (Lcrhddelete (fm_next s)) cs -> all_returned h ->
  let a := fm_next s in
  returns77 fadd s' (Lcrhdgetrunnumber a) (ONum (or_else (last_of (hrun_given a) h) 0)) /\
  returns77 fadd s' (Lcrhdgetdetectorname a) (OText (or_else (last_of (hdet_given a) h) [])) /\
  returns77 fadd s' (Lcrhdgetdescription a) (OText (or_else (last_of (hdesc_given a) h) [])) /\
  returns77 fadd s' (Lcrhdgetactivesubdetectors a) (OTexts (subs_given a h)) /\
  (forall v, returns77 fadd s' (Lcrhdsetrunnumber a v) (OStatus 1)) /\ (forall v, returns77 fadd s' (Lcrhdsetdetectorname a v) (OStatus 1)) /\
  (forall v, returns77 fadd s' (Lcrhdsetdescription a v) (OStatus 1)) /\ (forall v, returns77 fadd s' (Lcrhdaddactivesubdetector a v) (OStatus 1)).
Proof.
  intros s cs h s' U R ND A a. destruct (rh_after _ _ _ _ U R ND A) as (U' & L & e & Ee & Ro & H1 & H2 & H3 & H4).
  fold a in Ee, H1, H2, H3, H4. unfold returns77. cbn [step77]. unfold rh_setter, on_rh. rewrite Ee. cbn [rh_do]. rewrite Ro. cbn [guarded unguarded fst snd bind].
  rewrite H1, H2, H3, H4. split; [reflexivity|].
  split. { rewrite given_c_str; [reflexivity| |reflexivity]. intros [c r] v. unfold hdet_given. cbn [fst]. destruct c; try discriminate.
    destruct (r0 =? a); [|discriminate]. intros X. injection X as <-. apply c_str_idem. }
  split. { rewrite given_c_str; [reflexivity| |reflexivity]. intros [c r] v. unfold hdesc_given. cbn [fst]. destruct c; try discriminate.
    destruct (r0 =? a); [|discriminate]. intros X. injection X as <-. apply c_str_idem. }
  repeat split.
Qed.

(** ** Navigators *)
Definition nav_inv (f t : bytes) (a : addr) (h : list (fcall77 * Res out77)) (s : fmemory) : Prop :=
  usable_memory s /\ 0 < a < fm_next s /\
  exists n cs, fm_navs s a = Some n /\ nav_run fadd (mkNav [] [] f t) cs = Ok n /\
    forall x y, weight_after fadd cs x y = weight_after fadd (relations_given a h) x y.
Lemma nav_run_snoc : forall cs n c, nav_run fadd n (cs ++ [c]) = do n' <- nav_run fadd n cs; nav_do fadd n' c.
Proof.
  induction cs as [|x cs IH]; intros n c; cbn [nav_run app bind]; [destruct (nav_do fadd n c); reflexivity|].
  destruct (nav_do fadd n x) as [n1| |]; cbn [bind]; [apply IH|reflexivity|reflexivity].
Qed.
Lemma rel_snoc : forall a h cr, relations_given a (h ++ [cr]) = relations_given a h ++ relations_given a [cr].
Proof. intros. unfold relations_given. apply flat_map_app. Qed.
Lemma weight_same : forall cs ds l f t, weight_after fadd cs f t = weight_after fadd ds f t -> weight_after fadd (cs ++ l) f t = weight_after fadd (ds ++ l) f t.
Proof. intros cs ds l f t H. unfold weight_after in *. rewrite !fold_left_app, H. reflexivity. Qed.
Lemma nav_step_inv : forall f t a h s c o s', c <> Lcrnvdelete a -> nav_inv f t a h s -> step77 fadd s c = (Ok o, s') -> nav_inv f t a (h ++ [(c, Ok o)]) s'.
Proof.
  intros f t a h s c o s' ND (U & [A0 A] & n & cs & En & Rn & W) E.
  destruct (step_usable _ _ _ _ U E) as [U' LN]. split; [exact U'|]. split; [lia|].
  assert (Dec : names_nav a c \/ ~ names_nav a c) by (destruct c; cbn [names_nav]; try (right; tauto); lia).
  destruct Dec as [Nm|Nm].
  - destruct c; cbn [names_nav] in Nm; try contradiction; subst; [congruence| | | | | |];
      cbn [step77] in E; unfold on_nav in E; rewrite En in E.
    + injection E as <- <-. eexists. exists (cs ++ [NAskTo o0]). cbn [with_nav fm_navs]. rewrite put_same, nav_run_snoc, Rn, rel_snoc, app_nil_r.
      split; [reflexivity|]. split; [reflexivity|]. intros x y. rewrite <- W. unfold weight_after. rewrite fold_left_app. reflexivity.
    + injection E as <- <-. eexists. exists (cs ++ [NAskFrom o0]). cbn [with_nav fm_navs]. rewrite put_same, nav_run_snoc, Rn, rel_snoc, app_nil_r.
      split; [reflexivity|]. split; [reflexivity|]. intros x y. rewrite <- W. unfold weight_after. rewrite fold_left_app. reflexivity.
    + injection E as <- <-. eexists. exists (cs ++ [NAskToWeights o0]). cbn [with_nav fm_navs]. rewrite put_same, nav_run_snoc, Rn, rel_snoc, app_nil_r.
      split; [reflexivity|]. split; [reflexivity|]. intros x y. rewrite <- W. unfold weight_after. rewrite fold_left_app. reflexivity.
    + injection E as <- <-. eexists. exists (cs ++ [NAskFromWeights o0]). cbn [with_nav fm_navs]. rewrite put_same, nav_run_snoc, Rn, rel_snoc, app_nil_r.
      split; [reflexivity|]. split; [reflexivity|]. intros x y. rewrite <- W. unfold weight_after. rewrite fold_left_app. reflexivity.
    + destruct (nav_add fadd n f0 t0 w) as [x'| |] eqn:EA; try discriminate E. injection E as <- <-. exists x', (cs ++ [NAdd f0 t0 w]).
      cbn [with_nav fm_navs]. rewrite put_same, nav_run_snoc, Rn, rel_snoc. split; [reflexivity|]. split; [exact EA|].
      cbn [relations_given flat_map fst]. rewrite Z.eqb_refl. cbn [app]. intros x y. apply weight_same. apply W.
    + destruct (nav_remove n f0 t0) as [x'| |] eqn:EA; try discriminate E. injection E as <- <-. exists x', (cs ++ [NRemove f0 t0]).
      cbn [with_nav fm_navs]. rewrite put_same, nav_run_snoc, Rn, rel_snoc. split; [reflexivity|]. split; [exact EA|].
      cbn [relations_given flat_map fst]. rewrite Z.eqb_refl. cbn [app]. intros x y. apply weight_same. apply W.
  - exists n, cs. rewrite (nav_frame _ _ _ _ _ A Nm E), rel_snoc.
    replace (relations_given a [(c, Ok o)]) with (@nil nav_call); [rewrite app_nil_r; auto|].
    destruct c; cbn [names_nav] in Nm; cbn [relations_given flat_map fst app]; try reflexivity; rewrite (proj2 (Z.eqb_neq _ _) Nm); reflexivity.
Qed.
Lemma nav_after : forall s f t cs h s', usable_memory s -> run77 fadd s (Lcrnvcreate f t :: cs) = (h, s') -> ~ In (Lcrnvdelete (fm_next s)) cs -> all_returned h ->
  nav_inv (c_str f) (c_str t) (fm_next s) h s'.
Proof.
  intros s f t cs h s' U R ND A. destruct (run_first s (Lcrnvcreate f t) cs h s' (OAddr (fm_next s)) eq_refl R) as (h1 & -> & R1).
  inversion A; subst. apply (run_inv (nav_inv (c_str f) (c_str t) (fm_next s)) (fun c => c <> Lcrnvdelete (fm_next s))) with (h0 := [(Lcrnvcreate f t, Ok (OAddr (fm_next s)))]) (cs := cs) (s := snd (step77 fadd s (Lcrnvcreate f t))); auto.
  - intros. eapply nav_step_inv; eauto.
  - apply Forall_forall. intros c Hc ->. exact (ND Hc).
  - destruct (step_usable s (Lcrnvcreate f t) _ _ U eq_refl) as [U1 _]. split; [exact U1|]. split; [destruct U; cbn; lia|].
    eexists. exists []. cbn. rewrite put_same. repeat split.
Qed.
Lemma answers_of : forall s a n (wt : addr -> addr -> option Z), fm_navs s a = Some n ->
  (forall x, (length (to_objects n x) = length (to_weights n x) /\ NoDup (to_objects n x) /\
     forall b w, related (to_objects n x) (to_weights n x) b w <-> wt x b = Some w) /\
    (length (from_objects n x) = length (from_weights n x) /\ NoDup (from_objects n x) /\
     forall b w, related (from_objects n x) (from_weights n x) b w <-> wt b x = Some w)) -> navigator_answers fadd s a wt.
Proof.
  intros s a n wt En H x. destruct (H x) as ((A1 & A2 & A3) & (B1 & B2 & B3)).
  exists (to_objects n x), (to_weights n x), (from_objects n x), (from_weights n x).
  unfold returns77. cbn [step77]. unfold on_nav. rewrite En. repeat (split; [reflexivity|]). auto 10.
Qed.
Theorem navigator_functions : forall s f t cs h s', usable_memory s -> run77 fadd s (Lcrnvcreate f t :: cs) = (h, s') -> ~ In (Lcrnvdelete (fm_next s)) cs -> all_returned h ->
  let a := fm_next s in
  returns77 fadd s' (Lcrnvgetfromtype a) (OText (c_str f)) /\ returns77 fadd s' (Lcrnvgettotype a) (OText (c_str t)) /\
  (forall x y w, returns77 fadd s' (Lcrnvgaddrelation a x y w) (OStatus 1)) /\ (forall x y, returns77 fadd s' (Lcrnvgremoverelation a x y) (OStatus 1)) /\
  navigator_answers fadd s' a (weight_after fadd (relations_given a h)).
Proof.
  intros s f t cs h s' U R ND A a. destruct (nav_after _ _ _ _ _ _ U R ND A) as (U' & L & n & ds & En & Rn & W). fold a in En, W.
  destruct (nav_answers fadd (c_str f) (c_str t) ds) as (n1 & Rn1 & F1 & T1 & An). rewrite Rn in Rn1. injection Rn1 as <-.
  unfold returns77. cbn [step77]. unfold on_nav. rewrite En, F1, T1, !c_str_idem. split; [reflexivity|]. split; [reflexivity|].
  split. { intros x y w. destruct (nav_answers fadd (c_str f) (c_str t) (ds ++ [NAdd x y w])) as (n2 & Rn2 & _).
    rewrite nav_run_snoc, Rn in Rn2. cbn [bind nav_do] in Rn2. rewrite Rn2. reflexivity. }
  split. { intros x y. destruct (nav_answers fadd (c_str f) (c_str t) (ds ++ [NRemove x y])) as (n2 & Rn2 & _).
    rewrite nav_run_snoc, Rn in Rn2. cbn [bind nav_do] in Rn2. rewrite Rn2. reflexivity. }
  apply (answers_of _ _ n); [exact En|]. intros x. destruct (An x) as ((A1 & A2 & A3) & (B1 & B2 & B3)).
  split; (split; [assumption|split; [assumption|]]); intros b w; rewrite <- W; [apply A3|apply B3].
Qed.

(** a collection made from a navigator, and a navigator made from that *)
Lemma fst_combine : forall (l : list addr) (ws : list Z), length l = length ws -> map fst (combine l ws) = l.
Proof. induction l as [|x l IH]; intros [|v ws] H; try discriminate; [reflexivity|]. cbn. rewrite IH by (injection H; auto). reflexivity. Qed.
Theorem navigator_round_trip : forall s f t cs h s', usable_memory s -> run77 fadd s (Lcrnvcreate f t :: cs) = (h, s') -> ~ In (Lcrnvdelete (fm_next s)) cs -> all_returned h ->
  let a := fm_next s in let b := fm_next s' in
  exists s1 s2, step77 fadd s' (Lcrnvcreatecollection a) = (Ok (OAddr b), s1) /\ step77 fadd s1 (Lcrnvcreatefromcollection b) = (Ok (OAddr (b + 1)), s2) /\
    returns77 fadd s2 (Lcrnvgetfromtype (b + 1)) (OText (c_str f)) /\ returns77 fadd s2 (Lcrnvgettotype (b + 1)) (OText (c_str t)) /\
    navigator_answers fadd s2 (b + 1) (weight_after fadd (relations_given a h)) /\
    navigator_answers fadd s2 a (weight_after fadd (relations_given a h)).
Proof.
  intros s f t cs h s' U R ND A a b. destruct (nav_after _ _ _ _ _ _ U R ND A) as (U' & L & n & ds & En & Rn & W). fold a in En, W, L.
  destruct (nav_answers fadd (c_str f) (c_str t) ds) as (n1 & Rn1 & F1 & T1 & An). rewrite Rn in Rn1. injection Rn1 as <-.
  destruct (collection_ok fadd (c_str f) (c_str t) ds n Rn) as (c & n' & Ec & _ & En' & F' & T' & Q).
  cbn [step77]. unfold on_nav. rewrite En, Ec. eexists. eexists. split; [reflexivity|]. cbn [fm_cols]. fold b. rewrite put_same, En'. cbn [fm_next]. split; [reflexivity|].
  unfold returns77. cbn [step77 fm_navs]. unfold on_nav. cbn [fm_navs]. rewrite put_same, F', T', !c_str_idem. split; [reflexivity|]. split; [reflexivity|].
  split.
  - apply (answers_of _ _ n'); [cbn [fm_navs]; apply put_same|]. intros x. destruct (An x) as ((A1 & A2 & A3) & (B1 & B2 & B3)). destruct (Q x) as (Q1 & Q2 & Q3 & Q4).
    rewrite Q1, Q2. split; [split; [exact A1|split; [exact A2|]]; intros y w; rewrite <- W; apply A3|]. split; [exact Q3|]. split.
    + rewrite <- (fst_combine _ _ Q3). apply (Permutation_NoDup (l := map fst (combine (from_objects n x) (from_weights n x)))).
      * apply Permutation_map, Permutation_sym. exact Q4.
      * rewrite (fst_combine _ _ B1). exact B2.
    + intros y w. rewrite related_combine, <- W, <- B3, related_combine. split; apply Permutation_in; [exact Q4|apply Permutation_sym; exact Q4].
  - apply (answers_of _ _ n); [cbn [fm_navs]; rewrite put_other; [exact En|unfold b; lia]|]. intros x. destruct (An x) as ((A1 & A2 & A3) & (B1 & B2 & B3)).
    split; (split; [assumption|split; [assumption|]]); intros y w; rewrite <- W; [apply A3|apply B3].
Qed.

Theorem programs_usable : forall cs h s', run77 fadd empty_memory cs = (h, s') -> all_returned h -> usable_memory s'.
Proof.
  intros cs h s' R A.
  assert (St : forall (h1 : list (fcall77 * Res out77)) s c o s1, True -> usable_memory s -> step77 fadd s c = (Ok o, s1) -> usable_memory s1).
  { intros h1 s c o s1 _ U E. exact (proj1 (step_usable _ _ _ _ U E)). }
  refine (run_inv (fun _ s => usable_memory s) (fun _ => True) St cs [] empty_memory h s' _ _ R A).
  - apply Forall_forall. auto.
  - split; [cbn; lia|]. cbn. intros a [X|[X|[X|X]]]; congruence.
Qed.
End P.
