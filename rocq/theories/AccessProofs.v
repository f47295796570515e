(** * Proofs about track states, hit contributions and read only data *)
From Coq Require Import ZArith List Bool Lia.
From Verif Require Import Bytes StrMap SioModel ObjModel FlagModel ImplModel ImplSpec ImplProofs.
Import ListNotations.
Open Scope Z_scope.

(** ** Track states *)

(** the locations other than AtOther *)
Definition locs (l : list tstate) : list Z := filter (fun x => negb (x =? 0)) (map ts_loc l).

Lemma locs_app l l' : locs (l ++ l') = locs l ++ locs l'.
Proof. unfold locs. rewrite map_app, filter_app. reflexivity. Qed.

Lemma get_state_none l loc : get_track_state l loc = None <-> ~ In loc (map ts_loc l).
Proof.
  unfold get_track_state. induction l as [|t l IH]; cbn [find map In]; [tauto|].
  destruct (Z.eqb_spec (ts_loc t) loc) as [E|N]; [split; [discriminate|tauto]|]. rewrite IH. tauto.
Qed.

Lemma add_state_cases l t :
  (add_track_state l t = Ok (l ++ [t]) /\ (ts_loc t = 0 \/ get_track_state l (ts_loc t) = None)) \/
  (add_track_state l t = Throw LException /\ ts_loc t <> 0 /\ get_track_state l (ts_loc t) <> None).
Proof.
  unfold add_track_state. destruct (Z.eqb_spec (ts_loc t) 0) as [E|N]; cbn [negb andb]; [left; auto|].
  destruct (get_track_state l (ts_loc t)); [right|left]; auto. split; [reflexivity|]. split; [exact N|discriminate].
Qed.

Lemma add_state_nodup l t l' : NoDup (locs l) -> add_track_state l t = Ok l' -> NoDup (locs l').
Proof.
  intros H E. destruct (add_state_cases l t) as [[E2 C]|[E2 _]]; rewrite E2 in E; [|discriminate]. injection E as <-.
  rewrite locs_app. unfold locs at 2. cbn [map filter]. destruct (Z.eqb_spec (ts_loc t) 0) as [Z0|N]; cbn [negb];
    [rewrite app_nil_r; exact H|].
  destruct C as [C|C]; [contradiction|]. apply NoDup_Add with (a := ts_loc t) (l := locs l); [|split; [exact H|]].
  - replace (locs l) with (locs l ++ []) at 1 by apply app_nil_r. apply Add_app.
  - intros Hin. apply filter_In in Hin. apply get_state_none in C. tauto.
Qed.

Lemma with_one_locs l f l' : (forall t t', f t = Ok t' -> ts_loc t' = ts_loc t) -> with_one_state l f = Ok l' ->
  locs l' = locs l.
Proof.
  intros Hf. unfold with_one_state. destruct l as [|t [|t2 l]]; [| |discriminate]; cbn [bind].
  - destruct (f new_tstate) as [t|e|u] eqn:E; try discriminate. intros G. injection G as <-. apply Hf in E.
    unfold locs. cbn [map filter]. rewrite E. reflexivity.
  - destruct (f t) as [t'|e|u] eqn:E; try discriminate. intros G. injection G as <-. apply Hf in E.
    unfold locs. cbn [map filter]. rewrite E. reflexivity.
Qed.

Lemma trk_locs o c : raw_states_call c = false -> NoDup (locs (tr_states o)) ->
  NoDup (locs (tr_states (fst (trk_do false o c)))).
Proof.
  intros Hc H. destruct c; try discriminate; cbn [trk_do]; unfold guarded, unguarded; try exact H.
  - destruct (bitset_set _ _ _); cbn [bind]; exact H.
  - cbn [bind]. destruct (with_one_state _ _) as [l|e|u] eqn:E; try exact H. cbn [bind fst tr_states].
    apply with_one_locs in E; [rewrite E; exact H|]. intros t t' G. injection G as <-. reflexivity.
  - cbn [bind]. destruct (with_one_state _ _) as [l|e|u] eqn:E; try exact H. cbn [bind fst tr_states].
    apply with_one_locs in E; [rewrite E; exact H|]. intros t t' G. injection G as <-. reflexivity.
  - cbn [bind]. destruct (with_one_state _ _) as [l|e|u] eqn:E; try exact H. cbn [bind fst tr_states].
    apply with_one_locs in E; [rewrite E; exact H|]. intros t t' G. injection G as <-. reflexivity.
  - cbn [bind]. destruct (with_one_state _ _) as [l|e|u] eqn:E; try exact H. cbn [bind fst tr_states].
    apply with_one_locs in E; [rewrite E; exact H|]. intros t t' G. injection G as <-. reflexivity.
  - cbn [bind]. destruct (with_one_state _ _) as [l|e|u] eqn:E; try exact H. cbn [bind fst tr_states].
    apply with_one_locs in E; [rewrite E; exact H|]. intros t t' G. injection G as <-. reflexivity.
  - cbn [bind]. destruct (with_one_state _ _) as [l|e|u] eqn:E; try exact H. cbn [bind fst tr_states].
    apply with_one_locs in E; [rewrite E; exact H|]. intros t t'. cbn [bind]. destruct (arr 15 v); try discriminate.
    cbn [bind]. destruct (Nat.leb _ _); [|discriminate]. intros G. injection G as <-. reflexivity.
  - cbn [bind]. destruct (with_one_state _ _) as [l|e|u] eqn:E; try exact H. cbn [bind fst tr_states].
    apply with_one_locs in E; [rewrite E; exact H|]. intros t t'. cbn [bind]. destruct (arr 3 v); try discriminate.
    intros G. injection G as <-. reflexivity.
  - cbn [bind]. destruct (add_track_state _ _) as [l|e|u] eqn:E; try exact H. cbn [bind fst tr_states].
    exact (add_state_nodup _ _ _ H E).
Qed.

Lemma track_snoc cs c : track_after (cs ++ [c]) = fst (trk_do false (track_after cs) c).
Proof. unfold track_after. rewrite fold_left_app. reflexivity. Qed.

Lemma locs_unique_nth l i j t t' : NoDup (locs l) -> nth_error l i = Some t -> nth_error l j = Some t' ->
  ts_loc t = ts_loc t' -> ts_loc t <> 0 -> i = j.
Proof.
  revert i j. induction l as [|x l IH]; intros i j H Hi Hj E N; [destruct i; discriminate|].
  assert (Hl : NoDup (locs l)).
  { unfold locs in *. cbn [map filter] in H. destruct (negb (ts_loc x =? 0)); [inversion H; assumption|exact H]. }
  assert (Nx : forall k y, nth_error l k = Some y -> ts_loc y = ts_loc x -> ts_loc x <> 0 -> False).
  { intros k y Hk Ey Nx. unfold locs in H. cbn [map filter] in H. destruct (Z.eqb_spec (ts_loc x) 0); [contradiction|].
    cbn [negb] in H. inversion H as [|? ? Hn _]; subst. apply Hn. apply filter_In. split.
    - rewrite <- Ey. apply in_map. exact (nth_error_In _ _ Hk).
    - destruct (Z.eqb_spec (ts_loc x) 0); [contradiction|reflexivity]. }
  destruct i as [|i], j as [|j]; cbn [nth_error] in Hi, Hj; try reflexivity.
  - injection Hi as ->. exfalso. apply (Nx _ _ Hj); [symmetry; exact E|exact N].
  - injection Hj as ->. exfalso. apply (Nx _ _ Hi); [exact E|]. congruence.
  - f_equal. exact (IH i j Hl Hi Hj E N).
Qed.

Lemma states_unique cs : Forall (fun c => raw_states_call c = false) cs -> NoDup (locs (tr_states (track_after cs))).
Proof.
  induction cs as [|c cs IH] using rev_ind; intros H; [constructor|]. apply Forall_app in H. destruct H as [H1 H2].
  inversion H2 as [|? ? Hc _]; subst. rewrite track_snoc. apply trk_locs; [exact Hc|exact (IH H1)].
Qed.

Lemma states_unique_ok cs i j t t' : Forall (fun c => raw_states_call c = false) cs ->
  nth_error (tr_states (track_after cs)) i = Some t -> nth_error (tr_states (track_after cs)) j = Some t' ->
  ts_loc t = ts_loc t' -> ts_loc t <> 0 -> i = j.
Proof. intros H. apply locs_unique_nth. exact (states_unique cs H). Qed.

Lemma trk_states_kept o c : states_call c = false -> tr_states (fst (trk_do false o c)) = tr_states o.
Proof.
  intros H. destruct c; try discriminate; cbn [trk_do]; unfold guarded, unguarded; try reflexivity.
  destruct (bitset_set _ _ _); cbn [bind]; reflexivity.
Qed.

Definition add_call (c : trk_call) : Prop := match c with TRK_addTrackState _ => True | _ => states_call c = false end.

Lemma first_added_snoc cs c loc :
  first_added (cs ++ [c]) loc =
  match first_added cs loc with
  | Some t => Some t
  | None => match c with TRK_addTrackState t => if ts_loc t =? loc then Some t else None | _ => None end
  end.
Proof.
  induction cs as [|c0 cs IH]; cbn [app first_added].
  - destruct c; try reflexivity.
  - destruct c0; try exact IH. destruct (ts_loc v =? loc); [reflexivity|exact IH].
Qed.

Lemma find_snoc {A} (f : A -> bool) l x : find f (l ++ [x]) = match find f l with Some y => Some y | None => if f x then Some x else None end.
Proof. induction l as [|y l IH]; cbn [app find]; [reflexivity|]. destruct (f y); [reflexivity|exact IH]. Qed.

Lemma state_added cs loc : Forall add_call cs -> get_track_state (tr_states (track_after cs)) loc = first_added cs loc.
Proof.
  induction cs as [|c cs IH] using rev_ind; intros H; [reflexivity|]. apply Forall_app in H. destruct H as [H1 H2].
  inversion H2 as [|? ? Hc _]; subst. specialize (IH H1). rewrite track_snoc, first_added_snoc.
  assert (K : states_call c = false -> get_track_state (tr_states (fst (trk_do false (track_after cs) c))) loc =
     match first_added cs loc with Some t => Some t | None => None end).
  { intros E. rewrite trk_states_kept by exact E. rewrite IH. destruct (first_added cs loc); reflexivity. }
  destruct c; try (apply K; exact Hc). clear K.
  cbn [trk_do]. unfold guarded, unguarded. cbn [bind].
  destruct (add_state_cases (tr_states (track_after cs)) v) as [[E C]|(E & N & S)]; rewrite E; cbn [bind fst tr_states].
  - unfold get_track_state in *. rewrite find_snoc, IH. reflexivity.
  - rewrite IH. destruct (first_added cs loc) eqn:F; [reflexivity|]. destruct (Z.eqb_spec (ts_loc v) loc) as [L|]; [|reflexivity].
    rewrite L in S. rewrite IH in S. contradiction.
Qed.

Lemma state_rejected o t : 
  (ts_loc t = 0 \/ get_track_state (tr_states o) (ts_loc t) = None) /\
  snd (trk_do false o (TRK_addTrackState t)) = Ok tt /\
  tr_states (fst (trk_do false o (TRK_addTrackState t))) = tr_states o ++ [t]
  \/
  ts_loc t <> 0 /\ get_track_state (tr_states o) (ts_loc t) <> None /\
  trk_do false o (TRK_addTrackState t) = (o, Throw LException).
Proof.
  cbn [trk_do]. unfold guarded, unguarded. cbn [bind].
  destruct (add_state_cases (tr_states o) t) as [[E C]|(E & N & S)]; rewrite E; cbn [bind fst snd tr_states]; auto.
Qed.

(** ** Contributions to a hit *)
Section Hits.
Context (fadd : Z -> Z -> Z).
Local Notation after := (hit_after fadd).

Lemma after_snoc o cs c : after o (cs ++ [c]) = fst (sch_do fadd false (after o cs) c).
Proof. unfold hit_after. rewrite fold_left_app. reflexivity. Qed.

Definition contribution (c : sch_call) : Prop := is_short c \/ is_detailed c.

Lemma arr3_ok s : length s = 3%nat -> arr 3 s = Ok s.
Proof. intros H. unfold arr. rewrite H. cbn [Nat.leb]. rewrite <- H, firstn_all. reflexivity. Qed.

Lemma hit_energy o cs : Forall contribution cs ->
  sc_energy (after o cs) = fold_left fadd (flat_map energy_of cs) (sc_energy o).
Proof.
  induction cs as [|c cs IH] using rev_ind; intros H; [reflexivity|]. apply Forall_app in H. destruct H as [H1 H2].
  inversion H2 as [|? ? Hc _]; subst. rewrite after_snoc, flat_map_app, fold_left_app, <- (IH H1).
  destruct Hc as [Hc|Hc]; destruct c; try contradiction; try reflexivity.
  cbn [sch_do]. unfold guarded, unguarded. cbn [bind]. destruct step as [s|]; cbn [is_detailed] in Hc; [rewrite (arr3_ok s Hc)|]; reflexivity.
Qed.

Lemma detailed_entries o cs : Forall is_detailed cs -> sc_cont (after o cs) = sc_cont o ++ flat_map detailed_entry cs.
Proof.
  induction cs as [|c cs IH] using rev_ind; intros H; [cbn [flat_map]; rewrite app_nil_r; reflexivity|]. apply Forall_app in H. destruct H as [H1 H2].
  inversion H2 as [|? ? Hc _]; subst. rewrite after_snoc, flat_map_app, app_assoc, <- (IH H1).
  destruct c; try contradiction. cbn [sch_do]. unfold guarded, unguarded. cbn [bind].
  destruct step as [s|]; cbn [is_detailed] in Hc; [rewrite (arr3_ok s Hc)|]; reflexivity.
Qed.

(** the entry of a particle *)
Definition entry (l : list mccont) (p : addr) : option mccont := find (fun c => co_part c =? p) l.

Lemma entry_none l p : entry l p = None <-> ~ In p (map co_part l).
Proof.
  unfold entry. induction l as [|t l IH]; cbn [find map In]; [tauto|].
  destruct (Z.eqb_spec (co_part t) p) as [E|N]; [split; [discriminate|tauto]|]. rewrite IH. tauto.
Qed.

Lemma add_short_entry l p en t q : NoDup (map co_part l) ->
  entry (add_short fadd l p en t) q =
  if p =? q then Some (match entry l p with
                       | Some c => mkCont p (fadd (co_energy c) en) (co_time c) (co_length c) (co_pdg c) (co_pos c)
                       | None => mkCont p en t 0 0 zeros3
                       end)
  else entry l q.
Proof.
  unfold entry. intros H. induction l as [|c l IH]; cbn [add_short find map] in *.
  - cbn [co_part]. destruct (Z.eqb_spec p q); reflexivity.
  - inversion H as [|? ? Hn Hl]; subst. destruct (Z.eqb_spec (co_part c) p) as [E|N].
    + cbn [find co_part]. rewrite E. destruct (Z.eqb_spec p q) as [->|Nq]; [reflexivity|reflexivity].
    + cbn [find]. destruct (Z.eqb_spec (co_part c) q) as [E|Nq].
      * destruct (Z.eqb_spec p q) as [->|_]; [contradiction|reflexivity].
      * exact (IH Hl).
Qed.

Lemma add_short_parts l p en t :
  map co_part (add_short fadd l p en t) = if existsb (Z.eqb p) (map co_part l) then map co_part l else map co_part l ++ [p].
Proof.
  induction l as [|c l IH]; cbn [add_short map existsb app]; [reflexivity|].
  destruct (Z.eqb_spec (co_part c) p) as [E|N].
  - cbn [map co_part]. destruct (Z.eqb_spec p (co_part c)); [reflexivity|congruence].
  - cbn [map]. rewrite IH. destruct (Z.eqb_spec p (co_part c)); [congruence|]. cbn [orb]. destruct (existsb (Z.eqb p) (map co_part l)); reflexivity.
Qed.

Lemma existsb_In p l : existsb (Z.eqb p) l = true <-> In p l.
Proof.
  rewrite existsb_exists. split; [intros (x & Hx & E); apply Z.eqb_eq in E; subst; exact Hx|intros H; exists p; split; [exact H|apply Z.eqb_refl]].
Qed.

Lemma add_short_nodup l p en t : NoDup (map co_part l) -> NoDup (map co_part (add_short fadd l p en t)).
Proof.
  intros H. rewrite add_short_parts. destruct (existsb (Z.eqb p) (map co_part l)) eqn:E; [exact H|].
  apply NoDup_Add with (a := p) (l := map co_part l); [|split; [exact H|]].
  - rewrite <- (app_nil_r (map co_part l)) at 1. apply Add_app.
  - intros Hin. apply existsb_In in Hin. congruence.
Qed.

Lemma short_entry_snoc p l e t :
  short_entry fadd p (l ++ [(e, t)]) =
  Some (match short_entry fadd p l with
        | Some c => mkCont p (fadd (co_energy c) e) (co_time c) (co_length c) (co_pdg c) (co_pos c)
        | None => mkCont p e t 0 0 zeros3
        end).
Proof.
  destruct l as [|[e0 t0] l]; [reflexivity|]. cbn [app short_entry co_energy co_time co_length co_pdg co_pos].
  rewrite map_app, fold_left_app. reflexivity.
Qed.

Lemma short_ok o cs : sc_cont o = [] -> Forall is_short cs ->
  NoDup (map co_part (sc_cont (after o cs))) /\
  forall p, entry (sc_cont (after o cs)) p = short_entry fadd p (flat_map (from_particle p) cs).
Proof.
  intros H0. induction cs as [|c cs IH] using rev_ind; intros H.
  - change (after o []) with o. rewrite H0. split; [constructor|intros p; reflexivity].
  - apply Forall_app in H. destruct H as [H1 H2]. inversion H2 as [|? ? Hc _]; subst. destruct (IH H1) as [N E].
    rewrite after_snoc. destruct c; try contradiction. cbn [sch_do]. unfold guarded, unguarded. cbn [bind fst sc_cont]. split.
    + apply add_short_nodup. exact N.
    + intros q. rewrite add_short_entry by exact N. rewrite flat_map_app. cbn [flat_map from_particle]. rewrite app_nil_r.
      destruct (Z.eqb_spec p q) as [->|Nq]; [rewrite short_entry_snoc, <- E; reflexivity|]. rewrite app_nil_r. apply E.
Qed.

Lemma add_detailed_parts o c : is_detailed c -> map co_part (sc_cont (fst (sch_do fadd false o c))) = map co_part (sc_cont o) ++ part_of c.
Proof.
  intros Hc. destruct c; try contradiction. cbn [sch_do]. unfold guarded, unguarded. cbn [bind].
  destruct step as [s|]; cbn [is_detailed] in Hc; [rewrite (arr3_ok s Hc)|]; cbn [fst sc_cont bind]; rewrite map_app; reflexivity.
Qed.

Lemma parts_ok o cs : Forall contribution cs -> forall p,
  In p (map co_part (sc_cont (after o cs))) <-> In p (map co_part (sc_cont o)) \/ In p (flat_map part_of cs).
Proof.
  induction cs as [|c cs IH] using rev_ind; intros H p; [cbn [flat_map In]; tauto|]. apply Forall_app in H. destruct H as [H1 H2].
  inversion H2 as [|? ? Hc _]; subst. specialize (IH H1 p). rewrite after_snoc, flat_map_app, in_app_iff.
  cbn [flat_map]. rewrite app_nil_r. destruct Hc as [Hc|Hc].
  - destruct c; try contradiction. cbn [sch_do]. unfold guarded, unguarded. cbn [bind fst sc_cont part_of]. rewrite add_short_parts.
    destruct (existsb (Z.eqb p0) _) eqn:E.
    + apply existsb_In in E. cbn [In]. split; [tauto|]. intros [A|[A|[A|A]]]; try tauto. subst. exact E.
    + rewrite in_app_iff. tauto.
  - rewrite add_detailed_parts by exact Hc. rewrite in_app_iff. tauto.
Qed.
End Hits.

(** ** Read only data *)
Section Locked.
Context (fadd : Z -> Z -> Z) (srt : forall A : Type, (A -> Z) -> list A -> list A).
Local Notation ex := (exec fadd srt).
Local Notation rn := (run fadd srt).
Local Notation odo := (obj_do fadd srt).

Lemma odo_checked o e : class_of e o -> args_ok e -> unchecked_elem e = false -> odo true o e = (o, Throw LReadOnly).
Proof.
  intros Hc Ha Hu. destruct o; destruct e; try contradiction; try discriminate; try reflexivity;
  cbn [obj_do]; destruct c; try discriminate; try reflexivity.
  - cbn [sth_do]. unfold arr. cbn [args_ok] in Ha. destruct (Nat.leb_spec 3 (length v)); [reflexivity|lia].
  - cbn [vx_do]. unfold arr. cbn [args_ok] in Ha. destruct (Nat.leb_spec 3 (length v)); [reflexivity|lia].
Qed.

Lemma coll_checked c x : unchecked_coll x = false -> coll_do true c x = (c, Throw LReadOnly).
Proof. destruct x; try discriminate; reflexivity. Qed.

(** which objects are locked: the class does not change *)
Lemma odo_type ro o e : type_of (fst (odo ro o e)) = type_of o.
Proof.
  destruct o; destruct e; try reflexivity; cbn [obj_do];
  lazymatch goal with
  | |- context [ch_do ?a ?b ?c] => destruct (ch_do a b c); reflexivity
  | |- context [rch_do ?a ?b ?c] => destruct (rch_do a b c); reflexivity
  | |- context [sch_do ?f ?a ?b ?c] => destruct (sch_do f a b c); reflexivity
  | |- context [sth_do ?a ?b ?c] => destruct (sth_do a b c); reflexivity
  | |- context [tpc_do ?a ?b ?c] => destruct (tpc_do a b c); reflexivity
  | |- context [trd_do ?a ?b ?c] => destruct (trd_do a b c); reflexivity
  | |- context [td_do ?a ?b ?c] => destruct (td_do a b c); reflexivity
  | |- context [tpu_do ?a ?b ?c] => destruct (tpu_do a b c); reflexivity
  | |- context [th_do ?a ?b ?c] => destruct (th_do a b c); reflexivity
  | |- context [thp_do ?a ?b ?c] => destruct (thp_do a b c); reflexivity
  | |- context [thz_do ?a ?b ?c] => destruct (thz_do a b c); reflexivity
  | |- context [trk_do ?a ?b ?c] => destruct (trk_do a b c); reflexivity
  | |- context [cl_do ?f ?a ?b ?c] => destruct (cl_do f a b c); reflexivity
  | |- context [vx_do ?a ?b ?c] => destruct (vx_do a b c); reflexivity
  | |- context [rp_do ?f ?a ?b ?c] => destruct (rp_do f a b c); reflexivity
  | |- context [mc_do ?a ?b ?c] => destruct (mc_do a b c); reflexivity
  | |- context [rel_do ?a ?b ?c] => destruct (rel_do a b c); reflexivity
  | |- context [go_do ?a ?b ?c] => destruct (go_do a b c); reflexivity
  | |- _ => destruct c; reflexivity
  end.
Qed.

(** a locked place stays locked, with an object of the same class *)
Definition olock (w : world) (a : addr) (t : otype) : Prop := exists o, w_obj w a = Some (true, o) /\ type_of o = t.
Definition clock (w : world) (a : addr) : Prop := exists c, w_col w a = Some (true, c).

Lemma exec_olock w c a t : match c with WEv (V_setAccessMode _) => False | _ => True end -> olock w a t -> olock (fst (ex w c)) a t.
Proof.
  intros Hc (o & Ho & Ht). unfold olock. destruct c as [x|b x|b x|b p]; cbn [exec].
  - destruct x as [n|b n|n|v|v|v|v|v|m|pc]; try contradiction; try (exists o; split; assumption); cbn [ev_do].
    + destruct (ev_get (w_ev w) n) as [b|e|u]; try (exists o; split; assumption).
      destruct (w_col w b) as [[ro c]|]; [|exists o; split; assumption].
      destruct (coll_do ro c (C_setBit BTransient true)) as [c' [r|e|u]]; exists o; split; assumption.
    + destruct (par_do false (es_par (w_ev w)) pc) as [p r]. exists o; split; assumption.
  - destruct (w_col w b) as [[ro c]|]; [|exists o; split; assumption]. destruct (coll_do ro c x) as [c' r]. exists o; split; assumption.
  - destruct (Z.eq_dec a b) as [<-|N].
    + rewrite Ho. pose proof (odo_type true o x) as T. destruct (odo true o x) as [o' r]. cbn [fst] in *. exists o'. cbn [w_obj].
      rewrite put_same. split; [reflexivity|congruence].
    + destruct (w_obj w b) as [[ro ob]|]; [|exists o; split; assumption]. destruct (odo ro ob x) as [o' r]. exists o. cbn [fst w_obj].
      rewrite put_other by exact N. split; assumption.
  - unfold add_parent. destruct (w_obj w b) as [[ro ob]|] eqn:Eb; [|exists o; split; assumption].
    destruct ob as [ob| | | | | | | | | | | | | | | | | | | |]; try (exists o; split; assumption).
    destruct ro; [exists o; split; assumption|]. destruct (existsb (Z.eqb p) (mc_parents ob)); [exists o; split; assumption|]. cbv zeta.
    set (f := put (w_obj w) b _).
    assert (Nab : a <> b) by (intros ->; congruence).
    assert (Fa : f a = Some (true, o)) by (unfold f; rewrite put_other by exact Nab; exact Ho).
    destruct (f p) as [[mro m]|] eqn:Ep; [|exists o; split; assumption].
    destruct m as [m| | | | | | | | | | | | | | | | | | | |]; try (exists o; split; assumption).
    pose proof (odo_type mro (OMC m) (EMC (MC_addDaughter b))) as T. cbn [obj_do] in T.
    destruct (mc_do mro m (MC_addDaughter b)) as [m' r]. cbn [fst w_obj] in *.
    destruct (Z.eq_dec a p) as [<-|N].
    + rewrite Fa in Ep. injection Ep as E1 E2. exists (OMC m'). rewrite put_same, <- E1. split; [reflexivity|]. rewrite T, <- E2. exact Ht.
    + exists o. rewrite put_other by exact N. split; assumption.
Qed.

Lemma exec_clock w c a : match c with WEv (V_setAccessMode _) => False | _ => True end -> clock w a -> clock (fst (ex w c)) a.
Proof.
  intros Hc (k & Hk). unfold clock. destruct c as [x|b x|b x|b p]; cbn [exec].
  - destruct x as [n|b n|n|v|v|v|v|v|m|pc]; try contradiction; try (exists k; assumption); cbn [ev_do].
    + destruct (ev_get (w_ev w) n) as [b|e|u]; try (exists k; assumption).
      destruct (w_col w b) as [[ro c]|] eqn:Eb; [|exists k; assumption].
      destruct (coll_do ro c (C_setBit BTransient true)) as [c' [r|e|u]]; try (exists k; assumption). cbn [fst w_col].
      destruct (Z.eq_dec a b) as [<-|N]; [|exists k; rewrite put_other by exact N; exact Hk].
      rewrite put_same. rewrite Hk in Eb. injection Eb as <- _. exists c'. reflexivity.
    + destruct (par_do false (es_par (w_ev w)) pc) as [p r]. exists k; assumption.
  - destruct (w_col w b) as [[ro c]|] eqn:Eb; [|exists k; assumption]. destruct (coll_do ro c x) as [c' r]. cbn [fst w_col].
    destruct (Z.eq_dec a b) as [<-|N]; [|exists k; rewrite put_other by exact N; exact Hk].
    rewrite put_same. rewrite Hk in Eb. injection Eb as <- _. exists c'. reflexivity.
  - destruct (w_obj w b) as [[ro ob]|]; [|exists k; assumption]. destruct (odo ro ob x) as [o' r]. exists k. exact Hk.
  - unfold add_parent. destruct (w_obj w b) as [[ro ob]|] eqn:Eb; [|exists k; assumption].
    destruct ob as [ob| | | | | | | | | | | | | | | | | | | |]; try (exists k; assumption).
    destruct ro; [exists k; assumption|]. destruct (existsb (Z.eqb p) (mc_parents ob)); [exists k; assumption|]. cbv zeta.
    destruct (put _ _ _ _) as [[mro m]|]; [|exists k; assumption].
    destruct m as [m| | | | | | | | | | | | | | | | | | | |]; try (exists k; assumption).
    destruct (mc_do mro m (MC_addDaughter b)) as [m' r]. exists k. assumption.
Qed.

Lemma exec_elock w c : match c with WEv (V_setAccessMode _) => False | _ => True end ->
  es_ro (w_ev w) = true -> es_ro (w_ev (fst (ex w c))) = true.
Proof.
  intros Hc Hk. destruct c as [x|b x|b x|b p]; cbn [exec].
  - destruct x as [n|b n|n|v|v|v|v|v|m|pc]; try contradiction; cbn [ev_do];
    try (unfold ev_remove, guarded; rewrite Hk; exact Hk).
    + destruct (ev_get (w_ev w) n) as [b|e|u]; try assumption.
      destruct (w_col w b) as [[ro c]|] eqn:Eb; [|assumption].
      destruct (coll_do ro c (C_setBit BTransient true)) as [c' [r|e|u]]; assumption.
    + unfold ev_add. destruct (negb (validate n)); [exact Hk|]. destruct (sm_get n _); [exact Hk|]. destruct (b =? 0); exact Hk.
    + destruct (par_do false (es_par (w_ev w)) pc) as [p r]. assumption.
  - destruct (w_col w b) as [[ro c]|] eqn:Eb; [|assumption]. destruct (coll_do ro c x) as [c' r]. exact Hk.
  - destruct (w_obj w b) as [[ro ob]|]; [|assumption]. destruct (odo ro ob x) as [o' r]. exact Hk.
  - unfold add_parent. destruct (w_obj w b) as [[ro ob]|] eqn:Eb; [|assumption].
    destruct ob as [ob| | | | | | | | | | | | | | | | | | | |]; try assumption.
    destruct ro; [assumption|]. destruct (existsb (Z.eqb p) (mc_parents ob)); [assumption|]. cbv zeta.
    destruct (put _ _ _ _) as [[mro m]|]; [|assumption].
    destruct m as [m| | | | | | | | | | | | | | | | | | | |]; try assumption.
    destruct (mc_do mro m (MC_addDaughter b)) as [m' r]. assumption.
Qed.

Lemma run_inv (P : world -> Prop) w cs : no_mode_change cs ->
  (forall w c, match c with WEv (V_setAccessMode _) => False | _ => True end -> P w -> P (fst (ex w c))) -> P w -> P (rn w cs).
Proof.
  intros Hc Hs H. induction cs as [|c cs IH] using rev_ind; [exact H|]. apply Forall_app in Hc. destruct Hc as [H1 H2].
  inversion H2 as [|? ? Hc _]; subst. rewrite run_snoc. apply Hs; [exact Hc|exact (IH H1)].
Qed.

(** setAccessMode locks everything *)
Lemma lock_objs_one ro l : forall f a, 
  (exists o, f a = Some (ro, o)) \/ (In a l /\ exists r o, f a = Some (r, o) /\ is_checked_class o = true) ->
  exists o, lock_objs ro l f a = Some (ro, o) /\ (exists r, f a = Some (r, o)).
Proof.
  unfold lock_objs. induction l as [|b l IH]; intros f a H; cbn [fold_left].
  - destruct H as [(o & H)|([] & _)]. exists o. split; [exact H|exists ro; exact H].
  - set (g := match f b with Some (_, o) => if is_checked_class o then put f b (ro, o) else f | None => f end).
    assert (G : forall o r, f a = Some (r, o) -> exists r', g a = Some (r', o)).
    { intros o r E. unfold g. destruct (f b) as [[rb ob]|] eqn:Eb; [|exists r; exact E].
      destruct (is_checked_class ob); [|exists r; exact E]. destruct (Z.eq_dec a b) as [->|N].
      - rewrite put_same. rewrite E in Eb. injection Eb as <- <-. exists ro. reflexivity.
      - rewrite put_other by exact N. exists r. exact E. }
    assert (S : (exists o, g a = Some (ro, o)) \/ (In a l /\ exists r o, g a = Some (r, o) /\ is_checked_class o = true)).
    { destruct H as [(o & H)|([->|Hin] & r & o & H & K)].
      - left. exists o. unfold g. destruct (f b) as [[rb ob]|] eqn:Eb; [|exact H]. destruct (is_checked_class ob); [|exact H].
        destruct (Z.eq_dec a b) as [->|N]; [rewrite put_same|rewrite put_other by exact N; exact H]. rewrite H in Eb. injection Eb as _ <-. reflexivity.
      - left. exists o. unfold g. rewrite H, K. apply put_same.
      - right. split; [exact Hin|]. destruct (G o r H) as [r' E]. exists r', o. split; assumption. }
    destruct (IH g a S) as (o & E & r & Er). exists o. split; [exact E|].
    assert (exists r0 o0, f a = Some (r0, o0)) as (r0 & o0 & E0).
    { destruct H as [(o0 & H)|(_ & r0 & o0 & H & _)]; eauto. }
    destruct (G o0 r0 E0) as [r' E']. rewrite Er in E'. injection E' as _ <-. exists r0. exact E0.
Qed.

Lemma lock_objs_keep ro l : forall f a o, (exists r, f a = Some (r, o)) -> exists r, lock_objs ro l f a = Some (r, o).
Proof.
  unfold lock_objs. induction l as [|b l IH]; intros f a o H; cbn [fold_left]; [exact H|]. apply IH.
  destruct H as [r H]. destruct (f b) as [[rb ob]|] eqn:Eb; [|exists r; exact H]. destruct (is_checked_class ob); [|exists r; exact H].
  destruct (Z.eq_dec a b) as [->|N]; [|exists r; rewrite put_other by exact N; exact H]. rewrite put_same. rewrite H in Eb.
  injection Eb as _ <-. exists ro. reflexivity.
Qed.

Lemma lock_coll_col ro w b a c : (exists r, w_col w a = Some (r, c)) -> exists r, w_col (lock_coll ro w b) a = Some (r, c).
Proof.
  intros [r H]. unfold lock_coll. destruct (w_col w b) as [[rb cb]|] eqn:Eb; [|exists r; exact H]. cbn [w_col].
  destruct (Z.eq_dec a b) as [->|N]; [|exists r; rewrite put_other by exact N; exact H]. rewrite put_same. rewrite H in Eb.
  injection Eb as _ <-. exists ro. reflexivity.
Qed.

Lemma lock_coll_same ro w b a c : w_col w a = Some (ro, c) -> w_col (lock_coll ro w b) a = Some (ro, c).
Proof.
  intros H. unfold lock_coll. destruct (w_col w b) as [[rb cb]|] eqn:Eb; [|exact H]. cbn [w_col].
  destruct (Z.eq_dec a b) as [->|N]; [|rewrite put_other by exact N; exact H]. rewrite put_same. congruence.
Qed.

Lemma lock_coll_obj ro w b a o : (exists r, w_obj w a = Some (r, o)) -> exists r, w_obj (lock_coll ro w b) a = Some (r, o).
Proof.
  intros H. unfold lock_coll. destruct (w_col w b) as [[rb cb]|] eqn:Eb; [|exact H]. cbn [w_obj]. apply lock_objs_keep. exact H.
Qed.

Lemma lock_coll_obj_same ro w b a o : w_obj w a = Some (ro, o) -> w_obj (lock_coll ro w b) a = Some (ro, o).
Proof.
  intros H. unfold lock_coll. destruct (w_col w b) as [[rb cb]|] eqn:Eb; [|exact H]. cbn [w_obj].
  destruct (lock_objs_one ro (c_elems cb) (w_obj w) a (or_introl (ex_intro _ o H))) as (o' & E & r & E'). rewrite H in E'. injection E' as _ <-. exact E.
Qed.

Lemma lock_all_col ro l : forall w a c, (exists r, w_col w a = Some (r, c)) ->
  (exists r, w_col (fold_left (lock_coll ro) l w) a = Some (r, c)) /\
  (In a l -> w_col (fold_left (lock_coll ro) l w) a = Some (ro, c)).
Proof.
  assert (K : forall l w a c, w_col w a = Some (ro, c) -> w_col (fold_left (lock_coll ro) l w) a = Some (ro, c)).
  { clear l. induction l as [|b l IH]; intros w a c H; cbn [fold_left]; [exact H|]. apply IH. apply lock_coll_same. exact H. }
  induction l as [|b l IH]; intros w a c H; cbn [fold_left In]; [split; [exact H|intros []]|].
  destruct (IH (lock_coll ro w b) a c (lock_coll_col ro w b a c H)) as [A B]. split; [exact A|].
  intros [->|Hin]; [|exact (B Hin)]. apply K. unfold lock_coll. destruct H as [r H]. rewrite H. cbn [w_col]. apply put_same.
Qed.

Lemma lock_all_obj ro l : forall w a b c o, In b l -> (exists r, w_col w b = Some (r, c)) -> In a (c_elems c) ->
  (exists r, w_obj w a = Some (r, o)) -> is_checked_class o = true -> w_obj (fold_left (lock_coll ro) l w) a = Some (ro, o).
Proof.
  assert (K : forall l w a o, w_obj w a = Some (ro, o) -> w_obj (fold_left (lock_coll ro) l w) a = Some (ro, o)).
  { clear l. induction l as [|b l IH]; intros w a o H; cbn [fold_left]; [exact H|]. apply IH. apply lock_coll_obj_same. exact H. }
  induction l as [|b0 l IH]; intros w a b c o Hb Hc Ha Ho Hk; [destruct Hb|]. cbn [fold_left]. destruct Hb as [->|Hb].
  - apply K. unfold lock_coll. destruct Hc as [r Hc]. rewrite Hc. cbn [w_obj]. destruct Ho as [r0 Ho].
    destruct (lock_objs_one ro (c_elems c) (w_obj w) a) as (o' & E & r' & E').
    + right. split; [exact Ha|]. exists r0, o. split; assumption.
    + rewrite Ho in E'. injection E' as _ <-. exact E.
  - apply (IH _ _ b c); auto; [apply lock_coll_col; exact Hc|apply lock_coll_obj; exact Ho].
Qed.

Lemma lock_all_col_rev ro l : forall w a r c, w_col (fold_left (lock_coll ro) l w) a = Some (r, c) -> exists r', w_col w a = Some (r', c).
Proof.
  induction l as [|b l IH]; intros w a r c H; cbn [fold_left] in H; [exists r; exact H|]. destruct (IH _ _ _ _ H) as [r' E].
  unfold lock_coll in E. destruct (w_col w b) as [[rb cb]|] eqn:Eb; [|exists r'; exact E]. cbn [w_col] in E.
  destruct (Z.eq_dec a b) as [->|N]; [|rewrite put_other in E by exact N; exists r'; exact E]. rewrite put_same in E. injection E as _ <-. exists rb. exact Eb.
Qed.

Lemma lock_objs_rev ro l : forall f a r o, lock_objs ro l f a = Some (r, o) -> exists r', f a = Some (r', o).
Proof.
  unfold lock_objs. induction l as [|b l IH]; intros f a r o H; cbn [fold_left] in H; [exists r; exact H|]. destruct (IH _ _ _ _ H) as [r' E].
  destruct (f b) as [[rb ob]|] eqn:Eb; [|exists r'; exact E]. destruct (is_checked_class ob); [|exists r'; exact E].
  destruct (Z.eq_dec a b) as [->|N]; [|rewrite put_other in E by exact N; exists r'; exact E]. rewrite put_same in E. injection E as _ <-. exists rb. exact Eb.
Qed.

Lemma lock_all_obj_rev ro l : forall w a r o, w_obj (fold_left (lock_coll ro) l w) a = Some (r, o) -> exists r', w_obj w a = Some (r', o).
Proof.
  induction l as [|b l IH]; intros w a r o H; cbn [fold_left] in H; [exists r; exact H|]. destruct (IH _ _ _ _ H) as [r' E].
  unfold lock_coll in E. destruct (w_col w b) as [[rb cb]|] eqn:Eb; [|exists r'; exact E]. cbn [w_obj] in E. exact (lock_objs_rev _ _ _ _ _ _ E).
Qed.

Lemma locked_coll w a c : event_coll (set_access_mode w READ_ONLY) a c -> w_col (set_access_mode w READ_ONLY) a = Some (true, c).
Proof.
  intros [Hin [r H]]. rewrite mode_ev in Hin. cbn [lock_ev es_cols] in Hin.
  unfold set_access_mode in *. change (READ_ONLY =? READ_ONLY) with true in *. cbv zeta in *.
  apply lock_all_col_rev in H. exact (proj2 (lock_all_col true _ _ a c H) Hin).
Qed.

Lemma locked_elem w a o : event_elem (set_access_mode w READ_ONLY) a o -> is_checked_class o = true ->
  w_obj (set_access_mode w READ_ONLY) a = Some (true, o).
Proof.
  intros (b & c & r & [Hin [rc Hc]] & Ha & Ho) Hk. rewrite mode_ev in Hin. cbn [lock_ev es_cols] in Hin.
  unfold set_access_mode in *. change (READ_ONLY =? READ_ONLY) with true in *. cbv zeta in *.
  apply lock_all_col_rev in Hc. apply lock_all_obj_rev in Ho. exact (lock_all_obj true _ _ a b c o Hin Hc Ha Ho Hk).
Qed.

Lemma same_world_refl w : same_world w w.
Proof. repeat split. Qed.

Lemma same_world_obj w a r o : w_obj w a = Some (r, o) -> same_world (mkW (w_ev w) (w_col w) (put (w_obj w) a (r, o))) w.
Proof.
  intros H. split; [reflexivity|]. split; [reflexivity|]. intros b. cbn [w_obj]. unfold put. destruct (Z.eqb_spec b a) as [->|]; [symmetry; exact H|reflexivity].
Qed.

Lemma same_world_col w a r c : w_col w a = Some (r, c) -> same_world (mkW (w_ev w) (put (w_col w) a (r, c)) (w_obj w)) w.
Proof.
  intros H. split; [reflexivity|]. split; [|reflexivity]. intros b. cbn [w_col]. unfold put. destruct (Z.eqb_spec b a) as [->|]; [symmetry; exact H|reflexivity].
Qed.

Lemma class_of_type e o o' : type_of o = type_of o' -> class_of e o -> class_of e o'.
Proof. destruct o, o'; try discriminate; intros _; destruct e; auto. Qed.

Lemma read_only_ok w cs c : let w0 := set_access_mode w READ_ONLY in
  no_mode_change cs -> checked_call w0 c ->
  snd (ex (rn w0 cs) c) = Throw LReadOnly /\ same_world (fst (ex (rn w0 cs) c)) (rn w0 cs).
Proof.
  intros w0 Hm Hc. set (w1 := rn w0 cs).
  assert (OL : forall a o, event_elem w0 a o -> is_checked_class o = true -> olock w1 a (type_of o)).
  { intros a o He Hk. apply (run_inv (fun w => olock w a (type_of o))); [exact Hm| |].
    - intros w' c' Hc' H'. apply exec_olock; assumption.
    - exists o. split; [exact (locked_elem w a o He Hk)|reflexivity]. }
  destruct c as [x|a x|a x|a p]; cbn [checked_call] in Hc.
  - assert (E : es_ro (w_ev w1) = true).
    { apply (run_inv (fun w => es_ro (w_ev w) = true)); [exact Hm|exact exec_elock|]. unfold w0. rewrite mode_ev. reflexivity. }
    assert (W : same_world (mkW (w_ev w1) (w_col w1) (w_obj w1)) w1) by (destruct w1; apply same_world_refl).
    destruct x; try discriminate; cbn [exec ev_do]; unfold ev_remove, guarded; rewrite E; cbn [fst snd]; (split; [reflexivity|exact W]).
  - destruct Hc as [[co Hco] Hu].
    assert (CL : clock w1 a).
    { apply (run_inv (fun w => clock w a)); [exact Hm| |].
      - intros w' c' Hc' H'. apply exec_clock; assumption.
      - exists co. exact (locked_coll w a co Hco). }
    destruct CL as [c E]. cbn [exec]. rewrite E. rewrite coll_checked by exact Hu. cbn [fst snd]. split; [reflexivity|].
    apply same_world_col. exact E.
  - destruct Hc as ((o & He & Hcl) & Ha & Hu).
    assert (Hk : is_checked_class o = true).
    { destruct o; try reflexivity; destruct x as [| | | | | | | | | | | | | | | | | |v]; try contradiction; discriminate. }
    destruct (OL a o He Hk) as (o1 & E & T). cbn [exec]. rewrite E.
    rewrite odo_checked; [|exact (class_of_type x o o1 (eq_sym T) Hcl)|exact Ha|exact Hu]. cbn [fst snd]. split; [reflexivity|].
    apply same_world_obj. exact E.
  - destruct Hc as [o He]. destruct (OL a (OMC o) He eq_refl) as (o1 & E & T). cbn [exec]. unfold add_parent. rewrite E.
    destruct o1; try discriminate. split; [reflexivity|apply same_world_refl].
Qed.
End Locked.
