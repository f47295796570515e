(** * Proofs about parameters, events, tracks, particles and hits *)
From Coq Require Import ZArith List Bool Lia.
From Verif Require Import Bytes StrMap SioModel ObjModel FlagModel ImplModel ImplSpec.
Import ListNotations.
Open Scope Z_scope.

(** ** Parameters *)

Lemma last_of_snoc {C V} (f : C -> option V) cs c :
  last_of f (cs ++ [c]) = match f c with Some v => Some v | None => last_of f cs end.
Proof. unfold last_of. rewrite fold_left_app. reflexivity. Qed.

Lemma sm_get_set' {V} k (v : V) m k' : sm_ok m ->
  sm_get k' (sm_set k v m) = if bytes_dec k k' then Some v else sm_get k' m.
Proof.
  intros H. rewrite sm_get_set by exact H. destruct (bytes_dec k k') as [->|N].
  - rewrite bytes_eqb_refl. reflexivity.
  - destruct (bytes_eqb k' k) eqn:E; [apply bytes_eqb_eq in E; congruence|reflexivity].
Qed.

Lemma sm_get_del' {V} k (m : list (bytes * V)) k' : sm_ok m ->
  sm_get k' (sm_del k m) = if bytes_dec k k' then None else sm_get k' m.
Proof.
  intros H. rewrite sm_get_del by exact H. destruct (bytes_dec k k') as [->|N].
  - rewrite bytes_eqb_refl. reflexivity.
  - destruct (bytes_eqb k' k) eqn:E; [apply bytes_eqb_eq in E; congruence|reflexivity].
Qed.

Definition params_inv (cs : list par_call) (p : params) : Prop :=
  (sm_ok (p_int p) /\ forall k, sm_get k (p_int p) = last_of (ints_set k) cs) /\
  (sm_ok (p_flt p) /\ forall k, sm_get k (p_flt p) = last_of (floats_set k) cs) /\
  (sm_ok (p_str p) /\ forall k, sm_get k (p_str p) = last_of (strings_set k) cs).

Lemma params_inv_after cs : params_inv cs (params_after cs).
Proof.
  induction cs as [|c cs IH] using rev_ind.
  - repeat split; try (intros k; reflexivity); exact sm_ok_nil.
  - unfold params_after. rewrite fold_left_app. cbn [fold_left]. fold (params_after cs).
    destruct IH as ([Hi Gi] & [Hf Gf] & [Hs Gs]).
    destruct c as [k0 v|k0 v|k0 v|k0 l|k0 l|k0 l]; unfold par_do, guarded, unguarded; cbn [fst p_int p_flt p_str];
    (split; [|split]); cbn [p_int p_flt p_str]; (split; [try assumption; apply sm_set_ok; assumption|]);
      intros k; rewrite last_of_snoc; cbn [ints_set floats_set strings_set]; auto;
      rewrite sm_get_set' by assumption; destruct (bytes_dec k0 k); auto.
Qed.

Lemma getters_ok {V} (d : V) m k l : sm_ok m -> sm_get k m = l -> getters_give d m k l.
Proof.
  intros Ho Hg. unfold getters_give, par_vals, par_val, par_n, par_keys. rewrite Hg. repeat split.
  - intros buf. destruct l; [reflexivity|]. rewrite app_nil_r. reflexivity.
  - cbn [app]. intros H. apply sm_get_keys in H; [|exact Ho]. rewrite Hg in H. exact H.
  - cbn [app]. intros H. apply sm_get_keys; [exact Ho|]. rewrite Hg. exact H.
Qed.

Lemma parameters_ok cs k :
  getters_give 0 (p_int (params_after cs)) k (last_of (ints_set k) cs) /\
  getters_give 0 (p_flt (params_after cs)) k (last_of (floats_set k) cs) /\
  getters_give [] (p_str (params_after cs)) k (last_of (strings_set k) cs).
Proof.
  destruct (params_inv_after cs) as ([Hi Gi] & [Hf Gf] & [Hs Gs]).
  split; [|split]; apply getters_ok; auto.
Qed.

Lemma sm_keys_nodup {V} (m : list (bytes * V)) : sm_ok m -> NoDup (sm_keys m).
Proof.
  intros H. unfold sm_ok in H. induction H as [|k ks Hs IH Hf]; constructor; [|exact IH].
  intros Hin. rewrite Forall_forall in Hf. exact (str_lt_irrefl _ (Hf _ Hin)).
Qed.

Lemma parameters_keys cs :
  NoDup (par_keys (p_int (params_after cs)) []) /\ NoDup (par_keys (p_flt (params_after cs)) []) /\
  NoDup (par_keys (p_str (params_after cs)) []).
Proof.
  destruct (params_inv_after cs) as ([Hi _] & [Hf _] & [Hs _]). cbn [par_keys app]. unfold par_keys. cbn [app].
  split; [|split]; apply sm_keys_nodup; assumption.
Qed.

(** ** The collections of an event *)
Section Worlds.
Context (fadd : Z -> Z -> Z) (srt : forall A : Type, (A -> Z) -> list A -> list A).
Local Notation ex := (exec fadd srt).
Local Notation rn := (run fadd srt).
Local Notation odo := (obj_do fadd srt).

Lemma lock_coll_ev ro w a : w_ev (lock_coll ro w a) = w_ev w.
Proof. unfold lock_coll. destruct (w_col w a) as [[? ?]|]; reflexivity. Qed.

Lemma lock_colls_ev ro l : forall w, w_ev (fold_left (lock_coll ro) l w) = w_ev w.
Proof. induction l as [|a l IH]; intros w; cbn [fold_left]; [reflexivity|]. rewrite IH. apply lock_coll_ev. Qed.

Lemma mode_ev w m : w_ev (set_access_mode w m) = lock_ev (m =? READ_ONLY) (w_ev w).
Proof. unfold set_access_mode. rewrite lock_colls_ev. reflexivity. Qed.

(** the collections after a call *)
Definition cols_after (c : wcall) (r : Res unit) (cols : list (bytes * addr)) : list (bytes * addr) :=
  match c, r with
  | WEv (V_add a n), Ok _ => sm_set n a cols
  | WEv (V_remove n), Ok _ => sm_del n cols
  | _, _ => cols
  end.
Lemma exec_cols w c : es_cols (w_ev (fst (ex w c))) = cols_after c (snd (ex w c)) (es_cols (w_ev w)).
Proof.
  unfold cols_after.
  destruct c as [x|a x|a x|a p]; cbn [exec].
  - destruct x as [n|a n|n|v|v|v|v|v|m|pc]; cbn [ev_do].
    + destruct (ev_get (w_ev w) n) as [a|e|u]; try reflexivity.
      destruct (w_col w a) as [[ro c]|]; [|reflexivity].
      destruct (coll_do ro c (C_setBit BTransient true)) as [c' [t|e|u]]; reflexivity.
    + unfold ev_add. destruct (negb (validate n)); [reflexivity|].
      destruct (sm_get n (es_cols (w_ev w))); [reflexivity|]. destruct (a =? 0); reflexivity.
    + unfold ev_remove, guarded, unguarded. destruct (es_ro (w_ev w)); reflexivity.
    + unfold guarded, unguarded. destruct (es_ro (w_ev w)); reflexivity.
    + unfold guarded, unguarded. destruct (es_ro (w_ev w)); reflexivity.
    + unfold guarded, unguarded. destruct (es_ro (w_ev w)); reflexivity.
    + unfold guarded, unguarded. destruct (es_ro (w_ev w)); reflexivity.
    + unfold guarded, unguarded. destruct (es_ro (w_ev w)); reflexivity.
    + cbn [fst snd]. rewrite mode_ev. reflexivity.
    + destruct (par_do false (es_par (w_ev w)) pc) as [p r]. reflexivity.
  - destruct (w_col w a) as [[ro c]|]; [|reflexivity]. destruct (coll_do ro c x) as [c' r]. reflexivity.
  - destruct (w_obj w a) as [[ro o]|]; [|reflexivity]. destruct (odo ro o x) as [o' r]. reflexivity.
  - unfold add_parent. destruct (w_obj w a) as [[ro o]|]; [|reflexivity]. destruct o; try reflexivity.
    destruct ro; [reflexivity|]. destruct (existsb (Z.eqb p) (mc_parents o)); [reflexivity|]. cbv zeta.
    destruct (put _ _ _ _) as [[mro m]|]; [|reflexivity]. destruct m; try reflexivity.
    destruct (mc_do mro o0 (MC_addDaughter a)) as [m' r]. reflexivity.
Qed.

Lemma run_snoc w cs c : rn w (cs ++ [c]) = fst (ex (rn w cs) c).
Proof. unfold run. rewrite fold_left_app. reflexivity. Qed.

Lemma outcomes_snoc cs c : forall w,
  outcomes fadd srt w (cs ++ [c]) = outcomes fadd srt w cs ++ [(c, snd (ex (rn w cs) c))].
Proof.
  induction cs as [|c0 cs IH]; intros w; cbn [app outcomes]; [reflexivity|]. rewrite IH. reflexivity.
Qed.

Lemma present_snoc h cr n :
  present (h ++ [cr]) n =
  match cr with
  | (WEv (V_add a n'), Ok _) => if bytes_dec n' n then Some a else present h n
  | (WEv (V_remove n'), Ok _) => if bytes_dec n' n then None else present h n
  | _ => present h n
  end.
Proof. unfold present. rewrite fold_left_app. reflexivity. Qed.

Lemma cols_inv w cs : es_cols (w_ev w) = [] ->
  sm_ok (es_cols (w_ev (rn w cs))) /\
  (forall n, sm_get n (es_cols (w_ev (rn w cs))) = present (outcomes fadd srt w cs) n).
Proof.
  intros H0. induction cs as [|c cs [IHo IHg]] using rev_ind.
  - cbn [run fold_left outcomes]. unfold run. cbn [fold_left]. rewrite H0. split; [exact sm_ok_nil|intros n; reflexivity].
  - rewrite run_snoc, outcomes_snoc, exec_cols.
    set (w1 := rn w cs) in *. generalize (snd (ex w1 c)). intros r. unfold cols_after.
    split.
    + destruct c as [x|a x|a x|a p]; try assumption. destruct x; try assumption; destruct r; try assumption;
      [apply sm_set_ok|apply sm_del_ok]; assumption.
    + intros n. rewrite present_snoc.
      destruct c as [x|a x|a x|a p]; try apply IHg. destruct x; try apply IHg; destruct r; try apply IHg.
      * rewrite sm_get_set' by assumption. destruct (bytes_dec name n); [reflexivity|apply IHg].
      * rewrite sm_get_del' by assumption. destruct (bytes_dec name n); [reflexivity|apply IHg].
Qed.

Lemma is_alpha_iff z : is_alpha z = true <-> letter z.
Proof. unfold is_alpha, letter. rewrite !orb_true_iff, !andb_true_iff, !Z.leb_le, Z.eqb_eq. tauto. Qed.

Lemma is_alnum_iff z : is_alnum z = true <-> letter_or_digit z.
Proof. unfold is_alnum, letter_or_digit. rewrite orb_true_iff, is_alpha_iff, andb_true_iff, !Z.leb_le. tauto. Qed.

Lemma validate_tail_iff s : no_nul s -> (validate_tail s = true <-> Forall (fun c => letter_or_digit (Zb c)) s).
Proof.
  intros H. induction H as [|b s Hb Hs IH]; cbn [validate_tail]; [split; [constructor|reflexivity]|].
  destruct (Z.eqb_spec (Zb b) 0) as [E|_]; [contradiction|]. rewrite andb_true_iff, is_alnum_iff, IH.
  split; [intros [A B]; constructor; assumption|intros F; inversion F; split; assumption].
Qed.

Lemma validate_iff n : no_nul n -> (validate n = true <-> identifier n).
Proof.
  intros H. destruct n as [|b s]; cbn [validate identifier]; [split; [discriminate|tauto]|].
  inversion H as [|? ? Hb Hs]; subst. rewrite andb_true_iff, is_alpha_iff, validate_tail_iff by exact Hs. tauto.
Qed.

Lemma collections_ok w cs n : es_cols (w_ev w) = [] ->
  let e := w_ev (rn w cs) in
  let now := present (outcomes fadd srt w cs) in
  ev_get e n = match now n with Some a => Ok a | None => Throw LDataNotAvailable end /\
  (In n (ev_names e) <-> now n <> None) /\ NoDup (ev_names e).
Proof.
  intros H0 e now. destruct (cols_inv w cs H0) as [Ho Hg]. fold e in Ho, Hg. fold now in Hg. repeat split.
  - unfold ev_get. rewrite Hg. reflexivity.
  - intros H. apply (sm_get_keys n) in H; [|exact Ho]. rewrite Hg in H. exact H.
  - intros H. apply (sm_get_keys n); [exact Ho|]. rewrite Hg. exact H.
  - apply sm_keys_nodup. exact Ho.
Qed.

Lemma exec_add w a n :
  ex w (WEv (V_add a n)) =
  (mkW (fst (ev_add (w_ev w) a n)) (w_col w) (w_obj w), snd (ev_add (w_ev w) a n)).
Proof. reflexivity. Qed.

Lemma add_accepted w cs a n : es_cols (w_ev w) = [] -> no_nul n ->
  let w1 := rn w cs in
  (snd (ex w1 (WEv (V_add a n))) = Ok tt /\ identifier n /\ present (outcomes fadd srt w cs) n = None /\ a <> 0) \/
  (ex w1 (WEv (V_add a n)) = (w1, Throw LEventException) /\
   (~ identifier n \/ present (outcomes fadd srt w cs) n <> None \/ a = 0)).
Proof.
  intros H0 Hn w1. destruct (cols_inv w cs H0) as [Ho Hg]. fold w1 in Ho, Hg. rewrite exec_add. unfold ev_add.
  assert (W : w1 = mkW (w_ev w1) (w_col w1) (w_obj w1)) by (destruct w1; reflexivity).
  destruct (validate n) eqn:V; cbn [negb].
  - apply validate_iff in V; [|exact Hn]. rewrite Hg. destruct (present (outcomes fadd srt w cs) n) as [b|] eqn:P.
    + right. cbn [fst snd]. rewrite <- W. split; [reflexivity|]. right. left. discriminate.
    + destruct (Z.eqb_spec a 0) as [E|N].
      * right. cbn [fst snd]. rewrite <- W. split; [reflexivity|]. right. right. exact E.
      * left. cbn [fst snd]. auto.
  - right. cbn [fst snd]. rewrite <- W. split; [reflexivity|]. left. intros I. apply validate_iff in I; [|exact Hn]. congruence.
Qed.

Lemma present_identifiers w cs n : no_nul n -> es_cols (w_ev w) = [] ->
  present (outcomes fadd srt w cs) n <> None -> identifier n.
Proof.
  intros Hn H0. induction cs as [|c cs IH] using rev_ind; [intros H; exfalso; apply H; reflexivity|].
  rewrite outcomes_snoc, present_snoc. destruct c as [x|a x|a x|a p]; try exact IH.
  destruct x as [m|a m|m|v|v|v|v|v|m|pc]; try exact IH.
  - destruct (snd (ex (rn w cs) (WEv (V_add a m)))) as [t|e|u] eqn:E; try exact IH.
    destruct (bytes_dec m n) as [->|_]; [|exact IH]. intros _.
    destruct (add_accepted w cs a n H0 Hn) as [(_ & I & _)|(E2 & _)]; [exact I|]. rewrite E2 in E. discriminate.
  - destruct (snd (ex (rn w cs) (WEv (V_remove m)))) as [t|e|u] eqn:E; try exact IH.
    destruct (bytes_dec m n) as [_|_]; [intros H; exfalso; apply H; reflexivity|exact IH].
Qed.

(** ** Family links *)

Lemma put_same {A} (f : addr -> option A) a x : put f a x a = Some x.
Proof. unfold put. rewrite Z.eqb_refl. reflexivity. Qed.

Lemma put_other {A} (f : addr -> option A) a x b : b <> a -> put f a x b = f b.
Proof. intros H. unfold put. destruct (Z.eqb_spec b a); [contradiction|reflexivity]. Qed.

Definition fam (o : obj) : option (list addr * list addr) :=
  match o with OMC m => Some (mc_parents m, mc_daughters m) | _ => None end.

Lemma odo_fam ro o e : (match e with EMC (MC_addDaughter _) => False | _ => True end) -> fam (fst (odo ro o e)) = fam o.
Proof.
  intros H. destruct o; destruct e; try reflexivity;
  destruct c; try reflexivity; try contradiction; cbn [obj_do];
  lazymatch goal with
  | |- context [ch_do ?a ?b ?c] => destruct (ch_do a b c); reflexivity
  | |- context [rch_do ?a ?b ?c] => destruct (rch_do a b c); reflexivity
  | |- context [sch_do ?f ?a ?b ?c] => destruct (sch_do f a b c); reflexivity
  | |- context [sth_do ?a ?b ?c] => destruct (sth_do a b c); reflexivity
  | |- context [tpc_do ?a ?b ?c] => destruct (tpc_do a b c); reflexivity
  | |- context [trd_do ?a ?b ?c] => destruct (trd_do a b c); reflexivity
  | |- context [td_do ?a ?b ?c] => destruct (td_do a b c); reflexivity
  | |- context [tpu_do ?a ?b ?c] => destruct (tpu_do a b c); reflexivity
  | |- context [th_do ?a ?b ?c] => destruct (th_do a b c); reflexivity
  | |- context [thp_do ?a ?b ?c] => destruct (thp_do a b c); reflexivity
  | |- context [thz_do ?a ?b ?c] => destruct (thz_do a b c); reflexivity
  | |- context [trk_do ?a ?b ?c] => destruct (trk_do a b c); reflexivity
  | |- context [cl_do ?f ?a ?b ?c] => destruct (cl_do f a b c); reflexivity
  | |- context [vx_do ?a ?b ?c] => destruct (vx_do a b c); reflexivity
  | |- context [rp_do ?f ?a ?b ?c] => destruct (rp_do f a b c); reflexivity
  | |- context [mc_do ?a ?b ?c] => cbn [mc_do]; unfold guarded, unguarded; destruct a; try reflexivity; try (destruct (arr _ _); reflexivity)
  | |- context [rel_do ?a ?b ?c] => destruct (rel_do a b c); reflexivity
  | |- context [go_do ?a ?b ?c] => destruct (go_do a b c); reflexivity
  | |- _ => idtac
  end.
Qed.

Definition fam_at (w : world) (a : addr) : option (list addr * list addr) :=
  match w_obj w a with Some (_, o) => fam o | None => None end.

Lemma particle_fam w a o : particle w a o -> fam_at w a = Some (mc_parents o, mc_daughters o).
Proof. intros [ro H]. unfold fam_at. rewrite H. reflexivity. Qed.

Definition fmirror (f : addr -> option (list addr * list addr)) : Prop :=
  forall d p pd dd pp dp, f d = Some (pd, dd) -> f p = Some (pp, dp) ->
    times p pd = times d dp /\ (times p pd <= 1)%nat.

Lemma mirrored_fam w : mirrored w <-> fmirror (fam_at w).
Proof.
  split.
  - intros H d p pd dd pp dp Hd Hp. unfold fam_at in Hd, Hp.
    destruct (w_obj w d) as [[rd od]|] eqn:Ed; [|discriminate]. destruct od; try discriminate.
    destruct (w_obj w p) as [[rp op]|] eqn:Ep; [|discriminate]. destruct op; try discriminate.
    cbn [fam] in Hd, Hp. injection Hd as <- <-. injection Hp as <- <-.
    apply (H d p o o0); [exists rd|exists rp]; assumption.
  - intros H d p od op Hd Hp. apply particle_fam in Hd, Hp. exact (H _ _ _ _ _ _ Hd Hp).
Qed.

Lemma times_snoc x l y : times x (l ++ [y]) = (times x l + if Z.eq_dec y x then 1 else 0)%nat.
Proof. unfold times. rewrite count_occ_app. cbn [count_occ]. destruct (Z.eq_dec y x); reflexivity. Qed.

Lemma times_absent x l : existsb (Z.eqb x) l = false -> times x l = 0%nat.
Proof.
  intros H. unfold times. apply count_occ_not_In. intros Hin.
  assert (existsb (Z.eqb x) l = true) by (apply existsb_exists; exists x; split; [exact Hin|apply Z.eqb_refl]). congruence.
Qed.

Lemma fmirror_ext f g : (forall a, f a = g a) -> fmirror f -> fmirror g.
Proof. intros E H d p pd dd pp dp Hd Hp. rewrite <- E in Hd, Hp. exact (H _ _ _ _ _ _ Hd Hp). Qed.

(** a parent that is no particle is only listed *)
Lemma add_nonparticle w a o o' p : modifiable w -> fmirror (fam_at w) -> w_obj w a = Some (false, OMC o) ->
  existsb (Z.eqb p) (mc_parents o) = false -> mc_parents o' = mc_parents o ++ [p] -> mc_daughters o' = mc_daughters o ->
  fam_at w p = None ->
  fmirror (fam_at (mkW (w_ev w) (w_col w) (put (w_obj w) a (false, OMC o')))) /\
  modifiable (mkW (w_ev w) (w_col w) (put (w_obj w) a (false, OMC o'))).
Proof.
  intros Hm H Ea Ex P D Hp. split.
  - set (w' := mkW _ _ _).
    assert (Pa : fam_at w a = Some (mc_parents o, mc_daughters o)) by (unfold fam_at; rewrite Ea; reflexivity).
    assert (Npa : p <> a) by (intros ->; congruence).
    assert (Fa : fam_at w' a = Some (mc_parents o ++ [p], mc_daughters o)).
    { unfold fam_at, w'. cbn [w_obj]. rewrite put_same. cbn [fam]. rewrite P, D. reflexivity. }
    assert (Fo : forall b, b <> a -> fam_at w' b = fam_at w b).
    { intros b N. unfold fam_at, w'. cbn [w_obj]. rewrite put_other by exact N. reflexivity. }
    intros d q pd dd pq dq Hd Hq.
    assert (Nqp : q <> p) by (intros ->; rewrite Fo in Hq by exact Npa; congruence).
    destruct (Z.eq_dec d a) as [->|Nd].
    + rewrite Fa in Hd. injection Hd as <- <-. rewrite times_snoc. destruct (Z.eq_dec p q); [congruence|].
      destruct (Z.eq_dec q a) as [->|Nq].
      * rewrite Fa in Hq. injection Hq as <- <-. destruct (H _ _ _ _ _ _ Pa Pa) as [A B]. lia.
      * rewrite Fo in Hq by exact Nq. destruct (H _ _ _ _ _ _ Pa Hq) as [A B]. lia.
    + rewrite Fo in Hd by exact Nd. destruct (Z.eq_dec q a) as [->|Nq].
      * rewrite Fa in Hq. injection Hq as <- <-. exact (H _ _ _ _ _ _ Hd Pa).
      * rewrite Fo in Hq by exact Nq. exact (H _ _ _ _ _ _ Hd Hq).
  - intros b r x. cbn [w_obj]. unfold put. destruct (b =? a); [intros E; congruence|apply Hm].
Qed.

(** what addParent does to the links when nothing is read only *)
Lemma add_parent_fam w a p : modifiable w -> fmirror (fam_at w) ->
  fmirror (fam_at (fst (add_parent w a p))) /\ modifiable (fst (add_parent w a p)).
Proof.
  intros Hm H. unfold add_parent. destruct (w_obj w a) as [[ro o]|] eqn:Ea; [|split; assumption].
  destruct o as [o| | | | | | | | | | | | | | | | | | | |]; try (split; assumption).
  assert (ro = false) as -> by exact (Hm _ _ _ Ea).
  destruct (existsb (Z.eqb p) (mc_parents o)) eqn:Ex; [split; assumption|]. cbv zeta.
  set (o' := mkMC (mc_parents o ++ [p]) _ _ _ _ _ _ _ _ _ _ _ _ _).
  set (f := put (w_obj w) a (false, OMC o')).
  assert (Mf : forall b r x, f b = Some (r, x) -> r = false).
  { intros b r x. unfold f, put. destruct (b =? a); [intros E; congruence|]. intros E. exact (Hm _ _ _ E). }
  assert (Pa : fam_at w a = Some (mc_parents o, mc_daughters o)) by (unfold fam_at; rewrite Ea; reflexivity).
  assert (Z0 : times p (mc_parents o) = 0%nat) by (apply times_absent; exact Ex).
  destruct (f p) as [[mro m]|] eqn:Ef; [destruct m as [m| | | | | | | | | | | | | | | | | | | |]|].
  all: try (apply (add_nonparticle w a o o' p Hm H Ea Ex eq_refl eq_refl);
            unfold fam_at; unfold f, put in Ef; (destruct (p =? a); [discriminate Ef|]); rewrite Ef; reflexivity).
  - (* the parent is a particle *)
    assert (mro = false) as -> by exact (Mf _ _ _ Ef).
    cbn [mc_do]. unfold guarded, unguarded. cbn [fst].
    set (m' := mkMC (mc_parents m) _ _ _ _ _ _ _ _ _ _ _ _ (mc_daughters m ++ [a])).
    split.
    + set (w' := mkW _ _ _).
      assert (Fp : fam_at w' p = Some (mc_parents m, mc_daughters m ++ [a])).
      { unfold fam_at, w'. cbn [w_obj]. rewrite put_same. reflexivity. }
      assert (Fo : forall b, b <> a -> b <> p -> fam_at w' b = fam_at w b).
      { intros b N1 N2. unfold fam_at, w', f. cbn [w_obj]. rewrite !put_other by assumption. reflexivity. }
      destruct (Z.eq_dec p a) as [Epa|Npa].
      * (* a particle as its own parent *)
        subst p. unfold f in Ef. rewrite put_same in Ef. injection Ef as Em.
        assert (Fa : fam_at w' a = Some (mc_parents o ++ [a], mc_daughters o ++ [a])).
        { rewrite Fp, <- Em. reflexivity. }
        intros d q pd dd pq dq Hd Hq.
        destruct (Z.eq_dec d a) as [->|Nd].
        -- rewrite Fa in Hd. injection Hd as <- <-. rewrite times_snoc.
           destruct (Z.eq_dec q a) as [->|Nq].
           ++ rewrite Fa in Hq. injection Hq as <- <-. rewrite times_snoc.
              destruct (H _ _ _ _ _ _ Pa Pa) as [A B]. destruct (Z.eq_dec a a); lia.
           ++ rewrite Fo in Hq by assumption. destruct (H _ _ _ _ _ _ Pa Hq) as [A B]. destruct (Z.eq_dec a q); [congruence|]. lia.
        -- rewrite Fo in Hd by assumption. destruct (Z.eq_dec q a) as [->|Nq].
           ++ rewrite Fa in Hq. injection Hq as <- <-. destruct (H _ _ _ _ _ _ Hd Pa) as [A B].
              rewrite times_snoc. destruct (Z.eq_dec a d); [congruence|]. lia.
           ++ rewrite Fo in Hq by assumption. exact (H _ _ _ _ _ _ Hd Hq).
      * assert (Fa : fam_at w' a = Some (mc_parents o ++ [p], mc_daughters o)).
        { unfold fam_at, w', f. cbn [w_obj]. rewrite put_other by congruence. rewrite put_same. reflexivity. }
        assert (Pp : fam_at w p = Some (mc_parents m, mc_daughters m)).
        { unfold f in Ef. rewrite put_other in Ef by exact Npa. unfold fam_at. rewrite Ef. reflexivity. }
        intros d q pd dd pq dq Hd Hq.
        destruct (Z.eq_dec d a) as [->|Nd]; [|destruct (Z.eq_dec d p) as [->|Ndp]].
        -- rewrite Fa in Hd. injection Hd as <- <-. rewrite times_snoc.
           destruct (Z.eq_dec q p) as [->|Nq]; [|destruct (Z.eq_dec q a) as [->|Nqa]].
           ++ rewrite Fp in Hq. injection Hq as <- <-. rewrite times_snoc.
              destruct (H _ _ _ _ _ _ Pa Pp) as [A B]. destruct (Z.eq_dec p p); [|congruence]. destruct (Z.eq_dec a a); [|congruence]. lia.
           ++ rewrite Fa in Hq. injection Hq as <- <-. destruct (H _ _ _ _ _ _ Pa Pa) as [A B]. destruct (Z.eq_dec p a); [congruence|]. lia.
           ++ rewrite Fo in Hq by assumption. destruct (H _ _ _ _ _ _ Pa Hq) as [A B]. destruct (Z.eq_dec p q); [congruence|]. lia.
        -- rewrite Fp in Hd. injection Hd as <- <-.
           destruct (Z.eq_dec q p) as [->|Nq]; [|destruct (Z.eq_dec q a) as [->|Nqa]].
           ++ rewrite Fp in Hq. injection Hq as <- <-. destruct (H _ _ _ _ _ _ Pp Pp) as [A B]. rewrite times_snoc. destruct (Z.eq_dec a p); [congruence|]. lia.
           ++ rewrite Fa in Hq. injection Hq as <- <-. exact (H _ _ _ _ _ _ Pp Pa).
           ++ rewrite Fo in Hq by assumption. exact (H _ _ _ _ _ _ Pp Hq).
        -- rewrite Fo in Hd by assumption.
           destruct (Z.eq_dec q p) as [->|Nq]; [|destruct (Z.eq_dec q a) as [->|Nqa]].
           ++ rewrite Fp in Hq. injection Hq as <- <-. destruct (H _ _ _ _ _ _ Hd Pp) as [A B]. rewrite times_snoc. destruct (Z.eq_dec a d); [congruence|]. lia.
           ++ rewrite Fa in Hq. injection Hq as <- <-. exact (H _ _ _ _ _ _ Hd Pa).
           ++ rewrite Fo in Hq by assumption. exact (H _ _ _ _ _ _ Hd Hq).
    + intros b r x. cbn [w_obj]. unfold put at 1. destruct (b =? p); [intros E; congruence|apply Mf].
Qed.

Lemma exec_obj_fam w a e : (match e with EMC (MC_addDaughter _) => False | _ => True end) -> modifiable w ->
  (forall b, fam_at (fst (ex w (WObj a e))) b = fam_at w b) /\ modifiable (fst (ex w (WObj a e))).
Proof.
  intros He Hm. cbn [exec]. destruct (w_obj w a) as [[ro o]|] eqn:Ea; [|split; [reflexivity|exact Hm]].
  pose proof (odo_fam ro o e He) as F. destruct (odo ro o e) as [o' r]. cbn [fst] in F |- *. split.
  - intros b. unfold fam_at. cbn [w_obj]. unfold put. destruct (Z.eqb_spec b a) as [->|]; [rewrite Ea; exact F|reflexivity].
  - intros b rb x. cbn [w_obj]. unfold put. destruct (b =? a); [|apply Hm]. intros E. injection E as <- <-. exact (Hm _ _ _ Ea).
Qed.

Lemma exec_family w c : family_call c = true -> modifiable w -> fmirror (fam_at w) ->
  fmirror (fam_at (fst (ex w c))) /\ modifiable (fst (ex w c)).
Proof.
  intros Hc Hm H. destruct c as [x|a x|a x|a p].
  - assert (O : w_obj (fst (ex w (WEv x))) = w_obj w).
    { destruct x as [n|a n|n|v|v|v|v|v|m|pc]; try discriminate; try reflexivity; cbn [exec ev_do].
      - destruct (ev_get (w_ev w) n) as [a|e|u]; try reflexivity.
        destruct (w_col w a) as [[ro c]|]; [|reflexivity].
        destruct (coll_do ro c (C_setBit BTransient true)) as [c' [t|e|u]]; reflexivity.
      - destruct (par_do false (es_par (w_ev w)) pc) as [p r]. reflexivity. }
    split; [|unfold modifiable; rewrite O; exact Hm]. apply (fmirror_ext (fam_at w)); [|exact H].
    intros b. unfold fam_at. rewrite O. reflexivity.
  - assert (O : w_obj (fst (ex w (WCol a x))) = w_obj w).
    { cbn [exec]. destruct (w_col w a) as [[ro c]|]; [|reflexivity]. destruct (coll_do ro c x) as [c' r]. reflexivity. }
    split; [|unfold modifiable; rewrite O; exact Hm]. apply (fmirror_ext (fam_at w)); [|exact H].
    intros b. unfold fam_at. rewrite O. reflexivity.
  - destruct (exec_obj_fam w a x) as [F M]; [|exact Hm|].
    + destruct x as [| | | | | | | | | | | | | | |c| | |]; try exact I. destruct c; try exact I. discriminate.
    + split; [|exact M]. apply (fmirror_ext (fam_at w)); [|exact H]. intros b. symmetry. apply F.
  - exact (add_parent_fam w a p Hm H).
Qed.

Lemma family_ok w cs : mirrored w -> modifiable w -> Forall (fun c => family_call c = true) cs -> mirrored (rn w cs).
Proof.
  intros H Hm Hc. apply mirrored_fam. apply mirrored_fam in H.
  assert (G : fmirror (fam_at (rn w cs)) /\ modifiable (rn w cs)); [|exact (proj1 G)].
  induction cs as [|c cs IH] using rev_ind; [split; assumption|].
  apply Forall_app in Hc. destruct Hc as [Hcs Hc]. inversion Hc as [|? ? Hc1 _]; subst.
  destruct (IH Hcs) as [I1 I2]. rewrite run_snoc. exact (exec_family _ _ Hc1 I2 I1).
Qed.

End Worlds.
