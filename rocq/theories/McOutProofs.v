(** * Proofs about the table of particles *)

From Coq Require Import ZArith List Bool Lia.
From Verif Require Import Bytes SioModel ObjModel FlagModel McOutModel McOutSpec.
Import ListNotations.
Open Scope Z_scope.

Lemma status_text z : z <> 0 -> status_string z = str "[" ++ letters_of status_letters z ++ str "]".
Proof.
  intros H. unfold status_string. destruct (Z.eqb_spec z 0) as [->|_]; [contradiction|]. unfold sim_is, letters_of, status_letters. cbn [sim_index flat_map fst snd].
  destruct (Z.testbit z 30), (Z.testbit z 29), (Z.testbit z 28), (Z.testbit z 27), (Z.testbit z 26), (Z.testbit z 25), (Z.testbit z 24), (Z.testbit z 23); reflexivity.
Qed.
Lemma letters_same l a b : Forall (fun x => exists c, fst x = [c] /\ [c] <> str " ") l -> letters_of l a = letters_of l b -> Forall (fun x => Z.testbit a (snd x) = Z.testbit b (snd x)) l.
Proof.
  induction 1 as [|[t i] l (c & E & N) _ IH]; intros H; [constructor|]. cbn [fst] in E. subst t. unfold letters_of in H. cbn [flat_map fst snd] in H. fold (letters_of l a) in H. fold (letters_of l b) in H.
  assert (T : Z.testbit a i = Z.testbit b i /\ letters_of l a = letters_of l b).
  { destruct (Z.testbit a i), (Z.testbit b i); [split; [reflexivity|exact (f_equal (skipn 1) H)]| | |split; [reflexivity|exact (f_equal (skipn 1) H)]]; exfalso; apply N.
    - exact (f_equal (firstn 1) H).
    - symmetry. exact (f_equal (firstn 1) H). }
  constructor; [exact (proj1 T)|exact (IH (proj2 T))].
Qed.
Lemma status_same a b : a <> 0 -> b <> 0 -> status_string a = status_string b <-> forall i, 23 <= i <= 30 -> Z.testbit a i = Z.testbit b i.
Proof.
  intros Ha Hb. rewrite (status_text a Ha), (status_text b Hb). split.
  - intros H. apply app_inv_head in H. apply app_inv_tail in H.
    assert (F : Forall (fun x => Z.testbit a (snd x) = Z.testbit b (snd x)) status_letters).
    { apply letters_same; [|exact H]. unfold status_letters. repeat (apply Forall_cons; [eexists; split; [reflexivity|discriminate]|]). apply Forall_nil. }
    intros i Hi. rewrite Forall_forall in F. assert (C : In i (map snd status_letters)) by (cbn; lia). apply in_map_iff in C. destruct C as (x & <- & Hx). exact (F x Hx).
  - intros H. unfold letters_of, status_letters. cbn [flat_map fst snd]. rewrite !H by lia. reflexivity.
Qed.
Lemma status_zero z : status_string z = str "[    0   ]" <-> z = 0.
Proof.
  split; [|intros ->; reflexivity]. intros H. destruct (Z.eq_dec z 0) as [E|E]; [exact E|exfalso]. rewrite (status_text z E) in H. revert H. unfold letters_of, status_letters. cbn [flat_map fst snd].
  destruct (Z.testbit z 30), (Z.testbit z 29), (Z.testbit z 28), (Z.testbit z 27), (Z.testbit z 26), (Z.testbit z 25), (Z.testbit z 24), (Z.testbit z 23); discriminate.
Qed.

(** ** The map of positions *)

(** the map gives positions, or 0 for what is not in the collection *)
Definition map_ok (els : list addr) (m : p2i) : Prop :=
  forall a, match p2i_find m a with Some i => stands_for els a i \/ (~ In a els /\ i = 0) | None => ~ In a els end.
Lemma fill_find els : forall k m a, p2i_find (p2i_fill k els m) a = match p2i_find (p2i_fill k els []) a with Some i => Some i | None => p2i_find m a end.
Proof.
  induction els as [|x els IH]; intros k m a; [reflexivity|]. cbn [p2i_fill]. rewrite (IH (k + 1) ((x, k) :: m) a), (IH (k + 1) [(x, k)] a).
  destruct (p2i_find (p2i_fill (k + 1) els []) a); [reflexivity|]. cbn [p2i_find]. destruct (x =? a); reflexivity.
Qed.
Lemma fill_positions els : forall k a, 0 <= k -> match p2i_find (p2i_fill k els []) a with Some i => k <= i /\ nth_error els (Z.to_nat (i - k)) = Some a | None => ~ In a els end.
Proof.
  induction els as [|x els IH]; intros k a Hk; [intros []|]. cbn [p2i_fill]. rewrite fill_find. specialize (IH (k + 1) a ltac:(lia)).
  destruct (p2i_find (p2i_fill (k + 1) els []) a) as [i|].
  - destruct IH as [H1 H2]. split; [lia|]. replace (Z.to_nat (i - k)) with (S (Z.to_nat (i - (k + 1)))) by lia. exact H2.
  - cbn [p2i_find]. destruct (Z.eqb_spec x a) as [->|N]; [split; [lia|]; rewrite Z.sub_diag; reflexivity|]. intros [H|H]; [exact (N H)|exact (IH H)].
Qed.
Lemma filled els : map_ok els (p2i_fill 0 els []).
Proof.
  intros a. pose proof (fill_positions els 0 a ltac:(lia)) as H. destruct (p2i_find (p2i_fill 0 els []) a) as [i|]; [|exact H].
  left. rewrite Z.sub_0_r in H. exact H.
Qed.
Definition shown_as (els : list addr) (a : addr) (i : Z) : Prop := stands_for els a i \/ (~ In a els /\ i = 0).
Lemma ref_ok els m a : map_ok els m -> shown_as els a (fst (p2i_ref m a)) /\ map_ok els (snd (p2i_ref m a)).
Proof.
  intros H. unfold p2i_ref. pose proof (H a) as Ha. destruct (p2i_find m a) as [i|]; cbn [fst snd]; [split; [exact Ha|exact H]|].
  split; [right; split; [exact Ha|reflexivity]|]. intros b. cbn [p2i_find]. destruct (Z.eqb_spec a b) as [<-|_]; [right; split; [exact Ha|reflexivity]|exact (H b)].
Qed.
Lemma refs_ok els : forall l m, map_ok els m -> Forall2 (shown_as els) l (fst (p2i_refs m l)) /\ map_ok els (snd (p2i_refs m l)).
Proof.
  induction l as [|a l IH]; intros m H; [split; [constructor|exact H]|]. cbn [p2i_refs]. destruct (ref_ok els m a H) as [H1 H2]. destruct (p2i_ref m a) as [i m1]. cbn [fst snd] in *.
  destruct (IH m1 H2) as [H3 H4]. destruct (p2i_refs m1 l) as [is m2]. cbn [fst snd] in *. split; [constructor; assumption|exact H4].
Qed.

(** what a line shows *)
Definition line_of (h : addr -> option obj) (els : list addr) (a : addr) (k : Z) (l : mcline) : Prop :=
  ln_index l = k /\ h a = Some (OMC (ln_part l)) /\ ln_status l = status_string (mc_sim (ln_part l)) /\
  Forall2 (shown_as els) (mc_parents (ln_part l)) (ln_parents l) /\ Forall2 (shown_as els) (mc_daughters (ln_part l)) (ln_daughters l).
Lemma lines_ok h els : forall rest k m, map_ok els m -> (forall a, In a rest -> exists p, h a = Some (OMC p)) ->
  exists ls, mc_lines h k rest m = Ok ls /\ length ls = length rest /\ forall i a, nth_error rest i = Some a -> exists l, nth_error ls i = Some l /\ line_of h els a (k + Z.of_nat i) l.
Proof.
  induction rest as [|a rest IH]; intros k m Hm Hh; [exists []; split; [reflexivity|]; split; [reflexivity|]; intros [|i] b H; discriminate H|].
  cbn [mc_lines]. destruct (Hh a (or_introl eq_refl)) as (p & E). rewrite E. destruct (refs_ok els (mc_parents p) m Hm) as [P1 P2]. destruct (p2i_refs m (mc_parents p)) as [ps m1]. cbn [fst snd] in *.
  destruct (refs_ok els (mc_daughters p) m1 P2) as [D1 D2]. destruct (p2i_refs m1 (mc_daughters p)) as [ds m2]. cbn [fst snd] in *.
  destruct (IH (k + 1) m2 D2 (fun b Hb => Hh b (or_intror Hb))) as (ls & EL & LL & HL). rewrite EL. cbn [bind]. eexists. split; [reflexivity|]. split; [cbn [length]; rewrite LL; reflexivity|].
  intros [|i] b H; cbn [nth_error] in *.
  - injection H as <-. eexists. split; [reflexivity|]. rewrite Z.add_0_r. repeat split; assumption.
  - destruct (HL i b H) as (l & H1 & H2). exists l. split; [exact H1|]. replace (k + Z.of_nat (S i)) with (k + 1 + Z.of_nat i) by lia. exact H2.
Qed.
Theorem table h els : (forall a, In a els -> exists p, h a = Some (OMC p)) ->
  exists ls, print_mcparticles h (str "MCParticle") els = Ok (Some ls) /\ length ls = length els /\ forall i a, nth_error els i = Some a -> exists l, nth_error ls i = Some l /\ line_of h els a (Z.of_nat i) l.
Proof.
  intros H. destruct (lines_ok h els els 0 _ (filled els) H) as (ls & E & L & HL). exists ls. unfold print_mcparticles. change (bytes_eqb (str "MCParticle") (str "MCParticle")) with true. cbv iota. rewrite E.
  split; [reflexivity|]. split; [exact L|]. intros i a Hi. destruct (HL i a Hi) as (l & H1 & H2). exists l. split; assumption.
Qed.
Lemma shown_in els l is : incl l els -> Forall2 (shown_as els) l is -> Forall2 (stands_for els) l is.
Proof. intros H. induction 1 as [|a i l is [S|[N _]] _ IH]; constructor; try (apply IH; intros x Hx; apply H; right; exact Hx); [exact S|]. exfalso. apply N. apply H. left. reflexivity. Qed.
