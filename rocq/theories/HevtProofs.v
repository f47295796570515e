(** * The conversion of HEPEVT *)

From Coq Require FinFun.
From Verif Require Import Bytes StrMap SioModel Ieee ObjModel HepModel HevtModel HevtSpec HepSpec HepProofs.

Lemma nth_ext_err {A} (l : list A) : forall l', (forall n, nth_error l n = nth_error l' n) -> l = l'.
Proof.
  induction l as [|x l IH]; intros [|y l'] H; [reflexivity|specialize (H O); discriminate|specialize (H O); discriminate|].
  pose proof (H O) as H0. cbn in H0. injection H0 as ->. f_equal. apply IH. intros n. apply (H (S n)).
Qed.

(** ** fromHepEvt: the first loop *)
Lemma hline_at_nth b j l : hline_at b (Z.of_nat j) = Ok l <-> nth_error b j = Some l.
Proof.
  unfold hline_at. rewrite Nat2Z.id. destruct (nth_error b j) as [x|] eqn:E.
  - assert (j < length b)%nat by (apply nth_error_Some; congruence).
    replace ((0 <=? Z.of_nat j) && (Z.of_nat j <? Zlen b)) with true by (unfold Zlen; symmetry; apply andb_true_iff; split; [apply Z.leb_le|apply Z.ltb_lt]; lia).
    split; congruence.
  - destruct (_ && _); split; discriminate.
Qed.
Lemma make_lines_ok b : forall n j, (j + n <= length b)%nat ->
  make_lines b n (Z.of_nat j) = Ok (map line_particle (firstn n (skipn j b))).
Proof.
  induction n as [|n IH]; intros j H; [reflexivity|]. cbn [make_lines].
  destruct (nth_error b j) as [l|] eqn:E; [|exfalso; apply nth_error_None in E; lia].
  rewrite (proj2 (hline_at_nth b j l) E). cbn [bind]. replace (Z.of_nat j + 1) with (Z.of_nat (S j)) by lia.
  rewrite IH by lia. cbn [bind]. f_equal.
  assert (Es : skipn j b = l :: skipn (S j) b).
  { clear - E. revert j E. induction b as [|x b IHb]; intros [|j] E; try discriminate; cbn in *; [congruence|]. apply IHb. exact E. }
  rewrite Es. reflexivity.
Qed.

(** ** the links: [K] lists them as pairs of daughter and parent *)
Definition parents_in (K : list (Z * Z)) (i : Z) : list Z := map snd (filter (fun dp => fst dp =? i) K).
Definition daughters_in (K : list (Z * Z)) (i : Z) : list Z := map fst (filter (fun dp => snd dp =? i) K).
Definition with_family (ps ds : list Z) (o : mcp) : mcp :=
  mkMC ps (mc_pdg o) (mc_gen o) (mc_sim o) (mc_vertex o) (mc_time o) (mc_p o) (mc_mass o) (mc_charge o) (mc_endpoint o) (mc_pend o) (mc_spin o) (mc_color o) ds.
(** the particles [l0] with the links [K] *)
Definition family (K : list (Z * Z)) (l0 l : parts) : Prop :=
  forall n, nth_error l n = option_map (with_family (parents_in K (Z.of_nat n)) (daughters_in K (Z.of_nat n))) (nth_error l0 n).

Lemma family_length K l0 l : family K l0 l -> length l = length l0.
Proof.
  intros H. assert (A : forall n, (n < length l)%nat <-> (n < length l0)%nat).
  { intros n. rewrite <- !nth_error_Some. rewrite (H n). destruct (nth_error l0 n); cbn; intuition congruence. }
  destruct (Nat.lt_trichotomy (length l) (length l0)) as [C|[C|C]]; [apply A in C; lia|exact C|apply A in C; lia].
Qed.
Lemma parents_in_app K d p i : parents_in (K ++ [(d, p)]) i = if d =? i then parents_in K i ++ [p] else parents_in K i.
Proof.
  unfold parents_in. rewrite filter_app, map_app. cbn [filter fst]. destruct (d =? i); cbn [map snd]; [reflexivity|apply app_nil_r].
Qed.
Lemma daughters_in_app K d p i : daughters_in (K ++ [(d, p)]) i = if p =? i then daughters_in K i ++ [d] else daughters_in K i.
Proof.
  unfold daughters_in. rewrite filter_app, map_app. cbn [filter snd]. destruct (p =? i); cbn [map fst]; [reflexivity|apply app_nil_r].
Qed.
Lemma parents_in_In K i p : In p (parents_in K i) <-> In (i, p) K.
Proof.
  unfold parents_in. rewrite in_map_iff. split.
  - intros ([d q] & <- & H). apply filter_In in H. destruct H as [H E]. cbn in *. apply Z.eqb_eq in E. subst. exact H.
  - intros H. exists (i, p). split; [reflexivity|]. apply filter_In. split; [exact H|]. cbn. apply Z.eqb_refl.
Qed.

Lemma part_nth l i : (i < length l)%nat -> exists o, part l (Z.of_nat i) = Ok o /\ nth_error l i = Some o.
Proof.
  intros H. destruct (nth_error l i) as [o|] eqn:E; [|apply nth_error_None in E; lia].
  exists o. split; [|reflexivity]. unfold part. rewrite Nat2Z.id, E.
  replace ((0 <=? Z.of_nat i) && (Z.of_nat i <? Zlen l)) with true; [reflexivity|].
  unfold Zlen. symmetry. apply andb_true_iff. split; [apply Z.leb_le|apply Z.ltb_lt]; lia.
Qed.

Lemma add_parent_family K l0 l d p : family K l0 l -> (d < length l0)%nat -> (p < length l0)%nat -> ~ In (Z.of_nat d, Z.of_nat p) K ->
  exists l', add_parent (Z.of_nat d) (Z.of_nat p) l = Ok l' /\ family (K ++ [(Z.of_nat d, Z.of_nat p)]) l0 l'.
Proof.
  intros HF Hd Hp Hn. pose proof (family_length _ _ _ HF) as HL. rewrite <- HL in Hd, Hp.
  destruct (part_nth l d Hd) as (o & Eo & No). destruct (part_nth l p Hp) as (q & Eq & Nq).
  unfold add_parent. rewrite Eo. cbn [bind].
  assert (Hex : existsb (Z.eqb (Z.of_nat p)) (mc_parents o) = false).
  { destruct (existsb _ _) eqn:E; [|reflexivity]. exfalso. apply Hn. apply existsb_in in E.
    rewrite HF in No. destruct (nth_error l0 d) as [o0|]; [|discriminate]. injection No as <-. cbn in E. apply parents_in_In. exact E. }
  rewrite Hex, Eq. cbn [bind]. eexists. split; [reflexivity|]. rewrite !Nat2Z.id.
  intros n. rewrite !change_nth, HF, parents_in_app, daughters_in_app.
  replace (Z.of_nat d =? Z.of_nat n) with (Nat.eqb d n) by (destruct (Nat.eqb_spec d n); symmetry; [apply Z.eqb_eq|apply Z.eqb_neq]; lia).
  replace (Z.of_nat p =? Z.of_nat n) with (Nat.eqb p n) by (destruct (Nat.eqb_spec p n); symmetry; [apply Z.eqb_eq|apply Z.eqb_neq]; lia).
  destruct (nth_error l0 n) as [o0|]; destruct (Nat.eqb d n), (Nat.eqb p n); reflexivity.
Qed.

(** the links of line [j] *)
Lemma more_parents_family l0 j : forall n i K l, family K l0 l -> (j < length l0)%nat -> (i + n <= length l0)%nat ->
  (forall p, In (Z.of_nat j, Z.of_nat p) K -> (p < i)%nat) ->
  exists l', more_parents_from (Z.of_nat j) (Z.of_nat i) n l = Ok l' /\
    family (K ++ map (fun p => (Z.of_nat j, Z.of_nat p)) (seq i n)) l0 l'.
Proof.
  induction n as [|n IH]; intros i K l HF Hj Hi HK.
  - exists l. split; [reflexivity|]. cbn [seq map]. rewrite app_nil_r. exact HF.
  - cbn [more_parents_from]. destruct (part_nth l i) as (o & Eo & _); [rewrite (family_length _ _ _ HF); lia|]. rewrite Eo. cbn [bind].
    destruct (add_parent_family K l0 l j i HF Hj ltac:(lia)) as (l1 & E1 & F1).
    { intros H. apply HK in H. lia. }
    rewrite E1. cbn [bind]. replace (Z.of_nat i + 1) with (Z.of_nat (S i)) by lia.
    destruct (IH (S i) (K ++ [(Z.of_nat j, Z.of_nat i)]) l1 F1 Hj ltac:(lia)) as (l2 & E2 & F2).
    { intros p Hp. apply in_app_or in Hp. destruct Hp as [Hp|[Hp|[]]]; [apply HK in Hp; lia|]. injection Hp as Hp. lia. }
    exists l2. split; [exact E2|]. cbn [seq map]. rewrite <- app_assoc in F2. exact F2.
Qed.

(** mothers as places from 0 *)
Definition mothers0 (l : hline) : list Z := map (fun m => m - 1) (mothers l).
Definition line_links (j : nat) (l : hline) : list (Z * Z) := map (fun p => (Z.of_nat j, p)) (mothers0 l).

Lemma mothers0_range l : 0 < hl_mo1 l -> hl_mo1 l < hl_mo2 l ->
  mothers0 l = map Z.of_nat (seq (Z.to_nat (hl_mo1 l - 1)) (S (Z.to_nat (hl_mo2 l - hl_mo1 l)))).
Proof.
  intros H1 H2. unfold mothers0, mothers. rewrite (proj2 (Z.ltb_lt _ _) H1), (proj2 (Z.ltb_lt _ _) H2), map_map.
  replace (Z.to_nat (hl_mo2 l - hl_mo1 l + 1)) with (S (Z.to_nat (hl_mo2 l - hl_mo1 l))) by lia.
  generalize (S (Z.to_nat (hl_mo2 l - hl_mo1 l))). intros n.
  assert (G : forall n a, map (fun x => hl_mo1 l + Z.of_nat x - 1) (seq a n) = map Z.of_nat (seq (Z.to_nat (hl_mo1 l - 1) + a) n)).
  { clear n. induction n as [|n IH]; intros a; [reflexivity|]. cbn [seq map]. f_equal; [lia|]. rewrite IH. f_equal. f_equal. lia. }
  rewrite G. f_equal. f_equal. lia.
Qed.
Lemma mothers0_one l : 0 < hl_mo1 l -> ~ hl_mo1 l < hl_mo2 l -> mothers0 l = [hl_mo1 l - 1].
Proof.
  intros H1 H2. unfold mothers0, mothers. rewrite (proj2 (Z.ltb_lt _ _) H1), (proj2 (Z.ltb_nlt _ _) H2). reflexivity.
Qed.
Lemma mothers0_none l : ~ 0 < hl_mo1 l -> mothers0 l = [].
Proof. intros H1. unfold mothers0, mothers. rewrite (proj2 (Z.ltb_nlt _ _) H1). reflexivity. Qed.

Lemma line_parents_family b l0 ln j K l : family K l0 l -> nth_error b j = Some ln -> (j < length l0)%nat ->
  (0 < hl_mo1 ln -> hl_mo1 ln <= Z.of_nat (length l0) /\ hl_mo2 ln <= Z.of_nat (length l0)) ->
  (forall p, ~ In (Z.of_nat j, p) K) ->
  exists l', line_parents b (Z.of_nat j) l = Ok l' /\ family (K ++ line_links j ln) l0 l'.
Proof.
  intros HF Hb Hj Hm HK. unfold line_parents. rewrite (proj2 (hline_at_nth b j ln) Hb). cbn [bind]. unfold line_links.
  destruct (0 <? hl_mo1 ln) eqn:E1.
  - apply Z.ltb_lt in E1. destruct (Hm E1) as [M1 M2].
    pose (p := Z.to_nat (hl_mo1 ln - 1)). assert (Ep : hl_mo1 ln - 1 = Z.of_nat p) by (unfold p; lia). rewrite Ep.
    destruct (part_nth l p) as (o & Eo & _); [rewrite (family_length _ _ _ HF); lia|]. rewrite Eo. cbn [bind].
    destruct (add_parent_family K l0 l j p HF Hj ltac:(lia) (HK _)) as (l1 & A1 & F1). rewrite A1. cbn [bind].
    destruct (Z.lt_decidable (hl_mo1 ln) (hl_mo2 ln)) as [E2|E2].
    + rewrite (proj2 (Z.ltb_lt 0 (hl_mo2 ln))) by lia. rewrite (mothers0_range _ E1 E2).
      destruct (more_parents_family l0 j (Z.to_nat (hl_mo2 ln - hl_mo1 ln)) (S p) (K ++ [(Z.of_nat j, Z.of_nat p)]) l1 F1 Hj ltac:(lia)) as (l2 & A2 & F2).
      { intros q Hq. apply in_app_or in Hq. destruct Hq as [Hq|[Hq|[]]]; [exfalso; exact (HK _ Hq)|]. injection Hq as Hq. lia. }
      exists l2. split; [replace (hl_mo1 ln) with (Z.of_nat (S p)) at 1 by lia; exact A2|]. cbn [seq map]. rewrite <- app_assoc in F2. fold p. rewrite map_map. exact F2.
    + rewrite (mothers0_one _ E1 E2), Ep. exists l1. split; [|exact F1].
      destruct (0 <? hl_mo2 ln); [|reflexivity]. replace (Z.to_nat (hl_mo2 ln - hl_mo1 ln)) with O by lia. reflexivity.
  - apply Z.ltb_nlt in E1. rewrite (mothers0_none _ E1). exists l. split; [reflexivity|]. cbn [map]. rewrite app_nil_r. exact HF.
Qed.

Fixpoint all_links (j : nat) (ls : list hline) : list (Z * Z) :=
  match ls with [] => [] | l :: ls' => line_links j l ++ all_links (S j) ls' end.
Lemma all_links_app a : forall j b, all_links j (a ++ b) = all_links j a ++ all_links (j + length a) b.
Proof.
  induction a as [|x a IH]; intros j b; cbn [app all_links length]; [rewrite Nat.add_0_r; reflexivity|].
  rewrite IH, <- app_assoc. f_equal. f_equal. f_equal. lia.
Qed.
Lemma all_links_fst ls : forall j d p, In (d, p) (all_links j ls) -> Z.of_nat j <= d < Z.of_nat (j + length ls).
Proof.
  induction ls as [|l ls IH]; intros j d p H; [destruct H|]. cbn [all_links length] in *. apply in_app_or in H. destruct H as [H|H].
  - unfold line_links in H. apply in_map_iff in H. destruct H as (q & E & _). injection E as <- _. lia.
  - apply IH in H. lia.
Qed.

Lemma each_family b l0 N : length l0 = N -> (N <= length b)%nat ->
  (forall ln, In ln (firstn N b) -> 0 < hl_mo1 ln -> hl_mo1 ln <= Z.of_nat N /\ hl_mo2 ln <= Z.of_nat N) ->
  forall n j l, (j + n = N)%nat -> family (all_links 0 (firstn j b)) l0 l ->
  exists l', each (line_parents b) n (Z.of_nat j) l = Ok l' /\ family (all_links 0 (firstn N b)) l0 l'.
Proof.
  intros HL HN Hm. induction n as [|n IH]; intros j l Hj HF.
  - exists l. split; [reflexivity|]. replace N with j by lia. exact HF.
  - cbn [each]. destruct (nth_error b j) as [ln|] eqn:E; [|exfalso; apply nth_error_None in E; lia].
    assert (Ef : firstn (S j) b = firstn j b ++ [ln]).
    { clear - E. revert j E. induction b as [|x b IHb]; intros [|j] E; try discriminate; cbn in *; [congruence|]. f_equal. apply IHb. exact E. }
    assert (Hin : In ln (firstn N b)).
    { rewrite <- (firstn_skipn (S j) (firstn N b)). apply in_or_app. left. rewrite firstn_firstn. replace (Nat.min (S j) N) with (S j) by lia.
      rewrite Ef. apply in_or_app. right. left. reflexivity. }
    destruct (line_parents_family b l0 ln j _ l HF E ltac:(lia)) as (l1 & A1 & F1).
    + rewrite HL. apply Hm. exact Hin.
    + intros p Hp. apply all_links_fst in Hp. rewrite firstn_length_le in Hp by lia. lia.
    + rewrite A1. cbn [bind]. replace (Z.of_nat j + 1) with (Z.of_nat (S j)) by lia. apply IH; [lia|].
      rewrite Ef, all_links_app. rewrite firstn_length_le by lia. cbn [all_links Nat.add]. rewrite app_nil_r. exact F1.
Qed.

Lemma unfamily l0 : (forall o, In o l0 -> mc_parents o = [] /\ mc_daughters o = []) -> family [] l0 l0.
Proof.
  intros H n. destruct (nth_error l0 n) as [o|] eqn:E; [|reflexivity]. cbn. f_equal.
  apply nth_error_In in E. destruct (H o E) as [H1 H2]. destruct o; cbn in *. subst. reflexivity.
Qed.

Lemma hepevt_particles_ok b : block_ok b -> exists l, hepevt_particles b = Ok l /\
  family (all_links 0 (used b)) (map line_particle (used b)) l.
Proof.
  intros [Hn Hm]. unfold hepevt_particles. set (N := Z.to_nat (hb_n b)).
  assert (HN : (N <= length (hb_lines b))%nat) by (unfold N, Zlen in *; lia).
  pose proof (make_lines_ok (hb_lines b) N 0 HN) as HM. cbn [skipn] in HM. change (Z.of_nat 0) with 0 in HM. rewrite HM. cbn [bind].
  unfold N. fold (used b). fold N.
  assert (HL : length (map line_particle (used b)) = N) by (rewrite map_length; unfold used; fold N; apply firstn_length_le; exact HN).
  change 0 with (Z.of_nat 0). apply (each_family (hb_lines b) (map line_particle (used b)) N HL HN) with (j := 0%nat).
  - intros ln Hin H. specialize (Hm ln Hin H). unfold N. rewrite Z2Nat.id by lia. exact Hm.
  - reflexivity.
  - cbn [firstn all_links]. apply unfamily. intros o Ho. apply in_map_iff in Ho. destruct Ho as (ln & <- & _). split; reflexivity.
Qed.

(** ** the family that results *)
Lemma parents_all ls : forall j n l, nth_error ls n = Some l -> parents_in (all_links j ls) (Z.of_nat (j + n)) = mothers0 l.
Proof.
  assert (Hline : forall j l i, parents_in (line_links j l) i = if Z.of_nat j =? i then mothers0 l else []).
  { intros j l i. unfold parents_in, line_links. induction (mothers0 l) as [|p ps IH]; cbn [map filter fst]; [destruct (_ =? _); reflexivity|].
    destruct (Z.of_nat j =? i); cbn [map snd]; [f_equal; exact IH|exact IH]. }
  assert (Happ : forall a b i, parents_in (a ++ b) i = parents_in a i ++ parents_in b i).
  { intros a b i. unfold parents_in. rewrite filter_app, map_app. reflexivity. }
  induction ls as [|x ls IH]; intros j n l E; [destruct n; discriminate|]. cbn [all_links]. rewrite Happ, Hline.
  destruct n as [|n].
  - cbn in E. injection E as ->. rewrite Nat.add_0_r, Z.eqb_refl.
    replace (parents_in (all_links (S j) ls) (Z.of_nat j)) with (@nil Z); [apply app_nil_r|].
    symmetry. destruct (parents_in (all_links (S j) ls) (Z.of_nat j)) as [|p ps] eqn:Ep; [reflexivity|]. exfalso.
    assert (Hin : In p (parents_in (all_links (S j) ls) (Z.of_nat j))) by (rewrite Ep; left; reflexivity).
    apply parents_in_In in Hin. apply all_links_fst in Hin. lia.
  - cbn in E. replace (Z.of_nat j =? Z.of_nat (j + S n)) with false by (symmetry; apply Z.eqb_neq; lia).
    cbn [app]. replace (j + S n)%nat with (S j + n)%nat by lia. apply IH. exact E.
Qed.

Lemma mothers0_nodup l : NoDup (mothers0 l).
Proof.
  destruct (Z.lt_decidable 0 (hl_mo1 l)) as [H1|H1]; [|rewrite (mothers0_none _ H1); constructor].
  destruct (Z.lt_decidable (hl_mo1 l) (hl_mo2 l)) as [H2|H2]; [|rewrite (mothers0_one _ H1 H2); repeat constructor; intros []].
  rewrite (mothers0_range _ H1 H2). apply FinFun.Injective_map_NoDup; [intros x y E; lia|apply seq_NoDup].
Qed.

Lemma daughters_all ls : forall j p, daughters_in (all_links j ls) p =
  map fst (filter (fun il => existsb (Z.eqb p) (mothers0 (snd il))) (combine (map Z.of_nat (seq j (length ls))) ls)).
Proof.
  assert (Hline : forall j l p, daughters_in (line_links j l) p = if existsb (Z.eqb p) (mothers0 l) then [Z.of_nat j] else []).
  { intros j l p. pose proof (mothers0_nodup l) as Hn. unfold daughters_in, line_links.
    induction Hn as [|q qs Hq Hn IH]; cbn [map filter existsb snd]; [reflexivity|]. destruct (Z.eqb_spec q p) as [->|Hne].
    - rewrite Z.eqb_refl. cbn [orb map fst]. rewrite IH. destruct (existsb (Z.eqb p) qs) eqn:E; [|reflexivity]. apply existsb_in in E. contradiction.
    - rewrite (proj2 (Z.eqb_neq p q)) by congruence. cbn [orb]. exact IH. }
  induction ls as [|l ls IH]; intros j p; [reflexivity|]. cbn [all_links length seq map combine filter snd].
  unfold daughters_in. rewrite filter_app, map_app. fold (daughters_in (line_links j l) p). fold (daughters_in (all_links (S j) ls) p).
  rewrite Hline, IH. destruct (existsb (Z.eqb p) (mothers0 l)); reflexivity.
Qed.

(** in numbers from 1 *)
Lemma mothers_mothers0 l k : existsb (Z.eqb k) (mothers0 l) = existsb (Z.eqb (k + 1)) (mothers l).
Proof.
  unfold mothers0. induction (mothers l) as [|m ms IH]; [reflexivity|]. cbn [map existsb]. rewrite IH. f_equal.
  destruct (Z.eqb_spec k (m - 1)), (Z.eqb_spec (k + 1) m); try reflexivity; lia.
Qed.
Lemma daughters_of_all ls k : daughters_of ls (k + 1) = map (fun d => d + 1) (daughters_in (all_links 0 ls) k).
Proof.
  rewrite daughters_all. unfold daughters_of, numbered. rewrite map_map.
  assert (G : forall a, map fst (filter (fun il => existsb (Z.eqb (k + 1)) (mothers (snd il))) (combine (map (fun i => 1 + Z.of_nat i) (seq a (length ls))) ls)) =
     map (fun x => fst x + 1) (filter (fun il => existsb (Z.eqb k) (mothers0 (snd il))) (combine (map Z.of_nat (seq a (length ls))) ls))).
  { induction ls as [|l ls IH]; intros a; [reflexivity|]. cbn [length seq map combine filter snd]. rewrite mothers_mothers0.
    destruct (existsb (Z.eqb (k + 1)) (mothers l)); cbn [map fst]; [f_equal; [lia|]|]; apply IH. }
  apply G.
Qed.

(** ** fromHepEvt *)
Lemma fill_ptrs_ok elems : forall b, (length elems <= length b)%nat -> exists b', fill_ptrs elems b = Ok b' /\
  forall n, nth_error b' n = match nth_error elems n with Some a => option_map (with_ptr a) (nth_error b n) | None => nth_error b n end.
Proof.
  induction elems as [|a elems IH]; intros [|l b] H; cbn [length] in H; try lia.
  - exists []. split; [reflexivity|]. intros [|n]; reflexivity.
  - exists (l :: b). split; [reflexivity|]. intros [|n]; reflexivity.
  - destruct (IH b ltac:(lia)) as (b' & E & F). cbn [fill_ptrs]. rewrite E. cbn [bind]. eexists. split; [reflexivity|].
    intros [|n]; [reflexivity|]. exact (F n).
Qed.
Lemma addresses_nth base n i : (i < n)%nat -> nth_error (addresses base n) i = Some (base + Z.of_nat i).
Proof.
  intros H. unfold addresses. apply (map_nth_error (fun i => base + Z.of_nat i)). rewrite (nth_error_nth' _ 0%nat) by (rewrite seq_length; exact H). rewrite seq_nth by exact H. reflexivity.
Qed.
Lemma addresses_length base n : length (addresses base n) = n.
Proof. unfold addresses. rewrite map_length, seq_length. reflexivity. Qed.

Lemma used_length b : block_ok b -> length (used b) = Z.to_nat (hb_n b).
Proof. intros [H _]. unfold used. apply firstn_length_le. unfold Zlen in H. lia. Qed.
Lemma used_nth b j : (j < Z.to_nat (hb_n b))%nat -> nth_error (used b) j = nth_error (hb_lines b) j.
Proof.
  unfold used. generalize (Z.to_nat (hb_n b)) as n. generalize (hb_lines b) as l. induction j as [|j IH]; intros [|x l] [|n] H; try lia; try reflexivity.
  cbn. apply IH. lia.
Qed.

Lemma from_hepevt_ok base b e : block_ok b -> sm_ok (hv_cols e) -> sm_get mcparticle_name (hv_cols e) = None ->
  exists l ls, hepevt_particles b = Ok l /\ family (all_links 0 (used b)) (map line_particle (used b)) l /\
    from_hepevt base None b e =
      (mkHB (hb_event b) (hb_n b) ls,
       mkHEv (hv_num e) (sm_set mcparticle_name (addresses base (length l)) (hv_cols e)) (placed base l (hv_heap e)), Ok tt) /\
    (forall n, nth_error ls n = if Nat.ltb n (Z.to_nat (hb_n b)) then option_map (with_ptr (base + Z.of_nat n)) (nth_error (hb_lines b) n)
                                else nth_error (hb_lines b) n).
Proof.
  intros Hb Hs Hg. destruct (hepevt_particles_ok b Hb) as (l & El & Fl). pose proof (family_length _ _ _ Fl) as HL.
  rewrite map_length, (used_length b Hb) in HL.
  destruct (fill_ptrs_ok (addresses base (length l)) (hb_lines b)) as (ls & E & F).
  { rewrite addresses_length, HL. destruct Hb as [H _]. unfold Zlen in H. lia. }
  exists l, ls. split; [exact El|]. split; [exact Fl|]. split.
  - unfold from_hepevt. rewrite El. cbn [col_name]. change (negb (validate mcparticle_name)) with false. cbn iota. rewrite Hg. cbn [hv_cols].
    rewrite sm_get_set by exact Hs. rewrite (proj2 (bytes_eqb_eq _ _) eq_refl). rewrite E. reflexivity.
  - intros n. rewrite F. destruct (Nat.ltb_spec n (Z.to_nat (hb_n b))) as [H|H].
    + rewrite addresses_nth by lia. reflexivity.
    + rewrite (proj2 (nth_error_None (addresses base (length l)) n)) by (rewrite addresses_length; lia). reflexivity.
Qed.

(** ** toHepEvt *)
Lemma placed_at base l h i o : nth_error l i = Some o -> placed base l h (base + Z.of_nat i) = Some (moved base o).
Proof.
  intros E. assert (i < length l)%nat by (apply nth_error_Some; congruence). unfold placed.
  replace ((base <=? base + Z.of_nat i) && (base + Z.of_nat i <? base + Zlen l)) with true
    by (unfold Zlen; symmetry; apply andb_true_iff; split; [apply Z.leb_le|apply Z.ltb_lt]; lia).
  replace (Z.to_nat (base + Z.of_nat i - base)) with i by lia. rewrite E. reflexivity.
Qed.
Lemma place_found base l h i : (i < length l)%nat -> place_of (placed base l h) (base + Z.of_nat i) (addresses base (length l)) 0 = Z.of_nat i + 1.
Proof.
  intros Hi. assert (C : forall k, (k < length l)%nat -> mc_cast (placed base l h) (base + Z.of_nat k) = base + Z.of_nat k).
  { intros k Hk. destruct (nth_error l k) as [o|] eqn:E; [|apply nth_error_None in E; lia]. unfold mc_cast. rewrite (placed_at _ _ _ _ _ E). reflexivity. }
  assert (G : forall m a, (a <= i < a + m)%nat -> (a + m = length l)%nat ->
     place_of (placed base l h) (base + Z.of_nat i) (map (fun k => base + Z.of_nat k) (seq a m)) (Z.of_nat a) = Z.of_nat i + 1).
  { induction m as [|m IH]; intros a H1 H2; [lia|]. cbn [seq map place_of]. rewrite C by lia.
    destruct (Z.eqb_spec (base + Z.of_nat i) (base + Z.of_nat a)) as [E|E]; [lia|].
    replace (Z.of_nat a + 1) with (Z.of_nat (S a)) by lia. apply IH; lia. }
  apply (G (length l) 0%nat); lia.
Qed.
Lemma place_null base l h : 0 < base -> place_of (placed base l h) 0 (addresses base (length l)) 0 = 0.
Proof.
  intros Hb. assert (G : forall m a jj, (a + m = length l)%nat -> place_of (placed base l h) 0 (map (fun k => base + Z.of_nat k) (seq a m)) jj = 0).
  { induction m as [|m IH]; intros a jj H; [reflexivity|]. cbn [seq map place_of].
    destruct (nth_error l a) as [o|] eqn:E; [|apply nth_error_None in E; lia]. unfold mc_cast. rewrite (placed_at _ _ _ _ _ E).
    rewrite (proj2 (Z.eqb_neq 0 (base + Z.of_nat a))) by lia. apply IH. lia. }
  apply (G (length l) 0%nat). reflexivity.
Qed.
Lemma set_line_nth x b : forall n m, nth_error (set_line n x b) m = if Nat.eqb n m then option_map (fun _ => x) (nth_error b m) else nth_error b m.
Proof. induction b as [|y b IH]; intros [|n] [|m]; cbn; try reflexivity; [destruct (Nat.eqb n m); reflexivity|apply IH]. Qed.

Section To.
Context (energy : list Z -> Z -> Z) (largest : list Z -> option nat) (travel : Z -> Z -> Z -> Z -> Z -> Z).

(** the line of a particle, with the production time left open *)
Definition line_of (h : addr -> option mcp) (elems : list addr) (a : addr) (o : mcp) (t : Z) : hline :=
  let '(m1, m2) := mother_places h elems o in
  let '(d1, d2) := daughter_places h elems o in
  let p k := nth k (mc_p o) 0 in let v k := nth k (mc_vertex o) 0 in
  mkHL (mc_gen o) (mc_pdg o) m1 m2 d1 d2
                  [p 0%nat; p 1%nat; p 2%nat; energy (mc_p o) (mc_mass o); mc_mass o]
                  [v 0%nat; v 1%nat; v 2%nat; t] a (mc_charge o).

Lemma fill_lines_ok h elems : (forall a o, In a elems -> h a = Some o -> forall p ps, mc_parents o = p :: ps -> In p elems) ->
  (forall a, In a elems -> h a <> None /\ a <> 0) ->
  forall todo done b, elems = done ++ todo -> (length elems <= length b)%nat ->
  exists b', fill_lines energy largest travel h elems todo (Z.of_nat (length done)) b = Ok b' /\ length b' = length b /\
    forall n, (n < length done \/ length elems <= n)%nat /\ nth_error b' n = nth_error b n \/
      (length done <= n < length elems)%nat /\
      exists a o t, nth_error elems n = Some a /\ h a = Some o /\ nth_error b' n = Some (line_of h elems a o t) /\ (mc_parents o = [] -> t = 0).
Proof.
  intros Hp Hh. induction todo as [|a todo IH]; intros done b HE HL.
  - exists b. split; [reflexivity|]. split; [reflexivity|]. intros n. left. split; [|reflexivity]. rewrite app_nil_r in HE. subst. lia.
  - cbn [fill_lines]. unfold fill_line. assert (Ha : In a elems) by (rewrite HE; apply in_or_app; right; left; reflexivity).
    destruct (Hh a Ha) as [Hne _]. destruct (h a) as [o|] eqn:Eo; [|congruence].
    assert (HD : (length done < length elems)%nat) by (rewrite HE, app_length; cbn; lia).
    destruct (nth_error b (length done)) as [l0|] eqn:E0; [|apply nth_error_None in E0; lia].
    rewrite (proj2 (hline_at_nth _ _ _) E0). cbn [bind].
    destruct (mother_places h elems o) as [m1 m2] eqn:EM. destruct (daughter_places h elems o) as [d1 d2] eqn:ED.
    assert (HT : exists t, production_time energy largest travel h b m1 o = Ok t /\ (mc_parents o = [] -> t = 0)).
    { unfold production_time. destruct (mc_parents o) as [|p ps] eqn:EP; [exists 0; split; auto|].
      destruct (largest (mc_vertex o)) as [k|]; [|exists 0; split; auto]. pose proof (Hp a o Ha Eo p ps EP) as Hin.
      destruct (Hh p Hin) as [Hp1 Hp2]. rewrite (proj2 (Z.eqb_neq p 0) Hp2).
      assert (HM : exists i, (i < length elems)%nat /\ m1 = Z.of_nat i + 1).
      { unfold mother_places in EM. rewrite EP in EM.
        assert (G : forall es jj, In p es -> exists i, (i < length es)%nat /\ place_of h p es jj = jj + Z.of_nat i + 1).
        { induction es as [|x es IHe]; intros jj Hx; [destruct Hx|destruct Hx as [->|H]].
          - exists O. cbn [length place_of]. unfold mc_cast. destruct (h p) as [q|]; [|congruence]. rewrite Z.eqb_refl. split; lia.
          - cbn [length place_of]. destruct (p =? mc_cast h x); [exists O; split; lia|]. destruct (IHe (jj + 1) H) as (i & I1 & I2). exists (S i). split; lia. }
        destruct (G elems 0 Hin) as (i & I1 & I2). exists i. split; [exact I1|]. rewrite I2 in EM.
        rewrite (proj2 (Z.ltb_lt _ _)) in EM by lia. injection EM as EM _. lia. }
      destruct HM as (i & Hi & ->). replace (Z.of_nat i + 1 - 1) with (Z.of_nat i) by lia.
      destruct (nth_error b i) as [lm|] eqn:Ei; [|apply nth_error_None in Ei; lia]. rewrite (proj2 (hline_at_nth _ _ _) Ei). cbn [bind].
      destruct (h p) as [m|]; [|congruence]. eexists. split; [reflexivity|]. discriminate. }
    destruct HT as (t & ET & HT0). rewrite ET. cbn [bind]. rewrite Nat2Z.id.
    match goal with |- context [set_line _ ?x b] => set (x0 := x) end.
    assert (Ex : x0 = line_of h elems a o t) by (unfold line_of; rewrite EM, ED; reflexivity).
    assert (HLs : length (set_line (length done) x0 b) = length b).
    { clear. generalize (length done). induction b as [|y b IHb]; intros [|n]; cbn; try reflexivity. rewrite IHb. reflexivity. }
    destruct (IH (done ++ [a]) (set_line (length done) x0 b)) as (b' & E1 & E2 & E3).
    { rewrite HE, <- app_assoc. reflexivity. }
    { rewrite HLs. exact HL. }
    rewrite app_length in E1. cbn [length] in E1. replace (Z.of_nat (length done) + 1) with (Z.of_nat (length done + 1)) by lia.
    exists b'. split; [exact E1|]. split; [rewrite E2; exact HLs|]. intros n. destruct (E3 n) as [[H1 H2]|[H1 H2]].
    + rewrite app_length in H1. cbn [length] in H1. rewrite set_line_nth in H2. destruct (Nat.eqb_spec (length done) n) as [Hn|Hn].
      * right. split; [lia|]. exists a, o, t. rewrite HE. rewrite <- Hn at 1. rewrite nth_error_app2, Nat.sub_diag by lia.
        split; [reflexivity|]. split; [exact Eo|]. rewrite <- HE. rewrite <- Hn, E0 in H2. rewrite <- Hn, H2, <- Ex. split; [reflexivity|exact HT0].
      * left. split; [lia|exact H2].
    + rewrite app_length in H1. cbn [length] in H1. right. split; [lia|exact H2].
Qed.
End To.

(** ** there and back *)
Lemma line_back energy ls base l h j ln o t : 0 < base ->
  (forall x, In x ls -> 0 < hl_mo1 x -> hl_mo1 x <= Z.of_nat (length ls) /\ hl_mo2 x <= Z.of_nat (length ls)) ->
  family (all_links 0 ls) (map line_particle ls) l -> nth_error ls j = Some ln -> nth_error l j = Some o ->
  (mc_parents (moved base o) = [] -> t = 0) ->
  back energy ls base (Z.of_nat j + 1) ln (line_of energy (placed base l h) (addresses base (length l)) (base + Z.of_nat j) (moved base o) t).
Proof.
  intros Hb Hm HF Hj Ho Ht. pose proof (family_length _ _ _ HF) as HL. rewrite map_length in HL.
  specialize (Hm ln (nth_error_In _ _ Hj)). pose proof (HF j) as Hoj. rewrite Ho, (map_nth_error _ _ _ Hj) in Hoj. cbn [option_map] in Hoj.
  injection Hoj as ->. pose proof (parents_all ls 0 j ln Hj) as HP. cbn [Nat.add] in HP. rewrite HP in *.
  set (ds := daughters_in (all_links 0 ls) (Z.of_nat j)) in *.
  pose proof (daughters_of_all ls (Z.of_nat j)) as HD. fold ds in HD.
  assert (Hds : forall d, In d ds -> exists i, d = Z.of_nat i /\ (i < length l)%nat).
  { intros d Hd. unfold ds, daughters_in in Hd. apply in_map_iff in Hd. destruct Hd as ([d' p'] & <- & Hd). apply filter_In in Hd. destruct Hd as [Hd _].
    apply all_links_fst in Hd. cbn [fst]. exists (Z.to_nat d'). split; lia. }
  set (o1 := moved base _) in *.
  assert (EM : mother_places (placed base l h) (addresses base (length l)) o1 =
    (if 0 <? hl_mo1 ln then hl_mo1 ln else 0, if (0 <? hl_mo1 ln) && (hl_mo1 ln <? hl_mo2 ln) then hl_mo2 ln else 0)).
  { unfold mother_places. unfold o1. unfold moved, with_family. cbn [mc_parents].
    destruct (Z.ltb_spec 0 (hl_mo1 ln)) as [M1|M1]; cbn [andb].
    - destruct (Hm M1) as [R1 R2]. destruct (Z.ltb_spec (hl_mo1 ln) (hl_mo2 ln)) as [M2|M2].
      + rewrite (mothers0_range _ M1 M2). cbn [seq map].
        rewrite place_found by lia. rewrite (proj2 (Z.ltb_lt _ _)) by lia.
        rewrite (proj2 (Z.ltb_lt 1 _)) by (unfold Zlen; cbn [length]; rewrite !map_length, seq_length; lia).
        assert (El : last ((base + Z.of_nat (Z.to_nat (hl_mo1 ln - 1))) :: map (Z.add base) (map Z.of_nat (seq (S (Z.to_nat (hl_mo1 ln - 1))) (Z.to_nat (hl_mo2 ln - hl_mo1 ln))))) 0 = base + Z.of_nat (Z.to_nat (hl_mo2 ln - 1))).
        { pose (n := Z.to_nat (hl_mo2 ln - hl_mo1 ln)). assert (En : exists n', n = S n') by (exists (pred n); unfold n; lia).
          destruct En as [n' En]. fold n. rewrite En, seq_S, !map_app. cbn [map].
          rewrite app_comm_cons, last_last. f_equal. f_equal. unfold n in En. lia. }
        rewrite El, place_found by lia. f_equal; lia.
      + rewrite (mothers0_one _ M1) by lia. cbn [map]. replace (hl_mo1 ln - 1) with (Z.of_nat (Z.to_nat (hl_mo1 ln - 1))) by lia.
        rewrite place_found by lia. rewrite (proj2 (Z.ltb_lt _ _)) by lia. change (1 <? Zlen [base + Z.of_nat (Z.to_nat (hl_mo1 ln - 1))]) with false. cbn iota.
        rewrite place_null by exact Hb. f_equal. lia.
    - rewrite mothers0_none by lia. cbn [map]. rewrite place_null by exact Hb. reflexivity. }
  assert (ED : daughter_places (placed base l h) (addresses base (length l)) o1 =
    if hl_st ln =? 3 then (0, 0) else match daughters_of ls (Z.of_nat j + 1) with [] => (0, 0) | d :: ds => (d, d + Zlen ds) end).
  { unfold daughter_places. change (mc_gen o1) with (hl_st ln). destruct (hl_st ln =? 3); [reflexivity|].
    change (mc_daughters o1) with (map (Z.add base) ds). rewrite HD. destruct ds as [|d ds'] eqn:Eds; [reflexivity|]. cbn [map].
    destruct (Hds d (or_introl eq_refl)) as (i & -> & Hi). rewrite place_found by exact Hi. rewrite (proj2 (Z.ltb_lt _ _)) by lia.
    f_equal. unfold Zlen. cbn [length]. rewrite !map_length. lia. }
  unfold line_of. rewrite EM, ED.
  destruct (if hl_st ln =? 3 then (0, 0) else match daughters_of ls (Z.of_nat j + 1) with [] => (0, 0) | d :: ds0 => (d, d + Zlen ds0) end) as [d1 d2] eqn:E12.
  constructor; try reflexivity.
  - symmetry. exact E12.
  - exists t. split; [reflexivity|]. intros H. apply Ht. unfold o1, moved, with_family. cbn [mc_parents]. rewrite mothers0_none by lia. reflexivity.
  - cbn [hl_ptr]. lia.
Qed.

Theorem there_and_back energy largest travel base b e : 0 < base -> block_ok b -> sm_ok (hv_cols e) -> sm_get mcparticle_name (hv_cols e) = None ->
  exists b1 e1 b2, from_hepevt base None b e = (b1, e1, Ok tt) /\ to_hepevt energy largest travel None e1 b1 = (b2, Ok tt) /\
    hb_event b2 = hv_num e /\ hb_n b2 = hb_n b /\ length (hb_lines b2) = length (hb_lines b) /\
    (forall n, (Z.to_nat (hb_n b) <= n)%nat -> nth_error (hb_lines b2) n = nth_error (hb_lines b) n) /\
    forall j l, nth_error (used b) j = Some l -> exists l', nth_error (hb_lines b2) j = Some l' /\ back energy (used b) base (Z.of_nat j + 1) l l'.
Proof.
  intros Hbase Hb Hs Hg. destruct (from_hepevt_ok base b e Hb Hs Hg) as (l & ls & El & Fl & EF & Hls).
  pose proof (family_length _ _ _ Fl) as HL. rewrite map_length in HL. pose proof (used_length b Hb) as HU.
  assert (HLs : length ls = length (hb_lines b)).
  { assert (A : forall n, nth_error ls n = None <-> nth_error (hb_lines b) n = None).
    { intros n. rewrite Hls. destruct (Nat.ltb _ _); [|reflexivity]. destruct (nth_error (hb_lines b) n); cbn; split; congruence. }
    apply Nat.le_antisymm; apply nth_error_None; apply A; apply nth_error_None; lia. }
  set (h := placed base l (hv_heap e)). set (elems := addresses base (length l)).
  assert (Hin : forall a, In a elems -> exists i o, a = base + Z.of_nat i /\ nth_error l i = Some o).
  { intros a Ha. unfold elems, addresses in Ha. apply in_map_iff in Ha. destruct Ha as (i & <- & Hi). apply in_seq in Hi.
    destruct (nth_error l i) as [o|] eqn:E; [|apply nth_error_None in E; lia]. exists i, o. auto. }
  assert (Hm : forall x, In x (used b) -> 0 < hl_mo1 x -> hl_mo1 x <= Z.of_nat (length (used b)) /\ hl_mo2 x <= Z.of_nat (length (used b))).
  { intros x Hx H. destruct Hb as [H1 H2]. rewrite HU, Z2Nat.id by lia. exact (H2 x Hx H). }
  destruct (fill_lines_ok energy largest travel h elems) with (todo := elems) (done := @nil addr) (b := ls) as (b' & E1 & E2 & E3).
  - intros a o Ha Ho p ps Hp. destruct (Hin a Ha) as (i & o0 & -> & Hi). unfold h in Ho. rewrite (placed_at _ _ _ _ _ Hi) in Ho. injection Ho as <-.
    pose proof (Fl i) as Fi. rewrite Hi in Fi. destruct (nth_error (map line_particle (used b)) i) as [x|] eqn:Ex; [|discriminate]. cbn [option_map] in Fi.
    injection Fi as ->. assert (Hp' : In p (map (Z.add base) (parents_in (all_links 0 (used b)) (Z.of_nat i)))).
    { unfold moved, with_family in Hp. cbn [mc_parents] in Hp. rewrite Hp. left. reflexivity. }
    apply in_map_iff in Hp'. destruct Hp' as (q & <- & Hq).
    destruct (nth_error (used b) i) as [ln|] eqn:Eln; [|rewrite nth_error_map, Eln in Ex; discriminate].
    rewrite (parents_all (used b) 0 i ln Eln : parents_in _ (Z.of_nat i) = _) in Hq.
    assert (Rq : exists k, q = Z.of_nat k /\ (k < length l)%nat).
    { specialize (Hm ln (nth_error_In _ _ Eln)). destruct (Z.lt_decidable 0 (hl_mo1 ln)) as [M1|M1]; [|rewrite (mothers0_none _ M1) in Hq; destruct Hq].
      destruct (Hm M1) as [R1 R2]. destruct (Z.lt_decidable (hl_mo1 ln) (hl_mo2 ln)) as [M2|M2].
      - rewrite (mothers0_range _ M1 M2) in Hq. apply in_map_iff in Hq. destruct Hq as (k & <- & Hk). apply in_seq in Hk. exists k. split; lia.
      - rewrite (mothers0_one _ M1 M2) in Hq. destruct Hq as [<-|[]]. exists (Z.to_nat (hl_mo1 ln - 1)). split; lia. }
    destruct Rq as (k & -> & Hk). unfold elems, addresses. apply in_map_iff. exists k. split; [reflexivity|]. apply in_seq. lia.
  - intros a Ha. destruct (Hin a Ha) as (i & o & -> & Hi). split; [unfold h; rewrite (placed_at _ _ _ _ _ Hi); discriminate|lia].
  - reflexivity.
  - unfold elems. rewrite addresses_length, HL, HU, HLs. destruct Hb as [H1 _]. unfold Zlen in H1. lia.
  - cbn [length] in E1. change (Z.of_nat 0) with 0 in E1.
    assert (HE : length elems = length l) by apply addresses_length.
    eexists _, _, _. split; [exact EF|]. unfold to_hepevt. cbn [col_name hv_cols hv_heap hv_num hb_lines]. rewrite sm_get_set by exact Hs.
    rewrite (proj2 (bytes_eqb_eq _ _) eq_refl). fold elems h. rewrite E1. split; [reflexivity|]. cbn [hb_event hb_n hb_lines].
    split; [reflexivity|]. split; [unfold Zlen; rewrite HE, HL, HU; destruct Hb as [H1 _]; lia|]. split; [congruence|]. split.
    + intros n Hn. destruct (E3 n) as [[_ H]|[H _]]; [|lia]. rewrite H, Hls. rewrite (proj2 (Nat.ltb_ge _ _)) by exact Hn. reflexivity.
    + intros j ln Hj. assert (Rj : (j < length (used b))%nat) by (apply nth_error_Some; congruence).
      destruct (E3 j) as [[[H|H] _]|[_ (a & o & t & A1 & A2 & A3 & A4)]]; [cbn [length] in H; lia|lia|].
      unfold elems in A1. rewrite addresses_nth in A1 by lia. injection A1 as <-.
      destruct (nth_error l j) as [o0|] eqn:Eo; [|apply nth_error_None in Eo; lia]. unfold h in A2. rewrite (placed_at _ _ _ _ _ Eo) in A2. injection A2 as <-.
      eexists. split; [exact A3|]. apply line_back; assumption.
Qed.

(** ** consistent tables *)
Lemma interval a b : forall n s, filter (fun i => (a <=? 1 + Z.of_nat i) && (1 + Z.of_nat i <=? b)) (seq s n) =
  seq (Nat.max s (Z.to_nat (a - 1))) (Nat.min (s + n) (Z.to_nat b) - Nat.max s (Z.to_nat (a - 1)))%nat.
Proof.
  induction n as [|n IH]; intros s.
  - cbn [seq filter]. replace (Nat.min (s + 0) (Z.to_nat b) - Nat.max s (Z.to_nat (a - 1)))%nat with O by lia. reflexivity.
  - cbn [seq filter]. rewrite IH. destruct (Z.leb_spec a (1 + Z.of_nat s)), (Z.leb_spec (1 + Z.of_nat s) b); cbn [andb].
    + replace (Nat.max s (Z.to_nat (a - 1))) with s by lia. replace (Nat.max (S s) (Z.to_nat (a - 1))) with (S s) by lia.
      replace (Nat.min (s + S n) (Z.to_nat b) - s)%nat with (S (Nat.min (S s + n) (Z.to_nat b) - S s)) by lia. reflexivity.
    + replace (Nat.min (S s + n) (Z.to_nat b) - Nat.max (S s) (Z.to_nat (a - 1)))%nat with O by lia.
      replace (Nat.min (s + S n) (Z.to_nat b) - Nat.max s (Z.to_nat (a - 1)))%nat with O by lia. reflexivity.
    + f_equal; lia.
    + f_equal; lia.
Qed.
Lemma numbered_filter {A} (ls : list A) (f : Z -> bool) : forall s,
  map fst (filter (fun il : Z * A => f (fst il)) (combine (map (fun i => 1 + Z.of_nat i) (seq s (length ls))) ls)) =
  map (fun i => 1 + Z.of_nat i) (filter (fun i => f (1 + Z.of_nat i)) (seq s (length ls))).
Proof.
  induction ls as [|x ls IH]; intros s; [reflexivity|]. cbn [length seq map combine filter fst].
  destruct (f (1 + Z.of_nat s)); cbn [map fst]; [f_equal|]; apply IH.
Qed.
Lemma daughters_interval ls k a b : 0 < a -> a <= b -> b <= Zlen ls ->
  (forall k' l', In (k', l') (numbered ls) -> (In k (mothers l') <-> a <= k' <= b)) ->
  exists ds, daughters_of ls k = a :: ds /\ a + Zlen ds = b.
Proof.
  intros H1 H2 H3 H. unfold daughters_of.
  rewrite (filter_ext_in _ (fun il : Z * hline => (a <=? fst il) && (fst il <=? b))).
  - unfold numbered. rewrite (numbered_filter ls (fun z => (a <=? z) && (z <=? b)) 0), (interval a b (length ls) 0). unfold Zlen in *.
    replace (Nat.max 0 (Z.to_nat (a - 1))) with (Z.to_nat (a - 1)) by lia.
    replace (Nat.min (0 + length ls) (Z.to_nat b) - Z.to_nat (a - 1))%nat with (S (Z.to_nat (b - a))) by lia. cbn [seq map].
    eexists. split; [f_equal; lia|]. rewrite map_length, seq_length. lia.
  - intros [k' l'] Hin. specialize (H k' l' Hin). cbn [fst snd]. destruct (existsb (Z.eqb k) (mothers l')) eqn:E.
    + apply existsb_in in E. apply H in E. symmetry. apply andb_true_iff. split; apply Z.leb_le; lia.
    + symmetry. apply not_true_iff_false. intros C. apply andb_true_iff in C. destruct C as [C1 C2]. apply Z.leb_le in C1, C2.
      assert (Hk : In k (mothers l')) by (apply H; lia). apply existsb_in in Hk. congruence.
Qed.
Lemma numbered_nth {A} (ls : list A) j x : nth_error ls j = Some x -> In (Z.of_nat j + 1, x) (numbered ls).
Proof.
  unfold numbered. intros H. assert (G : forall s, In (1 + Z.of_nat (s + j), x) (combine (map (fun i => 1 + Z.of_nat i) (seq s (length ls))) ls)).
  { revert j H. induction ls as [|y ls IH]; intros [|j] H s; try discriminate; cbn [length seq map combine].
    - injection H as ->. left. f_equal. lia.
    - right. replace (s + S j)%nat with (S s + j)%nat by lia. apply IH. exact H. }
  specialize (G 0%nat). replace (Z.of_nat j + 1) with (1 + Z.of_nat (0 + j)) by lia. exact G.
Qed.
Lemma consistent_back energy ls base j l l' : consistent ls -> nth_error ls j = Some l -> back energy ls base (Z.of_nat j + 1) l l' ->
  hl_mo1 l' = hl_mo1 l /\ hl_mo2 l' = hl_mo2 l /\ hl_da1 l' = hl_da1 l /\ hl_da2 l' = hl_da2 l.
Proof.
  intros HC Hj [_ _ M1 M2 D _ _ _ _]. destruct (HC _ _ (numbered_nth _ _ _ Hj)) as [[C1 C2] C3].
  split; [rewrite M1; destruct (Z.ltb_spec 0 (hl_mo1 l)); lia|].
  split; [rewrite M2; destruct (Z.ltb_spec 0 (hl_mo1 l)), (Z.ltb_spec (hl_mo1 l) (hl_mo2 l)); cbn [andb]; lia|].
  destruct C3 as [(E & D1 & D2)|[E [(D1 & D2 & HN)|(D1 & D2 & HN)]]].
  - rewrite (proj2 (Z.eqb_eq _ _) E) in D. injection D as Da Db. split; congruence.
  - rewrite (proj2 (Z.eqb_neq _ _) E) in D. destruct (daughters_of ls (Z.of_nat j + 1)) as [|d ds] eqn:Ed; [injection D as Da Db; split; congruence|].
    exfalso. assert (Hin : In d (daughters_of ls (Z.of_nat j + 1))) by (rewrite Ed; left; reflexivity).
    unfold daughters_of in Hin. apply in_map_iff in Hin. destruct Hin as ([k' x] & _ & Hin). apply filter_In in Hin. destruct Hin as [H1 H2].
    apply existsb_in in H2. exact (HN _ _ H1 H2).
  - rewrite (proj2 (Z.eqb_neq _ _) E) in D.
    destruct (daughters_interval ls _ (hl_da1 l) (hl_da2 l) (proj1 D1) (proj2 D1) D2 HN) as (ds & Ed & El). rewrite Ed in D.
    injection D as Da Db. split; congruence.
Qed.

(** ** from an event to the table and to an event *)
Lemma place_of_nth h x : h x <> None -> forall elems, NoDup elems -> (forall a, In a elems -> h a <> None) ->
  forall i jj, nth_error elems i = Some x -> place_of h x elems jj = jj + Z.of_nat i + 1.
Proof.
  intros Hx. induction elems as [|y elems IH]; intros HN Hh [|i] jj E; try discriminate; cbn [place_of].
  - cbn in E. injection E as ->. unfold mc_cast. destruct (h x); [|congruence]. rewrite Z.eqb_refl. lia.
  - cbn in E. inversion HN as [|? ? Hy HN']. subst. unfold mc_cast. destruct (h y) eqn:Ey; [|exfalso; exact (Hh y (or_introl eq_refl) Ey)].
    destruct (Z.eqb_spec x y) as [->|Hne]; [exfalso; apply Hy; apply (nth_error_In _ _ E)|].
    rewrite (IH HN') with (i := i); [lia| |exact E]. intros a Ha. apply Hh. right. exact Ha.
Qed.
Lemma place_of_null h : forall elems jj, (forall a, In a elems -> h a <> None /\ a <> 0) -> place_of h 0 elems jj = 0.
Proof.
  induction elems as [|y elems IH]; intros jj H; [reflexivity|]. cbn [place_of]. destruct (H y (or_introl eq_refl)) as [H1 H2]. unfold mc_cast.
  destruct (h y); [|congruence]. rewrite (proj2 (Z.eqb_neq 0 y)) by congruence. apply IH. intros a Ha. apply H. right. exact Ha.
Qed.
Lemma slice_nth {A} (l : list A) i n k : (k < n)%nat -> nth_error (firstn n (skipn i l)) k = nth_error l (i + k).
Proof.
  revert l n k. induction i as [|i IH]; intros l n k H.
  - cbn [skipn Nat.add]. revert l n H. induction k as [|k IHk]; intros [|x l] [|n] H; try lia; try reflexivity. cbn. apply IHk. lia.
  - destruct l as [|x l]; [cbn [skipn]; rewrite firstn_nil; destruct k; reflexivity|]. cbn [skipn Nat.add nth_error]. apply IH. exact H.
Qed.
(** a slice that is not too long *)
Lemma slice_fits {A} (l s : list A) i n : s = firstn n (skipn i l) -> exists i', (i' + length s <= length l)%nat /\ s = firstn (length s) (skipn i' l).
Proof.
  intros ->. destruct (Nat.le_gt_cases (length l) i) as [H|H].
  - exists O. rewrite skipn_all2 by exact H. rewrite firstn_nil. cbn. split; [lia|reflexivity].
  - exists i. rewrite firstn_length, skipn_length. split; [lia|]. destruct (Nat.le_gt_cases n (length l - i)) as [Hn|Hn].
    + rewrite Nat.min_l by exact Hn. reflexivity.
    + rewrite Nat.min_r by lia. rewrite !firstn_all2; [reflexivity|rewrite skipn_length; lia..].
Qed.

Lemma mothers_of_slice h elems o i n energy a t : in_table h elems -> mc_parents o = firstn n (skipn i elems) ->
  exists i', (i' + length (mc_parents o) <= length elems)%nat /\ mc_parents o = firstn (length (mc_parents o)) (skipn i' elems) /\
    mothers0 (line_of energy h elems a o t) = map Z.of_nat (seq i' (length (mc_parents o))) /\
    (forall m, 0 < hl_mo1 (line_of energy h elems a o t) -> Zlen elems <= m -> hl_mo1 (line_of energy h elems a o t) <= m /\ hl_mo2 (line_of energy h elems a o t) <= m).
Proof.
  intros [HN HS HP] E. destruct (slice_fits _ _ _ _ E) as (i' & L & SL). exists i'. split; [exact L|]. split; [exact SL|].
  assert (Hsome : forall x, In x elems -> h x <> None) by (intros x Hx; destruct (HS x Hx) as (_ & q & Hq & _); congruence).
  assert (Hnull : forall x, In x elems -> h x <> None /\ x <> 0) by (intros x Hx; split; [exact (Hsome x Hx)|exact (proj1 (HS x Hx))]).
  assert (Hplace : forall k x, nth_error elems k = Some x -> place_of h x elems 0 = Z.of_nat k + 1).
  { intros k x Hk. rewrite (place_of_nth h x (Hsome x (nth_error_In _ _ Hk)) elems HN Hsome k 0 Hk). lia. }
  assert (EM : exists d1 d2 p v, line_of energy h elems a o t =
     mkHL (mc_gen o) (mc_pdg o) (fst (mother_places h elems o)) (snd (mother_places h elems o)) d1 d2 p v a (mc_charge o)).
  { unfold line_of. destruct (mother_places h elems o), (daughter_places h elems o). cbn [fst snd]. repeat eexists. }
  destruct EM as (d1 & d2 & p & v & ->). cbn [hl_mo1 hl_mo2].
  destruct (length (mc_parents o)) as [|m] eqn:Em.
  - destruct (mc_parents o) eqn:Ep; [|discriminate]. unfold mother_places. rewrite Ep. rewrite place_of_null by exact Hnull. cbn [fst snd].
    split; [apply mothers0_none; cbn; lia|]. cbn. intros; lia.
  - assert (H0 : nth_error elems i' = Some (nth 0 (mc_parents o) 0)).
    { rewrite <- (Nat.add_0_r i'), <- (slice_nth elems i' (S m) 0) by lia. rewrite <- SL. apply nth_error_nth'. lia. }
    assert (Hl : nth_error elems (i' + m) = Some (nth m (mc_parents o) 0)).
    { rewrite <- (slice_nth elems i' (S m) m) by lia. rewrite <- SL. apply nth_error_nth'. lia. }
    assert (EM : mother_places h elems o = (Z.of_nat i' + 1, if (1 <? Z.of_nat (S m)) then Z.of_nat (i' + m) + 1 else 0)).
    { unfold mother_places. destruct (mc_parents o) as [|q qs] eqn:Eq; [discriminate|]. cbn [nth] in H0. rewrite (Hplace _ _ H0). rewrite (proj2 (Z.ltb_lt _ _)) by lia.
      f_equal. unfold Zlen. rewrite Em. destruct (1 <? Z.of_nat (S m)) eqn:E1.
      - apply Hplace. rewrite Hl. f_equal. change (last (q :: qs) 0) with (last (q :: qs) 0).
        assert (G : forall (xs : list Z) k, length xs = S k -> nth k xs 0 = last xs 0).
        { induction xs as [|x xs IHx]; intros k Hk; [discriminate|]. destruct xs as [|y ys]; [cbn in Hk; injection Hk as <-; reflexivity|].
          destruct k as [|k]; [discriminate|]. change (nth (S k) (x :: y :: ys) 0) with (nth k (y :: ys) 0). rewrite (IHx k) by (cbn in *; lia). reflexivity. }
        apply G. exact Em.
      - apply place_of_null. exact Hnull. }
    rewrite EM. cbn [fst snd]. set (ln := mkHL _ _ _ _ _ _ _ _ _ _). split.
    + destruct m as [|m].
      * rewrite mothers0_one; cbn; [|lia|lia]. f_equal. lia.
      * change (1 <? Z.of_nat (S (S m))) with (1 <? Z.of_nat (S (S m))) in ln.
        assert (E1 : (1 <? Z.of_nat (S (S m))) = true) by (apply Z.ltb_lt; lia).
        assert (M1 : hl_mo1 ln = Z.of_nat i' + 1) by reflexivity.
        assert (M2 : hl_mo2 ln = Z.of_nat (i' + S m) + 1) by (unfold ln; cbn [hl_mo2]; rewrite E1; reflexivity).
        rewrite mothers0_range by lia. rewrite M1, M2. f_equal. f_equal; lia.
    + unfold Zlen. intros k Hk Hm. destruct (1 <? Z.of_nat (S m)); split; lia.
Qed.

Lemma option_map_some {A B} (f : A -> B) o y : option_map f o = Some y -> exists x, o = Some x /\ y = f x.
Proof. destruct o as [x|]; [|discriminate]. cbn. intros E. injection E as <-. eauto. Qed.

Theorem event_there_and_back energy largest travel base e b elems e' :
  sm_get mcparticle_name (hv_cols e) = Some elems -> in_table (hv_heap e) elems -> Zlen elems <= Zlen (hb_lines b) ->
  sm_ok (hv_cols e') -> sm_get mcparticle_name (hv_cols e') = None ->
  exists b1 b2 e2, to_hepevt energy largest travel None e b = (b1, Ok tt) /\ hb_event b1 = hv_num e /\ hb_n b1 = Zlen elems /\
    from_hepevt base None b1 e' = (b2, e2, Ok tt) /\
    exists elems', sm_get mcparticle_name (hv_cols e2) = Some elems' /\ length elems' = length elems /\
      forall i a o, nth_error elems i = Some a -> hv_heap e a = Some o ->
        exists a' o', nth_error elems' i = Some a' /\ hv_heap e2 a' = Some o' /\ kept elems' elems o' o /\
          (forall d', In d' (mc_daughters o') <-> exists od', In d' elems' /\ hv_heap e2 d' = Some od' /\ In a' (mc_parents od')).
Proof.
  intros Hg HT HL Hs' Hg'. pose proof HT as [HN HS HP]. unfold Zlen in HL.
  destruct (fill_lines_ok energy largest travel (hv_heap e) elems) with (todo := elems) (done := @nil addr) (b := hb_lines b) as (ls & E1 & E2 & E3).
  { intros a o Ha Ho p ps Hp. destruct (HP a o Ha Ho) as (i & n & E). assert (Hin : In p (mc_parents o)) by (rewrite Hp; left; reflexivity).
    rewrite E in Hin. assert (Hin2 : In p (skipn i elems)) by (rewrite <- (firstn_skipn n (skipn i elems)); apply in_or_app; left; exact Hin).
    rewrite <- (firstn_skipn i elems). apply in_or_app. right. exact Hin2. }
  { intros a Ha. destruct (HS a Ha) as (H0 & o & Ho & _). split; [congruence|exact H0]. }
  { reflexivity. }
  { lia. }
  cbn [length] in *. change (Z.of_nat 0) with 0 in E1.
  set (b1 := mkHB (hv_num e) (Zlen elems) ls).
  assert (HU : used b1 = firstn (length elems) ls) by (unfold used, b1; cbn [hb_n hb_lines]; unfold Zlen; rewrite Nat2Z.id; reflexivity).
  assert (HUL : length (used b1) = length elems) by (rewrite HU; apply firstn_length_le; lia).
  assert (Hline : forall j a o, nth_error elems j = Some a -> hv_heap e a = Some o -> exists t, nth_error (used b1) j = Some (line_of energy (hv_heap e) elems a o t)).
  { intros j a o Ha Ho. assert (Rj : (j < length elems)%nat) by (apply nth_error_Some; congruence).
    destruct (E3 j) as [[[H|H] _]|[_ (a0 & o0 & t & A1 & A2 & A3 & _)]]; [lia|lia|]. assert (a0 = a) by congruence. subst a0. assert (o0 = o) by congruence. subst o0.
    exists t. rewrite HU. change (firstn (length elems) ls) with (firstn (length elems) (skipn 0 ls)). rewrite slice_nth by exact Rj. exact A3. }
  assert (Hrow : forall j l, nth_error (used b1) j = Some l -> exists a o t, nth_error elems j = Some a /\ hv_heap e a = Some o /\ l = line_of energy (hv_heap e) elems a o t).
  { intros j l Hj. assert (Rj : (j < length elems)%nat) by (rewrite <- HUL; apply nth_error_Some; congruence).
    destruct (nth_error elems j) as [a|] eqn:Ea; [|apply nth_error_None in Ea; lia]. destruct (HS a (nth_error_In _ _ Ea)) as (_ & o & Ho & _).
    destruct (Hline j a o Ea Ho) as (t & Ht). exists a, o, t. split; [reflexivity|]. split; [exact Ho|congruence]. }
  assert (Hok : block_ok b1).
  { split; [cbn [b1 hb_n hb_lines]; unfold Zlen; lia|]. intros l Hl Hm. apply In_nth_error in Hl. destruct Hl as (j & Hj).
    destruct (Hrow j l Hj) as (a & o & t & Ha & Ho & ->). destruct (HP a o (nth_error_In _ _ Ha) Ho) as (i & n & E).
    destruct (mothers_of_slice (hv_heap e) elems o i n energy a t HT E) as (i' & _ & _ & _ & M). apply M; [exact Hm|]. cbn. lia. }
  destruct (from_hepevt_ok base b1 e' Hok Hs' Hg') as (l & ls2 & El & Fl & EF & _).
  pose proof (family_length _ _ _ Fl) as HLl. rewrite map_length, HUL in HLl.
  exists b1. eexists _, _. split; [unfold to_hepevt; cbn [col_name]; rewrite Hg, E1; reflexivity|]. split; [reflexivity|]. split; [reflexivity|]. split; [exact EF|].
  exists (addresses base (length l)). cbn [hv_cols hv_heap]. rewrite sm_get_set by exact Hs'. rewrite (proj2 (bytes_eqb_eq _ _) eq_refl).
  split; [reflexivity|]. split; [rewrite addresses_length; exact HLl|].
  assert (Hpar : forall j a o, nth_error elems j = Some a -> hv_heap e a = Some o -> exists i' t, (i' + length (mc_parents o) <= length elems)%nat /\
     mc_parents o = firstn (length (mc_parents o)) (skipn i' elems) /\
     nth_error l j = Some (with_family (map Z.of_nat (seq i' (length (mc_parents o)))) (daughters_in (all_links 0 (used b1)) (Z.of_nat j)) (line_particle (line_of energy (hv_heap e) elems a o t)))).
  { intros j a o Ha Ho. destruct (Hline j a o Ha Ho) as (t & Ht). destruct (HP a o (nth_error_In _ _ Ha) Ho) as (i & n & E).
    destruct (mothers_of_slice (hv_heap e) elems o i n energy a t HT E) as (i' & M1 & M2 & M3 & _). exists i', t. split; [exact M1|]. split; [exact M2|].
    rewrite (Fl j), (map_nth_error line_particle _ _ Ht). cbn [option_map]. do 2 f_equal.
    rewrite (parents_all (used b1) 0 j _ Ht : parents_in _ (Z.of_nat j) = _). exact M3. }
  intros j a o Ha Ho. destruct (Hpar j a o Ha Ho) as (i' & t & R & SL & Hj). assert (Rj : (j < length l)%nat) by (apply nth_error_Some; congruence).
  exists (base + Z.of_nat j). eexists. split; [apply addresses_nth; exact Rj|]. split; [apply placed_at; exact Hj|].
  destruct (HS a (nth_error_In _ _ Ha)) as (_ & o2 & Ho2 & V3 & P3). assert (o2 = o) by congruence. subst o2. clear Ho2. split.
  - unfold line_of. destruct (mother_places (hv_heap e) elems o) as [m1 m2], (daughter_places (hv_heap e) elems o) as [d1 d2].
    destruct (mc_vertex o) as [|v0 [|v1 [|v2 [|]]]] eqn:EV; try discriminate. destruct (mc_p o) as [|p0 [|p1 [|p2 [|]]]] eqn:EP; try discriminate.
    constructor; [reflexivity|reflexivity|reflexivity|symmetry; exact EV|rewrite EP; reflexivity|reflexivity|reflexivity|reflexivity|]. cbn [moved with_family line_particle mc_parents].
    assert (HR : (i' + length (mc_parents o) <= length l)%nat) by lia.
    assert (G : forall n, (i' + n <= length l)%nat -> Forall2 (same_place (addresses base (length l)) elems) (map (fun x => base + Z.of_nat x) (seq i' n)) (firstn n (skipn i' elems))).
    { intros n. clear - HLl. rewrite HLl at 1. revert i'. induction n as [|n IH]; intros i' Hn; [constructor|].
      destruct (nth_error elems i') as [x|] eqn:Ex; [|apply nth_error_None in Ex; lia].
      assert (Es : skipn i' elems = x :: skipn (S i') elems).
      { clear - Ex. revert i' Ex. induction elems as [|y ys IHy]; intros [|i] E; try discriminate; cbn in *; [congruence|]. apply IHy. exact E. }
      rewrite Es. cbn [seq map firstn]. constructor; [|apply IH; lia]. exists i'. split; [apply addresses_nth; lia|exact Ex]. }
    pose proof (G _ HR) as G'. rewrite <- SL in G'. rewrite <- map_map with (f := Z.of_nat) in G'. exact G'.
  - intros d'. cbn [moved with_family mc_daughters].
    assert (K : forall k, In (Z.of_nat k) (daughters_in (all_links 0 (used b1)) (Z.of_nat j)) <->
                exists od, nth_error l k = Some od /\ In (Z.of_nat j) (mc_parents od)).
    { intros k. assert (Q : In (Z.of_nat k) (daughters_in (all_links 0 (used b1)) (Z.of_nat j)) <-> In (Z.of_nat k, Z.of_nat j) (all_links 0 (used b1))).
      { unfold daughters_in. rewrite in_map_iff. split.
        - intros ([x y] & Ex & Hx). apply filter_In in Hx. destruct Hx as [Hx Ey]. cbn in *. apply Z.eqb_eq in Ey. subst. exact Hx.
        - intros Hx. exists (Z.of_nat k, Z.of_nat j). split; [reflexivity|]. apply filter_In. split; [exact Hx|]. cbn. apply Z.eqb_refl. }
      rewrite Q, <- parents_in_In. split.
      - intros H. assert (Rk : (k < length l)%nat).
        { apply parents_in_In in H. apply all_links_fst in H. lia. }
        pose proof (Fl k) as Fk. destruct (nth_error l k) as [od|] eqn:Ek; [|apply nth_error_None in Ek; lia]. exists od. split; [reflexivity|].
        symmetry in Fk. apply option_map_some in Fk. destruct Fk as (x & _ & ->). exact H.
      - intros (od & Ek & H). pose proof (Fl k) as Fk. rewrite Ek in Fk. symmetry in Fk. apply option_map_some in Fk. destruct Fk as (x & _ & ->). exact H. }
    split.
    + intros Hd. apply in_map_iff in Hd. destruct Hd as (d & <- & Hd).
      assert (Rd : exists k, d = Z.of_nat k /\ (k < length l)%nat).
      { unfold daughters_in in Hd. apply in_map_iff in Hd. destruct Hd as ([x y] & <- & Hd). apply filter_In in Hd. destruct Hd as [Hd _].
        apply all_links_fst in Hd. cbn [fst]. exists (Z.to_nat x). split; lia. }
      destruct Rd as (k & -> & Rk). apply K in Hd. destruct Hd as (od & Ek & Hin). exists (moved base od). split; [apply (nth_error_In _ k); apply addresses_nth; exact Rk|].
      split; [apply placed_at; exact Ek|]. apply in_map_iff. exists (Z.of_nat j). auto.
    + intros (od' & Hd & Hh & Hin). unfold addresses in Hd. apply in_map_iff in Hd. destruct Hd as (k & <- & Hk). apply in_seq in Hk.
      destruct (nth_error l k) as [od|] eqn:Ek; [|apply nth_error_None in Ek; lia]. rewrite (placed_at _ _ _ _ _ Ek) in Hh. injection Hh as <-.
      apply in_map_iff. exists (Z.of_nat k). split; [reflexivity|]. apply K. exists od. split; [exact Ek|].
      unfold moved in Hin. cbn [mc_parents] in Hin. apply in_map_iff in Hin. destruct Hin as (q & Eq & Hq). replace (Z.of_nat j) with q by lia. exact Hq.
Qed.
