(** * Programs that follow the rules of ownership delete everything exactly once *)

From Verif Require Import Bytes StrMap SioModel OwnModel OwnSpec.

(** ** sequences of deletions *)
Section Seq.
Context {A : Type}.
Variables (del : memory -> A -> Res memory) (foot : memory -> A -> addr -> bool) (ok : memory -> A -> Prop).
Hypothesis Hdel : forall m a, ok m a -> exists m', del m a = Ok m' /\ forall y, m' y = if foot m a y then None else m y.
Hypothesis Hfoot : forall m m' a, ok m a -> (forall y, foot m a y = true -> m' y = m y) ->
  ok m' a /\ forall y, foot m' a y = foot m a y.
Variable run : memory -> list A -> Res memory.
Hypothesis Hnil : forall m, run m [] = Ok m.
Hypothesis Hcons : forall m a l, run m (a :: l) = (do m <- del m a; run m l).

Lemma seq_del l : forall m, (forall a, In a l -> ok m a) ->
  ForallOrdPairs (fun a b => forall y, foot m a y = true -> foot m b y = false) l ->
  exists m', run m l = Ok m' /\ forall y, m' y = if existsb (fun a => foot m a y) l then None else m y.
Proof.
  induction l as [|a l IH]; intros m Ho Hd.
  - exists m. rewrite Hnil. split; [reflexivity|]. intros y. reflexivity.
  - destruct (Hdel m a (Ho a (or_introl eq_refl))) as (m1 & E1 & P1).
    inversion Hd as [|? ? Ha Hl]; subst. rewrite Forall_forall in Ha.
    assert (Hs : forall b, In b l -> ok m1 b /\ forall y, foot m1 b y = foot m b y).
    { intros b Hb. apply Hfoot. - apply Ho. right. exact Hb.
      - intros y Hy. rewrite P1. destruct (foot m a y) eqn:Ey; [|reflexivity].
        rewrite (Ha b Hb y Ey) in Hy. discriminate. }
    destruct (IH m1) as (m2 & E2 & P2).
    + intros b Hb. apply (Hs b Hb).
    + clear - Hl Hs. induction Hl as [|b l Hb Hl IHl]; constructor.
      * rewrite Forall_forall in *. intros c Hc y Hy. destruct (Hs b (or_introl eq_refl)) as [_ Q].
        rewrite Q in Hy. destruct (Hs c (or_intror Hc)) as [_ Q']. rewrite Q'. apply (Hb c Hc y Hy).
      * apply IHl. intros c Hc. apply Hs. right. exact Hc.
    + exists m2. rewrite Hcons, E1. cbn [bind]. split; [exact E2|]. intros y. rewrite P2. cbn [existsb].
      assert (Q : existsb (fun b => foot m1 b y) l = existsb (fun b => foot m b y) l).
      { clear - Hs. induction l as [|b l IHl]; cbn [existsb]; [reflexivity|].
        destruct (Hs b (or_introl eq_refl)) as [_ Q]. rewrite Q, IHl; [reflexivity|]. intros c Hc. apply Hs. right. exact Hc. }
      rewrite P1, Q. destruct (foot m a y), (existsb (fun b => foot m b y) l); reflexivity.
Qed.
End Seq.

Lemma existsb_In (l : list Z) y : existsb (Z.eqb y) l = true <-> In y l.
Proof.
  rewrite existsb_exists. split.
  - intros (x & Hx & E). apply Z.eqb_eq in E. subst. exact Hx.
  - intros H. exists y. split; [exact H|apply Z.eqb_refl].
Qed.
Lemma existsb_swap (l : list Z) y : existsb (fun x => y =? x) l = existsb (Z.eqb y) l.
Proof. induction l as [|x l IH]; cbn; [reflexivity|]. rewrite IH. reflexivity. Qed.

Lemma m_set_same m a k : m_set m a k a = k.
Proof. unfold m_set. rewrite Z.eqb_refl. reflexivity. Qed.
Lemma m_set_other m a k y : y <> a -> m_set m a k y = m y.
Proof. intros H. unfold m_set. destruct (Z.eqb_spec y a); [contradiction|reflexivity]. Qed.

Lemma delete_parts_ok l m : NoDup l -> (forall p, In p l -> p <> 0 /\ m p = Some KPart) ->
  exists m', delete_parts m l = Ok m' /\ forall y, m' y = if existsb (Z.eqb y) l then None else m y.
Proof.
  intros Hn Hp.
  destruct (seq_del delete_part (fun _ a y => y =? a) (fun m a => a <> 0 /\ m a = Some KPart)) with
    (run := delete_parts) (l := l) (m := m) as (m' & E & P).
  - intros m0 a [Ha Hm]. unfold delete_part. destruct (Z.eqb_spec a 0); [contradiction|]. rewrite Hm.
    eexists. split; [reflexivity|]. intros y. unfold m_set. reflexivity.
  - intros m0 m1 a [Ha Hm] H. split; [|reflexivity]. split; [exact Ha|]. rewrite H; [exact Hm|]. apply Z.eqb_refl.
  - reflexivity.
  - reflexivity.
  - exact Hp.
  - clear Hp. induction Hn as [|x l Hx Hn IH]; constructor; [|exact IH]. rewrite Forall_forall. intros b Hb y Hy.
    apply Z.eqb_eq in Hy. subst y. apply Z.eqb_neq. intros ->. contradiction.
  - exists m'. split; [exact E|]. intros y. rewrite P, existsb_swap. reflexivity.
Qed.

Definition parts_of (m : memory) (x : addr) : list addr := match m x with Some (KObj ps) => ps | _ => [] end.
Definition obj_foot (m : memory) (x y : addr) : bool :=
  negb (x =? 0) && ((y =? x) || existsb (Z.eqb y) (parts_of m x)).
Definition obj_fine (m : memory) (x : addr) : Prop :=
  x <> 0 -> an_object (m x) /\ NoDup (parts_of m x) /\ forall p, In p (parts_of m x) -> p <> 0 /\ m p = Some KPart.

Lemma obj_foot_self m x : x <> 0 -> obj_foot m x x = true.
Proof. intros H. unfold obj_foot. destruct (Z.eqb_spec x 0); [contradiction|]. rewrite Z.eqb_refl. reflexivity. Qed.
Lemma obj_foot_spec m x y : obj_foot m x y = true <-> x <> 0 /\ (y = x \/ In y (parts_of m x)).
Proof.
  unfold obj_foot. rewrite Bool.andb_true_iff, Bool.orb_true_iff, existsb_In, Z.eqb_eq, Bool.negb_true_iff, Z.eqb_neq. tauto.
Qed.

Lemma delete_object_ok m x : obj_fine m x ->
  exists m', delete_object m x = Ok m' /\ forall y, m' y = if obj_foot m x y then None else m y.
Proof.
  intros H. unfold delete_object, obj_foot. destruct (Z.eqb_spec x 0) as [->|Hx].
  - exists m. split; reflexivity.
  - destruct (H Hx) as (Ho & Hn & Hp). cbn [negb andb]. destruct Ho as [Hk|[ps Hk]].
    + unfold parts_of. rewrite Hk. eexists. split; [reflexivity|]. intros y. unfold m_set. cbn [existsb].
      rewrite Bool.orb_false_r. reflexivity.
    + unfold parts_of in *. rewrite Hk in *.
      destruct (delete_parts_ok ps m Hn Hp) as (m' & E & P). rewrite E. cbn [bind].
      eexists. split; [reflexivity|]. intros y. unfold m_set. rewrite P. destruct (y =? x); reflexivity.
Qed.

Lemma obj_stable m m' x : obj_fine m x -> (forall y, obj_foot m x y = true -> m' y = m y) ->
  obj_fine m' x /\ forall y, obj_foot m' x y = obj_foot m x y.
Proof.
  intros H Hm. destruct (Z.eq_dec x 0) as [->|Hx].
  - split; [intros C; contradiction|]. intros y. reflexivity.
  - assert (E : m' x = m x) by (apply Hm; apply obj_foot_self; exact Hx).
    assert (Ep : parts_of m' x = parts_of m x) by (unfold parts_of; rewrite E; reflexivity).
    destruct (H Hx) as (Ho & Hn & Hp). split.
    + intros _. rewrite E, Ep. split; [exact Ho|]. split; [exact Hn|]. intros p Hpp. destruct (Hp p Hpp) as [H1 H2].
      split; [exact H1|]. rewrite Hm; [exact H2|]. apply obj_foot_spec. split; [exact Hx|right; exact Hpp].
    + intros y. unfold obj_foot. rewrite Ep. reflexivity.
Qed.

Lemma delete_elements_ok l m : (forall x, In x l -> obj_fine m x) ->
  ForallOrdPairs (fun a b => forall y, obj_foot m a y = true -> obj_foot m b y = false) l ->
  exists m', delete_elements m l = Ok m' /\ forall y, m' y = if existsb (fun x => obj_foot m x y) l then None else m y.
Proof.
  intros H1 H2. apply (seq_del delete_object obj_foot obj_fine); auto.
  - intros m0 a Ha. apply delete_object_ok. exact Ha.
  - intros m0 m1 a Ha Hm. apply obj_stable; assumption.
Qed.

(** ** collections *)
Definition elems_of (m : memory) (c : addr) : list addr := match m c with Some (KColl false es) => es | _ => [] end.
Definition col_foot (m : memory) (c y : addr) : bool :=
  (y =? c) || existsb (fun x => obj_foot m x y) (elems_of m c).
Definition col_fine (m : memory) (c : addr) : Prop :=
  c <> 0 /\ (exists b es, m c = Some (KColl b es)) /\
  (forall x, In x (elems_of m c) -> obj_fine m x) /\
  ForallOrdPairs (fun a b => forall y, obj_foot m a y = true -> obj_foot m b y = false) (elems_of m c).

Lemma delete_collection_ok m c : col_fine m c ->
  exists m', delete_collection m c = Ok m' /\ forall y, m' y = if col_foot m c y then None else m y.
Proof.
  intros (Hc & (b & es & Hk) & Hf & Hd). unfold delete_collection. destruct (Z.eqb_spec c 0); [contradiction|].
  unfold col_foot, elems_of in *. rewrite Hk in *. destruct b.
  - cbn [bind existsb]. eexists. split; [reflexivity|]. intros y. unfold m_set. rewrite Bool.orb_false_r. reflexivity.
  - destruct (delete_elements_ok es m Hf Hd) as (m' & E & P). rewrite E. cbn [bind].
    eexists. split; [reflexivity|]. intros y. unfold m_set. rewrite P. destruct (y =? c); reflexivity.
Qed.

Lemma FOP_impl {A} (P Q : A -> A -> Prop) l : (forall a b, In a l -> In b l -> P a b -> Q a b) ->
  ForallOrdPairs P l -> ForallOrdPairs Q l.
Proof.
  intros H HP. induction HP as [|a l Ha Hl IH]; constructor.
  - rewrite Forall_forall in *. intros b Hb. apply H; [left; reflexivity|right; exact Hb|apply Ha; exact Hb].
  - apply IH. intros x y Hx Hy. apply H; right; assumption.
Qed.

Lemma col_stable m m' c : col_fine m c -> (forall y, col_foot m c y = true -> m' y = m y) ->
  col_fine m' c /\ forall y, col_foot m' c y = col_foot m c y.
Proof.
  intros (Hc & Hk & Hf & Hd) Hm.
  assert (E : m' c = m c) by (apply Hm; unfold col_foot; rewrite Z.eqb_refl; reflexivity).
  assert (Ee : elems_of m' c = elems_of m c) by (unfold elems_of; rewrite E; reflexivity).
  assert (Hs : forall x, In x (elems_of m c) -> obj_fine m' x /\ forall y, obj_foot m' x y = obj_foot m x y).
  { intros x Hx. apply obj_stable; [apply Hf; exact Hx|]. intros y Hy. apply Hm. unfold col_foot.
    apply Bool.orb_true_iff. right. apply existsb_exists. exists x. split; assumption. }
  split.
  - split; [exact Hc|]. split; [rewrite E; exact Hk|]. rewrite Ee. split.
    + intros x Hx. apply Hs. exact Hx.
    + eapply FOP_impl; [|exact Hd]. intros a b Ha Hb H y. cbn beta.
      destruct (Hs a Ha) as [_ Qa]. destruct (Hs b Hb) as [_ Qb]. rewrite Qa, Qb. apply H.
  - intros y. unfold col_foot. rewrite Ee. f_equal.
    assert (G : forall l, (forall x, In x l -> In x (elems_of m c)) ->
      existsb (fun x => obj_foot m' x y) l = existsb (fun x => obj_foot m x y) l).
    { induction l as [|x l IH]; intros Hl; [reflexivity|]. cbn [existsb]. destruct (Hs x (Hl x (or_introl eq_refl))) as [_ Q].
      rewrite Q, IH; [reflexivity|]. intros z Hz. apply Hl. right. exact Hz. }
    apply G. auto.
Qed.

Lemma delete_collections_run m cols taken :
  delete_collections m cols taken =
  (fix run (m : memory) (l : list addr) : Res memory :=
     match l with [] => Ok m | c :: l' => do m <- delete_collection m c; run m l' end)
  m (filter (fun c => negb (existsb (Z.eqb c) taken)) (map snd cols)).
Proof.
  revert m. induction cols as [|[n c] cols IH]; intros m; [reflexivity|]. cbn [delete_collections map snd filter].
  destruct (existsb (Z.eqb c) taken); cbn [negb bind]; [apply IH|].
  destruct (delete_collection m c) as [m1| |]; cbn [bind]; [apply IH|reflexivity|reflexivity].
Qed.

Lemma delete_collections_ok m cols taken :
  let l := filter (fun c => negb (existsb (Z.eqb c) taken)) (map snd cols) in
  (forall c, In c l -> col_fine m c) ->
  ForallOrdPairs (fun a b => forall y, col_foot m a y = true -> col_foot m b y = false) l ->
  exists m', delete_collections m cols taken = Ok m' /\
    forall y, m' y = if existsb (fun c => col_foot m c y) l then None else m y.
Proof.
  intros l H1 H2. rewrite delete_collections_run. fold l.
  apply (seq_del delete_collection col_foot col_fine); auto.
  - intros m0 a Ha. apply delete_collection_ok. exact Ha.
  - intros m0 m1 a Ha Hm. apply col_stable; assumption.
Qed.

(** ** the invariant *)
Record inv (s : ostate) (w : owners) : Prop := mkInv {
  i_live : forall y, o_mem s y = None <-> w y = None;
  i_zero : o_mem s 0 = None;
  i_nodup : forall o ps, o_mem s o = Some (KObj ps) -> NoDup ps;
  i_parts : forall o ps p, o_mem s o = Some (KObj ps) -> In p ps -> w p = Some (ByObject o) /\ o_mem s p = Some KPart;
  i_byobj : forall p o, w p = Some (ByObject o) -> exists ps, o_mem s o = Some (KObj ps) /\ In p ps;
  i_nodupe : forall c es, o_mem s c = Some (KColl false es) -> NoDup (not_null es);
  i_elems : forall c es x, o_mem s c = Some (KColl false es) -> In x es -> x <> 0 ->
              w x = Some (ByColl c) /\ an_object (o_mem s x);
  i_bycoll : forall x c, w x = Some (ByColl c) -> exists es, o_mem s c = Some (KColl false es) /\ In x es;
  i_sm : sm_ok (o_cols s);
  i_cols : forall n c, sm_get n (o_cols s) = Some c -> o_alive s = true /\ (In c (o_taken s) \/ w c = Some ByEvent);
  i_uniq : forall n n' c, sm_get n (o_cols s) = Some c -> sm_get n' (o_cols s) = Some c -> ~ In c (o_taken s) -> n = n';
  i_byevent : forall c, w c = Some ByEvent -> ~ In c (o_taken s) /\ (exists n, sm_get n (o_cols s) = Some c) /\
              exists b es, o_mem s c = Some (KColl b es) }.

Lemma inv_init : inv own_init nobody.
Proof.
  constructor; cbn; intros; try discriminate; try reflexivity; try tauto. constructor.
Qed.

Lemma free_mem s w a : inv s w -> free w a -> o_mem s a = None.
Proof. intros I [_ H]. apply (i_live _ _ I). exact H. Qed.
Lemma owned_mem s w a k : inv s w -> w a = Some k -> exists x, o_mem s a = Some x.
Proof.
  intros I H. destruct (o_mem s a) eqn:E; [eauto|]. apply (i_live _ _ I) in E. congruence.
Qed.
Lemma mem_owned s w a x : inv s w -> o_mem s a = Some x -> w a <> None.
Proof. intros I H E. apply (i_live _ _ I) in E. congruence. Qed.
Lemma mem_nonzero s w a x : inv s w -> o_mem s a = Some x -> a <> 0.
Proof. intros I H ->. rewrite (i_zero _ _ I) in H. discriminate. Qed.

(** a new object *)
Lemma inv_new s w a k : inv s w -> free w a -> (k = KPart \/ k = KObj [] \/ k = KColl false [] /\ ~ In a (o_taken s)) ->
  inv (with_mem s (m_set (o_mem s) a (Some k))) (owned_by w a ByUser).
Proof.
  intros I Hf Hk. pose proof (free_mem _ _ _ I Hf) as Hm. destruct Hf as [Ha Hw].
  assert (Hko : forall ps, k = KObj ps -> ps = []) by (intros ps E; destruct Hk as [->|[->|[-> _]]]; congruence).
  assert (Hkc : forall b es, k = KColl b es -> b = false /\ es = []) by (intros b es E; destruct Hk as [->|[->|[-> _]]]; split; congruence).
  constructor; cbn [with_mem o_mem o_cols o_taken o_alive]; unfold m_set, owned_by.
  - intros y. destruct (Z.eqb_spec y a); [split; discriminate|apply (i_live _ _ I)].
  - destruct (Z.eqb_spec 0 a); [congruence|apply (i_zero _ _ I)].
  - intros o ps E. destruct (Z.eqb_spec o a); [injection E as E; rewrite (Hko _ E); constructor|apply (i_nodup _ _ I _ _ E)].
  - intros o ps p E Hp. destruct (Z.eqb_spec o a).
    + injection E as E. rewrite (Hko _ E) in Hp. destruct Hp.
    + destruct (i_parts _ _ I _ _ _ E Hp) as [H1 H2]. destruct (Z.eqb_spec p a); [congruence|]. split; assumption.
  - intros p o E. destruct (Z.eqb_spec p a); [discriminate|]. destruct (i_byobj _ _ I _ _ E) as (ps & H1 & H2).
    exists ps. destruct (Z.eqb_spec o a); [congruence|]. split; assumption.
  - intros c es E. destruct (Z.eqb_spec c a).
    + injection E as E. destruct (Hkc _ _ E) as [_ ->]. constructor.
    + apply (i_nodupe _ _ I _ _ E).
  - intros c es x E Hx Hx0. destruct (Z.eqb_spec c a).
    + injection E as E. destruct (Hkc _ _ E) as [_ ->]. destruct Hx.
    + destruct (i_elems _ _ I _ _ _ E Hx Hx0) as [H1 H2]. destruct (Z.eqb_spec x a); [congruence|]. split; assumption.
  - intros x c E. destruct (Z.eqb_spec x a); [discriminate|]. destruct (i_bycoll _ _ I _ _ E) as (es & H1 & H2).
    exists es. destruct (Z.eqb_spec c a); [congruence|]. split; assumption.
  - apply (i_sm _ _ I).
  - intros n c E. destruct (i_cols _ _ I _ _ E) as [H1 [H2|H2]]; split; try exact H1; [left; exact H2|].
    destruct (Z.eqb_spec c a); [congruence|right; exact H2].
  - apply (i_uniq _ _ I).
  - intros c E. destruct (Z.eqb_spec c a); [discriminate|]. destruct (i_byevent _ _ I _ E) as (H1 & H2 & b & es & H3).
    split; [exact H1|]. split; [exact H2|]. exists b, es. exact H3.
Qed.

Lemma m_new_ok s w a k : inv s w -> free w a -> m_new (o_mem s) a k = Ok (m_set (o_mem s) a (Some k)).
Proof.
  intros I Hf. pose proof (free_mem _ _ _ I Hf) as Hm. destruct Hf as [Ha _]. unfold m_new.
  destruct (Z.eqb_spec a 0); [contradiction|]. rewrite Hm. reflexivity.
Qed.

(** a part is given to an object *)
Lemma inv_givePart s w o p ps : inv s w -> o_mem s o = Some (KObj ps) -> w p = Some ByUser -> o_mem s p = Some KPart ->
  inv (with_mem s (m_set (o_mem s) o (Some (KObj (ps ++ [p]))))) (owned_by w p (ByObject o)).
Proof.
  intros I Ho Hw Hm.
  assert (Hpo : p <> o) by (intros ->; congruence).
  assert (Hps : ~ In p ps) by (intros H; destruct (i_parts _ _ I _ _ _ Ho H); congruence).
  constructor; cbn [with_mem o_mem o_cols o_taken o_alive]; unfold m_set, owned_by.
  - intros y. destruct (Z.eqb_spec y o) as [Hy|?]; destruct (Z.eqb_spec y p) as [Hy'|?]; try (split; discriminate).
    + split; [discriminate|]. intros E. apply (i_live _ _ I) in E. congruence.
    + split; [|discriminate]. congruence.
    + apply (i_live _ _ I).
  - destruct (Z.eqb_spec 0 o); [|apply (i_zero _ _ I)]. subst. rewrite (i_zero _ _ I) in Ho. discriminate.
  - intros o' ps' E. destruct (Z.eqb_spec o' o) as [->|?]; [|apply (i_nodup _ _ I _ _ E)]. injection E as <-.
    rewrite <- (rev_involutive (ps ++ [p])). apply NoDup_rev. rewrite rev_unit. constructor.
    + rewrite <- in_rev. exact Hps.
    + apply NoDup_rev. apply (i_nodup _ _ I _ _ Ho).
  - intros o' ps' q E Hq. destruct (Z.eqb_spec o' o) as [->|Hno].
    + injection E as <-. apply in_app_or in Hq. destruct Hq as [Hq|[<-|[]]].
      * destruct (i_parts _ _ I _ _ _ Ho Hq) as [H1 H2]. destruct (Z.eqb_spec q p); [congruence|].
        destruct (Z.eqb_spec q o); [congruence|]. split; assumption.
      * rewrite Z.eqb_refl. destruct (Z.eqb_spec p o); [contradiction|]. split; [reflexivity|exact Hm].
    + destruct (i_parts _ _ I _ _ _ E Hq) as [H1 H2]. destruct (Z.eqb_spec q p); [congruence|].
      destruct (Z.eqb_spec q o); [congruence|]. split; assumption.
  - intros q o' E. destruct (Z.eqb_spec q p) as [->|?].
    + injection E as <-. exists (ps ++ [p]). rewrite Z.eqb_refl. split; [reflexivity|]. apply in_or_app. right. left. reflexivity.
    + destruct (i_byobj _ _ I _ _ E) as (ps' & H1 & H2). destruct (Z.eqb_spec o' o) as [->|?].
      * exists (ps ++ [p]). split; [reflexivity|]. apply in_or_app. left. congruence.
      * exists ps'. split; assumption.
  - intros c es E. destruct (Z.eqb_spec c o); [discriminate|]. apply (i_nodupe _ _ I _ _ E).
  - intros c es x E Hx Hx0. destruct (Z.eqb_spec c o); [discriminate|].
    destruct (i_elems _ _ I _ _ _ E Hx Hx0) as [H1 H2]. destruct (Z.eqb_spec x p); [congruence|]. split; [exact H1|].
    destruct (Z.eqb_spec x o); [right; eexists; reflexivity|exact H2].
  - intros x c E. destruct (Z.eqb_spec x p); [discriminate|]. destruct (i_bycoll _ _ I _ _ E) as (es & H1 & H2).
    exists es. destruct (Z.eqb_spec c o); [congruence|]. split; assumption.
  - apply (i_sm _ _ I).
  - intros n c E. destruct (i_cols _ _ I _ _ E) as [H1 [H2|H2]]; split; try exact H1; [left; exact H2|].
    destruct (Z.eqb_spec c p); [congruence|right; exact H2].
  - apply (i_uniq _ _ I).
  - intros c E. destruct (Z.eqb_spec c p); [discriminate|]. destruct (i_byevent _ _ I _ E) as (H1 & H2 & b & es & H3).
    split; [exact H1|]. split; [exact H2|]. exists b, es. destruct (Z.eqb_spec c o); [congruence|exact H3].
Qed.

(** a collection gets other elements or another flag, and objects change between it and the user *)
Lemma inv_coll s w c b es b' es' w' : inv s w -> o_mem s c = Some (KColl b es) ->
  (forall x, w' x = w x \/ w' x = Some ByUser \/ w' x = Some (ByColl c)) ->
  (* what is changed belongs to the user or to the collection before *)
  (forall x, w' x = w x \/ (w x = Some ByUser \/ w x = Some (ByColl c)) /\ an_object (o_mem s x)) ->
  (b' = false -> NoDup (not_null es') /\ forall x, In x es' -> x <> 0 -> w' x = Some (ByColl c) /\ an_object (o_mem s x)) ->
  (forall x, w' x = Some (ByColl c) -> b' = false /\ In x es') ->
  inv (with_mem s (m_set (o_mem s) c (Some (KColl b' es')))) w'.
Proof.
  intros I Hc Hw Hw0 He Hb.
  assert (Hobj : forall x, an_object (o_mem s x) -> x <> c) by (intros x [H|[ps H]] ->; congruence).
  assert (Hsome : forall x, w' x = None <-> w x = None).
  { intros x. destruct (Hw0 x) as [->|[[Hx|Hx] Ho]]; [tauto| |]; destruct (Hw x) as [E|[E|E]]; rewrite E, ?Hx; split; congruence. }
  constructor; cbn [with_mem o_mem o_cols o_taken o_alive]; unfold m_set.
  - intros y. rewrite Hsome. destruct (Z.eqb_spec y c) as [->|?]; [|apply (i_live _ _ I)].
    rewrite <- (i_live _ _ I). rewrite Hc. split; discriminate.
  - destruct (Z.eqb_spec 0 c); [|apply (i_zero _ _ I)]. subst. rewrite (i_zero _ _ I) in Hc. discriminate.
  - intros o ps E. destruct (Z.eqb_spec o c); [discriminate|]. apply (i_nodup _ _ I _ _ E).
  - intros o ps p E Hp. destruct (Z.eqb_spec o c); [discriminate|]. destruct (i_parts _ _ I _ _ _ E Hp) as [H1 H2].
    destruct (Z.eqb_spec p c); [congruence|]. split; [|exact H2].
    destruct (Hw0 p) as [->|[[H|H] _]]; congruence.
  - intros p o E. assert (E0 : w p = Some (ByObject o)) by (destruct (Hw p) as [H|[H|H]]; congruence).
    destruct (i_byobj _ _ I _ _ E0) as (ps & H1 & H2).
    exists ps. destruct (Z.eqb_spec o c); [congruence|]. split; assumption.
  - intros c' es0 E. destruct (Z.eqb_spec c' c).
    + injection E as Hb' <-. apply He. congruence.
    + apply (i_nodupe _ _ I _ _ E).
  - intros c' es0 x E Hx Hx0. destruct (Z.eqb_spec c' c) as [->|Hn].
    + injection E as Hb' <-. destruct (proj2 (He Hb') x Hx Hx0) as [H1 H2]. split; [exact H1|].
      destruct (Z.eqb_spec x c); [exfalso; apply (Hobj x H2); assumption|exact H2].
    + destruct (i_elems _ _ I _ _ _ E Hx Hx0) as [H1 H2]. destruct (Z.eqb_spec x c); [exfalso; apply (Hobj x H2); assumption|].
      split; [|exact H2]. destruct (Hw0 x) as [->|[[H|H] _]]; congruence.
  - intros x c' E. destruct (Z.eqb_spec c' c) as [->|Hn].
    + destruct (Hb x E) as [-> H]. exists es'. split; [reflexivity|exact H].
    + assert (E0 : w x = Some (ByColl c')) by (destruct (Hw x) as [H|[H|H]]; congruence).
      destruct (i_bycoll _ _ I _ _ E0) as (es0 & H1 & H2). exists es0. split; assumption.
  - apply (i_sm _ _ I).
  - intros n c' E. destruct (i_cols _ _ I _ _ E) as [H1 [H2|H2]]; split; try exact H1; [left; exact H2|].
    right. destruct (Hw0 c') as [->|[[H|H] _]]; congruence.
  - apply (i_uniq _ _ I).
  - intros c' E. assert (E0 : w c' = Some ByEvent) by (destruct (Hw c') as [H|[H|H]]; congruence).
    destruct (i_byevent _ _ I _ E0) as (H1 & H2 & b0 & es0 & H3).
    split; [exact H1|]. split; [exact H2|]. destruct (Z.eqb_spec c' c); eauto.
Qed.

(** ** chains of owners *)
Lemma coll_owner s w c b es : inv s w -> o_mem s c = Some (KColl b es) -> w c = Some ByUser \/ w c = Some ByEvent.
Proof.
  intros I Hc. destruct (w c) as [[| |d|o]|] eqn:E; [left; reflexivity|right; reflexivity| | |].
  - exfalso. destruct (i_bycoll _ _ I _ _ E) as (es' & H1 & H2).
    assert (c <> 0) by (eapply mem_nonzero; eauto).
    destruct (i_elems _ _ I _ _ _ H1 H2 H) as [_ [H3|[ps H3]]]; congruence.
  - exfalso. destruct (i_byobj _ _ I _ _ E) as (ps & H1 & H2). destruct (i_parts _ _ I _ _ _ H1 H2). congruence.
  - exfalso. apply (i_live _ _ I) in E. congruence.
Qed.
Lemma obj_owner s w o ps : inv s w -> o_mem s o = Some (KObj ps) -> w o = Some ByUser \/ exists c, w o = Some (ByColl c).
Proof.
  intros I Hc. destruct (w o) as [[| |d|p]|] eqn:E; [left; reflexivity| |right; eauto| |].
  - exfalso. destruct (i_byevent _ _ I _ E) as (_ & _ & b & es & H). congruence.
  - exfalso. destruct (i_byobj _ _ I _ _ E) as (ps' & H1 & H2). destruct (i_parts _ _ I _ _ _ H1 H2). congruence.
  - exfalso. apply (i_live _ _ I) in E. congruence.
Qed.
Lemma bycoll_owner s w x c : inv s w -> w x = Some (ByColl c) -> w c = Some ByUser \/ w c = Some ByEvent.
Proof. intros I H. destruct (i_bycoll _ _ I _ _ H) as (es & H1 & _). eapply coll_owner; eauto. Qed.
Lemma byobj_owner s w p o : inv s w -> w p = Some (ByObject o) -> w o = Some ByUser \/ exists c, w o = Some (ByColl c).
Proof. intros I H. destruct (i_byobj _ _ I _ _ H) as (ps & H1 & _). eapply obj_owner; eauto. Qed.

Lemma up_coll r s w x c : inv s w -> w x = Some (ByColl c) -> is_owner r w x = r (ByColl c) || is_owner r w c.
Proof.
  intros I H. unfold is_owner. cbn [chain]. rewrite H. cbn [existsb]. f_equal.
  destruct (bycoll_owner _ _ _ _ I H) as [->| ->]; reflexivity.
Qed.
Lemma up_obj r s w p o : inv s w -> w p = Some (ByObject o) -> is_owner r w p = r (ByObject o) || is_owner r w o.
Proof.
  intros I H. unfold is_owner. cbn [chain]. rewrite H. cbn [existsb]. f_equal.
  destruct (byobj_owner _ _ _ _ I H) as [->|[c Hc]]; [reflexivity|]. rewrite Hc. cbn [existsb]. f_equal.
  destruct (bycoll_owner _ _ _ _ I Hc) as [->| ->]; reflexivity.
Qed.
Lemma up_top r w y k : w y = Some k -> (k = ByUser \/ k = ByEvent) -> is_owner r w y = r k.
Proof. intros H [->| ->]; unfold is_owner; cbn [chain]; rewrite H; cbn [existsb]; apply Bool.orb_false_r. Qed.
Lemma up_none r w y : w y = None -> is_owner r w y = false.
Proof. intros H. unfold is_owner. cbn [chain]. rewrite H. reflexivity. Qed.

(** a set of objects that contains with every object its owner and its belongings *)
Definition closed (w : owners) (D : addr -> bool) : Prop :=
  (forall p o, w p = Some (ByObject o) -> D p = D o) /\ (forall x c, w x = Some (ByColl c) -> D x = D c).

Lemma belongings_closed s w a : inv s w -> w a = Some ByUser -> closed w (with_belongings w a).
Proof.
  intros I Ha. split.
  - intros p o H. unfold with_belongings. rewrite (up_obj _ _ _ _ _ I H). cbn [at_addr].
    destruct (Z.eqb_spec p a); [congruence|reflexivity].
  - intros x c H. unfold with_belongings. rewrite (up_coll _ _ _ _ _ I H). cbn [at_addr].
    destruct (Z.eqb_spec x a); [congruence|reflexivity].
Qed.
Lemma event_closed s w : inv s w -> closed w (is_owner is_event w).
Proof.
  intros I. split; intros x y H; [rewrite (up_obj _ _ _ _ _ I H)|rewrite (up_coll _ _ _ _ _ I H)]; reflexivity.
Qed.

Lemma inv_delete s w D m' cols taken alive : inv s w -> closed w D ->
  (forall y, m' y = if D y then None else o_mem s y) ->
  (cols = o_cols s /\ taken = o_taken s /\ alive = o_alive s /\ (forall c, w c = Some ByEvent -> D c = false) \/
   cols = [] /\ (forall c, w c = Some ByEvent -> D c = true)) ->
  inv (mkO m' cols taken alive) (gone w D).
Proof.
  intros I [Dp Dc] Hm Hcols. constructor; cbn [o_mem o_cols o_taken o_alive]; unfold gone.
  - intros y. rewrite Hm. destruct (D y); [tauto|apply (i_live _ _ I)].
  - rewrite Hm. destruct (D 0); [reflexivity|apply (i_zero _ _ I)].
  - intros o ps E. rewrite Hm in E. destruct (D o); [discriminate|]. apply (i_nodup _ _ I _ _ E).
  - intros o ps p E Hp. rewrite Hm in E. destruct (D o) eqn:Ho; [discriminate|].
    destruct (i_parts _ _ I _ _ _ E Hp) as [H1 H2]. rewrite Hm, (Dp _ _ H1), Ho. split; assumption.
  - intros p o E. destruct (D p) eqn:Ep; [discriminate|]. destruct (i_byobj _ _ I _ _ E) as (ps & H1 & H2).
    exists ps. rewrite Hm, <- (Dp _ _ E), Ep. split; assumption.
  - intros c es E. rewrite Hm in E. destruct (D c); [discriminate|]. apply (i_nodupe _ _ I _ _ E).
  - intros c es x E Hx Hx0. rewrite Hm in E. destruct (D c) eqn:Ec; [discriminate|].
    destruct (i_elems _ _ I _ _ _ E Hx Hx0) as [H1 H2]. rewrite Hm, (Dc _ _ H1), Ec. split; assumption.
  - intros x c E. destruct (D x) eqn:Ex; [discriminate|]. destruct (i_bycoll _ _ I _ _ E) as (es & H1 & H2).
    exists es. rewrite Hm, <- (Dc _ _ E), Ex. split; assumption.
  - destruct Hcols as [(-> & _)|(-> & _)]; [apply (i_sm _ _ I)|constructor].
  - intros n c E. destruct Hcols as [(-> & -> & -> & Hd)|(-> & _)]; [|discriminate].
    destruct (i_cols _ _ I _ _ E) as [H1 [H2|H2]]; split; try exact H1; [left; exact H2|].
    right. rewrite (Hd _ H2). exact H2.
  - destruct Hcols as [(-> & -> & -> & Hd)|(-> & _)]; [apply (i_uniq _ _ I)|intros n n' c E; discriminate].
  - intros c E. destruct (D c) eqn:Ec; [discriminate|].
    destruct Hcols as [(-> & -> & -> & Hd)|(-> & Hd)]; [|rewrite (Hd _ E) in Ec; discriminate].
    destruct (i_byevent _ _ I _ E) as (H1 & H2 & b & es & H3). split; [exact H1|]. split; [exact H2|].
    exists b, es. rewrite Hm, Ec. exact H3.
Qed.

(** what the destructors reach is what belongs to the object *)
Lemma fine_object s w x : inv s w -> an_object (o_mem s x) -> obj_fine (o_mem s) x.
Proof.
  intros I Ho Hx. split; [exact Ho|]. unfold parts_of. destruct (o_mem s x) as [[| ps|]|] eqn:E; try (split; [constructor|intros p []]).
  split; [apply (i_nodup _ _ I _ _ E)|]. intros p Hp. destruct (i_parts _ _ I _ _ _ E Hp) as [H1 H2].
  split; [|exact H2]. eapply mem_nonzero; eauto.
Qed.
Lemma fine_elem s w c es x : inv s w -> o_mem s c = Some (KColl false es) -> In x es -> obj_fine (o_mem s) x.
Proof.
  intros I Hc Hx Hx0. destruct (i_elems _ _ I _ _ _ Hc Hx Hx0) as [_ H]. apply (fine_object _ _ _ I H Hx0).
Qed.

Lemma parts_iff s w x y : inv s w -> In y (parts_of (o_mem s) x) <-> w y = Some (ByObject x).
Proof.
  intros I. unfold parts_of. split.
  - destruct (o_mem s x) as [[| ps|]|] eqn:E; try intros []. intros H. apply (i_parts _ _ I _ _ _ E H).
  - intros H. destruct (i_byobj _ _ I _ _ H) as (ps & H1 & H2). rewrite H1. exact H2.
Qed.
Lemma elems_iff s w c x : inv s w -> (In x (elems_of (o_mem s) c) /\ x <> 0) <-> w x = Some (ByColl c).
Proof.
  intros I. unfold elems_of. split.
  - destruct (o_mem s c) as [[| |[|] es]|] eqn:E; try (intros [[] _]). intros [H1 H2]. apply (i_elems _ _ I _ _ _ E H1 H2).
  - intros H. destruct (i_bycoll _ _ I _ _ H) as (es & H1 & H2). rewrite H1. split; [exact H2|].
    destruct (owned_mem _ _ _ _ I H) as [k Hk]. eapply mem_nonzero; eauto.
Qed.

Lemma foot_iff s w x y : inv s w -> obj_foot (o_mem s) x y = true <-> x <> 0 /\ (y = x \/ w y = Some (ByObject x)).
Proof. intros I. rewrite obj_foot_spec, (parts_iff _ _ _ _ I). tauto. Qed.

Lemma nodup_pairs s w c es : inv s w -> NoDup (not_null es) ->
  (forall x, In x es -> x <> 0 -> w x = Some (ByColl c)) ->
  ForallOrdPairs (fun a b => forall y, obj_foot (o_mem s) a y = true -> obj_foot (o_mem s) b y = false) es.
Proof.
  intros I. induction es as [|x es IH]; intros Hn Hw; constructor.
  - rewrite Forall_forall. intros z Hz y Hy. apply (foot_iff _ _ _ _ I) in Hy. destruct Hy as [Hx0 Hy].
    destruct (obj_foot (o_mem s) z y) eqn:E; [|reflexivity]. exfalso.
    apply (foot_iff _ _ _ _ I) in E. destruct E as [Hz0 E].
    unfold not_null in Hn. cbn [filter] in Hn. destruct (Z.eqb_spec x 0); [contradiction|]. cbn [negb] in Hn.
    inversion Hn as [|? ? Hni Hn']; subst. assert (Hxz : x <> z).
    { intros ->. apply Hni. apply filter_In. split; [exact Hz|]. destruct (Z.eqb_spec z 0); [contradiction|reflexivity]. }
    pose proof (Hw x (or_introl eq_refl) Hx0) as W1. pose proof (Hw z (or_intror Hz) Hz0) as W2.
    destruct Hy as [->|Hy]; destruct E as [->|E]; congruence.
  - apply IH.
    + unfold not_null in *. cbn [filter] in Hn. destruct (x =? 0); cbn [negb] in Hn; [exact Hn|]. inversion Hn; assumption.
    + intros z Hz. apply Hw. right. exact Hz.
Qed.

Lemma fine_coll s w c b es : inv s w -> o_mem s c = Some (KColl b es) -> col_fine (o_mem s) c.
Proof.
  intros I Hc. split; [eapply mem_nonzero; eauto|]. split; [eauto|]. unfold elems_of. rewrite Hc. destruct b.
  - split; [intros x []|constructor].
  - split; [intros x Hx; eapply fine_elem; eauto|]. eapply nodup_pairs; [exact I|apply (i_nodupe _ _ I _ _ Hc)|].
    intros x Hx Hx0. apply (i_elems _ _ I _ _ _ Hc Hx Hx0).
Qed.

Lemma colfoot_iff s w c y : inv s w -> col_foot (o_mem s) c y = true <->
  y = c \/ w y = Some (ByColl c) \/ exists x, w x = Some (ByColl c) /\ w y = Some (ByObject x).
Proof.
  intros I. unfold col_foot. rewrite Bool.orb_true_iff, Z.eqb_eq, existsb_exists. split.
  - intros [->|(x & Hx & Hf)]; [left; reflexivity|]. apply (foot_iff _ _ _ _ I) in Hf. destruct Hf as [Hx0 Hf].
    assert (W : w x = Some (ByColl c)) by (apply (elems_iff _ _ _ _ I); split; assumption).
    destruct Hf as [->|Hf]; [right; left; exact W|right; right; exists x; split; assumption].
  - intros [->|[H|(x & H1 & H2)]]; [left; reflexivity| |]; right.
    + pose proof H as H'. apply (elems_iff _ _ _ _ I) in H'. destruct H' as [H1 H2]. exists y. split; [exact H1|].
      apply (foot_iff _ _ _ _ I). split; [exact H2|left; reflexivity].
    + pose proof H1 as H'. apply (elems_iff _ _ _ _ I) in H'. destruct H' as [H3 H4]. exists x. split; [exact H3|].
      apply (foot_iff _ _ _ _ I). split; [exact H4|right; exact H2].
Qed.

Lemma bool_iff (a b : bool) : (a = true <-> b = true) -> a = b.
Proof. destruct a, b; intuition congruence. Qed.

Lemma object_gone s w x y : inv s w -> w x = Some ByUser -> an_object (o_mem s x) ->
  obj_foot (o_mem s) x y = with_belongings w x y.
Proof.
  intros I Hx Ho. apply bool_iff. rewrite (foot_iff _ _ _ _ I). unfold with_belongings. rewrite Bool.orb_true_iff, Z.eqb_eq.
  assert (Hnc : forall z, w z <> Some (ByColl x)).
  { intros z H. destruct (i_bycoll _ _ I _ _ H) as (es & H1 & _). destruct Ho as [Ho|[ps Ho]]; congruence. }
  assert (x <> 0) by (destruct (owned_mem _ _ _ _ I Hx) as [k Hk]; eapply mem_nonzero; eauto).
  split.
  - intros [_ [->|Hy]]; [left; reflexivity|right]. rewrite (up_obj _ _ _ _ _ I Hy). cbn [at_addr]. rewrite Z.eqb_refl. reflexivity.
  - intros [->|Hy]; (split; [assumption|]); [left; reflexivity|right].
    destruct (w y) as [[| |c|o]|] eqn:E.
    + rewrite (up_top _ _ _ _ E (or_introl eq_refl)) in Hy. discriminate.
    + rewrite (up_top _ _ _ _ E (or_intror eq_refl)) in Hy. discriminate.
    + exfalso. rewrite (up_coll _ _ _ _ _ I E) in Hy. cbn [at_addr] in Hy. destruct (Z.eqb_spec c x); [subst; apply (Hnc y E)|].
      destruct (bycoll_owner _ _ _ _ I E) as [H'|H']; rewrite (up_top _ _ _ _ H') in Hy by tauto; discriminate.
    + rewrite (up_obj _ _ _ _ _ I E) in Hy. cbn [at_addr] in Hy. destruct (Z.eqb_spec o x); [subst; reflexivity|]. exfalso.
      destruct (byobj_owner _ _ _ _ I E) as [H'|[c H']].
      * rewrite (up_top _ _ _ _ H') in Hy by tauto. discriminate.
      * rewrite (up_coll _ _ _ _ _ I H') in Hy. cbn [at_addr] in Hy. destruct (Z.eqb_spec c x); [subst; apply (Hnc o H')|].
        destruct (bycoll_owner _ _ _ _ I H') as [H''|H'']; rewrite (up_top _ _ _ _ H'') in Hy by tauto; discriminate.
    + rewrite (up_none _ _ _ E) in Hy. discriminate.
Qed.

Lemma coll_gone s w c b es y : inv s w -> o_mem s c = Some (KColl b es) ->
  col_foot (o_mem s) c y = with_belongings w c y.
Proof.
  intros I Hc. apply bool_iff. rewrite (colfoot_iff _ _ _ _ I). unfold with_belongings. rewrite Bool.orb_true_iff, Z.eqb_eq.
  assert (Hno : forall z, w z <> Some (ByObject c)).
  { intros z H. destruct (i_byobj _ _ I _ _ H) as (ps & H1 & _). congruence. }
  split.
  - intros [->|[H|(x & H1 & H2)]]; [left; reflexivity| |]; right.
    + rewrite (up_coll _ _ _ _ _ I H). cbn [at_addr]. rewrite Z.eqb_refl. reflexivity.
    + rewrite (up_obj _ _ _ _ _ I H2), (up_coll _ _ _ _ _ I H1). cbn [at_addr]. rewrite Z.eqb_refl. destruct (x =? c); reflexivity.
  - intros [->|Hy]; [left; reflexivity|right].
    destruct (w y) as [[| |c'|o]|] eqn:E.
    + rewrite (up_top _ _ _ _ E (or_introl eq_refl)) in Hy. discriminate.
    + rewrite (up_top _ _ _ _ E (or_intror eq_refl)) in Hy. discriminate.
    + rewrite (up_coll _ _ _ _ _ I E) in Hy. cbn [at_addr] in Hy. destruct (Z.eqb_spec c' c); [subst; left; reflexivity|]. exfalso.
      destruct (bycoll_owner _ _ _ _ I E) as [H'|H']; rewrite (up_top _ _ _ _ H') in Hy by tauto; discriminate.
    + rewrite (up_obj _ _ _ _ _ I E) in Hy. cbn [at_addr] in Hy. destruct (Z.eqb_spec o c); [subst; exfalso; apply (Hno y E)|].
      destruct (byobj_owner _ _ _ _ I E) as [H'|[c' H']].
      * exfalso. rewrite (up_top _ _ _ _ H') in Hy by tauto. discriminate.
      * rewrite (up_coll _ _ _ _ _ I H') in Hy. cbn [at_addr] in Hy. destruct (Z.eqb_spec c' c).
        -- subst. right. exists o. split; [exact H'|reflexivity].
        -- exfalso. destruct (bycoll_owner _ _ _ _ I H') as [H''|H'']; rewrite (up_top _ _ _ _ H'') in Hy by tauto; discriminate.
    + rewrite (up_none _ _ _ E) in Hy. discriminate.
Qed.

(** ~LCEventImpl *)
Definition owned_cols (s : ostate) : list addr :=
  filter (fun c => negb (existsb (Z.eqb c) (o_taken s))) (map snd (o_cols s)).

Lemma owned_cols_iff s w c : inv s w -> In c (owned_cols s) <-> w c = Some ByEvent.
Proof.
  intros I. unfold owned_cols. rewrite filter_In, in_map_iff, Bool.negb_true_iff. split.
  - intros [([n c'] & <- & Hin) Ht]. cbn [snd] in *. apply (sm_get_In _ _ _ (i_sm _ _ I)) in Hin.
    destruct (i_cols _ _ I _ _ Hin) as [_ [H|H]]; [|exact H]. apply existsb_In in H. congruence.
  - intros H. destruct (i_byevent _ _ I _ H) as (H1 & [n H2] & _). split.
    + exists (n, c). split; [reflexivity|]. apply (sm_get_In _ _ _ (i_sm _ _ I)). exact H2.
    + destruct (existsb _ _) eqn:E; [|reflexivity]. apply existsb_In in E. contradiction.
Qed.

Lemma owned_cols_nodup s w : inv s w -> NoDup (owned_cols s).
Proof.
  intros I. pose proof (i_sm _ _ I) as Hsm. pose proof (i_uniq _ _ I) as Hu. unfold owned_cols.
  assert (G : forall l, sm_ok l -> (forall n c, In (n, c) l -> sm_get n (o_cols s) = Some c) ->
    NoDup (filter (fun c => negb (existsb (Z.eqb c) (o_taken s))) (map snd l))).
  { induction l as [|[n c] l IH]; intros Hl Hin; [constructor|]. cbn [map snd filter].
    apply sm_ok_inv in Hl. destruct Hl as [Hl Hk].
    destruct (existsb (Z.eqb c) (o_taken s)) eqn:E; cbn [negb]; [apply IH; [exact Hl|intros; apply Hin; right; assumption]|].
    constructor; [|apply IH; [exact Hl|intros; apply Hin; right; assumption]].
    intros H. apply filter_In in H. destruct H as [H _]. apply in_map_iff in H. destruct H as ([n' c'] & Hc & H). cbn [snd] in Hc. subst c'.
    assert (n = n').
    { apply (Hu n n' c); [apply Hin; left; reflexivity|apply Hin; right; exact H|].
      intros Ht. apply existsb_In in Ht. congruence. }
    subst n'. rewrite Forall_forall in Hk. apply (str_lt_irrefl n). apply Hk. apply in_map_iff. exists (n, c). split; [reflexivity|exact H]. }
  apply G; [exact Hsm|]. intros n c H. apply (sm_get_In _ _ _ Hsm). exact H.
Qed.

Lemma delete_event_ok s w : inv s w -> exists m', delete_collections (o_mem s) (o_cols s) (o_taken s) = Ok m' /\
  forall y, m' y = if is_owner is_event w y then None else o_mem s y.
Proof.
  intros I. destruct (delete_collections_ok (o_mem s) (o_cols s) (o_taken s)) as (m' & E & P).
  - intros c Hc. fold (owned_cols s) in Hc. apply (owned_cols_iff _ _ _ I) in Hc.
    destruct (i_byevent _ _ I _ Hc) as (_ & _ & b & es & H). eapply fine_coll; eauto.
  - fold (owned_cols s). pose proof (owned_cols_nodup _ _ I) as Hn.
    assert (Hw : forall c, In c (owned_cols s) -> w c = Some ByEvent) by (intros c; apply (owned_cols_iff _ _ _ I)).
    induction Hn as [|a l Ha Hn IH]; constructor; [|apply IH; intros c Hc; apply Hw; right; exact Hc].
    rewrite Forall_forall. intros b Hb y Hy. destruct (col_foot (o_mem s) b y) eqn:Eb; [|reflexivity]. exfalso.
    apply (colfoot_iff _ _ _ _ I) in Hy. apply (colfoot_iff _ _ _ _ I) in Eb.
    pose proof (Hw a (or_introl eq_refl)) as Wa. pose proof (Hw b (or_intror Hb)) as Wb.
    assert (a <> b) by (intros ->; contradiction).
    destruct Hy as [->|[Hy|(x & Hx & Hy)]]; destruct Eb as [Eb|[Eb|(x' & Hx' & Eb)]]; try congruence.
  - exists m'. split; [exact E|]. intros y. rewrite P. fold (owned_cols s).
    replace (existsb (fun c => col_foot (o_mem s) c y) (owned_cols s)) with (is_owner is_event w y); [reflexivity|].
    apply bool_iff. rewrite existsb_exists. split.
    + intros Hy. destruct (w y) as [[| |c|o]|] eqn:Ey.
      * rewrite (up_top _ _ _ _ Ey (or_introl eq_refl)) in Hy. discriminate.
      * exists y. split; [apply (owned_cols_iff _ _ _ I); exact Ey|]. apply (colfoot_iff _ _ _ _ I). left. reflexivity.
      * rewrite (up_coll _ _ _ _ _ I Ey) in Hy. cbn [is_event orb] in Hy.
        destruct (bycoll_owner _ _ _ _ I Ey) as [H|H]; rewrite (up_top _ _ _ _ H) in Hy by tauto; [discriminate|].
        exists c. split; [apply (owned_cols_iff _ _ _ I); exact H|]. apply (colfoot_iff _ _ _ _ I). right. left. exact Ey.
      * rewrite (up_obj _ _ _ _ _ I Ey) in Hy. cbn [is_event orb] in Hy.
        destruct (byobj_owner _ _ _ _ I Ey) as [H|[c H]]; [rewrite (up_top _ _ _ _ H) in Hy by tauto; discriminate|].
        rewrite (up_coll _ _ _ _ _ I H) in Hy. cbn [is_event orb] in Hy.
        destruct (bycoll_owner _ _ _ _ I H) as [H'|H']; rewrite (up_top _ _ _ _ H') in Hy by tauto; [discriminate|].
        exists c. split; [apply (owned_cols_iff _ _ _ I); exact H'|]. apply (colfoot_iff _ _ _ _ I). right. right. exists o. split; [exact H|exact Ey].
      * rewrite (up_none _ _ _ Ey) in Hy. discriminate.
    + intros (c & Hc & Hy). apply (owned_cols_iff _ _ _ I) in Hc. apply (colfoot_iff _ _ _ _ I) in Hy.
      destruct Hy as [->|[Hy|(x & Hx & Hy)]].
      * rewrite (up_top _ _ _ _ Hc) by tauto. reflexivity.
      * rewrite (up_coll _ _ _ _ _ I Hy), (up_top _ _ _ _ Hc) by tauto. reflexivity.
      * rewrite (up_obj _ _ _ _ _ I Hy), (up_coll _ _ _ _ _ I Hx), (up_top _ _ _ _ Hc) by tauto. reflexivity.
Qed.

(** ** copies *)
Lemma new_parts_ok l : forall m, NoDup l -> (forall p, In p l -> p <> 0 /\ m p = None) ->
  exists m', new_parts m l = Ok m' /\ forall y, m' y = if existsb (Z.eqb y) l then Some KPart else m y.
Proof.
  induction l as [|a l IH]; intros m Hn Hf.
  - exists m. split; reflexivity.
  - inversion Hn as [|? ? Ha Hn']; subst. destruct (Hf a (or_introl eq_refl)) as [H1 H2].
    cbn [new_parts]. unfold m_new at 1. destruct (Z.eqb_spec a 0); [contradiction|]. rewrite H2. cbn [bind].
    destruct (IH (m_set m a (Some KPart)) Hn') as (m' & E & P).
    + intros p Hp. destruct (Hf p (or_intror Hp)) as [H3 H4]. split; [exact H3|].
      rewrite m_set_other; [exact H4|]. intros ->. contradiction.
    + exists m'. split; [exact E|]. intros y. rewrite P. cbn [existsb]. unfold m_set.
      destruct (y =? a), (existsb (Z.eqb y) l); reflexivity.
Qed.

Lemma inv_copyDeep s w a news m' : inv s w -> free w a -> NoDup (a :: news) -> (forall p, In p news -> free w p) ->
  (forall y, m' y = if existsb (Z.eqb y) news then Some KPart else m_set (o_mem s) a (Some (KObj news)) y) ->
  inv (with_mem s m') (all_owned_by (owned_by w a ByUser) news (ByObject a)).
Proof.
  intros I Hf Hn Hp Hm. pose proof (free_mem _ _ _ I Hf) as Hma. destruct Hf as [Ha Hwa].
  inversion Hn as [|? ? Han Hn']; subst.
  assert (Hpm : forall p, In p news -> o_mem s p = None) by (intros p H; apply (free_mem _ _ _ I); apply Hp; exact H).
  assert (Old : forall y k, w y = Some k -> existsb (Z.eqb y) news = false /\ (y =? a) = false).
  { intros y k H. split.
    - destruct (existsb _ _) eqn:E; [|reflexivity]. apply existsb_In in E. destruct (Hp y E). congruence.
    - destruct (Z.eqb_spec y a); [congruence|reflexivity]. }
  assert (Oldm : forall y k, o_mem s y = Some k -> existsb (Z.eqb y) news = false /\ (y =? a) = false).
  { intros y k H. split.
    - destruct (existsb _ _) eqn:E; [|reflexivity]. apply existsb_In in E. rewrite (Hpm y E) in H. discriminate.
    - destruct (Z.eqb_spec y a); [congruence|reflexivity]. }
  assert (New : forall y k, m' y = Some k ->
     (In y news /\ k = KPart) \/ (y = a /\ k = KObj news) \/ (existsb (Z.eqb y) news = false /\ (y =? a) = false /\ o_mem s y = Some k)).
  { intros y k H. rewrite Hm in H. unfold m_set in H. destruct (existsb (Z.eqb y) news) eqn:E.
    - left. apply existsb_In in E. split; congruence.
    - destruct (Z.eqb_spec y a); [right; left; split; congruence|]. right; right. auto. }
  assert (NewW : forall y k, all_owned_by (owned_by w a ByUser) news (ByObject a) y = Some k ->
     (In y news /\ k = ByObject a) \/ (y = a /\ k = ByUser) \/ (existsb (Z.eqb y) news = false /\ (y =? a) = false /\ w y = Some k)).
  { intros y k H. unfold all_owned_by, owned_by in H. destruct (existsb (Z.eqb y) news) eqn:E.
    - left. apply existsb_In in E. split; congruence.
    - destruct (Z.eqb_spec y a); [right; left; split; congruence|]. right; right. auto. }
  assert (KeepM : forall y k, o_mem s y = Some k -> m' y = Some k).
  { intros y k H. rewrite Hm. unfold m_set. destruct (Oldm y k H) as [-> ->]. exact H. }
  assert (KeepW : forall y k, w y = Some k -> all_owned_by (owned_by w a ByUser) news (ByObject a) y = Some k).
  { intros y k H. unfold all_owned_by, owned_by. destruct (Old y k H) as [-> ->]. exact H. }
  assert (Ea : existsb (Z.eqb a) news = false).
  { destruct (existsb _ _) eqn:E; [|reflexivity]. apply existsb_In in E. contradiction. }
  assert (Hm_a : m' a = Some (KObj news)) by (rewrite Hm, Ea; apply m_set_same).
  constructor; cbn [with_mem o_mem o_cols o_taken o_alive].
  - intros y. rewrite Hm. unfold m_set, all_owned_by, owned_by. destruct (existsb (Z.eqb y) news); [split; discriminate|].
    destruct (y =? a); [split; discriminate|apply (i_live _ _ I)].
  - destruct (m' 0) eqn:E; [|reflexivity]. exfalso. apply New in E. destruct E as [[H _]|[[H _]|(_ & _ & H)]].
    + destruct (Hp 0 H). congruence.
    + congruence.
    + rewrite (i_zero _ _ I) in H. discriminate.
  - intros o ps E. apply New in E. destruct E as [[_ H]|[[_ H]|(_ & _ & H)]]; [discriminate|injection H as ->; exact Hn'|apply (i_nodup _ _ I _ _ H)].
  - intros o ps p E Hpp. apply New in E. destruct E as [[_ H]|[[-> H]|(_ & _ & H)]]; [discriminate| |].
    + injection H as ->. assert (Ep : existsb (Z.eqb p) news = true) by (apply existsb_In; exact Hpp).
      rewrite Hm. unfold all_owned_by. rewrite Ep. split; reflexivity.
    + destruct (i_parts _ _ I _ _ _ H Hpp) as [H1 H2]. split; [apply KeepW; exact H1|apply KeepM; exact H2].
  - intros p o E. apply NewW in E. destruct E as [[Hin H]|[[-> H]|(_ & _ & H)]]; [|discriminate|].
    + injection H as ->. exists news. split; assumption.
    + destruct (i_byobj _ _ I _ _ H) as (ps & H1 & H2). exists ps. split; [apply KeepM; exact H1|exact H2].
  - intros c es E. apply New in E. destruct E as [[_ H]|[[_ H]|(_ & _ & H)]]; try discriminate. apply (i_nodupe _ _ I _ _ H).
  - intros c es x E Hx Hx0. apply New in E. destruct E as [[_ H]|[[_ H]|(_ & _ & H)]]; try discriminate.
    destruct (i_elems _ _ I _ _ _ H Hx Hx0) as [H1 H2]. split; [apply KeepW; exact H1|].
    destruct H2 as [H2|[ps H2]]; [left|right; exists ps]; apply KeepM; exact H2.
  - intros x c E. apply NewW in E. destruct E as [[Hin H]|[[-> H]|(_ & _ & H)]]; try discriminate.
    destruct (i_bycoll _ _ I _ _ H) as (es & H1 & H2). exists es. split; [apply KeepM; exact H1|exact H2].
  - apply (i_sm _ _ I).
  - intros n c E. destruct (i_cols _ _ I _ _ E) as [H1 [H2|H2]]; split; try exact H1; [left; exact H2|right; apply KeepW; exact H2].
  - apply (i_uniq _ _ I).
  - intros c E. apply NewW in E. destruct E as [[Hin H]|[[-> H]|(_ & _ & H)]]; try discriminate.
    destruct (i_byevent _ _ I _ H) as (H1 & H2 & b & es & H3). split; [exact H1|]. split; [exact H2|]. exists b, es. apply KeepM. exact H3.
Qed.

(** ** the event *)
Lemma bytes_eqb_spec a b : bytes_eqb a b = true <-> a = b.
Proof. apply bytes_eqb_eq. Qed.

Lemma inv_addCollection s w c n b es : inv s w -> o_alive s = true -> sm_get n (o_cols s) = None ->
  o_mem s c = Some (KColl b es) -> w c = Some ByUser -> ~ In c (o_taken s) ->
  inv (mkO (o_mem s) (sm_set n c (o_cols s)) (o_taken s) true) (owned_by w c ByEvent).
Proof.
  intros I Ha Hg Hc Hw Ht. pose proof (i_sm _ _ I) as Hsm.
  assert (Hnew : forall n', sm_get n' (o_cols s) <> Some c).
  { intros n' H. destruct (i_cols _ _ I _ _ H) as [_ [H1|H1]]; [contradiction|congruence]. }
  constructor; cbn [o_mem o_cols o_taken o_alive]; unfold owned_by.
  - intros y. destruct (Z.eqb_spec y c) as [->|?]; [|apply (i_live _ _ I)]. rewrite Hc. split; discriminate.
  - apply (i_zero _ _ I).
  - apply (i_nodup _ _ I).
  - intros o ps p E Hp. destruct (i_parts _ _ I _ _ _ E Hp) as [H1 H2]. destruct (Z.eqb_spec p c); [congruence|]. split; assumption.
  - intros p o E. destruct (Z.eqb_spec p c); [discriminate|]. apply (i_byobj _ _ I _ _ E).
  - apply (i_nodupe _ _ I).
  - intros c' es' x E Hx Hx0. destruct (i_elems _ _ I _ _ _ E Hx Hx0) as [H1 H2]. destruct (Z.eqb_spec x c); [congruence|]. split; assumption.
  - intros x c' E. destruct (Z.eqb_spec x c); [discriminate|]. apply (i_bycoll _ _ I _ _ E).
  - apply sm_set_ok. exact Hsm.
  - intros n' c' E. rewrite (sm_get_set _ _ _ _ Hsm) in E. split; [reflexivity|].
    destruct (bytes_eqb n' n) eqn:En.
    + injection E as E. subst c'. right. rewrite Z.eqb_refl. reflexivity.
    + destruct (i_cols _ _ I _ _ E) as [_ [H|H]]; [left; exact H|right]. destruct (Z.eqb_spec c' c); [reflexivity|exact H].
  - intros n1 n2 c' E1 E2 Ht'. rewrite (sm_get_set _ _ _ _ Hsm) in E1. rewrite (sm_get_set _ _ _ _ Hsm) in E2.
    destruct (bytes_eqb n1 n) eqn:En1; destruct (bytes_eqb n2 n) eqn:En2.
    + apply bytes_eqb_spec in En1, En2. congruence.
    + injection E1 as E1. subst c'. exfalso. apply (Hnew _ E2).
    + injection E2 as E2. subst c'. exfalso. apply (Hnew _ E1).
    + apply (i_uniq _ _ I _ _ _ E1 E2 Ht').
  - intros c' E. destruct (Z.eqb_spec c' c) as [Hcc|?].
    + rewrite Hcc in *. split; [exact Ht|]. split; [|eauto]. exists n. rewrite (sm_get_set _ _ _ _ Hsm).
      rewrite (proj2 (bytes_eqb_spec n n) eq_refl). reflexivity.
    + destruct (i_byevent _ _ I _ E) as (H1 & [n' H2] & H3). split; [exact H1|]. split; [|exact H3].
      exists n'. rewrite (sm_get_set _ _ _ _ Hsm). destruct (bytes_eqb n' n) eqn:En; [|exact H2].
      apply bytes_eqb_spec in En. congruence.
Qed.

(** the collection is no longer in the event, or is the user's *)
Lemma inv_release s w c n taken' w' : inv s w -> o_alive s = true ->
  sm_get n (o_cols s) = Some c \/ sm_get n (o_cols s) = None ->
  forall del : bool,
  (del = true -> taken' = o_taken s /\
     ((sm_get n (o_cols s) = Some c /\ w c = Some ByEvent /\ w' = owned_by w c ByUser) \/
      (forall c', sm_get n (o_cols s) = Some c' -> w c' <> Some ByEvent) /\ w' = w)) ->
  (del = false -> sm_get n (o_cols s) = Some c /\ taken' = c :: o_taken s /\ w' = owned_by w c ByUser /\
     exists b es, o_mem s c = Some (KColl b es)) ->
  inv (mkO (o_mem s) (if del then sm_del n (o_cols s) else o_cols s) taken' true) w'.
Proof.
  intros I Ha Hg del Hdel Hnd. pose proof (i_sm _ _ I) as Hsm.
  assert (Hw' : w' = w /\ del = true \/ w' = owned_by w c ByUser /\ (w c = Some ByUser \/ w c = Some ByEvent) /\ (exists b es, o_mem s c = Some (KColl b es))).
  { destruct del.
    - destruct (Hdel eq_refl) as [_ [(H1 & H2 & H3)|[_ H3]]]; [right|left; split; [exact H3|reflexivity]].
      split; [exact H3|]. split; [right; exact H2|]. destruct (i_byevent _ _ I _ H2) as (_ & _ & H). exact H.
    - destruct (Hnd eq_refl) as (H1 & H2 & H3 & b & es & H4). right. split; [exact H3|]. split; [|eauto]. eapply coll_owner; eauto. }
  assert (Hcol : forall y k, w y = Some k -> k <> ByUser -> k <> ByEvent -> w' y = Some k).
  { intros y k H K1 K2. destruct Hw' as [[-> _]|(-> & Hc & _)]; [exact H|]. unfold owned_by. destruct (Z.eqb_spec y c) as [->|?]; [|exact H].
    destruct Hc; congruence. }
  assert (Hback : forall y k, w' y = Some k -> k <> ByUser -> w y = Some k).
  { intros y k H K. destruct Hw' as [[-> _]|(-> & Hc & _)]; [exact H|]. unfold owned_by in H. destruct (Z.eqb_spec y c); congruence. }
  constructor; cbn [o_mem o_cols o_taken o_alive].
  - intros y. destruct Hw' as [[-> _]|(-> & Hc & b & es & Hm)]; [apply (i_live _ _ I)|]. unfold owned_by.
    destruct (Z.eqb_spec y c) as [->|?]; [rewrite Hm; split; discriminate|apply (i_live _ _ I)].
  - apply (i_zero _ _ I).
  - apply (i_nodup _ _ I).
  - intros o ps p E Hp. destruct (i_parts _ _ I _ _ _ E Hp) as [H1 H2]. split; [|exact H2]. apply Hcol; [exact H1|discriminate|discriminate].
  - intros p o E. apply (i_byobj _ _ I). apply Hback; [exact E|discriminate].
  - apply (i_nodupe _ _ I).
  - intros c' es' x E Hx Hx0. destruct (i_elems _ _ I _ _ _ E Hx Hx0) as [H1 H2]. split; [|exact H2]. apply Hcol; [exact H1|discriminate|discriminate].
  - intros x c' E. apply (i_bycoll _ _ I). apply Hback; [exact E|discriminate].
  - destruct del; [apply sm_del_ok; exact Hsm|exact Hsm].
  - intros n' c' E. split; [reflexivity|]. destruct del.
    + rewrite (sm_get_del _ _ _ Hsm) in E. destruct (bytes_eqb n' n) eqn:En; [discriminate|].
      destruct (Hdel eq_refl) as [-> Hd]. destruct (i_cols _ _ I _ _ E) as [_ [H|H]]; [left; exact H|].
      destruct Hd as [(H1 & H2 & ->)|[_ ->]]; [|right; exact H]. unfold owned_by. destruct (Z.eqb_spec c' c) as [->|?]; [|right; exact H].
      exfalso. destruct (i_byevent _ _ I _ H2) as (Ht & _). rewrite (i_uniq _ _ I _ _ _ E H1 Ht) in En.
      rewrite (proj2 (bytes_eqb_spec n n) eq_refl) in En. discriminate.
    + destruct (Hnd eq_refl) as (H1 & -> & -> & _). destruct (i_cols _ _ I _ _ E) as [_ [H|H]]; [left; right; exact H|].
      unfold owned_by. destruct (Z.eqb_spec c' c) as [->|?]; [left; left; reflexivity|right; exact H].
  - intros n1 n2 c' E1 E2 Ht. destruct del.
    + rewrite (sm_get_del _ _ _ Hsm) in E1. rewrite (sm_get_del _ _ _ Hsm) in E2. destruct (bytes_eqb n1 n); [discriminate|]. destruct (bytes_eqb n2 n); [discriminate|].
      destruct (Hdel eq_refl) as [-> _]. apply (i_uniq _ _ I _ _ _ E1 E2 Ht).
    + destruct (Hnd eq_refl) as (_ & -> & _). apply (i_uniq _ _ I _ _ _ E1 E2). intros H. apply Ht. right. exact H.
  - intros c' E. assert (E0 : w c' = Some ByEvent) by (apply Hback; [exact E|discriminate]).
    destruct (i_byevent _ _ I _ E0) as (H1 & [n' H2] & H3).
    assert (Hcc : w' = owned_by w c ByUser -> c' <> c).
    { intros -> ->. unfold owned_by in E. rewrite Z.eqb_refl in E. discriminate. }
    split; [|split; [|exact H3]].
    + destruct del; [destruct (Hdel eq_refl) as [-> _]; exact H1|]. destruct (Hnd eq_refl) as (_ & -> & Hw & _).
      intros [H|H]; [apply (Hcc Hw); congruence|contradiction].
    + exists n'. destruct del; [|exact H2]. rewrite (sm_get_del _ _ _ Hsm). destruct (bytes_eqb n' n) eqn:En; [|exact H2].
      apply bytes_eqb_spec in En. subst n'. exfalso. destruct (Hdel eq_refl) as [_ [(H4 & _ & Hw)|[H4 _]]].
      * apply (Hcc Hw). congruence.
      * apply (H4 _ H2 E0).
Qed.

(** ** every call *)
Lemma not_null_app l1 l2 : not_null (l1 ++ l2) = not_null l1 ++ not_null l2.
Proof. apply filter_app. Qed.
Lemma not_null_In l x : In x (not_null l) <-> In x l /\ x <> 0.
Proof.
  unfold not_null. rewrite filter_In. destruct (Z.eqb_spec x 0); cbn [negb]; intuition congruence.
Qed.
Lemma NoDup_snoc (l : list Z) x : NoDup l -> ~ In x l -> NoDup (l ++ [x]).
Proof.
  intros Hn Hx. rewrite <- (rev_involutive (l ++ [x])). apply NoDup_rev. rewrite rev_unit. constructor.
  - rewrite <- in_rev. exact Hx.
  - apply NoDup_rev. exact Hn.
Qed.
Lemma nth_split_Z (l : list Z) i x : nth_error l i = Some x ->
  l = firstn i l ++ x :: skipn (S i) l.
Proof.
  revert i. induction l as [|y l IH]; intros [|i] H; try discriminate; cbn in *.
  - injection H as ->. reflexivity.
  - f_equal. apply IH. exact H.
Qed.

Lemma step_ok s w c w' : inv s w -> rule s w c w' ->
  (exists s', own_do s c = Ok s' /\ inv s' w') \/ (exists x, own_do s c = Throw x /\ inv s w').
Proof.
  intros I R. destruct R.
  - left. cbn [own_do]. rewrite (m_new_ok _ _ _ _ I H). cbn [bind]. eexists. split; [reflexivity|]. apply inv_new; auto.
  - left. cbn [own_do]. rewrite (m_new_ok _ _ _ _ I H). cbn [bind]. eexists. split; [reflexivity|]. apply inv_new; auto.
  - left. cbn [own_do]. rewrite (m_new_ok _ _ _ _ I H). cbn [bind]. eexists. split; [reflexivity|]. apply inv_new; auto.
  - left. cbn [own_do]. rewrite H0, (m_new_ok _ _ _ _ I H). cbn [bind]. eexists. split; [reflexivity|]. apply inv_new; auto.
  - left. cbn [own_do]. rewrite H0. rewrite (proj2 (Nat.eqb_eq _ _) H1), (m_new_ok _ _ _ _ I H). cbn [bind].
    inversion H2 as [|? ? Ha Hn]; subst.
    destruct (new_parts_ok news (m_set (o_mem s) a (Some (KObj news))) Hn) as (m' & E & P).
    { intros p Hp. pose proof (H3 p Hp) as Hf. split; [apply Hf|]. rewrite m_set_other; [apply (free_mem _ _ _ I Hf)|].
      intros ->. contradiction. }
    rewrite E. cbn [bind]. eexists. split; [reflexivity|]. apply inv_copyDeep; assumption.
  - left. cbn [own_do]. rewrite H. eexists. split; [reflexivity|]. apply inv_givePart; assumption.
  - (* a null element *)
    left. cbn [own_do]. rewrite H. eexists. split; [reflexivity|]. eapply inv_coll; [exact I|exact H|auto|auto| |].
    + intros ->. rewrite not_null_app. cbn [not_null filter]. rewrite Z.eqb_refl. cbn [negb]. rewrite app_nil_r.
      split; [apply (i_nodupe _ _ I _ _ H)|]. intros x Hx Hx0. apply in_app_or in Hx. destruct Hx as [Hx|[<-|[]]]; [|contradiction].
      apply (i_elems _ _ I _ _ _ H Hx Hx0).
    + intros x Hx. destruct (i_bycoll _ _ I _ _ Hx) as (es' & H1 & H2). rewrite H in H1. injection H1 as -> ->. split; [reflexivity|].
      apply in_or_app. left. exact H2.
  - (* a reference *)
    left. cbn [own_do]. rewrite H. eexists. split; [reflexivity|]. eapply inv_coll; [exact I|exact H|auto|auto|discriminate|].
    intros z Hz. destruct (i_bycoll _ _ I _ _ Hz) as (es' & H1 & H2). congruence.
  - (* an element *)
    left. cbn [own_do]. rewrite H. eexists. split; [reflexivity|].
    assert (Hx0 : x <> 0) by (destruct (owned_mem _ _ _ _ I H0) as [k Hk]; eapply mem_nonzero; eauto).
    eapply inv_coll; [exact I|exact H| | | |].
    + intros z. unfold owned_by. destruct (z =? x); auto.
    + intros z. unfold owned_by. destruct (Z.eqb_spec z x) as [Hzx|?]; [rewrite Hzx; right; auto|auto].
    + intros _. rewrite not_null_app. cbn [not_null filter]. destruct (Z.eqb_spec x 0); [contradiction|]. cbn [negb]. split.
      * apply NoDup_snoc; [apply (i_nodupe _ _ I _ _ H)|]. intros Hin. apply not_null_In in Hin. destruct Hin as [Hin _].
        destruct (i_elems _ _ I _ _ _ H Hin Hx0). congruence.
      * intros z Hz Hz0. unfold owned_by. apply in_app_or in Hz. destruct Hz as [Hz|[<-|[]]].
        -- destruct (i_elems _ _ I _ _ _ H Hz Hz0) as [E1 E2]. destruct (Z.eqb_spec z x); [congruence|]. split; assumption.
        -- rewrite Z.eqb_refl. split; [reflexivity|exact H1].
    + intros z. unfold owned_by. intros Hz. split; [reflexivity|]. destruct (Z.eqb_spec z x) as [Hzx|?]; [rewrite Hzx; apply in_or_app; right; left; reflexivity|].
      destruct (i_bycoll _ _ I _ _ Hz) as (es' & E1 & E2). rewrite H in E1. injection E1 as <-. apply in_or_app. left. exact E2.
  - (* a reference is removed *)
    left. cbn [own_do]. rewrite H.
    assert (Hr : (0 <=? i) && (i <? Zlen es) = true).
    { assert (Z.to_nat i < length es)%nat by (apply nth_error_Some; congruence). unfold Zlen. apply andb_true_iff. split; [apply Z.leb_le; lia|apply Z.ltb_lt; lia]. }
    rewrite Hr. eexists. split; [reflexivity|]. eapply inv_coll; [exact I|exact H|auto|auto|discriminate|].
    intros z Hz. destruct (i_bycoll _ _ I _ _ Hz) as (es' & E1 & E2). congruence.
  - (* null is removed *)
    left. cbn [own_do]. rewrite H.
    assert (Hr : (0 <=? i) && (i <? Zlen es) = true).
    { assert (Z.to_nat i < length es)%nat by (apply nth_error_Some; congruence). unfold Zlen. apply andb_true_iff. split; [apply Z.leb_le; lia|apply Z.ltb_lt; lia]. }
    rewrite Hr. eexists. split; [reflexivity|]. pose proof (nth_split_Z _ _ _ H1) as Hs.
    assert (Hnn : not_null es = not_null (firstn (Z.to_nat i) es ++ skipn (S (Z.to_nat i)) es)).
    { rewrite Hs at 1. rewrite !not_null_app. cbn [not_null filter]. rewrite Z.eqb_refl. reflexivity. }
    eapply inv_coll; [exact I|exact H|auto|auto| |].
    + intros ->. split; [rewrite <- Hnn; apply (i_nodupe _ _ I _ _ H)|]. intros z Hz Hz0. apply (i_elems _ _ I _ _ _ H); [|exact Hz0].
      assert (In z (not_null es)) by (rewrite Hnn; apply not_null_In; split; assumption). apply not_null_In in H2. apply H2.
    + intros z Hz. destruct (i_bycoll _ _ I _ _ Hz) as (es' & E1 & E2). rewrite H in E1. injection E1 as -> ->. split; [reflexivity|].
      assert (Hz0 : z <> 0) by (destruct (owned_mem _ _ _ _ I Hz) as [k Hk]; eapply mem_nonzero; eauto).
      assert (Hin : In z (not_null es')) by (apply not_null_In; split; assumption). rewrite Hnn in Hin. apply not_null_In in Hin. apply Hin.
  - (* an element is removed *)
    left. cbn [own_do]. rewrite H.
    assert (Hr : (0 <=? i) && (i <? Zlen es) = true).
    { assert (Z.to_nat i < length es)%nat by (apply nth_error_Some; congruence). unfold Zlen. apply andb_true_iff. split; [apply Z.leb_le; lia|apply Z.ltb_lt; lia]. }
    rewrite Hr. eexists. split; [reflexivity|]. pose proof (nth_split_Z _ _ _ H1) as Hs.
    set (l1 := firstn (Z.to_nat i) es) in *. set (l2 := skipn (S (Z.to_nat i)) es) in *.
    assert (Hnn : not_null es = not_null l1 ++ x :: not_null l2).
    { rewrite Hs. rewrite not_null_app. cbn [not_null filter]. destruct (Z.eqb_spec x 0); [contradiction|]. reflexivity. }
    pose proof (i_nodupe _ _ I _ _ H) as Hnd. rewrite Hnn in Hnd.
    pose proof (NoDup_remove_1 _ _ _ Hnd) as Hnd1. pose proof (NoDup_remove_2 _ _ _ Hnd) as Hnd2.
    assert (Hxe : In x es) by (rewrite Hs; apply in_or_app; right; left; reflexivity).
    destruct (i_elems _ _ I _ _ _ H Hxe H2) as [Wx Ox].
    eapply inv_coll; [exact I|exact H| | | |].
    + intros z. unfold owned_by. destruct (z =? x); auto.
    + intros z. unfold owned_by. destruct (Z.eqb_spec z x) as [Hzx|?]; [rewrite Hzx; right; auto|auto].
    + intros _. rewrite not_null_app. split; [exact Hnd1|]. intros z Hz Hz0. unfold owned_by.
      destruct (Z.eqb_spec z x) as [Hzx|?].
      * exfalso. rewrite Hzx in *. apply Hnd2. rewrite <- not_null_app. apply not_null_In. split; assumption.
      * apply (i_elems _ _ I _ _ _ H); [|exact Hz0]. rewrite Hs. apply in_app_or in Hz. apply in_or_app. destruct Hz; [left; assumption|right; right; assumption].
    + intros z. unfold owned_by. intros Hz. split; [reflexivity|]. destruct (Z.eqb_spec z x) as [Hzx|?]; [discriminate|].
      destruct (i_bycoll _ _ I _ _ Hz) as (es' & E1 & E2). rewrite H in E1. injection E1 as <-. rewrite Hs in E2.
      apply in_app_or in E2. apply in_or_app. destruct E2 as [E2|[E2|E2]]; [left; exact E2|congruence|right; exact E2].
  - (* the flag is not changed *)
    left. cbn [own_do]. rewrite H. eexists. split; [reflexivity|]. eapply inv_coll; [exact I|exact H|auto|auto| |].
    + intros ->. split; [apply (i_nodupe _ _ I _ _ H)|]. intros x Hx Hx0. apply (i_elems _ _ I _ _ _ H Hx Hx0).
    + intros z Hz. destruct (i_bycoll _ _ I _ _ Hz) as (es' & E1 & E2). rewrite H in E1. injection E1 as -> ->. auto.
  - (* to a subset *)
    left. cbn [own_do]. rewrite H. eexists. split; [reflexivity|]. eapply inv_coll; [exact I|exact H| | |discriminate|].
    + intros z. unfold all_owned_by. destruct (existsb _ _); auto.
    + intros z. unfold all_owned_by. destruct (existsb _ _) eqn:E; [|auto]. apply existsb_In in E. apply not_null_In in E. destruct E as [E1 E2].
      destruct (i_elems _ _ I _ _ _ H E1 E2). right. auto.
    + intros z. unfold all_owned_by. destruct (existsb _ _) eqn:E; [discriminate|]. intros Hz. exfalso.
      destruct (i_bycoll _ _ I _ _ Hz) as (es' & E1 & E2). rewrite H in E1. injection E1 as <-.
      assert (Hz0 : z <> 0) by (destruct (owned_mem _ _ _ _ I Hz) as [k Hk]; eapply mem_nonzero; eauto).
      assert (existsb (Z.eqb z) (not_null es) = true) by (apply existsb_In; apply not_null_In; split; assumption). congruence.
  - (* no longer a subset *)
    left. cbn [own_do]. rewrite H. eexists. split; [reflexivity|]. eapply inv_coll; [exact I|exact H| | | |].
    + intros z. unfold all_owned_by. destruct (existsb _ _); auto.
    + intros z. unfold all_owned_by. destruct (existsb _ _) eqn:E; [|auto]. apply existsb_In in E. destruct (H1 z E). right. auto.
    + intros _. split; [exact H0|]. intros z Hz Hz0. assert (Hin : In z (not_null es)) by (apply not_null_In; split; assumption).
      unfold all_owned_by. rewrite (proj2 (existsb_In _ _) Hin). split; [reflexivity|]. apply (H1 z Hin).
    + intros z. unfold all_owned_by. destruct (existsb _ _) eqn:E.
      * intros _. split; [reflexivity|]. apply existsb_In in E. apply not_null_In in E. apply E.
      * intros Hz. exfalso. destruct (i_bycoll _ _ I _ _ Hz) as (es' & E1 & E2). congruence.
  - (* addCollection refused *)
    right. cbn [own_do]. unfold on_event. rewrite H.
    assert (E : (if negb (validate n) then Throw LEventException
      else match sm_get n (o_cols s) with
           | Some _ => Throw LEventException
           | None => if c =? 0 then Throw LEventException else Ok (mkO (o_mem s) (sm_set n c (o_cols s)) (o_taken s) true)
           end) = Throw LEventException).
    { destruct H0 as [-> |[H0| ->]]; [reflexivity| |]; destruct (negb (validate n)); try reflexivity; destruct (sm_get n (o_cols s)); try reflexivity. congruence. }
    rewrite E. eexists. split; [reflexivity|exact I].
  - (* addCollection *)
    left. cbn [own_do]. unfold on_event. rewrite H, H0, H1. cbn [negb].
    destruct (Z.eqb_spec c 0) as [->|?]; [exfalso; rewrite (i_zero _ _ I) in H2; discriminate|].
    eexists. split; [reflexivity|]. eapply inv_addCollection; eauto.
  - (* removeCollection, nothing of the event's *)
    left. cbn [own_do]. unfold on_event. rewrite H. eexists. split; [reflexivity|].
    destruct (sm_get n (o_cols s)) as [c|] eqn:E.
    + eapply (inv_release s w c n (o_taken s) w I H (or_introl E) true); [|discriminate].
      intros _. split; [reflexivity|]. right. split; [|reflexivity]. intros c' H'. apply H0. congruence.
    + eapply (inv_release s w 0 n (o_taken s) w I H (or_intror E) true); [|discriminate].
      intros _. split; [reflexivity|]. right. split; [|reflexivity]. intros c' H'. congruence.
  - left. cbn [own_do]. unfold on_event. rewrite H. eexists. split; [reflexivity|].
    eapply (inv_release s w c n (o_taken s) _ I H (or_introl H0) true); [|discriminate]. intros _. split; [reflexivity|]. left. auto.
  - (* takeCollection *)
    right. cbn [own_do]. unfold on_event. rewrite H, H0. eexists. split; [reflexivity|exact I].
  - left. cbn [own_do]. unfold on_event. rewrite H, H0. rewrite H1. eexists. split; [reflexivity|].
    eapply (inv_release s w c n (c :: o_taken s) _ I H (or_introl H0) false); [discriminate|]. intros _. eauto 6.
  - (* delete of null *)
    left. cbn [own_do]. exists (with_mem s (o_mem s)). split; [reflexivity|]. destruct s. exact I.
  - left. cbn [own_do]. exists (with_mem s (o_mem s)). split; [reflexivity|]. destruct s. exact I.
  - left. cbn [own_do]. destruct (delete_object_ok (o_mem s) x (fine_object _ _ _ I H0)) as (m' & E & P). rewrite E. cbn [bind].
    eexists. split; [reflexivity|]. unfold with_mem. eapply inv_delete; [exact I|eapply belongings_closed; eauto| |].
    + intros y. rewrite P. rewrite (object_gone _ _ _ _ I H H0). reflexivity.
    + left. split; [reflexivity|]. split; [reflexivity|]. split; [reflexivity|]. intros c Hc. unfold with_belongings.
      destruct (Z.eqb_spec c x); [congruence|]. rewrite (up_top _ _ _ _ Hc) by tauto. reflexivity.
  - left. cbn [own_do]. destruct (delete_collection_ok (o_mem s) c (fine_coll _ _ _ _ _ I H0)) as (m' & E & P). rewrite E. cbn [bind].
    eexists. split; [reflexivity|]. unfold with_mem. eapply inv_delete; [exact I|eapply belongings_closed; eauto| |].
    + intros y. rewrite P. rewrite (coll_gone _ _ _ _ _ _ I H0). reflexivity.
    + left. split; [reflexivity|]. split; [reflexivity|]. split; [reflexivity|]. intros c' Hc. unfold with_belongings.
      destruct (Z.eqb_spec c' c); [congruence|]. rewrite (up_top _ _ _ _ Hc) by tauto. reflexivity.
  - left. cbn [own_do]. unfold on_event. rewrite H. destruct (delete_event_ok _ _ I) as (m' & E & P). rewrite E. cbn [bind].
    eexists. split; [reflexivity|]. eapply inv_delete; [exact I|eapply event_closed; eauto|exact P|].
    right. split; [reflexivity|]. intros c Hc. rewrite (up_top _ _ _ _ Hc) by tauto. reflexivity.
Qed.

Lemma run_ok s w l w' : follows s w l w' -> inv s w -> exists s', own_run s l = Ok s' /\ inv s' w'.
Proof.
  induction 1 as [s w|s w c w1 l w' R HO IHO HT IHT]; intros I.
  - exists s. split; [reflexivity|exact I].
  - cbn [own_run]. destruct (step_ok _ _ _ _ I R) as [(s1 & E & I1)|(x & E & I1)]; rewrite E.
    + apply (IHO s1 E I1).
    + apply (IHT x E I1).
Qed.

(** destructors do not throw *)
Lemma delete_object_nothrow m x e : delete_object m x <> Throw e.
Proof.
  unfold delete_object. destruct (x =? 0); [discriminate|]. destruct (m x) as [[| ps|]|]; try discriminate.
  assert (H : forall l m e, delete_parts m l <> Throw e).
  { induction l as [|p l IH]; intros m0 e0; [discriminate|]. cbn [delete_parts]. unfold delete_part.
    destruct (p =? 0); cbn [bind]; [apply IH|]. destruct (m0 p) as [[| |]|]; cbn [bind]; try discriminate. apply IH. }
  destruct (delete_parts m ps) eqn:E; cbn [bind]; try discriminate. exfalso. apply (H _ _ _ E).
Qed.
Lemma delete_collection_nothrow m c e : delete_collection m c <> Throw e.
Proof.
  unfold delete_collection. destruct (c =? 0); [discriminate|]. destruct (m c) as [[| |[|] es]|]; try discriminate.
  assert (H : forall l m e, delete_elements m l <> Throw e).
  { induction l as [|p l IH]; intros m0 e0; [discriminate|]. cbn [delete_elements].
    destruct (delete_object m0 p) eqn:E; cbn [bind]; [apply IH| |discriminate]. exfalso. apply (delete_object_nothrow _ _ _ E). }
  destruct (delete_elements m es) eqn:E; cbn [bind]; try discriminate. exfalso. apply (H _ _ _ E).
Qed.
Lemma delete_collections_nothrow taken l : forall m e, delete_collections m l taken <> Throw e.
Proof.
  induction l as [|[n c] l IH]; intros m e; [discriminate|]. cbn [delete_collections].
  destruct (existsb _ _); cbn [bind]; [apply IH|]. destruct (delete_collection m c) eqn:E; cbn [bind]; [apply IH| |discriminate].
  exfalso. apply (delete_collection_nothrow _ _ _ E).
Qed.
