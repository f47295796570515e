(** * Fixed objects: the memory corresponds to the calls made so far (C61) *)

From Verif Require Import Bytes StrMap SioModel ObjModel ImplModel ViewModel ViewSpec ViewProofs.

Definition made (h : history) (v : addr) : Prop := exists op, In (op, OAddr v) h.
Definition daddr (h : history) (r : addr) : addr := match template h r with Some _ => r - 1 | None => r end.
Definition rep (h : history) (r : addr) (o : genobj) : Prop :=
  go_fixed o = fixed h r /\
  forall k, Zlen (vals o k) = size h r k /\ size h r k < 2 ^ 31 /\
    forall i, 0 <= i -> nth (Z.to_nat i) (vals o k) 0 = last_value h r k i.

Record inv (h : history) (s : vstate) : Prop := mkInv {
  i_next : 0 < vs_next s;
  i_made : forall v, made h v -> 0 < v < vs_next s;
  i_other : forall v, alive h v = true -> root h v = None -> vs_mem s v = Some VOther /\ template h v = None;
  i_root : forall v r, root h v = Some r -> root h r = Some r /\ (template h v = None -> r = v);
  i_view : forall v r n, alive h v = true -> root h v = Some r -> template h v = Some n -> vs_mem s v = Some (VFix n (daddr h r) (r =? v));
  i_data : forall r, root h r = Some r -> alive h r = true -> exists o, vs_mem s (daddr h r) = Some (VGen o) /\ rep h r o;
  i_own : forall r n, template h r = Some n -> root h r = Some r -> 0 < r - 1 /\ ~ made h (r - 1);
  i_left : forall x y, vs_mem s x = Some y -> exists v, alive h v = true /\ (x = v \/ (root h v = Some v /\ x = daddr h v))
}.

Lemma inv_init : inv [] vinit.
Proof.
  constructor; try discriminate; [cbn [vinit vs_next]; lia|]. intros v (op & []).
Qed.

Lemma root_made : forall h v r, root h v = Some r -> made h v /\ made h r.
Proof.
  assert (M : forall e h v, made h v -> made (e :: h) v) by (intros e h v (op & I); exists op; right; exact I).
  induction h as [|[op out] h IH]; intros v r E; [discriminate E|].
  assert (D : root h v = Some r -> made ((op, out) :: h) v /\ made ((op, out) :: h) r).
  { intros R. apply IH in R. split; apply M; tauto. }
  destruct op; cbn [root] in E; try (apply D; exact E); destruct out as [a0| | |]; try (apply D; exact E).
  - destruct (Z.eqb_spec v a0) as [->|N]; [|apply D; exact E]. injection E as <-. split; eexists; left; reflexivity.
  - destruct (Z.eqb_spec v a0) as [->|N]; [|apply D; exact E]. injection E as <-. split; eexists; left; reflexivity.
  - destruct (Z.eqb_spec v a0) as [->|N]; [|apply D; exact E]. apply IH in E. split; [eexists; left; reflexivity|apply M; tauto].
Qed.
Lemma alive_made : forall h v, alive h v = true -> made h v.
Proof.
  assert (M : forall e h v, made h v -> made (e :: h) v) by (intros e h v (op & I); exists op; right; exact I).
  induction h as [|[op out] h IH]; intros v E; [discriminate E|].
  assert (D : alive h v = true -> made ((op, out) :: h) v) by (intros A; apply M, IH, A).
  destruct op as [o| |n|n w|w k i x|w k i|w k|w|w]; destruct out as [a0| | |]; cbn [alive] in E; try (apply D; exact E);
    try (destruct (v =? w); [discriminate E|apply D; exact E]);
    (destruct (Z.eqb_spec v a0) as [EQ|N]; [rewrite EQ; eexists; left; reflexivity|apply D; exact E]).
Qed.
Lemma template_made : forall h v n, template h v = Some n -> made h v.
Proof.
  assert (M : forall e h v, made h v -> made (e :: h) v) by (intros e h v (op & I); exists op; right; exact I).
  induction h as [|[op out] h IH]; intros v n E; [discriminate E|].
  assert (D : template h v = Some n -> made ((op, out) :: h) v) by (intros A; apply M; exact (IH _ _ A)).
  destruct op; destruct out as [a0| | |]; cbn [template] in E; try (apply D; exact E);
    (destruct (Z.eqb_spec v a0) as [EQ|N]; [rewrite EQ; eexists; left; reflexivity|apply D; exact E]).
Qed.

(** different objects have their data at different places *)
Lemma daddr_apart : forall h s a b, inv h s -> root h a = Some a -> root h b = Some b -> daddr h a = daddr h b -> a = b.
Proof.
  intros h s a b I A B E. unfold daddr in E. destruct (template h a) as [n|] eqn:TA, (template h b) as [m|] eqn:TB; try lia.
  - exfalso. apply (proj2 (i_own _ _ I a n TA A)). rewrite E. exact (proj1 (root_made _ _ _ B)).
  - exfalso. apply (proj2 (i_own _ _ I b m TB B)). rewrite <- E. exact (proj1 (root_made _ _ _ A)).
Qed.
(** no view lives where data lives *)
Lemma daddr_view : forall h s a v n, inv h s -> root h a = Some a -> alive h v = true -> template h v = Some n -> daddr h a <> v.
Proof.
  intros h s a v n I A L T E. unfold daddr in E. destruct (template h a) as [m|] eqn:TA; [|subst v; congruence].
  apply (proj2 (i_own _ _ I a m TA A)). rewrite E. exact (alive_made _ _ L).
Qed.
Lemma daddr_other : forall h s a v, inv h s -> root h a = Some a -> alive h v = true -> root h v = None -> daddr h a <> v.
Proof.
  intros h s a v I A L T E. unfold daddr in E. destruct (template h a) as [m|] eqn:TA; [|subst v; congruence].
  apply (proj2 (i_own _ _ I a m TA A)). rewrite E. exact (alive_made _ _ L).
Qed.
Lemma daddr_below : forall h s a, inv h s -> root h a = Some a -> 0 < daddr h a < vs_next s.
Proof.
  intros h s a I A. pose proof (i_made _ _ I a (proj1 (root_made _ _ _ A))) as M. unfold daddr. destruct (template h a) as [m|] eqn:TA; [|exact M].
  pose proof (proj1 (i_own _ _ I a m TA A)). lia.
Qed.

(** *** Calls that change nothing *)
Lemma inv_same : forall h s op out, inv h s ->
  (forall v, root ((op, out) :: h) v = root h v) -> (forall v, alive ((op, out) :: h) v = alive h v) ->
  (forall v, fixed ((op, out) :: h) v = fixed h v) -> (forall v k, size ((op, out) :: h) v k = size h v k) ->
  (forall v k i, last_value ((op, out) :: h) v k i = last_value h v k i) -> (forall v, template ((op, out) :: h) v = template h v) ->
  (forall a, out <> OAddr a) -> inv ((op, out) :: h) s.
Proof.
  intros h s op out I R A F S L T O.
  assert (MD : forall v, made ((op, out) :: h) v <-> made h v).
  { intros v. split; intros (op' & M); [|exists op'; right; exact M]. destruct M as [M|M]; [|exists op'; exact M].
    injection M as _ M. exfalso. exact (O _ M). }
  assert (DA : forall r, daddr ((op, out) :: h) r = daddr h r) by (intros r; unfold daddr; rewrite T; reflexivity).
  destruct I as [I1 I2 I3 I4 I5 I6 I7 I8]. constructor.
  - exact I1.
  - intros v M. apply I2, MD, M.
  - intros v. rewrite A, R, T. apply I3.
  - intros v r. rewrite !R, T. apply I4.
  - intros v r n. rewrite A, R, T, DA. apply I5.
  - intros r. rewrite A, R, DA. intros B C. destruct (I6 r B C) as (o & M & RP). exists o. split; [exact M|].
    destruct RP as (RF & RK). split; [rewrite F; exact RF|]. intros k. destruct (RK k) as (K1 & K2 & K3). rewrite S. split; [exact K1|]. split; [exact K2|].
    intros i Hi. rewrite L. exact (K3 i Hi).
  - intros r n. rewrite T, R. intros B C. destruct (I7 r n B C) as (K1 & K2). split; [exact K1|]. intros K. apply K2, MD, K.
  - intros x y M. destruct (I8 x y M) as (v & B & C). exists v. rewrite A, R, DA. split; assumption.
Qed.

(** *** New objects *)
Lemma not_made : forall h s x, inv h s -> vs_next s <= x -> ~ made h x.
Proof. intros h s x I H M. apply (i_made _ _ I) in M. lia. Qed.
Lemma empty_above : forall h s x, inv h s -> vs_next s <= x -> vs_mem s x = None.
Proof.
  intros h s x I H. destruct (vs_mem s x) as [y|] eqn:E; [|reflexivity]. exfalso. destruct (i_left _ _ I x y E) as (v & A & [->|(R & ->)]).
  - pose proof (i_made _ _ I v (alive_made _ _ A)). lia.
  - pose proof (daddr_below h s v I R). lia.
Qed.
Lemma empty_zero : forall h s x, inv h s -> x <= 0 -> vs_mem s x = None.
Proof.
  intros h s x I H. destruct (vs_mem s x) as [y|] eqn:E; [|reflexivity]. exfalso. destruct (i_left _ _ I x y E) as (v & A & [->|(R & ->)]).
  - pose proof (i_made _ _ I v (alive_made _ _ A)). lia.
  - pose proof (daddr_below h s v I R). lia.
Qed.

(** everything about the objects that were there stays *)
Definition extends (h h' : history) (a : addr) : Prop :=
  (forall v, v <> a -> root h' v = root h v) /\ (forall v, v <> a -> alive h' v = alive h v) /\
  (forall v, v <> a -> fixed h' v = fixed h v) /\ (forall v k, v <> a -> size h' v k = size h v k) /\
  (forall v k i, v <> a -> last_value h' v k i = last_value h v k i) /\ (forall v, v <> a -> template h' v = template h v) /\
  (forall v, made h' v <-> v = a \/ made h v) /\ alive h' a = true.
Lemma neq_eqb : forall a b : Z, a <> b -> (a =? b) = false.
Proof. intros a b N. destruct (Z.eqb_spec a b); [contradiction|reflexivity]. Qed.
Lemma made_cons : forall op a h v, made ((op, OAddr a) :: h) v <-> v = a \/ made h v.
Proof.
  intros op a h v. split.
  - intros (op' & [M|M]); [injection M as _ ->; left; reflexivity|right; exists op'; exact M].
  - intros [->|(op' & M)]; [exists op; left; reflexivity|exists op'; right; exact M].
Qed.
Ltac ext := split; [intros v N; cbn [root]; rewrite ?(neq_eqb v _ N); reflexivity|];
  split; [intros v N; cbn [alive]; rewrite (neq_eqb v _ N); reflexivity|];
  split; [intros v N; cbn [fixed]; rewrite ?(neq_eqb v _ N); reflexivity|];
  split; [intros v k N; cbn [size]; rewrite ?(neq_eqb v _ N); reflexivity|];
  split; [intros v k i N; cbn [last_value]; rewrite ?(neq_eqb v _ N); reflexivity|];
  split; [intros v N; cbn [template]; rewrite (neq_eqb v _ N); reflexivity|];
  split; [intros v; apply made_cons|cbn [alive]; rewrite Z.eqb_refl; reflexivity].
Lemma ext_obj : forall h o a, extends h ((VObj o, OAddr a) :: h) a. Proof. intros h o a. ext. Qed.
Lemma ext_user : forall h a, extends h ((VUser, OAddr a) :: h) a. Proof. intros h a. ext. Qed.
Lemma ext_new : forall h n a, extends h ((VNew n, OAddr a) :: h) a. Proof. intros h n a. ext. Qed.
Lemma ext_wrap : forall h n w a, extends h ((VWrap n w, OAddr a) :: h) a. Proof. intros h n w a. ext. Qed.

Lemma inv_extend : forall h h' s s' a, inv h s -> extends h h' a -> vs_next s <= a -> a < vs_next s' ->
  (forall x, x < vs_next s -> vs_mem s' x = vs_mem s x) ->
  (root h' a = None -> vs_mem s' a = Some VOther /\ template h' a = None) ->
  (forall r, root h' a = Some r -> root h' r = Some r /\ (template h' a = None -> r = a)) ->
  (forall r n, root h' a = Some r -> template h' a = Some n -> vs_mem s' a = Some (VFix n (daddr h' r) (r =? a))) ->
  (root h' a = Some a -> exists o, vs_mem s' (daddr h' a) = Some (VGen o) /\ rep h' a o) ->
  (forall n, template h' a = Some n -> root h' a = Some a -> vs_next s < a) ->
  (forall x y, vs_next s <= x -> vs_mem s' x = Some y -> x = a \/ (root h' a = Some a /\ x = daddr h' a)) ->
  inv h' s'.
Proof.
  intros h h' s s' a I E Ha Ha' M H3 H4 H5 H6 H7 H8. destruct E as (ER & EA & EF & ES & EL & ET & EM & EX).
  assert (NA : forall v, made h v -> v <> a) by (intros v B ->; exact (not_made h s a I Ha B)).
  assert (OLD : forall v, v <> a -> alive h' v = true -> made h v) by (intros v N B; rewrite EA in B by exact N; exact (alive_made _ _ B)).
  assert (DA : forall r, r <> a -> daddr h' r = daddr h r) by (intros r N; unfold daddr; rewrite ET by exact N; reflexivity).
  pose proof (i_next _ _ I) as P. constructor.
  - lia.
  - intros v B. apply EM in B. destruct B as [->|B]; [lia|]. apply (i_made _ _ I) in B. lia.
  - intros v. destruct (Z.eq_dec v a) as [->|N]; [intros _; exact H3|]. rewrite EA, ER, ET by exact N. intros B C.
    rewrite M by (apply (i_made _ _ I v (alive_made _ _ B))). exact (i_other _ _ I v B C).
  - intros v r. destruct (Z.eq_dec v a) as [->|N]; [apply H4|]. rewrite ER, ET by exact N. intros B.
    assert (Nr : r <> a) by (apply NA, (proj2 (root_made _ _ _ B))). rewrite ER by exact Nr. exact (i_root _ _ I v r B).
  - intros v r n B. destruct (Z.eq_dec v a) as [->|N]; [apply H5|]. rewrite ER, ET by exact N. intros C D.
    rewrite EA in B by exact N. rewrite (M v) by (apply (i_made _ _ I v (alive_made _ _ B))).
    rewrite (DA r) by (apply NA, (proj2 (root_made _ _ _ C))). exact (i_view _ _ I v r n B C D).
  - intros r. destruct (Z.eq_dec r a) as [->|N]; [intros B _; exact (H6 B)|]. rewrite ER, EA, DA by exact N. intros B C.
    destruct (i_data _ _ I r B C) as (o & O & RF & RK). exists o. split; [rewrite M; [exact O|exact (proj2 (daddr_below h s r I B))]|].
    split; [rewrite EF by exact N; exact RF|]. intros k. rewrite ES by exact N. destruct (RK k) as (K1 & K2 & K3). split; [exact K1|]. split; [exact K2|].
    intros i Hi. rewrite EL by exact N. exact (K3 i Hi).
  - intros r n. destruct (Z.eq_dec r a) as [->|N].
    + intros B C. pose proof (H7 n B C). split; [lia|]. intros D. apply EM in D. destruct D as [D|D]; [lia|]. exact (not_made h s (a - 1) I ltac:(lia) D).
    + rewrite ET, ER by exact N. intros B C. destruct (i_own _ _ I r n B C) as (K1 & K2). split; [exact K1|]. intros D. apply EM in D. destruct D as [D|D]; [|exact (K2 D)].
      pose proof (i_made _ _ I r (proj1 (root_made _ _ _ C))). lia.
  - intros x y B. destruct (Z.lt_ge_cases x (vs_next s)) as [C|C].
    + rewrite M in B by exact C. destruct (i_left _ _ I x y B) as (v & D & F). exists v.
      assert (N : v <> a) by (apply NA, (alive_made _ _ D)). rewrite EA, ER, DA by exact N. split; assumption.
    + exists a. split; [exact EX|]. exact (H8 x y C B).
Qed.

(** *** Looking at an object *)
Lemma data_ok : forall h s v r, inv h s -> usable_view h v r -> exists o, data_of s v = Ok (daddr h r, o) /\ rep h r o /\ vs_mem s (daddr h r) = Some (VGen o).
Proof.
  intros h s v r I (A & R & B). destruct (i_root _ _ I v r R) as (RR & RT). destruct (i_data _ _ I r RR B) as (o & M & RP).
  exists o. split; [|split; assumption]. unfold data_of. pose proof (i_made _ _ I v (alive_made _ _ A)) as Hv.
  rewrite neq_eqb by lia. destruct (template h v) as [n|] eqn:T.
  - rewrite (i_view _ _ I v r n A R T), M. reflexivity.
  - rewrite (RT eq_refl) in *. unfold daddr in *. rewrite T in *. rewrite M. reflexivity.
Qed.
Lemma sizes_eqb_ok : forall a b, sizes_eqb a b = true <-> forall k, size_of a k = size_of b k.
Proof.
  intros [[a1 a2] a3] [[b1 b2] b3]. cbn [sizes_eqb]. rewrite !andb_true_iff, !Z.eqb_eq. split.
  - intros ((-> & ->) & ->) k. reflexivity.
  - intros H. split; [split|]; [exact (H KInt)|exact (H KFloat)|exact (H KDouble)].
Qed.
Lemma sizes_ext : forall a b, (forall k, size_of a k = size_of b k) -> a = b.
Proof. intros [[a1 a2] a3] [[b1 b2] b3] H. pose proof (H KInt) as E1. pose proof (H KFloat) as E2. pose proof (H KDouble) as E3. cbn in *. congruence. Qed.
Lemma gen_sizes_ok : forall h r o k, rep h r o -> size_of (gen_sizes o) k = size h r k.
Proof.
  intros h r o k (_ & K). destruct (K k) as (K1 & K2 & _). rewrite <- K1 in *.
  destruct k; cbn [gen_sizes size_of vals] in *; apply s32_small; (split; [apply Zlen_nonneg|exact K2]).
Qed.
Lemma wrap_ok : forall h s n a, inv h s -> allowed h (VWrap n a) ->
  (view_possible h n a /\ exists r, root h a = Some r /\ alive h r = true /\ wrap s n a = Ok (Some (daddr h r))) \/ (~ view_possible h n a /\ wrap s n a = Ok None).
Proof.
  intros h s n a I (Hn & [->|(A & B)]).
  { right. split; [|reflexivity]. intros (N & _). exact (N eq_refl). }
  pose proof (i_made _ _ I a (alive_made _ _ A)) as Ha. unfold wrap. rewrite neq_eqb by lia. destruct (root h a) as [r|] eqn:R.
  2:{ right. split; [intros (_ & r & R' & _); congruence|]. destruct (i_other _ _ I a A R) as (M & _). rewrite M. reflexivity. }
  destruct (i_root _ _ I a r R) as (RR & RT). destruct (i_data _ _ I r RR B) as (o & M & RP). pose proof (daddr_below h s r I RR) as Hd.
  assert (V : sizes_eqb (gen_sizes o) n = true <-> forall k, size h r k = size_of n k).
  { rewrite sizes_eqb_ok. split; intros H k; [rewrite <- (gen_sizes_ok h r o k RP); apply H|rewrite (gen_sizes_ok h r o k RP); apply H]. }
  destruct (template h a) as [m|] eqn:T.
  - rewrite (i_view _ _ I a r m A R T). cbn [bind]. destruct (sizes_eqb m n) eqn:E.
    + pose proof (sizes_ext _ _ (proj1 (sizes_eqb_ok _ _) E)) as EE. subst m. clear E. rewrite neq_eqb by lia. rewrite M. destruct (sizes_eqb (gen_sizes o) n) eqn:G.
      * left. split; [split; [lia|exists r; split; [exact R|split; [apply V; reflexivity|right; exact T]]]|]. exists r. split; [reflexivity|]. split; [exact B|reflexivity].
      * right. split; [|reflexivity]. intros (_ & r' & R' & K & _). assert (r' = r) by congruence. subst r'. apply V in K. congruence.
    + right. split; [|reflexivity]. intros (_ & r' & R' & K & [X|X]); [congruence|]. assert (m = n) by congruence. subst m.
      assert (sizes_eqb n n = true) by (apply sizes_eqb_ok; reflexivity). congruence.
  - rewrite (RT eq_refl) in *. unfold daddr in *. rewrite T in *. rewrite M. cbn [bind]. rewrite neq_eqb by lia. rewrite M. destruct (sizes_eqb (gen_sizes o) n) eqn:G.
    + left. split; [split; [lia|exists a; split; [exact R|split; [apply V; reflexivity|left; exact T]]]|]. exists a. split; [reflexivity|]. split; [exact B|rewrite T; reflexivity].
    + right. split; [|reflexivity]. intros (_ & r' & R' & K & _). assert (r' = a) by congruence. subst r'. apply V in K. congruence.
Qed.

(** *** Setting a value *)
Definition put_at (l : list Z) (i v : Z) : list Z := firstn (Z.to_nat i) l ++ v :: skipn (S (Z.to_nat i)) l.
Lemma put_at_ok : forall l i v, 0 <= i < Zlen l ->
  Zlen (put_at l i v) = Zlen l /\ nth (Z.to_nat i) (put_at l i v) 0 = v /\ forall j, 0 <= j -> j <> i -> nth (Z.to_nat j) (put_at l i v) 0 = nth (Z.to_nat j) l 0.
Proof.
  intros l i v H. unfold put_at. assert (Hi : (Z.to_nat i < length l)%nat) by (unfold Zlen in H; lia).
  assert (HL : length (firstn (Z.to_nat i) l) = Z.to_nat i) by (apply firstn_length_le; lia). split; [|split].
  - unfold Zlen. rewrite app_length. cbn [length]. rewrite HL, skipn_length. lia.
  - rewrite app_nth2 by lia. rewrite HL, Nat.sub_diag. reflexivity.
  - intros j J N. assert (NN : Z.to_nat j <> Z.to_nat i) by lia. revert Hi NN. generalize (Z.to_nat i), (Z.to_nat j). clear. intros m n. revert m n.
    induction l as [|a l IH]; intros m n Hi N; [cbn [length] in Hi; lia|]. destruct m as [|m]; destruct n as [|n]; [lia|reflexivity|reflexivity|].
    cbn [firstn skipn app]. change (nth (S n) (a :: ?x) 0) with (nth n x 0). cbn [nth]. apply IH; [cbn [length] in Hi; lia|lia].
Qed.
Lemma resize_ok : forall l n, Zlen l <= n -> Zlen (ImplModel.resize l n) = n /\ forall j, 0 <= j -> nth (Z.to_nat j) (ImplModel.resize l n) 0 = nth (Z.to_nat j) l 0.
Proof.
  intros l n H. pose proof (Zlen_nonneg l). unfold ImplModel.resize. rewrite firstn_all2 by (unfold Zlen in H; lia). split.
  - unfold Zlen in *. rewrite app_length, repeat_length. lia.
  - intros j J. destruct (Nat.lt_ge_cases (Z.to_nat j) (length l)) as [C|C]; [rewrite app_nth1 by exact C; reflexivity|].
    rewrite app_nth2 by exact C. rewrite (nth_overflow l) by exact C. apply nth_repeat.
Qed.
Lemma go_put_ok : forall fx l i v, Zlen l < 2 ^ 31 -> 0 <= i < 2 ^ 31 - 1 -> (fx = true -> i < Zlen l) ->
  exists l', go_put fx l i v = Ok l' /\ Zlen l' = Z.max (Zlen l) (i + 1) /\ nth (Z.to_nat i) l' 0 = v /\
    forall j, 0 <= j -> j <> i -> nth (Z.to_nat j) l' 0 = nth (Z.to_nat j) l 0.
Proof.
  intros fx l i v Hl Hi Hf. unfold go_put. set (l1 := if (Zlen l <=? i) && negb fx then ImplModel.resize l (u32 (i + 1)) else l).
  assert (L : Zlen l1 = Z.max (Zlen l) (i + 1) /\ forall j, 0 <= j -> nth (Z.to_nat j) l1 0 = nth (Z.to_nat j) l 0).
  { unfold l1. destruct (Z.leb_spec (Zlen l) i) as [C|C]; cbn [andb].
    - destruct fx; [specialize (Hf eq_refl); lia|]. cbn [negb].
      assert (U : u32 (i + 1) = i + 1) by (apply u32_id; unfold is_u32, two32; change (2 ^ 31) with 2147483648 in Hi; lia).
      rewrite U. destruct (resize_ok l (i + 1) ltac:(lia)) as (R1 & R2). split; [lia|exact R2].
    - split; [lia|reflexivity]. }
  destruct L as (L1 & L2). rewrite (proj2 (Z.ltb_lt i (Zlen l1))) by lia. exists (put_at l1 i v). split; [reflexivity|].
  destruct (put_at_ok l1 i v ltac:(lia)) as (P1 & P2 & P3). split; [lia|]. split; [exact P2|]. intros j J N. rewrite P3 by assumption. apply L2, J.
Qed.
Definition with_vals (o : genobj) (k : kind) (l : list Z) : genobj :=
  match k with
  | KInt => mkGO l (go_flt o) (go_dbl o) (go_fixed o) (go_type o) (go_desc o)
  | KFloat => mkGO (go_int o) l (go_dbl o) (go_fixed o) (go_type o) (go_desc o)
  | KDouble => mkGO (go_int o) (go_flt o) l (go_fixed o) (go_type o) (go_desc o)
  end.
Lemma go_do_ok : forall o k i v l, go_put (go_fixed o) (vals o k) i v = Ok l -> go_do false o (set_call k i v) = (with_vals o k l, Ok tt).
Proof. intros o k i v l E. destruct k; cbn [go_do set_call vals] in *; rewrite E; reflexivity. Qed.
Lemma vals_with : forall o k k' l, vals (with_vals o k l) k' = if kind_eqb k' k then l else vals o k'.
Proof. intros o [] [] l; reflexivity. Qed.
Lemma kind_eqb_ok : forall a b, kind_eqb a b = true <-> a = b.
Proof. intros [] []; split; intros H; try reflexivity; discriminate H. Qed.

Lemma inv_set : forall h s v k i x, inv h s -> allowed h (VSet v k i x) ->
  exists s', v_step s (VSet v k i x) = (Ok ODone, s') /\ inv ((VSet v k i x, ODone) :: h) s'.
Proof.
  intros h s v k i x I (r & U & Hi & Hf). destruct (data_ok h s v r I U) as (o & D & (RF & RK) & M). destruct U as (A & R & B). destruct (i_root _ _ I v r R) as (RR & RT).
  destruct (RK k) as (K1 & K2 & K3). destruct (go_put_ok (go_fixed o) (vals o k) i x ltac:(lia) Hi ltac:(rewrite RF, K1; exact Hf)) as (l & P & L1 & L2 & L3).
  cbn [v_step]. rewrite D. pose proof (go_do_ok o k i x l P) as G. rewrite G. eexists. split; [reflexivity|]. set (h' := (VSet v k i x, ODone) :: h).
  assert (DA : forall q, daddr h' q = daddr h q) by reflexivity.
  assert (MD : forall q, made h' q <-> made h q).
  { intros q. split; intros (op' & Q); [|exists op'; right; exact Q]. destruct Q as [Q|Q]; [discriminate Q|exists op'; exact Q]. }
  constructor; cbn [vs_mem vs_next].
  - exact (i_next _ _ I).
  - intros q Q. apply (i_made _ _ I), MD, Q.
  - intros q Q C. change (alive h q = true) in Q. change (root h q = None) in C. unfold v_set. rewrite neq_eqb by (intros E; exact (daddr_other h s r q I RR Q C (eq_sym E))).
    exact (i_other _ _ I q Q C).
  - exact (i_root _ _ I).
  - intros q r' n Q C T. change (alive h q = true) in Q. change (root h q = Some r') in C. change (template h q = Some n) in T. unfold v_set.
    rewrite neq_eqb by (intros E; exact (daddr_view h s r q n I RR Q T (eq_sym E))). exact (i_view _ _ I q r' n Q C T).
  - intros q Q C. change (root h q = Some q) in Q. change (alive h q = true) in C. rewrite DA. unfold v_set. destruct (Z.eqb_spec (daddr h q) (daddr h r)) as [E|N].
    + assert (q = r) by (exact (daddr_apart h s q r I Q RR E)). subst q. exists (with_vals o k l). split; [reflexivity|]. split.
      * change (fixed h' r) with (fixed h r). rewrite <- RF. destruct k; reflexivity.
      * intros k'. assert (OR : on_root h v r = true) by (unfold on_root; rewrite R; apply Z.eqb_refl). unfold h'. cbn [size last_value]. rewrite OR. cbn [andb]. rewrite vals_with.
        destruct (kind_eqb k' k) eqn:KE.
        -- apply kind_eqb_ok in KE. subst k'. rewrite L1, K1. split; [reflexivity|]. split; [lia|]. intros j J. destruct (Z.eqb_spec j i) as [->|NJ]; [exact L2|]. rewrite L3 by lia.
           apply K3, J.
        -- destruct (RK k') as (J1 & J2 & J3). split; [exact J1|]. split; [exact J2|]. exact J3.
    + destruct (i_data _ _ I q Q C) as (oq & MQ & QF & QK). exists oq. split; [exact MQ|]. split; [exact QF|]. intros k'.
      assert (OR : on_root h v q = false) by (unfold on_root; rewrite R; apply neq_eqb; intros ->; exact (N eq_refl)). unfold h'. cbn [size last_value]. rewrite OR. exact (QK k').
  - intros q n T Q. destruct (i_own _ _ I q n T Q) as (O1 & O2). split; [exact O1|]. intros O3. apply O2, MD, O3.
  - intros y z Q. unfold v_set in Q. destruct (Z.eqb_spec y (daddr h r)) as [->|N]; [|exact (i_left _ _ I y z Q)].
    exists r. split; [exact B|]. right. split; [exact RR|reflexivity].
Qed.

(** *** Deleting *)
Lemma inv_delete : forall h s a, inv h s -> allowed h (VDelete a) ->
  exists s', v_step s (VDelete a) = (Ok ODone, s') /\ inv ((VDelete a, ODone) :: h) s'.
Proof.
  intros h s a I D. set (h' := (VDelete a, ODone) :: h).
  assert (DA : forall q, daddr h' q = daddr h q) by reflexivity.
  assert (MD : forall q, made h' q <-> made h q).
  { intros q. split; intros (op' & Q); [|exists op'; right; exact Q]. destruct Q as [Q|Q]; [discriminate Q|exists op'; exact Q]. }
  assert (AL : forall q, alive h' q = true -> q <> a /\ alive h q = true).
  { intros q Q. unfold h' in Q. cbn [alive] in Q. destruct (Z.eqb_spec q a); [discriminate Q|]. split; assumption. }
  (* what the memory may look like *)
  assert (GO : forall s', vs_next s' = vs_next s -> (forall x, vs_mem s' x = vs_mem s x \/ vs_mem s' x = None) ->
    (a <> 0 -> vs_mem s' a = None) -> (root h a = Some a -> vs_mem s' (daddr h a) = None) ->
    (forall x, x <> a -> (root h a = Some a -> x <> daddr h a) -> vs_mem s' x = vs_mem s x) -> inv h' s').
  { intros s' SN SO SA SD SK. constructor.
    - rewrite SN. exact (i_next _ _ I).
    - intros q Q. rewrite SN. apply (i_made _ _ I), MD, Q.
    - intros q Q C. apply AL in Q. destruct Q as (N & Q). change (root h q = None) in C. rewrite SK; [exact (i_other _ _ I q Q C)|exact N|].
      intros R E. exact (daddr_other h s a q I R Q C (eq_sym E)).
    - exact (i_root _ _ I).
    - intros q r n Q C T. apply AL in Q. destruct Q as (N & Q). change (root h q = Some r) in C. change (template h q = Some n) in T. rewrite SK; [exact (i_view _ _ I q r n Q C T)|exact N|].
      intros R E. exact (daddr_view h s a q n I R Q T (eq_sym E)).
    - intros q Q C. change (root h q = Some q) in Q. apply AL in C. destruct C as (N & C). rewrite DA. destruct (i_data _ _ I q Q C) as (o & MQ & RP). exists o. split; [|exact RP].
      rewrite SK; [exact MQ| |].
      + intros E. unfold daddr in E. destruct (template h q) as [m|] eqn:TQ; [|exact (N E)]. destruct D as [->|D].
        * pose proof (proj1 (i_own _ _ I q m TQ Q)). lia.
        * apply (proj2 (i_own _ _ I q m TQ Q)). rewrite E. exact (alive_made _ _ D).
      + intros R E. apply N. exact (daddr_apart h s q a I Q R E).
    - intros q n T Q. destruct (i_own _ _ I q n T Q) as (O1 & O2). split; [exact O1|]. intros O3. apply O2, MD, O3.
    - intros x y Q. assert (Q' : vs_mem s x = Some y) by (destruct (SO x) as [O|O]; congruence). destruct (i_left _ _ I x y Q') as (v & L & X).
      destruct (Z.eq_dec v a) as [->|N].
      + exfalso. pose proof (i_made _ _ I a (alive_made _ _ L)). destruct X as [->|(R & ->)]; [rewrite SA in Q by lia; discriminate Q|rewrite (SD R) in Q; discriminate Q].
      + exists v. split; [unfold h'; cbn [alive]; rewrite (neq_eqb v a N); exact L|exact X]. }
  destruct D as [->|A].
  { exists s. split; [reflexivity|]. apply GO; [reflexivity|left; reflexivity|lia| |reflexivity]. intros R. exfalso. pose proof (i_made _ _ I 0 (proj1 (root_made _ _ _ R))). lia. }
  pose proof (i_made _ _ I a (alive_made _ _ A)) as Ha. cbn [v_step]. rewrite neq_eqb by lia. destruct (root h a) as [r|] eqn:R.
  2:{ destruct (i_other _ _ I a A R) as (M & _). rewrite M. eexists. split; [reflexivity|]. apply GO; cbn [vs_next vs_mem]; unfold v_set.
      - reflexivity.
      - intros x. destruct (x =? a); [right|left]; reflexivity.
      - intros _. rewrite Z.eqb_refl. reflexivity.
      - congruence.
      - intros x N _. rewrite neq_eqb by exact N. reflexivity. }
  destruct (i_root _ _ I a r R) as (RR & RT). destruct (template h a) as [n|] eqn:T.
  - rewrite (i_view _ _ I a r n A R T). destruct (Z.eqb_spec r a) as [->|N].
    + destruct (i_data _ _ I a R A) as (o & M & _). rewrite M. eexists. split; [reflexivity|]. apply GO; cbn [vs_next vs_mem]; unfold v_set.
      * reflexivity.
      * intros x. destruct (x =? a); [right; reflexivity|]. destruct (x =? daddr h a); [right|left]; reflexivity.
      * intros _. rewrite Z.eqb_refl. reflexivity.
      * intros _. rewrite Z.eqb_refl. destruct (_ =? _); reflexivity.
      * intros x N K. rewrite neq_eqb by exact N. rewrite neq_eqb by (apply K; reflexivity). reflexivity.
    + eexists. split; [reflexivity|]. apply GO; cbn [vs_next vs_mem]; unfold v_set.
      * reflexivity.
      * intros x. destruct (x =? a); [right|left]; reflexivity.
      * intros _. rewrite Z.eqb_refl. reflexivity.
      * congruence.
      * intros x K _. rewrite neq_eqb by exact K. reflexivity.
  - rewrite (RT eq_refl) in *. destruct (i_data _ _ I a R A) as (o & M & _). assert (E : daddr h a = a) by (unfold daddr; rewrite T; reflexivity). rewrite E in M. rewrite M.
    eexists. split; [reflexivity|]. apply GO; cbn [vs_next vs_mem]; unfold v_set.
    + reflexivity.
    + intros x. destruct (x =? a); [right|left]; reflexivity.
    + intros _. rewrite Z.eqb_refl. reflexivity.
    + intros _. rewrite E, Z.eqb_refl. reflexivity.
    + intros x K _. rewrite neq_eqb by exact K. reflexivity.
Qed.

(** *** Making objects *)
Lemma fresh_result : forall h s a, inv h s -> vs_next s <= a -> a <> 0 /\ forall op' o, In (op', o) h -> o <> OAddr a.
Proof.
  intros h s a I H. pose proof (i_next _ _ I). split; [lia|]. intros op' o In1 ->. apply (not_made h s a I H). exists op'. exact In1.
Qed.
Lemma inv_obj : forall h s o, inv h s -> allowed h (VObj o) ->
  exists s', v_step s (VObj o) = (Ok (OAddr (vs_next s)), s') /\ inv ((VObj o, OAddr (vs_next s)) :: h) s'.
Proof.
  intros h s o I A. cbn [v_step v_alloc]. eexists. split; [reflexivity|]. set (a := vs_next s).
  assert (RA : root ((VObj o, OAddr a) :: h) a = Some a) by (cbn [root]; rewrite Z.eqb_refl; reflexivity).
  assert (TA : template ((VObj o, OAddr a) :: h) a = None) by (cbn [template]; rewrite Z.eqb_refl; reflexivity).
  assert (DD : daddr ((VObj o, OAddr a) :: h) a = a) by (unfold daddr; rewrite TA; reflexivity).
  apply (inv_extend h _ s _ a I (ext_obj h o a)); rewrite ?RA, ?TA, ?DD; cbn [vs_next vs_mem]; unfold v_set; try discriminate; try (unfold a; lia).
  - intros x Hx. rewrite neq_eqb by (unfold a; lia). reflexivity.
  - intros r E. injection E as <-. split; [exact RA|reflexivity].
  - intros _. exists o. rewrite Z.eqb_refl. split; [reflexivity|]. split; [cbn [fixed]; rewrite Z.eqb_refl; reflexivity|].
    intros k. cbn [size last_value]. rewrite Z.eqb_refl. split; [reflexivity|]. split; [apply A|reflexivity].
  - intros x y Hx E. destruct (Z.eqb_spec x a) as [->|N]; [left; reflexivity|]. rewrite (empty_above h s x I Hx) in E. discriminate E.
Qed.
Lemma inv_user : forall h s, inv h s ->
  exists s', v_step s VUser = (Ok (OAddr (vs_next s)), s') /\ inv ((VUser, OAddr (vs_next s)) :: h) s'.
Proof.
  intros h s I. cbn [v_step v_alloc]. eexists. split; [reflexivity|]. set (a := vs_next s).
  assert (RA : root ((VUser, OAddr a) :: h) a = None).
  { cbn [root]. destruct (root h a) as [r|] eqn:E; [|reflexivity]. exfalso. exact (not_made h s a I ltac:(unfold a; lia) (proj1 (root_made _ _ _ E))). }
  assert (TA : template ((VUser, OAddr a) :: h) a = None) by (cbn [template]; rewrite Z.eqb_refl; reflexivity).
  apply (inv_extend h _ s _ a I (ext_user h a)); rewrite ?RA, ?TA; cbn [vs_next vs_mem]; unfold v_set; try discriminate; try (unfold a; lia).
  - intros x Hx. rewrite neq_eqb by (unfold a; lia). reflexivity.
  - intros _. rewrite Z.eqb_refl. split; reflexivity.
  - intros x y Hx E. destruct (Z.eqb_spec x a) as [->|N]; [left; reflexivity|]. rewrite (empty_above h s x I Hx) in E. discriminate E.
Qed.
Lemma Zlen_repeat : forall n, 0 <= n -> Zlen (repeat 0 (Z.to_nat n)) = n.
Proof. intros n H. unfold Zlen. rewrite repeat_length. lia. Qed.
Lemma new_gen_ok : forall n k, int_sizes n -> Zlen (vals (new_gen n) k) = size_of n k /\ forall i, nth i (vals (new_gen n) k) 0 = 0.
Proof.
  intros [[ni nf] nd] k H. pose proof (H k) as K. destruct k; cbn [new_gen vals size_of go_int go_flt go_dbl] in *;
    (split; [apply Zlen_repeat; lia|intros i; apply nth_repeat]).
Qed.
Lemma inv_new : forall h s n, inv h s -> allowed h (VNew n) ->
  exists s', v_step s (VNew n) = (Ok (OAddr (vs_next s + 1)), s') /\ inv ((VNew n, OAddr (vs_next s + 1)) :: h) s'.
Proof.
  intros h s n I A. cbn [v_step v_alloc]. eexists. split; [reflexivity|]. set (a := vs_next s + 1).
  assert (RA : root ((VNew n, OAddr a) :: h) a = Some a) by (cbn [root]; rewrite Z.eqb_refl; reflexivity).
  assert (TA : template ((VNew n, OAddr a) :: h) a = Some n) by (cbn [template]; rewrite Z.eqb_refl; reflexivity).
  assert (DD : daddr ((VNew n, OAddr a) :: h) a = vs_next s) by (unfold daddr; rewrite TA; unfold a; lia).
  apply (inv_extend h _ s _ a I (ext_new h n a)); rewrite ?RA, ?TA, ?DD; cbn [vs_next vs_mem]; unfold v_set; try discriminate; try (unfold a; lia).
  - intros x Hx. rewrite !neq_eqb by (unfold a; lia). reflexivity.
  - intros r E. injection E as <-. split; [exact RA|reflexivity].
  - intros r m E F. injection E as <-. injection F as <-. rewrite DD. fold a. rewrite !Z.eqb_refl. reflexivity.
  - intros _. exists (new_gen n). rewrite neq_eqb by lia. rewrite Z.eqb_refl. split; [reflexivity|]. split; [cbn [fixed]; rewrite Z.eqb_refl; destruct n as [[? ?] ?]; reflexivity|].
    intros k. cbn [size last_value]. rewrite Z.eqb_refl. destruct (new_gen_ok n k A) as (N1 & N2). split; [exact N1|]. split; [apply A|]. intros i _. apply N2.
  - intros x y Hx E. fold a in E. destruct (Z.eqb_spec x a) as [->|N]; [left; reflexivity|]. destruct (Z.eqb_spec x (vs_next s)) as [->|N']; [right; split; reflexivity|].
    rewrite (empty_above h s x I Hx) in E. discriminate E.
Qed.
Lemma inv_wrap : forall h s n w, inv h s -> allowed h (VWrap n w) ->
  exists out s', v_step s (VWrap n w) = (Ok out, s') /\ expected h (VWrap n w) out /\ inv ((VWrap n w, out) :: h) s'.
Proof.
  intros h s n w I A. cbn [v_step]. destruct (wrap_ok h s n w I A) as [(P & r & R & L & E)|(P & E)].
  - rewrite E. cbn [v_alloc]. eexists (OAddr (vs_next s)), _. split; [reflexivity|]. split.
    { left. split; [exact P|]. exists (vs_next s). split; [reflexivity|]. apply (fresh_result h s _ I). lia. }
    set (a := vs_next s). destruct (i_root _ _ I w r R) as (RR & _).
    assert (NR : r <> a) by (intros ->; exact (not_made h s a I ltac:(unfold a; lia) (proj1 (root_made _ _ _ RR)))).
    assert (RA : root ((VWrap n w, OAddr a) :: h) a = Some r) by (cbn [root]; rewrite Z.eqb_refl; exact R).
    assert (TA : template ((VWrap n w, OAddr a) :: h) a = Some n) by (cbn [template]; rewrite Z.eqb_refl; reflexivity).
    assert (DD : daddr ((VWrap n w, OAddr a) :: h) r = daddr h r) by (unfold daddr; cbn [template]; rewrite (neq_eqb r a NR); reflexivity).
    apply (inv_extend h _ s _ a I (ext_wrap h n w a)); rewrite ?RA, ?TA; cbn [vs_next vs_mem]; unfold v_set; try discriminate; try (unfold a; lia).
    + intros x Hx. rewrite neq_eqb by (unfold a; lia). reflexivity.
    + intros q Q. injection Q as <-. split; [cbn [root]; rewrite (neq_eqb r a NR); exact RR|discriminate].
    + intros q m Q F. injection Q as <-. injection F as <-. rewrite DD. fold a. rewrite Z.eqb_refl. rewrite (neq_eqb r a NR). reflexivity.
    + intros Q. injection Q as Q. contradiction.
    + intros m _ Q. injection Q as Q. contradiction.
    + intros x y Hx Q. fold a in Q. destruct (Z.eqb_spec x a) as [->|N]; [left; reflexivity|]. rewrite (empty_above h s x I Hx) in Q. discriminate Q.
  - rewrite E. exists OExc, s. split; [reflexivity|]. split; [right; split; [exact P|reflexivity]|].
    apply inv_same; try reflexivity; [exact I|discriminate].
Qed.

(** ** All calls *)
Lemma step_ok : forall h s op, inv h s -> allowed h op ->
  exists out s', v_step s op = (Ok out, s') /\ expected h op out /\ inv ((op, out) :: h) s'.
Proof.
  intros h s op I A. destruct op as [o| |n|n w|w k i x|w k i|w k|w|w].
  - destruct (inv_obj h s o I A) as (s' & E & I'). eexists _, s'. split; [exact E|]. split; [|exact I']. exists (vs_next s). split; [reflexivity|]. apply (fresh_result h s _ I). lia.
  - destruct (inv_user h s I) as (s' & E & I'). eexists _, s'. split; [exact E|]. split; [|exact I']. exists (vs_next s). split; [reflexivity|]. apply (fresh_result h s _ I). lia.
  - destruct (inv_new h s n I A) as (s' & E & I'). eexists _, s'. split; [exact E|]. split; [|exact I']. exists (vs_next s + 1). split; [reflexivity|]. apply (fresh_result h s _ I). lia.
  - exact (inv_wrap h s n w I A).
  - destruct (inv_set h s w k i x I A) as (s' & E & I'). exists ODone, s'. split; [exact E|]. split; [reflexivity|exact I'].
  - destruct A as (r & U & Hi). destruct (data_ok h s w r I U) as (o & D & (_ & RK) & _). destruct (RK k) as (K1 & _ & K3).
    exists (OVal (last_value h r k i)), s. split; [|split; [exists r; split; [exact (proj1 (proj2 U))|reflexivity]|]].
    + cbn [v_step]. rewrite D. rewrite element_ok by lia. cbn [bind]. rewrite K3 by lia. reflexivity.
    + apply inv_same; try reflexivity; [exact I|discriminate].
  - destruct A as (A & R). destruct (root h w) as [r|] eqn:RW; [|contradiction]. destruct (i_root _ _ I w r RW) as (RR & RT).
    eexists _, s. split; [|split; [reflexivity|apply inv_same; try reflexivity; [exact I|discriminate]]].
    cbn [v_step]. destruct (template h w) as [n|] eqn:T.
    + rewrite (i_view _ _ I w r n A RW T). reflexivity.
    + rewrite (RT eq_refl) in *. destruct (i_data _ _ I w RR A) as (o & M & RP). unfold daddr in M. rewrite T in M. rewrite M, RW. rewrite (gen_sizes_ok h w o k RP). reflexivity.
  - destruct (inv_delete h s w I A) as (s' & E & I'). exists ODone, s'. split; [exact E|]. split; [reflexivity|exact I'].
  - contradiction.
Qed.
Lemma run_ok : forall ops h s, inv h s -> all_allowed h ops (fst (v_run s ops)) ->
  all_expected h ops (fst (v_run s ops)) /\ inv (after h ops (fst (v_run s ops))) (snd (v_run s ops)).
Proof.
  induction ops as [|op ops IH]; intros h s I A.
  - cbn [v_run fst snd all_expected after] in *. split; [exact Logic.I|exact I].
  - cbn [v_run] in *. destruct (v_step s op) as [r s1] eqn:E. destruct r as [out|e|u].
    + destruct (v_run s1 ops) as [rs s2] eqn:E2. cbn [fst snd all_allowed all_expected after] in *. destruct A as (A & B).
      destruct (step_ok h s op I A) as (out' & s' & E' & X & I'). rewrite E in E'. injection E' as <- <-.
      specialize (IH ((op, out) :: h) s1 I'). rewrite E2 in IH. cbn [fst snd] in IH. specialize (IH B). split; [split; [exact X|apply IH]|apply IH].
    + exfalso. cbn [fst all_allowed] in A. destruct A as (A & _). destruct (step_ok h s op I A) as (out' & s' & E' & _). rewrite E in E'. discriminate E'.
    + exfalso. cbn [fst all_allowed] in A. destruct A as (A & _). destruct (step_ok h s op I A) as (out' & s' & E' & _). rewrite E in E'. discriminate E'.
Qed.

(** everything is deleted if all that was made was deleted *)
Lemma nothing_left : forall ops, all_allowed [] ops (fst (v_run vinit ops)) ->
  (forall v, alive (after [] ops (fst (v_run vinit ops))) v = false) -> forall x, vs_mem (snd (v_run vinit ops)) x = None.
Proof.
  intros ops A D x. destruct (run_ok ops [] vinit inv_init A) as (_ & I). destruct (vs_mem _ x) as [y|] eqn:E; [|reflexivity].
  destruct (i_left _ _ I x y E) as (v & L & _). rewrite D in L. discriminate L.
Qed.

(** what is written of a view: the values of its data *)
Lemma first_values_ok : forall n l, (n <= length l)%nat -> first_values n l = Ok (firstn n l).
Proof.
  induction n as [|n IH]; intros l H; [reflexivity|]. destruct l as [|v l]; [cbn [length] in H; lia|]. cbn [first_values firstn]. rewrite IH by (cbn [length] in H; lia). reflexivity.
Qed.
Lemma first_values_take : forall n l r, first_values n l = Ok r -> r = firstn n l /\ (n <= length l)%nat.
Proof.
  induction n as [|n IH]; intros l r H; [injection H as <-; split; [reflexivity|lia]|]. destruct l as [|v l]; [discriminate H|]. cbn [first_values] in H.
  destruct (first_values n l) as [r'| |] eqn:E; cbn [bind] in H; try discriminate H. injection H as <-. destruct (IH l r' E) as (-> & L). cbn [firstn length]. split; [reflexivity|lia].
Qed.
(** the object that is made of what was written: of the sizes of the view, and with its values *)
Lemma stored_view : forall s v n p cr t d g o' s1 x1 s2, vs_mem s v = Some (VFix n p cr) -> v <> 0 -> int_sizes n -> seen s v t d = Ok g ->
  go_int o' = go_int g -> go_flt o' = go_flt g -> go_dbl o' = go_dbl g -> 0 < vs_next s1 ->
  v_step s1 (VObj o') = (Ok (OAddr x1), s2) ->
  exists w s3, v_step s2 (VWrap n x1) = (Ok (OAddr w), s3) /\
    forall k i, 0 <= i < size_of n k -> exists z, fst (v_step s (VGet v k i)) = Ok (OVal z) /\ fst (v_step s3 (VGet w k i)) = Ok (OVal z).
Proof.
  intros s v n p cr t d g o' s1 x1 s2 V V0 Hn G G1 G2 G3 P E. unfold seen in G. rewrite V in G.
  destruct (data_of s v) as [[q o]| |] eqn:D; cbn [bind] in G; try discriminate G.
  destruct (first_values (Z.to_nat (size_of n KInt)) (go_int o)) as [li| |] eqn:F1; cbn [bind] in G; try discriminate G.
  destruct (first_values (Z.to_nat (size_of n KFloat)) (go_flt o)) as [lf| |] eqn:F2; cbn [bind] in G; try discriminate G.
  destruct (first_values (Z.to_nat (size_of n KDouble)) (go_dbl o)) as [ld| |] eqn:F3; cbn [bind] in G; try discriminate G.
  injection G as <-. cbn [go_int go_flt go_dbl] in *. apply first_values_take in F1, F2, F3. destruct F1 as (F1 & L1), F2 as (F2 & L2), F3 as (F3 & L3).
  assert (VK : forall k, vals o' k = firstn (Z.to_nat (size_of n k)) (vals o k) /\ (Z.to_nat (size_of n k) <= length (vals o k))%nat).
  { intros []; cbn [vals]; [rewrite G1, F1|rewrite G2, F2|rewrite G3, F3]; split; try reflexivity; assumption. }
  assert (SZ : forall k, Zlen (vals o' k) = size_of n k).
  { intros k. destruct (VK k) as (K1 & K2). rewrite K1. unfold Zlen. rewrite firstn_length_le by exact K2. specialize (Hn k). lia. }
  cbn [v_step v_alloc] in E. injection E as <- <-.
  assert (GS : sizes_eqb (gen_sizes o') n = true).
  { apply sizes_eqb_ok. intros k. rewrite <- SZ. specialize (Hn k). specialize (SZ k). destruct k; cbn [gen_sizes size_of vals] in *; apply s32_small; lia. }
  eexists _, _. split.
  { cbn [v_step]. unfold wrap. rewrite neq_eqb by lia. cbn [vs_mem]. unfold v_set at 1. rewrite Z.eqb_refl. cbn [bind]. rewrite neq_eqb by lia.
    unfold v_set at 1. rewrite Z.eqb_refl, GS. cbn [v_alloc vs_mem vs_next]. reflexivity. }
  intros k i Hi. destruct (VK k) as (K1 & K2). exists (nth (Z.to_nat i) (vals o k) 0). split.
  - cbn [v_step]. rewrite D. rewrite element_ok by (unfold Zlen; lia). reflexivity.
  - cbn [v_step]. unfold data_of. cbn [vs_mem]. rewrite neq_eqb by lia. unfold v_set at 1. rewrite Z.eqb_refl. unfold v_set at 1. rewrite neq_eqb by lia. unfold v_set at 1. rewrite Z.eqb_refl.
    rewrite element_ok by (rewrite SZ; exact Hi). cbn [bind fst]. f_equal. f_equal. rewrite K1.
    rewrite <- (firstn_skipn (Z.to_nat (size_of n k)) (vals o k)) at 2. rewrite app_nth1; [reflexivity|]. rewrite firstn_length_le by exact K2. lia.
Qed.
