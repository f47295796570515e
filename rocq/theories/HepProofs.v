(** * The family links of StdHep events *)

From Verif Require Import Bytes SioModel Ieee ObjModel HepModel HepSpec.

(** ** Lists of particles *)

Lemma part_at l i o : part l i = Ok o <-> at_ l i o.
Proof.
  unfold part, at_, Zlen. split.
  - destruct ((0 <=? i) && (i <? Z.of_nat (length l))) eqn:E; [|discriminate]. destruct (nth_error l (Z.to_nat i)) eqn:N; [|discriminate].
    intros H. injection H as ->. split; [lia|reflexivity].
  - intros [H1 H2]. pose proof (proj1 (nth_error_Some l (Z.to_nat i)) ltac:(congruence)). replace ((0 <=? i) && (i <? Z.of_nat (length l))) with true by lia. rewrite H2. reflexivity.
Qed.
Lemma at_range l i o : at_ l i o -> 0 <= i < Zlen l.
Proof. intros [H1 H2]. pose proof (proj1 (nth_error_Some l (Z.to_nat i)) ltac:(congruence)). unfold Zlen. lia. Qed.
Lemma at_exists l i : 0 <= i < Zlen l -> exists o, at_ l i o.
Proof.
  intros H. destruct (nth_error l (Z.to_nat i)) as [o|] eqn:E; [exists o; split; [lia|exact E]|]. apply nth_error_None in E. unfold Zlen in H. lia.
Qed.
Lemma at_fun l i o o' : at_ l i o -> at_ l i o' -> o = o'.
Proof. intros [_ H1] [_ H2]. congruence. Qed.
Lemma part_cases l i : (exists o, part l i = Ok o /\ at_ l i o) \/ part l i = UB UBOutOfBounds /\ ~ 0 <= i < Zlen l.
Proof.
  destruct (part l i) as [o|x|k] eqn:E.
  - left. exists o. split; [reflexivity|]. apply part_at. exact E.
  - unfold part in E. destruct (_ && _); [|discriminate]. destruct (nth_error l (Z.to_nat i)); discriminate.
  - right. unfold part in E. destruct (_ && _) eqn:B.
    + destruct (nth_error l (Z.to_nat i)) eqn:N; [discriminate|]. apply nth_error_None in N. unfold Zlen in B. exfalso. lia.
    + injection E as <-. split; [reflexivity|lia].
Qed.
Lemma change_length n f l : length (change n f l) = length l.
Proof. revert n. induction l as [|p l IH]; intros [|n]; cbn; congruence. Qed.
Lemma change_nth n f l m : nth_error (change n f l) m = if Nat.eqb n m then option_map f (nth_error l m) else nth_error l m.
Proof. revert n m. induction l as [|p l IH]; intros [|n] [|m]; cbn; try reflexivity; [destruct (Nat.eqb n m); reflexivity|apply IH]. Qed.

(** the attributes but not the family *)
Definition alone (o : mcp) : mcp :=
  mkMC [] (mc_pdg o) (mc_gen o) (mc_sim o) (mc_vertex o) (mc_time o) (mc_p o) (mc_mass o) (mc_charge o) (mc_endpoint o) (mc_pend o) (mc_spin o) (mc_color o) [].

(** ** addParent *)

Lemma times_app x l y : times x (l ++ [y]) = (times x l + (if (x =? y)%Z then 1 else 0))%nat.
Proof.
  unfold times. rewrite count_occ_app. cbn [count_occ]. destruct (Z.eq_dec y x) as [->|H]; [rewrite Z.eqb_refl; reflexivity|].
  replace (x =? y) with false by lia. reflexivity.
Qed.
Lemma times_in x l : (0 < times x l)%nat <-> In x l.
Proof. unfold times. symmetry. apply count_occ_In. Qed.
Lemma existsb_in p l : existsb (Z.eqb p) l = true <-> In p l.
Proof.
  rewrite existsb_exists. split; [intros (x & H & E); replace p with x by lia; exact H|intros H; exists p; split; [exact H|lia]].
Qed.

(** the particle with more parents or daughters *)
Definition grown (d p i : Z) (o : mcp) : mcp :=
  let o1 := if i =? d then more_parents p o else o in if i =? p then more_daughters d o1 else o1.
Lemma grown_at d p l i o : 0 <= d -> 0 <= p -> at_ (change (Z.to_nat p) (more_daughters d) (change (Z.to_nat d) (more_parents p) l)) i o <->
  exists o0, at_ l i o0 /\ o = grown d p i o0.
Proof.
  intros Hd Hp. unfold at_, grown. rewrite !change_nth. split.
  - intros [Hi H]. destruct (nth_error l (Z.to_nat i)) as [o0|] eqn:E.
    + exists o0. split; [split; [exact Hi|reflexivity]|]. replace (i =? d) with (Nat.eqb (Z.to_nat d) (Z.to_nat i)) by (destruct (Nat.eqb_spec (Z.to_nat d) (Z.to_nat i)); lia).
      replace (i =? p) with (Nat.eqb (Z.to_nat p) (Z.to_nat i)) by (destruct (Nat.eqb_spec (Z.to_nat p) (Z.to_nat i)); lia).
      destruct (Nat.eqb (Z.to_nat d) (Z.to_nat i)), (Nat.eqb (Z.to_nat p) (Z.to_nat i)); cbn in H; injection H as <-; reflexivity.
    + destruct (Nat.eqb (Z.to_nat d) (Z.to_nat i)), (Nat.eqb (Z.to_nat p) (Z.to_nat i)); discriminate H.
  - intros (o0 & [Hi E] & ->). split; [exact Hi|]. rewrite E.
    replace (i =? d) with (Nat.eqb (Z.to_nat d) (Z.to_nat i)) by (destruct (Nat.eqb_spec (Z.to_nat d) (Z.to_nat i)); lia).
    replace (i =? p) with (Nat.eqb (Z.to_nat p) (Z.to_nat i)) by (destruct (Nat.eqb_spec (Z.to_nat p) (Z.to_nat i)); lia).
    destruct (Nat.eqb (Z.to_nat d) (Z.to_nat i)), (Nat.eqb (Z.to_nat p) (Z.to_nat i)); reflexivity.
Qed.
Lemma grown_parents d p i o : mc_parents (grown d p i o) = if i =? d then mc_parents o ++ [p] else mc_parents o.
Proof. unfold grown. destruct (i =? d), (i =? p); reflexivity. Qed.
Lemma grown_daughters d p i o : mc_daughters (grown d p i o) = if i =? p then mc_daughters o ++ [d] else mc_daughters o.
Proof. unfold grown. destruct (i =? d), (i =? p); reflexivity. Qed.
Lemma grown_alone d p i o : alone (grown d p i o) = alone o.
Proof. unfold grown. destruct (i =? d), (i =? p); reflexivity. Qed.

(** [l'] has the same particles with the additional links in [R] *)
Definition extends (R : Z -> Z -> Prop) (l l' : parts) : Prop :=
  length l' = length l /\ (mirrored l -> mirrored l') /\ (forall p d, linked l' p d <-> linked l p d \/ R p d) /\
  (forall i o, at_ l' i o -> exists o0, at_ l i o0 /\ alone o = alone o0).
Lemma extends_nothing (R : Z -> Z -> Prop) l : (forall p d, R p d -> linked l p d) -> extends R l l.
Proof.
  intros H. split; [reflexivity|]. split; [auto|]. split; [|intros i o Ho; exists o; auto].
  intros p d. split; [auto|intros [K|K]; [exact K|exact (H p d K)]].
Qed.
Lemma extends_trans R1 R2 R l1 l2 l3 : extends R1 l1 l2 -> extends R2 l2 l3 -> (forall p d, R p d <-> R1 p d \/ R2 p d) -> extends R l1 l3.
Proof.
  intros (A1 & A2 & A3 & A4) (B1 & B2 & B3 & B4) HR. split; [congruence|]. split; [auto|]. split.
  - intros p d. rewrite B3, A3, HR. tauto.
  - intros i o Ho. destruct (B4 i o Ho) as (o1 & H1 & E1). destruct (A4 i o1 H1) as (o2 & H2 & E2). exists o2. split; [exact H2|congruence].
Qed.
Lemma linked_in l p d o : at_ l d o -> (linked l p d <-> In p (mc_parents o)).
Proof. intros H. split; [intros (o' & H1 & H2); rewrite (at_fun _ _ _ _ H H1); exact H2|intros K; exists o; auto]. Qed.

Lemma add_parent_extends d p l l' : add_parent d p l = Ok l' ->
  extends (fun p' d' => p' = p /\ d' = d) l l' /\ 0 <= d < Zlen l /\ (mirrored l -> 0 <= p < Zlen l).
Proof.
  unfold add_parent. destruct (part_cases l d) as [(o & -> & Ho)|[-> _]]; [|discriminate]. cbn [bind].
  destruct (existsb (Z.eqb p) (mc_parents o)) eqn:E.
  - intros H. injection H as <-. apply existsb_in in E. split; [|split; [exact (at_range _ _ _ Ho)|intros [_ M]; exact (M d o p Ho (or_introl E))]].
    apply extends_nothing. intros p' d' [-> ->]. exists o. auto.
  - destruct (part_cases l p) as [(op & -> & Hop)|[-> _]]; [|discriminate]. cbn [bind]. intros H. injection H as <-.
    pose proof (at_range _ _ _ Ho) as Rd. pose proof (at_range _ _ _ Hop) as Rp. split; [|split; [exact Rd|intros _; exact Rp]].
    split; [rewrite !change_length; reflexivity|]. split; [|split].
    + intros [M1 M2]. assert (Z0 : times p (mc_parents o) = 0%nat).
      { destruct (times p (mc_parents o)) eqn:T; [reflexivity|]. exfalso. assert (In p (mc_parents o)) as K by (apply times_in; lia). apply existsb_in in K. congruence. }
      split.
      * intros i j oi oj Hi Hj. apply grown_at in Hi; [|lia..]. apply grown_at in Hj; [|lia..]. destruct Hi as (oi0 & Hi & ->). destruct Hj as (oj0 & Hj & ->).
        rewrite grown_parents, grown_daughters. destruct (M1 i j oi0 oj0 Hi Hj) as [K1 K2].
        destruct (i =? d) eqn:Ei, (j =? p) eqn:Ej; rewrite ?times_app.
        -- replace i with d in * by lia. replace j with p in * by lia. rewrite (at_fun _ _ _ _ Hi Ho) in *. rewrite !Z.eqb_refl. lia.
        -- replace (j =? p) with false by lia. lia.
        -- replace (i =? d) with false by lia. lia.
        -- lia.
      * intros i oi x Hi Hx. apply grown_at in Hi; [|lia..]. destruct Hi as (oi0 & Hi & ->). rewrite grown_parents, grown_daughters in Hx.
        assert (EL : Zlen (change (Z.to_nat p) (more_daughters d) (change (Z.to_nat d) (more_parents p) l)) = Zlen l) by (unfold Zlen; rewrite !change_length; reflexivity).
        rewrite EL. destruct Hx as [Hx|Hx].
        -- destruct (i =? d); [apply in_app_iff in Hx; destruct Hx as [Hx|[<-|[]]]; [|lia]|]; exact (M2 i oi0 x Hi (or_introl Hx)).
        -- destruct (i =? p); [apply in_app_iff in Hx; destruct Hx as [Hx|[<-|[]]]; [|lia]|]; exact (M2 i oi0 x Hi (or_intror Hx)).
    + intros p' d'. unfold linked. split.
      * intros (o' & H1 & H2). apply grown_at in H1; [|lia..]. destruct H1 as (o0 & H1 & ->). rewrite grown_parents in H2.
        destruct (d' =? d) eqn:Ed; [apply in_app_iff in H2; destruct H2 as [H2|[<-|[]]]|]; [left; exists o0; auto|right; lia|left; exists o0; auto].
      * intros [(o0 & H1 & H2)|[-> ->]].
        -- exists (grown d p d' o0). split; [apply grown_at; [lia..|exists o0; auto]|]. rewrite grown_parents. destruct (d' =? d); [apply in_app_iff; left|]; exact H2.
        -- exists (grown d p d o). split; [apply grown_at; [lia..|exists o; auto]|]. rewrite grown_parents, Z.eqb_refl. apply in_app_iff. right. left. reflexivity.
    + intros i o' H1. apply grown_at in H1; [|lia..]. destruct H1 as (o0 & H1 & ->). exists o0. split; [exact H1|apply grown_alone].
Qed.
Lemma add_parent_ok d p l : 0 <= d < Zlen l -> 0 <= p < Zlen l -> exists l', add_parent d p l = Ok l'.
Proof.
  intros Hd Hp. unfold add_parent. destruct (part_cases l d) as [(o & -> & Ho)|[_ K]]; [|contradiction]. cbn [bind].
  destruct (existsb _ _); [eexists; reflexivity|]. destruct (part_cases l p) as [(op & -> & Hop)|[_ K]]; [|contradiction]. cbn [bind]. eexists. reflexivity.
Qed.

(** ** The loops *)

Lemma link_daughter_extends p d l l' : link_daughter p d l = Ok l' -> extends (fun p' d' => p' = p /\ d' = d) l l'.
Proof.
  unfold link_daughter. destruct (part_cases l d) as [(o & -> & Ho)|[-> _]]; [|discriminate]. cbn [bind]. destruct (existsb _ _) eqn:E.
  - intros H. injection H as <-. apply existsb_in in E. apply extends_nothing. intros p' d' [-> ->]. exists o. auto.
  - intros H. exact (proj1 (add_parent_extends _ _ _ _ H)).
Qed.
Lemma link_range_extends p n : forall d l l', link_range p d n l = Ok l' -> extends (fun p' d' => p' = p /\ d <= d' < d + Z.of_nat n) l l'.
Proof.
  induction n as [|n IH]; intros d l l'; cbn [link_range].
  - intros H. injection H as <-. apply extends_nothing. intros p' d' [_ K]. lia.
  - destruct (link_daughter p d l) as [l1| |] eqn:E; [|discriminate..]. cbn [bind]. intros H.
    eapply extends_trans; [exact (link_daughter_extends _ _ _ _ E)|exact (IH _ _ _ H)|]. intros p' d'. cbn beta. lia.
Qed.
Lemma elem_entry a k i j : 0 <= k * i + j -> forall v, elem a (k * i + j) = Ok v -> v = entry a k i j.
Proof. intros H v. unfold elem, entry. destruct a; [|discriminate]. destruct (_ && _); [|discriminate]. intros K. injection K as <-. reflexivity. Qed.
Lemma elem_entry0 a k i : 0 <= k * i -> forall v, elem a (k * i) = Ok v -> v = entry a k i 0.
Proof. intros H v K. rewrite <- (Z.add_0_r (k * i)) in K. apply elem_entry in K; [exact K|lia]. Qed.
Lemma has_elem a k n i j : has a (k * n) -> 0 < k -> 0 <= i < n -> 0 <= j < k -> elem a (k * i + j) = Ok (entry a k i j).
Proof.
  intros (l & -> & H) Hk Hi Hj. unfold elem, entry. replace ((0 <=? k * i + j) && (k * i + j <? Zlen l)) with true; [reflexivity|]. symmetry. nia.
Qed.
Lemma has_elem0 a k n i : has a (k * n) -> 0 < k -> 0 <= i < n -> elem a (k * i) = Ok (entry a k i 0).
Proof. intros. rewrite <- (Z.add_0_r (k * i)). eapply has_elem; eauto. lia. Qed.

Lemma link_daughters_extends e i l l' : 0 <= i -> link_daughters e i l = Ok l' -> extends (fun p d => p = i /\ declared e i d) l l'.
Proof.
  intros Hi. unfold link_daughters. destruct (elem (he_da e) (2 * i)) as [d1| |] eqn:E1; [|discriminate..]. destruct (elem (he_da e) (2 * i + 1)) as [d2| |] eqn:E2; [|discriminate..].
  apply elem_entry0 in E1; [|lia]. apply elem_entry in E2; [|lia]. subst d1 d2. cbn [bind]. fold (first_daughter e i) (last_daughter e i).
  set (f := first_daughter e i). set (k := last_daughter e i).
  assert (EX : forall R R' la lb, (forall p d, R p d <-> R' p d) -> extends R la lb -> extends R' la lb).
  { intros R R' la lb HR (A & B & C & D). split; [exact A|]. split; [exact B|]. split; [|exact D]. intros p d. rewrite C, HR. tauto. }
  assert (DD : forall d, declared e i d <-> ((0 <= f /\ f <= d <= k) \/ (0 <= k < f /\ (d = f \/ d = k)) \/ (0 <= f < he_n e /\ k < 0 /\ d = f))) by (intros; reflexivity).
  destruct ((-1 <? f) && (-1 <? k)) eqn:B1; [destruct (f <=? k) eqn:B2|destruct (-1 <? f) eqn:B2; [destruct (f <? he_n e) eqn:B3|]].
  - intros H. eapply EX; [|exact (link_range_extends _ _ _ _ _ H)]. intros p d. cbn beta. rewrite DD. lia.
  - destruct (link_daughter i f l) as [l1| |] eqn:E; [|discriminate..]. cbn [bind]. intros H.
    eapply extends_trans; [exact (link_daughter_extends _ _ _ _ E)|exact (link_daughter_extends _ _ _ _ H)|]. intros p d. cbn beta. rewrite DD. lia.
  - intros H. eapply EX; [|exact (link_daughter_extends _ _ _ _ H)]. intros p d. cbn beta. rewrite DD. lia.
  - intros H. injection H as <-. apply extends_nothing. intros p d [_ K]. rewrite DD in K. lia.
  - intros H. injection H as <-. apply extends_nothing. intros p d [_ K]. rewrite DD in K. lia.
Qed.
Lemma link_mother_extends d p l l' : mirrored l -> 0 <= d < Zlen l -> link_mother d p l = Ok l' -> extends (fun p' d' => p' = p /\ d' = d) l l'.
Proof.
  intros [M _] Hd. unfold link_mother. destruct (part_cases l p) as [(o & -> & Ho)|[-> _]]; [|discriminate]. cbn [bind]. destruct (existsb _ _) eqn:E.
  - intros H. injection H as <-. apply existsb_in in E. apply extends_nothing. intros p' d' [-> ->]. destruct (at_exists l d Hd) as (od & Hod).
    exists od. split; [exact Hod|]. apply times_in. rewrite (proj1 (M d p od o Hod Ho)). apply times_in. exact E.
  - intros H. exact (proj1 (add_parent_extends _ _ _ _ H)).
Qed.
Lemma extends_len R l l' : extends R l l' -> Zlen l' = Zlen l.
Proof. intros (H & _). unfold Zlen. lia. Qed.
Lemma link_mothers_from_extends d last f : forall p l l', mirrored l -> 0 <= d < Zlen l -> link_mothers_from f d p last l = Ok l' ->
  extends (fun p' d' => d' = d /\ p <= p' <= last) l l'.
Proof.
  induction f as [|f IH]; intros p l l' M Hd; cbn [link_mothers_from]; destruct (last <? p) eqn:B.
  1, 3: intros H; injection H as <-; apply extends_nothing; intros p' d' [_ K]; lia.
  - discriminate.
  - destruct (link_mother d p l) as [l1| |] eqn:E; [|discriminate..]. cbn [bind]. intros H. pose proof (link_mother_extends _ _ _ _ M Hd E) as X.
    eapply extends_trans; [exact X|apply (IH _ _ _ (proj1 (proj2 X) M) ltac:(rewrite (extends_len _ _ _ X); exact Hd) H)|]. intros p' d'. cbn beta. lia.
Qed.
Lemma link_mothers_extends e i l l' : mirrored l -> 0 <= i < Zlen l -> link_mothers e i l = Ok l' -> extends (fun p d => d = i /\ mother e i p) l l'.
Proof.
  intros M Hi. unfold link_mothers. destruct (elem (he_mo e) (2 * i)) as [d1| |] eqn:E1; [|discriminate..]. destruct (elem (he_mo e) (2 * i + 1)) as [d2| |] eqn:E2; [|discriminate..].
  apply elem_entry0 in E1; [|lia]. apply elem_entry in E2; [|lia]. subst d1 d2. cbn [bind]. fold (first_mother e i) (last_mother e i).
  set (f := first_mother e i). set (k := last_mother e i).
  assert (DD : forall p, mother e i p <-> ((0 < f /\ k = -1 /\ p = f) \/ (0 <= f /\ f <= p <= k))) by (intros; reflexivity).
  assert (EX : forall R R' la lb, (forall p d, R p d <-> R' p d) -> extends R la lb -> extends R' la lb).
  { intros R R' la lb HR (A & B & C & D). split; [exact A|]. split; [exact B|]. split; [|exact D]. intros p d. rewrite C, HR. tauto. }
  destruct ((0 <? f) && (k =? -1)) eqn:B1; [|destruct ((-1 <? f) && (-1 <? k)) eqn:B2].
  - intros H. eapply EX; [|exact (link_mother_extends _ _ _ _ M Hi H)]. intros p d. cbn beta. rewrite DD. lia.
  - intros H. eapply EX; [|exact (link_mothers_from_extends _ _ _ _ _ _ M Hi H)]. intros p d. cbn beta. rewrite DD. lia.
  - intros H. injection H as <-. apply extends_nothing. intros p d [_ K]. rewrite DD in K. lia.
Qed.
Lemma each_extends (f : Z -> parts -> Res parts) (R : Z -> Z -> Z -> Prop) n : (forall i l l', mirrored l -> 0 <= i < Zlen l -> f i l = Ok l' -> extends (R i) l l') ->
  forall i l l', mirrored l -> 0 <= i -> i + Z.of_nat n <= Zlen l -> each f n i l = Ok l' -> extends (fun p d => exists j, i <= j < i + Z.of_nat n /\ R j p d) l l'.
Proof.
  intros Hf. induction n as [|n IH]; intros i l l' M Hi Hn; cbn [each].
  - intros H. injection H as <-. apply extends_nothing. intros p d (j & Hj & _). lia.
  - destruct (f i l) as [l1| |] eqn:E; [|discriminate..]. cbn [bind]. intros H. pose proof (Hf i l l1 M ltac:(lia) E) as X. pose proof (extends_len _ _ _ X) as EL.
    eapply extends_trans; [exact X|apply (IH (i + 1) l1 l' (proj1 (proj2 X) M) ltac:(lia) ltac:(lia) H)|]. intros p d. split.
    + intros (j & Hj & K). destruct (Z.eq_dec j i) as [->|]; [left; exact K|right; exists j; split; [lia|exact K]].
    + intros [K|(j & Hj & K)]; [exists i|exists j]; (split; [lia|exact K]).
Qed.

(** ** Repairs *)

(** the links that may be added to repair a decay, in the collection [l] *)
Definition may_repair (e : hev) (l : parts) (p d : Z) : Prop :=
  exists od op, at_ l d od /\ at_ l p op /\ mc_pdg od = 94 /\ mc_gen op = 2 /\ mc_daughters op = [] /\ Z.rem (entry (he_mo e) 2 d 0) 10000 - 1 <= p < d.
(** some of the links in [R] are added *)
Definition extended (R : Z -> Z -> Prop) (l l' : parts) : Prop := exists R' : Z -> Z -> Prop, (forall p d, R' p d -> R p d) /\ extends R' l l'.
Lemma extended_refl R l : extended R l l.
Proof. exists (fun _ _ => False). split; [intros p d []|]. apply extends_nothing. intros p d []. Qed.

(** a particle that was there before has the same attributes, and it has daughters if it had them *)
Lemma extends_back R l l' i o : extends R l l' -> at_ l' i o -> exists o0, at_ l i o0 /\ alone o = alone o0.
Proof. intros (_ & _ & _ & H). apply H. Qed.
Lemma no_daughters l i o : mirrored l -> at_ l i o -> (mc_daughters o = [] <-> forall d, ~ linked l i d).
Proof.
  intros [M1 M2] Ho. split.
  - intros H d (od & Hd & K). apply times_in in K. rewrite (proj1 (M1 d i od o Hd Ho)) in K. apply times_in in K. rewrite H in K. exact K.
  - intros H. destruct (mc_daughters o) as [|d l0] eqn:E; [reflexivity|]. exfalso. assert (Kin : In d (mc_daughters o)) by (rewrite E; left; reflexivity).
    destruct (at_exists l d (M2 i o d Ho (or_intror Kin))) as (od & Hd). apply (H d). exists od. split; [exact Hd|]. apply times_in. rewrite (proj1 (M1 d i od o Hd Ho)). apply times_in. exact Kin.
Qed.
Lemma may_repair_back e l l' p d R : mirrored l -> extends R l l' -> may_repair e l' p d -> may_repair e l p d.
Proof.
  intros M X (od & op & Hd & Hp & A1 & A2 & A3 & A4). destruct (extends_back _ _ _ _ _ X Hd) as (od0 & Hd0 & Ed). destruct (extends_back _ _ _ _ _ X Hp) as (op0 & Hp0 & Ep).
  exists od0, op0. split; [exact Hd0|]. split; [exact Hp0|]. split; [apply (f_equal mc_pdg) in Ed; cbn in Ed; congruence|]. split; [apply (f_equal mc_gen) in Ep; cbn in Ep; congruence|]. split; [|exact A4].
  apply (no_daughters l p op0 M Hp0). intros x Kx. destruct X as (_ & XM & XL & _). apply (proj1 (no_daughters l' p op (XM M) Hp) A3 x). apply XL. left. exact Kx.
Qed.
Lemma extended_trans e l1 l2 l3 : mirrored l1 -> extended (may_repair e l1) l1 l2 -> extended (may_repair e l2) l2 l3 -> extended (may_repair e l1) l1 l3.
Proof.
  intros M (R1 & H1 & X1) (R2 & H2 & X2). exists (fun p d => R1 p d \/ R2 p d). split.
  - intros p d [K|K]; [exact (H1 p d K)|]. exact (may_repair_back e l1 l2 p d R1 M X1 (H2 p d K)).
  - eapply extends_trans; [exact X1|exact X2|]. intros p d. reflexivity.
Qed.
Lemma extended_mirrored R l l' : mirrored l -> extended R l l' -> mirrored l' /\ Zlen l' = Zlen l.
Proof. intros M (R' & _ & X). split; [exact (proj1 (proj2 X) M)|exact (extends_len _ _ _ X)]. Qed.

Lemma repair_from_extended e i outn f : forall k nic l nic' l' , mirrored l -> (exists o, at_ l i o /\ mc_pdg o = 94) -> Z.rem (entry (he_mo e) 2 i 0) 10000 - 1 <= k ->
  repair_from f k i outn nic l = Ok (nic', l') -> k <= i /\ extended (may_repair e l) l l'.
Proof.
  induction f as [|f IH]; intros k nic l nic' l' M (oi & Hoi & H94) Hk; cbn [repair_from]; destruct (i =? k) eqn:B.
  1, 3: intros H; injection H as <- <-; split; [lia|apply extended_refl].
  - discriminate.
  - destruct (part_cases l k) as [(o & -> & Ho)|[-> _]]; [|discriminate]. cbn [bind]. destruct (part_cases l i) as [(oi' & -> & Hoi')|[-> _]]; [|discriminate]. cbn [bind].
    destruct ((mc_gen o =? 2) && _ && _) eqn:C.
    + destruct (add_parent i k l) as [l1| |] eqn:E; [|discriminate..]. cbn [bind]. intros H. destruct (add_parent_extends _ _ _ _ E) as (X & _ & _).
      destruct (IH (k + 1) (nic - 1) l1 nic' l' (proj1 (proj2 X) M)) as [Hle X2]; [|lia|exact H|].
      { destruct (at_exists l1 i ltac:(rewrite (extends_len _ _ _ X); exact (at_range _ _ _ Hoi))) as (o1 & Ho1). exists o1. split; [exact Ho1|].
        destruct (extends_back _ _ _ _ _ X Ho1) as (o2 & Ho2 & Ea). rewrite (at_fun _ _ _ _ Ho2 Hoi) in Ea. apply (f_equal mc_pdg) in Ea. cbn in Ea. congruence. }
      split; [lia|]. eapply extended_trans; [exact M| |exact X2]. exists (fun p d => p = k /\ d = i). split; [|exact X].
      intros p d [-> ->]. exists oi, o. split; [exact Hoi|]. split; [exact Ho|]. split; [exact H94|]. destruct (mc_daughters o); [|rewrite andb_false_r in C; discriminate C]. split; [lia|]. split; [reflexivity|lia].
    + intros H. destruct (IH (k + 1) nic l nic' l' M ltac:(exists oi; auto) ltac:(lia) H) as [Hle X2]. split; [lia|exact X2].
Qed.
Lemma repair_extended e i nic l nic' l' : mirrored l -> 0 <= i -> repair e i nic l = Ok (nic', l') -> extended (may_repair e l) l l'.
Proof.
  intros M Hi. unfold repair. destruct (part_cases l i) as [(o & -> & Ho)|[-> _]]; [|discriminate]. cbn [bind].
  destruct ((0 <? _) && (mc_pdg o =? 94)) eqn:C; [|intros H; injection H as <- <-; apply extended_refl].
  destruct (elem (he_mo e) (2 * i)) as [m1| |] eqn:E1; [|discriminate..]. destruct (elem (he_da e) (2 * i)) as [d1| |] eqn:E2; [|discriminate..].
  destruct (elem (he_da e) (2 * i + 1)) as [d2| |] eqn:E3; [|discriminate..]. cbn [bind]. apply elem_entry0 in E1; [|lia]. subst m1. intros H.
  refine (proj2 (repair_from_extended e i _ _ _ _ _ _ _ M _ _ H)); [exists o; split; [exact Ho|lia]|lia].
Qed.
Lemma repair_all_extended e n : forall i nic l l', mirrored l -> 0 <= i -> repair_all e n i nic l = Ok l' -> extended (may_repair e l) l l'.
Proof.
  induction n as [|n IH]; intros i nic l l' M Hi; cbn [repair_all]; [intros H; injection H as <-; apply extended_refl|].
  destruct (repair e i nic l) as [[nic1 l1]| |] eqn:E; [|discriminate..]. cbn [bind]. intros H. pose proof (repair_extended _ _ _ _ _ _ M Hi E) as X.
  eapply extended_trans; [exact M|exact X|]. refine (IH (i + 1) _ _ _ (proj1 (extended_mirrored _ _ _ M X)) _ H). lia.
Qed.

(** ** All links *)

(** the particles before they are linked *)
Definition unlinked (l : parts) : Prop := forall i o, at_ l i o -> mc_parents o = [] /\ mc_daughters o = [].
Lemma unlinked_mirrored l : unlinked l -> mirrored l /\ forall p d, ~ linked l p d.
Proof.
  intros H. split; [split|].
  - intros d p od op Hd Hp. rewrite (proj1 (H d od Hd)), (proj2 (H p op Hp)). cbn. lia.
  - intros i o x Ho Hx. destruct (H i o Ho) as [E1 E2]. rewrite E1, E2 in Hx. destruct Hx as [[]|[]].
  - intros p d (o & Ho & K). rewrite (proj1 (H d o Ho)) in K. exact K.
Qed.
Theorem link_all_spec e l l' : unlinked l -> link_all e l = Ok l' ->
  mirrored l' /\ length l' = length l /\ (forall i o, at_ l' i o -> exists o0, at_ l i o0 /\ alone o = alone o0) /\
  (forall p d, 0 <= p < Zlen l -> declared e p d -> linked l' p d) /\
  (forall p d, 0 <= d < Zlen l -> mother e d p -> linked l' p d) /\
  (forall p d, linked l' p d -> 0 <= p < Zlen l /\ 0 <= d < Zlen l /\
     (declared e p d \/ mother e d p \/
      exists op od, at_ l p op /\ at_ l d od /\ mc_pdg od = 94 /\ mc_gen op = 2 /\ Z.rem (entry (he_mo e) 2 d 0) 10000 - 1 <= p < d /\ forall x, ~ declared e p x)).
Proof.
  intros U. destruct (unlinked_mirrored l U) as [M N]. unfold link_all.
  destruct (each (link_daughters e) (length l) 0 l) as [l1| |] eqn:E1; [|discriminate..]. cbn [bind].
  destruct (repair_all e (length l) 0 0 l1) as [l2| |] eqn:E2; [|discriminate..]. cbn [bind]. intros E3.
  pose proof (each_extends (link_daughters e) (fun i p d => p = i /\ declared e i d) (length l)
    ltac:(intros i la lb _ Hi H; exact (link_daughters_extends e i la lb (proj1 Hi) H)) 0 l l1 M ltac:(lia) ltac:(unfold Zlen; lia) E1) as X1.
  pose proof (proj1 (proj2 X1) M) as M1. pose proof (extends_len _ _ _ X1) as L1.
  pose proof (repair_all_extended e (length l) 0 0 l1 l2 M1 ltac:(lia) E2) as X2. destruct (extended_mirrored _ _ _ M1 X2) as [M2 L2]. destruct X2 as (R2 & HR2 & X2).
  pose proof (each_extends (link_mothers e) (fun i p d => d = i /\ mother e i p) (length l)
    ltac:(intros i la lb Ma Hi H; exact (link_mothers_extends e i la lb Ma Hi H)) 0 l2 l' M2 ltac:(lia) ltac:(unfold Zlen in *; lia) E3) as X3.
  pose proof (proj1 (proj2 X3) M2) as M3. pose proof (extends_len _ _ _ X3) as L3.
  destruct X1 as (A1 & _ & A3 & A4). destruct X2 as (B1 & _ & B3 & B4). destruct X3 as (C1 & _ & C3 & C4).
  split; [exact M3|]. split; [congruence|]. split; [|split; [|split]].
  - intros i o Ho. destruct (C4 i o Ho) as (o2 & H2 & Q2). destruct (B4 i o2 H2) as (o1 & H1 & Q1). destruct (A4 i o1 H1) as (o0 & H0 & Q0). exists o0. split; [exact H0|congruence].
  - intros p d Hp Hd. apply C3. left. apply B3. left. apply A3. right. exists p. split; [unfold Zlen in Hp; lia|]. split; [reflexivity|exact Hd].
  - intros p d Hd Hm. apply C3. right. exists d. split; [unfold Zlen in Hd; lia|]. split; [reflexivity|exact Hm].
  - intros p d K. assert (0 <= p < Zlen l /\ 0 <= d < Zlen l) as [Hp Hd].
    { destruct K as (o & Ho & K). pose proof (at_range _ _ _ Ho). pose proof (proj2 M3 d o p Ho (or_introl K)). unfold Zlen in *. lia. }
    split; [exact Hp|]. split; [exact Hd|]. apply C3 in K. destruct K as [K|(j & _ & -> & K)]; [|right; left; exact K].
    apply B3 in K. destruct K as [K|K].
    + apply A3 in K. destruct K as [K|(j & _ & -> & K)]; [destruct (N p d K)|left; exact K].
    + right. right. apply HR2 in K. destruct K as (od & op & Hod & Hop & K1 & K2 & K3 & K4).
      destruct (A4 d od Hod) as (od0 & Hod0 & Qd). destruct (A4 p op Hop) as (op0 & Hop0 & Qp). exists op0, od0. split; [exact Hop0|]. split; [exact Hod0|].
      split; [apply (f_equal mc_pdg) in Qd; cbn in Qd; congruence|]. split; [apply (f_equal mc_gen) in Qp; cbn in Qp; congruence|]. split; [exact K4|].
      intros x Kx. apply (proj1 (no_daughters l1 p op M1 Hop) K3 x). apply A3. right. exists p. split; [unfold Zlen in Hp; lia|]. split; [reflexivity|exact Kx].
Qed.

(** ** The attributes *)

Section Particles.
Context (third in_time : Z -> Z).

Lemma make_particle_spec e i o : 0 <= i -> make_particle third in_time e i = Ok o -> attributes_of third in_time e i o /\ mc_parents o = [] /\ mc_daughters o = [].
Proof.
  intros Hi. unfold make_particle.
  destruct (elem (he_id e) i) as [pid| |] eqn:E0; [|discriminate..]. cbn [bind]. destruct (three_charge (s32 pid)) as [c| |] eqn:Ec; [|discriminate..]. cbn [bind].
  destruct (elem (he_p e) (5 * i)) as [px| |] eqn:E1; [|discriminate..]. destruct (elem (he_p e) (5 * i + 1)) as [py| |] eqn:E2; [|discriminate..].
  destruct (elem (he_p e) (5 * i + 2)) as [pz| |] eqn:E3; [|discriminate..]. destruct (elem (he_p e) (5 * i + 4)) as [m| |] eqn:E4; [|discriminate..].
  destruct (elem (he_v e) (4 * i)) as [vx| |] eqn:E5; [|discriminate..]. destruct (elem (he_v e) (4 * i + 1)) as [vy| |] eqn:E6; [|discriminate..].
  destruct (elem (he_v e) (4 * i + 2)) as [vz| |] eqn:E7; [|discriminate..]. destruct (elem (he_ist e) i) as [st| |] eqn:E8; [|discriminate..].
  destruct (elem (he_v e) (4 * i + 3)) as [t| |] eqn:E9; [|discriminate..]. cbn [bind].
  assert (ID : forall a v, elem a i = Ok v -> v = entry a 1 i 0) by (intros a v H; replace i with (1 * i) in H by lia; apply elem_entry0 in H; [exact H|lia]).
  apply ID in E0. apply ID in E8. apply elem_entry0 in E1; [|lia]. apply elem_entry in E2; [|lia]. apply elem_entry in E3; [|lia]. apply elem_entry in E4; [|lia].
  apply elem_entry0 in E5; [|lia]. apply elem_entry in E6; [|lia]. apply elem_entry in E7; [|lia]. apply elem_entry in E9; [|lia]. subst.
  assert (G : forall spin color, mkMC [] (s32 (entry (he_id e) 1 i 0)) (s32 (entry (he_ist e) 1 i 0)) 0 [entry (he_v e) 4 i 0; entry (he_v e) 4 i 1; entry (he_v e) 4 i 2] (in_time (entry (he_v e) 4 i 3))
            [f2d (d2f (entry (he_p e) 5 i 0)); f2d (d2f (entry (he_p e) 5 i 1)); f2d (d2f (entry (he_p e) 5 i 2))] (f2d (d2f (entry (he_p e) 5 i 4))) (third c)
            [0; 0; 0] [0; 0; 0] spin color [] = o ->
      match he_scale e with
      | None => spin = [0; 0; 0] /\ color = [0; 0]
      | Some _ => spin = map (fun j => d2f (entry (he_spin e) 3 i j)) [0; 1; 2] /\ color = map (fun j => s32 (entry (he_color e) 2 i j)) [0; 1]
      end -> attributes_of third in_time e i o /\ mc_parents o = [] /\ mc_daughters o = []).
  { intros spin color <- H. split; [|split; reflexivity]. unfold attributes_of. cbn [mc_pdg mc_gen mc_sim mc_p mc_mass mc_vertex mc_time mc_charge mc_endpoint mc_pend mc_spin mc_color map].
    split; [reflexivity|]. split; [reflexivity|]. split; [reflexivity|]. split; [reflexivity|]. split; [reflexivity|]. split; [reflexivity|]. split; [reflexivity|].
    split; [exists c; split; [exact Ec|reflexivity]|]. split; [reflexivity|]. split; [reflexivity|]. destruct (he_scale e); exact H. }
  destruct (he_scale e) as [sc|].
  - destruct (elem (he_spin e) (3 * i)) as [sx| |] eqn:F1; [|discriminate..]. destruct (elem (he_spin e) (3 * i + 1)) as [sy| |] eqn:F2; [|discriminate..].
    destruct (elem (he_spin e) (3 * i + 2)) as [sz| |] eqn:F3; [|discriminate..]. destruct (elem (he_color e) (2 * i)) as [c0| |] eqn:F4; [|discriminate..].
    destruct (elem (he_color e) (2 * i + 1)) as [c1| |] eqn:F5; [|discriminate..]. cbn [bind].
    apply elem_entry0 in F1; [|lia]. apply elem_entry in F2; [|lia]. apply elem_entry in F3; [|lia]. apply elem_entry0 in F4; [|lia]. apply elem_entry in F5; [|lia]. subst.
    intros H. injection H as H. apply (G _ _ H). split; reflexivity.
  - cbn [bind]. intros H. injection H as H. apply (G _ _ H). split; reflexivity.
Qed.
Lemma make_particles_spec e n : forall i l, 0 <= i -> make_particles third in_time e n i = Ok l ->
  length l = n /\ forall k o, nth_error l k = Some o -> attributes_of third in_time e (i + Z.of_nat k) o /\ mc_parents o = [] /\ mc_daughters o = [].
Proof.
  induction n as [|n IH]; intros i l Hi; cbn [make_particles].
  - intros H. injection H as <-. split; [reflexivity|]. intros [|k] o; discriminate.
  - destruct (make_particle third in_time e i) as [p| |] eqn:E; [|discriminate..]. cbn [bind]. destruct (make_particles third in_time e n (i + 1)) as [l1| |] eqn:E1; [|discriminate..]. cbn [bind].
    intros H. injection H as <-. destruct (IH (i + 1) l1 ltac:(lia) E1) as [L K]. split; [cbn [length]; congruence|]. intros [|k] o; cbn [nth_error].
    + intros H. injection H as <-. replace (i + Z.of_nat 0) with i by lia. apply make_particle_spec; assumption.
    + intros H. replace (i + Z.of_nat (S k)) with (i + 1 + Z.of_nat k) by lia. apply K. exact H.
Qed.
Lemma attributes_alone e i o o0 : alone o = alone o0 -> attributes_of third in_time e i o0 -> attributes_of third in_time e i o.
Proof.
  unfold alone. intros H. injection H as H1 H2 H3 H4 H5 H6 H7 H8 H9 H10 H11 H12. unfold attributes_of. rewrite H1, H2, H3, H4, H5, H6, H7, H8, H9, H10, H11, H12. auto.
Qed.
Theorem particles_spec e l : particles third in_time e = Ok l ->
  Zlen l = he_n e /\ mirrored l /\
  (forall i o, at_ l i o -> attributes_of third in_time e i o) /\
  (forall p d, 0 <= p < he_n e -> declared e p d -> linked l p d) /\
  (forall p d, 0 <= d < he_n e -> mother e d p -> linked l p d) /\
  (forall p d, linked l p d -> 0 <= p < he_n e /\ 0 <= d < he_n e /\ (declared e p d \/ mother e d p \/ repairs e p d)).
Proof.
  unfold particles. destruct (he_n e <? 0) eqn:B; [discriminate|]. destruct (make_particles third in_time e (Z.to_nat (he_n e)) 0) as [l0| |] eqn:E; [|discriminate..]. cbn [bind]. intros H.
  destruct (make_particles_spec e _ 0 l0 ltac:(lia) E) as [L K].
  assert (A : forall i o, at_ l0 i o -> attributes_of third in_time e i o /\ mc_parents o = [] /\ mc_daughters o = []).
  { intros i o [Hi Ho]. specialize (K _ _ Ho). replace (0 + Z.of_nat (Z.to_nat i)) with i in K by lia. exact K. }
  assert (U : unlinked l0) by (intros i o Ho; exact (proj2 (A i o Ho))).
  destruct (link_all_spec e l0 l U H) as (M & L' & P1 & P2 & P3 & P4). assert (EL : Zlen l0 = he_n e) by (unfold Zlen; lia). rewrite EL in *.
  split; [unfold Zlen in *; lia|]. split; [exact M|]. split; [|split; [exact P2|split; [exact P3|]]].
  - intros i o Ho. destruct (P1 i o Ho) as (o0 & H0 & Q). exact (attributes_alone e i o o0 Q (proj1 (A i o0 H0))).
  - intros p d Hl. destruct (P4 p d Hl) as (Hp & Hd & Hc). split; [exact Hp|]. split; [exact Hd|]. destruct Hc as [Hc|[Hc|(op & od & K1 & K2 & K3 & K4 & K5 & K6)]]; [auto|auto|]. right. right.
    split; [rewrite <- (proj1 (proj1 (A d od K2))); exact K3|]. split; [rewrite <- (proj1 (proj2 (proj1 (A p op K1)))); exact K4|]. split; [exact K5|]. intros x _. apply K6.
Qed.

(** ** Records with proper tables are accepted *)

Lemma link_daughter_ok p d l : 0 <= d < Zlen l -> 0 <= p < Zlen l -> exists l', link_daughter p d l = Ok l'.
Proof.
  intros Hd Hp. unfold link_daughter. destruct (part_cases l d) as [(o & -> & _)|[_ K]]; [|contradiction]. cbn [bind]. destruct (existsb _ _); [eexists; reflexivity|]. apply add_parent_ok; assumption.
Qed.
Lemma link_range_ok p n : forall d l, 0 <= d -> d + Z.of_nat n <= Zlen l -> 0 <= p < Zlen l -> exists l', link_range p d n l = Ok l'.
Proof.
  induction n as [|n IH]; intros d l Hd Hn Hp; cbn [link_range]; [eexists; reflexivity|]. destruct (link_daughter_ok p d l ltac:(lia) Hp) as (l1 & E). rewrite E. cbn [bind].
  pose proof (extends_len _ _ _ (link_daughter_extends _ _ _ _ E)) as L. apply IH; lia.
Qed.
Lemma link_mother_ok d p l : 0 <= d < Zlen l -> 0 <= p < Zlen l -> exists l', link_mother d p l = Ok l'.
Proof.
  intros Hd Hp. unfold link_mother. destruct (part_cases l p) as [(o & -> & _)|[_ K]]; [|contradiction]. cbn [bind]. destruct (existsb _ _); [eexists; reflexivity|]. apply add_parent_ok; assumption.
Qed.
Lemma link_mothers_from_ok d last f : forall p l, mirrored l -> 0 <= d < Zlen l -> 0 <= p -> last < Zlen l -> last - p < Z.of_nat f -> exists l', link_mothers_from f d p last l = Ok l'.
Proof.
  induction f as [|f IH]; intros p l M Hd Hp Hl Hf; cbn [link_mothers_from]; destruct (last <? p) eqn:B; try (eexists; reflexivity); [exfalso; lia|].
  destruct (link_mother_ok d p l Hd ltac:(lia)) as (l1 & E). rewrite E. cbn [bind]. pose proof (link_mother_extends _ _ _ _ M Hd E) as X. pose proof (extends_len _ _ _ X).
  apply IH; [exact (proj1 (proj2 X) M)|lia..].
Qed.
Lemma repair_from_ok i outn f : forall k nic l, 0 <= k <= i -> i < Zlen l -> i - k <= Z.of_nat f -> exists x, repair_from f k i outn nic l = Ok x.
Proof.
  induction f as [|f IH]; intros k nic l Hk Hi Hf; cbn [repair_from]; destruct (i =? k) eqn:B; try (eexists; reflexivity); [exfalso; lia|].
  destruct (part_cases l k) as [(o & -> & _)|[_ K]]; [|exfalso; lia]. cbn [bind]. destruct (part_cases l i) as [(oi & -> & _)|[_ K]]; [|exfalso; lia]. cbn [bind].
  destruct (_ && _ && _); [|apply IH; lia]. destruct (add_parent_ok i k l ltac:(lia) ltac:(lia)) as (l1 & E). rewrite E. cbn [bind].
  pose proof (extends_len _ _ _ (proj1 (add_parent_extends _ _ _ _ E))). apply IH; lia.
Qed.
Lemma each_ok (f : Z -> parts -> Res parts) (R : Z -> Z -> Z -> Prop) n N : (forall i l l', mirrored l -> 0 <= i < Zlen l -> f i l = Ok l' -> extends (R i) l l') ->
  (forall i l, mirrored l -> Zlen l = N -> 0 <= i < N -> exists l', f i l = Ok l') ->
  forall i l, mirrored l -> Zlen l = N -> 0 <= i -> i + Z.of_nat n <= N -> exists l', each f n i l = Ok l'.
Proof.
  intros Hf Ho. induction n as [|n IH]; intros i l M L Hi Hn; cbn [each]; [eexists; reflexivity|]. destruct (Ho i l M L ltac:(lia)) as (l1 & E). rewrite E. cbn [bind].
  pose proof (Hf i l l1 M ltac:(lia) E) as X. pose proof (extends_len _ _ _ X). apply IH; [exact (proj1 (proj2 X) M)|lia..].
Qed.
Lemma repair_all_ok e n N : (forall i, 0 <= i < N -> s32 (entry (he_id e) 1 i 0) = 94 -> 0 <= Z.rem (entry (he_mo e) 2 i 0) 10000 - 1 <= i) -> has (he_mo e) (2 * N) -> has (he_da e) (2 * N) ->
  forall i nic l, mirrored l -> Zlen l = N -> 0 <= i -> i + Z.of_nat n <= N -> (forall j o, at_ l j o -> mc_pdg o = s32 (entry (he_id e) 1 j 0)) -> exists l', repair_all e n i nic l = Ok l'.
Proof.
  intros H94 Hmo Hda. induction n as [|n IH]; intros i nic l M L Hi Hn HP; cbn [repair_all]; [eexists; reflexivity|].
  assert (exists x, repair e i nic l = Ok x) as ([nic1 l1] & E).
  { unfold repair. destruct (part_cases l i) as [(o & -> & Ho)|[_ K]]; [|exfalso; lia]. cbn [bind]. destruct (_ && (mc_pdg o =? 94)) eqn:C; [|eexists; reflexivity].
    rewrite (has_elem0 _ _ N _ Hmo), (has_elem0 _ _ N _ Hda), (has_elem _ _ N _ _ Hda) by lia. cbn [bind].
    assert (P94 : s32 (entry (he_id e) 1 i 0) = 94) by (rewrite <- (HP i o Ho); lia). pose proof (H94 i ltac:(lia) P94). apply repair_from_ok; [lia|lia|unfold Zlen in *; lia]. }
  rewrite E. cbn [bind]. pose proof (repair_extended e i nic l nic1 l1 M Hi E) as X. destruct (extended_mirrored _ _ _ M X) as [M1 L1]. apply IH; [exact M1|lia..|].
  intros j o Ho. destruct X as (R' & _ & X). destruct (extends_back _ _ _ _ _ X Ho) as (o0 & H0 & Q). apply (f_equal mc_pdg) in Q. cbn in Q. rewrite Q. apply HP. exact H0.
Qed.
Theorem particles_ok e : tables_ok e -> exists l, particles third in_time e = Ok l.
Proof.
  intros (H0 & Hid & Hist & Hp & Hv & Hmo & Hda & Hsp & Hch & Hlk). unfold particles. replace (he_n e <? 0) with false by lia.
  assert (P : forall n i, 0 <= i -> i + Z.of_nat n <= he_n e -> exists l, make_particles third in_time e n i = Ok l).
  { induction n as [|n IH]; intros i Hi Hn; cbn [make_particles]; [eexists; reflexivity|]. destruct (IH (i + 1) ltac:(lia) ltac:(lia)) as (l1 & E1).
    assert (exists p, make_particle third in_time e i = Ok p) as (p & E).
    { unfold make_particle. assert (ID : forall a, has a (he_n e) -> elem a i = Ok (entry a 1 i 0)).
      { intros a Ha. replace (elem a i) with (elem a (1 * i)) by (f_equal; lia). apply (has_elem0 a 1 (he_n e)); [replace (1 * he_n e) with (he_n e) by lia; exact Ha|lia..]. }
      rewrite (ID _ Hid). cbn [bind]. destruct (Hch i ltac:(lia)) as (c & Ec). rewrite Ec. cbn [bind].
      rewrite (has_elem0 _ _ _ _ Hp), !(has_elem _ _ _ _ _ Hp), (has_elem0 _ _ _ _ Hv), !(has_elem _ _ _ _ _ Hv), (ID _ Hist) by lia. cbn [bind].
      destruct (he_scale e); [|eexists; reflexivity]. destruct Hsp as [Hs|[Hs1 Hs2]]; [discriminate Hs|].
      rewrite (has_elem0 _ _ _ _ Hs1), !(has_elem _ _ _ _ _ Hs1), (has_elem0 _ _ _ _ Hs2), !(has_elem _ _ _ _ _ Hs2) by lia. cbn [bind]. eexists. reflexivity. }
    rewrite E. cbn [bind]. rewrite E1. cbn [bind]. eexists. reflexivity. }
  destruct (P (Z.to_nat (he_n e)) 0 ltac:(lia) ltac:(lia)) as (l0 & E). rewrite E. cbn [bind]. destruct (make_particles_spec e _ 0 l0 ltac:(lia) E) as [L K].
  assert (A : forall i o, at_ l0 i o -> attributes_of third in_time e i o /\ mc_parents o = [] /\ mc_daughters o = []).
  { intros i o [Hi Ho]. specialize (K _ _ Ho). replace (0 + Z.of_nat (Z.to_nat i)) with i in K by lia. exact K. }
  assert (U : unlinked l0) by (intros i o Ho; exact (proj2 (A i o Ho))). destruct (unlinked_mirrored l0 U) as [M _].
  assert (EL : Zlen l0 = he_n e) by (unfold Zlen; lia). unfold link_all.
  assert (F1 : forall i la lb, mirrored la -> 0 <= i < Zlen la -> link_daughters e i la = Ok lb -> extends (fun p d => p = i /\ declared e i d) la lb)
    by (intros i la lb _ Hi H; exact (link_daughters_extends e i la lb (proj1 Hi) H)).
  destruct (each_ok (link_daughters e) _ (length l0) (he_n e) F1) with (i := 0) (l := l0) as (l1 & E1); [|exact M|exact EL|lia|unfold Zlen in EL; lia|].
  { intros i l Ml Ll Hi. unfold link_daughters. rewrite (has_elem0 _ _ _ _ Hda), (has_elem _ _ _ _ _ Hda) by lia. cbn [bind]. fold (first_daughter e i) (last_daughter e i).
    destruct (Hlk i Hi) as (D1 & _). set (f := first_daughter e i) in *. set (k := last_daughter e i) in *.
    destruct ((-1 <? f) && (-1 <? k)) eqn:B1; [destruct (f <=? k) eqn:B2|destruct (-1 <? f) eqn:B2; [destruct (f <? he_n e) eqn:B3|]]; try (eexists; reflexivity).
    - apply link_range_ok; lia.
    - destruct (link_daughter_ok i f l ltac:(lia) ltac:(lia)) as (la & Ea). rewrite Ea. cbn [bind]. pose proof (extends_len _ _ _ (link_daughter_extends _ _ _ _ Ea)). apply link_daughter_ok; lia.
    - apply link_daughter_ok; lia. }
  rewrite E1. cbn [bind]. pose proof (each_extends _ _ (length l0) F1 0 l0 l1 M ltac:(lia) ltac:(unfold Zlen; lia) E1) as X1. pose proof (proj1 (proj2 X1) M) as M1. pose proof (extends_len _ _ _ X1) as L1.
  destruct (repair_all_ok e (length l0) (he_n e)) with (i := 0) (nic := 0) (l := l1) as (l2 & E2); [|exact Hmo|exact Hda|exact M1|lia|lia|unfold Zlen in EL; lia| |].
  { intros i Hi. exact (proj2 (proj2 (proj2 (Hlk i Hi)))). }
  { intros j o Ho. destruct (extends_back _ _ _ _ _ X1 Ho) as (o0 & Ho0 & Q). apply (f_equal mc_pdg) in Q. cbn in Q. rewrite Q. exact (proj1 (proj1 (A j o0 Ho0))). }
  rewrite E2. cbn [bind]. pose proof (repair_all_extended e (length l0) 0 0 l1 l2 M1 ltac:(lia) E2) as X2. destruct (extended_mirrored _ _ _ M1 X2) as [M2 L2].
  apply (each_ok (link_mothers e) (fun i p d => d = i /\ mother e i p) (length l0) (he_n e)); [| |exact M2|lia|lia|unfold Zlen in EL; lia].
  { intros i la lb Ma Hi H. exact (link_mothers_extends e i la lb Ma Hi H). }
  intros i l Ml Ll Hi. unfold link_mothers. rewrite (has_elem0 _ _ _ _ Hmo), (has_elem _ _ _ _ _ Hmo) by lia. cbn [bind]. fold (first_mother e i) (last_mother e i).
  destruct (Hlk i Hi) as (_ & D2 & D3 & _). set (f := first_mother e i) in *. set (k := last_mother e i) in *.
  destruct ((0 <? f) && (k =? -1)) eqn:B1; [apply link_mother_ok; lia|]. destruct ((-1 <? f) && (-1 <? k)) eqn:B2; [|eexists; reflexivity].
  apply link_mothers_from_ok; [exact Ml|unfold Zlen in *; lia..].
Qed.
End Particles.

(** ** The collection that readEvent returns *)

Lemma hep_event_particles third in_time h c h' : hep_event third in_time h = (Ok (Some c), Some h') ->
  particles third in_time (h_evt h') = Ok (cc_parts c) /\ cc_weight c = d2f (he_wgt (h_evt h')) /\ cc_idrup c = (if he_idrup (h_evt h') =? 0 then None else Some (s32 (he_idrup (h_evt h')))).
Proof.
  unfold hep_event. destruct (hep_read h) as [[k h1]| |]; [|discriminate..]. destruct (k =? 0); [|destruct (k =? ENDOFFILE); discriminate].
  destruct (particles third in_time (h_evt h1)) as [l| |] eqn:E; cbn [bind]; [|discriminate..]. intros H. injection H as <- <-. rewrite E. cbn [cc_parts cc_weight cc_idrup]. auto.
Qed.
Lemma hep_event_mirrored third in_time h c h' : hep_event third in_time h = (Ok (Some c), h') -> mirrored (cc_parts c).
Proof.
  intros H. destruct h' as [h'|].
  - destruct (hep_event_particles _ _ _ _ _ H) as [E _]. exact (proj1 (proj2 (particles_spec _ _ _ _ E))).
  - unfold hep_event in H. destruct (hep_read h) as [[k h1]| |]; [|discriminate..]. destruct (k =? 0); [discriminate|destruct (k =? ENDOFFILE); discriminate].
Qed.
Lemma hep_event_links third in_time h c h' : hep_event third in_time h = (Ok (Some c), Some h') ->
  Zlen (cc_parts c) = he_n (h_evt h') /\
  (forall p d, 0 <= p < he_n (h_evt h') -> declared (h_evt h') p d -> linked (cc_parts c) p d) /\
  (forall p d, 0 <= d < he_n (h_evt h') -> mother (h_evt h') d p -> linked (cc_parts c) p d) /\
  (forall p d, linked (cc_parts c) p d -> declared (h_evt h') p d \/ mother (h_evt h') d p \/ repairs (h_evt h') p d).
Proof.
  intros H. destruct (hep_event_particles _ _ _ _ _ H) as [E _]. destruct (particles_spec _ _ _ _ E) as (A & _ & _ & B & C & D). split; [exact A|]. split; [exact B|]. split; [exact C|].
  intros p d K. exact (proj2 (proj2 (D p d K))).
Qed.
Lemma hep_event_attributes third in_time h c h' : hep_event third in_time h = (Ok (Some c), Some h') ->
  (forall i o, at_ (cc_parts c) i o -> attributes_of third in_time (h_evt h') i o) /\
  cc_weight c = d2f (he_wgt (h_evt h')) /\ cc_idrup c = (if he_idrup (h_evt h') =? 0 then None else Some (s32 (he_idrup (h_evt h')))).
Proof.
  intros H. destruct (hep_event_particles _ _ _ _ _ H) as (E & W & U). split; [|auto]. exact (proj1 (proj2 (proj2 (particles_spec _ _ _ _ E)))).
Qed.
