(** * Proofs about printing the daughters *)

From Coq Require Import ZArith List Bool Lia Sorted.
From Verif Require Import Bytes SioModel ObjModel DerivModel TreeOutModel TreeOutSpec.
Import ListNotations.
Open Scope Z_scope.

Section Tree.
Context (h : addr -> option obj).

(** the lines [L], each with the way to its particle *)
Definition lines_for (part : mcp) (mother : Z) (ds : list addr) (index : Z) (L : list (list nat * dline)) : Prop :=
  (NoDup (map fst L) /\ StronglySorted before (map fst L)) /\ (forall p e, way h ds p e -> In p (map fst L)) /\
  (forall k p l, nth_error L k = Some (p, l) -> dl_index l = index + Z.of_nat k) /\
  (forall p l, In (p, l) L -> way h ds p (dl_part l) /\ exists q i, p = q ++ [i] /\
     ((q = [] /\ dl_mother l = mother /\ dl_gen l = mc_gen part /\ dl_sim l = mc_sim part /\ get_endpoint h part = Ok (dl_end l)) \/
      exists l', In (q, l') L /\ dl_mother l = dl_index l' /\ dl_gen l = mc_gen (dl_part l') /\ dl_sim l = mc_sim (dl_part l') /\ get_endpoint h (dl_part l') = Ok (dl_end l))).

Definition down (x : list nat * dline) : list nat * dline := (0%nat :: fst x, snd x).
Definition next_ (p : list nat) : list nat := match p with [] => [] | i :: q => S i :: q end.
Definition beside (x : list nat * dline) : list nat * dline := (next_ (fst x), snd x).

Lemma way_nonempty ds p e : way h ds p e -> p <> [].
Proof. intros []; discriminate. Qed.
Lemma way_beside a ds p e : way h ds p e -> way h (a :: ds) (next_ p) e.
Proof. intros [ds' i b d H1 H2|ds' i b d q e' H1 H2 H3]; cbn [next_]; [apply (way_one h _ (S i) b d)|apply (way_more h _ (S i) b d)]; assumption. Qed.
Lemma next_inj p q : p <> [] -> q <> [] -> next_ p = next_ q -> p = q.
Proof. destruct p, q; intros H1 H2 H; try contradiction. injection H as -> ->. reflexivity. Qed.

Lemma before_next p q : p <> [] -> before p q -> before (next_ p) (next_ q).
Proof. intros N B. inversion B as [i r|i j r r' H|i r r' H]; subst; cbn [next_]; [destruct (N eq_refl)|apply before_head; lia|apply before_tail; exact H]. Qed.

Lemma lines_nil part mother index : lines_for part mother [] index [].
Proof.
  split; [split; constructor|]. split; [|split].
  - intros p e H. inversion H as [? i ? ? H1|? i ? ? ? ? H1]; subst; destruct i; discriminate H1.
  - intros [|k] p l H; discriminate H.
  - intros p l [].
Qed.
Lemma lines_cons part mother a d ds index e L1 L2 : h a = Some (OMC d) -> get_endpoint h part = Ok e ->
  lines_for d index (mc_daughters d) (index + 1) L1 -> lines_for part mother ds (index + 1 + Z.of_nat (length L1)) L2 ->
  lines_for part mother (a :: ds) index (([0%nat], mkDL index mother d (mc_gen part) (mc_sim part) e) :: map down L1 ++ map beside L2).
Proof.
  intros Ha He ((N1 & O1) & C1 & I1 & W1) ((N2 & O2) & C2 & I2 & W2).
  assert (E1 : forall p, In p (map fst L1) -> p <> []).
  { intros p Hp. apply in_map_iff in Hp. destruct Hp as ([q l] & <- & Hq). destruct (W1 q l Hq) as [H _]. exact (way_nonempty _ _ _ H). }
  assert (E2 : forall p, In p (map fst L2) -> p <> []).
  { intros p Hp. apply in_map_iff in Hp. destruct Hp as ([q l] & <- & Hq). destruct (W2 q l Hq) as [H _]. exact (way_nonempty _ _ _ H). }
  assert (M1 : map fst (map down L1) = map (cons 0%nat) (map fst L1)) by (rewrite !map_map; reflexivity).
  assert (M2 : map fst (map beside L2) = map next_ (map fst L2)) by (rewrite !map_map; reflexivity).
  split; [split|split; [|split]].
  - cbn [map fst]. rewrite map_app, M1, M2. constructor.
    + intros H. apply in_app_or in H. destruct H as [H|H]; apply in_map_iff in H; destruct H as (p & E & Hp).
      * injection E as ->. exact (E1 [] Hp eq_refl).
      * destruct p; [exact (E2 [] Hp eq_refl)|discriminate E].
    + assert (D1 : NoDup (map (cons 0%nat) (map fst L1))).
      { clear -N1. induction N1 as [|x l H _ IH]; cbn [map]; constructor; [|exact IH]. intros Hx. apply in_map_iff in Hx. destruct Hx as (y & E & Hy). injection E as ->. exact (H Hy). }
      assert (D2 : NoDup (map next_ (map fst L2))).
      { clear -N2 E2. induction N2 as [|x l H _ IH]; cbn [map]; constructor; [|apply IH; intros p Hp; apply E2; right; exact Hp].
        intros Hx. apply in_map_iff in Hx. destruct Hx as (y & E & Hy). apply next_inj in E; [subst y; exact (H Hy)|apply E2; right; exact Hy|apply E2; left; reflexivity]. }
      assert (Dj : forall p, In p (map (cons 0%nat) (map fst L1)) -> ~ In p (map next_ (map fst L2))).
      { intros p H1 H2. apply in_map_iff in H1. destruct H1 as (q & <- & _). apply in_map_iff in H2. destruct H2 as (r & E & Hr). destruct r; [exact (E2 [] Hr eq_refl)|discriminate E]. }
      clear -D1 D2 Dj. induction D1 as [|x l H _ IH]; [exact D2|]. cbn [app]. constructor.
      * intros Hx. apply in_app_or in Hx. destruct Hx as [Hx|Hx]; [exact (H Hx)|exact (Dj x (or_introl eq_refl) Hx)].
      * apply IH. intros p Hp. apply Dj. right. exact Hp.
  - cbn [map fst]. rewrite map_app, M1, M2. constructor.
    + clear -O1 O2 E2. induction O1 as [|x l _ IH H]; cbn [map app].
      * clear -O2 E2. induction O2 as [|x l _ IH H]; cbn [map]; constructor; [apply IH; intros p Hp; apply E2; right; exact Hp|].
        apply Forall_map. rewrite Forall_forall in *. intros y Hy. apply before_next; [apply E2; left; reflexivity|exact (H y Hy)].
      * constructor; [exact IH|]. apply Forall_app. split; apply Forall_map; rewrite Forall_forall in *; intros y Hy.
        -- apply before_tail. exact (H y Hy).
        -- specialize (E2 y Hy). destruct y; [contradiction|]. apply before_head. lia.
    + apply Forall_app. split; apply Forall_map; rewrite Forall_forall; intros y Hy.
      * specialize (E1 y Hy). destruct y; [contradiction|]. apply before_tail, before_nil.
      * specialize (E2 y Hy). destruct y; [contradiction|]. apply before_head. lia.
  - intros p f H. cbn [map fst]. rewrite map_app, M1, M2. inversion H as [? i b d' H1 H2|? i b d' q ? H1 H2 H3]; subst.
    + destruct i as [|i]; [left; reflexivity|]. cbn [nth_error] in H1. right. apply in_or_app. right. apply in_map_iff. exists [i]. split; [reflexivity|]. apply (C2 [i] f). exact (way_one h _ _ _ _ H1 H2).
    + destruct i as [|i]; cbn [nth_error] in H1; right; apply in_or_app.
      * injection H1 as <-. rewrite Ha in H2. injection H2 as <-. left. apply in_map. exact (C1 q f H3).
      * right. apply in_map_iff. exists (i :: q). split; [reflexivity|]. apply (C2 (i :: q) f). exact (way_more h _ _ _ _ _ _ H1 H2 H3).
  - intros [|k] p l H; cbn [nth_error] in H; [injection H as <- <-; cbn [dl_index]; lia|].
    destruct (Nat.lt_ge_cases k (length L1)) as [Hk|Hk].
    + rewrite nth_error_app1 in H by (rewrite map_length; exact Hk). rewrite nth_error_map in H. destruct (nth_error L1 k) as [[q m]|] eqn:E; [|discriminate H]. injection H as _ <-.
      cbn [snd]. rewrite (I1 k q m E). lia.
    + rewrite nth_error_app2 in H by (rewrite map_length; exact Hk). rewrite map_length, nth_error_map in H. destruct (nth_error L2 (k - length L1)) as [[q m]|] eqn:E; [|discriminate H]. injection H as _ <-.
      cbn [snd]. rewrite (I2 _ q m E). lia.
  - intros p l [H|H].
    + injection H as <- <-. cbn [dl_part]. split; [apply (way_one h _ 0 a d); [reflexivity|exact Ha]|]. exists [], 0%nat. split; [reflexivity|]. left. repeat split. exact He.
    + apply in_app_or in H. destruct H as [H|H]; apply in_map_iff in H; destruct H as ([q m] & E & Hq); injection E as <- <-.
      * destruct (W1 q m Hq) as (Hw & r & i & -> & Hr). cbn [fst snd]. split; [apply (way_more h _ 0 a d); [reflexivity|exact Ha|exact Hw]|].
        exists (0%nat :: r), i. split; [reflexivity|]. right. destruct Hr as [(-> & Hm & Hg & Hs & Hx)|(l' & Hl & Hm & Hr)].
        -- eexists. split; [left; reflexivity|]. cbn [dl_index dl_part]. repeat split; assumption.
        -- exists l'. split; [right; apply in_or_app; left; apply in_map_iff; exists (r, l'); split; [reflexivity|exact Hl]|]. split; assumption.
      * destruct (W2 q m Hq) as (Hw & r & i & -> & Hr). cbn [fst snd]. split; [apply way_beside; exact Hw|]. destruct r as [|j r].
        -- exists [], (S i). split; [reflexivity|]. left. destruct Hr as [(_ & Hr)|(l' & Hl & _)]; [split; [reflexivity|exact Hr]|].
           exfalso. apply (E2 []); [|reflexivity]. apply in_map_iff. exists ([], l'). split; [reflexivity|exact Hl].
        -- exists (S j :: r), i. split; [reflexivity|]. right. destruct Hr as [(E & _)|(l' & Hl & Hr)]; [discriminate E|].
           exists l'. split; [right; apply in_or_app; right; apply in_map_iff; exists (j :: r, l'); split; [reflexivity|exact Hl]|exact Hr].
Qed.

Lemma loop_lines rec part mother : (forall d i ls n, rec d i = Ok (ls, n) -> exists L, map snd L = ls /\ n = i + Z.of_nat (length L) /\ lines_for d (i - 1) (mc_daughters d) i L) ->
  forall ds index ls n, daughter_loop h rec part mother ds index = Ok (ls, n) -> exists L, map snd L = ls /\ n = index + Z.of_nat (length L) /\ lines_for part mother ds index L.
Proof.
  intros HR. induction ds as [|a ds IH]; intros index ls n H; cbn [daughter_loop] in H.
  - injection H as <- <-. exists []. split; [reflexivity|]. split; [cbn [length]; lia|apply lines_nil].
  - destruct (h a) as [[d| | | | | | | | | | | | | | | | | | | | ]|] eqn:Ea; try discriminate H. destruct (index <? 2 ^ 31 - 1); [|discriminate H].
    destruct (get_endpoint h part) as [e|x|u] eqn:Ee; cbn [bind] in H; [|discriminate H..]. destruct (rec d (index + 1)) as [[l1 i1]|x|u] eqn:E1; cbn [bind] in H; [|discriminate H..].
    destruct (daughter_loop h rec part mother ds i1) as [[l2 i2]|x|u] eqn:E2; cbn [bind] in H; [|discriminate H..]. injection H as <- <-.
    destruct (HR d (index + 1) l1 i1 E1) as (L1 & S1 & -> & P1). destruct (IH _ _ _ E2) as (L2 & S2 & -> & P2). replace (index + 1 - 1) with index in P1 by lia.
    exists (([0%nat], mkDL index mother d (mc_gen part) (mc_sim part) e) :: map down L1 ++ map beside L2). split; [|split; [|exact (lines_cons part mother a d ds index e L1 L2 Ea Ee P1 P2)]].
    + cbn [map snd]. rewrite map_app, !map_map. cbn [snd down beside]. rewrite <- S1, <- S2. reflexivity.
    + cbn [length]. rewrite app_length, !map_length. lia.
Qed.
Theorem tree_lines : forall fuel part index ls n, print_daughters fuel h part index = Ok (ls, n) ->
  exists L, map snd L = ls /\ n = index + Z.of_nat (length L) /\ lines_for part (index - 1) (mc_daughters part) index L.
Proof.
  induction fuel as [|fuel IH]; intros part index ls n H; [discriminate H|]. cbn [print_daughters] in H. destruct (- 2 ^ 31 <? index); [|discriminate H].
  exact (loop_lines _ part (index - 1) IH _ _ _ _ H).
Qed.

(** ** Termination *)

Lemma way_app ds p d q e : way h ds p d -> way h (mc_daughters d) q e -> way h ds (p ++ q) e.
Proof.
  intros H. revert q e. induction H as [ds i a d H1 H2|ds i a d p d' H1 H2 H3 IH]; intros q e Hq; cbn [app]; apply (way_more h ds i a d); try assumption. apply IH. exact Hq.
Qed.
Lemma bounded_in (l : list (list nat)) : exists b, forall p, In p l -> (length p <= b)%nat.
Proof.
  induction l as [|x l [b H]]; [exists 0%nat; intros p []|]. exists (length x + b)%nat. intros p [<-|Hp]; [lia|]. specialize (H p Hp). lia.
Qed.
Theorem tree_cycle fuel part index p d q : way h (mc_daughters part) p d -> way h (mc_daughters d) q d -> forall x, print_daughters fuel h part index <> Ok x.
Proof.
  intros Hp Hq [ls n] H. destruct (tree_lines _ _ _ _ _ H) as (L & _ & _ & _ & C & _). destruct (bounded_in (map fst L)) as [b Hb].
  assert (A : forall k, exists r, (k <= length r)%nat /\ way h (mc_daughters part) r d).
  { induction k as [|k (r & Hl & Hr)]; [exists p; split; [lia|exact Hp]|]. exists (r ++ q). split; [|exact (way_app _ _ _ _ _ Hr Hq)].
    rewrite app_length. pose proof (way_nonempty _ _ _ Hq). destruct q; [contradiction|]. cbn [length]. lia. }
  destruct (A (S b)) as (r & Hl & Hr). specialize (Hb r (C r d Hr)). lia.
Qed.
Lemma loop_ends rec part mother : forall ds index, (forall i a d j, nth_error ds i = Some a -> h a = Some (OMC d) -> rec d j <> UB UBDiverge) ->
  daughter_loop h rec part mother ds index <> UB UBDiverge.
Proof.
  assert (G : forall own ds, end_by_daughters h own ds <> UB UBDiverge).
  { intros own. induction ds as [|a ds IH]; cbn [end_by_daughters]; [discriminate|]. destruct (h a) as [[d| | | | | | | | | | | | | | | | | | | | ]|]; try discriminate. destruct (Z.testbit (mc_sim d) 28); [exact IH|discriminate]. }
  assert (G2 : forall m, get_endpoint h m <> UB UBDiverge).
  { intros m. unfold get_endpoint. destruct (Z.testbit (mc_sim m) 31); [discriminate|]. destruct (mc_daughters m); [discriminate|apply G]. }
  induction ds as [|a ds IH]; intros index HR; cbn [daughter_loop]; [discriminate|]. destruct (h a) as [[d| | | | | | | | | | | | | | | | | | | | ]|] eqn:Ea; try discriminate.
  destruct (index <? 2 ^ 31 - 1); [|discriminate]. specialize (G2 part). destruct (get_endpoint h part) as [e|x|u]; cbn [bind]; [|discriminate|congruence].
  pose proof (HR 0%nat a d (index + 1) eq_refl Ea) as H1. destruct (rec d (index + 1)) as [[l1 i1]|x|u]; cbn [bind]; [|discriminate|congruence].
  pose proof (IH i1 (fun i b c j H => HR (S i) b c j H)) as H2. destruct (daughter_loop h rec part mother ds i1) as [[l2 i2]|x|u]; cbn [bind]; [discriminate|discriminate|congruence].
Qed.
Theorem tree_ends : forall fuel part index, (forall p d, way h (mc_daughters part) p d -> (length p < fuel)%nat) -> (0 < fuel)%nat -> print_daughters fuel h part index <> UB UBDiverge.
Proof.
  induction fuel as [|fuel IH]; intros part index HB Hf; [lia|]. cbn [print_daughters]. destruct (- 2 ^ 31 <? index); [|discriminate].
  apply loop_ends. intros i a d j Hn Ha. pose proof (HB [i] d (way_one h _ i a d Hn Ha)) as H1. cbn [length] in H1. apply IH; [|lia].
  intros p e Hp. specialize (HB (i :: p) e (way_more h _ i a d p e Hn Ha Hp)). cbn [length] in HB. lia.
Qed.

Lemma way_last ds i e : way h ds [i] e -> exists j a, nth_error ds j = Some a /\ h a = Some (OMC e).
Proof.
  intros H. inversion H as [? ? a ? H1 H2|? ? a d q ? H1 H2 H3]; subst; [exists i, a; split; assumption|]. destruct (way_nonempty _ _ _ H3 eq_refl).
Qed.
Lemma way_step : forall ds q i m e, way h ds q m -> way h ds (q ++ [i]) e -> exists j a, nth_error (mc_daughters m) j = Some a /\ h a = Some (OMC e).
Proof.
  intros ds q i m e H. revert e. induction H as [ds k a d H1 H2|ds k a d p m H1 H2 H3 IH]; intros e He; cbn [app] in He.
  - inversion He as [|? ? a' d' q' ? H1' H2' H3']; subst. rewrite H1 in H1'. injection H1' as <-. rewrite H2 in H2'. injection H2' as <-. exact (way_last _ _ _ H3').
  - inversion He as [? ? a' d' H1' H2' Eq|? ? a' d' q' ? H1' H2' H3']; subst; [destruct p; discriminate|]. rewrite H1 in H1'. injection H1' as <-. rewrite H2 in H2'. injection H2' as <-. exact (IH e H3').
Qed.

(** ** Returning *)

Lemma endpoint_ok m : (forall a, In a (mc_daughters m) -> exists d, h a = Some (OMC d)) -> exists e, get_endpoint h m = Ok e.
Proof.
  intros HW. unfold get_endpoint. destruct (Z.testbit (mc_sim m) 31); [eexists; reflexivity|].
  assert (A : forall own ds, (forall a, In a ds -> exists d, h a = Some (OMC d)) -> exists e, end_by_daughters h own ds = Ok e).
  { intros own. induction ds as [|a ds IH]; intros H; cbn [end_by_daughters]; [eexists; reflexivity|]. destruct (H a (or_introl eq_refl)) as [d ->].
    destruct (Z.testbit (mc_sim d) 28); [apply IH; intros b Hb; apply H; right; exact Hb|eexists; reflexivity]. }
  destruct (mc_daughters m) as [|a ds]; [eexists; reflexivity|apply A; exact HW].
Qed.
Definition returns {A} (r : Res A) : Prop := (exists x, r = Ok x) \/ r = UB UBOverflow.
Lemma loop_returns rec part mother : (exists e, get_endpoint h part = Ok e) ->
  (forall d j ls n, rec d j = Ok (ls, n) -> j <= n) ->
  forall ds index, - 2 ^ 31 < index -> (forall a, In a ds -> exists d, h a = Some (OMC d)) -> (forall i a d j, nth_error ds i = Some a -> h a = Some (OMC d) -> - 2 ^ 31 < j -> returns (rec d j)) ->
  returns (daughter_loop h rec part mother ds index).
Proof.
  intros [e He] HN. induction ds as [|a ds IH]; intros index Hi HA HR; cbn [daughter_loop]; [left; eexists; reflexivity|].
  destruct (HA a (or_introl eq_refl)) as [d Ea]. rewrite Ea. destruct (index <? 2 ^ 31 - 1); [|right; reflexivity]. rewrite He. cbn [bind].
  destruct (HR 0%nat a d (index + 1) eq_refl Ea ltac:(lia)) as [[[l1 i1] E1]|E1]; rewrite E1; cbn [bind]; [|right; reflexivity]. pose proof (HN _ _ _ _ E1) as Hn.
  destruct (IH i1 ltac:(lia) (fun b Hb => HA b (or_intror Hb)) (fun i b c j H => HR (S i) b c j H)) as [[[l2 i2] E2]|E2]; rewrite E2; cbn [bind]; [left; eexists; reflexivity|right; reflexivity].
Qed.
Theorem tree_returns : forall fuel part index, (forall p d, way h (mc_daughters part) p d -> (length p < fuel)%nat) -> (0 < fuel)%nat -> whole h part -> - 2 ^ 31 < index ->
  returns (print_daughters fuel h part index).
Proof.
  induction fuel as [|fuel IH]; intros part index HB Hf HW Hi; [lia|]. cbn [print_daughters]. destruct (Z.ltb_spec (- 2 ^ 31) index) as [_|G]; [|lia].
  apply loop_returns; [apply endpoint_ok, HW; left; reflexivity| |exact Hi|apply HW; left; reflexivity|].
  - intros d j ls n H. destruct (tree_lines _ _ _ _ _ H) as (L & _ & -> & _). lia.
  - intros i a d j Hn Ha Hj. pose proof (HB [i] d (way_one h _ i a d Hn Ha)) as H1. cbn [length] in H1. apply IH; [|lia| |exact Hj].
    + intros p e Hp. specialize (HB (i :: p) e (way_more h _ i a d p e Hn Ha Hp)). cbn [length] in HB. lia.
    + intros m Hm. apply HW. right. destruct Hm as [->|(p & Hp)]; [exists [i]; exact (way_one h _ i a d Hn Ha)|exists (i :: p); exact (way_more h _ i a d p m Hn Ha Hp)].
Qed.
End Tree.
