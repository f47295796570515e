(** * Attributes of objects: new objects, sequences of calls, functions with an index and copies *)
From Coq Require Import ZArith List Bool Lia.
From Verif Require Import Bytes SioModel ObjModel ImplModel AttrModel AttrSpec AttrProofs.
Import ListNotations.
Open Scope Z_scope.

Lemma initial_get t a v : In (a, v) (initial t) -> obj_get (new_obj t) a = Some v.
Proof.
  destruct t; cbn [initial In]; intros H;
    repeat (destruct H as [H|H]; [injection H as <- <-; reflexivity|]); destruct H.
Qed.
Lemma get_initial t a v : obj_get (new_obj t) a = Some v -> In (a, v) (initial t).
Proof.
  destruct t; destruct a; intros H; try discriminate H; injection H as <-; cbn [initial In];
    repeat first [left; reflexivity | right].
Qed.
Lemma initial_iff t a v : obj_get (new_obj t) a = Some v <-> In (a, v) (initial t).
Proof. split; [apply get_initial|apply initial_get]. Qed.
Lemma defined o a : obj_get o a <> None <-> In a (map fst (initial (type_of o))).
Proof.
  split.
  - destruct o; destruct a; intros H; try (exfalso; apply H; reflexivity); cbn [type_of initial map fst In];
      repeat first [left; reflexivity | right].
  - destruct o; cbn [type_of initial map fst In]; intros H;
      repeat (destruct H as [H|H]; [subst a; discriminate|]); destruct H.
Qed.

Section Runs.
Context (fadd : Z -> Z -> Z) (srt : forall A : Type, (A -> Z) -> list A -> list A).
Lemma untouched_step o c a : in_range (snd c) -> ~ In a (concerned (snd c)) ->
  obj_get (fst (obj_do fadd srt (fst c) o (snd c))) a = obj_get o a.
Proof.
  intros R N. destruct (obj_do fadd srt (fst c) o (snd c)) as [o' r] eqn:E. cbn [fst].
  assert (D : r = Ok tt \/ r <> Ok tt) by (destruct r as [[]| |]; [left; reflexivity|right; discriminate|right; discriminate]).
  destruct D as [->|D].
  - destruct (obj_step _ _ _ _ _ _ R E) as [[K _] _]. apply K, N.
  - assert (K := obj_kept fadd srt (fst c) o (snd c)). rewrite E in K. cbn [fst snd] in K. rewrite (K D). reflexivity.
Qed.
Lemma untouched cs : forall o a, (forall c, In c cs -> in_range (snd c) /\ ~ In a (concerned (snd c))) ->
  obj_get (obj_run fadd srt o cs) a = obj_get o a.
Proof.
  induction cs as [|c cs IH]; intros o a H; [reflexivity|].
  unfold obj_run. cbn [fold_left]. fold (obj_run fadd srt (fst (obj_do fadd srt (fst c) o (snd c))) cs).
  rewrite IH by (intros d Hd; apply H; right; exact Hd).
  destruct (H c (or_introl eq_refl)) as [R N]. apply untouched_step; assumption.
Qed.
Lemma last_set o cs1 ro e cs2 a v : in_range e -> In (a, ESet v) (effects e) ->
  snd (obj_do fadd srt ro (obj_run fadd srt o cs1) e) = Ok tt ->
  (forall c, In c cs2 -> in_range (snd c) /\ ~ In a (concerned (snd c))) ->
  obj_get (obj_run fadd srt o (cs1 ++ (ro, e) :: cs2)) a = Some v.
Proof.
  intros R HI A H. unfold obj_run. rewrite fold_left_app. cbn [fold_left fst snd].
  fold (obj_run fadd srt o cs1). set (o1 := obj_run fadd srt o cs1) in *.
  fold (obj_run fadd srt (fst (obj_do fadd srt ro o1 e)) cs2). rewrite untouched by exact H.
  destruct (obj_do fadd srt ro o1 e) as [o' r] eqn:E. cbn [fst snd] in *. subst r.
  destruct (obj_step _ _ _ _ _ _ R E) as [[_ K] _]. exact (K _ _ HI).
Qed.
Lemma run_class cs : forall o, (forall c, In c cs -> in_range (snd c)) -> type_of (obj_run fadd srt o cs) = type_of o.
Proof.
  induction cs as [|c cs IH]; intros o H; [reflexivity|].
  unfold obj_run. cbn [fold_left]. fold (obj_run fadd srt (fst (obj_do fadd srt (fst c) o (snd c))) cs).
  rewrite IH by (intros d Hd; apply H; right; exact Hd).
  destruct (obj_do fadd srt (fst c) o (snd c)) as [o' r] eqn:E. cbn [fst].
  assert (D : r = Ok tt \/ r <> Ok tt) by (destruct r as [[]| |]; [left; reflexivity|right; discriminate|right; discriminate]).
  destruct D as [->|D].
  - apply (obj_step _ _ _ _ _ _ (H c (or_introl eq_refl)) E).
  - assert (K := obj_kept fadd srt (fst c) o (snd c)). rewrite E in K. cbn [fst snd] in K. rewrite (K D). reflexivity.
Qed.
End Runs.

(** ** Functions with an index *)
Lemma vat_iff {A} (l : list A) i x : vat l i = Ok x <-> 0 <= i /\ nth_error l (Z.to_nat i) = Some x.
Proof.
  unfold vat. destruct (Z.ltb_spec i 0) as [L|L].
  - split; [discriminate|lia].
  - destruct (nth_error l (Z.to_nat i)); split; try discriminate.
    + intros H. injection H as <-. auto.
    + intros [_ H]. injection H as <-. reflexivity.
    + intros [_ H]. discriminate H.
Qed.
Lemma vat_out {A} (l : list A) i : i < 0 \/ Zlen l <= i -> vat l i = UB UBOutOfBounds.
Proof.
  unfold vat, Zlen. intros H. destruct (Z.ltb_spec i 0) as [L|L]; [reflexivity|].
  destruct (nth_error l (Z.to_nat i)) eqn:E; [|reflexivity].
  assert (Z.to_nat i < length l)%nat by (apply nth_error_Some; rewrite E; discriminate). lia.
Qed.
Lemma s32_nat n : 0 <= n < two31 -> s32 n = n.
Proof. intros H. apply s32_id. unfold is_i32. unfold two31 in *. lia. Qed.
Lemma Zlen_pos {A} (l : list A) : 0 <= Zlen l.
Proof. unfold Zlen. lia. Qed.

Lemma word_in o i : Zlen (tp_raw o) < two31 -> 0 <= i < Zlen (tp_raw o) -> word o i = Ok (nth (Z.to_nat i) (tp_raw o) 0).
Proof.
  intros L H. unfold word, n_words. rewrite s32_nat by (split; [apply Zlen_pos|exact L]).
  destruct (Z.ltb_spec i 0), (Z.leb_spec (Zlen (tp_raw o)) i); try lia. cbn [orb].
  apply vat_iff. split; [lia|]. apply nth_error_nth'. unfold Zlen in H. lia.
Qed.
Lemma word_out o i : Zlen (tp_raw o) < two31 -> ~ 0 <= i < Zlen (tp_raw o) -> word o i = Throw LDataNotAvailable.
Proof.
  intros L H. unfold word, n_words. rewrite s32_nat by (split; [apply Zlen_pos|exact L]).
  destruct (Z.ltb_spec i 0), (Z.leb_spec (Zlen (tp_raw o)) i); try lia; reflexivity.
Qed.
Lemma val_in l i : 0 <= i < Zlen l -> val_at l i = Ok (nth (Z.to_nat i) l 0).
Proof. intros H. apply vat_iff. split; [lia|]. apply nth_error_nth'. unfold Zlen in H. lia. Qed.
Lemma cont_at o i c : 0 <= i -> nth_error (sc_cont o) (Z.to_nat i) = Some c ->
  cont_particle o i = Ok (co_part c) /\ cont_energy o i = Ok (co_energy c) /\ cont_time o i = Ok (co_time c) /\
  cont_length o i = Ok (co_length c) /\ cont_pdg o i = Ok (co_pdg c) /\ cont_step o i = Ok (co_pos c).
Proof.
  intros H E. assert (V : vat (sc_cont o) i = Ok c) by (apply vat_iff; auto).
  unfold cont_particle, cont_energy, cont_time, cont_length, cont_pdg, cont_step. rewrite V. cbn [bind].
  split; [reflexivity|]. split; [reflexivity|]. split; [reflexivity|]. split; [reflexivity|]. split; reflexivity.
Qed.
Lemma cont_none o i : i < 0 \/ Zlen (sc_cont o) <= i ->
  cont_particle o i = Throw LException /\ cont_energy o i = UB UBOutOfBounds /\ cont_time o i = UB UBOutOfBounds /\
  cont_length o i = UB UBOutOfBounds /\ cont_pdg o i = UB UBOutOfBounds /\ cont_step o i = UB UBOutOfBounds.
Proof.
  intros H. unfold cont_particle, cont_energy, cont_time, cont_length, cont_pdg, cont_step. rewrite (vat_out _ _ H). cbn [bind].
  split; [reflexivity|]. split; [reflexivity|]. split; [reflexivity|]. split; [reflexivity|]. split; reflexivity.
Qed.

(** ** Copies *)
Definition triples (o : simcalhit) : Prop := length (sc_pos o) = 3%nat /\ Forall (fun c => length (co_pos c) = 3%nat) (sc_cont o).
Lemma copy_conts_eq o l : forall pre, sc_cont o = pre ++ l -> Forall (fun c => length (co_pos c) = 3%nat) l ->
  copy_conts o (length l) (Zlen pre) = Ok l.
Proof.
  induction l as [|c l IH]; intros pre E F; [reflexivity|].
  cbn [length copy_conts]. inversion F as [|? ? F1 F2]; subst.
  assert (N : nth_error (sc_cont o) (Z.to_nat (Zlen pre)) = Some c).
  { unfold Zlen. rewrite Nat2Z.id, E, nth_error_app2 by lia. rewrite Nat.sub_diag. reflexivity. }
  destruct (cont_at o (Zlen pre) c (Zlen_pos pre) N) as (-> & -> & -> & -> & -> & ->). cbn [bind].
  replace (Zlen pre + 1) with (Zlen (pre ++ [c])) by (unfold Zlen; rewrite app_length; cbn [length]; lia).
  rewrite IH; [|rewrite <- app_assoc; exact E|exact F2]. cbn [bind].
  rewrite firstn_all2 by lia. destruct c. reflexivity.
Qed.
Lemma copy_simcalhit_eq o : triples o -> Zlen (sc_cont o) < two31 -> copy_simcalhit o = Ok o.
Proof.
  intros [P F] L. unfold copy_simcalhit, n_conts. rewrite s32_nat by (split; [apply Zlen_pos|exact L]).
  assert (Q := Zlen_pos (sc_cont o)). destruct (Z.ltb_spec (Zlen (sc_cont o)) 0); [lia|].
  unfold Zlen at 1. rewrite Nat2Z.id. assert (C := copy_conts_eq o (sc_cont o) [] eq_refl F).
  change (Zlen (@nil mccont)) with 0 in C. rewrite C. cbn [bind]. rewrite firstn_all2 by lia. destruct o. reflexivity.
Qed.
Lemma arr3 v a : arr 3 v = Ok a -> length a = 3%nat.
Proof. intros H. apply arr_ok in H. destruct H as [-> H]. rewrite firstn_length. lia. Qed.
Lemma add_short_triples fadd l p en t : Forall (fun c => length (co_pos c) = 3%nat) l ->
  Forall (fun c => length (co_pos c) = 3%nat) (add_short fadd l p en t).
Proof.
  induction l as [|c l IH]; intros F; cbn [add_short].
  - constructor; [reflexivity|constructor].
  - inversion F as [|? ? F1 F2]; subst. destruct (co_part c =? p); constructor; auto.
Qed.
Lemma sch_triples fadd ro o c : triples o -> triples (fst (sch_do fadd ro o c)).
Proof.
  intros T. assert (G : forall r, (forall o', r = Ok o' -> triples o') -> triples (fst (guarded ro o r))).
  { intros r H. unfold guarded, unguarded. destruct ro; [exact T|]. destruct r; [cbn; auto|exact T|exact T]. }
  destruct T as [P F]. destruct c; cbn [sch_do]; apply G; intros o' H.
  - injection H as <-. split; assumption.
  - injection H as <-. split; assumption.
  - injection H as <-. split; assumption.
  - apply bind_ok in H. destruct H as (a & E & H). injection H as <-. split; [exact (arr3 _ _ E)|exact F].
  - injection H as <-. split; [exact P|]. apply add_short_triples, F.
  - apply bind_ok in H. destruct H as (a & E & H). injection H as <-. split; [exact P|]. cbn [sc_cont].
    apply Forall_app. split; [exact F|]. constructor; [|constructor]. cbn [co_pos].
    destruct step as [x|]; [exact (arr3 _ _ E)|injection E as <-; reflexivity].
Qed.
Lemma run_triples fadd srt cs : forall o, triples o ->
  exists o', obj_run fadd srt (OSCH o) cs = OSCH o' /\ triples o'.
Proof.
  induction cs as [|[ro e] cs IH]; intros o T; [exists o; auto|].
  unfold obj_run. cbn [fold_left fst snd].
  assert (K : exists o1, fst (obj_do fadd srt ro (OSCH o) e) = OSCH o1 /\ triples o1).
  { destruct e; cbn [obj_do]; try (exists o; split; [reflexivity|exact T]).
    assert (T1 := sch_triples fadd ro o c T). destruct (sch_do fadd ro o c) as [o1 r]. exists o1. split; [reflexivity|exact T1]. }
  destruct K as (o1 & -> & T1). exact (IH o1 T1).
Qed.
Lemma copied fadd srt cs : exists o, obj_run fadd srt (new_obj TSCH) cs = OSCH o /\
  (Zlen (sc_cont o) < two31 -> copy_simcalhit o = Ok o).
Proof.
  assert (T : triples (mkSCH 0 0 0 zeros3 [])) by (split; [reflexivity|constructor]).
  destruct (run_triples fadd srt cs _ T) as (o & E & TT). exists o. split; [exact E|]. intros L. apply copy_simcalhit_eq; assumption.
Qed.
Lemma track_copied o : copy_track o = o.
Proof. destruct o. reflexivity. Qed.
