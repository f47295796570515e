(** * Proofs about typed views (C60, C61) *)

From Verif Require Import Bytes StrMap SioModel ObjModel ImplModel ViewModel ViewSpec.

(** ** Iterators *)

Lemma s32_small : forall z, 0 <= z < 2 ^ 31 -> s32 z = z.
Proof. intros z H. apply s32_id. unfold is_i32, two31. change (2 ^ 31) with 2147483648 in H. lia. Qed.
Lemma number_ok : forall l : list addr, Zlen l < 2 ^ 31 -> number_of l = Zlen l.
Proof. intros l H. apply s32_small. pose proof (Zlen_nonneg l). lia. Qed.
Lemma element_ok : forall l i, 0 <= i < Zlen l -> element_at l i = Ok (nth (Z.to_nat i) l 0).
Proof. intros l i H. unfold element_at. rewrite (proj2 (Z.leb_le 0 i)), (proj2 (Z.ltb_lt i _)) by lia. reflexivity. Qed.

Section Elements.
Variable isT : addr -> bool.

Lemma dyn_zero : forall p, dyn_cast isT p = 0 <-> p = 0 \/ isT p = false.
Proof.
  intros p. unfold dyn_cast. destruct (Z.eqb_spec p 0) as [->|N]; [tauto|]. destruct (isT p); split; intros H; try tauto. destruct H; [lia|discriminate].
Qed.
Lemma dyn_same : forall p, p <> 0 -> isT p = true -> dyn_cast isT p = p.
Proof. intros p N T. unfold dyn_cast. destruct (Z.eqb_spec p 0); [lia|]. rewrite T. reflexivity. Qed.

Lemma it_new_ok : forall l, Zlen l < 2 ^ 31 ->
  match l with
  | [] => it_new isT (Some l) = Ok (mkIter 0 0 true)
  | p :: _ => (p <> 0 /\ isT p = true -> it_new isT (Some l) = Ok (mkIter (Zlen l) 0 true)) /\
              (p = 0 \/ isT p = false -> it_new isT (Some l) = Throw LException)
  end.
Proof.
  intros l H. unfold it_new. rewrite (number_ok l H). destruct l as [|p l]; [reflexivity|].
  assert (L : 0 < Zlen (p :: l)) by (unfold Zlen; cbn [length]; lia). rewrite (proj2 (Z.ltb_lt 0 _) L), element_ok by lia.
  cbn [bind Z.to_nat nth]. split.
  - intros (N & T). rewrite dyn_same by assumption. destruct (Z.eqb_spec p 0); [lia|reflexivity].
  - intros D. apply dyn_zero in D. rewrite D. reflexivity.
Qed.

(** the iterator has returned the first [k] of the elements *)
Lemma i_run_ok : forall ops l more k, Zlen l < 2 ^ 31 -> Forall no_removal ops -> (k <= length l)%nat ->
  Forall (fun p => p = 0 \/ isT p = true) l ->
  length (i_run isT (l ++ more) (mkIter (Zlen l) (Z.of_nat k) true) ops) = length ops /\
  forall j, nth_error ops j = Some INext ->
    nth_error (i_run isT (l ++ more) (mkIter (Zlen l) (Z.of_nat k) true) ops) j = Some (Ok (nth (k + nexts (firstn j ops)) l 0)).
Proof.
  induction ops as [|op ops IH]; intros l more k H F Hk Ty.
  { split; [reflexivity|]. intros j E. destruct j; discriminate E. }
  apply Forall_cons_iff in F. destruct F as (F1 & F). destruct op as [|p|i]; [| |contradiction].
  - cbn [i_run i_step]. unfold it_next. cbn [it_i it_n it_col]. destruct (Z.ltb_spec (Z.of_nat k) (Zlen l)) as [C|C].
    + assert (Hl : (k < length l)%nat) by (unfold Zlen in C; lia).
      rewrite element_ok by (unfold Zlen in *; rewrite app_length; lia). rewrite Nat2Z.id, app_nth1 by exact Hl.
      assert (T : (nth k l 0 =? 0) || isT (nth k l 0) = true).
      { destruct (proj1 (Forall_forall _ l) Ty (nth k l 0) (nth_In l 0 Hl)) as [T|T]; [rewrite T; reflexivity|rewrite T; apply orb_true_r]. }
      rewrite T. replace (Z.of_nat k + 1) with (Z.of_nat (S k)) by lia. destruct (IH l more (S k) H F Hl Ty) as (IL & IN). split.
      * cbn [length]. rewrite IL. reflexivity.
      * intros j E. destruct j as [|j].
        { cbn [nth_error firstn]. unfold nexts. cbn [filter length]. rewrite Nat.add_0_r. reflexivity. }
        cbn [nth_error] in *. rewrite (IN j E). unfold nexts. cbn [firstn filter length]. rewrite Nat.add_succ_r. reflexivity.
    + assert (Hl : k = length l) by (unfold Zlen in C; lia). destruct (IH l more k H F Hk Ty) as (IL & IN). split.
      * cbn [length]. rewrite IL. reflexivity.
      * intros j E. destruct j as [|j].
        { cbn [nth_error firstn]. unfold nexts. cbn [filter length]. rewrite Nat.add_0_r, nth_overflow by lia. reflexivity. }
        cbn [nth_error] in *. rewrite (IN j E). unfold nexts. cbn [firstn filter length]. rewrite !nth_overflow by lia. reflexivity.
  - cbn [i_run i_step]. rewrite <- app_assoc. destruct (IH l (more ++ [p]) k H F Hk Ty) as (IL & IN). split.
    + cbn [length]. rewrite IL. reflexivity.
    + intros j E. destruct j as [|j]; [discriminate E|]. cbn [nth_error] in *. rewrite (IN j E). reflexivity.
Qed.

Lemma it_while_ok : forall fuel l k, Zlen l < 2 ^ 31 -> (k <= length l)%nat -> Forall (fun p => p = 0 \/ isT p = true) l ->
  (length l - k < fuel)%nat ->
  exists v rest, it_while isT fuel l (mkIter (Zlen l) (Z.of_nat k) true) = Ok v /\ skipn k l = v ++ rest /\ ~ In 0 v /\
    (rest = [] \/ exists t, rest = 0 :: t).
Proof.
  induction fuel as [|fuel IH]; intros l k H Hk Ty Hf; [lia|]. cbn [it_while]. unfold it_next. cbn [it_i it_n it_col].
  destruct (Z.ltb_spec (Z.of_nat k) (Zlen l)) as [C|C].
  - assert (Hl : (k < length l)%nat) by (unfold Zlen in C; lia). rewrite element_ok by (unfold Zlen in *; lia). rewrite Nat2Z.id.
    assert (T : (nth k l 0 =? 0) || isT (nth k l 0) = true).
    { destruct (proj1 (Forall_forall _ l) Ty (nth k l 0) (nth_In l 0 Hl)) as [T|T]; [rewrite T; reflexivity|rewrite T; apply orb_true_r]. }
    rewrite T. cbn [bind].
    assert (K : skipn k l = nth k l 0 :: skipn (S k) l).
    { clear -Hl. revert l Hl. induction k as [|k IH]; intros [|a l] Hl; cbn [length] in Hl; try lia; [reflexivity|].
      change (skipn (S k) (a :: l)) with (skipn k l). change (nth (S k) (a :: l) 0) with (nth k l 0). rewrite IH by lia. reflexivity. }
    destruct (Z.eqb_spec (nth k l 0) 0) as [Z|Z].
    + exists [], (skipn k l). split; [reflexivity|]. split; [reflexivity|]. split; [intros []|]. right. rewrite K, Z. eexists. reflexivity.
    + replace (Z.of_nat k + 1) with (Z.of_nat (S k)) by lia. destruct (IH l (S k) H Hl Ty ltac:(lia)) as (v & rest & E & S1 & N & R).
      rewrite E. cbn [bind]. exists (nth k l 0 :: v), rest. split; [reflexivity|]. split; [rewrite K, S1; reflexivity|]. split; [|exact R].
      intros [B|B]; [exact (Z B)|exact (N B)].
  - exists [], []. cbn [bind]. split; [reflexivity|]. split; [rewrite skipn_all2 by (unfold Zlen in C; lia); reflexivity|].
    split; [intros []|]. left. reflexivity.
Qed.

Lemma tv_loop_ok : forall n i l, 0 <= i -> i + Z.of_nat n = Zlen l ->
  (i = 0 -> match l with p :: _ => p <> 0 /\ isT p = true | [] => True end) ->
  tv_loop isT n i l = Ok (map (dyn_cast isT) (skipn (Z.to_nat i) l)).
Proof.
  induction n as [|n IH]; intros i l Hi Hl H0; cbn [tv_loop].
  - rewrite skipn_all2 by (unfold Zlen in Hl; lia). reflexivity.
  - rewrite element_ok by lia. cbn [bind].
    assert (K : skipn (Z.to_nat i) l = nth (Z.to_nat i) l 0 :: skipn (Z.to_nat (i + 1)) l).
    { replace (Z.to_nat (i + 1)) with (S (Z.to_nat i)) by lia. assert (Hk : (Z.to_nat i < length l)%nat) by (unfold Zlen in Hl; lia).
      revert Hk. generalize (Z.to_nat i). clear. intros k. revert l. induction k as [|k IH]; intros [|a l] Hk; cbn [length] in Hk; try lia; [reflexivity|].
      change (skipn (S k) (a :: l)) with (skipn k l). change (nth (S k) (a :: l) 0) with (nth k l 0). rewrite IH by lia. reflexivity. }
    assert (C : (i =? 0) && (dyn_cast isT (nth (Z.to_nat i) l 0) =? 0) = false).
    { destruct (Z.eqb_spec i 0) as [->|N]; [|reflexivity]. specialize (H0 eq_refl). destruct l as [|p l]; [unfold Zlen in Hl; cbn in Hl; lia|].
      cbn [Z.to_nat nth]. rewrite dyn_same by tauto. destruct (Z.eqb_spec p 0); [tauto|reflexivity]. }
    rewrite C, IH; [|lia..]. cbn [bind]. rewrite K. reflexivity.
Qed.
Lemma typed_vector_ok : forall l, Zlen l < 2 ^ 31 ->
  match l with
  | [] => typed_vector isT l = Ok []
  | p :: _ => (p <> 0 /\ isT p = true -> typed_vector isT l = Ok (map (dyn_cast isT) l)) /\
              (p = 0 \/ isT p = false -> typed_vector isT l = Throw LException)
  end.
Proof.
  intros l H. pose proof (Zlen_nonneg l) as L. unfold typed_vector. rewrite (number_ok l H). destruct (Z.ltb_spec (Zlen l) 0); [lia|].
  destruct l as [|p l']; [reflexivity|]. split.
  - intros T. rewrite tv_loop_ok; [reflexivity|lia|lia|]. intros _. exact T.
  - intros T. apply dyn_zero in T. unfold Zlen. cbn [length]. rewrite Nat2Z.id. cbn [tv_loop]. rewrite element_ok by (unfold Zlen; cbn [length]; lia).
    cbn [bind Z.to_nat nth]. rewrite T. reflexivity.
Qed.

End Elements.
