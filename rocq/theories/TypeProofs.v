(** * Proofs about names of classes and summaries of events *)

From Verif Require Import Bytes StrMap SioModel ObjModel EventSpec ImplModel ViewModel ViewSpec ViewProofs ViewFixed TypeModel TypeSpec.

Lemma esi_bound e : 0 <= esi_pos e < 13. Proof. destruct e; cbn; lia. Qed.
Lemma esf_bound e : 0 <= esf_pos e < 15. Proof. destruct e; cbn; lia. Qed.
Lemma esi_inj a b : esi_pos a = esi_pos b -> a = b.
Proof. destruct a, b; intros H; try reflexivity; vm_compute in H; discriminate H. Qed.
Lemma esf_inj a b : esf_pos a = esf_pos b -> a = b.
Proof. destruct a, b; intros H; try reflexivity; vm_compute in H; discriminate H. Qed.

(** where a value is *)
Definition key_at (k : es_key) : kind * Z := match k with EI e => (KInt, esi_pos e) | EF e => (KFloat, esf_pos e) | ED e => (KDouble, esf_pos e) end.
Lemma key_at_inj a b : key_at a = key_at b -> a = b.
Proof. destruct a, b; cbn [key_at]; intros H; try discriminate H; injection H as H; f_equal; auto using esi_inj, esf_inj. Qed.
Lemma key_bound k : 0 <= snd (key_at k) < size_of es_sizes (fst (key_at k)).
Proof. destruct k; cbn [key_at fst snd size_of es_sizes]; [apply esi_bound|apply esf_bound..]. Qed.

Definition es_inv (done : list es_call) (o : genobj) : Prop :=
  go_fixed o = true /\ (forall k, Zlen (vals o k) = size_of es_sizes k) /\
  forall k, nth (Z.to_nat (snd (key_at k))) (vals o (fst (key_at k))) 0 = last_set done k.

Lemma es_inv_new : es_inv [] es_new.
Proof.
  split; [reflexivity|]. split; [intros []; reflexivity|]. intros k. cbn [last_set].
  destruct k as [e|e|e]; destruct e; reflexivity.
Qed.

Lemma size_small k : size_of es_sizes k <= 15. Proof. destruct k; cbn; lia. Qed.

Lemma set_step done o c key v : es_inv done o -> es_sets c = Some (key, v) ->
  exists o', go_do false o (set_call (fst (key_at key)) (snd (key_at key)) v) = (o', Ok tt) /\ es_inv (c :: done) o'.
Proof.
  intros (F & L & V) C. pose proof (key_bound key) as B. destruct (key_at key) as [k i] eqn:K. cbn [fst snd] in *.
  pose proof (size_small k) as SM.
  destruct (go_put_ok (go_fixed o) (vals o k) i v) as (l & P & L1 & L2 & L3).
  { rewrite L. change (2 ^ 31) with 2147483648. lia. }
  { change (2 ^ 31) with 2147483648. lia. }
  { intros _. rewrite L. lia. }
  exists (with_vals o k l). split; [exact (go_do_ok o k i v l P)|]. split; [destruct k; exact F|]. split.
  - intros k'. rewrite vals_with. destruct k, k'; cbn [kind_eqb]; rewrite ?L1, ?L; try reflexivity; rewrite L in L1; cbn [size_of es_sizes] in *; lia.
  - intros key'. cbn [last_set]. rewrite C. rewrite vals_with. destruct (es_key_dec key key') as [<-|N].
    + rewrite K. cbn [fst snd]. replace (kind_eqb k k) with true by (destruct k; reflexivity). exact L2.
    + rewrite <- V. destruct (key_at key') as [k' i'] eqn:K'. cbn [fst snd]. pose proof (key_bound key') as B'. rewrite K' in B'. cbn [fst snd] in B'.
      destruct (kind_eqb k' k) eqn:KK; [|reflexivity]. assert (k' = k) by (destruct k, k'; try reflexivity; discriminate KK). subst k'.
      apply L3; [lia|]. intros ->. apply N, key_at_inj. congruence.
Qed.
Lemma get_val done o key : es_inv done o -> element_at (vals o (fst (key_at key))) (snd (key_at key)) = Ok (last_set done key).
Proof.
  intros (F & L & V). pose proof (key_bound key) as B. unfold element_at. rewrite L.
  rewrite (proj2 (Z.leb_le 0 _)) by lia. rewrite (proj2 (Z.ltb_lt _ _)) by lia. cbn [andb]. f_equal. apply V.
Qed.
Lemma es_step_ok done o c : es_inv done o -> exists o', es_step o c = (Ok (es_expected (rev done) c), o') /\ es_inv (c :: done) o'.
Proof.
  intros Inv. unfold es_expected. rewrite rev_involutive.
  assert (G : es_sets c = None -> es_inv (c :: done) o).
  { intros N. destruct Inv as (F & L & V). split; [exact F|]. split; [exact L|]. intros k. cbn [last_set]. rewrite N. apply V. }
  destruct c as [e|e|e|e v|e v|e v]; cbn [es_step es_at].
  - exists o. split; [f_equal; exact (get_val done o (EI e) Inv)|apply G; reflexivity].
  - exists o. split; [f_equal; exact (get_val done o (EF e) Inv)|apply G; reflexivity].
  - exists o. split; [f_equal; exact (get_val done o (ED e) Inv)|apply G; reflexivity].
  - destruct (set_step done o (SetI e v) (EI e) v Inv eq_refl) as (o' & E & I'). cbn [key_at fst snd] in E. rewrite E. exists o'. split; [reflexivity|exact I'].
  - destruct (set_step done o (SetF e v) (EF e) v Inv eq_refl) as (o' & E & I'). cbn [key_at fst snd] in E. rewrite E. exists o'. split; [reflexivity|exact I'].
  - destruct (set_step done o (SetD e v) (ED e) v Inv eq_refl) as (o' & E & I'). cbn [key_at fst snd] in E. rewrite E. exists o'. split; [reflexivity|exact I'].
Qed.
Lemma es_run_ok : forall cs done o, es_inv done o ->
  exists o', es_run o cs = (fst (es_run o cs), o') /\ es_inv (rev cs ++ done) o' /\ length (fst (es_run o cs)) = length cs /\
    forall j c, nth_error cs j = Some c -> nth_error (fst (es_run o cs)) j = Some (Ok (es_expected (rev done ++ firstn j cs) c)).
Proof.
  induction cs as [|c cs IH]; intros done o Inv.
  - exists o. split; [reflexivity|]. split; [exact Inv|]. split; [reflexivity|]. intros [|j] c E; discriminate E.
  - destruct (es_step_ok done o c Inv) as (o1 & E1 & I1). destruct (IH (c :: done) o1 I1) as (o2 & E2 & I2 & L2 & N2).
    cbn [es_run]. rewrite E1. destruct (es_run o1 cs) as [rs o3] eqn:R. cbn [fst] in *. injection E2 as E2. subst o3.
    exists o2. split; [reflexivity|]. split; [cbn [rev]; rewrite <- app_assoc; exact I2|]. split; [cbn [length]; congruence|].
    intros [|j] c' E; cbn [nth_error] in *.
    + injection E as <-. cbn [firstn]. rewrite app_nil_r. reflexivity.
    + rewrite (N2 j c' E). cbn [rev firstn]. rewrite <- app_assoc. reflexivity.
Qed.

Lemma nodup_entries : NoDup (entries "i"%byte es_desc) /\ NoDup (entries "f"%byte es_desc).
Proof.
  split.
  - set (l := entries _ _). vm_compute in l. subst l. repeat (apply NoDup_cons; [intros H; repeat (destruct H as [H|H]; [discriminate H|]); exact H|]). apply NoDup_nil.
  - set (l := entries _ _). vm_compute in l. subst l. repeat (apply NoDup_cons; [intros H; repeat (destruct H as [H|H]; [discriminate H|]); exact H|]). apply NoDup_nil.
Qed.
