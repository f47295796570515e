(** * Typed views of collections and of generic objects: C60, C61 *)

From Verif Require Import Bytes StrMap SioModel SioSpec ObjModel ObjSpec CollSpec EventModel EventSpec EventProofs PostProofs EventFacts EventExamples
  ImplModel ViewModel ViewSpec ViewProofs ViewFixed.

(** ** C60: iterators and typed vectors give the elements of a collection *)

(** An iterator is made if the first element is of the class T (dynamic_cast succeeds), or if there is no
    element or no collection; otherwise an exception is thrown. *)
Theorem C60_made : forall isT,
  it_new isT None = Ok (mkIter 0 0 false) /\
  forall l, Zlen l < 2 ^ 31 ->
    match l with
    | [] => it_new isT (Some l) = Ok (mkIter 0 0 true)
    | p :: _ => (p <> 0 /\ isT p = true -> it_new isT (Some l) = Ok (mkIter (Zlen l) 0 true)) /\
                (p = 0 \/ isT p = false -> it_new isT (Some l) = Throw LException)
    end.
Proof. intros isT. split; [reflexivity|exact (it_new_ok isT)]. Qed.
Print Assumptions C60_made.

(** Whatever is added to the collection in between, the first call of next returns the first element that
    was there when the iterator was made, the second call the second one, and after the last one all
    calls return null. *)
Theorem C60_next : forall isT l it ops, Zlen l < 2 ^ 31 -> Forall (fun p => p = 0 \/ isT p = true) l ->
  it_new isT (Some l) = Ok it -> Forall no_removal ops ->
  length (i_run isT l it ops) = length ops /\
  forall j, nth_error ops j = Some INext -> nth_error (i_run isT l it ops) j = Some (Ok (nth (nexts (firstn j ops)) l 0)).
Proof.
  intros isT l it ops H Ty E N.
  assert (I : it = mkIter (Zlen l) 0 true).
  { pose proof (it_new_ok isT l H) as M. destruct l as [|p l']; [rewrite M in E; injection E as <-; reflexivity|].
    destruct M as (M1 & M2). destruct (Z.eq_dec p 0) as [P|P]; [rewrite M2 in E by tauto; discriminate E|].
    destruct (isT p) eqn:T; [|rewrite M2 in E by tauto; discriminate E]. rewrite M1 in E by tauto. injection E as <-. reflexivity. }
  subst it. pose proof (i_run_ok isT ops l [] 0 H N (Nat.le_0_l _) Ty) as R. rewrite app_nil_r in R. exact R.
Qed.
Print Assumptions C60_next.

(** The loop [while( T* t = it.next() )] ends and is executed for the elements up to the first null pointer,
    in order; that is for all of them if there is none. *)
Theorem C60_while : forall isT l it fuel, Zlen l < 2 ^ 31 -> Forall (fun p => p = 0 \/ isT p = true) l ->
  it_new isT (Some l) = Ok it -> (length l < fuel)%nat ->
  exists v rest, it_while isT fuel l it = Ok v /\ l = v ++ rest /\ ~ In 0 v /\ (rest = [] \/ exists t, rest = 0 :: t).
Proof.
  intros isT l it fuel H Ty E F.
  assert (I : it = mkIter (Zlen l) 0 true).
  { pose proof (it_new_ok isT l H) as M. destruct l as [|p l']; [rewrite M in E; injection E as <-; reflexivity|].
    destruct M as (M1 & M2). destruct (Z.eq_dec p 0) as [P|P]; [rewrite M2 in E by tauto; discriminate E|].
    destruct (isT p) eqn:T; [|rewrite M2 in E by tauto; discriminate E]. rewrite M1 in E by tauto. injection E as <-. reflexivity. }
  subst it. exact (it_while_ok isT fuel l 0 H (Nat.le_0_l _) Ty ltac:(lia)).
Qed.
Print Assumptions C60_while.

(** A typed vector has all elements in order, with null for those of another class; it throws if this is
    so for the first one. *)
Theorem C60_vector : forall isT l, Zlen l < 2 ^ 31 ->
  match l with
  | [] => typed_vector isT l = Ok []
  | p :: _ => (p <> 0 /\ isT p = true -> exists v, typed_vector isT l = Ok v /\ length v = length l /\
                 forall i x, nth_error l i = Some x -> nth_error v i = Some (if isT x then x else 0)) /\
              (p = 0 \/ isT p = false -> typed_vector isT l = Throw LException)
  end.
Proof.
  intros isT l H. pose proof (typed_vector_ok isT l H) as M. destruct l as [|p l']; [exact M|]. destruct M as (M1 & M2). split; [|exact M2].
  intros T. exists (map (dyn_cast isT) (p :: l')). split; [exact (M1 T)|]. split; [apply map_length|]. intros i x E.
  rewrite (map_nth_error (dyn_cast isT) i (p :: l') E). unfold dyn_cast. destruct (Z.eqb_spec x 0) as [->|N]; [destruct (isT 0)|]; reflexivity.
Qed.
Print Assumptions C60_vector.
Theorem C60_handle : forall isT p, (p <> 0 /\ isT p = true -> handle isT p = Ok p) /\ (p = 0 \/ isT p = false -> handle isT p = Throw LException).
Proof.
  intros isT p. unfold handle. split.
  - intros (N & T). rewrite (dyn_same isT p N T). destruct (Z.eqb_spec p 0); [contradiction|reflexivity].
  - intros T. rewrite (proj2 (dyn_zero isT p) T). reflexivity.
Qed.
Print Assumptions C60_handle.

(** elements 10 to 19 are of the class *)
Definition ex_T (p : addr) : bool := (10 <=? p) && (p <? 20).
Example C60_case : exists it, it_new ex_T (Some [10; 11; 12]) = Ok it /\
  i_run ex_T [10; 11; 12] it [INext; IAdd 13; INext; INext; INext] = [Ok 10; Ok 0; Ok 11; Ok 12; Ok 0] /\
  it_while ex_T 4 [10; 11; 12] it = Ok [10; 11; 12] /\ it_size it = 3 /\
  typed_vector ex_T [10; 30; 12] = Ok [10; 0; 12] /\ typed_vector ex_T [30; 10] = Throw LException /\ it_new ex_T (Some [30]) = Throw LException.
Proof. eexists. repeat split; vm_compute; reflexivity. Qed.

(** "a loop over a collection sees all its elements" is false if there is a null pointer among them. *)
Theorem C60_null_element_refuted : exists isT l it, it_new isT (Some l) = Ok it /\ In 12 l /\ isT 12 = true /\ forall fuel, (2 <= fuel)%nat -> it_while isT fuel l it = Ok [10].
Proof.
  exists ex_T, [10; 0; 12], (mkIter 3 0 true). split; [reflexivity|]. split; [cbn [In]; tauto|]. split; [reflexivity|].
  intros fuel H. destruct fuel as [|[|f]]; [lia..|]. reflexivity.
Qed.
Print Assumptions C60_null_element_refuted.
(** "what next returns is a T" is false for a collection with elements of different classes: only the first
    element is checked, and using the result of the cast is undefined. *)
Theorem C60_other_class_refuted : exists isT l it, it_new isT (Some l) = Ok it /\ i_run isT l it [INext; INext] = [Ok 10; UB UBPrecondition].
Proof. exists ex_T, [10; 30], (mkIter 2 0 true). split; vm_compute; reflexivity. Qed.
Print Assumptions C60_other_class_refuted.
(** "an iterator stays within the collection" is false if elements are removed. *)
Theorem C60_removed_refuted : exists isT l it, it_new isT (Some l) = Ok it /\ i_run isT l it [INext; IRemove 0; INext] = [Ok 10; Ok 0; UB UBOutOfBounds].
Proof. exists ex_T, [10; 11], (mkIter 2 0 true). split; vm_compute; reflexivity. Qed.
Print Assumptions C60_removed_refuted.

(** ** C61: fixed objects are views of their data *)

(** Any program that makes generic objects, fixed objects and views of them, sets and asks for values through
    any of them and deletes them: as long as nothing is used after it or its data was deleted, and values are
    within the sizes, no call is undefined; a view is made if and only if the sizes are those of the data;
    and a value asked for through one of the views is the one that was last set through any of them. *)
Theorem C61_views : forall ops, all_allowed [] ops (fst (v_run vinit ops)) -> all_expected [] ops (fst (v_run vinit ops)).
Proof. intros ops A. exact (proj1 (run_ok ops [] vinit inv_init A)). Qed.
Print Assumptions C61_views.

(** When all objects that were made are deleted, nothing is left in the memory. *)
Theorem C61_nothing_left : forall ops, all_allowed [] ops (fst (v_run vinit ops)) ->
  (forall v, alive (after [] ops (fst (v_run vinit ops))) v = false) -> forall x, vs_mem (snd (v_run vinit ops)) x = None.
Proof. exact nothing_left. Qed.
Print Assumptions C61_nothing_left.

(** Two fixed objects, a view of the first, a view with other numbers, which is refused; a value set through
    the view is seen through the first object. *)
Definition ex_views : list vop :=
  [VNew (2, 0, 1); VSet 2 KInt 0 1; VWrap (2, 0, 1) 2; VWrap (2, 1, 1) 2; VSet 3 KInt 1 (-2); VSet 3 KDouble 0 7;
   VGet 2 KInt 1; VGet 3 KInt 0; VSize 3 KDouble; VObj (mkGO [5] [6] [] false [] []); VWrap (1, 1, 0) 4; VSet 5 KFloat 0 9; VGet 4 KFloat 0;
   VWrap (2, 0, 1) 0; VUser; VWrap (1, 1, 0) 6].
Definition ex_deletes : list vop := [VDelete 3; VDelete 2; VDelete 4; VDelete 5; VDelete 6].
Ltac av := match goal with
  | |- allowed _ (VObj _) => intros []; reflexivity
  | |- allowed _ VUser => exact I
  | |- allowed _ (VNew _) => intros []; cbn; lia
  | |- allowed _ (VWrap _ 0) => split; [intros []; cbn; lia|left; reflexivity]
  | |- allowed _ (VWrap _ _) => split; [intros []; cbn; lia|right; split; reflexivity]
  | |- allowed _ (VSet _ _ _ _) => eexists; split; [split; [reflexivity|split; reflexivity]|split; [lia|intros _; cbn; lia]]
  | |- allowed _ (VGet _ _ _) => eexists; split; [split; [reflexivity|split; reflexivity]|cbn; lia]
  | |- allowed _ (VSize _ _) => split; [reflexivity|discriminate]
  | |- allowed _ (VDelete _) => right; reflexivity
  end.
Example C61_case :
  fst (v_run vinit ex_views) = map Ok [OAddr 2; ODone; OAddr 3; OExc; ODone; ODone; OVal (-2); OVal 1; OVal 1; OAddr 4; OAddr 5; ODone; OVal 9; OExc; OAddr 6; OExc] /\
  all_allowed [] (ex_views ++ ex_deletes) (fst (v_run vinit (ex_views ++ ex_deletes))) /\
  (forall v, alive (after [] (ex_views ++ ex_deletes) (fst (v_run vinit (ex_views ++ ex_deletes)))) v = false).
Proof.
  split; [vm_compute; reflexivity|].
  assert (E : fst (v_run vinit (ex_views ++ ex_deletes)) =
    map Ok ([OAddr 2; ODone; OAddr 3; OExc; ODone; ODone; OVal (-2); OVal 1; OVal 1; OAddr 4; OAddr 5; ODone; OVal 9; OExc; OAddr 6; OExc] ++ [ODone; ODone; ODone; ODone; ODone]))
    by (vm_compute; reflexivity).
  rewrite E. split.
  - cbn [ex_views ex_deletes map app all_allowed]. repeat (split; [av|]). exact I.
  - intros v. cbn [ex_views ex_deletes map app after alive].
    repeat match goal with |- context [v =? ?n] => destruct (v =? n) eqn:?; [reflexivity|] end. reflexivity.
Qed.

(** A view [v] of any program is an element of a collection of generic objects that is written and read.
    A view of the object that was read, with the same numbers, is made and has the same values. *)
Theorem C61_stored : forall srt ignore_null only names h e buf1 buf2 new next nm c s v n p cr type desc g i a,
  event_ok only h e -> event_fits only h e -> usable buf1 -> usable buf2 ->
  0 < next -> numbers new (event_objs only names h e) next -> mc_links_ok h (read_back only names e) ->
  ignore_null = true \/ subsets_ok h (event_tags only names h e) (read_back only names e) ->
  In (nm, c) (read_back only names e) -> c_type c = str "LCGenericObject" -> is_subset c = false ->
  nth_error (c_elems c) i = Some a -> h a = Some (OGO g) ->
  vs_mem s v = Some (VFix n p cr) -> v <> 0 -> int_sizes n -> seen s v type desc = Ok g ->
  exists e' h' n' c' a' o', store_read srt ignore_null only names h e buf1 buf2 next = Ok (e', h', n') /\
    In (nm, c') (ev_cols e') /\ nth_error (c_elems c') i = Some a' /\ h' a' = Some (OGO o') /\
    forall s1 x1 s2, 0 < vs_next s1 -> v_step s1 (VObj o') = (Ok (OAddr x1), s2) ->
    exists w s3, v_step s2 (VWrap n x1) = (Ok (OAddr w), s3) /\
      forall k j, 0 <= j < size_of n k -> exists z, fst (v_step s (VGet v k j)) = Ok (OVal z) /\ fst (v_step s3 (VGet w k j)) = Ok (OVal z).
Proof.
  intros srt ignore_null only names h e buf1 buf2 new next nm c s v n p cr type desc g i a E1 E2 U1 U2 N1 N2 L1 L2 In1 T1 S1 A1 G V V0 Hn Hs.
  destruct (generic_read srt ignore_null only names h e buf1 buf2 new next nm c E1 E2 U1 U2 N1 N2 L1 L2 In1 T1 S1) as (e' & h' & n' & c' & R & IC & _ & F).
  destruct (F i a A1) as (o & a' & o' & Ho & A' & H' & V1 & V2 & V3 & _). assert (o = g) by congruence. subst o.
  exists e', h', n', c', a', o'. split; [exact R|]. split; [exact IC|]. split; [exact A'|]. split; [exact H'|]. intros s1 x1 s2 P E.
  exact (stored_view s v n p cr type desc g o' s1 x1 s2 V V0 Hn Hs V1 V2 V3 P E).
Qed.
Print Assumptions C61_stored.
(** the first object of the program above is an element of the collection in the event of C11 and C38 *)
Example C61_stored_case : In (str "Usr", ex_usr) (read_back [] [] ex_event) /\ nth_error (c_elems ex_usr) 0 = Some 20 /\
  exists g, ex_heap 20 = Some (OGO g) /\ seen (snd (v_run vinit ex_views)) 2 (str "Calib") (str "i:a,i:b,d:c") = Ok g /\
    vs_mem (snd (v_run vinit ex_views)) 2 = Some (VFix (2, 0, 1) 1 true) /\ int_sizes (2, 0, 1).
Proof. split; [vm_compute; tauto|]. split; [reflexivity|]. eexists. split; [reflexivity|]. split; [vm_compute; reflexivity|]. split; [vm_compute; reflexivity|]. intros []; cbn; lia. Qed.

(** "objects are deleted once" is false for copies: the data is deleted with the first of the two. *)
Theorem C61_copy_refuted : fst (v_run vinit [VNew (1, 2, 0); VCopy 2; VDelete 2; VDelete 3]) = [Ok (OAddr 2); Ok (OAddr 3); Ok ODone; UB UBPrecondition].
Proof. vm_compute. reflexivity. Qed.
Print Assumptions C61_copy_refuted.
(** "a view keeps its data" is false: it is used after it was deleted with the object. *)
Theorem C61_outlived_refuted : fst (v_run vinit [VNew (1, 2, 0); VWrap (1, 2, 0) 2; VDelete 2; VGet 3 KInt 0]) = [Ok (OAddr 2); Ok (OAddr 3); Ok ODone; UB UBPrecondition].
Proof. vm_compute. reflexivity. Qed.
Print Assumptions C61_outlived_refuted.
(** "the numbers of values of a view are those of its data" is false for data of a variable size that was
    changed: the view has 1 value, a second view is refused, and a file gets one of two values. *)
Theorem C61_grown_refuted : exists ops s, v_run vinit ops = ([Ok (OAddr 1); Ok (OAddr 2); Ok ODone; Ok (OVal 1); Ok (OVal 2); Ok OExc], s) /\
  nth_error ops 3 = Some (VSize 2 KInt) /\ nth_error ops 4 = Some (VSize 1 KInt) /\ nth_error ops 5 = Some (VWrap (1, 0, 0) 2) /\
  exists g, seen s 2 [] [] = Ok g /\ go_int g = [5].
Proof.
  exists [VObj (mkGO [5] [] [] false [] []); VWrap (1, 0, 0) 1; VSet 2 KInt 1 6; VSize 2 KInt; VSize 1 KInt; VWrap (1, 0, 0) 2]. eexists. split; [vm_compute; reflexivity|].
  split; [reflexivity|]. split; [reflexivity|]. split; [reflexivity|]. eexists. split; [vm_compute; reflexivity|reflexivity].
Qed.
Print Assumptions C61_grown_refuted.
