(** * Everything is deleted exactly once

    The rules of ownership are in OwnSpec. *)

From Verif Require Import Bytes StrMap SioModel ObjModel EventModel ImplModel OwnModel OwnSpec OwnProofs.

(** ** C53: a program that follows the rules never deletes something that does not exist, and what exists
    in the end is exactly what has an owner *)
Theorem C53_deleted_once : forall l w',
  follows own_init nobody l w' ->
  exists s', own_run own_init l = Ok s' /\ forall y, o_mem s' y <> None <-> w' y <> None.
Proof.
  intros l w' H. destruct (run_ok _ _ _ _ H inv_init) as (s' & E & I). exists s'. split; [exact E|].
  intros y. pose proof (i_live _ _ I y). tauto.
Qed.
Print Assumptions C53_deleted_once.

(** If the program has given everything away when it deletes the event, nothing is left. *)
Theorem C53_nothing_left : forall l w',
  follows own_init nobody (l ++ [O_deleteEvent]) w' -> (forall y, w' y <> Some ByUser) ->
  exists s', own_run own_init (l ++ [O_deleteEvent]) = Ok s' /\ forall y, o_mem s' y = None.
Proof.
  intros l w' H Hu. destruct (run_ok _ _ _ _ H inv_init) as (s' & E & I). exists s'. split; [exact E|].
  assert (Hc : o_cols s' = []).
  { clear - E. revert E. generalize own_init. induction l as [|c l IH]; intros s E.
    - cbn [app own_run own_do] in E. unfold on_event in E. destruct (o_alive s); [|discriminate].
      destruct (delete_collections _ _ _) eqn:Ed; cbn [bind] in E; [injection E as <-; reflexivity| |discriminate].
      exfalso. apply (delete_collections_nothrow _ _ _ _ Ed).
    - cbn [app own_run] in E. destruct (own_do s c); [apply (IH _ E)|apply (IH _ E)|discriminate]. }
  assert (He : forall y, w' y <> Some ByEvent).
  { intros y Hy. destruct (i_byevent _ _ I _ Hy) as (_ & [n Hn] & _). rewrite Hc in Hn. discriminate. }
  assert (Hcoll : forall y c, w' y <> Some (ByColl c)).
  { intros y c Hy. destruct (bycoll_owner _ _ _ _ I Hy) as [X|X]; [apply (Hu _ X)|apply (He _ X)]. }
  assert (Hobj : forall y o, w' y <> Some (ByObject o)).
  { intros y o Hy. destruct (byobj_owner _ _ _ _ I Hy) as [X|[c X]]; [apply (Hu _ X)|apply (Hcoll _ _ X)]. }
  intros y. apply (i_live _ _ I). destruct (w' y) as [[| |c|o]|] eqn:Ey; [|..|reflexivity]; exfalso.
  - apply (Hu _ Ey).
  - apply (He _ Ey).
  - apply (Hcoll _ _ Ey).
  - apply (Hobj _ _ Ey).
Qed.
Print Assumptions C53_nothing_left.

(** a program: two tracks with states and a copy of one of them in a collection, a subset of it, a
    collection that is taken, an element that is removed *)
Definition nmA : bytes := [x61].
Definition nmB : bytes := [x62].
Definition nmC : bytes := [x63].
Definition ex_own : list ocall :=
  [O_newCollection 1; O_newObject 2; O_newPart 3; O_givePart 2 3; O_addElement 1 2;
   O_newObject 4; O_addElement 1 4; O_copyDeep 5 2 [6]; O_addElement 1 5;
   O_addCollection 1 nmA; O_addCollection 1 nmA;
   O_newCollection 7; O_setSubset 7 true; O_addElement 7 2; O_addElement 7 4; O_addCollection 7 nmB;
   O_newCollection 8; O_newObject 9; O_addElement 8 9; O_addCollection 8 nmC; O_takeCollection nmC;
   O_removeElementAt 1 1; O_deleteObject 4; O_deleteEvent].

Ltac free_tac := split; [discriminate|reflexivity].
Ltac call_tac R := eapply F_call; [R|cbn; let s := fresh in let E := fresh in intros s E; injection E as <-|cbn; intros; discriminate].
Ltac fails_tac R := eapply F_call; [R|cbn; intros; discriminate|cbn; let x := fresh in let E := fresh in intros x E; clear x E].
Example C53_case : exists w', follows own_init nobody ex_own w' /\
  map w' [1; 2; 3; 4; 5; 6; 7; 8; 9] = [None; None; None; None; None; None; None; Some ByUser; Some (ByColl 8)].
Proof.
  eexists. split.
  - unfold ex_own.
    call_tac ltac:(apply R_newCollection; [free_tac|intros []]).
    call_tac ltac:(apply R_newObject; free_tac).
    call_tac ltac:(apply R_newPart; free_tac).
    call_tac ltac:(eapply R_givePart; reflexivity).
    call_tac ltac:(eapply R_addElement; [reflexivity|reflexivity|right; eexists; reflexivity]).
    call_tac ltac:(apply R_newObject; free_tac).
    call_tac ltac:(eapply R_addElement; [reflexivity|reflexivity|right; eexists; reflexivity]).
    call_tac ltac:(eapply R_copyDeep; [free_tac|reflexivity|reflexivity| |];
      [repeat constructor; cbn; intuition discriminate|intros p [<-|[]]; free_tac]).
    call_tac ltac:(eapply R_addElement; [reflexivity|reflexivity|right; eexists; reflexivity]).
    call_tac ltac:(eapply R_addCollection; try reflexivity; intros []).
    fails_tac ltac:(eapply R_addRefused; [reflexivity|right; left; discriminate]).
    call_tac ltac:(apply R_newCollection; [free_tac|intros []]).
    call_tac ltac:(eapply R_setSubset; reflexivity).
    call_tac ltac:(eapply R_addReference; reflexivity).
    call_tac ltac:(eapply R_addReference; reflexivity).
    call_tac ltac:(eapply R_addCollection; try reflexivity; intros []).
    call_tac ltac:(apply R_newCollection; [free_tac|intros []]).
    call_tac ltac:(apply R_newObject; free_tac).
    call_tac ltac:(eapply R_addElement; [reflexivity|reflexivity|right; eexists; reflexivity]).
    call_tac ltac:(eapply R_addCollection; try reflexivity; intros []).
    call_tac ltac:(eapply R_takeCollection; reflexivity).
    call_tac ltac:(eapply R_removeElement; [reflexivity|lia|reflexivity|discriminate]).
    call_tac ltac:(eapply R_deleteObject; [reflexivity|right; eexists; reflexivity]).
    call_tac ltac:(eapply R_deleteEvent; reflexivity).
    apply F_nil.
  - vm_compute. reflexivity.
Qed.
(** the subset refers to the deleted element 4, which does no harm; the taken collection and its element
    are left for the program *)
Example C53_case_run :
  match own_run own_init ex_own with
  | Ok s => map (fun y => match o_mem s y with Some _ => true | None => false end) [1; 2; 3; 4; 5; 6; 7; 8; 9]
            = [false; false; false; false; false; false; false; true; true]
  | _ => False
  end.
Proof. vm_compute. reflexivity. Qed.

(** ** where the library accepts a program that does not follow the rules *)

(** addCollection accepts the same collection under two names; ~LCEventImpl deletes it twice. *)
Theorem C53_two_names_refuted : exists l, own_run own_init l = UB UBPrecondition /\
  l = [O_newCollection 1; O_addCollection 1 nmA; O_addCollection 1 nmB; O_deleteEvent].
Proof. eexists. split; [|reflexivity]. vm_compute. reflexivity. Qed.
Print Assumptions C53_two_names_refuted.

(** An object in two collections, neither of which is a subset, is deleted twice. *)
Theorem C53_shared_element_refuted : exists l, own_run own_init l = UB UBPrecondition /\
  l = [O_newCollection 1; O_newCollection 2; O_newObject 3; O_addElement 1 3; O_addElement 2 3;
       O_addCollection 1 nmA; O_addCollection 2 nmB; O_deleteEvent].
Proof. eexists. split; [|reflexivity]. vm_compute. reflexivity. Qed.
Print Assumptions C53_shared_element_refuted.

(** The defaulted copy constructor of ReconstructedParticleImpl (and the implicit ones of ClusterImpl and
    SimCalorimeterHitImpl) copies the pointers to the parts, which both destructors delete. *)
Theorem C53_shallow_copy_refuted : exists l, own_run own_init l = UB UBPrecondition /\
  l = [O_newObject 1; O_newPart 2; O_givePart 1 2; O_copyShallow 3 1; O_deleteObject 1; O_deleteObject 3].
Proof. eexists. split; [|reflexivity]. vm_compute. reflexivity. Qed.
Print Assumptions C53_shallow_copy_refuted.

(** takeCollection is never forgotten: a collection that was taken, removed and added again is not deleted
    with the event. *)
Theorem C53_taken_again_refuted : exists s', own_run own_init
    [O_newCollection 1; O_addCollection 1 nmA; O_takeCollection nmA; O_removeCollection nmA;
     O_addCollection 1 nmB; O_deleteEvent] = Ok s' /\ o_mem s' 1 <> None.
Proof. eexists. split; [vm_compute; reflexivity|]. vm_compute. discriminate. Qed.
Print Assumptions C53_taken_again_refuted.

(** Nor is another collection that happens to have the address of a taken one that was deleted. *)
Theorem C53_reused_address_refuted : exists s', own_run own_init
    [O_newCollection 1; O_addCollection 1 nmA; O_takeCollection nmA; O_deleteCollection 1;
     O_newCollection 1; O_addCollection 1 nmB; O_deleteEvent] = Ok s' /\ o_mem s' 1 <> None.
Proof. eexists. split; [vm_compute; reflexivity|]. vm_compute. discriminate. Qed.
Print Assumptions C53_reused_address_refuted.

(** A collection that was taken stays in the event under its name: looking at it after deleting it is
    undefined. *)
Theorem C53_taken_deleted_refuted : exists l, own_run own_init l = UB UBPrecondition /\
  l = [O_newCollection 1; O_addCollection 1 nmA; O_takeCollection nmA; O_deleteCollection 1; O_takeCollection nmA].
Proof. eexists. split; [|reflexivity]. vm_compute. reflexivity. Qed.
Print Assumptions C53_taken_deleted_refuted.

(** ** the bookkeeping of the event is that of ImplModel *)
Definition same_books (w : world) (s : ostate) : Prop :=
  es_cols (w_ev w) = o_cols s /\ es_notowned (w_ev w) = o_taken s /\ es_ro (w_ev w) = false /\ o_alive s = true /\
  forall a, w_col w a = None <-> ~ exists b es, o_mem s a = Some (KColl b es).
Definition same_call (v : evcall) (c : ocall) : Prop :=
  match v, c with
  | V_take n, O_takeCollection n' => n = n'
  | V_add a n, O_addCollection a' n' => a = a' /\ n = n'
  | V_remove n, O_removeCollection n' => n = n'
  | _, _ => False
  end.
Theorem C53_same_books : forall w s v c, same_books w s -> same_call v c ->
  match ev_do w v, own_do s c with
  | (w', Ok _), Ok s' => same_books w' s'
  | (w', Throw x), Throw y => x = y /\ same_books w' s
  | (_, UB _), UB _ => True
  | _, _ => False
  end.
Proof.
  intros w s v c (H1 & H2 & H3 & H4 & H5) Hc. pose proof H5 as H5'.
  assert (S : same_books w s) by (repeat split; try assumption; apply H5).
  destruct v; destruct c; try contradiction; cbn [same_call] in Hc.
  - subst name0. cbn [ev_do own_do]. unfold on_event, ev_get. rewrite H1, H4.
    destruct (sm_get name (o_cols s)) as [a|] eqn:Eg; [|split; [reflexivity|exact S]].
    destruct (w_col w a) as [[ro cc]|] eqn:Ew.
    + cbn [coll_do unguarded]. destruct (o_mem s a) as [[| |b es]|] eqn:Em.
      1,2,4: exfalso; assert (X : w_col w a = None) by (apply H5; intros (b & es & X); congruence); congruence.
      cbn. repeat split; cbn; try assumption; try congruence.
      * unfold put. intros Hn (b' & es' & Hx). destruct (Z.eqb_spec a0 a); [discriminate|]. apply (proj1 (H5 a0) Hn). eauto.
      * unfold put. intros Hn. destruct (Z.eqb_spec a0 a) as [->|?]; [exfalso; apply Hn; eauto|]. apply H5. exact Hn.
    + destruct (o_mem s a) as [[| |b es]|] eqn:Em; try exact Logic.I. exfalso. apply (proj1 (H5 a) Ew). eauto.
  - destruct Hc as [-> ->]. cbn [ev_do own_do]. unfold on_event, ev_add. rewrite H1, H4.
    destruct (negb (validate name0)); cbn [fst snd]; [split; [reflexivity|]; destruct w; exact S|].
    destruct (sm_get name0 (o_cols s)); cbn [fst snd]; [split; [reflexivity|]; destruct w; exact S|].
    destruct (c =? 0); cbn [fst snd]; [split; [reflexivity|]; destruct w; exact S|].
    repeat split; cbn; try assumption; try congruence; apply H5.
  - subst name0. cbn [ev_do own_do]. unfold on_event, ev_remove, guarded. rewrite H1, H3, H4. cbn.
    repeat split; cbn; try assumption; try congruence; apply H5.
Qed.
Print Assumptions C53_same_books.

(** ** events that were read *)
From Verif Require Import EventSpec EventProofs EventFacts EventExamples OwnReadSpec OwnReadProofs.

(** Whatever the bytes of the two records are: if an event is read from them, every object belongs to exactly one collection
    and every collection to the event, and a program that follows the rules from there on never deletes something that does not
    exist; what exists in the end is exactly what has an owner. *)
Theorem C53_read_program : forall srt ign names hdata edata next e h next' place parts s, 0 < next ->
  read_event srt ign names hdata edata next = Ok (e, h, next') -> in_memory place parts e h s ->
  exists w, owned_as_read s w /\
    forall l w', follows s w l w' -> exists s', own_run s l = Ok s' /\ forall y, o_mem s' y <> None <-> w' y <> None.
Proof. exact read_program. Qed.
Print Assumptions C53_read_program.

(** Deleting the event leaves nothing of what was read. *)
Theorem C53_read_deleted : forall srt ign names hdata edata next e h next' place parts s, 0 < next ->
  read_event srt ign names hdata edata next = Ok (e, h, next') -> in_memory place parts e h s ->
  exists s', own_do s O_deleteEvent = Ok s' /\ forall y, o_mem s' y = None.
Proof. exact read_deleted. Qed.
Print Assumptions C53_read_deleted.

(** four collections, one of them a subset, with six objects, one of which has two contributions *)
Definition ex_hd : bytes := match write_header_record ex_buf [] ex_event with Ok (r, b) => rec_data r (b_bytes b) | _ => [] end.
Definition ex_ed : bytes := match write_event_record ex_buf [] ex_heap ex_event with Ok (_, r, b) => rec_data r (b_bytes b) | _ => [] end.
Definition ex_place (n : bytes) : addr :=
  match n with Init.Byte.x47 :: _ => 1 | Init.Byte.x48 :: _ => 2 | Init.Byte.x53 :: _ => 3 | _ => 4 end.
Definition ex_parts (a : addr) : list addr := if a =? 1003 then [2001; 2000] else [].
Definition ex_mem (cols : list (bytes * coll)) : memory := fun y =>
  match find (fun nc => ex_place (fst nc) =? y) cols with
  | Some nc => Some (KColl (Z.testbit (c_flag (snd nc)) 18) (c_elems (snd nc)))
  | None => if (1000 <=? y) && (y <=? 1005) then Some (KObj (ex_parts y)) else if (2000 <=? y) && (y <=? 2001) then Some KPart else None
  end.
Example C53_read_case : exists e h, read_event isort false [] ex_hd ex_ed 1000 = Ok (e, h, 1006) /\
  map (fun nc => (Z.testbit (c_flag (snd nc)) 18, c_elems (snd nc))) (ev_cols e) =
    [(false, [1000; 1001; 1002]); (false, [1003]); (true, [1002; 1000]); (false, [1004; 1005])] /\
  in_memory ex_place ex_parts e h
    (mkO (ex_mem (ev_cols e)) (map (fun nc => (fst nc, ex_place (fst nc))) (ev_cols e)) [] true).
Proof.
  destruct (read_event isort false [] ex_hd ex_ed 1000) as [[[e h] n]| |] eqn:E; [|exfalso; vm_compute in E; discriminate..].
  assert (En : n = 1006 /\ map (fun nc => (fst nc, Z.testbit (c_flag (snd nc)) 18, c_elems (snd nc))) (ev_cols e) =
    [(str "Gen", false, [1000; 1001; 1002]); (str "Hits", false, [1003]); (str "Sel", true, [1002; 1000]); (str "Usr", false, [1004; 1005])]).
  { assert (X : match read_event isort false [] ex_hd ex_ed 1000 with
      | Ok (e, _, n) => (n, map (fun nc => (fst nc, Z.testbit (c_flag (snd nc)) 18, c_elems (snd nc))) (ev_cols e)) | _ => (0, []) end =
      (1006, [(str "Gen", false, [1000; 1001; 1002]); (str "Hits", false, [1003]); (str "Sel", true, [1002; 1000]); (str "Usr", false, [1004; 1005])])).
    { vm_compute. reflexivity. }
    rewrite E in X. injection X as -> X. auto. }
  destruct En as [-> Ec]. exists e, h. split; [reflexivity|].
  apply event_as_read in E; [|lia]. clear - E Ec. destruct e as [run num tm det par cols]. cbn [ev_cols] in *.
  destruct cols as [|[n1 [t1 f1 p1 l1]] cols]; [discriminate Ec|]. destruct cols as [|[n2 [t2 f2 p2 l2]] cols]; [discriminate Ec|].
  destruct cols as [|[n3 [t3 f3 p3 l3]] cols]; [discriminate Ec|]. destruct cols as [|[n4 [t4 f4 p4 l4]] cols]; [discriminate Ec|].
  destruct cols; [|discriminate Ec].
  cbn [map fst snd c_flag c_elems] in Ec. injection Ec as -> F1 -> -> F2 -> -> F3 -> -> F4 ->.
  change (Z.testbit f1 18 = false) in F1. change (Z.testbit f2 18 = false) in F2. change (Z.testbit f3 18 = true) in F3. change (Z.testbit f4 18 = false) in F4.
  assert (D : forall a, h a <> None -> 1000 <= a <= 1005).
  { intros a Ha. destruct (ar_all _ _ E _ Ha) as (k & c & Hi & Hb & He). cbn [ev_cols In] in Hi.
    destruct Hi as [Hi|[Hi|[Hi|[Hi|[]]]]]; injection Hi as <- <-; cbn [c_flag c_elems In] in *; try congruence; lia. }
  split; [cbn [map fst snd c_flag c_elems]; rewrite F1, F2, F3, F4; reflexivity|].
  assert (M : forall y, 4 < y -> ex_mem (ev_cols (mkEvt run num tm det par
     [(str "Gen", mkColl t1 f1 p1 [1000; 1001; 1002]); (str "Hits", mkColl t2 f2 p2 [1003]);
      (str "Sel", mkColl t3 f3 p3 [1002; 1000]); (str "Usr", mkColl t4 f4 p4 [1004; 1005])])) y =
     if (1000 <=? y) && (y <=? 1005) then Some (KObj (ex_parts y)) else if (2000 <=? y) && (y <=? 2001) then Some KPart else None).
  { intros y Hy. unfold ex_mem. cbn [ev_cols find fst].
    change (ex_place (str "Gen")) with 1. change (ex_place (str "Hits")) with 2. change (ex_place (str "Sel")) with 3. change (ex_place (str "Usr")) with 4.
    destruct (Z.eqb_spec 1 y); [lia|]. destruct (Z.eqb_spec 2 y); [lia|]. destruct (Z.eqb_spec 3 y); [lia|]. destruct (Z.eqb_spec 4 y); [lia|]. reflexivity. }
  cbn [ev_cols] in M.
  constructor; cbn [o_alive o_taken o_cols o_mem ev_cols]; try reflexivity.
  - intros n c [H|[H|[H|[H|[]]]]]; injection H as <- <-; reflexivity.
  - intros n n' H H'. cbn [map fst In] in H, H'.
    destruct H as [<-|[<-|[<-|[<-|[]]]]], H' as [<-|[<-|[<-|[<-|[]]]]]; vm_compute; intros X; first [reflexivity|discriminate X].
  - intros a Ha. apply D in Ha. rewrite M by lia. destruct (Z.leb_spec 1000 a); [|lia]. destruct (Z.leb_spec a 1005); [|lia]. reflexivity.
  - intros a p Ha Hp. unfold ex_parts in Hp. destruct (a =? 1003); [|destruct Hp]. destruct Hp as [<-|[<-|[]]]; reflexivity.
  - intros a Ha. unfold ex_parts. destruct (a =? 1003); [|constructor]. constructor; [intros [X|[]]; discriminate X|]. constructor; [intros []|constructor].
  - intros a b p _ _ Ha Hb. unfold ex_parts in Ha, Hb. destruct (Z.eqb_spec a 1003); [|destruct Ha]. destruct (Z.eqb_spec b 1003); [|destruct Hb]. congruence.
  - intros y Hy. destruct (Z_le_gt_dec y 4) as [Hle|Hgt].
    + left. unfold ex_mem in Hy. cbn [find fst] in Hy.
      change (ex_place (str "Gen")) with 1 in Hy. change (ex_place (str "Hits")) with 2 in Hy. change (ex_place (str "Sel")) with 3 in Hy. change (ex_place (str "Usr")) with 4 in Hy.
      destruct (Z.eqb_spec 1 y) as [Q|Q1]; [subst y; exists (str "Gen"); split; [left|]; reflexivity|].
      destruct (Z.eqb_spec 2 y) as [Q|Q2]; [subst y; exists (str "Hits"); split; [right; left|]; reflexivity|].
      destruct (Z.eqb_spec 3 y) as [Q|Q3]; [subst y; exists (str "Sel"); split; [right; right; left|]; reflexivity|].
      destruct (Z.eqb_spec 4 y) as [Q|Q4]; [subst y; exists (str "Usr"); split; [right; right; right; left|]; reflexivity|].
      exfalso. destruct (Z.leb_spec 1000 y); [lia|]. destruct (Z.leb_spec 2000 y); [lia|]. apply Hy. reflexivity.
    + right. rewrite M in Hy by lia.
      destruct ((1000 <=? y) && (y <=? 1005)) eqn:B.
      * left. apply andb_true_iff in B. destruct B as [B1 B2]. apply Z.leb_le in B1, B2.
        assert (K : forall n c, In (n, c) [(str "Gen", mkColl t1 f1 p1 [1000; 1001; 1002]); (str "Hits", mkColl t2 f2 p2 [1003]);
           (str "Usr", mkColl t4 f4 p4 [1004; 1005])] -> In y (c_elems c) -> h y <> None).
        { intros n c Hi He. eapply (ar_elems _ _ E n c); [|..|exact He].
          - cbn [ev_cols In] in *. tauto.
          - cbn [In] in Hi. destruct Hi as [X|[X|[X|[]]]]; injection X as <- <-; assumption. }
        assert (C : y = 1000 \/ y = 1001 \/ y = 1002 \/ y = 1003 \/ y = 1004 \/ y = 1005) by lia.
        destruct C as [C|[C|[C|[C|[C|C]]]]]; subst y;
          first [eapply K; [left; reflexivity|cbn; tauto]|eapply K; [right; left; reflexivity|cbn; tauto]|eapply K; [right; right; left; reflexivity|cbn; tauto]].
      * right. destruct ((2000 <=? y) && (y <=? 2001)) eqn:B'; [|destruct Hy; reflexivity]. exists 1003.
        apply andb_true_iff in B'. destruct B' as [B1 B2]. apply Z.leb_le in B1, B2. split.
        { eapply (ar_elems _ _ E (str "Hits")); [cbn [ev_cols In]; right; left; reflexivity|exact F2|left; reflexivity]. }
        cbn. lia.
Qed.
