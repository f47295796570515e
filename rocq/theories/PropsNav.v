(** * Relations

    [nav_run] is a program on a navigator between objects of the types [f] and [t]; adding floating point
    weights is any function [fadd].  [run1], [runn] and [run1n] are programs on the 1-to-1, N-to-N and
    1-to-N relations that objects carry at run time. *)

From Coq Require Import ZArith List Bool Permutation Lia.
From Verif Require Import Bytes SioModel ObjModel ObjSpec NavModel NavSpec NavProofs.
Import ListNotations.
Open Scope Z_scope.

(** a program for the cases: weights 1, 0.5 and 2 *)
Definition some_calls : list nav_call :=
  [NAdd 1 11 f32_one; NAdd 2 11 1056964608; NAskTo 7; NAdd 1 12 f32_one; NAdd 2 12 1073741824; NRemove 1 12; NAdd 2 11 5].

(** ** C24 *)

(** C24: every program runs, and afterwards the objects and weights at [a] are those of the pairs with [a]
    that the program left, each object once; likewise in the reverse direction *)
Theorem C24_answers : forall fadd f t cs, exists n, nav_run fadd (mkNav [] [] f t) cs = Ok n /\ n_from n = f /\ n_to n = t /\
  forall a,
    (length (to_objects n a) = length (to_weights n a) /\ NoDup (to_objects n a) /\
     forall b w, related (to_objects n a) (to_weights n a) b w <-> weight_after fadd cs a b = Some w) /\
    (length (from_objects n a) = length (from_weights n a) /\ NoDup (from_objects n a) /\
     forall b w, related (from_objects n a) (from_weights n a) b w <-> weight_after fadd cs b a = Some w).
Proof. exact nav_answers. Qed.
Print Assumptions C24_answers.

(** C24: the two directions agree *)
Theorem C24_symmetric : forall fadd f t cs n, nav_run fadd (mkNav [] [] f t) cs = Ok n -> forall a b w,
  related (to_objects n a) (to_weights n a) b w <-> related (from_objects n b) (from_weights n b) a w.
Proof. exact nav_symmetric. Qed.
Print Assumptions C24_symmetric.

Example C24_case : exists n, nav_run Z.add (mkNav [] [] [] []) some_calls = Ok n /\
  to_objects n 2 = [11; 12] /\ to_weights n 2 = [1056964613; 1073741824] /\
  from_objects n 11 = [1; 2] /\ from_weights n 11 = [f32_one; 1056964613] /\ from_objects n 12 = [2].
Proof. eexists. split; [vm_compute; reflexivity|]. vm_compute. auto. Qed.

(** ** C25 *)

(** C25: the collection made from a navigator gives back the same answers; in the reverse direction their
    order can differ *)
Theorem C25_collection : forall fadd f t cs n, nav_run fadd (mkNav [] [] f t) cs = Ok n ->
  exists c n', nav_collection n = Ok c /\ k_type c = str "LCRelation" /\
    nav_of_collection fadd (k_type c) (k_par c) (map Some (k_rels c)) = Ok n' /\
    n_from n' = f /\ n_to n' = t /\
    forall a, to_objects n' a = to_objects n a /\ to_weights n' a = to_weights n a /\
              length (from_objects n' a) = length (from_weights n' a) /\
              Permutation (combine (from_objects n' a) (from_weights n' a)) (combine (from_objects n a) (from_weights n a)).
Proof. exact collection_ok. Qed.
Print Assumptions C25_collection.

(** C25: the flag of the collection makes files keep all weights *)
Theorem C25_weights_stored : forall n c, nav_collection n = Ok c -> map (stored_lcrel (k_flag c)) (k_rels c) = k_rels c.
Proof. exact weights_stored. Qed.
Print Assumptions C25_weights_stored.

(** C25: the types are the parameters "FromType" and "ToType" of the collection, which has no others *)
Theorem C25_types_stored : forall n c, nav_collection n = Ok c ->
  k_par c = mkP [] [] [(str "FromType", [n_from n]); (str "ToType", [n_to n])].
Proof. intros n c H. unfold nav_collection in H. destruct (map_rels (n_map n)) as [l| |]; cbn [bind] in H; try discriminate H.
  match type of H with context [bind ?x _] => destruct x as [f| |]; cbn [bind] in H; try discriminate H end. injection H as <-. reflexivity. Qed.
Print Assumptions C25_types_stored.

Example C25_case : exists n c, nav_run Z.add (mkNav [] [] (str "A") (str "B")) some_calls = Ok n /\
  nav_collection n = Ok c /\ k_rels c = [mkREL 1 11 f32_one; mkREL 2 11 1056964613; mkREL 2 12 1073741824] /\ k_flag c = - 2 ^ 31.
Proof. eexists. eexists. split; [vm_compute; reflexivity|]. vm_compute. auto. Qed.

(** C25: the order of the objects in the reverse direction is not always kept *)
Theorem C25_order_refuted : exists cs n c n', nav_run Z.add (mkNav [] [] [] []) cs = Ok n /\ nav_collection n = Ok c /\
  nav_of_collection Z.add (k_type c) (k_par c) (map Some (k_rels c)) = Ok n' /\
  from_objects n 11 = [2; 1] /\ from_objects n' 11 = [1; 2].
Proof.
  exists [NAdd 2 11 f32_one; NAdd 1 11 f32_one]. eexists. eexists. eexists.
  split; [vm_compute; reflexivity|]. split; [vm_compute; reflexivity|]. split; [vm_compute; reflexivity|]. vm_compute. auto.
Qed.
Print Assumptions C25_order_refuted.

(** ** C35 *)

(** C35: a 1-to-1 relation is the matching that the program left *)
Theorem C35_one_to_one : forall cs, no_null1 cs -> exists s, run1 empty1 cs = Ok s /\
  (forall f t, f <> 0 -> t <> 0 -> (r1_to s f = t <-> In (f, t) (pairs_after cs)) /\ (r1_from s t = f <-> In (f, t) (pairs_after cs))) /\
  (forall f t, f <> 0 -> t <> 0 -> (r1_to s f = t <-> r1_from s t = f)).
Proof. exact one_to_one_ok. Qed.
Print Assumptions C35_one_to_one.

Example C35_one_to_one_case : let cs := [Set1 1 11; Set1 2 12; Set1 1 12; Set1 3 11; Unset1 3] in no_null1 cs /\ pairs_after cs = [(1, 12)].
Proof. split; [repeat constructor; discriminate|vm_compute; reflexivity]. Qed.

(** C35: in an N-to-N relation both sides count the same links, those the program left *)
Theorem C35_n_to_n : forall cs, plain_n cs -> exists s, runn emptyn cs = Ok s /\
  forall f t, copies t (rn_to s f) = copies_after cs f t /\ copies f (rn_from s t) = copies_after cs f t.
Proof. exact n_to_n_ok. Qed.
Print Assumptions C35_n_to_n.

Example C35_n_to_n_case : let cs := [AddN 1 11; AddN 1 11; AddN 2 11; AddN 2 12; RemoveN 2 12; AddN 3 11; RemoveAllN 3] in
  plain_n cs /\ copies_after cs 1 11 = 2%nat /\ copies_after cs 2 11 = 1%nat /\ copies_after cs 3 11 = 0%nat.
Proof. split; [repeat constructor; discriminate|vm_compute; auto]. Qed.

(** C35: the two sides also agree in programs that merge the links of two different objects, unless their
    behaviour is undefined *)
Theorem C35_n_to_n_merge : forall cs s, no_self_merge cs -> runn emptyn cs = Ok s -> forall f t, copies t (rn_to s f) = copies f (rn_from s t).
Proof. exact runn_symmetric. Qed.
Print Assumptions C35_n_to_n_merge.

Example C35_n_to_n_merge_case : exists s, runn emptyn [AddN 1 11; AddN 2 11; AddN 2 12; MergeN 1 2] = Ok s /\ rn_to s 1 = [11; 11; 12] /\ rn_from s 11 = [1; 1].
Proof. eexists. split; [vm_compute; reflexivity|]. vm_compute. auto. Qed.

(** C35: merging asks for lists sorted by address, which add_relation does not give *)
Theorem C35_merge_refuted : exists cs, no_self_merge cs /\ runn emptyn cs = UB UBPrecondition.
Proof. exists [AddN 1 12; AddN 1 11; AddN 2 13; MergeN 1 2]. split; [repeat constructor; discriminate|vm_compute; reflexivity]. Qed.
Print Assumptions C35_merge_refuted.

(** C35: merging an object with itself breaks the symmetry of links that exist twice *)
Theorem C35_self_merge_refuted : exists cs s f t, runn emptyn cs = Ok s /\ copies t (rn_to s f) <> copies f (rn_from s t).
Proof. exists [AddN 1 11; AddN 1 11; MergeN 1 1]. eexists. exists 1, 11. split; [vm_compute; reflexivity|]. vm_compute. discriminate. Qed.
Print Assumptions C35_self_merge_refuted.

(** C35: a 1-to-N relation is consistent if objects are added only while they are not related *)
Theorem C35_one_to_n : forall cs, careful (fun _ => 0) cs -> exists s, run1n empty1n cs = Ok s /\
  (forall t, ro_from s t = owner_after cs t) /\ forall f t, f <> 0 -> t <> 0 -> (In t (ro_to s f) <-> ro_from s t = f).
Proof. exact one_to_n_ok. Qed.
Print Assumptions C35_one_to_n.

Example C35_one_to_n_case : let cs := [AddN 1 11; AddN 1 12; RemoveN 1 11; AddN 2 11; AddN 2 13; RemoveAllN 1] in
  careful (fun _ => 0) cs /\ owner_after cs 11 = 2 /\ owner_after cs 12 = 0.
Proof. cbn. repeat split; discriminate. Qed.

(** C35: adding an object that is related already leaves it in the list of its former owner *)
Theorem C35_one_to_n_refuted : exists cs s, run1n empty1n cs = Ok s /\ In 11 (ro_to s 1) /\ ro_from s 11 = 2.
Proof. exists [AddN 1 11; AddN 2 11]. eexists. split; [vm_compute; reflexivity|]. vm_compute. auto. Qed.
Print Assumptions C35_one_to_n_refuted.
