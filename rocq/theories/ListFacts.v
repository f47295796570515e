(** * Facts about lists used in several places *)

From Coq Require Import List ZArith Lia Permutation.
Import ListNotations.

Lemma NoDup_app_iff {A} (a b : list A) :
  NoDup (a ++ b) <-> NoDup a /\ NoDup b /\ forall x, In x a -> In x b -> False.
Proof.
  induction a as [|x a IH]; cbn [app].
  - split; [intros H; split; [constructor|split; [exact H|intros x []]]|intros (_ & H & _); exact H].
  - split.
    + intros H. inversion H as [|? ? Hn Hd]; subst. apply IH in Hd. destruct Hd as (H1 & H2 & H3).
      split; [constructor; [intros Hx; apply Hn, in_or_app; left; exact Hx|exact H1]|]. split; [exact H2|].
      intros y [->|Hy] Hb; [apply Hn, in_or_app; right; exact Hb|exact (H3 y Hy Hb)].
    + intros (H1 & H2 & H3). inversion H1 as [|? ? Hn Hd]; subst. constructor.
      * intros Hx. apply in_app_or in Hx. destruct Hx as [Hx|Hx]; [exact (Hn Hx)|exact (H3 x (or_introl eq_refl) Hx)].
      * apply IH. split; [exact Hd|]. split; [exact H2|]. intros y Hy. apply H3. right. exact Hy.
Qed.

Lemma NoDup_flat_map_filter {A B} (f : A -> list B) p l : NoDup (flat_map f l) -> NoDup (flat_map f (filter p l)).
Proof.
  induction l as [|x l IH]; intros H; [exact H|]. cbn [flat_map filter] in *. apply NoDup_app_iff in H. destruct H as (H1 & H2 & H3).
  destruct (p x); [|apply IH; exact H2]. cbn [flat_map]. apply NoDup_app_iff. split; [exact H1|]. split; [apply IH; exact H2|].
  intros b Hb Hb'. apply in_flat_map in Hb'. destruct Hb' as (y & Hy & Hby). apply filter_In in Hy.
  apply (H3 b Hb). apply in_flat_map. exists y. split; [apply Hy|exact Hby].
Qed.

(** [g x] is, up to the order, a part of [f x] *)
Definition part {A} (b a : list A) : Prop := exists rest, Permutation a (b ++ rest).
Lemma part_NoDup {A} (b a : list A) : part b a -> NoDup a -> NoDup b.
Proof. intros (r & P) H. apply (Permutation_NoDup P) in H. apply NoDup_app_iff in H. apply H. Qed.
Lemma part_incl {A} (b a : list A) : part b a -> incl b a.
Proof. intros (r & P) x Hx. eapply Permutation_in; [apply Permutation_sym; exact P|]. apply in_or_app. left. exact Hx. Qed.
Lemma part_flat_map {A B} (f g : A -> list B) l : (forall x, In x l -> part (g x) (f x)) -> part (flat_map g l) (flat_map f l).
Proof.
  induction l as [|x l IH]; intros H; [exists []; constructor|].
  destruct (H x (or_introl eq_refl)) as (r1 & P1). destruct (IH (fun y Hy => H y (or_intror Hy))) as (r2 & P2).
  exists (r1 ++ r2). cbn [flat_map]. rewrite P1, P2. rewrite <- !app_assoc. apply Permutation_app_head.
  rewrite !app_assoc. apply Permutation_app_tail. apply Permutation_app_comm.
Qed.

Lemma Forall2_map_r {A B C} (R : A -> C -> Prop) (f : B -> C) l l' :
  Forall2 (fun a b => R a (f b)) l l' -> Forall2 R l (map f l').
Proof. induction 1; cbn; constructor; assumption. Qed.
Lemma Forall2_impl_in {A B} (R S : A -> B -> Prop) l l' :
  (forall a b, In a l -> In b l' -> R a b -> S a b) -> Forall2 R l l' -> Forall2 S l l'.
Proof.
  intros H F. induction F as [|a b l l' Hab F IH]; constructor.
  - apply H; [left; reflexivity|left; reflexivity|exact Hab].
  - apply IH. intros x y Hx Hy. apply H; right; assumption.
Qed.
Lemma Forall2_in_l {A B} (R : A -> B -> Prop) l l' a : Forall2 R l l' -> In a l -> exists b, In b l' /\ R a b.
Proof.
  induction 1 as [|x y l l' Hxy F IH]; intros Ha; [destruct Ha|]. destruct Ha as [->|Ha].
  - exists y. split; [left; reflexivity|exact Hxy].
  - destruct (IH Ha) as (b & Hb & Hr). exists b. split; [right; exact Hb|exact Hr].
Qed.
Lemma Forall2_in_r {A B} (R : A -> B -> Prop) l l' b : Forall2 R l l' -> In b l' -> exists a, In a l /\ R a b.
Proof.
  induction 1 as [|x y l l' Hxy F IH]; intros Ha; [destruct Ha|]. destruct Ha as [->|Ha].
  - exists x. split; [left; reflexivity|exact Hxy].
  - destruct (IH Ha) as (a & Hb & Hr). exists a. split; [right; exact Hb|exact Hr].
Qed.
Lemma Forall2_map_fst {A B C} (R : A * B -> A * C -> Prop) l l' :
  (forall x y, R x y -> fst y = fst x) -> Forall2 R l l' -> map fst l' = map fst l.
Proof. intros H F. induction F as [|x y l l' Hxy F IH]; [reflexivity|]. cbn. rewrite IH, (H _ _ Hxy). reflexivity. Qed.
Lemma map_flat_map {A B C} (g : B -> C) (f : A -> list B) l : map g (flat_map f l) = flat_map (fun a => map g (f a)) l.
Proof. induction l as [|x l IH]; [reflexivity|]. cbn. rewrite map_app, IH. reflexivity. Qed.
Lemma flat_map_flat_map {A B C} (g : B -> list C) (f : A -> list B) l :
  flat_map g (flat_map f l) = flat_map (fun a => flat_map g (f a)) l.
Proof. induction l as [|x l IH]; [reflexivity|]. cbn. rewrite flat_map_app, IH. reflexivity. Qed.
