(** * The tree of daughters that LCTOOLS prints (C84) *)

From Coq Require Import ZArith List Bool Lia Sorted.
From Verif Require Import Bytes SioModel ObjModel DerivModel TreeOutModel TreeOutSpec TreeOutProofs.
Import ListNotations.
Open Scope Z_scope.

(** If the function returns, it has printed one line for each way from the particle down to a descendant, mothers
    before daughters and daughters in their order; the lines are numbered from the given index without gaps, the
    number returned is the next one, and the number in brackets is that of the line of the mother, by whose
    daughters the way continues; for daughters of the particle itself it is the given index less one. *)
Theorem C84_lines : forall fuel h part index ls n, print_daughters fuel h part index = Ok (ls, n) ->
  n = index + Z.of_nat (length ls) /\ (forall k l, nth_error ls k = Some l -> dl_index l = index + Z.of_nat k) /\
  exists ways, length ways = length ls /\ NoDup ways /\ StronglySorted before ways /\
    (forall p d, way h (mc_daughters part) p d -> In p ways) /\
    (forall k p l, nth_error ways k = Some p -> nth_error ls k = Some l -> way h (mc_daughters part) p (dl_part l) /\
       exists q i, p = q ++ [i] /\
         (q = [] /\ dl_mother l = index - 1 \/
          exists k' l', nth_error ways k' = Some q /\ nth_error ls k' = Some l' /\ dl_mother l = dl_index l')).
Proof.
  intros fuel h part index ls n H. destruct (tree_lines h fuel part index ls n H) as (L & <- & -> & (N & O) & C & I & W). rewrite map_length. split; [reflexivity|]. split.
  - intros k l Hk. rewrite nth_error_map in Hk. destruct (nth_error L k) as [[p l']|] eqn:E; [|discriminate Hk]. injection Hk as ->. exact (I k p l E).
  - exists (map fst L). rewrite map_length. split; [reflexivity|]. split; [exact N|]. split; [exact O|]. split; [exact C|].
    intros k p l Hp Hl. rewrite nth_error_map in Hp, Hl. destruct (nth_error L k) as [[p' l']|] eqn:E; [|discriminate Hp]. injection Hp as ->. injection Hl as ->.
    destruct (W p l (nth_error_In _ _ E)) as (Hw & q & i & Eq & Hm). split; [exact Hw|]. exists q, i. split; [exact Eq|].
    destruct Hm as [(Hq & Hm & _)|(l' & Hi & Hm & _)]; [left; split; assumption|]. right. apply In_nth_error in Hi. destruct Hi as [k' Hk']. exists k', l'.
    rewrite !nth_error_map, Hk'. repeat split; assumption.
Qed.
Print Assumptions C84_lines.

(** Generator status, simulator status and endpoint in a line are those of the mother. *)
Theorem C84_values : forall fuel h part index ls n, print_daughters fuel h part index = Ok (ls, n) -> forall l, In l ls ->
  exists m, (m = part /\ dl_mother l = index - 1 \/ exists l', In l' ls /\ dl_part l' = m /\ dl_mother l = dl_index l') /\
    (exists i a, nth_error (mc_daughters m) i = Some a /\ h a = Some (OMC (dl_part l))) /\
    dl_gen l = mc_gen m /\ dl_sim l = mc_sim m /\ get_endpoint h m = Ok (dl_end l).
Proof.
  intros fuel h part index ls n H l Hl. destruct (tree_lines h fuel part index ls n H) as (L & <- & -> & _ & _ & _ & W).
  apply in_map_iff in Hl. destruct Hl as ([p l0] & E & Hp). cbn [snd] in E. subst l0. destruct (W p l Hp) as (Hw & q & i & -> & Hm).
  destruct Hm as [(-> & Hm & Hv)|(l' & Hi & Hm & Hv)].
  - exists part. split; [left; split; [reflexivity|exact Hm]|]. split; [|exact Hv]. cbn [app] in Hw. exact (way_last h _ _ _ Hw).
  - exists (dl_part l'). split; [right; exists l'; split; [apply in_map_iff; exists (q, l'); split; [reflexivity|exact Hi]|split; [reflexivity|exact Hm]]|]. split; [|exact Hv].
    destruct (W q l' Hi) as [Hw' _]. exact (way_step h _ q i _ _ Hw' Hw).
Qed.
Print Assumptions C84_values.

(** It returns only if the ways are bounded: not for a particle with a descendant among its own descendants,
    whatever depth of calls is allowed; and if they are bounded the calls end. *)
Theorem C84_cycle : forall fuel h part index p d q, way h (mc_daughters part) p d -> way h (mc_daughters d) q d ->
  forall x, print_daughters fuel h part index <> Ok x.
Proof. exact (fun fuel h part index p d q => tree_cycle h fuel part index p d q). Qed.
Print Assumptions C84_cycle.
Theorem C84_ends : forall h part b, (forall p d, way h (mc_daughters part) p d -> (length p <= b)%nat) ->
  forall fuel index, (b < fuel)%nat -> print_daughters fuel h part index <> UB UBDiverge.
Proof. intros h part b HB fuel index Hf. apply tree_ends; [|lia]. intros p d Hp. specialize (HB p d Hp). lia. Qed.
Print Assumptions C84_ends.
(** and it does return if moreover no pointer is null and the numbers fit into an int *)
Theorem C84_returns : forall h part b, (forall p d, way h (mc_daughters part) p d -> (length p <= b)%nat) -> whole h part ->
  forall fuel index, (b < fuel)%nat -> - 2 ^ 31 < index -> (exists x, print_daughters fuel h part index = Ok x) \/ print_daughters fuel h part index = UB UBOverflow.
Proof. intros h part b HB HW fuel index Hf Hi. apply tree_returns; [|lia|exact HW|exact Hi]. intros p d Hp. specialize (HB p d Hp). lia. Qed.
Print Assumptions C84_returns.

(** a particle that decays to two, which have a daughter in common *)
Definition mc84 (gen pdg : Z) (daughters : list addr) : mcp :=
  mkMC [] pdg gen 0 [pdg; 0; 0] 0 [0; 0; 0] 0 0 [0; 0; 0] [0; 0; 0] [0; 0; 0] [0; 0] daughters.
Definition ex_heap84 : addr -> option obj := fun a =>
  if a =? 20 then Some (OMC (mc84 2 13 [40])) else if a =? 30 then Some (OMC (mc84 3 15 [40])) else if a =? 40 then Some (OMC (mc84 4 11 [])) else None.
Definition shown84 (x : Res (list dline * Z)) : option (list (Z * Z * Z * Z * list Z) * Z) :=
  match x with Ok (ls, n) => Some (map (fun l => (dl_index l, dl_mother l, mc_pdg (dl_part l), dl_gen l, dl_end l)) ls, n) | _ => None end.
Example C84_case : shown84 (print_daughters 3 ex_heap84 (mc84 1 23 [20; 30]) 1) =
  Some ([(1, 0, 13, 1, [13; 0; 0]); (2, 1, 11, 2, [11; 0; 0]); (3, 0, 15, 1, [13; 0; 0]); (4, 3, 11, 3, [11; 0; 0])], 5).
Proof. vm_compute. reflexivity. Qed.
Example C84_ends_case : (forall p d, way ex_heap84 (mc_daughters (mc84 1 23 [20; 30])) p d -> (length p <= 2)%nat) /\ whole ex_heap84 (mc84 1 23 [20; 30]).
Proof.
  assert (A4 : forall p d, ~ way ex_heap84 [] p d) by (intros p d H; inversion H as [? i ? ? H1|? i ? ? ? ? H1]; subst; destruct i; discriminate H1).
  assert (A2 : forall p d, way ex_heap84 [40] p d -> (length p <= 1)%nat /\ d = mc84 4 11 []).
  { intros p d H. inversion H as [? i a ? H1 H2|? i a e q ? H1 H2 H3]; subst; (destruct i as [|[|i]]; [injection H1 as <-|discriminate H1..]); apply (f_equal (fun x => match x with Some (OMC y) => y | _ => d end)) in H2; cbn in H2; subst.
    - split; [cbn [length]; lia|reflexivity].
    - destruct (A4 _ _ H3). }
  assert (A1 : forall p d, way ex_heap84 [20; 30] p d -> (length p <= 2)%nat /\ (d = mc84 2 13 [40] \/ d = mc84 3 15 [40] \/ d = mc84 4 11 [])).
  { intros p d H. inversion H as [? i a ? H1 H2|? i a e q ? H1 H2 H3]; subst; (destruct i as [|[|[|i]]]; [injection H1 as <-|injection H1 as <-|discriminate H1..]); apply (f_equal (fun x => match x with Some (OMC y) => y | _ => d end)) in H2; cbn in H2; subst.
    - split; [cbn [length]; lia|left; reflexivity].
    - split; [cbn [length]; lia|right; left; reflexivity].
    - destruct (A2 _ _ H3) as [L ->]. split; [cbn [length]; lia|right; right; reflexivity].
    - destruct (A2 _ _ H3) as [L ->]. split; [cbn [length]; lia|right; right; reflexivity]. }
  split; [intros p d H; exact (proj1 (A1 p d H))|]. intros m Hm a Ha.
  assert (D : m = mc84 1 23 [20; 30] \/ m = mc84 2 13 [40] \/ m = mc84 3 15 [40] \/ m = mc84 4 11 []) by (destruct Hm as [->|(p & Hp)]; [left; reflexivity|right; exact (proj2 (A1 p m Hp))]).
  destruct D as [->|[->|[->| ->]]]; cbn [mc_daughters mc84 In] in Ha; repeat (destruct Ha as [<-|Ha]; [eexists; reflexivity|]); destruct Ha.
Qed.
(** a particle that is among the daughters of its daughter *)
Definition ex_loop84 : addr -> option obj := fun a => if a =? 20 then Some (OMC (mc84 2 13 [30])) else if a =? 30 then Some (OMC (mc84 3 15 [20])) else None.
Example C84_cycle_case : way ex_loop84 (mc_daughters (mc84 1 23 [20])) [0%nat] (mc84 2 13 [30]) /\ way ex_loop84 (mc_daughters (mc84 2 13 [30])) [0%nat; 0%nat] (mc84 2 13 [30]) /\
  print_daughters 50 ex_loop84 (mc84 1 23 [20]) 1 = UB UBDiverge.
Proof.
  split; [apply (way_one _ _ 0 20); reflexivity|]. split; [|vm_compute; reflexivity].
  apply (way_more _ _ 0 30 (mc84 3 15 [20])); [reflexivity..|]. apply (way_one _ _ 0 20); reflexivity.
Qed.

(** So a line does not show the particle: the status in it is that of another one. *)
Theorem C84_status_refuted : exists fuel h part index ls n l, print_daughters fuel h part index = Ok (ls, n) /\ In l ls /\
  dl_gen l <> mc_gen (dl_part l) /\ get_endpoint h (dl_part l) <> Ok (dl_end l).
Proof.
  assert (E : exists ls n, print_daughters 3 ex_heap84 (mc84 1 23 [20; 30]) 1 = Ok (ls, n) /\ exists l, nth_error ls 0 = Some l /\ dl_gen l = 1 /\ mc_gen (dl_part l) = 2 /\ get_endpoint ex_heap84 (dl_part l) = Ok [11; 0; 0] /\ dl_end l = [13; 0; 0]).
  { eexists _, _. split; [vm_compute; reflexivity|]. eexists. split; [reflexivity|]. repeat split. }
  destruct E as (ls & n & E & l & N & G1 & G2 & E1 & E2). exists 3%nat, ex_heap84, (mc84 1 23 [20; 30]), 1, ls, n, l. split; [exact E|]. split; [exact (nth_error_In _ _ N)|].
  rewrite G1, G2, E1, E2. split; discriminate.
Qed.
Print Assumptions C84_status_refuted.
