(** * Algorithms for particle identification

    [describes p reg]: the collection parameters [p] hold the algorithms [reg].  [do_steps] is a program that
    creates, uses and destroys handlers one after the other and changes other parameters in between. *)

From Coq Require Import ZArith List Bool Permutation Lia.
From Verif Require Import Bytes StrMap ZMap SioModel ObjModel ImplModel PidModel PidSpec PidProofs.
Import ListNotations.
Open Scope Z_scope.

(** a program for the cases *)
Definition no_par : params := mkP [] [] [].
Definition rp : bytes := str "ReconstructedParticle".
Definition prog : list step :=
  [Life true [(str "Lowe", [str "e"; str "mu"]); (str "Best", [])];
   Other (P_setString (str "comment") (str "x"));
   Life false [(str "Lost", [])];
   Life true [(str "Best", [str "z"]); (str "Abel", [str "p"; str "q"; str "p"])]].

(** C26: whatever handlers are used, the parameters describe the algorithms registered with modifiable
    collections, the first registration of every name, with the ids handed out one after the other *)
Theorem C26_any_program : forall ty l p reg, ty = str "ReconstructedParticle" \/ ty = str "Cluster" ->
  describes p reg -> other_steps l -> room reg l ->
  exists p', do_steps ty p l = Ok p' /\ describes p' (registered reg l).
Proof. exact (fun ty l p reg Ht => steps_ok ty l Ht p reg). Qed.
Print Assumptions C26_any_program.

Lemma nothing_described : describes no_par [].
Proof.
  split; [constructor|]. split; [constructor|]. split; [split; [constructor|split; [constructor|constructor]]|]. split; [exists []; split; [constructor|split; reflexivity]|intros a []].
Qed.

Example C26_any_program_case : describes no_par [] /\ other_steps prog /\ room [] prog /\
  registered [] prog = [mkA 0 (str "Lowe") [str "e"; str "mu"]; mkA 1 (str "Best") []; mkA 2 (str "Abel") [str "p"; str "q"; str "p"]].
Proof.
  split; [exact nothing_described|]. split; [|split; [|vm_compute; reflexivity]].
  - repeat constructor; [discriminate|]. intros n H. apply (f_equal (fun l => nth_error l 0)) in H. vm_compute in H. discriminate.
  - unfold room. cbn. lia.
Qed.

(** C26: a handler answers all questions according to the algorithms in the parameters and those it
    registered itself; ids and names are unique *)
Theorem C26_handler : forall u ty p reg adds, describes p reg -> ty = str "ReconstructedParticle" \/ ty = str "Cluster" ->
  next_id reg + Z.of_nat (length adds) <= 2 ^ 31 ->
  exists h h', open_handler u ty p = (Ok h, p) /\ add_algorithms h adds = Ok h' /\
    answers h' (fold_left register adds reg) /\ consistent (fold_left register adds reg).
Proof. exact handler_ok. Qed.
Print Assumptions C26_handler.

(** C26: the correspondence of ids and names *)
Theorem C26_one_to_one : forall h reg, answers h reg -> forall n i, algorithm_id h n = Ok i <-> algorithm_name h i = Ok n.
Proof. exact answers_one_to_one. Qed.
Print Assumptions C26_one_to_one.

Example C26_handler_case : exists p h, do_steps rp no_par prog = Ok p /\ open_handler false rp p = (Ok h, p) /\
  algorithm_ids h = [2; 1; 0] /\ algorithm_id h (str "Lowe") = Ok 0 /\ algorithm_name h 2 = Ok (str "Abel") /\
  parameter_index h 2 (str "q") = Ok 1 /\ parameter_index h 2 (str "p") = Ok 0 /\ parameter_index h 0 (str "q") = Ok (-1) /\
  algorithm_id h (str "Lost") = Throw LException.
Proof. eexists. eexists. split; [vm_compute; reflexivity|]. split; [vm_compute; reflexivity|]. vm_compute. auto 10. Qed.

(** C26: the particle id of an algorithm is the one set last with the right number of parameters; [srt] is
    the sorting of the particle ids *)
Theorem C26_particle_ids : forall srt u ty p reg adds cs, (forall A f (x : list A), Permutation x (srt A f x)) ->
  describes p reg -> ty = str "ReconstructedParticle" \/ ty = str "Cluster" -> next_id reg + Z.of_nat (length adds) <= 2 ^ 31 ->
  exists h h', open_handler u ty p = (Ok h, p) /\ add_algorithms h adds = Ok h' /\
    exists l', set_all srt h' [] cs = Ok l' /\ one_each l' /\
      forall id n ps, In (mkA id n ps) (fold_left register adds reg) ->
        get_particle_id h' l' id = Ok (last_set (fold_left register adds reg) id (mkPID 0 0 0 0 []) cs).
Proof. exact pids_ok. Qed.
Print Assumptions C26_particle_ids.

(** C26: getParticleIDs gives the particle ids of the algorithm asked for, in their order, and throws for an
    algorithm that is not registered *)
Theorem C26_all_of_an_algorithm : forall u ty p reg adds h h' l id, describes p reg -> ty = str "ReconstructedParticle" \/ ty = str "Cluster" ->
  next_id reg + Z.of_nat (length adds) <= 2 ^ 31 -> open_handler u ty p = (Ok h, p) -> add_algorithms h adds = Ok h' ->
  ((exists n ps, In (mkA id n ps) (fold_left register adds reg)) ->
     exists l', get_particle_ids h' l id = Ok l' /\ (forall x, In x l' <-> In x l /\ pi_alg x = id) /\
       (forall x l1 l2, l = l1 ++ x :: l2 -> pi_alg x = id -> exists m1 m2, l' = m1 ++ x :: m2 /\ incl m1 l1 /\ incl m2 l2) /\
       get_particle_id h' l id = Ok (hd (mkPID 0 0 0 0 []) l')) /\
  ((forall n ps, ~ In (mkA id n ps) (fold_left register adds reg)) -> get_particle_ids h' l id = Throw LException /\ get_particle_id h' l id = Throw LException).
Proof.
  intros u ty p reg adds h h' l id Hd Ht Hr Ho Ha. destruct (handler_ok u ty p reg adds Hd Ht Hr) as (h0 & h1 & E & E' & (_ & _ & N & _) & _).
  rewrite Ho in E. injection E as <-. rewrite Ha in E'. injection E' as <-. unfold parameter_names in N. unfold get_particle_ids, get_particle_id. split.
  - intros (n & ps & Hin). assert (Z0 : zm_get id (h_names h') = Some ps).
    { destruct (N id ps) as [_ B]. specialize (B (ex_intro _ n Hin)). destruct (zm_get id (h_names h')); congruence. }
    rewrite Z0. exists (filter (fun x => pi_alg x =? id) l). split; [reflexivity|]. split; [intros x; rewrite filter_In, Z.eqb_eq; reflexivity|]. split.
    + intros x l1 l2 -> Hx. exists (filter (fun x => pi_alg x =? id) l1), (filter (fun x => pi_alg x =? id) l2). rewrite filter_app. cbn [filter].
      rewrite (proj2 (Z.eqb_eq _ _) Hx). split; [reflexivity|]. split; intros y Hy; apply filter_In in Hy; exact (proj1 Hy).
    + destruct (filter _ l); reflexivity.
  - intros Hno. destruct (zm_get id (h_names h')) as [ps|] eqn:Z0; [|split; reflexivity].
    exfalso. destruct (N id ps) as [A _]. rewrite Z0 in A. destruct (A eq_refl) as (n & Hin). exact (Hno n ps Hin).
Qed.
Print Assumptions C26_all_of_an_algorithm.

Example C26_all_of_an_algorithm_case : exists h h', open_handler true rp no_par = (Ok h, no_par) /\ add_algorithms h [(str "A", []); (str "B", [str "x"])] = Ok h' /\
  get_particle_ids h' [mkPID 1 0 11 1 [5]; mkPID 2 0 13 0 []; mkPID 3 0 22 1 [6]] 1 = Ok [mkPID 1 0 11 1 [5]; mkPID 3 0 22 1 [6]] /\
  get_particle_ids h' [mkPID 1 0 11 1 [5]] 2 = Throw LException.
Proof. eexists. eexists. split; [vm_compute; reflexivity|]. split; [vm_compute; reflexivity|]. split; vm_compute; reflexivity. Qed.

Definition keep (A : Type) (f : A -> Z) (l : list A) : list A := l.
Example C26_particle_ids_case : let reg := [mkA 0 (str "Lowe") [str "e"; str "mu"]; mkA 1 (str "Best") []] in
  let cs := [(1, 11, 5, 0, [7; 8]); (2, 13, 6, 0, [9]); (3, 211, 4, 1, []); (4, 22, 3, 0, [1; 2])] in
  last_set reg 0 (mkPID 0 0 0 0 []) cs = mkPID 3 4 22 0 [1; 2] /\ last_set reg 1 (mkPID 0 0 0 0 []) cs = mkPID 4 3 211 1 [] /\
  (forall A f (x : list A), Permutation x (keep A f x)).
Proof. vm_compute. repeat split; intros; reflexivity. Qed.

(** C26: parameters that give one id to several algorithms, or not one id for each name, are refused *)
Theorem C26_bad_parameters : forall u ty p,
  length (strings p (str "PIDAlgorithmTypeName")) <> length (ints p (str "PIDAlgorithmTypeID")) \/
  (NoDup (strings p (str "PIDAlgorithmTypeName")) /\ ~ NoDup (ints p (str "PIDAlgorithmTypeID"))) ->
  fst (open_handler u ty p) = Throw LException.
Proof. exact open_bad. Qed.
Print Assumptions C26_bad_parameters.

Example C26_bad_parameters_case : let p := mkP [(str "PIDAlgorithmTypeID", [0; 1; 0])] [] [(str "PIDAlgorithmTypeName", [str "A"; str "B"; str "C"])] in
  NoDup (strings p (str "PIDAlgorithmTypeName")) /\ ~ NoDup (ints p (str "PIDAlgorithmTypeID")).
Proof.
  split; [|intros N; inversion N as [|? ? H]; apply H; right; left; reflexivity].
  change (NoDup [str "A"; str "B"; str "C"]). repeat constructor; cbn; intuition discriminate.
Qed.

(** C26: with two handlers alive at the same time both hand out the same id and registrations get lost *)
Theorem C26_overlapping_handlers_refuted : exists h1 h2 h1' h2' h3,
  open_handler true rp no_par = (Ok h1, no_par) /\ open_handler true rp no_par = (Ok h2, no_par) /\
  add_algorithm h1 (str "A") [] = Ok (h1', 0) /\ add_algorithm h2 (str "B") [] = Ok (h2', 0) /\
  fst (open_handler true rp (close_handler h1' (close_handler h2' no_par))) = Ok h3 /\
  algorithm_id h3 (str "A") = Ok 0 /\ algorithm_id h3 (str "B") = Throw LException.
Proof.
  eexists. eexists. eexists. eexists. eexists. split; [vm_compute; reflexivity|]. split; [vm_compute; reflexivity|]. split; [vm_compute; reflexivity|].
  split; [vm_compute; reflexivity|]. split; [vm_compute; reflexivity|]. vm_compute. auto.
Qed.
Print Assumptions C26_overlapping_handlers_refuted.

(** C26: a handler for a collection of another type throws, but leaves parameters behind *)
Theorem C26_failed_handler_refuted : exists p, open_handler true (str "MCParticle") no_par = (Throw LException, p) /\ p <> no_par.
Proof. eexists. split; [vm_compute; reflexivity|]. discriminate. Qed.
Print Assumptions C26_failed_handler_refuted.

(** C26: setting a particle id again does not keep the list ordered by likelihood, whatever the sorting
    does: here two particle ids that were in order, the first one with the likelihood lowered from 2.0 to 0.5
    below the second one with 1.0 *)
Theorem C26_order_refuted : forall srt, exists h l, set_particle_id srt h [mkPID 1073741824 0 0 0 []; mkPID 1065353216 0 0 1 []] 0 0 1056964608 0 [] = Ok l /\
  map pi_like l = [1056964608; 1065353216].
Proof.
  intros srt. exists (mkH true [] 1 [(0, []); (1, [])] [] []). eexists. split; [reflexivity|]. reflexivity.
Qed.
Print Assumptions C26_order_refuted.
