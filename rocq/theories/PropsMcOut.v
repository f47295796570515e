(** * What LCTOOLS prints about particles (C83) *)

From Coq Require Import ZArith List Bool Lia.
From Verif Require Import Bytes SioModel ObjModel ObjSpec FlagModel FlagSpec FlagProofs McOutModel McOutSpec McOutProofs.
Import ListNotations.
Open Scope Z_scope.

(** The table of a collection that contains all parents and daughters of its particles has one line for each
    particle, in the order of the collection, and the numbers in brackets are the positions of its parents and
    daughters. *)
Theorem C83_table : forall h els, family_in h els ->
  exists ls, print_mcparticles h (str "MCParticle") els = Ok (Some ls) /\ length ls = length els /\
    forall k a p, nth_error els k = Some a -> h a = Some (OMC p) ->
      exists l, nth_error ls k = Some l /\ ln_index l = Z.of_nat k /\ ln_part l = p /\
        Forall2 (stands_for els) (mc_parents p) (ln_parents l) /\ Forall2 (stands_for els) (mc_daughters p) (ln_daughters l).
Proof.
  intros h els HF. destruct (table h els) as (ls & E & L & H); [intros a Ha; destruct (HF a Ha) as (p & Ep & _); exists p; exact Ep|]. exists ls. split; [exact E|]. split; [exact L|].
  intros k a p Hk Hp. destruct (H k a Hk) as (l & H1 & H2 & H3 & _ & H5 & H6). exists l. rewrite Hp in H3. injection H3 as H3.
  destruct (HF a (nth_error_In _ _ Hk)) as (q & Eq & I1 & I2). rewrite Hp in Eq. injection Eq as <-. rewrite <- H3 in *.
  split; [exact H1|]. split; [exact H2|]. split; [reflexivity|]. split; apply shown_in; assumption.
Qed.
Print Assumptions C83_table.

(** Of any collection of particles: a number in brackets is the position of the relative, or it is 0 and the
    relative is not in the collection. *)
Theorem C83_any_table : forall h els, (forall a, In a els -> exists p, h a = Some (OMC p)) ->
  exists ls, print_mcparticles h (str "MCParticle") els = Ok (Some ls) /\ length ls = length els /\
    forall k a p, nth_error els k = Some a -> h a = Some (OMC p) ->
      exists l, nth_error ls k = Some l /\ ln_index l = Z.of_nat k /\ ln_part l = p /\
        Forall2 (fun b i => stands_for els b i \/ ~ In b els /\ i = 0) (mc_parents p) (ln_parents l) /\
        Forall2 (fun b i => stands_for els b i \/ ~ In b els /\ i = 0) (mc_daughters p) (ln_daughters l).
Proof.
  intros h els HF. destruct (table h els HF) as (ls & E & L & H). exists ls. split; [exact E|]. split; [exact L|].
  intros k a p Hk Hp. destruct (H k a Hk) as (l & H1 & H2 & H3 & _ & H5 & H6). exists l. rewrite Hp in H3. injection H3 as H3. rewrite <- H3 in *.
  split; [exact H1|]. split; [exact H2|]. split; [reflexivity|]. split; assumption.
Qed.
Print Assumptions C83_any_table.

(** The text for the status in a line: 0 if no bit is set, otherwise in brackets the letters of the bits that are
    set, each at its place; so the text tells which of the bits 23 to 30 are set. *)
Theorem C83_status : forall h els ls, print_mcparticles h (str "MCParticle") els = Ok (Some ls) -> forall l, In l ls ->
  let z := mc_sim (ln_part l) in
  (ln_status l = str "[    0   ]" <-> z = 0) /\
  (z <> 0 -> ln_status l = str "[" ++ letters_of status_letters z ++ str "]") /\
  (forall l', In l' ls -> z <> 0 -> mc_sim (ln_part l') <> 0 ->
     (ln_status l = ln_status l' <-> forall i, 23 <= i <= 30 -> Z.testbit z i = Z.testbit (mc_sim (ln_part l')) i)).
Proof.
  intros h els ls H. assert (A : forall l, In l ls -> ln_status l = status_string (mc_sim (ln_part l))).
  { unfold print_mcparticles in H. change (bytes_eqb (str "MCParticle") (str "MCParticle")) with true in H. cbv iota in H.
    revert H. generalize (p2i_fill 0 els []). generalize 0. revert ls. induction els as [|a els IH]; intros ls k m H l Hl; cbn [mc_lines bind] in H.
    - injection H as <-. destruct Hl.
    - destruct (h a) as [[p| | | | | | | | | | | | | | | | | | | | ]|]; try discriminate H.
      destruct (p2i_refs m (mc_parents p)) as [ps m1]. destruct (p2i_refs m1 (mc_daughters p)) as [ds m2].
      destruct (mc_lines h (k + 1) els m2) as [ls'|e|u] eqn:E; cbn [bind] in H; [|discriminate H..]. injection H as <-.
      destruct Hl as [<-|Hl]; [reflexivity|]. apply (IH ls' (k + 1) m2); [rewrite E; reflexivity|exact Hl]. }
  intros l Hl z. rewrite (A l Hl). fold z. split; [apply status_zero|]. split; [apply status_text|].
  intros l' Hl' N N'. rewrite (A l' Hl'). apply status_same; assumption.
Qed.
Print Assumptions C83_status.

(** The same for the quality of a simulated tracker hit. *)
Theorem C83_quality : forall q, - 2 ^ 31 <= q < 2 ^ 31 -> exists t, quality_string q = Ok t /\
  (q = 0 -> t = str "[   0   ]") /\ (q <> 0 -> t = str "[" ++ letters_of [(str "o", 31); (str "s", 30)] q ++ str "     ]").
Proof.
  intros q Hq. destruct (tracker_hit_flags q true Hq) as (O & P & _). unfold quality_string. rewrite O, P. cbn [bind].
  destruct (Z.eqb_spec q 0) as [->|N]; [exists (str "[   0   ]"); split; [reflexivity|]; split; [reflexivity|intros H; destruct (H eq_refl)]|].
  eexists. split; [reflexivity|]. split; [intros E; destruct (N E)|intros _]. unfold letters_of. cbn [flat_map fst snd]. destruct (Z.testbit q 31), (Z.testbit q 30); reflexivity.
Qed.
Print Assumptions C83_quality.

(** A collection of another type is not printed; one whose elements are not particles gives undefined behaviour. *)
Theorem C83_type : forall h type els, type <> str "MCParticle" -> print_mcparticles h type els = Ok None.
Proof.
  intros h type els N. unfold print_mcparticles. destruct (bytes_eqb type (str "MCParticle")) eqn:E; [|reflexivity]. apply bytes_eqb_eq in E. contradiction.
Qed.
Print Assumptions C83_type.

(** a particle that decays to two, and a daughter of one of them *)
Definition mc83 (parents : list addr) (pdg sim : Z) (daughters : list addr) : obj :=
  OMC (mkMC parents pdg 1 sim [0; 0; 0] 0 [0; 0; 0] 0 0 [0; 0; 0] [0; 0; 0] [0; 0; 0] [0; 0] daughters).
Definition ex_heap83 : addr -> option obj := fun a =>
  if a =? 10 then Some (mc83 [] 23 0 [20; 30]) else if a =? 20 then Some (mc83 [10] 13 (2 ^ 30 + 2 ^ 24) [40])
  else if a =? 30 then Some (mc83 [10] (-13) (2 ^ 25 - 2 ^ 31) []) else if a =? 40 then Some (mc83 [20] 11 (2 ^ 30 + 2 ^ 29 + 2 ^ 28 + 2 ^ 27 + 2 ^ 26 + 2 ^ 25 + 2 ^ 24 + 2 ^ 23) []) else None.
Definition shown83 (x : Res (option (list mcline))) : list (Z * Z * bytes * list Z * list Z) :=
  match x with Ok (Some ls) => map (fun l => (ln_index l, mc_pdg (ln_part l), ln_status l, ln_parents l, ln_daughters l)) ls | _ => [] end.
Example C83_case : family_in ex_heap83 [40; 10; 30; 20] /\
  shown83 (print_mcparticles ex_heap83 (str "MCParticle") [40; 10; 30; 20]) =
  [(0, 11, str "[sbvtclso]", [3], []); (1, 23, str "[    0   ]", [], [3; 2]); (2, -13, str "[     l  ]", [1], []); (3, 13, str "[s     s ]", [1], [0])].
Proof.
  split; [|vm_compute; reflexivity]. intros a Ha. cbn [In] in Ha.
  repeat (destruct Ha as [<-|Ha]; [eexists; split; [reflexivity|]; split; intros x Hx; cbn in Hx |- *; lia|]). destruct Ha.
Qed.
Example C83_quality_case : quality_string (- 2 ^ 31 + 7) = Ok (str "[o      ]") /\ quality_string (2 ^ 30) = Ok (str "[ s     ]") /\ quality_string 5 = Ok (str "[       ]").
Proof. repeat split; vm_compute; reflexivity. Qed.
Example C83_type_case : print_mcparticles ex_heap83 (str "Track") [40] = Ok None /\ print_mcparticles (fun _ => Some (OINT [1])) (str "MCParticle") [40] = UB UBNullDeref.
Proof. split; vm_compute; reflexivity. Qed.

(** In general the numbers in brackets are not those of the relatives: one that is not in the collection (a subset,
    for example) is shown as number 0, like the first particle. *)
Theorem C83_foreign_refuted : exists h els ls l, (forall a, In a els -> exists p, h a = Some (OMC p)) /\
  print_mcparticles h (str "MCParticle") els = Ok (Some ls) /\ In l ls /\ ln_parents l = [0] /\ nth_error els 0 = Some 30 /\ mc_parents (ln_part l) = [20] /\ mc_pdg (ln_part l) = 11.
Proof.
  assert (E : exists ls, print_mcparticles ex_heap83 (str "MCParticle") [30; 40] = Ok (Some ls) /\ exists l, nth_error ls 1 = Some l /\ ln_parents l = [0] /\ mc_parents (ln_part l) = [20] /\ mc_pdg (ln_part l) = 11).
  { eexists. split; [reflexivity|]. eexists. split; [reflexivity|]. repeat split. }
  destruct E as (ls & E & l & N & P1 & P2 & P3). exists ex_heap83, [30; 40], ls, l. split.
  - intros a Ha. cbn [In] in Ha. repeat (destruct Ha as [<-|Ha]; [eexists; reflexivity|]). destruct Ha.
  - split; [exact E|]. split; [exact (nth_error_In _ _ N)|]. split; [exact P1|]. split; [reflexivity|]. split; assumption.
Qed.
Print Assumptions C83_foreign_refuted.
