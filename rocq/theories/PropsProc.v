(** * The generated process of an event (C56) *)

From Verif Require Import Bytes SioModel ObjModel FlagModel FlagSpec FlagProofs ProcModel ProcSpec ProcProofs.

(** ** What the flag says *)

(** If the hard final state is not found, or empty, the flag says "unknown" and nothing else. *)
Theorem C56_unknown : forall h elems max f icase hf, decode_process h elems max = Ok f -> hard h elems max icase hf ->
  icase = 0 \/ hf = [] -> forall b, pf_has f b = Ok true <-> b = PFunknown.
Proof. exact decode_unknown. Qed.
Print Assumptions C56_unknown.

(** Otherwise exactly those bits are set that the particles of the hard final state and the decays of the
    Higgs bosons among them ask for. *)
Theorem C56_flags : forall h elems max f icase hf os ds, decode_process h elems max = Ok f -> hard h elems max icase hf ->
  icase <> 0 -> hf <> [] -> those h hf os -> all_decays h os ds ->
  forall b, pf_has f b = Ok true <-> flagged icase (map (fun o => Z.abs (mc_pdg o)) os) ds b.
Proof. exact decode_known. Qed.
Print Assumptions C56_flags.

(** There is exactly one hard final state when a flag is returned, with particles and decays as needed above. *)
Theorem C56_hard : forall h elems max f, decode_process h elems max = Ok f ->
  exists icase hf, hard h elems max icase hf /\ (forall i g, hard h elems max i g -> i = icase /\ g = hf) /\
  (icase <> 0 -> hf <> [] -> exists os ds, those h hf os /\ all_decays h os ds).
Proof.
  intros h elems max f H. destruct (decode_flags _ _ _ _ H) as (icase & hf & K). exists icase, hf. split; [exact K|]. split; [intros i g K'; exact (hard_fun _ _ _ _ _ _ _ K' K)|].
  exact (decode_decays _ _ _ _ _ _ H K).
Qed.
Print Assumptions C56_hard.

(** A flag is returned for every collection in which the pointers are valid, no particle is its own descendant,
    every Higgs boson decays and no code is the smallest int; with any limit. *)
Theorem C56_defined : forall h elems, sound h elems -> forall max, exists f, decode_process h elems max = Ok f.
Proof. exact decode_total. Qed.
Print Assumptions C56_defined.

(** If the particles without parents come first, they are the hard final state of a file without beam
    particles. *)
Theorem C56_parentless : forall h elems max hf os k, hard h elems max 2 hf -> those h elems os -> Zlen elems <= max ->
  Forall (fun o => orphan o = true) (firstn k os) -> Forall (fun o => orphan o = false) (skipn k os) ->
  hf = map fst (filter (fun x => orphan (snd x)) (combine elems os)).
Proof.
  intros h elems max hf os k H T M H1 H2. rewrite <- (orphans_first h elems os T k H1 H2). inversion H as [|os' T' G K| | |]; subst.
  rewrite firstn_all2 in T' by (unfold Zlen in M; lia). rewrite (those_fun _ _ _ _ T T'). reflexivity.
Qed.
Print Assumptions C56_parentless.

(** It only fails to come back for a Higgs boson in the hard final state from which single daughters that are
    Higgs bosons can be followed for ever. *)
Theorem C56_comes_back : forall h elems max, decode_process h elems max = UB UBDiverge ->
  exists icase hf a o, hard h elems max icase hf /\ In a hf /\ found h a o /\ Z.abs (mc_pdg o) = 25 /\ forall n, exists o', steps h n o o'.
Proof. exact decode_not. Qed.
Print Assumptions C56_comes_back.

(** ** Examples *)

Definition part (pa : list addr) (pdg gen : Z) (da : list addr) : mcp := mkMC pa pdg gen 0 [] 0 [] 0 0 [] [] [] [] da.
(** e+ e- -> mu+ mu- H, the Higgs boson listed twice, H -> b b~, from Whizard 2 *)
Definition mumuh : list (addr * mcp) :=
  [(1, part [] 11 3 [3; 4; 5]); (2, part [] (-11) 3 [3; 4; 5]); (3, part [1; 2] 13 1 []); (4, part [1; 2] (-13) 1 []);
   (5, part [1; 2] 25 2 [6]); (6, part [5] 25 2 [7; 8]); (7, part [6] 5 2 []); (8, part [6] (-5) 2 [])].
Lemma found_of h a o : mc_at h a = Ok o -> found h a o.
Proof. apply mc_at_found. Qed.
Ltac look := apply found_of; reflexivity.
Example C56_mumuh_hard : hard mumuh [1; 2; 3; 4; 5; 6; 7; 8] 10 1 [3; 4; 5].
Proof. apply (hard_incoming _ _ _ [] 1 [2; 3; 4; 5; 6; 7; 8] [] (part [] 11 3 [3; 4; 5])); [reflexivity|constructor|constructor|look|reflexivity]. Qed.
Example C56_mumuh_decays : exists os, those mumuh [3; 4; 5] os /\ all_decays mumuh os [(5, Some (-5))].
Proof.
  exists [part [1; 2] 13 1 []; part [1; 2] (-13) 1 []; part [1; 2] 25 2 [6]]. split; [repeat constructor; look|].
  apply ad_other; [discriminate|]. apply ad_other; [discriminate|]. apply ad_higgs; [reflexivity| |constructor]. exists 1%nat, (part [5] 25 2 [7; 8]).
  split; [exists (part [5] 25 2 [7; 8]); split; [exists 6; split; [reflexivity|]; split; [look|reflexivity]|reflexivity]|]. split; [intros o2 (d & E & _); discriminate E|].
  exists 7, [8], (part [6] 5 2 []). split; [reflexivity|]. split; [look|]. split; [reflexivity|]. exists 8, [], (part [6] (-5) 2 []). split; [reflexivity|]. split; [look|reflexivity].
Qed.
Example C56_mumuh_flag : exists f, decode_process mumuh [1; 2; 3; 4; 5; 6; 7; 8] 10 = Ok f /\ pf_has f PFmuons = Ok true /\ pf_has f PFhiggsbb = Ok true /\ pf_has f PFbquarks = Ok false /\ pf_has f PFunknown = Ok false.
Proof. exists 1026. vm_compute. auto. Qed.
Lemma found_in h a o : found h a o -> In (a, o) h.
Proof. intros (l1 & l2 & -> & _). apply in_app_iff. right. left. reflexivity. Qed.
Ltac each H := apply found_in in H; cbn [In] in H; repeat (destruct H as [H|H]; [injection H as <- <-|]); [..|destruct H].
Example C56_mumuh_sound : sound mumuh [1; 2; 3; 4; 5; 6; 7; 8].
Proof.
  split; [intros a Ha; cbn [In] in Ha; repeat (destruct Ha as [<-|Ha]; [eexists; look|]); destruct Ha|].
  split; [intros a o d H; each H; cbn [mc_daughters part In]; intros Hd; repeat (destruct Hd as [<-|Hd]; [eexists; look|]); destruct Hd|].
  split; [intros a o H; each H; cbn; unfold two31; lia|]. split; [intros a o H; each H; cbn [mc_pdg mc_daughters part]; discriminate|].
  exists (fun a => Z.to_nat (10 - a)). intros a o d H. each H; cbn [mc_daughters part In]; intros Hd; repeat (destruct Hd as [<-|Hd]; [lia|]); destruct Hd.
Qed.
(** e+ e- -> nu nu~ with two photons from the beams, without beam particles *)
Definition nunu : list (addr * mcp) := [(1, part [] 22 1 []); (2, part [] 22 1 []); (3, part [] 14 1 []); (4, part [] (-14) 1 []); (5, part [4] 11 0 [])].
Example C56_nunu_hard : hard nunu [1; 2; 3; 4; 5] 10 2 [1; 2; 3; 4].
Proof.
  apply (hard_no_beam nunu [1; 2; 3; 4; 5] 10 [part [] 22 1 []; part [] 22 1 []; part [] 14 1 []; part [] (-14) 1 []; part [4] 11 0 []]); [repeat constructor; look|repeat constructor; discriminate|vm_compute; lia].
Qed.
Example C56_nunu_flag : exists f, decode_process nunu [1; 2; 3; 4; 5] 10 = Ok f /\ pf_has f PFneutrinos = Ok true /\ pf_has f PFphotons = Ok false /\ pf_has f PFelectrons = Ok false.
Proof. exists 8. vm_compute. auto. Qed.
Example C56_nunu_parentless : exists os, those nunu [1; 2; 3; 4; 5] os /\ Forall (fun o => orphan o = true) (firstn 4 os) /\ Forall (fun o => orphan o = false) (skipn 4 os) /\ Zlen [1; 2; 3; 4; 5] <= 10.
Proof.
  exists [part [] 22 1 []; part [] 22 1 []; part [] 14 1 []; part [] (-14) 1 []; part [4] 11 0 []]. split; [repeat constructor; look|]. repeat split; repeat constructor. discriminate.
Qed.
(** with beam particles: e- -> e- gamma, e- -> tau+ tau- *)
Definition beams : list (addr * mcp) := [(1, part [] 11 4 [3; 4]); (2, part [] (-11) 4 [4]); (3, part [1] 22 1 []); (4, part [1; 2] 11 2 [5; 6]); (5, part [4] 15 1 []); (6, part [4] (-15) 1 [])].
Example C56_beams_hard : hard beams [1; 2; 3; 4; 5; 6] 10 3 [5; 6].
Proof.
  apply (hard_beam beams [1; 2; 3; 4; 5; 6] 10 [part [] 11 4 [3; 4]; part [] (-11) 4 [4]; part [1] 22 1 []; part [1; 2] 11 2 [5; 6]; part [4] 15 1 []; part [4] (-15) 1 []]
    1 [2; 3; 4; 5; 6] (part [] 11 4 [3; 4]) [3] 4 [] [part [1] 22 1 []] (part [1; 2] 11 2 [5; 6])); try look; try reflexivity; repeat constructor; try look; try discriminate.
Qed.
Example C56_beams_flag : decode_process beams [1; 2; 3; 4; 5; 6] 10 = Ok 4.
Proof. reflexivity. Qed.
(** the first two particles only: nothing is known *)
Example C56_limit : exists f, decode_process mumuh [3; 4; 5; 6; 7; 8] 2 = Ok f /\ pf_has f PFunknown = Ok true /\ hard mumuh [3; 4; 5; 6; 7; 8] 2 0 [].
Proof.
  exists 16777216. split; [reflexivity|]. split; [reflexivity|].
  apply (hard_none mumuh [3; 4; 5; 6; 7; 8] 2 [part [1; 2] 13 1 []; part [1; 2] (-13) 1 []]); [repeat constructor; look|repeat constructor; discriminate|vm_compute; lia].
Qed.

(** ** What is missing *)

(** A decay into gluons, or any other, is never flagged, although there are bits for these. *)
Theorem C56_gluons : forall h elems max f, decode_process h elems max = Ok f -> pf_has f PFhiggsgg = Ok false /\ pf_has f PFhiggsother = Ok false.
Proof. intros h elems max f H. split; apply (decode_never h elems max f _ H); auto. Qed.
Print Assumptions C56_gluons.
Definition glue : list (addr * mcp) := [(1, part [] 11 3 [2; 5]); (2, part [1] 25 2 [3; 4]); (3, part [2] 21 2 []); (4, part [2] 21 2 []); (5, part [1] 14 1 [])].
(** "a Higgs boson that decays into two gluons sets higgsgg" is false. *)
Theorem C56_gluons_refuted : exists h elems max f, decode_process h elems max = Ok f /\ hard h elems max 1 [2; 5] /\
  (exists o, found h 2 o /\ decays h o (21, Some 21) /\ mc_pdg o = 25) /\ pf_has f PFhiggsgg = Ok false.
Proof.
  exists glue, [1; 2; 3; 4; 5], 10, 8. split; [reflexivity|]. split; [apply (hard_incoming _ _ _ [] 1 [2; 3; 4; 5] [] (part [] 11 3 [2; 5])); [reflexivity|constructor|constructor|look|reflexivity]|]. split; [|reflexivity].
  exists (part [1] 25 2 [3; 4]). split; [look|]. split; [|reflexivity]. exists 0%nat, (part [1] 25 2 [3; 4]). split; [reflexivity|]. split; [intros o2 (d & E & _); discriminate E|].
  exists 3, [4], (part [2] 21 2 []). split; [reflexivity|]. split; [look|]. split; [reflexivity|]. exists 4, [], (part [2] 21 2 []). split; [reflexivity|]. split; [look|reflexivity].
Qed.
Print Assumptions C56_gluons_refuted.

Definition susy : list (addr * mcp) := [(1, part [] 11 3 [2; 3]); (2, part [1] 1000013 2 []); (3, part [1] (-1000013) 2 [])].
(** "an exotic particle in the hard final state sets exotic" is false: its number is compared, not its code. *)
Theorem C56_exotic_refuted : exists h elems max f, decode_process h elems max = Ok f /\ hard h elems max 1 [2; 3] /\
  (exists o, found h 2 o /\ mc_pdg o = 1000013) /\ pf_has f PFexotic = Ok false /\ f = 0.
Proof.
  exists susy, [1; 2; 3], 10, 0. split; [reflexivity|]. split; [apply (hard_incoming _ _ _ [] 1 [2; 3] [] (part [] 11 3 [2; 3])); [reflexivity|constructor|constructor|look|reflexivity]|]. split; [|split; reflexivity].
  exists (part [1] 1000013 2 []). split; [look|reflexivity].
Qed.
Print Assumptions C56_exotic_refuted.

Definition twoh : list (addr * mcp) := [(1, part [] 11 3 [2; 3]); (2, part [1] 25 2 [4; 5]); (3, part [1] 25 2 [6]); (4, part [2] 24 2 []); (5, part [2] (-5) 2 []); (6, part [3] 5 2 [])].
(** "higgsbb is only set if a Higgs boson decays into two b quarks" is false: the second daughter may be that of
    another Higgs boson. *)
Theorem C56_mixed_refuted : exists h elems max f, decode_process h elems max = Ok f /\ pf_has f PFhiggsbb = Ok true /\
  forall a o, found h a o -> Z.abs (mc_pdg o) = 25 -> ~ decays h o (5, Some (-5)) /\ ~ decays h o (-5, Some 5) /\ ~ decays h o (5, Some 5) /\ ~ decays h o (-5, Some (-5)).
Proof.
  exists twoh, [1; 2; 3; 4; 5; 6], 10, 1024. split; [reflexivity|]. split; [reflexivity|].
  assert (D2 : decays twoh (part [1] 25 2 [4; 5]) (24, Some (-5))).
  { exists 0%nat, (part [1] 25 2 [4; 5]). split; [reflexivity|]. split; [intros o2 (d & E & _); discriminate E|]. exists 4, [5], (part [2] 24 2 []). split; [reflexivity|]. split; [look|]. split; [reflexivity|].
    exists 5, [], (part [2] (-5) 2 []). split; [reflexivity|]. split; [look|reflexivity]. }
  assert (D3 : decays twoh (part [1] 25 2 [6]) (5, None)).
  { exists 0%nat, (part [1] 25 2 [6]). split; [reflexivity|]. split.
    - intros o2 (d & E & F & P). cbn in E. injection E as <-. assert (G : found twoh 6 (part [3] 5 2 [])) by look. rewrite (found_fun _ _ _ _ F G) in P. discriminate P.
    - exists 6, [], (part [3] 5 2 []). split; [reflexivity|]. split; [look|]. split; reflexivity. }
  intros a o H P. each H; cbn in P; try discriminate P.
  - repeat split; intros D; pose proof (decays_fun _ _ _ _ D D2) as K; discriminate K.
  - repeat split; intros D; pose proof (decays_fun _ _ _ _ D D3) as K; discriminate K.
Qed.
Print Assumptions C56_mixed_refuted.

Definition nunu2 : list (addr * mcp) := [(1, part [] 22 1 []); (2, part [1] 11 0 []); (3, part [] 22 1 []); (4, part [] 14 1 [])].
(** "the hard final state of a file without beam particles consists of particles without parents" is false if
    these do not come first; here the electron is flagged, the neutrino is not. *)
Theorem C56_order_refuted : exists h elems max f a o, decode_process h elems max = Ok f /\ hard h elems max 2 [1; 2; 3] /\ In a [1; 2; 3] /\ found h a o /\ mc_parents o <> [] /\
  pf_has f PFelectrons = Ok true /\ pf_has f PFneutrinos = Ok false /\ (exists o', found h 4 o' /\ mc_pdg o' = 14 /\ mc_parents o' = []).
Proof.
  exists nunu2, [1; 2; 3; 4], 10, 1, 2, (part [1] 11 0 []). split; [reflexivity|]. split.
  - apply (hard_no_beam nunu2 [1; 2; 3; 4] 10 [part [] 22 1 []; part [1] 11 0 []; part [] 22 1 []; part [] 14 1 []]); [repeat constructor; look|repeat constructor; discriminate|vm_compute; lia].
  - split; [cbn; auto|]. split; [look|]. split; [discriminate|]. split; [reflexivity|]. split; [reflexivity|]. exists (part [] 14 1 []). split; [look|]. auto.
Qed.
Print Assumptions C56_order_refuted.

Definition beams2 : list (addr * mcp) := [(1, part [] 11 4 [3]); (2, part [] (-11) 4 [4]); (3, part [1] 22 1 []); (4, part [2] 11 2 [5; 6]); (5, part [4] 15 1 []); (6, part [4] (-15) 1 [])].
(** "the daughters of both beam particles are searched" is false: only those of the first are. *)
Theorem C56_second_beam_refuted : exists h elems max f, decode_process h elems max = Ok f /\ pf_has f PFunknown = Ok true /\ pf_has f PFtaus = Ok false /\
  exists o2 o4, found h 2 o2 /\ mc_parents o2 = [] /\ In 4 (mc_daughters o2) /\ found h 4 o4 /\ mc_daughters o4 = [5; 6].
Proof.
  exists beams2, [1; 2; 3; 4; 5; 6], 10, 16777216. split; [reflexivity|]. split; [reflexivity|]. split; [reflexivity|]. exists (part [] (-11) 4 [4]), (part [2] 11 2 [5; 6]). split; [look|]. split; [reflexivity|]. split; [left; reflexivity|]. split; [look|reflexivity].
Qed.
Print Assumptions C56_second_beam_refuted.

(** Each of the conditions of C56_defined is needed: a Higgs boson without daughters, one that is its own
    daughter, a pointer to no particle and the smallest int are undefined. *)
Theorem C56_defined_refuted :
  decode_process [(1, part [] 11 3 [2]); (2, part [1] 25 1 [])] [1; 2] 10 = UB UBOutOfBounds /\
  decode_process [(1, part [] 11 3 [2]); (2, part [1] 25 1 [2])] [1; 2] 10 = UB UBDiverge /\
  decode_process [(1, part [] 11 3 [2])] [1; 2] 10 = UB UBNullDeref /\
  decode_process [(1, part [] 11 3 [2]); (2, part [1] (- two31) 1 [])] [1; 2] 10 = UB UBOverflow.
Proof. repeat split; reflexivity. Qed.
Print Assumptions C56_defined_refuted.
