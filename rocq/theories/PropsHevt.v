(** * HEPEVT and the collection of MCParticles *)

From Verif Require Import Bytes StrMap SioModel Ieee ObjModel HepModel HevtModel HevtSpec HevtProofs.

(** ** C54: the table survives the conversion to an event and back *)
(** The daughters come from the mothers: [back] in HevtSpec. *)
Theorem C54_table : forall energy largest travel base b e,
  0 < base -> block_ok b -> sm_ok (hv_cols e) -> sm_get mcparticle_name (hv_cols e) = None ->
  exists b1 e1 b2, from_hepevt base None b e = (b1, e1, Ok tt) /\ to_hepevt energy largest travel None e1 b1 = (b2, Ok tt) /\
    hb_event b2 = hv_num e /\ hb_n b2 = hb_n b /\ length (hb_lines b2) = length (hb_lines b) /\
    (forall n, (Z.to_nat (hb_n b) <= n)%nat -> nth_error (hb_lines b2) n = nth_error (hb_lines b) n) /\
    forall j l, nth_error (used b) j = Some l -> exists l', nth_error (hb_lines b2) j = Some l' /\ back energy (used b) base (Z.of_nat j + 1) l l'.
Proof. exact there_and_back. Qed.
Print Assumptions C54_table.

(** In a consistent table also the numbers of mothers and daughters are unchanged. *)
Theorem C54_consistent_table : forall energy largest travel base b e,
  0 < base -> block_ok b -> consistent (used b) -> sm_ok (hv_cols e) -> sm_get mcparticle_name (hv_cols e) = None ->
  exists b1 e1 b2, from_hepevt base None b e = (b1, e1, Ok tt) /\ to_hepevt energy largest travel None e1 b1 = (b2, Ok tt) /\
    forall j l, nth_error (used b) j = Some l -> exists l', nth_error (hb_lines b2) j = Some l' /\
      hl_st l' = hl_st l /\ hl_id l' = hl_id l /\ hl_ch l' = hl_ch l /\ firstn 3 (hl_v l') = [nth 0 (hl_v l) 0; nth 1 (hl_v l) 0; nth 2 (hl_v l) 0] /\
      hl_mo1 l' = hl_mo1 l /\ hl_mo2 l' = hl_mo2 l /\ hl_da1 l' = hl_da1 l /\ hl_da2 l' = hl_da2 l.
Proof.
  intros energy largest travel base b e H1 H2 H3 H4 H5.
  destruct (there_and_back energy largest travel base b e H1 H2 H4 H5) as (b1 & e1 & b2 & A & B & _ & _ & _ & _ & D).
  exists b1, e1, b2. split; [exact A|]. split; [exact B|]. intros j l Hj. destruct (D j l Hj) as (l' & Hl' & K). exists l'. split; [exact Hl'|].
  pose proof (consistent_back _ _ _ _ _ _ H3 Hj K) as M. destruct K as [K1 K2 _ _ _ _ (t & K3 & _) K4 _]. rewrite K1, K2, K4, K3. cbn [firstn]. tauto.
Qed.
Print Assumptions C54_consistent_table.

(** The other way: an event whose particles fit into the table, with parents that follow each other. *)
Theorem C54_event : forall energy largest travel base e b elems e',
  sm_get mcparticle_name (hv_cols e) = Some elems -> in_table (hv_heap e) elems -> Zlen elems <= Zlen (hb_lines b) ->
  sm_ok (hv_cols e') -> sm_get mcparticle_name (hv_cols e') = None ->
  exists b1 b2 e2, to_hepevt energy largest travel None e b = (b1, Ok tt) /\ hb_event b1 = hv_num e /\ hb_n b1 = Zlen elems /\
    from_hepevt base None b1 e' = (b2, e2, Ok tt) /\
    exists elems', sm_get mcparticle_name (hv_cols e2) = Some elems' /\ length elems' = length elems /\
      forall i a o, nth_error elems i = Some a -> hv_heap e a = Some o ->
        exists a' o', nth_error elems' i = Some a' /\ hv_heap e2 a' = Some o' /\ kept elems' elems o' o /\
          (forall d', In d' (mc_daughters o') <-> exists od', In d' elems' /\ hv_heap e2 d' = Some od' /\ In a' (mc_parents od')).
Proof. exact event_there_and_back. Qed.
Print Assumptions C54_event.

(** ** a table: two beam particles and their two daughters; the last line is not used *)
Definition one := 4607182418800017408.
Definition two := 4611686018427387904.
Definition hl (st id m1 m2 d1 d2 x : Z) : hline := mkHL st id m1 m2 d1 d2 [one; 0; x; two; one] [x; 0; one; 0] 0 7.
Definition ex_block : hblock := mkHB 1 4 [hl 2 11 0 0 3 4 one; hl 2 (-11) 0 0 3 4 two; hl 1 13 1 2 0 0 one; hl 1 (-13) 1 2 0 0 0; hl 9 9 9 9 9 9 9].
Definition ex_event : hevent := mkHEv 42 [] (fun _ => None).
Definition ex_energy (p : list Z) (m : Z) : Z := two.
Definition ex_largest (v : list Z) : option nat := if nth 0 v 0 =? 0 then None else Some 0%nat.
Definition ex_travel (t v w e p : Z) : Z := one.

Example C54_table_ok : block_ok ex_block.
Proof.
  split; [cbn; lia|]. change (used ex_block) with [hl 2 11 0 0 3 4 one; hl 2 (-11) 0 0 3 4 two; hl 1 13 1 2 0 0 one; hl 1 (-13) 1 2 0 0 0].
  intros l [<-|[<-|[<-|[<-|[]]]]]; cbn; lia.
Qed.
Example C54_table_consistent : consistent (used ex_block).
Proof.
  change (used ex_block) with [hl 2 11 0 0 3 4 one; hl 2 (-11) 0 0 3 4 two; hl 1 13 1 2 0 0 one; hl 1 (-13) 1 2 0 0 0].
  intros k l H. cbn in H.
  repeat match goal with H : _ \/ _ |- _ => destruct H | H : False |- _ => destruct H | H : (_, _) = (_, _) |- _ => injection H as <- <- end;
  (split; [cbn; lia|]); right; (split; [cbn; lia|]).
  - right. split; [cbn; lia|]. split; [cbn; lia|]. intros k' l' H. cbn in H.
    repeat match goal with H : _ \/ _ |- _ => destruct H | H : False |- _ => destruct H | H : (_, _) = (_, _) |- _ => injection H as <- <- end;
    match goal with |- context [mothers ?l] => let v := eval vm_compute in (mothers l) in change (mothers l) with v end; cbn [In hl hl_da1 hl_da2]; lia.
  - right. split; [cbn; lia|]. split; [cbn; lia|]. intros k' l' H. cbn in H.
    repeat match goal with H : _ \/ _ |- _ => destruct H | H : False |- _ => destruct H | H : (_, _) = (_, _) |- _ => injection H as <- <- end;
    match goal with |- context [mothers ?l] => let v := eval vm_compute in (mothers l) in change (mothers l) with v end; cbn [In hl hl_da1 hl_da2]; lia.
  - left. split; [reflexivity|]. split; [reflexivity|]. intros k' l' H. cbn in H.
    repeat match goal with H : _ \/ _ |- _ => destruct H | H : False |- _ => destruct H | H : (_, _) = (_, _) |- _ => injection H as <- <- end;
    match goal with |- context [mothers ?l] => let v := eval vm_compute in (mothers l) in change (mothers l) with v end; cbn [In hl hl_da1 hl_da2]; lia.
  - left. split; [reflexivity|]. split; [reflexivity|]. intros k' l' H. cbn in H.
    repeat match goal with H : _ \/ _ |- _ => destruct H | H : False |- _ => destruct H | H : (_, _) = (_, _) |- _ => injection H as <- <- end;
    match goal with |- context [mothers ?l] => let v := eval vm_compute in (mothers l) in change (mothers l) with v end; cbn [In hl hl_da1 hl_da2]; lia.
Qed.
Example C54_table_case :
  let '(b1, e1, r1) := from_hepevt 100 None ex_block ex_event in
  let '(b2, r2) := to_hepevt ex_energy ex_largest ex_travel None e1 b1 in
  r1 = Ok tt /\ r2 = Ok tt /\ map hl_ptr (hb_lines b1) = [100; 101; 102; 103; 0] /\
  map (fun l => [hl_st l; hl_id l; hl_mo1 l; hl_mo2 l; hl_da1 l; hl_da2 l]) (hb_lines b2) =
  map (fun l => [hl_st l; hl_id l; hl_mo1 l; hl_mo2 l; hl_da1 l; hl_da2 l]) (hb_lines ex_block) /\
  map hl_v (hb_lines b2) = [[one; 0; one; 0]; [two; 0; one; 0]; [one; 0; one; one]; [0; 0; one; 0]; [9; 0; one; 0]].
Proof. vm_compute. repeat split. Qed.

(** the event of the other direction: particles at 10, 20, 30; those at 10 and 20 are the parents of 30 *)
Definition ex_part (ps ds : list Z) (pdg : Z) : mcp := mkMC ps pdg 1 5 [one; two; 0] 3 [one; one; two] one 7 [0; 0; 0] [0; 0; 0] [0; 0; 0] [0; 0] ds.
Definition ex_mem : addr -> option mcp := fun a =>
  if a =? 10 then Some (ex_part [] [30] 11) else if a =? 20 then Some (ex_part [] [30] (-11)) else if a =? 30 then Some (ex_part [10; 20] [] 23) else None.
Definition ex_event2 : hevent := mkHEv 42 [(mcparticle_name, [10; 20; 30])] ex_mem.
Example C54_event_ok : in_table ex_mem [10; 20; 30].
Proof.
  split.
  - repeat constructor; cbn; lia.
  - intros a [<-|[<-|[<-|[]]]]; (split; [lia|]); eexists; (split; [reflexivity|]); split; reflexivity.
  - intros a o [<-|[<-|[<-|[]]]] H; injection H as <-; [exists 0%nat, 0%nat|exists 0%nat, 0%nat|exists 0%nat, 2%nat]; reflexivity.
Qed.
Example C54_event_case :
  let '(b1, r1) := to_hepevt ex_energy ex_largest ex_travel None ex_event2 ex_block in
  let '(b2, e2, r2) := from_hepevt 100 None b1 ex_event in
  r1 = Ok tt /\ r2 = Ok tt /\ hb_n b1 = 3 /\ hv_cols e2 = [(mcparticle_name, [100; 101; 102])] /\
  option_map mc_parents (hv_heap e2 102) = Some [100; 101] /\ option_map mc_daughters (hv_heap e2 101) = Some [102] /\
  option_map mc_sim (hv_heap e2 100) = Some 0.
Proof. vm_compute. repeat split. Qed.

(** ** what does not hold *)
(** With the name of another collection the particles are added, and then the call throws because there is
    no collection "MCParticle". *)
Theorem C54_other_name_refuted : exists base name b e b1 e1,
  0 < base /\ block_ok b /\ sm_ok (hv_cols e) /\ validate name = true /\ sm_get name (hv_cols e) = None /\
  from_hepevt base (Some name) b e = (b1, e1, Throw LDataNotAvailable) /\ sm_get name (hv_cols e1) = Some [100; 101; 102; 103].
Proof.
  exists 100, [x41], ex_block, ex_event. eexists _, _. split; [lia|]. split; [exact C54_table_ok|]. split; [constructor|].
  split; [reflexivity|]. split; [reflexivity|]. split; reflexivity.
Qed.
Print Assumptions C54_other_name_refuted.

(** If there is one, the pointers stored in the table are those of the other particles. *)
Theorem C54_other_pointers_refuted : exists base name b e b1 e1,
  0 < base /\ block_ok b /\ from_hepevt base (Some name) b e = (b1, e1, Ok tt) /\
  map hl_ptr (hb_lines b1) = [10; 20; 30; 0; 0] /\ sm_get name (hv_cols e1) = Some [100; 101; 102; 103].
Proof.
  exists 100, [x41], ex_block, ex_event2. eexists _, _. split; [lia|]. split; [exact C54_table_ok|]. split; [reflexivity|]. split; reflexivity.
Qed.
Print Assumptions C54_other_pointers_refuted.

(** A mother that is not in the table is read from the end of the collection. *)
Theorem C54_mother_refuted : exists base b e b1 e1,
  0 < base /\ 0 <= hb_n b <= Zlen (hb_lines b) /\ from_hepevt base None b e = (b1, e1, UB UBOutOfBounds).
Proof.
  exists 100, (mkHB 1 1 [hl 2 11 3 0 0 0 one]), ex_event. eexists _, _. split; [lia|]. split; [cbn; lia|]. reflexivity.
Qed.
Print Assumptions C54_mother_refuted.

(** A particle whose first parent is not in the collection: the production time of the line before the
    first one is read. *)
Theorem C54_parent_elsewhere_refuted : exists energy largest travel e b b1,
  sm_get mcparticle_name (hv_cols e) = Some [30] /\ 1 <= Zlen (hb_lines b) /\
  to_hepevt energy largest travel None e b = (b1, UB UBOutOfBounds).
Proof.
  exists ex_energy, ex_largest, ex_travel, (mkHEv 42 [(mcparticle_name, [30])] ex_mem), ex_block. eexists. split; [reflexivity|]. split; [cbn; lia|]. reflexivity.
Qed.
Print Assumptions C54_parent_elsewhere_refuted.

(** More particles than lines: the number is not checked. *)
Theorem C54_too_many_refuted : exists energy largest travel e b b1,
  sm_get mcparticle_name (hv_cols e) = Some [10; 20; 30] /\ in_table (hv_heap e) [10; 20; 30] /\ Zlen (hb_lines b) = 2 /\
  to_hepevt energy largest travel None e b = (b1, UB UBOutOfBounds).
Proof.
  exists ex_energy, ex_largest, ex_travel, ex_event2, (mkHB 1 0 [hl 0 0 0 0 0 0 0; hl 0 0 0 0 0 0 0]). eexists.
  split; [reflexivity|]. split; [exact C54_event_ok|]. split; reflexivity.
Qed.
Print Assumptions C54_too_many_refuted.

(** four particles; those at 10 and 30 are the parents of 40 *)
Definition gap_mem : addr -> option mcp := fun a =>
  if a =? 10 then Some (ex_part [] [40] 11) else if a =? 20 then Some (ex_part [] [] 22) else
  if a =? 30 then Some (ex_part [] [40] (-11)) else if a =? 40 then Some (ex_part [10; 30] [] 23) else None.
(** Parents that do not follow each other: the ones between them become parents too. *)
Theorem C54_gap_refuted : exists energy largest travel e b b1 b2 e2,
  sm_get mcparticle_name (hv_cols e) = Some [10; 20; 30; 40] /\ option_map mc_parents (hv_heap e 40) = Some [10; 30] /\
  to_hepevt energy largest travel None e b = (b1, Ok tt) /\ from_hepevt 100 None b1 ex_event = (b2, e2, Ok tt) /\
  sm_get mcparticle_name (hv_cols e2) = Some [100; 101; 102; 103] /\ option_map mc_parents (hv_heap e2 103) = Some [100; 101; 102].
Proof.
  exists ex_energy, ex_largest, ex_travel, (mkHEv 42 [(mcparticle_name, [10; 20; 30; 40])] gap_mem), ex_block. eexists _, _, _.
  split; [reflexivity|]. split; [reflexivity|]. split; [reflexivity|]. split; [reflexivity|]. split; reflexivity.
Qed.
Print Assumptions C54_gap_refuted.

(** Daughters that do not follow each other: the numbers that come back are others. *)
Theorem C54_daughters_gap_refuted : exists energy largest travel b b1 e1 b2,
  block_ok b /\ from_hepevt 100 None b ex_event = (b1, e1, Ok tt) /\ to_hepevt energy largest travel None e1 b1 = (b2, Ok tt) /\
  map (fun l => (hl_mo1 l, hl_da1 l, hl_da2 l)) (hb_lines b) = [(0, 2, 4); (1, 0, 0); (0, 0, 0); (1, 0, 0)] /\
  map (fun l => (hl_mo1 l, hl_da1 l, hl_da2 l)) (hb_lines b2) = [(0, 2, 3); (1, 0, 0); (0, 0, 0); (1, 0, 0)].
Proof.
  exists ex_energy, ex_largest, ex_travel, (mkHB 1 4 [hl 2 11 0 0 2 4 one; hl 1 13 1 0 0 0 two; hl 1 22 0 0 0 0 one; hl 1 (-13) 1 0 0 0 0]). eexists _, _, _.
  split; [|split; [reflexivity|]; split; [reflexivity|]; split; reflexivity].
  split; [cbn; lia|]. cbn [used hb_n hb_lines]. change (firstn (Z.to_nat 4) ?l) with l. intros l [<-|[<-|[<-|[<-|[]]]]]; cbn; lia.
Qed.
Print Assumptions C54_daughters_gap_refuted.
