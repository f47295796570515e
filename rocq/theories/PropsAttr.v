(** * C70: an attribute of an object is what was set last, and nothing else changes it *)
From Coq Require Import ZArith List Bool Lia.
From Verif Require Import Bytes SioModel ObjModel ImplModel AttrModel AttrSpec AttrProofs AttrRuns.
Import ListNotations.
Open Scope Z_scope.

(** A new object of each class has these attributes with these values, and no others. *)
Theorem C70_initial t a v : obj_get (new_obj t) a = Some v <-> In (a, v) (initial t).
Proof. exact (initial_iff t a v). Qed.
Print Assumptions C70_initial.
Example C70_initial_case : obj_get (new_obj TRP) ACovMatrix = Some (VList [0; 0; 0; 0; 0; 0; 0; 0; 0; 0]) /\
  obj_get (new_obj TVX) AAlgorithmType = Some (VText (str "Unknown")) /\ obj_get (new_obj TREL) AWeight = Some (VNum 1065353216) /\
  obj_get (new_obj TREL) AEnergy = None.
Proof. repeat split; reflexivity. Qed.

(** The attributes of an object are those of its class, in every state. *)
Theorem C70_attributes o a : obj_get o a <> None <-> In a (map fst (initial (type_of o))).
Proof. exact (defined o a). Qed.
Print Assumptions C70_attributes.
Example C70_attributes_case : obj_get (OREL (mkREL 3 4 5)) ATo = Some (VNum 4) /\ type_of (OREL (mkREL 3 4 5)) = TREL.
Proof. split; reflexivity. Qed.

(** A call that succeeds has exactly its effects: each attribute it concerns changes as described, every other attribute
    keeps its value. *)
Theorem C70_call fadd srt ro o e o' : in_range e -> obj_do fadd srt ro o e = (o', Ok tt) ->
  (forall a, ~ In a (concerned e) -> obj_get o' a = obj_get o a) /\
  (forall a f, In (a, f) (effects e) -> meets fadd srt (obj_get o) (obj_get o') a f).
Proof. intros R H. exact (proj1 (obj_step fadd srt ro o e o' R H)). Qed.
Print Assumptions C70_call.
(** a track with one state: setOmega changes getOmega, and the other parameters stay *)
Example C70_call_case fadd srt :
  let o := OTRK (mkTRK 0 [mkTS 1 2 3 4 5 6 (repeat 7 15) [8; 9; 10]] 11 12 13 14 15 [16] [17] [18]) in
  exists o', obj_do fadd srt false o (ETRK (TRK_setOmega 99)) = (o', Ok tt) /\ in_range (ETRK (TRK_setOmega 99)) /\
    obj_get o' AOmega = Some (VNum 99) /\ obj_get o' APhi = Some (VNum 3) /\ obj_get o' ATracks = Some (VList [17]) /\
    concerned (ETRK (TRK_setOmega 99)) <> [].
Proof.
  eexists. split; [reflexivity|]. split; [exact Logic.I|]. split; [reflexivity|]. split; [reflexivity|]. split; [reflexivity|]. discriminate.
Qed.

(** A call that fails, because the object is read only or the arguments are wrong, changes nothing. *)
Theorem C70_failed_call fadd srt ro o e : snd (obj_do fadd srt ro o e) <> Ok tt -> fst (obj_do fadd srt ro o e) = o.
Proof. exact (obj_kept fadd srt ro o e). Qed.
Print Assumptions C70_failed_call.
Example C70_failed_call_case fadd srt :
  snd (obj_do fadd srt true (new_obj TCH) (ECH (CH_setEnergy 5))) = Throw LReadOnly /\
  snd (obj_do fadd srt false (new_obj TCH) (ECH (CH_setPosition [1; 2]))) = UB UBOutOfBounds.
Proof. split; reflexivity. Qed.

(** On an object that may be modified the calls of its class succeed, but for: arrays that are too short, bits outside of
    0 .. 31, the track parameters with more than one state, a second state at the same location, indices out of range. *)
Theorem C70_succeeds fadd srt o e : in_range e ->
  snd (obj_do fadd srt false o e) = Ok tt <-> call_class e = type_of o /\ succeeds (obj_get o) e.
Proof. exact (obj_succ fadd srt o e). Qed.
Print Assumptions C70_succeeds.
Example C70_succeeds_case : succeeds (obj_get (new_obj TCL)) (ECL (CL_setPositionError [1; 2; 3; 4; 5; 6])) /\
  ~ succeeds (obj_get (new_obj TCL)) (ECL (CL_setPositionError [1; 2; 3; 4; 5])) /\
  ~ succeeds (obj_get (new_obj TTRK)) (ETRK (TRK_setTypeBit 32 true)).
Proof.
  split; [|split].
  - split; [intros n v H; cbn in H; injection H as <- <-; cbn; lia|]. split; [intros; discriminate|]. split; [intros; discriminate|exact Logic.I].
  - intros (H & _). specialize (H _ _ eq_refl). cbn in H. lia.
  - intros (_ & H & _). specialize (H _ eq_refl). lia.
Qed.

(** After any calls an attribute has the value that was set last, if no later call concerns it. *)
Theorem C70_last_set fadd srt o cs1 ro e cs2 a v : in_range e -> In (a, ESet v) (effects e) ->
  snd (obj_do fadd srt ro (obj_run fadd srt o cs1) e) = Ok tt ->
  (forall c, In c cs2 -> in_range (snd c) /\ ~ In a (concerned (snd c))) ->
  obj_get (obj_run fadd srt o (cs1 ++ (ro, e) :: cs2)) a = Some v.
Proof. exact (last_set fadd srt o cs1 ro e cs2 a v). Qed.
Print Assumptions C70_last_set.
Definition ex_rest : list (bool * ecall) := [(false, ETH (TH_setTime 8)); (true, ETH (TH_setTime 9)); (false, ETH (TH_setQualityBit 3 true))].
Example C70_last_set_case fadd srt :
  snd (obj_do fadd srt false (obj_run fadd srt (new_obj TTH) [(false, ETH (TH_setEDep 1))]) (ETH (TH_setEDep 2))) = Ok tt /\
  In (AdEdx, ESet (VNum 2)) (effects (ETH (TH_setEDep 2))) /\
  (forall c, In c ex_rest -> in_range (snd c) /\ ~ In AdEdx (concerned (snd c))) /\
  obj_get (obj_run fadd srt (new_obj TTH) ([(false, ETH (TH_setEDep 1))] ++ (false, ETH (TH_setEDep 2)) :: ex_rest)) ATime = Some (VNum 8).
Proof.
  split; [reflexivity|]. split; [right; left; reflexivity|]. split; [|reflexivity].
  intros c H. repeat destruct H as [H|H]; [subst c|subst c|subst c|destruct H]; (split; [exact Logic.I|]); intros [H|[]]; discriminate H.
Qed.

(** An attribute that no call concerns keeps the value it had at the start. *)
Theorem C70_untouched fadd srt o cs a : (forall c, In c cs -> in_range (snd c) /\ ~ In a (concerned (snd c))) ->
  obj_get (obj_run fadd srt o cs) a = obj_get o a /\ type_of (obj_run fadd srt o cs) = type_of o.
Proof. intros H. split; [exact (untouched fadd srt cs o a H)|]. apply run_class. intros c Hc. exact (proj1 (H c Hc)). Qed.
Print Assumptions C70_untouched.
Example C70_untouched_case fadd srt : (forall c, In c ex_rest -> in_range (snd c) /\ ~ In APosition (concerned (snd c))) /\
  obj_get (obj_run fadd srt (new_obj TTH) ex_rest) APosition = Some (VList [0; 0; 0]).
Proof.
  split; [|reflexivity].
  intros c H. repeat destruct H as [H|H]; [subst c|subst c|subst c|destruct H]; (split; [exact Logic.I|]); intros [H|[]]; discriminate H.
Qed.

(** getRawDataWord gives the words of the hit, and throws for every other index. *)
Theorem C70_words o l i : obj_get (OTPC o) AWords = Some (VList l) -> Zlen l < two31 ->
  n_words o = Zlen l /\
  (0 <= i < Zlen l -> word o i = Ok (nth (Z.to_nat i) l 0)) /\
  (~ 0 <= i < Zlen l -> word o i = Throw LDataNotAvailable).
Proof.
  intros E L. injection E as <-. split; [apply s32_nat; split; [apply Zlen_pos|exact L]|]. split; [apply word_in, L|apply word_out, L].
Qed.
Print Assumptions C70_words.
Example C70_words_case : word (mkTPC 1 2 3 4 [5; 6]) 1 = Ok 6 /\ word (mkTPC 1 2 3 4 [5; 6]) 2 = Throw LDataNotAvailable /\
  word (mkTPC 1 2 3 4 [5; 6]) (-1) = Throw LDataNotAvailable.
Proof. repeat split; reflexivity. Qed.

(** getIntVal, getFloatVal and getDoubleVal give the values of the object; other indices read beyond them. *)
Theorem C70_values l i :
  (Zlen l < two31 -> n_vals l = Zlen l) /\
  (0 <= i < Zlen l -> val_at l i = Ok (nth (Z.to_nat i) l 0)) /\
  (~ 0 <= i < Zlen l -> val_at l i = UB UBOutOfBounds).
Proof.
  split; [intros L; apply s32_nat; split; [apply Zlen_pos|exact L]|]. split; [apply val_in|]. intros H. apply vat_out. lia.
Qed.
Print Assumptions C70_values.
Example C70_values_case fadd srt :
  obj_get (obj_run fadd srt (new_obj TGO) [(false, EGO (GO_setIntVal 2 7)); (false, EGO (GO_setIntVal 0 5))]) AInts = Some (VList [5; 0; 7]) /\
  val_at [5; 0; 7] 2 = Ok 7 /\ val_at [5; 0; 7] 3 = UB UBOutOfBounds.
Proof. repeat split; reflexivity. Qed.

(** The functions of a contribution give its values; outside of the list only getParticleCont throws. *)
Theorem C70_contributions o l i : obj_get (OSCH o) AContributions = Some (VConts l) ->
  (Zlen l < two31 -> n_conts o = Zlen l) /\
  (forall c, 0 <= i -> nth_error l (Z.to_nat i) = Some c ->
     cont_particle o i = Ok (co_part c) /\ cont_energy o i = Ok (co_energy c) /\ cont_time o i = Ok (co_time c) /\
     cont_length o i = Ok (co_length c) /\ cont_pdg o i = Ok (co_pdg c) /\ cont_step o i = Ok (co_pos c)) /\
  (i < 0 \/ Zlen l <= i ->
     cont_particle o i = Throw LException /\ cont_energy o i = UB UBOutOfBounds /\ cont_time o i = UB UBOutOfBounds /\
     cont_length o i = UB UBOutOfBounds /\ cont_pdg o i = UB UBOutOfBounds /\ cont_step o i = UB UBOutOfBounds).
Proof.
  intros E. injection E as <-. split; [intros L; apply s32_nat; split; [apply Zlen_pos|exact L]|].
  split; [intros c H N; exact (cont_at o i c H N)|apply cont_none].
Qed.
Print Assumptions C70_contributions.
Definition ex_hit : list (bool * ecall) :=
  [(false, ESCH (SCH_addDetailed 5 10 20 30 40 (Some [1; 2; 3]))); (false, ESCH (SCH_addShort 6 11 21)); (false, ESCH (SCH_addShort 5 100 22))].
Example C70_contributions_case srt : exists o, obj_run Z.add srt (new_obj TSCH) ex_hit = OSCH o /\
  cont_energy o 0 = Ok 110 /\ cont_time o 0 = Ok 20 /\ cont_step o 0 = Ok [1; 2; 3] /\ cont_particle o 1 = Ok 6 /\ cont_particle o 2 = Throw LException.
Proof. eexists. repeat split; reflexivity. Qed.

(** The copy of a simulated hit, made through the functions of the interface, is equal to it, whatever calls made the hit. *)
Theorem C70_copy fadd srt cs : exists o, obj_run fadd srt (new_obj TSCH) cs = OSCH o /\
  (Zlen (sc_cont o) < two31 -> copy_simcalhit o = Ok o).
Proof. exact (copied fadd srt cs). Qed.
Print Assumptions C70_copy.
Example C70_copy_case srt : exists o, obj_run Z.add srt (new_obj TSCH) ex_hit = OSCH o /\ Zlen (sc_cont o) = 2 /\ copy_simcalhit o = Ok o.
Proof. eexists. repeat split; reflexivity. Qed.
(** The copy of a track has the same attributes. *)
Theorem C70_track_copy o a : obj_get (OTRK (copy_track o)) a = obj_get (OTRK o) a.
Proof. rewrite (track_copied o). reflexivity. Qed.
Print Assumptions C70_track_copy.
Example C70_track_copy_case :
  let o := mkTRK 1 [mkTS 1 2 3 4 5 6 (repeat 7 15) [8; 9; 10]] 11 12 13 14 15 [16] [17] [18] in obj_get (OTRK (copy_track o)) AZ0 = Some (VNum 5).
Proof. reflexivity. Qed.

(** setShape of a cluster does not set the shape: the values are appended to those it had. *)
Theorem C70_shape_refuted : exists o v, (forall fadd srt, snd (obj_do fadd srt false o (ECL (CL_setShape v))) = Ok tt /\
  obj_get (fst (obj_do fadd srt false o (ECL (CL_setShape v)))) AShape = Some (VList [1; 2; 3; 4])) /\ v = [3; 4].
Proof.
  exists (OCL (mkCL 0 0 0 [0; 0; 0] [] 0 0 [] [1; 2] [] [] [] [] [])), [3; 4]. split; [|reflexivity]. intros fadd srt. split; reflexivity.
Qed.
Print Assumptions C70_shape_refuted.

(** setIntVal of an object without fixed size does not extend it for the last index, 2^32 - 1: index + 1 is 0, the
    vector is emptied and the value written beyond it. *)
Theorem C70_last_index_refuted : exists o i, in_range (EGO (GO_setIntVal i 1)) /\ obj_get o AFixedSize = Some (VBool false) /\
  forall fadd srt, snd (obj_do fadd srt false o (EGO (GO_setIntVal i 1))) = UB UBOutOfBounds.
Proof.
  exists (new_obj TGO), (two32 - 1). split; [split; vm_compute; [discriminate|reflexivity]|]. split; [reflexivity|]. intros fadd srt. reflexivity.
Qed.
Print Assumptions C70_last_index_refuted.
