(** * Concrete run headers and events used as examples *)

From Coq Require Import Permutation Sorted.
From Verif Require Import Bytes StrMap SioModel SioSpec Ieee ObjModel ObjSpec CollSpec CollProofs EventModel EventSpec
  EventProofs PostProofs EventFacts.

(** proves concrete range conditions *)
Ltac conc := repeat
  match goal with
  | |- _ /\ _ => split
  | |- Forall _ [] => apply Forall_nil
  | |- Forall _ (_ :: _) => apply Forall_cons
  | |- int32 _ => unfold int32; lia
  | |- int64 _ => unfold int64; lia
  | |- word32 _ => unfold word32; lia
  | |- word64 _ => unfold word64; lia
  | |- vec_len _ => vm_compute; reflexivity
  | |- Zlen _ = _ => reflexivity
  | |- Zlen _ < _ => vm_compute; reflexivity
  | |- sm_ok _ => unfold sm_ok; cbn [sm_keys map fst]
  | |- StronglySorted _ [] => apply SSorted_nil
  | |- StronglySorted _ (_ :: _) => apply SSorted_cons
  | |- str_lt _ _ => vm_compute; reflexivity
  | |- params_ok _ => unfold params_ok, map_ok; cbn [p_int p_flt p_str]
  | |- floats _ _ => unfold floats
  | |- doubles _ _ => unfold doubles
  | |- ints _ _ => unfold ints
  | |- mcp_ok _ => unfold mcp_ok; cbn
  | |- simcalhit_ok _ => unfold simcalhit_ok; cbn
  | |- cont_ok _ => unfold cont_ok; cbn
  | |- genobj_ok _ => unfold genobj_ok; cbn
  | |- _ /\ _ => split
  | |- _ => progress cbn beta iota
  end.

Definition ex_par : params :=
  mkP [(str "beam", [3; -7]); (str "same", [1])] [(str "same", [1065353216])] [(str "same", [str "a b"; []])].
Definition ex_run : runhdr := mkRun 42 (str "ILD") (str "test beam") [str "TPC"; str "ECAL"] ex_par.

Lemma ex_run_ok : runhdr_ok ex_run /\ record_size run_record [mkWB run_block cur_vers (write_runhdr ex_run)] < two32.
Proof.
  split; [|vm_compute; reflexivity]. unfold runhdr_ok, ex_run, ex_par. cbn [rh_run rh_det rh_desc rh_subs rh_par]. conc.
  all: cbn [fst snd]; conc.
Qed.

(** three particles (2 is a daughter of 1, 3 of 1 and 2), a hit with two contributions, two
    generic objects of fixed size, a subset collection, a transient collection *)
Definition ex_mc (ps : list addr) : mcp :=
  mkMC ps 11 1 0 [4607182418800017408; 0; 0] 1065353216 [0; 4611686018427387904; 0] 4602678819172646912 3212836864
       [0; 0; 0] [0; 0; 0] [0; 0; 0] [0; 0] [].
Definition ex_objs : list (addr * obj) :=
  [(1, OMC (ex_mc [])); (2, OMC (ex_mc [1])); (3, OMC (ex_mc [1; 2]));
   (10, OSCH (mkSCH 17 18 1065353216 [1; 2; 3] [mkCont 2 1065353216 0 0 22 [0; 0; 0]; mkCont 3 1 2 3 11 [4; 5; 6]]));
   (20, OGO (mkGO [1; -2] [] [7] true (str "Calib") (str "i:a,i:b,d:c")));
   (21, OGO (mkGO [3; 4] [] [8] true (str "Calib") (str "i:a,i:b,d:c")))].
Definition ex_heap : heap := heap_of ex_objs.
Definition ex_gen : coll := mkColl (str "MCParticle") 0 ex_par [1; 2; 3].
Definition ex_hits : coll := mkColl (str "SimCalorimeterHit") (2 ^ 31 + 2 ^ 28) no_params [10].
Definition ex_sel : coll := mkColl (str "MCParticle") (2 ^ 18) no_params [3; 1].
Definition ex_tmp : coll := mkColl (str "Cluster") (2 ^ 16) no_params [99].
Definition ex_usr : coll := mkColl (str "LCGenericObject") 0 no_params [20; 21].
Definition ex_event : event :=
  mkEvt 42 7 1500000000000000000 (str "ILD") ex_par
    [(str "Gen", ex_gen); (str "Hits", ex_hits); (str "Sel", ex_sel); (str "Tmp", ex_tmp); (str "Usr", ex_usr)].

Ltac names := eexists; eexists; split; [reflexivity|split; [reflexivity|repeat (apply Forall_cons; [reflexivity|]); apply Forall_nil]].
Ltac elim_in := repeat match goal with H : In _ (_ :: _) |- _ => destruct H as [<-|H] | H : In _ [] |- _ => destruct H end.

Lemma ex_coll_params : params_ok ex_par /\ params_ok no_params.
Proof. unfold ex_par, no_params. conc. all: cbn [fst snd]; conc. Qed.

Lemma ex_gen_ok : coll_ok TMC ex_heap ex_gen.
Proof.
  split; [unfold word32; cbn; lia|]. split; [apply ex_coll_params|]. split; [vm_compute; reflexivity|]. split; [vm_compute; reflexivity|].
  split; [|split; discriminate]. intros _. split.
  - intros a Ha. cbn [c_elems ex_gen] in Ha. elim_in; (split; [lia|eexists; split; reflexivity]).
  - intros a o Ha Ho. cbn [c_elems ex_gen] in Ha. elim_in; injection Ho as <-; unfold elem_ok, obj_ok, ex_mc; conc.
Qed.
Lemma ex_hits_ok : coll_ok TSCH ex_heap ex_hits.
Proof.
  split; [unfold word32; cbn; lia|]. split; [apply ex_coll_params|]. split; [vm_compute; reflexivity|]. split; [vm_compute; reflexivity|].
  split; [|split; discriminate]. intros _. split.
  - intros a Ha. cbn [c_elems ex_hits] in Ha. elim_in; (split; [lia|eexists; split; reflexivity]).
  - intros a o Ha Ho. cbn [c_elems ex_hits] in Ha. elim_in; injection Ho as <-; unfold elem_ok, obj_ok; conc.
Qed.
Lemma ex_sel_ok : coll_ok TMC ex_heap ex_sel.
Proof.
  split; [unfold word32; cbn; lia|]. split; [apply ex_coll_params|]. split; [vm_compute; reflexivity|]. split; [vm_compute; reflexivity|].
  split; [|split; discriminate]. intros H. vm_compute in H. discriminate H.
Qed.
Lemma ex_usr_ok : coll_ok TGO ex_heap ex_usr.
Proof.
  assert (T : typed TGO ex_heap (c_elems ex_usr)).
  { intros a Ha. cbn [c_elems ex_usr] in Ha. elim_in; (split; [lia|eexists; split; reflexivity]). }
  assert (O : elems_ok (c_flag ex_usr) ex_heap (c_elems ex_usr)).
  { intros a o Ha Ho. cbn [c_elems ex_usr] in Ha. elim_in; injection Ho as <-; unfold elem_ok; conc. }
  split; [unfold word32; cbn; lia|]. split; [apply ex_coll_params|]. split; [vm_compute; reflexivity|]. split; [vm_compute; reflexivity|].
  split; [|split; [discriminate|]]. { intros _. split; assumption. }
  intros _. split; [exact T|]. split; [exact O|]. split; [|split; [|split]].
  - intros k Hk. vm_compute. discriminate.
  - intros a o Ha Ho. cbn [c_elems ex_usr] in Ha. elim_in; injection Ho as <-; split; vm_compute; reflexivity.
  - reflexivity.
  - intros _. exists (2, 0, 1). cbn [fst snd]. split; [unfold int32; lia|]. split; [unfold int32; lia|]. split; [unfold int32; lia|].
    intros a o Ha Ho. cbn [c_elems ex_usr] in Ha. elim_in; injection Ho as <-; reflexivity.
Qed.

Lemma ex_event_ok : event_ok [] ex_heap ex_event /\ event_fits [] ex_heap ex_event.
Proof.
  split.
  - split; [unfold int32; cbn; lia|]. split; [unfold int32; cbn; lia|]. split; [unfold int64; cbn; lia|].
    split; [vm_compute; reflexivity|]. split; [apply ex_coll_params|]. split; [|split; [vm_compute; reflexivity|split]].
    + unfold sm_ok. cbn [sm_keys map fst ex_event ev_cols]. conc.
    + change (stored_cols [] ex_event) with [(str "Gen", ex_gen); (str "Hits", ex_hits); (str "Sel", ex_sel); (str "Usr", ex_usr)].
      repeat (apply Forall_cons; [cbn [fst snd]; split; [names|split; [vm_compute; reflexivity|]]|]); [| | | |apply Forall_nil].
      * exists TMC. split; [reflexivity|exact ex_gen_ok].
      * exists TSCH. split; [reflexivity|exact ex_hits_ok].
      * exists TMC. split; [reflexivity|exact ex_sel_ok].
      * exists TGO. split; [reflexivity|exact ex_usr_ok].
    + vm_compute. repeat constructor; cbn; intuition discriminate.
  - split; [vm_compute; reflexivity|]. intros bs cols H.
    assert (E : event_blocks [] ex_heap (ev_cols ex_event) = event_blocks [] ex_heap (ev_cols ex_event)) by reflexivity.
    rewrite H in E at 1. vm_compute in E. injection E as -> _. vm_compute. reflexivity.
Qed.

Lemma ex_links_ok : mc_links_ok ex_heap (read_back [] [] ex_event) /\
  subsets_ok ex_heap (event_tags [] [] ex_heap ex_event) (read_back [] [] ex_event).
Proof.
  split.
  - intros pre nc post a p E Hm Ha Hp. exists nc. split; [apply in_or_app; right; left; reflexivity|]. split; [exact Hm|].
    assert (Hin : In nc (read_back [] [] ex_event)) by (rewrite E; apply in_or_app; right; left; reflexivity).
    clear E. change (read_back [] [] ex_event) with [(str "Gen", ex_gen); (str "Hits", ex_hits); (str "Sel", ex_sel); (str "Usr", ex_usr)] in Hin.
    elim_in; try discriminate Hm. cbn [snd c_elems ex_gen] in *. elim_in; vm_compute in Hp; elim_in; cbn [In]; tauto.
  - intros nc a Hin Hs Ha. change (read_back [] [] ex_event) with [(str "Gen", ex_gen); (str "Hits", ex_hits); (str "Sel", ex_sel); (str "Usr", ex_usr)] in Hin.
    elim_in; try discriminate Hs. cbn [snd c_elems ex_sel] in Ha. elim_in; split; try lia; vm_compute; auto 10.
Qed.

Definition ex_buf : buffer := mkBuffer [Init.Byte.x00] true.

(** ** Events outside the conditions *)
Definition ev_of (cols : list (bytes * coll)) : event := mkEvt 1 1 0 (str "D") no_params cols.

(** the parent of the particle of the first collection is in the second one *)
Definition late_heap : heap := heap_of [(1, OMC (ex_mc [2])); (2, OMC (ex_mc [])); (3, OMC (ex_mc [2]))].
Definition late_event : event :=
  ev_of [(str "A", mkColl (str "MCParticle") 0 no_params [1]); (str "B", mkColl (str "MCParticle") 0 no_params [2; 3])].

(** a collection flag word with the FIXED bit of an earlier use; the object is not of fixed size *)
Definition stale_heap : heap := heap_of [(1, OGO (mkGO [7] [] [] false (str "U") []))].
Definition stale_event : event := ev_of [(str "U", mkColl (str "LCGenericObject") (2 ^ 31) no_params [1])].

(** two generic objects of fixed, but different size *)
Definition sizes_heap : heap :=
  heap_of [(1, OGO (mkGO [7; 8] [] [] true (str "U") [])); (2, OGO (mkGO [9] [] [] true (str "U") []))].
Definition sizes_event : event := ev_of [(str "U", mkColl (str "LCGenericObject") 0 no_params [1; 2])].

(** a track with two states at the same location *)
Definition twice_state : tstate := mkTS 1 0 0 0 0 0 (repeat 0 15) [0; 0; 0].
Definition twice_heap : heap := heap_of [(1, OTRK (mkTRK 0 [twice_state; twice_state] 0 0 0 0 0 [] [] []))].
Definition twice_event : event := ev_of [(str "T", mkColl (str "Track") 0 no_params [1])].

(** a cluster with a hit, but no weight *)
Definition weight_heap : heap :=
  heap_of [(1, OCL (mkCL 0 0 0 [0; 0; 0] (repeat 0 6) 0 0 [0; 0; 0] [] [] [] [5] [] []))].
Definition weight_event : event := ev_of [(str "C", mkColl (str "Cluster") (2 ^ 31) no_params [1])].

(** a subset of vertices with a null entry *)
Definition nullvx_event : event := ev_of [(str "V", mkColl (str "Vertex") (2 ^ 18) no_params [0])].

Lemma ex_usable : usable ex_buf.
Proof. split; [reflexivity|discriminate]. Qed.

Lemma ex_pids_ordered : pids_ordered ex_heap (read_back [] [] ex_event).
Proof.
  intros nc a o Hnc Ha Ho. change (read_back [] [] ex_event) with [(str "Gen", ex_gen); (str "Hits", ex_hits); (str "Sel", ex_sel); (str "Usr", ex_usr)] in Hnc.
  assert (L : likes o = []).
  { elim_in; cbn [snd c_elems ex_gen ex_hits ex_sel ex_usr] in Ha; elim_in; injection Ho as <-; reflexivity. }
  unfold likes_desc. rewrite L. split; constructor.
Qed.

(** a selection without the particles *)
Lemma ex_selected : mc_links_ok ex_heap (read_back [] [str "Hits"; str "Usr"] ex_event) /\
  subsets_ok ex_heap (event_tags [] [str "Hits"; str "Usr"] ex_heap ex_event) (read_back [] [str "Hits"; str "Usr"] ex_event).
Proof.
  split.
  - intros pre nc post a p E Hm Ha Hp.
    assert (Hin : In nc (read_back [] [str "Hits"; str "Usr"] ex_event)) by (rewrite E; apply in_or_app; right; left; reflexivity).
    change (read_back [] [str "Hits"; str "Usr"] ex_event) with [(str "Hits", ex_hits); (str "Usr", ex_usr)] in Hin. elim_in; discriminate Hm.
  - intros nc a Hin Hs Ha. change (read_back [] [str "Hits"; str "Usr"] ex_event) with [(str "Hits", ex_hits); (str "Usr", ex_usr)] in Hin.
    elim_in; discriminate Hs.
Qed.

Lemma ex_attributes : exactly_storable false (OMC (ex_mc [1; 2])) /\
  stored (2 ^ 29) false (OCH (mkCH 1 2 3 4 5 [6; 7; 8] 9 10)) = OCH (mkCH 1 2 3 0 0 [0; 0; 0] 9 10) /\
  (add_pids isort (fun x => x) [1065353216; 1073741824; 0]) = [1073741824; 1065353216; 0].
Proof.
  split; [|split; vm_compute; reflexivity]. cbn [exactly_storable ex_mc mc_p mc_mass mc_daughters mc_sim mc_endpoint mc_pend]. cbv zeta.
  split; [|split; [vm_compute; reflexivity|split; [reflexivity|split; reflexivity]]].
  apply Forall_cons; [vm_compute; reflexivity|]. apply Forall_cons; [vm_compute; reflexivity|]. apply Forall_cons; [vm_compute; reflexivity|]. apply Forall_nil.
Qed.
