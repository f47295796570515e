(** * Parameters, events, tracks, particles and hits as user programs see them

    [exec] is one call of a program on an event, its collections or their elements, [run] a program
    that catches exceptions and carries on.  The theorems hold for every addition of floating point
    numbers [fadd] and every way [srt] to order the particle ids of a particle. *)

From Coq Require Import ZArith List Bool Lia.
From Verif Require Import Bytes StrMap SioModel ObjModel FlagModel ImplModel ImplSpec ImplProofs AccessProofs.
Import ListNotations.
Open Scope Z_scope.

(** objects for the cases *)
Definition no_sort (A : Type) (f : A -> Z) (l : list A) : list A := l.
Definition blank : mcp := mkMC [] 0 0 0 [0; 0; 0] 0 [0; 0; 0] 0 0 [0; 0; 0] [0; 0; 0] [0; 0; 0] [0; 0] [].
Definition no_coll : addr -> option (bool * coll) := fun _ => None.
Definition four_particles : world :=
  mkW new_estate no_coll (fun a => if (1 <=? a) && (a <=? 4) then Some (false, OMC blank) else None).

(** ** C34: parameters *)

(** What the getters return is determined by the last call that set the key in the map of that type:
    the vector, appended to what the caller's vector holds; its first element, the default when the key
    is absent, undefined behaviour for an empty vector; its size; and the key is listed. *)
Theorem C34_last_value : forall cs k,
  getters_give 0 (p_int (params_after cs)) k (last_of (ints_set k) cs) /\
  getters_give 0 (p_flt (params_after cs)) k (last_of (floats_set k) cs) /\
  getters_give [] (p_str (params_after cs)) k (last_of (strings_set k) cs).
Proof. exact parameters_ok. Qed.
Print Assumptions C34_last_value.

(** No key is listed twice. *)
Theorem C34_keys_once : forall cs,
  NoDup (par_keys (p_int (params_after cs)) []) /\ NoDup (par_keys (p_flt (params_after cs)) []) /\
  NoDup (par_keys (p_str (params_after cs)) []).
Proof. exact parameters_keys. Qed.
Print Assumptions C34_keys_once.

Example C34_case :
  let k := str "run" in
  let cs := [P_setInts k [4; 5; 6]; P_setString k (str "x"); P_setInt (str "r") 9; P_setInts k [7; 8]; P_setFloats (str "e") []] in
  last_of (ints_set k) cs = Some [7; 8] /\ last_of (floats_set k) cs = None /\ last_of (strings_set k) cs = Some [str "x"] /\
  par_vals (p_int (params_after cs)) k [1] = [1; 7; 8] /\ par_val 0 (p_int (params_after cs)) k = Ok 7 /\
  par_val 0 (p_int (params_after cs)) (str "absent") = Ok 0 /\ par_keys (p_int (params_after cs)) [] = [str "r"; k].
Proof. vm_compute. repeat split. Qed.

(** A key that was set to an empty vector has no first element: the scalar getter reads outside. *)
Theorem C34_empty_vector_refuted : exists cs k,
  last_of (ints_set k) cs = Some [] /\ par_val 0 (p_int (params_after cs)) k = UB UBOutOfBounds.
Proof. exists [P_setInts (str "k") []], (str "k"). vm_compute. split; reflexivity. Qed.
Print Assumptions C34_empty_vector_refuted.

(** ** C28: the collections of an event *)

(** After any program that starts with an event without collections: getCollection gives the collection
    last added under the name and not removed since, getCollectionNames lists exactly these names, each
    once.  [present] looks only at the calls and their outcomes. *)
Theorem C28_event_is_a_map : forall fadd srt w cs n, es_cols (w_ev w) = [] ->
  let e := w_ev (run fadd srt w cs) in
  let now := present (outcomes fadd srt w cs) in
  ev_get e n = match now n with Some a => Ok a | None => Throw LDataNotAvailable end /\
  (In n (ev_names e) <-> now n <> None) /\ NoDup (ev_names e).
Proof. exact collections_ok. Qed.
Print Assumptions C28_event_is_a_map.

(** addCollection of a name without NUL characters is accepted exactly when the name is an identifier of
    C, no collection has it and the pointer is not null; otherwise it throws EventException and nothing
    changes. *)
Theorem C28_add_accepted : forall fadd srt w cs a n, es_cols (w_ev w) = [] -> no_nul n ->
  let w1 := run fadd srt w cs in
  (snd (exec fadd srt w1 (WEv (V_add a n))) = Ok tt /\ identifier n /\ present (outcomes fadd srt w cs) n = None /\ a <> 0) \/
  (exec fadd srt w1 (WEv (V_add a n)) = (w1, Throw LEventException) /\
   (~ identifier n \/ present (outcomes fadd srt w cs) n <> None \/ a = 0)).
Proof. exact add_accepted. Qed.
Print Assumptions C28_add_accepted.

(** All names without NUL characters are identifiers. *)
Theorem C28_names_identifiers : forall fadd srt w cs n, no_nul n -> es_cols (w_ev w) = [] ->
  present (outcomes fadd srt w cs) n <> None -> identifier n.
Proof. exact present_identifiers. Qed.
Print Assumptions C28_names_identifiers.

Example C28_case :
  let cs := [WEv (V_add 7 (str "Tracks")); WEv (V_add 8 (str "Tracks")); WEv (V_add 9 (str "2Tracks")); WEv (V_add 9 (str "Hits"));
             WEv (V_remove (str "Tracks")); WEv (V_add 8 (str "Tracks")); WEv (V_remove (str "Hits")); WEv (V_take (str "None"))] in
  map snd (outcomes Z.add no_sort four_particles cs) =
    [Ok tt; Throw LEventException; Throw LEventException; Ok tt; Ok tt; Ok tt; Ok tt; Throw LDataNotAvailable] /\
  present (outcomes Z.add no_sort four_particles cs) (str "Tracks") = Some 8 /\
  ev_names (w_ev (run Z.add no_sort four_particles cs)) = [str "Tracks"] /\ no_nul (str "2Tracks") /\ ~ identifier (str "2Tracks").
Proof. do 3 (split; [vm_compute; reflexivity|]). split; [repeat constructor; discriminate|]. intros [H _]. change (letter 50) in H. unfold letter in H. lia. Qed.

(** The check ends at the first NUL character: a name with anything behind one is accepted. *)
Theorem C28_embedded_nul_refuted : forall fadd srt, exists w n, es_cols (w_ev w) = [] /\
  snd (exec fadd srt w (WEv (V_add 7 n))) = Ok tt /\ ~ identifier n.
Proof.
  intros fadd srt. exists four_particles, (str "A" ++ [bZ 0] ++ str " !"). split; [reflexivity|]. split; [vm_compute; reflexivity|].
  intros [_ H]. inversion H as [|? ? H1 _]; subst. change (letter_or_digit 0) in H1. unfold letter_or_digit, letter in H1. lia.
Qed.
Print Assumptions C28_embedded_nul_refuted.

(** ** C30: parents and daughters *)

(** A program that calls addParent on modifiable particles, and anything else but addDaughter and
    setAccessMode, keeps parents and daughters in step and no pair is listed twice. *)
Theorem C30_mirrored : forall fadd srt w cs, mirrored w -> modifiable w -> Forall (fun c => family_call c = true) cs ->
  mirrored (run fadd srt w cs).
Proof. exact family_ok. Qed.
Print Assumptions C30_mirrored.

Lemma four_mirrored : mirrored four_particles /\ modifiable four_particles.
Proof.
  split.
  - intros d p od op [r1 H1] [r2 H2]. cbn [four_particles w_obj] in *. destruct ((1 <=? d) && (d <=? 4)); [|discriminate].
    destruct ((1 <=? p) && (p <=? 4)); [|discriminate]. injection H1 as _ <-. injection H2 as _ <-. split; [reflexivity|]. cbn. lia.
  - intros a ro o H. cbn [four_particles w_obj] in H. destruct ((1 <=? a) && (a <=? 4)); [|discriminate]. injection H as <- _. reflexivity.
Qed.

Example C30_case :
  let cs := [WParent 1 2; WParent 1 3; WParent 1 2; WObj 1 (EMC (MC_setPDG 11)); WParent 4 3; WParent 4 4] in
  let w := run Z.add no_sort four_particles cs in
  (mirrored four_particles /\ modifiable four_particles /\ Forall (fun c => family_call c = true) cs) /\
  (exists o, particle w 1 o /\ mc_parents o = [2; 3]) /\ (exists o, particle w 3 o /\ mc_daughters o = [1; 4]) /\
  (exists o, particle w 4 o /\ mc_daughters o = [4]).
Proof.
  split; [split; [exact (proj1 four_mirrored)|split; [exact (proj2 four_mirrored)|repeat constructor]]|].
  split; [|split]; eexists; (split; [exists false; vm_compute; reflexivity|reflexivity]).
Qed.

(** A read only parent: addParent throws after it has listed the parent. *)
Theorem C30_read_only_parent_refuted : forall fadd srt, exists w, mirrored w /\
  snd (exec fadd srt w (WParent 1 2)) = Throw LReadOnly /\ ~ mirrored (fst (exec fadd srt w (WParent 1 2))).
Proof.
  intros fadd srt. exists (mkW new_estate no_coll (fun a => if a =? 1 then Some (false, OMC blank) else if a =? 2 then Some (true, OMC blank) else None)).
  split; [|split].
  - intros d p od op [r1 H1] [r2 H2]. cbn [w_obj] in *.
    assert (od = blank) by (destruct (d =? 1); [|destruct (d =? 2); [|discriminate]]; injection H1 as _ <-; reflexivity).
    assert (op = blank) by (destruct (p =? 1); [|destruct (p =? 2); [|discriminate]]; injection H2 as _ <-; reflexivity).
    subst. split; [reflexivity|cbn; lia].
  - reflexivity.
  - intros H. destruct (H 1 2 (mkMC [2] 0 0 0 [0; 0; 0] 0 [0; 0; 0] 0 0 [0; 0; 0] [0; 0; 0] [0; 0; 0] [0; 0] []) blank) as [E _].
    + exists false. reflexivity.
    + exists true. reflexivity.
    + vm_compute in E. discriminate.
Qed.
Print Assumptions C30_read_only_parent_refuted.

(** ** C32: contributions to a simulated calorimeter hit *)

(** The energy of the hit is the sum of all contributed energies in the order of the calls, with the
    floating point addition of the machine. *)
Theorem C32_energy : forall fadd o cs, Forall contribution cs ->
  sc_energy (hit_after fadd o cs) = fold_left fadd (flat_map energy_of cs) (sc_energy o).
Proof. exact hit_energy. Qed.
Print Assumptions C32_energy.

(** Short form: each particle has at most one entry, with the sum of its energies and the time of its
    first contribution. *)
Theorem C32_short_form : forall fadd o cs, sc_cont o = [] -> Forall is_short cs ->
  NoDup (map co_part (sc_cont (hit_after fadd o cs))) /\
  forall p, entry (sc_cont (hit_after fadd o cs)) p = short_entry fadd p (flat_map (from_particle p) cs).
Proof. exact short_ok. Qed.
Print Assumptions C32_short_form.

(** Detailed form: every call adds one entry. *)
Theorem C32_detailed_form : forall fadd o cs, Forall is_detailed cs ->
  sc_cont (hit_after fadd o cs) = sc_cont o ++ flat_map detailed_entry cs.
Proof. exact detailed_entries. Qed.
Print Assumptions C32_detailed_form.

(** Both forms mixed: the particles of the hit are those of the calls. *)
Theorem C32_particles : forall fadd o cs, Forall contribution cs -> forall p,
  In p (map co_part (sc_cont (hit_after fadd o cs))) <-> In p (map co_part (sc_cont o)) \/ In p (flat_map part_of cs).
Proof. exact parts_ok. Qed.
Print Assumptions C32_particles.

Example C32_case :
  let o := mkSCH 0 0 100 [0; 0; 0] [] in
  let cs := [SCH_addShort 1 10 5; SCH_addShort 2 20 4; SCH_addShort 1 30 3] in
  let ds := [SCH_addDetailed 1 10 5 2 11 None; SCH_addDetailed 1 10 5 2 11 (Some [7; 8; 9])] in
  Forall is_short cs /\ Forall contribution (cs ++ ds) /\ Forall is_detailed ds /\
  hit_after Z.add o cs = mkSCH 0 0 160 [0; 0; 0] [mkCont 1 40 5 0 0 [0; 0; 0]; mkCont 2 20 4 0 0 [0; 0; 0]] /\
  hit_after Z.add o ds = mkSCH 0 0 120 [0; 0; 0] [mkCont 1 10 5 2 11 [0; 0; 0]; mkCont 1 10 5 2 11 [7; 8; 9]] /\
  sc_energy (hit_after Z.add o (cs ++ ds)) = 180.
Proof.
  split; [repeat constructor|]. split; [repeat (constructor; [first [left; exact I|right; cbn; auto]|]); constructor|].
  split; [repeat constructor|]. vm_compute. repeat split.
Qed.

(** ** C40: track states *)

(** After any calls, on a new track, that do not hand the vector of track states out or copy another
    track over: no two states at one location other than AtOther (0). *)
Theorem C40_unique : forall cs i j t t', Forall (fun c => raw_states_call c = false) cs ->
  nth_error (tr_states (track_after cs)) i = Some t -> nth_error (tr_states (track_after cs)) j = Some t' ->
  ts_loc t = ts_loc t' -> ts_loc t <> 0 -> i = j.
Proof. exact states_unique_ok. Qed.
Print Assumptions C40_unique.

(** When states are only added with addTrackState, getTrackState gives the one first added at the
    location. *)
Theorem C40_state_added : forall cs loc, Forall add_call cs ->
  get_track_state (tr_states (track_after cs)) loc = first_added cs loc.
Proof. exact state_added. Qed.
Print Assumptions C40_state_added.

(** addTrackState accepts a state exactly if its location is AtOther or free, otherwise it throws and the
    track stays as it is. *)
Theorem C40_second_rejected : forall o t,
  (ts_loc t = 0 \/ get_track_state (tr_states o) (ts_loc t) = None) /\
  snd (trk_do false o (TRK_addTrackState t)) = Ok tt /\
  tr_states (fst (trk_do false o (TRK_addTrackState t))) = tr_states o ++ [t]
  \/
  ts_loc t <> 0 /\ get_track_state (tr_states o) (ts_loc t) <> None /\
  trk_do false o (TRK_addTrackState t) = (o, Throw LException).
Proof. exact state_rejected. Qed.
Print Assumptions C40_second_rejected.

(** a state with a location and one number to tell it from others *)
Definition state_at (loc d0 : Z) : tstate := mkTS loc d0 0 0 0 0 (repeat 0 15) [0; 0; 0].

Example C40_case :
  let cs := [TRK_setType 3; TRK_addTrackState (state_at 1 10); TRK_addTrackState (state_at 0 20); TRK_addTrackState (state_at 1 30);
             TRK_addTrackState (state_at 0 40); TRK_addTrackState (state_at 2 50)] in
  Forall (fun c => raw_states_call c = false) cs /\ Forall add_call cs /\
  tr_states (track_after cs) = [state_at 1 10; state_at 0 20; state_at 0 40; state_at 2 50] /\
  get_track_state (tr_states (track_after cs)) 1 = Some (state_at 1 10) /\ get_track_state (tr_states (track_after cs)) 3 = None.
Proof. split; [repeat constructor|]. split; [repeat constructor|]. vm_compute. repeat split. Qed.

(** The location of a state already added can be changed, and assignment appends the states of the other
    track: both give two states at one location. *)
Theorem C40_location_changed_refuted : exists cs, Forall (fun c => match c with TRK_addTrackState _ | TRK_stateSetLocation _ _ => True | _ => False end) cs /\
  tr_states (track_after cs) = [state_at 1 10; state_at 1 20].
Proof. exists [TRK_addTrackState (state_at 1 10); TRK_addTrackState (state_at 2 20); TRK_stateSetLocation 1 1]. split; [repeat constructor|]. vm_compute. reflexivity. Qed.
Print Assumptions C40_location_changed_refuted.

Theorem C40_assignment_refuted : exists cs v, tr_states (track_after (cs ++ [TRK_assign v])) = [state_at 1 10; state_at 1 20] /\
  Forall add_call cs /\ tr_states v = [state_at 1 20].
Proof.
  exists [TRK_addTrackState (state_at 1 10)], (track_after [TRK_addTrackState (state_at 1 20)]). split; [vm_compute; reflexivity|].
  split; [repeat constructor|]. vm_compute. reflexivity.
Qed.
Print Assumptions C40_assignment_refuted.

(** ** C29: read only data *)

(** After setAccessMode(READ_ONLY) and any program that does not change the mode, every checked
    modifying call on the event, on one of its collections or on one of their elements throws
    ReadOnlyException and changes nothing.  [unchecked_elem], [unchecked_coll] and [unchecked_ev] list
    the modifying calls that are not checked. *)
Theorem C29_read_only : forall fadd srt w cs c, let w0 := set_access_mode w READ_ONLY in
  no_mode_change cs -> checked_call w0 c ->
  snd (exec fadd srt (run fadd srt w0 cs) c) = Throw LReadOnly /\
  same_world (fst (exec fadd srt (run fadd srt w0 cs) c)) (run fadd srt w0 cs).
Proof. exact read_only_ok. Qed.
Print Assumptions C29_read_only.

(** an event with a collection of particles, one of tracks and one of clusters *)
Definition small_event : world :=
  mkW (mkES false 1 2 3 (str "ild") no_params [(str "A", 10); (str "B", 11); (str "C", 12)] [])
      (fun a => if a =? 10 then Some (false, mkColl (str "MCParticle") 0 no_params [1; 2])
                else if a =? 11 then Some (false, mkColl (str "Track") 0 no_params [3])
                else if a =? 12 then Some (false, mkColl (str "Cluster") 0 no_params [4]) else None)
      (fun a => if (1 <=? a) && (a <=? 2) then Some (false, OMC blank)
                else if a =? 3 then Some (false, OTRK new_track)
                else if a =? 4 then Some (false, OCL (mkCL 0 0 0 [] [] 0 0 [] [] [] [] [] [] [])) else None).

Example C29_case : let w0 := set_access_mode small_event READ_ONLY in
  checked_call w0 (WEv (V_setRunNumber 5)) /\ checked_call w0 (WCol 10 (C_addElement 3)) /\ checked_call w0 (WObj 3 (ETRK (TRK_setChi2 5))) /\
  checked_call w0 (WParent 1 2) /\ no_mode_change [WObj 3 (ETRK (TRK_addHit 4)); WEv (V_setRunNumber 8); WCol 10 (C_setFlag 5)] /\
  snd (exec Z.add no_sort (run Z.add no_sort w0 [WObj 3 (ETRK (TRK_addHit 4))]) (WObj 3 (ETRK (TRK_setChi2 5)))) = Throw LReadOnly /\
  snd (exec Z.add no_sort small_event (WObj 3 (ETRK (TRK_setChi2 5)))) = Ok tt.
Proof.
  assert (A : event_coll (set_access_mode small_event READ_ONLY) 10 (mkColl (str "MCParticle") 0 no_params [1; 2])).
  { split; [vm_compute; tauto|]. exists true. vm_compute. reflexivity. }
  assert (B : event_coll (set_access_mode small_event READ_ONLY) 11 (mkColl (str "Track") 0 no_params [3])).
  { split; [vm_compute; tauto|]. exists true. vm_compute. reflexivity. }
  split; [reflexivity|]. split; [split; [eexists; exact A|reflexivity]|].
  split. { split; [|split; reflexivity]. exists (OTRK new_track). split; [|exact I]. exists 11, (mkColl (str "Track") 0 no_params [3]), true.
    split; [exact B|]. split; [left; reflexivity|vm_compute; reflexivity]. }
  split. { exists blank. exists 10, (mkColl (str "MCParticle") 0 no_params [1; 2]), true. split; [exact A|]. split; [left; reflexivity|vm_compute; reflexivity]. }
  split; [repeat constructor|]. split; vm_compute; reflexivity.
Qed.

(** Not every modifying call is checked: these change the read only event, a read only collection and read
    only elements. *)
Theorem C29_unchecked_refuted : forall fadd srt, let w0 := set_access_mode small_event READ_ONLY in
  Forall (fun c => snd (exec fadd srt w0 c) = Ok tt /\ ~ same_world (fst (exec fadd srt w0 c)) w0)
    [WEv (V_add 10 (str "D")); WEv (V_parameters (P_setInt (str "k") 1)); WEv (V_take (str "A"));
     WCol 10 (C_setFlag 7); WCol 10 (C_parameters (P_setInt (str "k") 1)); WCol 10 (C_vector []);
     WObj 1 (EMC (MC_setStopped true)); WObj 3 (ETRK (TRK_addHit 4)); WObj 3 (ETRK (TRK_setD0 4)); WObj 4 (ECL (CL_addHit 4 1))].
Proof.
  intros fadd srt w0.
  assert (Ev : forall c, w_ev (fst (exec fadd srt w0 c)) <> w_ev w0 -> ~ same_world (fst (exec fadd srt w0 c)) w0) by (intros c H [E _]; contradiction).
  assert (Co : forall c a, w_col (fst (exec fadd srt w0 c)) a <> w_col w0 a -> ~ same_world (fst (exec fadd srt w0 c)) w0) by (intros c a H [_ [E _]]; apply H, E).
  assert (Ob : forall c a, w_obj (fst (exec fadd srt w0 c)) a <> w_obj w0 a -> ~ same_world (fst (exec fadd srt w0 c)) w0) by (intros c a H [_ [_ E]]; apply H, E).
  repeat (constructor; [split; [vm_compute; reflexivity|]|]); try (apply Ev; vm_compute; discriminate); try (apply (Co _ 10); vm_compute; discriminate).
  - apply (Ob _ 1). vm_compute. discriminate.
  - apply (Ob _ 3). vm_compute. discriminate.
  - apply (Ob _ 3). vm_compute. discriminate.
  - apply (Ob _ 4). vm_compute. discriminate.
  - constructor.
Qed.
Print Assumptions C29_unchecked_refuted.
