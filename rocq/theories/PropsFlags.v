(** * Properties of flag words *)

From Verif Require Import Bytes FlagModel FlagSpec FlagProofs.

(** ** C33: flag bits are independent *)

(** Any sequence of LCFlagImpl::setBit and unsetBit, setTransient, setDefault and setSubset on the flag
    word of a collection. *)
Theorem C33_collection_flags : forall w cs, - 2 ^ 31 <= w < 2 ^ 31 -> on_32_bits (map call_bit cs) ->
  exists w', run_coll w cs = Ok w' /\ - 2 ^ 31 <= w' < 2 ^ 31 /\
    (forall i, 0 <= i <= 31 -> flag_bit_set w' i = Ok (last_set (map call_bit cs) i (bit_of w i)) /\
                              bit_of w' i = last_set (map call_bit cs) i (bit_of w i)) /\
    (forall b, coll_is w' b = Ok (last_set (map call_bit cs) (coll_index b) (bit_of w (coll_index b)))).
Proof. exact colls_ok. Qed.
Print Assumptions C33_collection_flags.

Example C33_collection_flags_case :
  let cs := [ThroughFlag 31 true; Named BSubset true; ThroughFlag 3 true; ThroughFlag 18 false; ThroughFlag 31 false; Named BDefault true] in
  on_32_bits (map call_bit cs) /\ run_coll (-5) cs = Ok 2147221499 /\ coll_is 2147221499 BSubset = Ok false /\
  coll_is 2147221499 BDefault = Ok true.
Proof. split; [repeat constructor; cbn; lia|]. repeat split; vm_compute; reflexivity. Qed.

(** Any sequence of setQualityBit calls on a hit (tracker hits of all kinds, tracker pulses, simulated
    tracker hits). *)
Theorem C33_quality_bits : forall w ops, - 2 ^ 31 <= w < 2 ^ 31 -> on_32_bits ops ->
  exists w', run_ops (fun q op => set_quality_bit false q (fst op) (snd op)) w ops = Ok w' /\ - 2 ^ 31 <= w' < 2 ^ 31 /\
    forall i, 0 <= i <= 31 -> quality_bit w' i = Ok (last_set ops i (bit_of w i)) /\ bit_of w' i = last_set ops i (bit_of w i).
Proof. exact qualities_ok. Qed.
Print Assumptions C33_quality_bits.

Example C33_quality_bits_case :
  let ops := [(31, true); (0, true); (31, false); (7, true)] in
  on_32_bits ops /\ run_ops (fun q op => set_quality_bit false q (fst op) (snd op)) 4096 ops = Ok 4225.
Proof. split; [repeat constructor; cbn; lia|]. vm_compute; reflexivity. Qed.

(** The functions set_bit and unset_bit of BitSet32.h. *)
Theorem C33_bitset32 : forall w ops, - 2 ^ 31 <= w < 2 ^ 31 -> on_32_bits ops ->
  exists w', run_ops (fun q op => if snd op then util_set_bit q (fst op) else util_unset_bit q (fst op)) w ops = Ok w' /\
    - 2 ^ 31 <= w' < 2 ^ 31 /\
    forall i, 0 <= i <= 31 -> bitset_test (bitset_of w') i = Ok (last_set ops i (bit_of w i)) /\ bit_of w' i = last_set ops i (bit_of w i).
Proof. exact utils_ok. Qed.
Print Assumptions C33_bitset32.

Example C33_bitset32_case :
  run_ops (fun q op => if snd op then util_set_bit q (fst op) else util_unset_bit q (fst op)) (-1) [(31, false); (30, false); (2, false); (31, true)]
  = Ok (- 2 ^ 30 - 5).
Proof. vm_compute; reflexivity. Qed.

(** The simulator status of a particle: set as a whole, then any sequence of the setters of single bits. *)
Theorem C33_simulator_status : forall status ops, - 2 ^ 31 <= status < 2 ^ 31 -> exists s,
  set_sim_status false 0 status = Ok s /\ sim_status s = status /\
  (forall b, sim_is (run_sim s ops) b = last_set (on_sim_bits ops) (sim_index b) (bit_of status (sim_index b))) /\
  (forall i, 0 <= i <= 31 -> bit_of (sim_status (run_sim s ops)) i = last_set (on_sim_bits ops) i (bit_of status i)).
Proof. exact sims_ok. Qed.
Print Assumptions C33_simulator_status.

Example C33_simulator_status_case :
  let ops := [(BStopped, true); (BEndpoint, true); (BOverlay, true); (BStopped, false)] in
  sim_status (run_sim 5 ops) = - 2 ^ 31 + 2 ^ 23 + 5.
Proof. vm_compute; reflexivity. Qed.

(** The flags of a collection and of the simulator status by their names: each has the value it was set to
    last, whatever other flags were set. *)
Theorem C33_named_collection_flags : forall w ops, - 2 ^ 31 <= w < 2 ^ 31 ->
  exists w', run_coll w (map (fun op => Named (fst op) (snd op)) ops) = Ok w' /\
    forall b v, coll_is w b = Ok v -> coll_is w' b = Ok (last_named coll_bit_dec ops b v).
Proof. exact coll_named. Qed.
Print Assumptions C33_named_collection_flags.
Theorem C33_named_simulator_status : forall status ops, - 2 ^ 31 <= status < 2 ^ 31 -> exists s, set_sim_status false 0 status = Ok s /\
  forall b, sim_is (run_sim s ops) b = last_named sim_bit_dec ops b (sim_is s b).
Proof. exact sim_named. Qed.
Print Assumptions C33_named_simulator_status.

Example C33_named_case :
  last_named coll_bit_dec [(BDefault, true); (BSubset, false); (BTransient, true)] BDefault false = true /\
  last_named sim_bit_dec [(BStopped, true); (BOverlay, false); (BStopped, true); (BLeft, false)] BStopped false = true /\
  coll_is (2 ^ 18) BSubset = Ok true.
Proof. repeat split. Qed.

(** Process flags: a flag contains what has been added and what it contained before; all other bits are
    unchanged. *)
Theorem C33_process_flags : forall w l, - 2 ^ 31 <= w < 2 ^ 31 -> exists w', pf_adds w l = Ok w' /\ - 2 ^ 31 <= w' < 2 ^ 31 /\
  (forall i, 0 <= i <= 31 -> bit_of w' i = last_set (map (fun p => (pf_index p, true)) l) i (bit_of w i)) /\
  (forall p, exists h, pf_has w' p = Ok h /\ (h = true <-> In p l \/ pf_has w p = Ok true)).
Proof. exact pfs_ok. Qed.
Print Assumptions C33_process_flags.

Example C33_process_flags_case : pf_adds 0 [PFmuons; PFhiggsbb; PFunknown] = Ok (2 + 2 ^ 10 + 2 ^ 24) /\ pf_has (2 + 2 ^ 10 + 2 ^ 24) PFhiggscc = Ok false.
Proof. split; vm_compute; reflexivity. Qed.

(** A process flag contains another exactly if it has all its bits. *)
Theorem C33_contains : forall w v, - 2 ^ 31 <= w < 2 ^ 31 -> - 2 ^ 31 <= v < 2 ^ 31 ->
  (pf_contains w v = true <-> forall i, 0 <= i <= 31 -> bit_of v i = true -> bit_of w i = true).
Proof.
  intros w v Hw Hv. rewrite (pf_contains_ok w v) by (unfold is_i32, two31; change (2 ^ 31) with 2147483648 in *; lia).
  split; intros H i Hi; specialize (H i Hi); [rewrite !bit_of_test by lia|rewrite !bit_of_test in H by lia]; exact H.
Qed.
Print Assumptions C33_contains.

Example C33_contains_case : pf_contains (2 + 2 ^ 10 + 2 ^ 24) (2 + 2 ^ 24) = true /\ pf_contains (2 + 2 ^ 10 + 2 ^ 24) (4 + 2 ^ 24) = false.
Proof. split; reflexivity. Qed.

(** addFSParticles and addHiggsDecay say whether they know the particle; if they do, one bit is added. *)
Theorem C33_added_particles : forall w pdg, - 2 ^ 31 <= w < 2 ^ 31 -> exists r w' r2 w2,
  pf_add_fs w pdg = Ok (r, w') /\ (r = true <-> In pdg [11; 13; 15; 12; 14; 16; 22; 1; 2; 3; 4; 5]) /\
  (r = false -> w' = w) /\ (r = true -> exists p, pf_adds w [p] = Ok w') /\
  pf_add_higgs w pdg = Ok (r2, w2) /\ (r2 = true <-> In pdg [5; 1; 2; 3; 4; 15; 13; 24; 23; 22; 12; 14; 16; 1000022]) /\
  (r2 = false -> w2 = w) /\ (r2 = true -> exists p, pf_adds w [p] = Ok w2).
Proof.
  intros w pdg Hw.
  assert (A : forall o, exists w', pf_add_found o w = Ok (match o with Some _ => true | None => false end, w') /\
    (o = None -> w' = w) /\ (forall p, o = Some p -> pf_adds w [p] = Ok w')).
  { intros [p|].
    - destruct (pfs_ok w [p] Hw) as (w' & E & _). exists w'. cbn [pf_add_found]. cbn [pf_adds] in E. destruct (pf_add w p) as [f| |] eqn:F; cbn [bind] in E; try discriminate E.
      injection E as <-. cbn [bind]. split; [reflexivity|]. split; [discriminate|]. intros q Q. injection Q as <-. cbn [pf_adds]. rewrite F. reflexivity.
    - exists w. split; [reflexivity|]. split; [reflexivity|discriminate]. }
  destruct (A (pf_fs pdg)) as (w' & E & E0 & E1). destruct (A (pf_h pdg)) as (w2 & F & F0 & F1).
  exists (match pf_fs pdg with Some _ => true | None => false end), w', (match pf_h pdg with Some _ => true | None => false end), w2.
  split; [exact E|]. split.
  { unfold pf_fs. cbn [In]. repeat match goal with |- context [pdg =? ?n] => destruct (Z.eqb_spec pdg n); cbn [orb] end; split; intros K; try reflexivity; try discriminate K; lia. }
  split; [destruct (pf_fs pdg); [discriminate|intros _; exact (E0 eq_refl)]|]. split; [destruct (pf_fs pdg) as [p|]; [intros _; exists p; exact (E1 p eq_refl)|discriminate]|].
  split; [exact F|]. split.
  { unfold pf_h. cbn [In]. repeat match goal with |- context [pdg =? ?n] => destruct (Z.eqb_spec pdg n); cbn [orb] end; split; intros K; try reflexivity; try discriminate K; lia. }
  split; [destruct (pf_h pdg); [discriminate|intros _; exact (F0 eq_refl)]|]. destruct (pf_h pdg) as [p|]; [intros _; exists p; exact (F1 p eq_refl)|discriminate].
Qed.
Print Assumptions C33_added_particles.

Example C33_added_particles_case : pf_add_fs 1 14 = Ok (true, 9) /\ pf_add_fs 1 111 = Ok (false, 1) /\ pf_add_higgs 0 24 = Ok (true, 2 ^ 17).
Proof. split; [reflexivity|]. split; reflexivity. Qed.

(** The two named bits of a simulated tracker hit: 31 for the overlay, 30 for a hit of a secondary particle. *)
Theorem C33_tracker_hit_flags : forall q v, - 2 ^ 31 <= q < 2 ^ 31 ->
  st_is_overlay q = Ok (Z.testbit q 31) /\ st_is_secondary q = Ok (Z.testbit q 30) /\
  st_set_overlay true q v = Throw LReadOnly /\ st_set_secondary true q v = Throw LReadOnly /\
  (exists q', st_set_overlay false q v = Ok q' /\ - 2 ^ 31 <= q' < 2 ^ 31 /\
     forall i, 0 <= i <= 31 -> Z.testbit q' i = if i =? 31 then v else Z.testbit q i) /\
  (exists q', st_set_secondary false q v = Ok q' /\ - 2 ^ 31 <= q' < 2 ^ 31 /\
     forall i, 0 <= i <= 31 -> Z.testbit q' i = if i =? 30 then v else Z.testbit q i).
Proof. exact tracker_hit_flags. Qed.
Print Assumptions C33_tracker_hit_flags.

Example C33_tracker_hit_flags_case : st_set_overlay false 7 true = Ok (- 2 ^ 31 + 7) /\ st_set_secondary false (- 2 ^ 31 + 7) true = Ok (- 2 ^ 30 + 7) /\
  st_is_overlay (- 2 ^ 30 + 7) = Ok true /\ st_is_secondary 7 = Ok false.
Proof. repeat split. Qed.

(** A bitset that is made of bit numbers has exactly those bits. *)
Theorem C33_made_bitset : forall bits, Forall (fun b => 0 <= b <= 31) bits ->
  exists r, make_bitset32 bits = Ok r /\ 0 <= r < 2 ^ 32 /\ forall i, 0 <= i -> (Z.testbit r i = true <-> In i bits).
Proof. exact made_bitset. Qed.
Print Assumptions C33_made_bitset.

Example C33_made_bitset_case : make_bitset32 [31; 2; 5; 2] = Ok (2 ^ 31 + 36) /\ Forall (fun b => 0 <= b <= 31) [31; 2; 5; 2].
Proof. split; [reflexivity|]. repeat constructor; discriminate. Qed.

(** setEndpoint of a particle sets bit 31 of the simulator status and no other bit. *)
Theorem C33_endpoint_bit : forall s, 0 <= s < 2 ^ 32 -> sim_endpoint true s = Throw LReadOnly /\
  exists s', sim_endpoint false s = Ok s' /\ 0 <= s' < 2 ^ 32 /\ forall i, 0 <= i -> Z.testbit s' i = if i =? 31 then true else Z.testbit s i.
Proof. exact endpoint_bit. Qed.
Print Assumptions C33_endpoint_bit.

Example C33_endpoint_bit_case : sim_endpoint false 5 = Ok (2 ^ 31 + 5) /\ sim_endpoint false (2 ^ 31 + 6) = Ok (2 ^ 31 + 6).
Proof. split; reflexivity. Qed.

(** LCFlagImpl::setBit and unsetBit ignore other bits, bitSet of them and setQualityBit are undefined: *)
Theorem C33_other_bits_refuted : exists bit, flag_set_bit 0 bit = Ok 0 /\ flag_bit_set 0 bit = UB UBShift /\ set_quality_bit false 0 bit true = UB UBShift.
Proof. exists 32. repeat split. Qed.
Print Assumptions C33_other_bits_refuted.
