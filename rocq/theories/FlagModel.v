(** * Flag words: LCFlagImpl, quality bits of hits, BitSet32, the simulator status, ProcessFlag

    [int]s are integers in [-2^31, 2^31).  A shift by a negative number or by 32 or more is undefined;
    [1 << 31] is the sign bit. *)

From Verif Require Import Bytes.

(** [1 << bit] for an [int] *)
Definition one_bit (bit : Z) : Res Z :=
  if (0 <=? bit) && (bit <? 32) then Ok (s32 (Z.shiftl 1 bit)) else UB UBShift.

(** ** LCFlagImpl, src/cpp/src/IMPL/LCFlagImpl.cc *)

(** bitSet, LCFlagImpl.cc:13 *)
Definition flag_bit_set (flag bit : Z) : Res bool := do m <- one_bit bit; Ok (negb (Z.land flag m =? 0)).
(** setBit, LCFlagImpl.cc:18-25 *)
Definition flag_set_bit (flag bit : Z) : Res Z :=
  if (0 <=? bit) && (bit <=? 31)
  then do s <- flag_bit_set flag bit; if s then Ok flag else do m <- one_bit bit; Ok (Z.lor flag m)
  else Ok flag.
(** unsetBit, LCFlagImpl.cc:28-35 *)
Definition flag_unset_bit (flag bit : Z) : Res Z :=
  if (0 <=? bit) && (bit <=? 31)
  then do s <- flag_bit_set flag bit; if s then do m <- one_bit bit; Ok (Z.land flag (Z.lnot m)) else Ok flag
  else Ok flag.

(** ** The bits of LCCollectionVec, src/cpp/src/IMPL/LCCollectionVec.cc *)

(** LCCollection.h:68-70 *)
Inductive coll_bit := BTransient | BDefault | BSubset.
Definition coll_index (b : coll_bit) : Z := match b with BTransient => 16 | BDefault => 17 | BSubset => 18 end.
(** isTransient, isDefault and isSubset, LCCollectionVec.cc:64-66, 74-76 and 83-85 *)
Definition coll_is (flag : Z) (b : coll_bit) : Res bool := do m <- one_bit (coll_index b); Ok (negb (Z.land flag m =? 0)).
(** setTransient, setDefault and setSubset, LCCollectionVec.cc:68-71, 78-81 and 87-90 *)
Definition coll_set (flag : Z) (b : coll_bit) (val : bool) : Res Z :=
  do m <- one_bit (coll_index b); Ok (if val then Z.lor flag m else Z.land flag (Z.lnot m)).

(** ** Quality bits *)

(** setQualityBit of TrackerHitImpl, TrackerHitPlaneImpl, TrackerHitZCylinderImpl, TrackerPulseImpl and
    SimTrackerHitImpl: src/cpp/src/IMPL/TrackerHitImpl.cc:127-134, TrackerHitPlaneImpl.cc:102-109,
    TrackerHitZCylinderImpl.cc:103-110, TrackerPulseImpl.cc:75-82, SimTrackerHitImpl.cc:127-133;
    [ro]: the hit is read only (AccessChecked.cc:24-28) *)
Definition set_quality_bit (ro : bool) (quality bit : Z) (val : bool) : Res Z :=
  if ro then Throw LReadOnly
  else do m <- one_bit bit; Ok (if val then Z.lor quality m else Z.land quality (Z.lnot m)).
(** isOverlay and isProducedBySecondary, SimTrackerHitImpl.cc:135-136, and the setters, 138-139, with the
    bits of SimTrackerHit.h:85-86 *)
Definition st_overlay : Z := 31.
Definition st_secondary : Z := 30.
Definition quality_bit (quality bit : Z) : Res bool := do m <- one_bit bit; Ok (negb (Z.land quality m =? 0)).
Definition st_is_overlay (quality : Z) : Res bool := quality_bit quality st_overlay.
Definition st_is_secondary (quality : Z) : Res bool := quality_bit quality st_secondary.
Definition st_set_overlay (ro : bool) (quality : Z) (val : bool) : Res Z := set_quality_bit ro quality st_overlay val.
Definition st_set_secondary (ro : bool) (quality : Z) (val : bool) : Res Z := set_quality_bit ro quality st_secondary val.

(** ** std::bitset<32> and BitSet32, src/cpp/include/UTIL/BitSet32.h

    A bitset is its value as an unsigned number. *)

(** the constructor from an [int], BitSet32.h:35: converted to [unsigned long long], of which the bitset
    takes the lowest 32 bits *)
Definition bitset_of (z : Z) : Z := u32 (u64 z).
(** the conversion to [int], BitSet32.h:44 *)
Definition bitset_int (b : Z) : Z := s32 b.
(** std::bitset<32>::set( bit, val ): throws std::out_of_range *)
Definition bitset_set (b bit : Z) (val : bool) : Res Z :=
  if (0 <=? bit) && (bit <? 32)
  then Ok (if val then Z.lor b (Z.shiftl 1 bit) else Z.land b (Z.lnot (Z.shiftl 1 bit)))
  else Throw StdOutOfRange.
(** std::bitset<32>::test( bit ) *)
Definition bitset_test (b bit : Z) : Res bool :=
  if (0 <=? bit) && (bit <? 32) then Ok (Z.testbit b bit) else Throw StdOutOfRange.
(** set_bit and unset_bit, BitSet32.h:82-96; a negative [int] becomes a very large size_t *)
Definition util_set_bit (flag bit : Z) : Res Z := do b <- bitset_set (bitset_of flag) bit true; Ok (bitset_int b).
Definition util_unset_bit (flag bit : Z) : Res Z := do b <- bitset_set (bitset_of flag) bit false; Ok (bitset_int b).
(** make_bitset32, BitSet32.h:48-77, for one to five bits *)
Fixpoint or_bits (bits : list Z) : Res Z :=
  match bits with
  | [] => Ok 0
  | b :: bits' => do m <- one_bit b; do r <- or_bits bits'; Ok (Z.lor m r)
  end.
Definition make_bitset32 (bits : list Z) : Res Z := do m <- or_bits bits; Ok (bitset_of m).

(** ** The simulator status of MCParticleImpl, src/cpp/src/IMPL/MCParticleImpl.cc

    the member [_simstatus] is a std::bitset<32> (MCParticleImpl.h:281) *)

(** the bits, MCParticle.h:87-95 *)
Inductive sim_bit := BEndpoint | BCreated | BBackscatter | BVertexNotEndpoint | BTracker | BCalorimeter | BLeft | BStopped | BOverlay.
Definition sim_index (b : sim_bit) : Z :=
  match b with
  | BEndpoint => 31 | BCreated => 30 | BBackscatter => 29 | BVertexNotEndpoint => 28 | BTracker => 27 | BCalorimeter => 26
  | BLeft => 25 | BStopped => 24 | BOverlay => 23
  end.
(** getSimulatorStatus, MCParticleImpl.cc:175-179 *)
Definition sim_status (s : Z) : Z := s32 s.
(** setSimulatorStatus, MCParticleImpl.cc:243-248 *)
Definition set_sim_status (ro : bool) (s status : Z) : Res Z := if ro then Throw LReadOnly else Ok (bitset_of status).
(** isCreatedInSimulation ... isOverlay, MCParticleImpl.cc:182-189, and the test in getEndpoint, 141 *)
Definition sim_is (s : Z) (b : sim_bit) : bool := Z.testbit s (sim_index b).
(** setCreatedInSimulation ... setOverlay, MCParticleImpl.cc:319-326 (no check for read only particles) *)
Definition sim_set (s : Z) (b : sim_bit) (val : bool) : Z :=
  if val then Z.lor s (Z.shiftl 1 (sim_index b)) else Z.land s (Z.lnot (Z.shiftl 1 (sim_index b))).
(** the status after setEndpoint, MCParticleImpl.cc:296-304 *)
Definition sim_endpoint (ro : bool) (s : Z) : Res Z := if ro then Throw LReadOnly else Ok (sim_set s BEndpoint true).

(** ** ProcessFlag, src/cpp/include/UTIL/ProcessFlag.h *)

(** the enumeration, ProcessFlag.h:15-41 *)
Inductive pf :=
  | PFelectrons | PFmuons | PFtaus | PFneutrinos | PFphotons | PFdquarks | PFuquarks | PFsquarks | PFcquarks | PFbquarks
  | PFhiggsbb | PFhiggscc | PFhiggsdu | PFhiggsss | PFhiggsgg | PFhiggstautau | PFhiggsmumu | PFhiggsWW | PFhiggsZZ
  | PFhiggsgaga | PFhiggsgaZ | PFhiggsinv | PFhiggsother | PFexotic | PFunknown.
Definition pf_index (p : pf) : Z :=
  match p with
  | PFelectrons => 0 | PFmuons => 1 | PFtaus => 2 | PFneutrinos => 3 | PFphotons => 4 | PFdquarks => 5 | PFuquarks => 6
  | PFsquarks => 7 | PFcquarks => 8 | PFbquarks => 9 | PFhiggsbb => 10 | PFhiggscc => 11 | PFhiggsdu => 12 | PFhiggsss => 13
  | PFhiggsgg => 14 | PFhiggstautau => 15 | PFhiggsmumu => 16 | PFhiggsWW => 17 | PFhiggsZZ => 18 | PFhiggsgaga => 19
  | PFhiggsgaZ => 20 | PFhiggsinv => 21 | PFhiggsother => 22 | PFexotic => 23 | PFunknown => 24
  end.
(** add, ProcessFlag.h:80-82 *)
Definition pf_add (flag : Z) (p : pf) : Res Z := do m <- one_bit (pf_index p); Ok (Z.lor flag m).
(** the constructor from a list, ProcessFlag.h:75-77 *)
Fixpoint pf_adds (flag : Z) (l : list pf) : Res Z :=
  match l with [] => Ok flag | p :: l' => do f <- pf_add flag p; pf_adds f l' end.
(** has, ProcessFlag.h:117 *)
Definition pf_has (flag : Z) (p : pf) : Res bool := do m <- one_bit (pf_index p); Ok (negb (Z.land flag m =? 0)).
(** contains, ProcessFlag.h:110 *)
Definition pf_contains (flag other : Z) : bool := Z.land flag other =? other.
(** the maps _mapFS and _mapH, ProcessFlag.h:122-153 *)
Definition pf_fs (pdg : Z) : option pf :=
  if pdg =? 11 then Some PFelectrons else if pdg =? 13 then Some PFmuons else if pdg =? 15 then Some PFtaus
  else if (pdg =? 12) || (pdg =? 14) || (pdg =? 16) then Some PFneutrinos else if pdg =? 22 then Some PFphotons
  else if pdg =? 1 then Some PFdquarks else if pdg =? 2 then Some PFuquarks else if pdg =? 3 then Some PFsquarks
  else if pdg =? 4 then Some PFcquarks else if pdg =? 5 then Some PFbquarks else None.
Definition pf_h (pdg : Z) : option pf :=
  if pdg =? 5 then Some PFhiggsbb else if (pdg =? 1) || (pdg =? 2) then Some PFhiggsdu else if pdg =? 3 then Some PFhiggsss
  else if pdg =? 4 then Some PFhiggscc else if pdg =? 15 then Some PFhiggstautau else if pdg =? 13 then Some PFhiggsmumu
  else if pdg =? 24 then Some PFhiggsWW else if pdg =? 23 then Some PFhiggsZZ else if pdg =? 22 then Some PFhiggsgaga
  else if (pdg =? 12) || (pdg =? 14) || (pdg =? 16) || (pdg =? 1000022) then Some PFhiggsinv else None.
(** addFSParticles and addHiggsDecay, ProcessFlag.h:85-102 *)
Definition pf_add_found (o : option pf) (flag : Z) : Res (bool * Z) :=
  match o with Some p => do f <- pf_add flag p; Ok (true, f) | None => Ok (false, flag) end.
Definition pf_add_fs (flag pdg : Z) : Res (bool * Z) := pf_add_found (pf_fs pdg) flag.
Definition pf_add_higgs (flag pdg : Z) : Res (bool * Z) := pf_add_found (pf_h pdg) flag.
