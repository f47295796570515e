(** * The generated process of an event

    Model of decodeMCTruthProcess, src/cpp/src/UTIL/ProcessFlag.cc, with the class ProcessFlag of FlagModel.
    The particles are given by their addresses; what is at an address is found in a list.  Simplified: the
    numbers of equal particles are not limited to [int]; the map of these numbers is a list, since its order
    does not matter. *)

From Verif Require Import Bytes SioModel ObjModel FlagModel.

(** access through a pointer, e.g. ProcessFlag.cc:38 and 40; an element that is no MCParticle, or null, is
    undefined after the static_cast *)
Fixpoint mc_at (h : list (addr * mcp)) (a : addr) : Res mcp :=
  match h with
  | [] => UB UBNullDeref
  | (b, o) :: h' => if b =? a then Ok o else mc_at h' a
  end.
(** std::abs of an int, ProcessFlag.cc:101, 107, 138, 139 and 147: undefined for the smallest int *)
Definition int_abs (x : Z) : Res Z := if x =? - two31 then UB UBOverflow else Ok (Z.abs x).

(** ** The hard final state *)

(** the first loop, ProcessFlag.cc:37-50: the daughters of a particle with generator status 3, or the
    number of particles without parents *)
Fixpoint scan (h : list (addr * mcp)) (l : list addr) (n : Z) : Res (option (list addr) * Z) :=
  match l with
  | [] => Ok (None, n)
  | a :: l' =>
      do o <- mc_at h a;
      if mc_gen o =? 3 then Ok (Some (mc_daughters o), n)
      else scan h l' (match mc_parents o with [] => n + 1 | _ => n end)
  end.
(** the loop over the daughters of the first particle, ProcessFlag.cc:73-83 *)
Fixpoint find_wide (h : list (addr * mcp)) (l : list addr) : Res (option (list addr)) :=
  match l with
  | [] => Ok None
  | d :: l' => do o <- mc_at h d; if 1 <? Zlen (mc_daughters o) then Ok (Some (mc_daughters o)) else find_wide h l'
  end.
(** icase and hf_vec, ProcessFlag.cc:35-90 *)
Definition hard_state (h : list (addr * mcp)) (elems : list addr) (max : Z) : Res (Z * list addr) :=
  let np := if Zlen elems <? max then Zlen elems else max in
  do '(r, n) <- scan h (firstn (Z.to_nat np) elems) 0;
  match r with
  | Some ds => Ok (1, ds)
  | None =>
      if 2 <? n then Ok (2, firstn (Z.to_nat n) elems)
      else if n =? 2 then
        match elems with
        | [] => UB UBOutOfBounds
        | a :: _ =>
            do o <- mc_at h a;
            do w <- find_wide h (mc_daughters o);
            match w with Some ds => Ok (3, ds) | None => Ok (0, []) end
        end
      else Ok (0, [])
  end.

(** ** The particles of the final state *)

(** the loop to the Higgs that decays, ProcessFlag.cc:107-111; it never ends if there are more steps than
    particles *)
Fixpoint chase (fuel : nat) (h : list (addr * mcp)) (o : mcp) : Res mcp :=
  match mc_daughters o with
  | [d] =>
      do od <- mc_at h d;
      do p <- int_abs (mc_pdg od);
      if p =? 25 then match fuel with O => UB UBDiverge | S f => chase f h od end else Ok o
  | _ => Ok o
  end.
(** pdgFSCount[ pdg ] += n, ProcessFlag.cc:102 and 123 *)
Fixpoint bump (p n : Z) (m : list (Z * Z)) : list (Z * Z) :=
  match m with
  | [] => [(p, n)]
  | (q, k) :: m' => if q =? p then (q, k + n) :: m' else (q, k) :: bump p n m'
  end.
(** pdgFSCount, whether higgs is set, hDpdg0 and hDpdg1, ProcessFlag.cc:28-30 *)
Record pstate := mkPS { ps_count : list (Z * Z); ps_higgs : bool; ps_d0 : Z; ps_d1 : Z }.
(** the body of the loop, ProcessFlag.cc:99-119 *)
Definition count_one (h : list (addr * mcp)) (a : addr) (s : pstate) : Res pstate :=
  do o <- mc_at h a;
  do p <- int_abs (mc_pdg o);
  let m := bump p 1 (ps_count s) in
  if p =? 25 then
    do o <- chase (length h) h o;
    match mc_daughters o with
    | [] => UB UBOutOfBounds
    | d0 :: l =>
        do o0 <- mc_at h d0;
        match l with
        | [] => Ok (mkPS m true (mc_pdg o0) (ps_d1 s))
        | d1 :: _ => do o1 <- mc_at h d1; Ok (mkPS m true (mc_pdg o0) (mc_pdg o1))
        end
    end
  else Ok (mkPS m (ps_higgs s) (ps_d0 s) (ps_d1 s)).
(** the loop, ProcessFlag.cc:97-120 *)
Fixpoint count_all (h : list (addr * mcp)) (l : list addr) (s : pstate) : Res pstate :=
  match l with [] => Ok s | a :: l' => do s <- count_one h a s; count_all h l' s end.

(** ** The flag *)

(** the loop over the map, ProcessFlag.cc:131-138 *)
Fixpoint flag_counts (m : list (Z * Z)) (flag : Z) : Res Z :=
  match m with
  | [] => Ok flag
  | (p, n) :: m' =>
      do flag <- (if 0 <? n then do '(_, f) <- pf_add_fs flag p; Ok f else Ok flag);
      do flag <- (if 1000000 <? n then pf_add flag PFexotic else Ok flag);
      flag_counts m' flag
  end.
(** the decay of the Higgs, ProcessFlag.cc:142-155 *)
Definition flag_higgs (d0 d1 flag : Z) : Res Z :=
  do a0 <- int_abs d0;
  do a1 <- int_abs d1;
  do flag <- (if a0 =? a1 then do '(_, f) <- pf_add_higgs flag a0; Ok f else Ok flag);
  do flag <- (if (d0 =? 22) && (d1 =? 23) then pf_add flag PFhiggsgaZ else Ok flag);
  do flag <- (if (d0 =? 23) && (d1 =? 22) then pf_add flag PFhiggsgaZ else Ok flag);
  if (1000000 <? a0) || (1000000 <? a1) then pf_add flag PFexotic else Ok flag.
(** decodeMCTruthProcess, ProcessFlag.cc:11-159: the collection is given by its elements *)
Definition decode_process (h : list (addr * mcp)) (elems : list addr) (max : Z) : Res Z :=
  do '(icase, hf) <- hard_state h elems max;
  if (icase =? 0) || match hf with [] => true | _ => false end then pf_add 0 PFunknown else
  do s <- count_all h hf (mkPS [] false 0 0);
  let m := if icase =? 2 then bump 22 (-2) (ps_count s) else ps_count s in
  do flag <- flag_counts m 0;
  if ps_higgs s then flag_higgs (ps_d0 s) (ps_d1 s) flag else Ok flag.
