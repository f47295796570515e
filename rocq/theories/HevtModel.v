(** * The Fortran common block HEPEVT

    Model of src/cpp/src/CPPFORT/HEPEVT.cc with the common blocks in src/cpp/include/CPPFORT/hepevt0.h and
    hepevt1.h.  A [double] is its 64 bit word, a [float] its 32 bit word.  Simplified: the functions of
    real numbers (energy, production time, the largest component of the vertex) are arbitrary; new
    particles are placed one after the other in memory; the objects in collections are MCParticles or
    anything else, which is not described further. *)

From Verif Require Import Bytes StrMap SioModel Ieee ObjModel HepModel.

(** one line of the tables isthep, idhep, jmohep, jdahep, phep, vhep (hepevt0.h:48-57) and mcpointerv,
    mcchargev (hepevt1.h:28-31) *)
Record hline := mkHL {
  hl_st : Z; hl_id : Z; hl_mo1 : Z; hl_mo2 : Z; hl_da1 : Z; hl_da2 : Z; hl_p : list Z; hl_v : list Z;
  hl_ptr : addr; hl_ch : Z }.
(** nevhep, nhep and the lines: NMXHEP = 4000 of them (hepevt0.h:47-57), or any other number *)
Record hblock := mkHB { hb_event : Z; hb_n : Z; hb_lines : list hline }.
(** the event: its number, its collections with the addresses of their elements, and the MCParticles by
    address *)
Record hevent := mkHEv { hv_num : Z; hv_cols : list (bytes * list addr); hv_heap : addr -> option mcp }.

(** "MCParticle", HEPEVT.cc:64, 73 and 94 *)
Definition mcparticle_name : bytes := [x4d; x43; x50; x61; x72; x74; x69; x63; x6c; x65].
(** HEPEVT.cc:64-66 and 94-96: null is the default name *)
Definition col_name (name : option bytes) : bytes := match name with None => mcparticle_name | Some n => n end.

(** an element of the tables; the arrays end after the last line (hepevt0.h:50-56) *)
Definition hline_at (b : list hline) (j : Z) : Res hline :=
  if (0 <=? j) && (j <? Zlen b) then match nth_error b (Z.to_nat j) with Some l => Ok l | None => UB UBOutOfBounds end else UB UBOutOfBounds.
(** writing to one line *)
Fixpoint set_line (n : nat) (x : hline) (b : list hline) : list hline :=
  match b, n with
  | [], _ => []
  | _ :: b', O => x :: b'
  | y :: b', S n' => y :: set_line n' x b'
  end.

(** ** fromHepEvt *)

(** the particle of a line, HEPEVT.cc:25-37; the other members as in MCParticleImpl.cc:32-62 *)
Definition line_particle (l : hline) : mcp :=
  let p k := f2d (d2f (nth k (hl_p l) 0)) in
  let v k := nth k (hl_v l) 0 in
  mkMC [] (hl_id l) (hl_st l) 0 [v 0%nat; v 1%nat; v 2%nat] 0 [p 0%nat; p 1%nat; p 2%nat] (p 4%nat) (hl_ch l)
       [0; 0; 0] [0; 0; 0] [0; 0; 0] [0; 0] [].
(** the first loop, HEPEVT.cc:23-40, over [n] lines from [j] on *)
Fixpoint make_lines (b : list hline) (n : nat) (j : Z) : Res parts :=
  match n with
  | O => Ok []
  | S n' => do l <- hline_at b j; do ps <- make_lines b n' (j + 1); Ok (line_particle l :: ps)
  end.
(** the loop over further parents, HEPEVT.cc:57-60: [n] of them from [i] on *)
Fixpoint more_parents_from (j i : Z) (n : nat) (l : parts) : Res parts :=
  match n with
  | O => Ok l
  | S n' => do _ <- part l i; do l <- add_parent j i l; more_parents_from j (i + 1) n' l
  end.
(** the body of the second loop, HEPEVT.cc:46-62 *)
Definition line_parents (b : list hline) (j : Z) (l : parts) : Res parts :=
  do ln <- hline_at b j;
  if 0 <? hl_mo1 ln then
    do _ <- part l (hl_mo1 ln - 1);
    do l <- add_parent j (hl_mo1 ln - 1) l;
    if 0 <? hl_mo2 ln then more_parents_from j (hl_mo1 ln) (Z.to_nat (hl_mo2 ln - hl_mo1 ln)) l else Ok l
  else Ok l.
(** the particles with their family, HEPEVT.cc:18-62 *)
Definition hepevt_particles (b : hblock) : Res parts :=
  do l <- make_lines (hb_lines b) (Z.to_nat (hb_n b)) 0;
  each (line_parents (hb_lines b)) (Z.to_nat (hb_n b)) 0 l.

(** the particles in memory: particle [i] is at the address [base + i] (new, HEPEVT.cc:25), and the
    pointers between particles are addresses *)
Definition moved (base : addr) (o : mcp) : mcp :=
  mkMC (map (Z.add base) (mc_parents o)) (mc_pdg o) (mc_gen o) (mc_sim o) (mc_vertex o) (mc_time o) (mc_p o) (mc_mass o)
       (mc_charge o) (mc_endpoint o) (mc_pend o) (mc_spin o) (mc_color o) (map (Z.add base) (mc_daughters o)).
Definition placed (base : addr) (l : parts) (h : addr -> option mcp) : addr -> option mcp := fun a =>
  if (base <=? a) && (a <? base + Zlen l) then option_map (moved base) (nth_error l (Z.to_nat (a - base))) else h a.
(** the elements of the new collection, HEPEVT.cc:39 *)
Definition addresses (base : addr) (n : nat) : list addr := map (fun i => base + Z.of_nat i) (seq 0 n).

(** the loop that fills the pointers, HEPEVT.cc:75-78 *)
Definition with_ptr (a : addr) (l : hline) : hline :=
  mkHL (hl_st l) (hl_id l) (hl_mo1 l) (hl_mo2 l) (hl_da1 l) (hl_da2 l) (hl_p l) (hl_v l) a (hl_ch l).
Fixpoint fill_ptrs (elems : list addr) (b : list hline) : Res (list hline) :=
  match elems, b with
  | [], _ => Ok b
  | _ :: _, [] => UB UBOutOfBounds
  | a :: elems', l :: b' => do b' <- fill_ptrs elems' b'; Ok (with_ptr a l :: b')
  end.

(** HEPEVT::fromHepEvt, HEPEVT.cc:13-81; addCollection: LCEventImpl.cc:107-130.  What the call leaves
    behind and its outcome *)
Definition from_hepevt (base : addr) (name : option bytes) (b : hblock) (e : hevent) : hblock * hevent * Res unit :=
  match hepevt_particles b with
  | Throw x => (b, e, Throw x)
  | UB u => (b, e, UB u)
  | Ok l =>
      let e1 := mkHEv (hv_num e) (hv_cols e) (placed base l (hv_heap e)) in
      let n := col_name name in
      if negb (validate n) then (b, e1, Throw LEventException) else
      match sm_get n (hv_cols e) with
      | Some _ => (b, e1, Throw LEventException)
      | None =>
          let e2 := mkHEv (hv_num e) (sm_set n (addresses base (length l)) (hv_cols e)) (placed base l (hv_heap e)) in
          match sm_get mcparticle_name (hv_cols e2) with
          | None => (b, e2, Throw LDataNotAvailable)
          | Some elems =>
              match fill_ptrs elems (hb_lines b) with
              | Ok ls => (mkHB (hb_event b) (hb_n b) ls, e2, Ok tt)
              | Throw x => (b, e2, Throw x)
              | UB u => (b, e2, UB u)
              end
          end
      end
  end.

(** ** toHepEvt *)

(** dynamic_cast to MCParticle, HEPEVT.cc:108, 123, 139 and 163 *)
Definition mc_cast (h : addr -> option mcp) (a : addr) : addr := match h a with Some _ => a | None => 0 end.
(** the loops that look for a particle, HEPEVT.cc:121-127, 136-143 and 161-170: one more than its place, or 0 *)
Fixpoint place_of (h : addr -> option mcp) (x : addr) (elems : list addr) (jj : Z) : Z :=
  match elems with
  | [] => 0
  | a :: l => if x =? mc_cast h a then jj + 1 else place_of h x l (jj + 1)
  end.

Section Real.
(** getEnergy, MCParticleImpl.cc:159-161; HEPEVT.cc:182-188: the component of the vertex with the largest
    absolute value, if it is not 0; HEPEVT.cc:191-193: the production time from that of the mother, the two
    components of the vertices, the energy and the component of the momentum of the mother *)
Context (energy : list Z -> Z -> Z) (largest : list Z -> option nat) (travel : Z -> Z -> Z -> Z -> Z -> Z).

(** jmohep, HEPEVT.cc:114-147 *)
Definition mother_places (h : addr -> option mcp) (elems : list addr) (o : mcp) : Z * Z :=
  let m1 := place_of h (match mc_parents o with [] => 0 | p :: _ => p end) elems 0 in
  if 0 <? m1 then
    (m1, place_of h (if 1 <? Zlen (mc_parents o) then last (mc_parents o) 0 else 0) elems 0)
  else (m1, 0).
(** jdahep, HEPEVT.cc:151-172 *)
Definition daughter_places (h : addr -> option mcp) (elems : list addr) (o : mcp) : Z * Z :=
  if mc_gen o =? 3 then (0, 0) else
  match mc_daughters o with
  | [] => (0, 0)
  | d :: _ => let d1 := place_of h d elems 0 in
              if 0 <? d1 then (d1, d1 + Zlen (mc_daughters o) - 1) else (0, 0)
  end.
(** vhep[j][3], HEPEVT.cc:189-198 *)
Definition production_time (h : addr -> option mcp) (b : list hline) (m1 : Z) (o : mcp) : Res Z :=
  match mc_parents o, largest (mc_vertex o) with
  | p :: _, Some k =>
      if p =? 0 then Ok 0 else
      do lm <- hline_at b (m1 - 1);
      match h p with
      | None => UB UBNullDeref
      | Some m => Ok (travel (nth 3 (hl_v lm) 0) (nth k (mc_vertex o) 0) (nth k (mc_vertex m) 0)
                             (energy (mc_p m) (mc_mass m)) (nth k (mc_p m) 0))
      end
  | _, _ => Ok 0
  end.
(** the body of the loop, HEPEVT.cc:103-203 *)
Definition fill_line (h : addr -> option mcp) (elems : list addr) (j : Z) (a : addr) (b : list hline) : Res (list hline) :=
  match h a with
  | None => UB UBNullDeref
  | Some o =>
      do _ <- hline_at b j;
      let '(m1, m2) := mother_places h elems o in
      let '(d1, d2) := daughter_places h elems o in
      do t <- production_time h b m1 o;
      let p k := nth k (mc_p o) 0 in
      let v k := nth k (mc_vertex o) 0 in
      Ok (set_line (Z.to_nat j)
            (mkHL (mc_gen o) (mc_pdg o) m1 m2 d1 d2
                  [p 0%nat; p 1%nat; p 2%nat; energy (mc_p o) (mc_mass o); mc_mass o]
                  [v 0%nat; v 1%nat; v 2%nat; t] a (mc_charge o)) b)
  end.
(** HEPEVT.cc:103 *)
Fixpoint fill_lines (h : addr -> option mcp) (elems : list addr) (todo : list addr) (j : Z) (b : list hline) : Res (list hline) :=
  match todo with
  | [] => Ok b
  | a :: l => do b <- fill_line h elems j a b; fill_lines h elems l (j + 1) b
  end.
(** HEPEVT::toHepEvt, HEPEVT.cc:85-207 *)
Definition to_hepevt (name : option bytes) (e : hevent) (b : hblock) : hblock * Res unit :=
  match sm_get (col_name name) (hv_cols e) with
  | None => (mkHB (hv_num e) (hb_n b) (hb_lines b), Throw LDataNotAvailable)
  | Some elems =>
      match fill_lines (hv_heap e) elems elems 0 (hb_lines b) with
      | Ok ls => (mkHB (hv_num e) (Zlen elems) ls, Ok tt)
      | Throw x => (mkHB (hv_num e) (Zlen elems) (hb_lines b), Throw x)
      | UB u => (mkHB (hv_num e) (Zlen elems) (hb_lines b), UB u)
      end
  end.
End Real.
