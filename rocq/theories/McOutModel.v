(** * What LCTOOLS prints about particles

    Model of parts of src/cpp/src/UTIL/LCTOOLS.cc: the texts for the status of simulated particles and for the
    quality of simulated tracker hits, and the table of particles.  Of a line of the table the numbers that are
    printed with printf are not modelled as text: a line is given by its index, the particle, the text of its
    status, and the numbers that stand for its parents and daughters.  Collections have fewer than 2^31 elements. *)

From Coq Require Import ZArith List Bool.
From Verif Require Import Bytes SioModel ObjModel FlagModel.
Import ListNotations.
Open Scope Z_scope.

(** s[i] = c for a string that is long enough (operator[] as used in LCTOOLS.cc:1407-1437 and 1463-1469) *)
Fixpoint set_char (i : nat) (c : byte) (s : bytes) : bytes :=
  match s, i with
  | [], _ => []
  | _ :: s', O => c :: s'
  | x :: s', S i' => x :: set_char i' c s'
  end.
(** one of the if statements: the letter or a blank, LCTOOLS.cc:1406-1409 and the following *)
Definition mark (i : nat) (c : byte) (b : bool) (s : bytes) : bytes := set_char i (if b then c else Init.Byte.x20) s.
(** getSimulatorStatusString for a particle, LCTOOLS.cc:1400-1439, with the status [sim] *)
Definition status_string (sim : Z) : bytes :=
  let s := str "[    0   ]" in
  if sim =? 0 then s
  else
    let s := mark 1 Init.Byte.x73 (sim_is sim BCreated) s in
    let s := mark 2 Init.Byte.x62 (sim_is sim BBackscatter) s in
    let s := mark 3 Init.Byte.x76 (sim_is sim BVertexNotEndpoint) s in
    let s := mark 4 Init.Byte.x74 (sim_is sim BTracker) s in
    let s := mark 5 Init.Byte.x63 (sim_is sim BCalorimeter) s in
    let s := mark 6 Init.Byte.x6c (sim_is sim BLeft) s in
    let s := mark 7 Init.Byte.x73 (sim_is sim BStopped) s in
    mark 8 Init.Byte.x6f (sim_is sim BOverlay) s.
(** getQualityBits for a hit, LCTOOLS.cc:1458-1471, with the quality [q] *)
Definition quality_string (q : Z) : Res bytes :=
  if q =? 0 then Ok (str "[   0   ]")
  else
    do o <- st_is_overlay q;
    do p <- st_is_secondary q;
    Ok (mark 2 Init.Byte.x73 p (mark 1 Init.Byte.x6f o (str "[       ]"))).

(** the map of positions, LCTOOLS.cc:1156-1157: a std::map from pointers to ints; the first pair found counts *)
Definition p2i : Type := list (addr * Z).
(** p2i_map[ part ], LCTOOLS.cc:1177, 1231 and 1236: a pointer that is not in the map is inserted with 0 *)
Fixpoint p2i_find (m : p2i) (a : addr) : option Z := match m with [] => None | (x, i) :: m' => if x =? a then Some i else p2i_find m' a end.
Definition p2i_ref (m : p2i) (a : addr) : Z * p2i := match p2i_find m a with Some i => (i, m) | None => (0, (a, 0) :: m) end.
(** filling the map, LCTOOLS.cc:1175-1180 *)
Fixpoint p2i_fill (k : Z) (els : list addr) (m : p2i) : p2i := match els with [] => m | a :: els' => p2i_fill (k + 1) els' ((a, k) :: m) end.
(** the numbers in brackets, LCTOOLS.cc:1229-1232 and 1234-1237 *)
Fixpoint p2i_refs (m : p2i) (l : list addr) : list Z * p2i :=
  match l with
  | [] => ([], m)
  | a :: l' => let '(i, m1) := p2i_ref m a in let '(is, m2) := p2i_refs m1 l' in (i :: is, m2)
  end.
(** a line of the table, LCTOOLS.cc:1192-1238 *)
Record mcline := mkLine { ln_index : Z; ln_part : mcp; ln_status : bytes; ln_parents : list Z; ln_daughters : list Z }.
(** the loop over the collection, LCTOOLS.cc:1188-1239; an element that is no MCParticle gives a null pointer, which
    is dereferenced (1192) *)
Fixpoint mc_lines (h : addr -> option obj) (k : Z) (els : list addr) (m : p2i) : Res (list mcline) :=
  match els with
  | [] => Ok []
  | a :: els' =>
      match h a with
      | Some (OMC p) =>
          let '(ps, m1) := p2i_refs m (mc_parents p) in
          let '(ds, m2) := p2i_refs m1 (mc_daughters p) in
          do ls <- mc_lines h (k + 1) els' m2;
          Ok (mkLine k p (status_string (mc_sim p)) ps ds :: ls)
      | _ => UB UBNullDeref
      end
  end.
(** printMCParticles, LCTOOLS.cc:1133-1244: None is the message that the collection has another type (1135-1139) *)
Definition print_mcparticles (h : addr -> option obj) (type : bytes) (els : list addr) : Res (option (list mcline)) :=
  if bytes_eqb type (str "MCParticle") then do ls <- mc_lines h 0 els (p2i_fill 0 els []); Ok (Some ls) else Ok None.
