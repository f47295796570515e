(** * The older StdHep reader, and events filled from StdHep files

    Model of src/cpp/src/UTIL/LCStdHepRdr.cc and of updateNextEvent in that file and in
    src/cpp/src/UTIL/LCStdHepRdrNew.cc.  LCStdHepRdr::readEvent has the same statements as
    LCStdHepRdrNew::readEvent up to the last loop, so the functions of HepModel are used.  Simplified: the new
    collection and its particles are placed at given free addresses; a [float] that becomes a [double] and
    a [float] again is the same. *)

From Verif Require Import Bytes StrMap SioModel Ieee ObjModel EventModel ImplModel HepModel.

(** "_idrup" and "_weight", LCStdHepRdr.cc:16-17, LCStdHepRdrNew.cc:16-17 *)
Definition idrup_name : bytes := str "_idrup".
Definition evtwgt_name : bytes := str "_weight".

Section Reader.
(** as in HepModel *)
Context (third in_time : Z -> Z).

(** the links, LCStdHepRdr.cc:304-480: the daughters (304-432) and the repairs (438-480) *)
Definition link_all_old (e : hev) (l : parts) : Res parts :=
  let n := length l in
  do l <- each (link_daughters e) n 0 l;
  repair_all e n 0 0 l.
(** the loop over the particles, LCStdHepRdr.cc:164-293, and the links *)
Definition particles_old (e : hev) : Res parts :=
  if he_n e <? 0 then Throw StdLengthError else
  do l <- make_particles third in_time e (Z.to_nat (he_n e)) 0;
  link_all_old e l.
(** LCStdHepRdr::readEvent, LCStdHepRdr.cc:84-490 *)
Definition hep_event_old (h : hep) : Res (option mccoll) * option hep :=
  match hep_read h with
  | Throw x => (Throw x, None)
  | UB k => (UB k, None)
  | Ok (c, h') =>
      if c =? 0 then
        ((do l <- particles_old (h_evt h');
          Ok (Some (mkMCC (if he_idrup (h_evt h') =? 0 then None else Some (s32 (he_idrup (h_evt h')))) (d2f (he_wgt (h_evt h'))) l))), Some h')
      else if c =? ENDOFFILE then (Ok None, Some h')
      else (Throw LIOException, Some h')
  end.
End Reader.

(** the parameters of the collection, LCStdHepRdrNew.cc:151-158 *)
Definition mccoll_params (c : mccoll) : params :=
  mkP (match cc_idrup c with None => [] | Some i => [(idrup_name, [i])] end) [(evtwgt_name, [cc_weight c])] [].
(** the particles in memory: number [i] at the address [base + i], with the addresses of the relatives (new
    MCParticleImpl, LCStdHepRdrNew.cc:167) *)
Definition at_address (base : addr) (o : mcp) : obj :=
  OMC (mkMC (map (Z.add base) (mc_parents o)) (mc_pdg o) (mc_gen o) (mc_sim o) (mc_vertex o) (mc_time o) (mc_p o) (mc_mass o)
            (mc_charge o) (mc_endpoint o) (mc_pend o) (mc_spin o) (mc_color o) (map (Z.add base) (mc_daughters o))).
(** the world with the new collection at [a] and the new particles from [base] on; LCStdHepRdrNew.cc:124
    and 160-170 *)
Definition made (a base : addr) (c : mccoll) (w : world) : world :=
  mkW (w_ev w)
      (put (w_col w) a (false, mkColl (str "MCParticle") 0 (mccoll_params c) (map (fun i => base + Z.of_nat i) (seq 0 (length (cc_parts c))))))
      (fun x => if (base <=? x) && (x <? base + Zlen (cc_parts c))
                then option_map (fun o => (false, at_address base o)) (nth_error (cc_parts c) (Z.to_nat (x - base))) else w_obj w x).

(** one call after the other, until one does not return (no code of its own: C++ statements in sequence) *)
Fixpoint calls (w : world) (l : list evcall) : world * Res unit :=
  match l with
  | [] => (w, Ok tt)
  | c :: l' => match ev_do w c with (w', Ok _) => calls w' l' | (w', r) => (w', r) end
  end.
(** updateNextEvent, LCStdHepRdrNew.cc:49-82: [read] is what readEvent did, [number] is the flag
    _writeEventNumber with the number of the event that was read; LCStdHepRdr.cc:52-80 is the same without
    the number.  [evt] is false for the null pointer *)
Definition update_event (evt : bool) (read : Res (option mccoll)) (number : option Z) (a base : addr) (name : bytes) (w : world) : world * Res unit :=
  if negb evt then (w, Throw LException) else
  match read with
  | Throw x => (w, Throw x)
  | UB u => (w, UB u)
  | Ok None => (w, Throw LEndOfData)
  | Ok (Some c) =>
      let w := made a base c w in
      match par_val 0 (p_int (mccoll_params c)) idrup_name, par_val 0 (p_flt (mccoll_params c)) evtwgt_name with
      | Ok idrup, Ok wgt =>
          calls w ([V_parameters (P_setInt idrup_name idrup); V_setWeight wgt; V_add a name] ++
                   match number with Some n => [V_setEventNumber (s32 n)] | None => [] end)
      | _, _ => (w, UB UBOutOfBounds)
      end
  end.

Section Update.
(** as in HepModel *)
Context (third in_time : Z -> Z).
(** LCStdHepRdrNew::updateNextEvent, LCStdHepRdrNew.cc:49-82; [number] is _writeEventNumber,
    LCStdHepRdrNew.h:85; a null pointer is refused before anything is read *)
Definition update_next_new (evt number : bool) (h : hep) (a base : addr) (name : bytes) (w : world) : world * Res unit * option hep :=
  if negb evt then (w, Throw LException, Some h) else
  let (r, h') := hep_event third in_time h in
  (update_event evt r (match h' with Some h' => if number then Some (he_num (h_evt h')) else None | None => None end) a base name w, h').
(** LCStdHepRdr::updateNextEvent, LCStdHepRdr.cc:52-80 *)
Definition update_next_old (evt : bool) (h : hep) (a base : addr) (name : bytes) (w : world) : world * Res unit * option hep :=
  if negb evt then (w, Throw LException, Some h) else
  let (r, h') := hep_event_old third in_time h in
  (update_event evt r None a base name w, h').
End Update.
