(** * What is said about the two StdHep readers *)

From Verif Require Import Bytes StrMap SioModel ObjModel EventModel ImplModel HepModel HepSpec HepUpdModel.

(** every mother that is declared is a line of the record, and declares the daughter too *)
Definition mothers_agree (e : hev) : Prop :=
  forall d p, 0 <= d < he_n e -> mother e d p -> 0 <= p < he_n e /\ declared e p d.

(** nothing is at the addresses of a new collection and of [n] new particles *)
Definition free (w : world) (a base : addr) (n : nat) : Prop :=
  a <> 0 /\ w_col w a = None /\ forall i, 0 <= i < Z.of_nat n -> w_obj w (base + i) = None.

(** the object at an address is the particle [o] of a list of particles that begins at [base] *)
Definition is_particle (base : addr) (o : mcp) (x : obj) : Prop :=
  exists m, x = OMC m /\ mc_parents m = map (fun i => base + i) (mc_parents o) /\ mc_daughters m = map (fun i => base + i) (mc_daughters o) /\
    mc_pdg m = mc_pdg o /\ mc_gen m = mc_gen o /\ mc_sim m = mc_sim o /\ mc_vertex m = mc_vertex o /\ mc_time m = mc_time o /\
    mc_p m = mc_p o /\ mc_mass m = mc_mass o /\ mc_charge m = mc_charge o /\ mc_endpoint m = mc_endpoint o /\ mc_pend m = mc_pend o /\
    mc_spin m = mc_spin o /\ mc_color m = mc_color o.

(** the event was [w] and is [w'] after the collection [c] has been added under [name]: *)
Definition updated (c : mccoll) (number : option Z) (a base : addr) (name : bytes) (w w' : world) : Prop :=
  (* the collection has the particles, in their order *)
  sm_get name (es_cols (w_ev w')) = Some a /\
  (exists col, w_col w' a = Some (false, col) /\ c_type col = str "MCParticle" /\ c_flag col = 0 /\ Zlen (c_elems col) = Zlen (cc_parts c) /\
     forall i o, at_ (cc_parts c) i o -> exists m, nth_error (c_elems col) (Z.to_nat i) = Some (base + i) /\ w_obj w' (base + i) = Some (false, m) /\ is_particle base o m) /\
  (* weight, process and number of the event *)
  sm_get (str "_weight") (p_flt (es_par (w_ev w'))) = Some [cc_weight c] /\
  sm_get (str "_idrup") (p_int (es_par (w_ev w'))) = Some [match cc_idrup c with Some i => i | None => 0 end] /\
  es_num (w_ev w') = match number with Some n => s32 n | None => es_num (w_ev w) end /\
  (* all else is as before *)
  (forall k, k <> name -> sm_get k (es_cols (w_ev w')) = sm_get k (es_cols (w_ev w))) /\
  (forall k, k <> str "_weight" -> sm_get k (p_flt (es_par (w_ev w'))) = sm_get k (p_flt (es_par (w_ev w)))) /\
  (forall k, k <> str "_idrup" -> sm_get k (p_int (es_par (w_ev w'))) = sm_get k (p_int (es_par (w_ev w)))) /\
  p_str (es_par (w_ev w')) = p_str (es_par (w_ev w)) /\
  es_run (w_ev w') = es_run (w_ev w) /\ es_time (w_ev w') = es_time (w_ev w) /\ es_det (w_ev w') = es_det (w_ev w) /\
  es_ro (w_ev w') = false /\ es_notowned (w_ev w') = es_notowned (w_ev w) /\
  (forall x col, w_col w x = Some col -> w_col w' x = Some col) /\ (forall x o, w_obj w x = Some o -> w_obj w' x = Some o).
(** the maps of an event have every key once, in order *)
Definition maps_ok (e : estate) : Prop := sm_ok (es_cols e) /\ sm_ok (p_int (es_par e)) /\ sm_ok (p_flt (es_par e)).

(** the results of [n] calls of the older readEvent *)
Fixpoint hep_events_old (third in_time : Z -> Z) (n : nat) (h : hep) : list (Res (option mccoll)) :=
  match n with
  | O => []
  | S n' =>
      match hep_event_old third in_time h with
      | (r, None) => [r]
      | (r, Some h') => r :: hep_events_old third in_time n' h'
      end
  end.
