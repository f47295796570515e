(** * Attributes of events and run headers *)
From Verif Require Import Bytes StrMap Ieee SioModel ObjModel EventModel ImplModel.

(** setWeight takes a [double] and stores it as a [float], src/cpp/src/IMPL/LCEventImpl.cc:168-171 *)
Definition set_weight (w : Z) : wcall := WEv (V_setWeight (d2f w)).
(** getWeight returns a [double], LCEventImpl.cc:54-57; its comparison with 0 is that of [ev_weight] *)
Definition get_weight (e : estate) : Res Z := do f <- ev_weight e; Ok (f2d f).

(** a run header with the flag of AccessChecked, src/cpp/include/IMPL/LCRunHeaderImpl.h:18-86 and
    src/cpp/include/IMPL/AccessChecked.h:35 *)
Record rstate := mkRS { rs_ro : bool; rs_hdr : runhdr }.
(** the constructor, src/cpp/src/IMPL/LCRunHeaderImpl.cc:8-10 and AccessChecked.cc:9 *)
Definition new_rstate : rstate := mkRS false new_runhdr.
(** the setters, setReadOnly (called by readers) and calls on parameters(), LCRunHeaderImpl.h:54-79 *)
Inductive rhcall :=
| R_setRunNumber (v : Z) | R_setDetectorName (v : bytes) | R_setDescription (v : bytes) | R_addActiveSubdetector (v : bytes)
| R_setReadOnly (ro : bool) | R_parameters (c : par_call).
(** LCRunHeaderImpl.cc:19-41; addActiveSubdetector (31-35) does not check access, and the parameters are
    never made read only (38-41) *)
Definition rh_do (s : rstate) (c : rhcall) : rstate * Res unit :=
  let h := rs_hdr s in
  let on (x : runhdr * Res unit) := (mkRS (rs_ro s) (fst x), snd x) in
  match c with
  | R_setRunNumber v => on (guarded (rs_ro s) h (Ok (mkRun v (rh_det h) (rh_desc h) (rh_subs h) (rh_par h))))
  | R_setDetectorName v => on (guarded (rs_ro s) h (Ok (mkRun (rh_run h) v (rh_desc h) (rh_subs h) (rh_par h))))
  | R_setDescription v => on (guarded (rs_ro s) h (Ok (mkRun (rh_run h) (rh_det h) v (rh_subs h) (rh_par h))))
  | R_addActiveSubdetector v => on (unguarded h (Ok (mkRun (rh_run h) (rh_det h) (rh_desc h) (rh_subs h ++ [v]) (rh_par h))))
  | R_setReadOnly ro => (mkRS ro h, Ok tt)
  | R_parameters c => let (p, r) := par_do false (rh_par h) c in on (mkRun (rh_run h) (rh_det h) (rh_desc h) (rh_subs h) p, r)
  end.
(** a program that catches exceptions and carries on; no code of its own, it uses LCRunHeaderImpl.cc:19-41 *)
Definition rh_run_all (s : rstate) (cs : list rhcall) : rstate := fold_left (fun s c => fst (rh_do s c)) cs s.
