(** * The program readmcparticles

    Model of src/cpp/src/EXAMPLE/readmcparticles.cc.  Floating point arithmetic is given by functions: [energy] computes
    getEnergy from momentum and mass, [dadd] adds two doubles.  The division of the last line is not modelled: the result is
    the number of events and the sum.  Fewer than 2^31 events. *)

From Verif Require Import Bytes BitModel StrMap SioModel Ieee ObjModel EventModel IndexModel FileModel.

Section McSum.
Context (uncomp : bytes -> option bytes) (srt : forall A : Type, (A -> Z) -> list A -> list A) (ignore_null : bool).
Context (energy : list Z -> Z -> Z) (dadd : Z -> Z -> Z).

(** the loop over the particles, readmcparticles.cc:40-49, with getEnergy, MCParticleImpl.cc:159-161; the cast of line 44 is not
    checked *)
Fixpoint ms_particles (h : heap) (l : list addr) (sum : Z) : Res Z :=
  match l with
  | [] => Ok sum
  | a :: l' =>
      if a =? 0 then UB UBPrecondition else
      match h a with
      | Some (OMC m) => ms_particles h l' (if mc_gen m =? 1 then dadd sum (energy (mc_p m) (mc_mass m)) else sum)
      | _ => UB UBPrecondition
      end
  end.
(** one event, readmcparticles.cc:38-49, with getCollection, LCEventImpl.cc:71-83 *)
Definition ms_event (h : heap) (cols : list (bytes * coll)) : Res Z :=
  match sm_get (str "MCParticle") cols with
  | None => Throw LDataNotAvailable
  | Some c => ms_particles h (c_elems c) 0
  end.
(** the event loop, readmcparticles.cc:35-54, with the number of events and the sum so far *)
Fixpoint ms_loop (fuel : nat) (d : disk) (r : reader) (n sum : Z) : Res (Z * Z) :=
  match fuel with
  | O => UB UBDiverge
  | S fuel' =>
      match read_next_event uncomp srt ignore_null d r with
      | (Ok (Some l), r1) => do x <- ms_event (le_heap l) (ev_cols (le_evt l)); ms_loop fuel' d r1 (n + 1) (dadd sum x)
      | (Ok None, _) => Ok (n, sum)
      | (Throw e, _) => Throw e
      | (UB k, _) => UB k
      end
  end.
(** main, readmcparticles.cc:16-62, with the reader [r] of line 25; None is the message of line 20; arguments behind the first are
    not used *)
Definition readmcparticles (fuel : nat) (d : disk) (args : list bytes) (r : reader) : Res (option (Z * Z)) :=
  match args with
  | [] => Ok None
  | n :: _ => match open_file uncomp d n r with
              | (Ok _, r1) => do x <- ms_loop fuel d r1 0 0; Ok (Some x)
              | (Throw e, _) => Throw e
              | (UB k, _) => UB k
              end
  end.
End McSum.
