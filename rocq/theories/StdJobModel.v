(** * Programs that convert StdHep files

    Model of src/cpp/src/EXAMPLE/stdhepjob.cc and stdhepjob_new.cc, which differ in the reader only.
    Simplified: the number of arguments and the output to the screen are left out; the third argument is
    given as a number; the objects of an event are placed at given addresses, which are free again when the
    event has been deleted at the end of the body of the loop (91). *)

From Verif Require Import Bytes StrMap SioModel Ieee ObjModel EventModel IndexModel FileModel ImplModel HepModel HepUpdModel.

(** the run header, stdhepjob.cc:57-70: " file generated with LCIO stdhepjob from " and the name *)
Definition job_run (inp : bytes) : runhdr :=
  mkRun 0 (str "Unknown") (str " file generated with LCIO stdhepjob from " ++ inp) [] no_params.
(** the memory with a new event, stdhepjob.cc:78 *)
Definition job_new : world := mkW new_estate (fun _ => None) (fun _ => None).
(** what the writer is given, stdhepjob.cc:87: the event with the collections it points at
    (no code of its own: the writer follows the pointers) *)
Definition job_given (w : world) : witem :=
  WEvt (fun x => option_map snd (w_obj w x))
       (mkEvt (es_run (w_ev w)) (es_num (w_ev w)) (es_time (w_ev w)) (es_det (w_ev w)) (es_par (w_ev w))
          (flat_map (fun na => match w_col w (snd na) with Some (_, c) => [(fst na, c)] | None => [] end) (es_cols (w_ev w)))) [].

Section Job.
Context (comp : Z -> bytes -> bytes) (third in_time : Z -> Z).

(** rdr.updateNextEvent, stdhepjob.cc:85: LCStdHepRdr, or LCStdHepRdrNew with the flag of the number at its default
    (src/cpp/include/UTIL/LCStdHepRdrNew.h:85) in stdhepjob_new.cc:46 and 85 *)
Definition job_next (newer : bool) (h : hep) (a base : addr) (w : world) : world * Res unit * option hep :=
  if newer then update_next_new third in_time true false h a base (str "MCParticle") w
  else update_next_old third in_time true h a base (str "MCParticle") w.
(** the loop, stdhepjob.cc:72-95; [None] if it has not ended after [fuel] turns.  An exception that is not
    EndOfDataException is not caught (94). *)
Fixpoint job_loop (fuel : nat) (newer : bool) (max count : Z) (a base : addr) (b1 b2 : buffer) (h : hep) (w : writer) : Res (option writer) :=
  match fuel with
  | O => Ok None
  | S fuel' =>
      if (max <? 0) || (count <? max) then
        match calls job_new [V_setRunNumber 0; V_setEventNumber count; V_setDetectorName (str "Unknown")] with
        | (_, Throw x) => Throw x
        | (_, UB u) => UB u
        | (e, Ok _) =>
            match job_next newer h a base e with
            | (_, Throw x, _) => match x with LEndOfData => Ok (Some w) | _ => Throw x end
            | (_, UB u, _) => UB u
            | (_, Ok _, None) => UB UBPrecondition
            | (e', Ok _, Some h') =>
                do w' <- write_item comp w b1 b2 (job_given e');
                if count =? two31 - 1 then UB UBOverflow else
                job_loop fuel' newer max (count + 1) a base b1 b2 h' w'
            end
        end
      else Ok (Some w)
  end.
(** main, stdhepjob.cc:25-105: the input is opened (46), then the output, which must not exist (55), the run
    header is written (70), the loop, and the output is closed (102).  If an exception escapes, the
    contents of the output are not modelled. *)
Definition std_job (fuel : nat) (newer : bool) (d : disk) (inp out : bytes) (max level : Z) (a base : addr) (wraw b1 b2 : buffer) : Res (option disk) :=
  do h <- hep_open (d inp);
  do w <- open_create d out level wraw;
  do w <- write_item comp w b1 b2 (WRun (job_run inp));
  do r <- job_loop fuel newer max 0 a base b1 b2 h w;
  match r with
  | None => Ok None
  | Some w => do c <- close_writer w; Ok (Some (save d (sio_filename out) c))
  end.
End Job.
