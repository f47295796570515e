(** * The program readcalibration

    Model of src/cpp/src/EXAMPLE/readcalibration.cc with CalibrationConstant.h.  A printed line is given by the three
    values in it; what was printed before an exception is not modelled.  Fewer than 2^31 events. *)

From Verif Require Import Bytes BitModel StrMap SioModel Ieee ObjModel EventModel IndexModel FileModel ImplModel ViewModel.

(** a line: cell id, offset and gain, readcalibration.cc:57-60 *)
Definition calline : Type := (Z * Z * Z)%type.
(** CalibrationConstant( col->getElementAt( j ) ), readcalibration.cc:55, CalibrationConstant.h:9-11 and 39, with the checks
    of LCFixedObject.h:48-76, and the getters, CalibrationConstant.h:46-48; elements of a collection that was read are not
    LCFixedObjects *)
Definition cal_element (h : heap) (a : addr) : Res calline :=
  if a =? 0 then Throw LException else
  match h a with
  | None => UB UBPrecondition
  | Some (OGO o) =>
      if sizes_eqb (gen_sizes o) (1, 2, 0)
      then match go_int o, go_flt o with i :: _, x :: y :: _ => Ok (i, x, y) | _, _ => UB UBOutOfBounds end
      else Throw LException
  | Some _ => Throw LException
  end.
(** the loop over the elements, readcalibration.cc:53-62 *)
Fixpoint cal_elements (h : heap) (l : list addr) : Res (list calline) :=
  match l with [] => Ok [] | a :: l' => do x <- cal_element h a; do r <- cal_elements h l'; Ok (x :: r) end.
(** one collection, readcalibration.cc:47-64 *)
Definition cal_collection (h : heap) (c : coll) : Res (list calline) :=
  do t <- get_string_val (c_par c) (str "TypeName");
  if bytes_eqb t (str "CalibrationConstant") then cal_elements h (c_elems c) else Ok [].
(** the loop over the collections, readcalibration.cc:43-65 *)
Fixpoint cal_event (h : heap) (cols : list (bytes * coll)) : Res (list calline) :=
  match cols with [] => Ok [] | nc :: cols' => do x <- cal_collection h (snd nc); do r <- cal_event h cols'; Ok (x ++ r) end.

Section Cal.
Context (uncomp : bytes -> option bytes) (srt : forall A : Type, (A -> Z) -> list A -> list A) (ignore_null : bool).

(** the event loop, readcalibration.cc:36-68: what is printed, and the number of events *)
Fixpoint cal_loop (fuel : nat) (d : disk) (r : reader) : Res (list calline * Z) :=
  match fuel with
  | O => UB UBDiverge
  | S fuel' =>
      match read_next_event uncomp srt ignore_null d r with
      | (Ok (Some l), r1) =>
          do x <- cal_event (le_heap l) (ev_cols (le_evt l));
          do '(xs, n) <- cal_loop fuel' d r1;
          Ok (x ++ xs, n + 1)
      | (Ok None, _) => Ok ([], 0)
      | (Throw e, _) => Throw e
      | (UB k, _) => UB k
      end
  end.
(** main, readcalibration.cc:21-79, for one argument, with the reader [r] of line 31; None is the message for other numbers of arguments
    (24-27) *)
Definition readcalibration (fuel : nat) (d : disk) (args : list bytes) (r : reader) : Res (option (list calline * Z)) :=
  match args with
  | [n] => match open_file uncomp d n r with
           | (Ok _, r1) => do x <- cal_loop fuel d r1; Ok (Some x)
           | (Throw e, _) => Throw e
           | (UB k, _) => UB k
           end
  | _ => Ok None
  end.
End Cal.
