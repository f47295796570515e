(** * Counting events in LCIO and StdHep files

    Model of src/cpp/src/EXAMPLE/lcio_event_counter.cc with both kinds of files ([count_files] of FixModel has
    the LCIO files only). *)

From Verif Require Import Bytes StrMap SioModel Ieee ObjModel EventModel IndexModel FileModel MergeModel FixModel HepModel.

(** what is behind the last dot, substr( rfind( "." ) + 1 ), lcio_event_counter.cc:38; the whole name if
    there is no dot (npos + 1 is 0) *)
Fixpoint after_dot (n : bytes) : bytes :=
  match n with
  | [] => []
  | b :: l => if existsb (fun c => Zb c =? 46) l then after_dot l else if Zb b =? 46 then l else n
  end.
(** the test for StdHep files, lcio_event_counter.cc:38 *)
Definition is_stdhep (n : bytes) : bool := bytes_eqb (after_dot n) (str "stdhep").

(** the member numevts after readFileHeader, src/cpp/src/UTIL/lStdHep.cc:212-237 (the first steps of
    [read_file_header] of HepModel, with the second number behind the strings), returned by getNumberOfEvents,
    src/cpp/include/UTIL/LCStdHepRdr.h:45-47, lStdHep.hh:175 *)
Definition declared_events (f : bytes) : Res Z :=
  let '(id, x) := x_long (mkX f 0 0) in
  let '(_, x) := x_long x in
  let '(version, len, x) := x_string 0 x in
  let '(_, len, x) := x_string len x in
  let '(_, len, x) := x_string len x in
  let '(date, len, x) := x_string len x in
  match version with
  | None => UB UBNullDeref
  | Some v =>
      do '(len, x) <- (if bytes_eqb (cstr v) (str "2.00") || bytes_eqb (cstr v) (str "1.00")
                       then do _ <- copy_date date len; Ok (len, x)
                       else let '(_, len, x) := x_string len x in Ok (len, x));
      let '(_, x) := x_long x in
      let '(n, x) := x_long x in
      Ok n
  end.

Section Count.
Context (uncomp : bytes -> option bytes).

(** the loop, lcio_event_counter.cc:35-70: the constructor of the StdHep reader (39) throws if the file cannot
    be read; one is subtracted from the number in its header (46) *)
Fixpoint count_both (d : disk) (new : reader) (total : Z) (files : list bytes) : Res Z :=
  match files with
  | [] => Ok total
  | n :: files' =>
      if is_stdhep n then
        do _ <- hep_open (d n);
        match d n with
        | None => Throw LIOException
        | Some f => do k <- declared_events f; count_both d new (total + (k - 1)) files'
        end
      else
        match open_file uncomp d n new with
        | (Throw e, _) => Throw e
        | (UB k, _) => UB k
        | (Ok _, r1) =>
            do c <- fst (number_of_events uncomp r1);
            count_both d new (total + c) files'
        end
  end.
End Count.
