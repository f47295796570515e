(** * The program dumpevent

    Model of src/cpp/src/EXAMPLE/dumpevent.cc up to the call of LCTOOLS::dumpEventDetailed, which prints the
    event and is not modelled. *)

From Verif Require Import Bytes BitModel StrMap SioModel Ieee ObjModel EventModel IndexModel FileModel.

(** what the program does: it prints how it is to be used (dumpevent.cc:33-42 and 54-58), that there are not
    enough events (121), that there is no such event (125), or the message of an IOException (138-141), each
    with exit status 1; it prints an event and returns 0 (132-148); it ends with an exception that is not
    caught *)
Inductive dumped : Type :=
| DUsage | DFew (n : Z) | DNotFound (run num : Z) | DMessage (e : exn) | DShown (l : levent) | DTerminate (e : exn) | DUB (k : ub).

(** the C library function atoi (dumpevent.cc:52, 62 and 63); undefined if the number is not an [int] *)
Definition atoi (s : bytes) : Res Z :=
  do n <- atol s; if (n <? - two31) || (two31 <=? n) then UB UBOverflow else Ok n.

(** the words of the environment variable, dumpevent.cc:83-92; [cur]: the characters of the word so far *)
Fixpoint env_words (cur s : bytes) : list bytes :=
  match s with
  | [] => match cur with [] => [] | _ => [cur] end
  | c :: s' =>
      if is_space c then match cur with [] => env_words [] s' | _ => cur :: env_words [] s' end
      else env_words (cur ++ [c]) s'
  end.
(** the names given to setReadCollectionNames, dumpevent.cc:79-95, if the variable is set *)
Definition env_names (env : option bytes) : list bytes := match env with None => [] | Some s => env_words [] s end.

(** the handler, dumpevent.cc:138-141, catches IO::IOException and EndOfDataException, which is derived from it
    (src/cpp/include/Exceptions.h:92 and 108); the exceptions of sio are of another class *)
Definition handled (e : exn) : dumped := match e with LIOException | LEndOfData => DMessage e | _ => DTerminate e end.

Section Show.
Context (uncomp : bytes -> option bytes) (srt : forall A : Type, (A -> Z) -> list A -> list A) (ignore_null : bool).

(** what comes of an event that was asked for, dumpevent.cc:116-132 *)
Definition shown (missing : dumped) (x : Res (option levent)) : dumped :=
  match x with
  | Ok (Some l) => DShown l
  | Ok None => missing
  | Throw e => handled e
  | UB k => DUB k
  end.
(** main, dumpevent.cc:24-148, for the arguments behind the name of the program; [new] gives the reader of
    lines 71-75 with the names of collections *)
Definition dumpevent (d : disk) (args : list bytes) (env : option bytes) (new : bool -> list bytes -> reader) : dumped :=
  match args with
  | file :: a :: rest =>
      match rest with
      | [] =>
          match atoi a with
          | Ok n =>
              if n <? 1 then DUsage else
              match open_file uncomp d file (new false (env_names env)) with
              | (Ok _, r) =>
                  match (if 0 <? n then skip_events (n - 1) r else (Ok tt, r)) with
                  | (Ok _, r1) => shown (DFew n) (fst (read_next_event uncomp srt ignore_null d r1))
                  | (Throw e, _) => handled e
                  | (UB k, _) => DUB k
                  end
              | (Throw e, _) => handled e
              | (UB k, _) => DUB k
              end
          | Throw e => DTerminate e
          | UB k => DUB k
          end
      | b :: _ =>
          match (do run <- atoi a; do num <- atoi b; Ok (run, num)) with
          | Ok (run, num) =>
              match open_file uncomp d file (new true (env_names env)) with
              | (Ok _, r) => shown (DNotFound run num) (fst (read_event_at uncomp srt ignore_null d run num r))
              | (Throw e, _) => handled e
              | (UB k, _) => DUB k
              end
          | Throw e => DTerminate e
          | UB k => DUB k
          end
      end
  | _ => DUsage
  end.
End Show.
