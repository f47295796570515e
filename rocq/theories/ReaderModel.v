(** * SIOReader: the reader with registered listeners, which owns the record it returned last

    src/cpp/src/SIO/SIOReader.cc and src/cpp/include/SIO/SIOReader.h.  All reading is done by MT::LCReader,
    see FileModel.  Simplified: listeners do not throw, do not use the reader they are called by, and do
    not take the event apart; memory is never reused for another record. *)

From Verif Require Import Bytes StrMap SioModel ObjModel EventModel IndexModel FileModel.

(** std::set of pointers, _runListeners and _evtListeners, SIOReader.h:209-211: the addresses in
    increasing order *)
Fixpoint set_insert (x : Z) (l : list Z) : list Z :=
  match l with
  | [] => [x]
  | y :: l' => if x <? y then x :: l else if x =? y then l else y :: set_insert x l'
  end.
(** registerLCEventListener and registerLCRunListener, SIOReader.cc:161-163, 173-175: insert( end() , ls ), where the
    position is only a hint.  removeLCEventListener and removeLCRunListener, 167-169, 179-181: erase( find( ls ) ),
    which is undefined if there is no such element. *)
Definition set_erase (x : Z) (l : list Z) : Res (list Z) :=
  if existsb (Z.eqb x) l then Ok (filter (fun y => negb (x =? y)) l) else UB UBPrecondition.

(** _currentEvent and _currentRun, SIOReader.h:213-215: null, the record returned last, or the address of a record that
    was deleted *)
Inductive held (A : Type) : Type := HNull | HRecord (a : A) | HDeleted.
Arguments HNull {A}.
Arguments HRecord {A} _.
Arguments HDeleted {A}.

(** SIOReader.h:206-215 *)
Record sio_reader := mkSR { sr_reader : reader; sr_evts : list Z; sr_runs : list Z; sr_evt : held levent; sr_run : held runhdr }.
Definition new_sio (r : reader) : sio_reader := mkSR r [] [] HNull HNull.

(** a call of a listener: modifyEvent and modifyRunHeader or processEvent and processRunHeader, with
    the record as it is then and its access mode (SIOReader.cc:197-221) *)
Record note := mkNote { nt_listener : Z; nt_modify : bool; nt_readonly : bool; nt_record : call }.

Section Reader.
Context (uncomp : bytes -> option bytes) (srt : forall A : Type, (A -> Z) -> list A -> list A) (ignore_null : bool).
(** what the listeners change in modifyEvent and in modifyRunHeader *)
Context (change_evt : Z -> levent -> levent) (change_run : Z -> runhdr -> runhdr).

(** processEvent, SIOReader.cc:197-207 *)
Fixpoint notify_evt (ls : list Z) (e : levent) : list note :=
  match ls with
  | [] => []
  | l :: ls' =>
      let e' := change_evt l e in
      mkNote l true false (CEvt e) :: mkNote l false true (CEvt e') :: notify_evt ls' e'
  end.
(** processRunHeader, SIOReader.cc:211-221 *)
Fixpoint notify_run (ls : list Z) (h : runhdr) : list note :=
  match ls with
  | [] => []
  | l :: ls' =>
      let h' := change_run l h in
      mkNote l true false (CRun h) :: mkNote l false true (CRun h') :: notify_run ls' h'
  end.
(** the calls of the MT::LCReaderListener, which is the SIOReader itself *)
Definition notify (s : sio_reader) (c : call) : list note :=
  match c with CEvt e => notify_evt (sr_evts s) e | CRun h => notify_run (sr_runs s) h end.

(** the calls of a program, SIOReader.cc:77-195 *)
Inductive rop :=
| OAddEvt (l : Z) | ODropEvt (l : Z) | OAddRun (l : Z) | ODropRun (l : Z)
| OStream (max : Z)
| ONextEvt | ONextRun | OSkip (n : Z) | OGetEvt (run num : Z) | OGetRun (run : Z).
(** the results of SIOReader.cc:77-195 *)
Inductive reply :=
| PDone | PCalls (x : Res unit) (l : list note) | PEvt (e : option levent) | PRun (h : option runhdr)
| PThrow (e : exn) | PUB (k : ub).

(** readNextEvent, SIOReader.cc:101-109, and readEvent, 143-151: the old event is deleted; _currentEvent is set when reading was
    successful *)
Definition own_evt (s : sio_reader) (res : Res (option levent) * reader) : reply * sio_reader :=
  match sr_evt s with
  | HDeleted => (PUB UBPrecondition, s)
  | c =>
      let freed := match c with HNull => HNull | _ => HDeleted end in
      match res with
      | (Ok e, r) => (PEvt e, mkSR r (sr_evts s) (sr_runs s) (match e with Some l => HRecord l | None => HNull end) (sr_run s))
      | (Throw x, r) => (PThrow x, mkSR r (sr_evts s) (sr_runs s) freed (sr_run s))
      | (UB k, r) => (PUB k, mkSR r (sr_evts s) (sr_runs s) freed (sr_run s))
      end
  end.
(** readNextRunHeader, SIOReader.cc:83-91, and readRunHeader, 125-133 *)
Definition own_run (s : sio_reader) (res : Res (option runhdr) * reader) : reply * sio_reader :=
  match sr_run s with
  | HDeleted => (PUB UBPrecondition, s)
  | c =>
      let freed := match c with HNull => HNull | _ => HDeleted end in
      match res with
      | (Ok h, r) => (PRun h, mkSR r (sr_evts s) (sr_runs s) (sr_evt s) (match h with Some x => HRecord x | None => HNull end))
      | (Throw x, r) => (PThrow x, mkSR r (sr_evts s) (sr_runs s) (sr_evt s) freed)
      | (UB k, r) => (PUB k, mkSR r (sr_evts s) (sr_runs s) (sr_evt s) freed)
      end
  end.
(** the methods of SIOReader; skipNEvents SIOReader.cc:113-115; readStream 185-193, where the calls of the listeners are
    put behind the reading *)
Definition sio_step (d : disk) (o : rop) (s : sio_reader) : reply * sio_reader :=
  match o with
  | OAddEvt l => (PDone, mkSR (sr_reader s) (set_insert l (sr_evts s)) (sr_runs s) (sr_evt s) (sr_run s))
  | OAddRun l => (PDone, mkSR (sr_reader s) (sr_evts s) (set_insert l (sr_runs s)) (sr_evt s) (sr_run s))
  | ODropEvt l =>
      match set_erase l (sr_evts s) with
      | Ok ls => (PDone, mkSR (sr_reader s) ls (sr_runs s) (sr_evt s) (sr_run s))
      | Throw e => (PThrow e, s)
      | UB k => (PUB k, s)
      end
  | ODropRun l =>
      match set_erase l (sr_runs s) with
      | Ok ls => (PDone, mkSR (sr_reader s) (sr_evts s) ls (sr_evt s) (sr_run s))
      | Throw e => (PThrow e, s)
      | UB k => (PUB k, s)
      end
  | OStream max =>
      let '(x, cs, r) := read_stream uncomp srt ignore_null d 1 max (sr_reader s) in
      let s' := mkSR r (sr_evts s) (sr_runs s) (sr_evt s) (sr_run s) in
      (match x with UB k => PUB k | _ => PCalls x (flat_map (fun kc => notify s (snd kc)) cs) end, s')
  | ONextEvt => own_evt s (read_next_event uncomp srt ignore_null d (sr_reader s))
  | OGetEvt run num => own_evt s (read_event_at uncomp srt ignore_null d run num (sr_reader s))
  | ONextRun => own_run s (read_next_run uncomp d (sr_reader s))
  | OGetRun run => own_run s (read_run uncomp d run (sr_reader s))
  | OSkip n =>
      match skip_events n (sr_reader s) with
      | (Ok _, r) => (PDone, mkSR r (sr_evts s) (sr_runs s) (sr_evt s) (sr_run s))
      | (Throw e, r) => (PThrow e, mkSR r (sr_evts s) (sr_runs s) (sr_evt s) (sr_run s))
      | (UB k, r) => (PUB k, mkSR r (sr_evts s) (sr_runs s) (sr_evt s) (sr_run s))
      end
  end.
Fixpoint sio_run (d : disk) (l : list rop) (s : sio_reader) : list reply :=
  match l with
  | [] => []
  | o :: l' => let '(x, s') := sio_step d o s in x :: match x with PUB _ => [] | _ => sio_run d l' s' end
  end.
(** open, SIOReader.cc:41-49 *)
Definition sio_open (d : disk) (files : list bytes) (s : sio_reader) : Res unit * sio_reader :=
  let '(x, r) := open_files uncomp d files (sr_reader s) in (x, mkSR r (sr_evts s) (sr_runs s) (sr_evt s) (sr_run s)).

End Reader.

(** a program that opens files, SIOReader.cc:41-49 and 77-195 *)
Definition sio_program (uncomp : bytes -> option bytes) (srt : forall A : Type, (A -> Z) -> list A -> list A) (ignore_null : bool)
  (change_evt : Z -> levent -> levent) (change_run : Z -> runhdr -> runhdr) (d : disk) (files : list bytes) (l : list rop) (r : reader) : list reply :=
  match sio_open uncomp d files (new_sio r) with
  | (Ok _, s) => sio_run uncomp srt ignore_null change_evt change_run d l s
  | (Throw e, _) => [PThrow e]
  | (UB k, _) => [PUB k]
  end.
