(** * What files contain: specification *)

From Verif Require Import Bytes StrMap SioModel SioSpec Ieee ObjModel ObjSpec CollSpec EventModel EventSpec EventProofs EventFacts
  IndexModel IndexSpec FileModel.

(** ** Items *)

(** the codec is invertible, and does not make records too large to be stored *)
Definition codec_ok (comp : Z -> bytes -> bytes) (uncomp : bytes -> option bytes) : Prop :=
  forall z d, z <> 0 -> uncomp (comp z d) = Some d /\ (Zlen d < 2 ^ 31 -> Zlen (comp z d) + 100 < two32).
(** the size of a record, at compression level [z] *)
Definition sized (z n : Z) : Prop := n + 3 < two32 /\ (z <> 0 -> n < 2 ^ 31).

Definition item_ok (zi : Z * witem) : Prop :=
  match snd zi with
  | WRun r => runhdr_ok r /\ sized (fst zi) (record_size run_record [mkWB run_block cur_vers (write_runhdr r)])
  | WEvt h e only =>
      event_ok only h e /\ sized (fst zi) (record_size header_record [mkWB header_block cur_vers (write_evhdr only e)]) /\
      (forall bs cols, event_blocks only h (ev_cols e) = Ok (bs, cols) -> sized (fst zi) (record_size event_record bs))
  end.
Definition item_key (i : witem) : runevt := match i with WRun r => (rh_run r, -1) | WEvt _ e _ => (ev_run e, ev_num e) end.

(** ** Positions

    The bytes of an item, written with the buffers [b1] and [b2], and the entries of the index
    for items written one after the other from position [pos] on *)
Definition item_text (comp : Z -> bytes -> bytes) (b1 b2 : buffer) (zi : Z * witem) : bytes :=
  match encode_item comp (fst zi) b1 b2 (snd zi) with Ok (recs, _, _) => concat recs | _ => [] end.
Fixpoint placed (comp : Z -> bytes -> bytes) (b1 b2 : buffer) (pos : Z) (its : list (Z * witem)) : list (runevt * Z) :=
  match its with
  | [] => []
  | zi :: its' => (item_key (snd zi), pos) :: placed comp b1 b2 (pos + Zlen (item_text comp b1 b2 zi)) its'
  end.

(** ** Writing a file in several sessions *)

(** what a program does between opening a file and closing it: the buffers it has, and the items
    it writes *)
Record sess := mkSess { ss_level : Z; ss_raw : buffer; ss_b1 : buffer; ss_b2 : buffer; ss_items : list (Z * witem) }.

Section Sessions.
Context (comp : Z -> bytes -> bytes) (uncomp : bytes -> option bytes).

Definition run_writer (w : writer) (s : sess) : Res bytes :=
  do w' <- write_items comp w (ss_b1 s) (ss_b2 s) (ss_items s); close_writer w'.
Definition new_session (d : disk) (name : bytes) (s : sess) : Res disk :=
  do w <- open_new d name (ss_level s) (ss_raw s);
  do c <- run_writer w s;
  Ok (save d (sio_filename name) c).
Definition append_session (d : disk) (name : bytes) (s : sess) : Res disk :=
  do w <- open_append uncomp d name (ss_level s) (ss_raw s);
  do c <- run_writer w s;
  Ok (save d (sio_filename name) c).
Fixpoint append_sessions (d : disk) (name : bytes) (l : list sess) : Res disk :=
  match l with
  | [] => Ok d
  | s :: l' => do d' <- append_session d name s; append_sessions d' name l'
  end.
(** a new file, to which more is appended *)
Definition sessions (d : disk) (name : bytes) (s : sess) (l : list sess) : Res disk :=
  do d' <- new_session d name s; append_sessions d' name l.

Definition keys (s : sess) : list runevt := map (fun zi => item_key (snd zi)) (ss_items s).
Definition sess_text (s : sess) : bytes := flat_map (item_text comp (ss_b1 s) (ss_b2 s)) (ss_items s).
(** the run numbers differ by less than 2^31 (the writer of the index subtracts them) *)
Definition runs_close (ks : list runevt) : Prop := forall a b, In a ks -> In b ks -> int32 (fst a - fst b).
Definition sess_ok (s : sess) : Prop :=
  usable (ss_raw s) /\ usable (ss_b1 s) /\ usable (ss_b2 s) /\ Forall item_ok (ss_items s) /\ runs_close (keys s).
(** the form chosen for the index is large enough *)
Definition sess_covers (s : sess) : Prop := covers (rm_map (index_of (placed comp (ss_b1 s) (ss_b2 s) 0 (ss_items s)))).

(** the number of items and of bytes of several sessions *)
Definition count (l : list sess) : Z := fold_right (fun s n => Zlen (ss_items s) + n) 0 l.
Definition volume (l : list sess) : Z := fold_right (fun s n => Zlen (sess_text s) + n) 0 l.

End Sessions.

(** ** Reading a file, or several files, one item after the other *)

(** the results of readNextEvent and readNextRunHeader *)
Inductive result : Type := REvt (l : option levent) | RRun (r : option runhdr) | RDone | RThrow (e : exn) | RUB (k : ub).

Section Reading.
Context (uncomp : bytes -> option bytes) (srt : forall A : Type, (A -> Z) -> list A -> list A) (ignore_null : bool).

(** a program that calls readNextEvent (true) and readNextRunHeader (false) in any order, and goes
    on whatever they give *)
Definition one_op (d : disk) (op : bool) (r : reader) : result * reader :=
  if op then
    match read_next_event uncomp srt ignore_null d r with
    | (Ok l, r') => (REvt l, r')
    | (Throw e, r') => (RThrow e, r')
    | (UB k, r') => (RUB k, r')
    end
  else
    match read_next_run uncomp d r with
    | (Ok h, r') => (RRun h, r')
    | (Throw e, r') => (RThrow e, r')
    | (UB k, r') => (RUB k, r')
    end.
Fixpoint run_ops (d : disk) (ops : list bool) (r : reader) : list result :=
  match ops with
  | [] => []
  | op :: ops' =>
      let '(x, r') := one_op d op r in
      x :: match x with RUB _ => [] | _ => run_ops d ops' r' end
  end.
(** opening files and reading *)
Definition read_all (d : disk) (files : list bytes) (ops : list bool) (r : reader) : list result :=
  match open_files uncomp d files r with
  | (Ok _, r') => run_ops d ops r'
  | (Throw e, _) => [RThrow e]
  | (UB k, _) => [RUB k]
  end.

(** the event [e] of the heap [h] can be read back *)
Definition readable (names : list bytes) (i : witem) : Prop :=
  match i with
  | WRun _ => True
  | WEvt h e only => mc_links_ok h (read_back only names e) /\
      (ignore_null = true \/ subsets_ok h (event_tags only names h e) (read_back only names e))
  end.
(** [l] is a copy of the event, with the new objects at [next] and behind *)
Definition event_copy (names : list bytes) (next : addr) (h : heap) (e : event) (only : list bytes) (l : levent) : Prop :=
  le_rec l = None /\ same_header e (le_evt l) /\
  exists new, numbers new (event_objs only names h e) next /\
    let cols := read_back only names e in
    let tgt := target new (event_tags only names h e) in
    Forall2 (coll_as h (fun sub => if sub then tgt else new)) cols (ev_cols (le_evt l)) /\
    forall nc a o, In nc cols -> is_subset (snd nc) = false -> In a (c_elems (snd nc)) -> h a = Some o ->
      le_heap l (new a) = option_map (more (map new (daughters_of h cols a))) (copy_in srt new tgt h (snd nc) o).
(** a run header read from the file [n] *)
Definition run_copy (n : bytes) (h : runhdr) : runhdr :=
  mkRun (rh_run h) (rh_det h) (rh_desc h) (rh_subs h) (set_strings (rh_par h) (str "LCIOFileName") [n]).

Definition is_wrun (x : bytes * witem) : bool := match snd x with WRun _ => true | _ => false end.

(** what the calls give when the items [l] are left, each with the name of its file: readNextEvent
    passes over run headers, readNextRunHeader over events; [fin] tells what they give at the end,
    all later calls throw *)
Definition too_late (ops : list bool) : list result := map (fun _ => RThrow EBadState) ops.
Inductive trace (names : list bytes) (fin : bool -> result -> Prop) : addr -> list (bytes * witem) -> list bool -> list result -> Prop :=
| T_nil next l : trace names fin next l [] []
| T_evt next pre n h e only l ops le rs : forallb is_wrun pre = true -> event_copy names next h e only le ->
    trace names fin (next + Zlen (event_objs only names h e)) l ops rs ->
    trace names fin next (pre ++ (n, WEvt h e only) :: l) (true :: ops) (REvt (Some le) :: rs)
| T_evt_end next l ops x : forallb is_wrun l = true -> fin true x -> trace names fin next l (true :: ops) (x :: too_late ops)
| T_run next pre n h l ops rs : existsb is_wrun pre = false -> trace names fin next l ops rs ->
    trace names fin next (pre ++ (n, WRun h) :: l) (false :: ops) (RRun (Some (run_copy n h)) :: rs)
| T_run_end next l ops x : existsb is_wrun l = false -> fin false x -> trace names fin next l (false :: ops) (x :: too_late ops).

(** a null pointer, or also an exception *)
Definition at_null (evt : bool) (x : result) : Prop := x = if evt then REvt None else RRun None.
Definition null_or_exn (evt : bool) (x : result) : Prop := at_null evt x \/ exists e, x = RThrow e.

(** ** Reading one file in any order *)

(** readNextEvent and readNextRunHeader, skipNEvents, readEvent( run, event ), readRunHeader( run ) *)
Inductive step : Type := Next (evt : bool) | Skip (n : Z) | GetEvt (run num : Z) | GetRun (run : Z).
Definition one_step (d : disk) (s : step) (r : reader) : result * reader :=
  match s with
  | Next evt => one_op d evt r
  | Skip n =>
      match skip_events n r with
      | (Ok _, r') => (RDone, r')
      | (Throw e, r') => (RThrow e, r')
      | (UB k, r') => (RUB k, r')
      end
  | GetEvt run num =>
      match read_event_at uncomp srt ignore_null d run num r with
      | (Ok l, r') => (REvt l, r')
      | (Throw e, r') => (RThrow e, r')
      | (UB k, r') => (RUB k, r')
      end
  | GetRun run =>
      match read_run uncomp d run r with
      | (Ok h, r') => (RRun h, r')
      | (Throw e, r') => (RThrow e, r')
      | (UB k, r') => (RUB k, r')
      end
  end.
Fixpoint run_steps (d : disk) (l : list step) (r : reader) : list result :=
  match l with
  | [] => []
  | s :: l' =>
      let '(x, r') := one_step d s r in
      x :: match x with RUB _ => [] | _ => run_steps d l' r' end
  end.
(** opening a file and using it *)
Definition use_file (d : disk) (n : bytes) (l : list step) (r : reader) : list result :=
  match open_file uncomp d n r with
  | (Ok _, r') => run_steps d l r'
  | (Throw e, _) => [RThrow e]
  | (UB k, _) => [RUB k]
  end.

Definition has_numbers (run num : Z) (i : witem) : bool :=
  match i with WRun _ => false | WEvt _ e _ => (ev_run e =? run) && (ev_num e =? num) end.
Definition has_run (run : Z) (i : witem) : bool := match i with WRun h => rh_run h =? run | WEvt _ _ _ => false end.
Definition is_wevt (i : witem) : bool := match i with WRun _ => false | WEvt _ _ _ => true end.
Definition evts (l : list witem) : Z := Zlen (filter is_wevt l).

(** What the calls give for a file [n] with the items [W].  The third argument is what is in front of
    the reader: items of the file, or nothing after the end was hit. *)
Inductive answers (names : list bytes) (n : bytes) (direct : bool) (W : list witem)
  : addr -> option (list witem) -> list step -> list result -> Prop :=
| A_nil next cur : answers names n direct W next cur [] []
(* the next event or run header *)
| A_evt next pre h e only l st le rs : existsb is_wevt pre = false -> event_copy names next h e only le ->
    answers names n direct W (next + Zlen (event_objs only names h e)) (Some l) st rs ->
    answers names n direct W next (Some (pre ++ WEvt h e only :: l)) (Next true :: st) (REvt (Some le) :: rs)
| A_evt_end next l st rs : existsb is_wevt l = false -> answers names n direct W next None st rs ->
    answers names n direct W next (Some l) (Next true :: st) (REvt None :: rs)
| A_run next pre h l st rs : forallb is_wevt pre = true -> answers names n direct W next (Some l) st rs ->
    answers names n direct W next (Some (pre ++ WRun h :: l)) (Next false :: st) (RRun (Some (run_copy n h)) :: rs)
| A_run_end next l st rs : forallb is_wevt l = true -> answers names n direct W next None st rs ->
    answers names n direct W next (Some l) (Next false :: st) (RRun None :: rs)
| A_late next evt st rs : answers names n direct W next None st rs ->
    answers names n direct W next None (Next evt :: st) (RThrow EBadState :: rs)
(* skipping [k] events *)
| A_skip_no next cur k st rs : k < 1 -> answers names n direct W next cur st rs ->
    answers names n direct W next cur (Skip k :: st) (RDone :: rs)
| A_skip next pre h e only l k st rs : evts pre = k - 1 -> answers names n direct W next (Some l) st rs ->
    answers names n direct W next (Some (pre ++ WEvt h e only :: l)) (Skip k :: st) (RDone :: rs)
| A_skip_end next l k st rs : evts l < k -> answers names n direct W next None st rs ->
    answers names n direct W next (Some l) (Skip k :: st) (RDone :: rs)
| A_skip_late next k st rs : 1 <= k -> answers names n direct W next None st rs ->
    answers names n direct W next None (Skip k :: st) (RThrow EBadState :: rs)
(* direct access *)
| A_get next pre h e only l l0 st le rs : direct = true -> W = pre ++ WEvt h e only :: l -> event_copy names next h e only le ->
    answers names n direct W (next + Zlen (event_objs only names h e)) (Some l) st rs ->
    answers names n direct W next (Some l0) (GetEvt (ev_run e) (ev_num e) :: st) (REvt (Some le) :: rs)
| A_get_none next cur run num st rs : direct = true -> existsb (has_numbers run num) W = false -> answers names n direct W next cur st rs ->
    answers names n direct W next cur (GetEvt run num :: st) (REvt None :: rs)
| A_get_late next run num st rs : direct = true -> existsb (has_numbers run num) W = true -> answers names n direct W next None st rs ->
    answers names n direct W next None (GetEvt run num :: st) (RThrow LIOException :: rs)
| A_getrun next pre h l l0 st rs : direct = true -> W = pre ++ WRun h :: l -> answers names n direct W next (Some l) st rs ->
    answers names n direct W next (Some l0) (GetRun (rh_run h) :: st) (RRun (Some (run_copy n h)) :: rs)
| A_getrun_none next cur run st rs : direct = true -> existsb (has_run run) W = false -> answers names n direct W next cur st rs ->
    answers names n direct W next cur (GetRun run :: st) (RRun None :: rs)
| A_getrun_late next run st rs : direct = true -> existsb (has_run run) W = true -> answers names n direct W next None st rs ->
    answers names n direct W next None (GetRun run :: st) (RThrow LIOException :: rs)
(* without it: search from here on; run headers are not found *)
| A_find next pre h e only l st le rs : direct = false -> existsb (has_numbers (ev_run e) (ev_num e)) pre = false ->
    event_copy names next h e only le -> answers names n direct W (next + Zlen (event_objs only names h e)) (Some l) st rs ->
    answers names n direct W next (Some (pre ++ WEvt h e only :: l)) (GetEvt (ev_run e) (ev_num e) :: st) (REvt (Some le) :: rs)
| A_find_end next l run num st rs : direct = false -> existsb (has_numbers run num) l = false -> answers names n direct W next None st rs ->
    answers names n direct W next (Some l) (GetEvt run num :: st) (REvt None :: rs)
| A_find_late next run num st rs : direct = false -> answers names n direct W next None st rs ->
    answers names n direct W next None (GetEvt run num :: st) (RThrow EBadState :: rs)
| A_find_run next cur run st rs : direct = false -> answers names n direct W next cur st rs ->
    answers names n direct W next cur (GetRun run :: st) (RRun None :: rs).

End Reading.

(** the items of several sessions *)
Definition items_of (l : list sess) : list witem := flat_map (fun s => map snd (ss_items s)) l.

(** the file [n] of the disk [d] was written in the sessions [s :: l]: created in the first, and
    appended to in the others *)
Definition made_by (comp : Z -> bytes -> bytes) (uncomp : bytes -> option bytes) (d : disk) (n : bytes) (s : sess) (l : list sess) : Prop :=
  exists d0 d1 name, n = sio_filename name /\ sessions comp uncomp d0 name s l = Ok d1 /\ d n = d1 n.
Definition sessions_ok (comp : Z -> bytes -> bytes) (l : list sess) : Prop :=
  Forall sess_ok l /\ (match l with s :: _ => ss_items s <> [] | [] => False end) /\ count l < 2 ^ 27 /\ volume comp l < 2 ^ 61.

(** ** Files by name *)

Record wfile := mkWF { wf_name : bytes; wf_first : sess; wf_more : list sess }.
Definition wf_sess (f : wfile) : list sess := wf_first f :: wf_more f.
Definition wf_ok (comp : Z -> bytes -> bytes) (uncomp : bytes -> option bytes) (d : disk) (f : wfile) : Prop :=
  sessions_ok comp (wf_sess f) /\ made_by comp uncomp d (wf_name f) (wf_first f) (wf_more f).
Definition wf_items (f : wfile) : list (bytes * witem) := map (pair (wf_name f)) (items_of (wf_sess f)).

(** ** Where the items are in a file *)

Definition texts (comp : Z -> bytes -> bytes) (l : list sess) : list bytes :=
  flat_map (fun s => map (item_text comp (ss_b1 s) (ss_b2 s)) (ss_items s)) l.
(** the texts [ts] are in the file one behind the other, at the positions [ps] *)
Fixpoint located (data : bytes) (from : Z) (ts : list bytes) (ps : list Z) : Prop :=
  match ts, ps with
  | [], [] => True
  | t :: ts', p :: ps' => from <= p /\ p + Zlen t <= Zlen data /\ sub data p (Zlen t) = t /\ located data (p + Zlen t) ts' ps'
  | _, _ => False
  end.

(** the items have distinct numbers: no two run headers with one run number, no two events with the
    same run and event number, no negative event numbers *)
Definition numbered (W : list witem) : Prop :=
  NoDup (map item_key W) /\ Forall (fun i => match i with WRun _ => True | WEvt _ e _ => 0 <= ev_num e end) W.
(** the arguments of the calls: [int]s, event numbers not negative *)
Definition step_ok (s : step) : Prop :=
  match s with
  | GetEvt run num => int32 run /\ 0 <= num < 2 ^ 31
  | GetRun run => int32 run
  | _ => True
  end.
