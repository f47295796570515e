(** * Writing and reading files

    Model of src/cpp/src/SIO/SIOWriter.cc, src/cpp/src/MT/LCWriter.cc and src/cpp/src/MT/LCReader.cc
    (SIO::SIOReader, src/cpp/src/SIO/SIOReader.cc, forwards to the latter).  The disk is a function
    from file names to contents.  An exception ends a writing program: the state of the writer after
    it is not modelled. *)

From Verif Require Import Bytes StrMap SioModel Ieee ObjModel EventModel IndexModel.

(** the disk, the files that are opened at src/cpp/src/MT/LCReader.cc:47 and src/cpp/src/MT/LCWriter.cc:21-80 *)
Definition disk : Type := bytes -> option bytes.
Definition save (d : disk) (n : bytes) (c : bytes) : disk := fun m => if bytes_eqb m n then Some c else d m.

(** SIOWriter::getSIOFileName, src/cpp/src/SIO/SIOWriter.cc:39-47, and LCWriter::getSIOFileName,
    src/cpp/src/MT/LCWriter.cc:212-220: the name ends with ".slcio" *)
Definition extension : bytes := str ".slcio".
Definition sio_filename (n : bytes) : bytes :=
  if bytes_eqb (skipn (length n - length extension) n) extension then n else n ++ extension.

(** What is handed to a writer: a run header, or an event with the objects it points to, and the
    names of the collections to write (all if empty). src/cpp/src/MT/LCWriter.cc:90 and 140-146. *)
Inductive witem : Type :=
| WRun (r : runhdr)
| WEvt (h : heap) (e : event) (only : list bytes).

Section Files.
(** the codec: [::compress2] at each level (the level is first restricted to -1..9,
    sio/src/compression/zlib.cc:15-25, which does not change whether it is zero), [::uncompress]; the
    sort of the particle ids *)
Context (comp : Z -> bytes -> bytes) (uncomp : bytes -> option bytes).
Context (srt : forall A : Type, (A -> Z) -> list A -> list A).
(** the environment variable LCIO_IGNORE_NULL_IN_SUBSET_COLLECTIONS is set *)
Context (ignore_null : bool).

(** ** Writers *)

(** the bytes a record in a buffer puts into the stream, compressed if the level is not zero:
    SIOWriter.cc:112-118, 134-140, 148-154; LCWriter.cc:99-113 and 128 *)
Definition encode (level : Z) (ri : record_info) (buf : buffer) : Res bytes :=
  if negb (level =? 0) then
    do '(ri', buf', cdata) <- compress_record (comp level) ri buf;
    do hdr <- span (b_bytes buf') 0 (ri_hlen ri');
    Ok (stream_record2 hdr cdata)
  else Ok (stream_record (b_bytes buf)).

(** the records of an item: the buffers they are made in are [b1] and [b2].
    LCWriter.cc:93-106, 148-167; SIOWriter.cc:109-113, 131-135, 145-149 (one buffer is used for both
    records, which does not matter as the contents of a buffer are overwritten).  The second
    component is the entry of the index, the third the item after writing (collections are
    modified). *)
Definition encode_item (level : Z) (b1 b2 : buffer) (i : witem) : Res (list bytes * runevt * witem) :=
  match i with
  | WRun r =>
      do '(ri, b) <- write_run_record b1 r;
      do x <- encode level ri b;
      Ok ([x], (rh_run r, -1), i)
  | WEvt h e only =>
      do '(rh, bh) <- write_header_record b1 only e;
      do '(e', re, be) <- write_event_record b2 only h e;
      do x <- encode level rh bh;
      do y <- encode level re be;
      Ok ([x; y], (ev_run e, ev_num e), WEvt h e' only)
  end.

(** an open writer: SIOWriter.h:101-115, LCWriter.h:105-115 *)
Record writer := mkWr { wr_o : ofs; wr_mgr : ramgr; wr_level : Z }.

(** writeRunHeader and writeEvent of both writers, SIOWriter.cc:105-155 and LCWriter.cc:90-198: the
    index entry is the position of the first record *)
Definition write_item (w : writer) (b1 b2 : buffer) (i : witem) : Res writer :=
  do '(recs, re, _) <- encode_item (wr_level w) b1 b2 i;
  Ok (mkWr (fold_left o_write recs (wr_o w)) (mg_add (wr_mgr w) re (o_pos (wr_o w))) (wr_level w)).
(** setCompressionLevel, SIOWriter.cc:99-101, LCWriter.cc:84-86 *)
Definition set_level (w : writer) (level : Z) : writer := mkWr (wr_o w) (wr_mgr w) level.
(** a program that writes: the compression level is set before each item *)
Fixpoint write_items (w : writer) (b1 b2 : buffer) (l : list (Z * witem)) : Res writer :=
  match l with
  | [] => Ok w
  | (z, i) :: l' => do w' <- write_item (set_level w z) b1 b2 i; write_items w' b1 b2 l'
  end.

(** open( name, WRITE_NEW ), SIOWriter.cc:51-58, LCWriter.cc:37-45, and open( name ), SIOWriter.cc:20-33,
    LCWriter.cc:21-33.  [raw] is the buffer of the random access manager. *)
Definition open_new (d : disk) (name : bytes) (level : Z) (raw : buffer) : Res writer :=
  Ok (mkWr (mkO [] 0) (new_mgr raw) level).
Definition open_create (d : disk) (name : bytes) (level : Z) (raw : buffer) : Res writer :=
  match d (sio_filename name) with
  | Some _ => Throw LIOException
  | None => open_new d name level raw
  end.
(** open( name, WRITE_APPEND ), SIOWriter.cc:59-92, LCWriter.cc:46-79: without random access record
    the file is opened with [out | ate], which truncates it *)
Definition open_append (d : disk) (name : bytes) (level : Z) (raw : buffer) : Res writer :=
  match d (sio_filename name) with
  | None => Throw LIOException
  | Some data =>
      let '(r, _, g) := init_append uncomp (open_ifs data) (new_mgr raw) in
      do ra <- r;
      if ra then
        if Zlen data <? access_size then Throw LIOException
        else Ok (mkWr (mkO data (Zlen data - access_size)) g level)
      else Ok (mkWr (mkO [] 0) g level)
  end.
(** close, SIOWriter.cc:159-163, LCWriter.cc:202-208: the contents of the file *)
Definition close_writer (w : writer) : Res bytes :=
  do '(_, o) <- write_access (wr_mgr w) (wr_o w);
  Ok (o_data o).

(** ** Reader *)

(** an event as it is handed out: lazily unpacked events carry the record, see LazyModel,
    src/cpp/include/IOIMPL/LCEventLazyImpl.h:81-85 *)
Record levent := mkLE { le_evt : event; le_heap : heap; le_rec : option (record_info * bytes) }.

(** the members, src/cpp/include/MT/LCReader.h:181-196 *)
Record reader := mkRd {
  rd_s : ifs; rd_raw : bytes; rd_comp : bytes; rd_files : list bytes; rd_idx : nat;
  rd_direct : bool; rd_lazy : bool; rd_mgr : ramgr; rd_names : list bytes;
  rd_max : Z; rd_next : addr }.

(** assignments to the members of LCReader, src/cpp/include/MT/LCReader.h:175-195 *)
Definition with_s (r : reader) (s : ifs) : reader :=
  mkRd s (rd_raw r) (rd_comp r) (rd_files r) (rd_idx r) (rd_direct r) (rd_lazy r) (rd_mgr r) (rd_names r) (rd_max r) (rd_next r).
Definition with_raw (r : reader) (s : ifs) (raw : bytes) : reader :=
  mkRd s raw (rd_comp r) (rd_files r) (rd_idx r) (rd_direct r) (rd_lazy r) (rd_mgr r) (rd_names r) (rd_max r) (rd_next r).
Definition with_comp (r : reader) (c : bytes) : reader :=
  mkRd (rd_s r) (rd_raw r) c (rd_files r) (rd_idx r) (rd_direct r) (rd_lazy r) (rd_mgr r) (rd_names r) (rd_max r) (rd_next r).
Definition with_mgr (r : reader) (s : ifs) (direct : bool) (g : ramgr) : reader :=
  mkRd s (rd_raw r) (rd_comp r) (rd_files r) (rd_idx r) direct (rd_lazy r) g (rd_names r) (rd_max r) (rd_next r).
Definition with_files (r : reader) (fs : list bytes) (i : nat) : reader :=
  mkRd (rd_s r) (rd_raw r) (rd_comp r) fs i (rd_direct r) (rd_lazy r) (rd_mgr r) (rd_names r) (rd_max r) (rd_next r).
Definition with_next (r : reader) (n : addr) : reader :=
  mkRd (rd_s r) (rd_raw r) (rd_comp r) (rd_files r) (rd_idx r) (rd_direct r) (rd_lazy r) (rd_mgr r) (rd_names r) (rd_max r) n.

(** the constructor, LCReader.cc:31-39; nothing is open, [next] is the first free address *)
Definition closed_ifs : ifs := mkIfs [] 0 false false false.
Definition new_reader (direct lazy : bool) (names : list bytes) (raw cbuf : bytes) (mraw : buffer) (next : addr) : reader :=
  mkRd closed_ifs raw cbuf [] 0 direct lazy (new_mgr mraw) names 0 next.

(** getEventMap, LCReader.cc:591-593 *)
Definition get_map (r : reader) : Res unit * reader :=
  let '(x, s, g) := create_map uncomp (rd_s r) (rd_mgr r) in
  ((do _ <- x; Ok tt), with_mgr r s (rd_direct r) g).

(** open( filename ), LCReader.cc:43-58 *)
Definition open_file (d : disk) (name : bytes) (r : reader) : Res unit * reader :=
  match d name with
  | None => (Throw ENotOpen, with_s r closed_ifs)
  | Some data =>
      let r1 := with_s r (open_ifs data) in
      let '(x, r2) := if rd_direct r1 then get_map r1 else (Ok tt, r1) in
      match x with
      | Ok _ => (Ok tt, match rd_files r2 with [] => with_files r2 [name] (rd_idx r2) | _ => r2 end)
      | _ => (x, r2)
      end
  end.
(** open( filenames ), LCReader.cc:62-82 *)
Definition open_files (d : disk) (names : list bytes) (r : reader) : Res unit * reader :=
  match names with
  | [] => (Throw LIOException, r)
  | n :: _ =>
      if existsb (fun m => match d m with None => true | Some _ => false end) names
      then (Throw LIOException, r)
      else open_file d n (with_files r names 0)
  end.
(** close, LCReader.cc:416-419 *)
Definition close_reader (r : reader) : reader := with_mgr r (rd_s r) false (mg_clear (rd_mgr r)).

(** api::read_records, sio/include/sio/api.h:407-427: [valid] selects records, [func] gets the
    contents of the buffer (header and data) and tells whether to go on; its state [St] survives
    exceptions *)
Fixpoint read_records {St} (fuel : nat) (valid : record_info -> bool)
    (func : St -> record_info -> bytes -> reader -> Res bool * St * reader) (st : St) (r : reader)
  : Res unit * St * reader :=
  match fuel with
  | O => (UB UBDiverge, st, r)
  | S f =>
      match read_record_info (rd_s r) (rd_raw r) with
      | (Ok (ri, buf), s1) =>
          if valid ri then
            match read_record_data s1 ri buf (ri_hlen ri) with
            | (Ok buf', s2) =>
                match func st ri buf' (with_raw r s2 buf') with
                | (Ok true, st1, r1) => read_records f valid func st1 r1
                | (Ok false, st1, r1) => (Ok tt, st1, r1)
                | (Throw e, st1, r1) => (Throw e, st1, r1)
                | (UB k, st1, r1) => (UB k, st1, r1)
                end
            | (Throw e, s2) => (Throw e, st, with_raw r s2 buf)
            | (UB k, s2) => (UB k, st, with_raw r s2 buf)
            end
          else read_records f valid func st (with_raw r (s_seek s1 (ri_end ri)) buf)
      | (Throw e, s1) => (Throw e, st, with_s r s1)
      | (UB k, s1) => (UB k, st, with_s r s1)
      end
  end.
Definition reader_fuel (r : reader) : nat := stream_fuel (rd_s r).

(** the data of a record for the block readers, LCReader.cc:93-99, 142-150, 440-447 *)
Definition record_data (ri : record_info) (buf : bytes) (r : reader) : Res bytes * reader :=
  match (do data <- span buf (ri_hlen ri) (ri_dlen ri);
         if is_compressed (ri_options ri) then uncompress uncomp data (ri_ulen ri) (rd_comp r) else Ok data) with
  | Ok data => (Ok data, if is_compressed (ri_options ri) then with_comp r data else r)
  | Throw e => (Throw e, r)
  | UB k => (UB k, r)
  end.

(** the parameter "LCIOFileName", LCReader.cc:103 and 453: LCParametersImpl::setValue replaces *)
Definition with_filename (r : reader) (h : runhdr) : runhdr :=
  mkRun (rh_run h) (rh_det h) (rh_desc h) (rh_subs h)
        (set_strings (rh_par h) (str "LCIOFileName") [nth (rd_idx r) (rd_files r) []]).

(** comparisons of the record name, src/cpp/src/MT/LCReader.cc:90, 139-140 *)
Definition is_run (ri : record_info) : bool := bytes_eqb (ri_name ri) run_record.
Definition is_header (ri : record_info) : bool := bytes_eqb (ri_name ri) header_record.
Definition is_event (ri : record_info) : bool := bytes_eqb (ri_name ri) event_record.

(** the processor of readNextRunHeader, LCReader.cc:92-106 (the access mode is not part of the model) *)
Definition run_func (st : option runhdr) (ri : record_info) (buf : bytes) (r : reader)
  : Res bool * option runhdr * reader :=
  match record_data ri buf r with
  | (Ok data, r1) =>
      match read_run_record data with
      | Ok h => (Ok false, Some (with_filename r1 h), r1)
      | Throw e => (Throw e, st, r1)
      | UB k => (UB k, st, r1)
      end
  | (Throw e, r1) => (Throw e, st, r1)
  | (UB k, r1) => (UB k, st, r1)
  end.

(** setting up an event from its header record, and reading the event record or keeping it for
    later, LCReader.cc:151-176, 359-385, 462-486 *)
Definition header_step (ri : record_info) (buf : bytes) (r : reader)
  : Res event * reader :=
  match record_data ri buf r with
  | (Ok data, r1) => (read_header_record (rd_names r1) data, r1)
  | (Throw e, r1) => (Throw e, r1)
  | (UB k, r1) => (UB k, r1)
  end.
Definition event_step (e : event) (ri : record_info) (buf : bytes) (r : reader) : Res levent * reader :=
  if rd_lazy r then
    let max := Z.max (rd_max r) (Zlen buf) in
    (Ok (mkLE e (fun _ => None) (Some (ri, buf))),
     mkRd (rd_s r) (zeros (Z.to_nat max)) (rd_comp r) (rd_files r) (rd_idx r) (rd_direct r) (rd_lazy r) (rd_mgr r)
          (rd_names r) max (rd_next r))
  else
    match record_data ri buf r with
    | (Ok data, r1) =>
        match read_event_record srt data e (rd_next r1) with
        | Ok (e', h, next) => (Ok (mkLE e' h None), with_next r1 next)
        | Throw x => (Throw x, r1)
        | UB k => (UB k, r1)
        end
    | (Throw x, r1) => (Throw x, r1)
    | (UB k, r1) => (UB k, r1)
    end.

(** postProcessEvent for events that are unpacked, LCReader.cc:203-208 and 407-409 *)
Definition finish (l : levent) : Res levent :=
  match le_rec l with
  | Some _ => Ok l
  | None => do h <- post_process ignore_null (le_heap l) (le_evt l); Ok (mkLE (le_evt l) h None)
  end.

(** the state of the processors of events: the event set up by a header, and the result,
    src/cpp/src/MT/LCReader.cc:136-137 *)
Record evst := mkES { es_evt : option event; es_res : option levent }.

(** the processor of readNextEvent, LCReader.cc:141-179 *)
Definition evt_func (st : evst) (ri : record_info) (buf : bytes) (r : reader) : Res bool * evst * reader :=
  if is_header ri then
    match header_step ri buf r with
    | (Ok e, r1) => (Ok true, mkES (Some e) None, r1)
    | (Throw x, r1) => (Throw x, st, r1)
    | (UB k, r1) => (UB k, st, r1)
    end
  else if is_event ri then
    match es_evt st with
    | None => (* decompression comes first *)
        match (if rd_lazy r then (Ok [], r) else record_data ri buf r) with
        | (Ok _, r1) => (Throw LIOException, st, r1)
        | (Throw x, r1) => (Throw x, st, r1)
        | (UB k, r1) => (UB k, st, r1)
        end
    | Some e =>
        match event_step e ri buf r with
        | (Ok l, r1) => (Ok false, mkES (Some e) (Some l), r1)
        | (Throw x, r1) => (Throw x, st, r1)
        | (UB k, r1) => (UB k, st, r1)
        end
    end
  else (Ok false, st, r).

(** [_currentFileIndex + 1 < _myFilenames.size()] *)
Definition next_file (r : reader) : option bytes := nth_error (rd_files r) (S (rd_idx r)).
Definition advance (r : reader) : reader := with_files (close_reader r) (rd_files r) (S (rd_idx r)).

(** what a reading function does at the end of a file: go on in the next file, if there is one.
    LCReader.cc:110-129 and 183-202.  [files] bounds the number of files. *)
Fixpoint over_files {A} (files : nat) (d : disk) (step : reader -> Res (option A) * reader) (r : reader)
  : Res (option A) * reader :=
  match step r with
  | (Throw EEof, r1) =>
      match next_file r1, files with
      | Some n, S f =>
          match open_file d n (advance r1) with
          | (Ok _, r2) =>
              match over_files f d step r2 with
              | (Throw EEof, r3) => (Ok None, r3)
              | x => x
              end
          | (Throw e, r2) => (Throw e, r2)
          | (UB k, r2) => (UB k, r2)
          end
      | _, _ => (Ok None, r1)
      end
  | x => x
  end.

(** readNextRunHeader, LCReader.cc:86-131 *)
Definition run_step (r : reader) : Res (option runhdr) * reader :=
  match read_records (reader_fuel r) is_run run_func None r with
  | (Ok _, st, r1) => (Ok st, r1)
  | (Throw e, _, r1) => (Throw e, r1)
  | (UB k, _, r1) => (UB k, r1)
  end.
Definition read_next_run (d : disk) (r : reader) : Res (option runhdr) * reader :=
  over_files (length (rd_files r)) d run_step r.

(** readNextEvent, LCReader.cc:135-210 *)
Definition event_step_all (r : reader) : Res (option levent) * reader :=
  match read_records (reader_fuel r) (fun ri => is_header ri || is_event ri) evt_func (mkES None None) r with
  | (Ok _, st, r1) =>
      match es_res st with
      | Some l => ((do l' <- finish l; Ok (Some l')), r1)
      | None => (Ok None, r1)
      end
  | (Throw e, _, r1) => (Throw e, r1)
  | (UB k, _, r1) => (UB k, r1)
  end.
Definition read_next_event (d : disk) (r : reader) : Res (option levent) * reader :=
  over_files (length (rd_files r)) d event_step_all r.

(** getNumberOfEvents and getNumberOfRuns, LCReader.cc:214-232 *)
Definition need_map (r : reader) : Res unit * reader :=
  if rd_direct r then (Ok tt, r) else get_map (with_mgr r (rd_s r) true (rd_mgr r)).
Definition number_of_events (r : reader) : Res Z * reader :=
  let '(x, r1) := need_map r in ((do _ <- x; Ok (rm_nevt (mg_map (rd_mgr r1)))), r1).
Definition number_of_runs (r : reader) : Res Z * reader :=
  let '(x, r1) := need_map r in ((do _ <- x; Ok (rm_nrun (mg_map (rd_mgr r1)))), r1).
(** getRuns, LCReader.cc:236-247, and getEvents, 250-264: walking beyond the end of the map is undefined
    (the assertions are compiled out) *)
Definition runs_of (m : remap) : Res (list Z) :=
  if Zlen (rm_map m) <? rm_nrun m then UB UBOutOfBounds
  else Ok (map (fun e => fst (fst e)) (firstn (Z.to_nat (rm_nrun m)) (rm_map m))).
Definition events_of (m : remap) : Res (list (Z * Z)) :=
  if Zlen (rm_map m) <? rm_nrun m + rm_nevt m then UB UBOutOfBounds
  else Ok (map fst (firstn (Z.to_nat (rm_nevt m)) (skipn (Z.to_nat (rm_nrun m)) (rm_map m)))).

(** skipNEvents, LCReader.cc:274-295 *)
Definition skip_events (n : Z) (r : reader) : Res unit * reader :=
  if n <? 1 then (Ok tt, r) else
  let '(x, _, s1) := skip_records (reader_fuel r + Z.to_nat n)
                       (fun c ri => let c' := if is_header ri then c + 1 else c in (c' <? n, c')) 0 (rd_s r) skip_buf in
  let '(x, s2) := match x with Ok _ => skip_n_records 1 s1 | _ => (x, s1) end in
  match x with
  | Throw EEof => (Ok tt, with_s r s2)
  | _ => (x, with_s r s2)
  end.

(** readRunHeader, LCReader.cc:299-319 *)
Definition read_run (d : disk) (run : Z) (r : reader) : Res (option runhdr) * reader :=
  if rd_direct r then
    let pos := rm_pos (mg_map (rd_mgr r)) (run, -1) in
    if pos =? -1 then (Ok None, r) else
    let s1 := s_seek (rd_s r) pos in
    if negb (s_good s1) then (Throw LIOException, with_s r s1) else read_next_run d (with_s r s1)
  else (Ok None, r).

(** the processor of readEvent without index, LCReader.cc:350-394 *)
Definition find_func (run num : Z) (st : evst) (ri : record_info) (buf : bytes) (r : reader) : Res bool * evst * reader :=
  if is_header ri then
    match header_step ri buf r with
    | (Ok e, r1) => (Ok true, mkES (Some e) None, r1)
    | (Throw x, r1) => (Throw x, st, r1)
    | (UB k, r1) => (UB k, st, r1)
    end
  else if is_event ri then
    match es_evt st with
    | None =>
        match (if rd_lazy r then (Ok [], r) else record_data ri buf r) with
        | (Ok _, r1) => (Throw LIOException, st, r1)
        | (Throw x, r1) => (Throw x, st, r1)
        | (UB k, r1) => (UB k, st, r1)
        end
    | Some e =>
        if (ev_num e =? num) && (ev_run e =? run) then
          match event_step e ri buf r with
          | (Ok l, r1) => (Ok false, mkES (Some e) (Some l), r1)
          | (Throw x, r1) => (Throw x, st, r1)
          | (UB k, r1) => (UB k, st, r1)
          end
        else
          match (if rd_lazy r then (Ok [], r) else record_data ri buf r) with
          | (Ok _, r1) => (Ok true, st, r1)
          | (Throw x, r1) => (Throw x, st, r1)
          | (UB k, r1) => (UB k, st, r1)
          end
    end
  else (Ok false, st, r).
(** readEvent, LCReader.cc:323-412 *)
Definition read_event_at (d : disk) (run num : Z) (r : reader) : Res (option levent) * reader :=
  if rd_direct r then
    let pos := rm_pos (mg_map (rd_mgr r)) (run, num) in
    if pos =? -1 then (Ok None, r) else
    let s1 := s_seek (rd_s r) pos in
    if negb (s_good s1) then (Throw LIOException, with_s r s1) else read_next_event d (with_s r s1)
  else
    match read_records (reader_fuel r) (fun ri => is_header ri || is_event ri) (find_func run num) (mkES None None) r with
    | (Ok _, st, r1) =>
        match es_res st with
        | Some l => ((do l' <- finish l; Ok (Some l')), r1)
        | None => (Ok None, r1)
        end
    | (Throw EEof, _, r1) => (Ok None, r1)
    | (Throw e, _, r1) => (Throw e, r1)
    | (UB k, _, r1) => (UB k, r1)
    end.

(** ** readStream *)

(** what a listener is called with, src/cpp/include/MT/LCReaderListener.h:20-33 *)
Inductive call : Type := CRun (r : runhdr) | CEvt (l : levent).
(** the variables of readStream: event set up, number of records read, calls made so far,
    src/cpp/src/MT/LCReader.cc:432-434 *)
Record rsst := mkRS { rs_evt : option event; rs_count : Z; rs_calls : list (nat * call) }.

(** calling all listeners with an event: the event is post processed again for each of them,
    LCReader.cc:487-495.  (Listeners do not change the event.) *)
Fixpoint call_all (n k : nat) (l : levent) : Res unit * list (nat * call) :=
  match n with
  | O => (Ok tt, [])
  | S n' =>
      match finish l with
      | Ok l' => let '(x, cs) := call_all n' (S k) l' in (x, (k, CEvt l') :: cs)
      | Throw e => (Throw e, [])
      | UB u => (UB u, [])
      end
  end.

(** the processor of readStream, LCReader.cc:439-500, with [n] listeners *)
Definition stream_func (n : nat) (max : Z) (st : rsst) (ri : record_info) (buf : bytes) (r : reader)
  : Res bool * rsst * reader :=
  if is_run ri then
    match record_data ri buf r with
    | (Ok data, r1) =>
        match read_run_record data with
        | Ok h =>
            let c := rs_count st + 1 in
            (Ok (c <? max),
             mkRS (rs_evt st) c (rs_calls st ++ map (fun k => (k, CRun (with_filename r1 h))) (seq 0 n)), r1)
        | Throw e => (Throw e, mkRS (rs_evt st) (rs_count st + 1) (rs_calls st), r1)
        | UB k => (UB k, st, r1)
        end
    | (Throw e, r1) => (Throw e, st, r1)
    | (UB k, r1) => (UB k, st, r1)
    end
  else if is_header ri then
    match header_step ri buf r with
    | (Ok e, r1) => (Ok (rs_count st <? max), mkRS (Some e) (rs_count st) (rs_calls st), r1)
    | (Throw x, r1) => (Throw x, st, r1)
    | (UB k, r1) => (UB k, st, r1)
    end
  else if is_event ri then
    match rs_evt st with
    | None =>
        match (if rd_lazy r then (Ok [], r) else record_data ri buf r) with
        | (Ok _, r1) => (Throw LIOException, st, r1)
        | (Throw x, r1) => (Throw x, st, r1)
        | (UB k, r1) => (UB k, st, r1)
        end
    | Some e =>
        let c := rs_count st + 1 in
        match event_step e ri buf r with
        | (Ok l, r1) =>
            let '(x, cs) := call_all n 0 l in
            match x with
            | Ok _ => (Ok (c <? max), mkRS None c (rs_calls st ++ cs), r1)
            | Throw y => (Throw y, mkRS (Some e) c (rs_calls st ++ cs), r1)
            | UB k => (UB k, mkRS (Some e) c (rs_calls st ++ cs), r1)
            end
        | (Throw x, r1) => (Throw x, mkRS (Some e) c (rs_calls st), r1)
        | (UB k, r1) => (UB k, st, r1)
        end
    end
  else (Ok (rs_count st <? max), st, r).

(** readStream( listeners, max ), LCReader.cc:429-535; max = 2^31-1 stands for all.  The calls are
    returned, also if an exception is thrown. *)
Fixpoint read_stream_files (files : nat) (d : disk) (n : nat) (max : Z) (calls : list (nat * call)) (r : reader)
  : Res unit * list (nat * call) * reader :=
  match read_records (reader_fuel r) (fun ri => is_run ri || is_header ri || is_event ri) (stream_func n max)
          (mkRS None 0 calls) r with
  | (Ok _, st, r1) => (Ok tt, rs_calls st, r1)
  | (Throw EEof, st, r1) =>
      match next_file r1, files with
      | Some nm, S f =>
          match open_file d nm (advance r1) with
          | (Ok _, r2) =>
              read_stream_files f d n (if max =? two31 - 1 then max else max - rs_count st) (rs_calls st) r2
          | (Throw e, r2) => (Throw e, rs_calls st, r2)
          | (UB k, r2) => (UB k, rs_calls st, r2)
          end
      | _, _ => (if max =? two31 - 1 then Ok tt else Throw LEndOfData, rs_calls st, r1)
      end
  | (Throw e, st, r1) => (Throw e, rs_calls st, r1)
  | (UB k, st, r1) => (UB k, rs_calls st, r1)
  end.
Definition read_stream (d : disk) (n : nat) (max : Z) (r : reader) : Res unit * list (nat * call) * reader :=
  read_stream_files (length (rd_files r)) d n max [] r.

End Files.
