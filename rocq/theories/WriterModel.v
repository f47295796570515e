(** * A writer object: any sequence of calls

    Model of the members of SIO::SIOWriter, src/cpp/src/SIO/SIOWriter.cc, called in any order and going
    on after exceptions, and of the Fortran functions for writers and readers,
    src/cpp/src/CPPFORT/lcwrt.cc and lcrdr.cc.  FileModel describes what a writer that is used as
    intended puts into a file; here the state of the stream is modelled as well.  Streams on a
    regular file never fail to write. *)

From Verif Require Import Bytes StrMap SioModel Ieee ObjModel EventModel IndexModel FileModel FileSpec.

(** the calls: open( name ), open( name, mode ), setCompressionLevel, writeRunHeader, writeEvent, flush,
    close.  src/cpp/include/SIO/SIOWriter.h:48-98 *)
Inductive wrcall : Type :=
| CCreate (name : bytes) | COpen (name : bytes) (mode : Z) | CLevel (level : Z)
| CRunHeader (r : runhdr) | CEvent (h : heap) (e : event) | CFlush | CClose.

(** the disk, and the members of SIOWriter.h:101-115: the file of the stream and its contents if it is
    open, the stream is good, the index, the buffer, the level.  The files written to are flushed
    after each record, sio/src/api.cc:532 *)
Record wobj := mkWO { wo_disk : disk; wo_stream : option (bytes * ofs); wo_good : bool; wo_mgr : ramgr; wo_raw : buffer; wo_level : Z }.
(** the constructor, SIOWriter.h:33: nothing is open, no compression (sio/include/sio/compression/zlib.h:54) *)
Definition new_wobj (d : disk) (raw mraw : buffer) : wobj := mkWO d None true (new_mgr mraw) raw 0.

(** assignments to the members, SIOWriter.h:101-115 *)
Definition set_stream (w : wobj) (s : option (bytes * ofs)) (good : bool) : wobj :=
  mkWO (wo_disk w) s good (wo_mgr w) (wo_raw w) (wo_level w).
Definition set_mgr (w : wobj) (g : ramgr) : wobj := mkWO (wo_disk w) (wo_stream w) (wo_good w) g (wo_raw w) (wo_level w).
Definition set_raw (w : wobj) (b : buffer) : wobj := mkWO (wo_disk w) (wo_stream w) (wo_good w) (wo_mgr w) b (wo_level w).
(** the stream [o] on the file [n], whose contents are on the disk *)
Definition put_stream (w : wobj) (n : bytes) (o : ofs) : wobj :=
  mkWO (save (wo_disk w) n (o_data o)) (Some (n, o)) true (wo_mgr w) (wo_raw w) (wo_level w).
(** a buffer that was moved from, sio/include/sio/buffer.h: it is not valid any more *)
Definition lost_buffer : buffer := mkBuffer [] false.

(** std::ofstream::open of a stream that is not open truncates or keeps the file, and clears the state;
    that of a stream that is open already fails and sets failbit.  SIOWriter.cc:57, 73 and 85 *)
Definition stream_open (w : wobj) (n : bytes) (o : ofs) : wobj :=
  match wo_stream w with
  | None => put_stream w n o
  | Some s => set_stream w (Some s) false
  end.
(** the test behind the switch, SIOWriter.cc:90-92 *)
Definition check_open (w : wobj) : Res unit * wobj :=
  match wo_stream w with
  | Some _ => if wo_good w then (Ok tt, w) else (Throw ENotOpen, w)
  | None => (Throw ENotOpen, w)
  end.

Section Writer.
Context (comp : Z -> bytes -> bytes) (uncomp : bytes -> option bytes).

(** open( name, mode ), SIOWriter.cc:51-93.  [tellp] of a stream that failed is -1, which is less than the
    size of the random access record (lines 76-80). *)
Definition wo_open (w : wobj) (name : bytes) (mode : Z) : Res unit * wobj :=
  let n := sio_filename name in
  if mode =? 0 then check_open (stream_open w n (mkO [] 0))
  else if mode =? 1 then
    match wo_disk w n with
    | None => (Throw LIOException, w)
    | Some data =>
        let '(r, _, g) := init_append uncomp (open_ifs data) (wo_mgr w) in
        let w1 := set_mgr w g in
        match r with
        | Ok true =>
            let w2 := stream_open w1 n (mkO data (Zlen data - access_size)) in
            if negb (wo_good w2) || (Zlen data <? access_size) then (Throw LIOException, w2) else check_open w2
        | Ok false => check_open (stream_open w1 n (mkO [] 0))
        | Throw e => (Throw e, w1)
        | UB k => (UB k, w1)
        end
    end
  else check_open w.
(** open( name ), SIOWriter.cc:20-33 *)
Definition wo_create (w : wobj) (name : bytes) : Res unit * wobj :=
  match wo_disk w (sio_filename name) with
  | Some _ => (Throw LIOException, w)
  | None => wo_open w name 0
  end.

(** a record that was written into the buffer goes to the stream, SIOWriter.cc:112-118, 134-140 and
    148-154, sio/src/api.cc:508-537 and 541-577: the position of the record *)
Definition wo_put (w : wobj) (ri : record_info) (buf : buffer) : Res Z * wobj :=
  let w1 := set_raw w buf in
  match encode comp (wo_level w) ri buf with
  | Ok x =>
      match wo_stream w1 with
      | None => (Throw ENotOpen, w1)
      | Some (n, o) => if wo_good w1 then (Ok (o_pos o), put_stream w1 n (o_write o x)) else (Throw EBadState, w1)
      end
  | Throw e => (Throw e, w1)
  | UB k => (UB k, w1)
  end.
(** writeRunHeader, SIOWriter.cc:105-122 *)
Definition wo_run (w : wobj) (r : runhdr) : Res unit * wobj :=
  match wo_stream w with
  | None => (Throw LIOException, w)
  | Some _ =>
      match write_run_record (wo_raw w) r with
      | Ok (ri, b) =>
          match wo_put w ri b with
          | (Ok p, w1) => (Ok tt, set_mgr w1 (mg_add (wo_mgr w1) (rh_run r, -1) p))
          | (Throw e, w1) => (Throw e, w1)
          | (UB k, w1) => (UB k, w1)
          end
      | Throw e => (Throw e, set_raw w lost_buffer)
      | UB k => (UB k, w)
      end
  end.
(** writeEvent, SIOWriter.cc:126-155: the header is in the file before the event is looked at *)
Definition wo_event (w : wobj) (h : heap) (e : event) : Res unit * wobj :=
  match wo_stream w with
  | None => (Throw LIOException, w)
  | Some _ =>
      match write_header_record (wo_raw w) [] e with
      | Ok (ri, b) =>
          match wo_put w ri b with
          | (Ok p, w1) =>
              let w2 := set_mgr w1 (mg_add (wo_mgr w1) (ev_run e, ev_num e) p) in
              match write_event_record (wo_raw w2) [] h e with
              | Ok (_, ri', b') =>
                  match wo_put w2 ri' b' with
                  | (Ok _, w3) => (Ok tt, w3)
                  | (Throw x, w3) => (Throw x, w3)
                  | (UB k, w3) => (UB k, w3)
                  end
              | Throw x => (Throw x, set_raw w2 lost_buffer)
              | UB k => (UB k, w2)
              end
          | (Throw x, w1) => (Throw x, w1)
          | (UB k, w1) => (UB k, w1)
          end
      | Throw x => (Throw x, set_raw w lost_buffer)
      | UB k => (UB k, w)
      end
  end.
(** close, SIOWriter.cc:159-163 with LCIORandomAccessMgr.cc:289-343: nothing is written without entries,
    and if the random access records cannot be written the stream stays open and the entries stay.
    (The contents of the buffer of the index, which are always overwritten, are left alone then.) *)
Definition wo_close (w : wobj) : Res unit * wobj :=
  let done := fun w => set_stream (set_mgr w (mg_clear (wo_mgr w))) None (wo_good w) in
  match rm_map (mg_map (wo_mgr w)) with
  | [] => (Ok tt, done w)
  | _ =>
      match wo_stream w with
      | None => (Throw LIOException, w)
      | Some (n, o) =>
          if wo_good w then
            match write_access (wo_mgr w) o with
            | Ok (g, o') => (Ok tt, done (put_stream (set_mgr w g) n o'))
            | Throw e => (Throw e, w)
            | UB k => (UB k, w)
            end
          else
            match (do ix <- rethrow EIoFailure (write_index (mg_map (wo_mgr w)));
                   put_record o (mg_raw (wo_mgr w)) index_record [mkWB index_record cur_vers ix]) with
            | Ok _ => (Throw EBadState, w)
            | Throw e => (Throw e, w)
            | UB k => (UB k, w)
            end
      end
  end.

(** one call; setCompressionLevel is SIOWriter.cc:99-101, flush 167-169 *)
Definition wo_do (w : wobj) (c : wrcall) : Res unit * wobj :=
  match c with
  | CCreate name => wo_create w name
  | COpen name mode => wo_open w name mode
  | CLevel z => (Ok tt, mkWO (wo_disk w) (wo_stream w) (wo_good w) (wo_mgr w) (wo_raw w) z)
  | CRunHeader r => wo_run w r
  | CEvent h e => wo_event w h e
  | CFlush => (Ok tt, w)
  | CClose => wo_close w
  end.
(** a program goes on after an exception; src/cpp/src/CPPFORT/lcwrt.cc:26-69 *)
Fixpoint wo_all (w : wobj) (l : list wrcall) : list (Res unit) * wobj :=
  match l with
  | [] => ([], w)
  | c :: l' =>
      let '(r, w1) := wo_do w c in
      match r with
      | UB _ => ([r], w1)
      | _ => let '(rs, w2) := wo_all w1 l' in (r :: rs, w2)
      end
  end.

(** ** Fortran *)

(** LCIO::ERROR and LCIO::SUCCESS, cmake/LCIO.h.in:99-100; the functions lcwrtopen, lcwrtwriterunheader,
    lcwrtwriteevent and lcwrtclose catch everything, lcwrt.cc:26-69 *)
Definition status (r : Res unit) : Res Z := match r with Ok _ => Ok 1 | Throw _ => Ok 0 | UB k => UB k end.
(** the calls there are in Fortran, lcwrt.cc:26-69 *)
Definition fortran_call (c : wrcall) : bool :=
  match c with COpen _ _ | CRunHeader _ | CEvent _ _ | CClose => true | _ => false end.
Definition lcwrt (w : wobj) (l : list wrcall) : list (Res Z) * disk :=
  let '(rs, w') := wo_all w l in (map status rs, wo_disk w').

End Writer.

(** lcrdrreadnextrunheader, lcrdrreadnextevent, lcrdrreadevent and lcrdrskipnevents, lcrdr.cc:49-68: a null
    pointer, what the pointer leads to, or an exception that no one catches: the program ends *)
Inductive freply : Type := FNull | FEvent (l : levent) | FRun (h : runhdr) | FStatus (z : Z) | FTerminate | FUB (k : ub).
Definition pointer (x : result) : freply :=
  match x with
  | REvt (Some l) => FEvent l | RRun (Some h) => FRun h | REvt None | RRun None => FNull
  | RDone => FStatus 1 | RThrow _ => FTerminate | RUB k => FUB k
  end.
Fixpoint pointers (l : list result) : list freply :=
  match l with
  | [] => []
  | x :: l' => pointer x :: match x with RThrow _ | RUB _ => [] | _ => pointers l' end
  end.
(** lcrdropen, lcrdr.cc:25-31, and the calls that follow: without a file the reads throw,
    src/cpp/src/MT/LCReader.cc:43-58 *)
Definition lcrdr (uncomp : bytes -> option bytes) (srt : forall A : Type, (A -> Z) -> list A -> list A) (ignore_null : bool)
    (d : disk) (n : bytes) (l : list step) (r : reader) : list freply :=
  match open_file uncomp d n r with
  | (Ok _, r') => FStatus 1 :: pointers (run_steps uncomp srt ignore_null d l r')
  | (Throw _, r') => FStatus 0 :: pointers (run_steps uncomp srt ignore_null d l r')
  | (UB k, _) => [FUB k]
  end.
