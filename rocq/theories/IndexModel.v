(** * The run/event index and the random access records

    Model of src/cpp/include/SIO/RunEventMap.h, src/cpp/src/SIO/RunEventMap.cc,
    SIOIndexHandler.cc, SIORandomAccessHandler.cc and LCIORandomAccessMgr.cc.  Counters of type
    [int] are not wrapped.  Files are smaller than 2^63 bytes, so that [tellp] never fails. *)

From Verif Require Import Bytes StrMap SioModel Ieee ObjModel EventModel.

(** ** RunEvent and RunEventMap *)

(** [RunEvent]: run number and event number, src/cpp/include/SIO/RunEventMap.h:13-25 *)
Definition runevt : Type := (Z * Z)%type.
(** conversion to [long64], RunEventMap.h:21 (left shift of a negative number as on all
    two's-complement machines) *)
Definition re_to64 (r : runevt) : Z := fst r * two32 + snd r mod two32.
(** conversion from [long64], RunEventMap.h:20 *)
Definition re_of64 (z : Z) : runevt := (s32 (z / two32), s32 z).
(** [operator<], src/cpp/src/SIO/RunEventMap.cc:7-19 *)
Definition re_lt (a b : runevt) : bool :=
  if snd a <? 0 then (if snd b <? 0 then fst a <? fst b else true)
  else if snd b <? 0 then false
  else if fst a =? fst b then snd a <? snd b else fst a <? fst b.

(** [RunEventMap]: the [std::map] in its order, and the two counters, RunEventMap.h:95-98 *)
Record remap := mkREM { rm_map : list (runevt * Z); rm_nrun : Z; rm_nevt : Z }.
Definition no_remap : remap := mkREM [] 0 0.

(** [std::map::insert], and the assignment of the position to an entry that exists already
    (whose key is kept), RunEventMap.cc:33 and 46; the flag tells whether an entry is new *)
Fixpoint rm_insert (k : runevt) (pos : Z) (m : list (runevt * Z)) : list (runevt * Z) * bool :=
  match m with
  | [] => ([(k, pos)], true)
  | (k', p') :: m' =>
      if re_lt k k' then ((k, pos) :: m, true)
      else if re_lt k' k then let '(r, b) := rm_insert k pos m' in ((k', p') :: r, b)
      else ((k', pos) :: m', false)
  end.
(** RunEventMap::add, RunEventMap.cc:32-48 *)
Definition rm_add (r : remap) (re : runevt) (pos : Z) : remap :=
  let '(m, isnew) := rm_insert (re_of64 (re_to64 re)) pos (rm_map r) in
  if isnew then
    if -1 <? snd re then mkREM m (rm_nrun r) (rm_nevt r + 1) else mkREM m (rm_nrun r + 1) (rm_nevt r)
  else mkREM m (rm_nrun r) (rm_nevt r).
(** [std::map::find] *)
Fixpoint rm_find (k : runevt) (m : list (runevt * Z)) : option Z :=
  match m with
  | [] => None
  | (k', p') :: m' => if re_lt k k' then None else if re_lt k' k then rm_find k m' else Some p'
  end.
(** RunEventMap::getPosition, RunEventMap.cc:54-57 with RunEventMap.h:59-61; npos = -1 *)
Definition rm_pos (r : remap) (re : runevt) : Z :=
  match rm_find (re_of64 (re_to64 re)) (rm_map r) with Some p => p | None => -1 end.
(** RunEventMap::minRunEvent and maxRunEvent, RunEventMap.cc:61-76 *)
Definition rm_min (r : remap) : runevt := match rm_map r with [] => (-1, -1) | e :: _ => fst e end.
Definition rm_max (r : remap) : runevt := fst (last (rm_map r) ((-1, -1), 0)).

(** ** The index record *)

(** src/cpp/include/SIO/LCSIO.h:31-34 *)
Definition index_record : bytes := str "LCIOIndex".
Definition access_record : bytes := str "LCIORandomAccess".
Definition access_size : Z := 136.

(** signed 32-bit and 64-bit arithmetic: overflow is undefined *)
Definition int_of (z : Z) : Res Z := if (- two31 <=? z) && (z <? two31) then Ok z else UB UBOverflow.
Definition long_of (z : Z) : Res Z := if (- two63 <=? z) && (z <? two63) then Ok z else UB UBOverflow.

(** one entry, SIOIndexHandler.cc:104-117; the offset is narrowed to [int] in the short form *)
Definition write_entry (oneRun longOffset : bool) (runMin base : Z) (e : runevt * Z) : Res (list dcall) :=
  do ro <- (if oneRun then Ok [] else do o <- int_of (fst (fst e) - runMin); Ok (w_i32 o));
  do off <- long_of (snd e - base);
  Ok (ro ++ w_i32 (snd (fst e)) ++ (if longOffset then w_i64 off else w_i32 (s32 off))).
Fixpoint write_entries (oneRun longOffset : bool) (runMin base : Z) (l : list (runevt * Z)) : Res (list dcall) :=
  match l with
  | [] => Ok []
  | e :: l' => do a <- write_entry oneRun longOffset runMin base e;
               do b <- write_entries oneRun longOffset runMin base l';
               Ok (a ++ b)
  end.
(** SIOIndexHandler::write, src/cpp/src/SIO/SIOIndexHandler.cc:82-119 *)
Definition write_index (m : remap) : Res (list dcall) :=
  let minE := rm_min m in
  let maxE := rm_max m in
  let oneRun := fst minE =? fst maxE in
  let posMin := rm_pos m minE in
  let posMax := rm_pos m maxE in
  do diff <- long_of (posMax - posMin);
  let longOffset := two31 - 1 <? diff in
  let control := (if oneRun then 1 else 0) + (if longOffset then 2 else 0) in
  do es <- write_entries oneRun longOffset (fst minE) posMin (rm_map m);
  Ok (w_u32 control ++ w_i32 (fst minE) ++ w_i64 posMin ++ w_i32 (s32 (Zlen (rm_map m))) ++ es).

(** an outcome inside a read handler, src/cpp/src/SIO/SIOIndexHandler.cc:60-77 *)
Definition r_lift {A} (r : Res A) : RD A := fun d => do a <- r; Ok (a, d).
(** the loop SIOIndexHandler.cc:60-77 *)
Fixpoint read_entries (n : nat) (oneRun longOffset : bool) (runMin base : Z) (m : remap) : RD remap :=
  match n with
  | O => rret m
  | S n' =>
      let* run := (if oneRun then rret runMin
                   else let* o := r_i32 in r_lift (int_of (runMin + o))) in
      let* evt := r_i32 in
      let* off := (if longOffset then r_i64 else r_i32) in
      let* pos := r_lift (long_of (off + base)) in
      read_entries n' oneRun longOffset runMin base (rm_add m (run, evt) pos)
  end.
(** SIOIndexHandler::read, SIOIndexHandler.cc:36-78, adding to the map [m] *)
Definition read_index (m : remap) (vers : Z) : RD remap :=
  let* _ := check_version vers in
  let* control := r_i32 in
  if Z.testbit control 2 then rthrow EIoFailure else
  let* runMin := r_i32 in
  let* base := r_i64 in
  let* size := r_i32 in
  read_entries (Z.to_nat size) (Z.testbit control 0) (Z.testbit control 1) runMin base m.

(** ** The random access record *)

(** src/cpp/include/SIO/LCIORandomAccess.h:57-65 *)
Record racc := mkRA {
  ra_min : runevt; ra_max : runevt; ra_nrun : Z; ra_nevt : Z; ra_order : Z;
  ra_index : Z; ra_prev : Z; ra_next : Z; ra_first : Z }.
Definition new_racc : racc := mkRA (0, 0) (0, 0) 0 0 0 0 0 0 0.

(** SIORandomAccessHandler::write, src/cpp/src/SIO/SIORandomAccessHandler.cc:53-68 *)
Definition write_racc (a : racc) : list dcall :=
  w_i32 (fst (ra_min a)) ++ w_i32 (snd (ra_min a)) ++ w_i32 (fst (ra_max a)) ++ w_i32 (snd (ra_max a))
  ++ w_i32 (ra_nrun a) ++ w_i32 (ra_nevt a) ++ w_i32 (ra_order a)
  ++ w_i64 (ra_index a) ++ w_i64 (ra_prev a) ++ w_i64 (ra_next a) ++ w_i64 (ra_first a)
  ++ w_i32 (s32 (Z.lor 2882338816 access_size)).
(** SIORandomAccessHandler::read, SIORandomAccessHandler.cc:33-49 *)
Definition read_racc (vers : Z) : RD racc :=
  let* _ := check_version vers in
  let* r0 := r_i32 in let* e0 := r_i32 in
  let* r1 := r_i32 in let* e1 := r_i32 in
  let* nr := r_i32 in let* ne := r_i32 in let* o := r_i32 in
  let* i := r_i64 in let* p := r_i64 in let* n := r_i64 in let* f := r_i64 in
  let* _ := r_i32 in
  rret (mkRA (r0, e0) (r1, e1) nr ne o i p n f).

(** ** LCIORandomAccessMgr *)

(** the members, src/cpp/include/SIO/LCIORandomAccessMgr.h:131-141.  The contents of the two
    buffers before use is irrelevant on every path that succeeds: the raw buffer is represented by
    its contents, the compression buffer starts as zeros. *)
Record ramgr := mkMgr { mg_map : remap; mg_list : list racc; mg_file : option racc; mg_raw : buffer }.
Definition new_mgr (raw : buffer) : ramgr := mkMgr no_remap [] None raw.

(** LCIORandomAccessMgr::clear, src/cpp/src/SIO/LCIORandomAccessMgr.cc:23-27 *)
Definition mg_clear (g : ramgr) : ramgr := mkMgr no_remap [] None (mg_raw g).
(** LCIORandomAccessMgr::add, LCIORandomAccessMgr.h:67-69 *)
Definition mg_add (g : ramgr) (re : runevt) (pos : Z) : ramgr :=
  mkMgr (rm_add (mg_map g) re pos) (mg_list g) (mg_file g) (mg_raw g).
(** lastLCIORandomAccess, LCIORandomAccessMgr.h:126-128 *)
Definition mg_last (g : ramgr) : option racc := last (map Some (mg_list g)) None.

(** createFromEventMap, LCIORandomAccessMgr.cc:31-43 *)
Definition from_map (m : remap) : racc :=
  mkRA (rm_min m) (rm_max m) (rm_nrun m) (rm_nevt m) 1 0 0 0 0.
(** the new file record, LCIORandomAccessMgr.cc:48-59 ([_maxRunEvt = 0] goes through
    [RunEvent(long64)]) *)
Definition new_file_record : racc :=
  mkRA (two31 - 1, two31 - 1) (re_of64 0) 0 0 1 0 (two63 - 1) 0 0.
(** one turn of the loop, LCIORandomAccessMgr.cc:61-75: [<] is the operator above, [>] compares
    the two operands converted to [long64] *)
Definition merge_racc (f ra : racc) : racc :=
  mkRA (if re_lt (ra_min ra) (ra_min f) then ra_min ra else ra_min f)
       (if re_to64 (ra_max f) <? re_to64 (ra_max ra) then ra_max ra else ra_max f)
       (ra_nrun f + ra_nrun ra) (ra_nevt f + ra_nevt ra) (ra_order f * ra_order ra) 0
       (if (0 <? ra_prev ra) && (ra_prev ra <? ra_prev f) then ra_prev ra else ra_prev f)
       (if ra_next f <? ra_next ra then ra_next ra else ra_next f)
       (ra_first f).
(** createFileRecord, LCIORandomAccessMgr.cc:47-76 *)
Definition file_record (g : ramgr) : racc :=
  fold_left merge_racc (mg_list g) (match mg_file g with Some f => f | None => new_file_record end).

(** ** Output streams

    A [std::ofstream] on a regular file: contents and put position.  Writing never fails.
    sio/include/sio/definitions.h:105. *)
Record ofs := mkO { o_data : bytes; o_pos : Z }.
Definition o_write (o : ofs) (bs : bytes) : ofs := mkO (put (o_data o) (o_pos o) bs) (o_pos o + Zlen bs).

(** writing a block list as an uncompressed record into a buffer and then to the stream,
    LCIORandomAccessMgr.cc:304-305; returns the position of the record *)
Definition put_record (o : ofs) (raw : buffer) (name : bytes) (blks : list wblock) : Res (ofs * buffer * Z) :=
  do '(ri, raw') <- write_record name raw blks 0;
  Ok (o_write o (stream_record (b_bytes raw')), raw', o_pos o).

(** LCIORandomAccessMgr::writeRandomAccessRecords, LCIORandomAccessMgr.cc:289-343, on an open stream *)
Definition write_access (g : ramgr) (o : ofs) : Res (ramgr * ofs) :=
  match rm_map (mg_map g) with
  | [] => Ok (g, o)
  | _ =>
      do ix <- rethrow EIoFailure (write_index (mg_map g));
      do '(o1, raw1, start) <- put_record o (mg_raw g) index_record [mkWB index_record cur_vers ix];
      let thisPos := o_pos o1 in
      let a := from_map (mg_map g) in
      let prev := match mg_last g with Some l => ra_first l | None => 0 end in
      let a := mkRA (ra_min a) (ra_max a) (ra_nrun a) (ra_nevt a) (ra_order a) start prev 0 thisPos in
      let g1 := mkMgr (mg_map g) (mg_list g ++ [a]) (mg_file g) raw1 in
      do '(o2, raw2, _) <- put_record o1 raw1 access_record [mkWB access_record cur_vers (write_racc a)];
      let f := file_record g1 in
      let f := mkRA (ra_min f) (ra_max f) (ra_nrun f) (ra_nevt f) (ra_order f) (ra_index f)
                    (if thisPos <? ra_prev f then thisPos else ra_prev f)
                    (if ra_next f <? thisPos then thisPos else ra_next f) (ra_first f) in
      do '(o3, raw3, _) <- put_record o2 raw2 access_record [mkWB access_record cur_vers (write_racc f)];
      Ok (mkMgr (mg_map g) (mg_list g1) (Some f) raw3, o3)
  end.

(** ** Reading them

    Functions on the stream and the manager, which both keep their state if an exception is
    thrown.  src/cpp/src/SIO/LCIORandomAccessMgr.cc:95-330. *)
Definition RM (A : Type) : Type := ifs -> ramgr -> Res A * ifs * ramgr.

(** [stream.clear()], as used in src/cpp/src/SIO/LCIORandomAccessMgr.cc:102, 145 and 274 *)
Definition s_clear (s : ifs) : ifs := mkIfs (s_data s) (s_pos s) (s_open s) false false.
(** [seekg( 0, end )] and [tellg]: -1 on a failed stream *)
Definition s_tell_end (s : ifs) : Z := if s_fail s then -1 else Zlen (s_data s).

(** LCIORandomAccessMgr::seekStream, LCIORandomAccessMgr.cc:347-369 *)
Definition seek_stream (s : ifs) (pos : Z) : Res unit * ifs :=
  if negb (s_open s) then (Throw LIOException, s) else
  if pos <? 0 then
    let s1 := s_seek s (Zlen (s_data s)) in
    let endg := s_tell_end s1 in
    if endg <? - pos then (Throw LIOException, s1) else
    let s2 := s_seek s1 (endg + pos) in
    if s_good s2 then (Ok tt, s2) else (Throw LIOException, s2)
  else
    let s1 := s_seek s pos in
    if s_good s1 then (Ok tt, s1) else (Throw LIOException, s1).

(** the buffer kept by the manager, src/cpp/include/SIO/LCIORandomAccessMgr.h:129-131 *)
Definition mg_setraw (g : ramgr) (raw : bytes) : ramgr := mkMgr (mg_map g) (mg_list g) (mg_file g) (mkBuffer raw true).

(** reading a record at the current position and treating failure, LCIORandomAccessMgr.cc:95-105
    and 137-148: [None] if there is no record *)
Definition try_record (s : ifs) (g : ramgr) : Res (option (record_info * bytes)) * ifs * ramgr :=
  match read_record s (b_bytes (mg_raw g)) with
  | (Ok (ri, buf), s1) => (Ok (Some (ri, buf)), s1, mg_setraw g buf)
  | (Throw e, s1) =>
      if is_sio e then
        let '(r, s2) := seek_stream (s_clear s1) 0 in
        match r with
        | Ok _ => (Ok None, s2, g)
        | Throw e' => (Throw e', s2, g)
        | UB k => (UB k, s2, g)
        end
      else (Throw e, s1, g)
  | (UB k, s1) => (UB k, s1, g)
  end.

(** LCIORandomAccessMgr::readLCIORandomAccess, LCIORandomAccessMgr.cc:93-121 *)
Definition read_access : RM bool := fun s g =>
  match try_record s g with
  | (Ok (Some (ri, buf)), s1, g1) =>
      if negb (bytes_eqb (ri_name ri) access_record) then (Ok false, s1, g1) else
      match (do data <- span buf (ri_hlen ri) (ri_dlen ri);
             read_blocks data [mkRB access_record read_racc] 1) with
      | Ok (out, _, _) =>
          (Ok true, s1, mkMgr (mg_map g1) (mg_list g1 ++ [last (map snd out) new_racc]) (mg_file g1) (mg_raw g1))
      | Throw e => (Throw e, s1, g1)
      | UB k => (UB k, s1, g1)
      end
  | (Ok None, s1, g1) => (Ok false, s1, g1)
  | (Throw e, s1, g1) => (Throw e, s1, g1)
  | (UB k, s1, g1) => (UB k, s1, g1)
  end.

(** readLCIORandomAccessAt and readLCIOIndexAt, LCIORandomAccessMgr.cc:86-89 and 127-130 *)
Definition at_position {A} (pos : Z) (m : RM A) : RM A := fun s g =>
  match seek_stream s pos with
  | (Ok _, s1) => m s1 g
  | (Throw e, s1) => (Throw e, s1, g)
  | (UB k, s1) => (UB k, s1, g)
  end.

Section Codec.
(** [::uncompress] of zlib: the decompressed data if the input is valid *)
Context (uncomp : bytes -> option bytes).

(** zlib_compression::uncompress, sio/src/compression/zlib.cc:35-48, into a buffer resized to
    [ulen] with contents [old]: data that does not fit is an error, the bytes behind shorter data
    stay as they are *)
Definition uncompress (data : bytes) (ulen : Z) (old : bytes) : Res bytes :=
  match uncomp data with
  | None => Throw ECompressError
  | Some d => if ulen <? Zlen d then Throw ECompressError else Ok (put (resize old ulen) 0 d)
  end.
(** the data of a record in [buf], decompressed if necessary (into a buffer with contents [old]) *)
Definition unpacked (ri : record_info) (buf old : bytes) : Res bytes :=
  do data <- span buf (ri_hlen ri) (ri_dlen ri);
  if is_compressed (ri_options ri) then uncompress data (ri_ulen ri) old else Ok data.

(** the index handler of a block list works on the map directly: entries read before an exception
    stay in the map, which is not modelled; several index blocks in one record, never written, are
    read one after the other from the same initial map, of which the last counts.
    LCIORandomAccessMgr::readLCIOIndex, LCIORandomAccessMgr.cc:134-171 *)
Definition read_index_record : RM bool := fun s g =>
  match try_record s g with
  | (Ok (Some (ri, buf)), s1, g1) =>
      if negb (bytes_eqb (ri_name ri) index_record) then (Ok false, s1, g1) else
      match (do data <- unpacked ri buf [];
             read_blocks data [mkRB index_record (read_index (mg_map g1))] 1) with
      | Ok (out, _, _) =>
          (Ok true, s1, mkMgr (last (map snd out) (mg_map g1)) (mg_list g1) (mg_file g1) (mg_raw g1))
      | Throw e => (Throw e, s1, g1)
      | UB k => (UB k, s1, g1)
      end
  | (Ok None, s1, g1) => (Ok false, s1, g1)
  | (Throw e, s1, g1) => (Throw e, s1, g1)
  | (UB k, s1, g1) => (UB k, s1, g1)
  end.

(** ** Skipping records *)

(** api::skip_records, sio/include/sio/api.h:431-446, with the header buffer [buf]; the predicate
    has a state.  [fuel] bounds the number of records: see DESIGN. *)
Fixpoint skip_records {St} (fuel : nat) (pred : St -> record_info -> bool * St) (st : St) (s : ifs) (buf : bytes)
  : Res unit * St * ifs :=
  match fuel with
  | O => (UB UBDiverge, st, s)
  | S f =>
      match read_record_info s buf with
      | (Ok (ri, buf1), s1) =>
          let s2 := s_seek s1 (ri_end ri) in
          if negb (s_good s2) then (Throw EBadState, st, s2) else
          let '(go, st1) := pred st ri in
          if go then skip_records f pred st1 s2 buf1 else (Ok tt, st1, s2)
      | (Throw e, s1) => (Throw e, st, s1)
      | (UB k, s1) => (UB k, st, s1)
      end
  end.
(** enough for every file in which each record has a positive length *)
Definition stream_fuel (s : ifs) : nat := S (length (s_data s)).
(** the buffer of skip_records, api.h:433 *)
Definition skip_buf : bytes := zeros (Z.to_nat max_record_info_len).
(** api::skip_n_records, sio/src/api.cc:185-191 *)
Definition skip_n_records (n : Z) (s : ifs) : Res unit * ifs :=
  let '(r, _, s1) := skip_records (stream_fuel s + Z.to_nat n) (fun c _ => (c + 1 <? n, c + 1)) 0 s skip_buf in (r, s1).

(** ** Rebuilding the index *)

(** one turn of the loop of recreateEventMap, LCIORandomAccessMgr.cc:236-269 *)
Definition recreate_step : RM unit := fun s g =>
  match skip_records (stream_fuel s)
          (fun (_ : unit) ri => (negb (bytes_eqb (ri_name ri) header_record || bytes_eqb (ri_name ri) run_record), tt))
          tt s skip_buf with
  | (Ok _, _, s1) =>
      match read_record s1 (b_bytes (mg_raw g)) with
      | (Ok (ri, buf), s2) =>
          let g1 := mg_setraw g buf in
          let r :=
            do raw <- span buf (ri_hlen ri) (ri_dlen ri);
            do data <- unpacked ri buf [];
            if bytes_eqb (ri_name ri) header_record then
              do e <- read_header_record [str "__dummy__"] data;
              Ok (mg_add g1 (ev_run e, ev_num e) (ri_start ri))
            else if bytes_eqb (ri_name ri) run_record then
              do h <- read_run_record raw;
              Ok (mg_add g1 (rh_run h, -1) (ri_start ri))
            else Ok g1 in
          match r with
          | Ok g2 => (Ok tt, s2, g2)
          | Throw e => (Throw e, s2, g1)
          | UB k => (UB k, s2, g1)
          end
      | (Throw e, s2) => (Throw e, s2, g)
      | (UB k, s2) => (UB k, s2, g)
      end
  | (Throw e, _, s1) => (Throw e, s1, g)
  | (UB k, _, s1) => (UB k, s1, g)
  end.
(** the loop LCIORandomAccessMgr.cc:236-279 *)
Fixpoint recreate_loop (fuel : nat) : RM unit := fun s g =>
  match fuel with
  | O => (UB UBDiverge, s, g)
  | S f =>
      match recreate_step s g with
      | (Ok _, s1, g1) => recreate_loop f s1 g1
      | (Throw EEof, s1, g1) => (Ok tt, s_clear s1, g1)
      | (Throw e, s1, g1) => (Throw e, s1, g1)
      | (UB k, s1, g1) => (UB k, s1, g1)
      end
  end.
(** LCIORandomAccessMgr::recreateEventMap, LCIORandomAccessMgr.cc:226-283 *)
Definition recreate_map : RM bool := fun s g =>
  match seek_stream s 0 with
  | (Ok _, s1) =>
      match recreate_loop (stream_fuel s) s1 g with
      | (Ok _, s2, g2) =>
          let '(r, s3) := seek_stream s2 0 in
          match r with Ok _ => (Ok true, s3, g2) | Throw e => (Throw e, s3, g2) | UB k => (UB k, s3, g2) end
      | (Throw e, s2, g2) => (Throw e, s2, g2)
      | (UB k, s2, g2) => (UB k, s2, g2)
      end
  | (Throw e, s1) => (Throw e, s1, g)
  | (UB k, s1) => (UB k, s1, g)
  end.

(** the file record is taken off the list, LCIORandomAccessMgr.cc:182-183 and 197-198 *)
Definition take_file (g : ramgr) : ramgr :=
  mkMgr (mg_map g) (removelast (mg_list g)) (mg_last g) (mg_raw g).

(** LCIORandomAccessMgr::initAppend, LCIORandomAccessMgr.cc:175-187 *)
Definition init_append : RM bool := fun s g =>
  match at_position (- access_size) read_access s g with
  | (Ok false, s1, g1) =>
      match recreate_map s1 g1 with
      | (Ok _, s2, g2) => (Ok false, s2, g2)
      | r => r
      end
  | (Ok true, s1, g1) =>
      let g2 := take_file g1 in
      match mg_file g2 with
      | None => (UB UBNullDeref, s1, g2)
      | Some f =>
          match at_position (ra_next f) read_access s1 g2 with
          | (Ok _, s3, g3) => (Ok true, s3, g3)
          | r => r
          end
      end
  | r => r
  end.

(** the loop of createEventMap, LCIORandomAccessMgr.cc:209-219.  A chain with more links than bytes
    in the file contains a cycle and never ends. *)
Fixpoint chain_loop (fuel : nat) (raPos : Z) : RM unit := fun s g =>
  if raPos =? 0 then (Ok tt, s, g) else
  match fuel with
  | O => (UB UBDiverge, s, g)
  | S f =>
      match at_position raPos read_access s g with
      | (Ok true, s1, g1) =>
          match mg_last g1 with
          | None => (UB UBNullDeref, s1, g1)
          | Some a =>
              match at_position (ra_index a) read_index_record s1 g1 with
              | (Ok _, s2, g2) => chain_loop f (ra_prev a) s2 g2
              | (Throw e, s2, g2) => (Throw e, s2, g2)
              | (UB k, s2, g2) => (UB k, s2, g2)
              end
          end
      | (Ok false, s1, g1) => (Throw LIOException, s1, g1)
      | (Throw e, s1, g1) => (Throw e, s1, g1)
      | (UB k, s1, g1) => (UB k, s1, g1)
      end
  end.

(** LCIORandomAccessMgr::createEventMap, LCIORandomAccessMgr.cc:191-222 *)
Definition create_map : RM bool := fun s g =>
  match at_position (- access_size) read_access s g with
  | (Ok false, s1, g1) => recreate_map s1 g1
  | (Ok true, s1, g1) =>
      let g2 := take_file g1 in
      match mg_file g2 with
      | None => (UB UBNullDeref, s1, g2)
      | Some f =>
          match at_position (ra_next f) read_access s1 g2 with
          | (Ok _, s3, g3) =>
              match mg_last g3 with
              | None => (UB UBNullDeref, s3, g3)
              | Some a =>
                  match at_position (ra_index a) read_index_record s3 g3 with
                  | (Ok _, s4, g4) =>
                      match chain_loop (stream_fuel s) (ra_prev a) s4 g4 with
                      | (Ok _, s5, g5) =>
                          let '(r, s6) := seek_stream s5 0 in
                          match r with
                          | Ok _ => (Ok true, s6, g5) | Throw e => (Throw e, s6, g5) | UB k => (UB k, s6, g5)
                          end
                      | (Throw e, s5, g5) => (Throw e, s5, g5)
                      | (UB k, s5, g5) => (UB k, s5, g5)
                      end
                  | r => r
                  end
              end
          | r => r
          end
      end
  | r => r
  end.

End Codec.
