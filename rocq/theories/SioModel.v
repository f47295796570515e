(** * Model of the sio library: buffers, devices, relocation, blocks, records, streams

    Every definition cites the code it models (paths relative to /repo).  Byte positions are
    [Z]; a list is only indexed after the same bounds check as in the code. *)

From Verif Require Import Bytes.

(** ** Lists of bytes as memory *)

(** [count] bytes starting at [pos]. As copied by sio/src/memcpy.cc:6-22. *)
Definition sub (l : bytes) (pos count : Z) : bytes :=
  firstn (Z.to_nat count) (skipn (Z.to_nat pos) l).

(** Memory [l] after copying [data] to index [pos] (the caller checks the bounds). As sio/src/memcpy.cc:6-22. *)
Definition put (l : bytes) (pos : Z) (data : bytes) : bytes :=
  firstn (Z.to_nat pos) l ++ data ++ skipn (Z.to_nat pos + length data) l.

(** [std::vector<char>::resize( n )]: truncate or extend with null bytes
    (sio/src/buffer.cc:330-332). *)
Definition resize (l : bytes) (n : Z) : bytes :=
  firstn (Z.to_nat n) l ++ zeros (Z.to_nat n - length l).

(** ** Constants, sio/include/sio/definitions.h *)

Definition record_marker : Z := 2880293630.      (* 0xabadcafe *)
Definition block_marker : Z := 3735928559.       (* 0xdeadbeef *)
Definition max_record_name_len : Z := 64.
Definition max_record_info_len : Z := 116.
Definition compression_bit : Z := 1.

(** [padlen = (bytelen + sio::padding) & sio::padding_mask]; the mask is the 32-bit constant
    0xfffffffc, [bytelen] is a 64-bit [std::size_t]
    (sio/include/sio/api.h:369-370 and 389-390). *)
Definition padlen (bytelen : Z) : Z := Z.land (u64 (bytelen + 3)) 4294967292.

(** The padding of a written element: the bytes and [padlen - bytelen] null bytes
    (sio/include/sio/api.h:397-400). *)
Definition padz (bs : bytes) : bytes := bs ++ zeros (Z.to_nat (padlen (Zlen bs) - Zlen bs)).

(** ** sio::buffer, sio/src/buffer.cc *)

(** sio/include/sio/buffer.h:204-470 *)
Record buffer := mkBuffer { b_bytes : bytes; b_valid : bool }.

(** sio/include/sio/buffer.h:384 *)
Definition b_size (b : buffer) : Z := Zlen (b_bytes b).

(** sio/src/buffer.cc:159-164 *)
Definition new_buffer (len : Z) : Res buffer :=
  if len =? 0 then Throw EInvalidArgument else Ok (mkBuffer (zeros (Z.to_nat len)) true).

(** sio/src/buffer.cc:336-340 *)
Definition b_expand (b : buffer) (nbytes : Z) : buffer :=
  mkBuffer (resize (b_bytes b) (b_size b + nbytes)) (b_valid b).

(** sio/src/buffer.cc:390-397 (and 130-137 for the sub-span of a span) *)
Definition span (l : bytes) (start count : Z) : Res bytes :=
  if Zlen l <? start + count then Throw EOutOfRange else Ok (sub l start count).

(** [api::write], sio/include/sio/api.h:384-402.  [data] are the bytes of the elements in the
    order in which [sio::memcpy::write] stores them.  Returns the buffer and [padlen]. *)
Definition api_write (b : buffer) (pos : Z) (data : bytes) : Res (buffer * Z) :=
  if negb (b_valid b) then Throw EBadState else
  let pl := padlen (Zlen data) in
  let b1 := if pos + pl >=? b_size b then b_expand b (Z.max (b_size b) pl) else b in
  if b_size b1 <=? pos then UB UBOutOfBounds            (* &(_bytes[pos]) *)
  else if b_size b1 <? pos + Zlen data then UB UBOutOfBounds
  else Ok (mkBuffer (put (b_bytes b1) pos (padz data)) true, pl).

(** [api::read], sio/include/sio/api.h:364-380, on a valid span.  Returns the element bytes
    and [padlen]. *)
Definition api_read (l : bytes) (pos bytelen : Z) : Res (bytes * Z) :=
  let pl := padlen bytelen in
  if Zlen l <? pos + pl then Throw EInvalidArgument
  else if Zlen l <? pos + bytelen then UB UBOutOfBounds   (* only if padlen was truncated *)
  else Ok (sub l pos bytelen, pl).

(** ** sio::write_device *)

(** Object addresses; 0 is the null pointer. *)
Notation addr := Z (only parsing).

(** Members of the write device, sio/include/sio/io_device.h:266-275.  The [pointed_at] map
    and the [pointer_to] multimap are kept as lists sorted by key. *)
Record wdev := mkW {
  w_buf : buffer;
  w_cur : Z;
  w_at : list (addr * Z);
  w_to : list (addr * Z) }.

(** [std::map::insert]: keeps an existing entry. Used at sio/src/io_device.cc:69 and 152. *)
Fixpoint map_insert {V} (k : Z) (v : V) (m : list (Z * V)) : list (Z * V) :=
  match m with
  | [] => [(k, v)]
  | (k', v') :: m' =>
      if k <? k' then (k, v) :: m
      else if k =? k' then m
      else (k', v') :: map_insert k v m'
  end.

(** [std::multimap::insert]: after all entries with an equal key. Used at sio/src/io_device.cc:52 and 138. *)
Fixpoint mmap_insert {V} (k : Z) (v : V) (m : list (Z * V)) : list (Z * V) :=
  match m with
  | [] => [(k, v)]
  | (k', v') :: m' => if k <? k' then (k, v) :: m else (k', v') :: mmap_insert k v m'
  end.

(** [std::map::find], as used at sio/src/api.cc:30 *)
Fixpoint assoc {V} (k : Z) (m : list (Z * V)) : option V :=
  match m with
  | [] => None
  | (k', v) :: m' => if k =? k' then Some v else assoc k m'
  end.

(** sio/include/sio/io_device.h:378-381 *)
Definition w_data (d : wdev) (bs : bytes) : Res wdev :=
  do '(b, pl) <- api_write (w_buf d) (w_cur d) bs;
  Ok (mkW b (w_cur d + pl) (w_at d) (w_to d)).

(** sio/src/io_device.cc:109-114 *)
Definition w_seek (d : wdev) (pos : Z) : Res wdev :=
  if b_size (w_buf d) <? pos then Throw EOutOfRange
  else Ok (mkW (w_buf d) pos (w_at d) (w_to d)).

(** sio/src/io_device.cc:118-141; [ptr] is the value of the pointer *)
Definition w_pointer_to (d : wdev) (ptr : addr) : Res wdev :=
  if b_size (w_buf d) <=? w_cur d then UB UBOutOfBounds else
  let to' := if ptr =? 0 then w_to d else mmap_insert ptr (w_cur d) (w_to d) in
  w_data (mkW (w_buf d) (w_cur d) (w_at d) to') (be 4 0).

(** sio/src/io_device.cc:145-154; [ptr] is the address of the tagged object *)
Definition w_pointed_at (d : wdev) (ptr : addr) : Res wdev :=
  if b_size (w_buf d) <=? w_cur d then UB UBOutOfBounds else
  w_data (mkW (w_buf d) (w_cur d) (map_insert ptr (w_cur d) (w_at d)) (w_to d)) (be 4 4294967295).

(** The calls a block handler issues on the write device: [data], [pointed_at] (macro
    SIO_PTAG) and [pointer_to] (macro SIO_PNTR).  A handler's [write] is modelled as the list
    of its calls. sio/include/sio/io_device.h:220-257. *)
Inductive dcall : Type :=
| DData (bs : bytes)
| DTag (a : addr)
| DPtr (a : addr).

(** sio/include/sio/io_device.h:338-385, sio/src/io_device.cc:118-154 *)
Definition dev_call (d : wdev) (c : dcall) : Res wdev :=
  match c with
  | DData bs => w_data d bs
  | DTag a => w_pointed_at d a
  | DPtr a => w_pointer_to d a
  end.

(** the body of a [write], called at sio/src/api.cc:435 *)
Fixpoint dev_calls (d : wdev) (cs : list dcall) : Res wdev :=
  match cs with
  | [] => Ok d
  | c :: cs' => do d1 <- dev_call d c; dev_calls d1 cs'
  end.

(** Overwrite one 32-bit word of the record buffer
    ([sio::memcpy::write( &match, pointer, 1 )], sio/src/api.cc:57,60). *)
Definition put_word (b : bytes) (off m : Z) : Res bytes :=
  if Zlen b <? off + 4 then UB UBOutOfBounds else Ok (put b off (be 4 (u32 m))).

(** [api::write_relocation], sio/src/api.cc:43-66.  The loop runs over the groups of equal
    keys of the multimap; here over its entries, with the key of the previous entry, a new
    group starting whenever the key changes.  The counter starts at 1 for the first group and
    is increased for every group, found or not. *)
Definition same_group (last : option addr) (k : addr) : bool :=
  match last with Some k' => k =? k' | None => false end.
Fixpoint write_reloc (at_ to_ : list (addr * Z)) (last : option addr) (m : Z) (b : bytes) : Res bytes :=
  match to_ with
  | [] => Ok b
  | (k, off) :: rest =>
      let m' := if same_group last k then m else m + 1 in
      match assoc k at_ with
      | None => write_reloc at_ rest (Some k) m' b
      | Some toff =>
          do b1 <- (if same_group last k then Ok b else put_word b toff m');
          do b2 <- put_word b1 off m';
          write_reloc at_ rest (Some k) m' b2
      end
  end.

(** sio/src/io_device.cc:158-162 *)
Definition w_relocate (d : wdev) : Res wdev :=
  do b <- write_reloc (w_at d) (w_to d) None 0 (b_bytes (w_buf d));
  Ok (mkW (mkBuffer b (b_valid (w_buf d))) (w_cur d) [] []).

(** ** Writing primitive values (as device calls) *)

(** Scalars: sio/include/sio/io_device.h:361-364 *)
Definition w_i32 (z : Z) : list dcall := [DData (be 4 z)].
Definition w_u32 (z : Z) : list dcall := [DData (be 4 z)].
Definition w_i64 (z : Z) : list dcall := [DData (be 8 z)].
Definition w_i16 (z : Z) : list dcall := [DData (be 2 z)].
Definition w_i8 (z : Z) : list dcall := [DData (be 1 z)].
(** float and double: the raw IEEE words *)
Definition w_f32 (z : Z) : list dcall := [DData (be 4 z)].
Definition w_f64 (z : Z) : list dcall := [DData (be 8 z)].

(** C arrays of [size]-byte elements, [data( ptr, count )]:
    sio/include/sio/io_device.h:378-381 *)
Definition enc_elems (size : nat) (l : list Z) : bytes := flat_map (be size) l.
Definition w_arr (size : nat) (l : list Z) : list dcall := [DData (enc_elems size l)].

(** sio/include/sio/io_device.h:340-344 *)
Definition w_string (s : bytes) : list dcall :=
  [DData (be 4 (s32 (Zlen s))); DData s].

(** sio/include/sio/io_device.h:368-374 *)
Definition w_vec (size : nat) (l : list Z) : list dcall :=
  DData (be 4 (s32 (Zlen l))) :: (if Zlen l =? 0 then [] else [DData (enc_elems size l)]).

(** sio/include/sio/io_device.h:349-357 *)
Definition w_strings (l : list bytes) : list dcall :=
  DData (be 4 (s32 (Zlen l))) :: flat_map w_string l.

(** ** sio::read_device

    [r_buf] is the span, [r_cur] the cursor, [r_at] the [pointed_at] map (match word to the
    address of the object read; first insertion wins).  The [pointer_to] multimap holds the
    location of every pointer variable whose match word is not 0; since every such variable
    first receives the match word itself (sio/src/io_device.cc:54) and the relocation
    rewrites exactly those, the model leaves the match word in the pointer field and
    relocates by mapping [reloc_ptr] over the pointer fields of the objects read.
    [r_next] is the supply of addresses for objects created while reading (C++ [new]).
    sio/include/sio/io_device.h:18-144. *)
Record rdev := mkR { r_buf : bytes; r_cur : Z; r_at : list (Z * addr); r_next : addr }.

(** functions on a read device, as [block::read], sio/include/sio/block.h:61 *)
Definition RD (A : Type) : Type := rdev -> Res (A * rdev).
Definition rret {A} (a : A) : RD A := fun d => Ok (a, d).
Definition rbind {A B} (m : RD A) (f : A -> RD B) : RD B :=
  fun d => match m d with
           | Ok (a, d') => f a d'
           | Throw e => Throw e
           | UB k => UB k
           end.
Definition rthrow {A} (e : exn) : RD A := fun _ => Throw e.
Definition rub {A} (k : ub) : RD A := fun _ => UB k.

Notation "'let*' x := r 'in' k" := (rbind r (fun x => k))
  (at level 200, x name, r at level 100, k at level 200, right associativity).
Notation "'let*' ' p := r 'in' k" := (rbind r (fun x => let p := x in k))
  (at level 200, p strict pattern, r at level 100, k at level 200, right associativity).

(** sio/include/sio/io_device.h:330-333 *)
Definition r_data (bytelen : Z) : RD bytes := fun d =>
  match api_read (r_buf d) (r_cur d) bytelen with
  | Ok (bs, pl) => Ok (bs, mkR (r_buf d) (r_cur d + pl) (r_at d) (r_next d))
  | Throw e => Throw e
  | UB k => UB k
  end.

(** sio/src/io_device.cc:32-37 *)
Definition r_seek (pos : Z) : RD unit := fun d =>
  if Zlen (r_buf d) <? pos then Throw EOutOfRange
  else Ok (tt, mkR (r_buf d) pos (r_at d) (r_next d)).

(** [data] of one number (sio/include/sio/io_device.h:311-314) of a type of sio/include/sio/memcpy.h:28-42 *)
Definition r_u32 : RD Z := let* bs := r_data 4 in rret (unbe bs).
Definition r_i32 : RD Z := let* bs := r_data 4 in rret (s32 (unbe bs)).
Definition r_i64 : RD Z := let* bs := r_data 8 in rret (s64 (unbe bs)).
Definition r_i16 : RD Z := let* bs := r_data 2 in rret (s16 (unbe bs)).
Definition r_u8 : RD Z := let* bs := r_data 1 in rret (unbe bs).
Definition r_f32 : RD Z := let* bs := r_data 4 in rret (unbe bs).
Definition r_f64 : RD Z := let* bs := r_data 8 in rret (unbe bs).

(** [count] consecutive elements of [size] bytes (sio/src/memcpy.cc:6-12) *)
Fixpoint dec_elems (size : nat) (count : nat) (bs : bytes) : list Z :=
  match count with
  | O => []
  | S n => unbe (firstn size bs) :: dec_elems size n (skipn size bs)
  end.

(** C arrays, sio/include/sio/io_device.h:330-333 *)
Definition r_arr (size : nat) (count : Z) : RD (list Z) :=
  let* bs := r_data (Z.of_nat size * count) in rret (dec_elems size (Z.to_nat count) bs).

(** sio/include/sio/io_device.h:286-292; [std::string::resize] with a negative length
    (converted to a huge size) throws [std::length_error] *)
Definition r_string : RD bytes :=
  let* len := r_i32 in
  if len <? 0 then rthrow StdLengthError else r_data len.

(** sio/include/sio/io_device.h:318-326.  [old] is the previous content of the target vector:
    it is left as it is if the stored length is not positive. *)
Definition r_vec (size : nat) (old : list Z) : RD (list Z) :=
  let* len := r_i32 in
  if 0 <? len then r_arr size len else rret old.

(** a loop around the reading of an element, as at src/cpp/src/SIO/SIOCollectionHandler.cc:49-51 and 56-69 *)
Fixpoint r_repeat {A} (n : nat) (m : RD A) : RD (list A) :=
  match n with
  | O => rret []
  | S k => let* x := m in let* xs := r_repeat k m in rret (x :: xs)
  end.

(** sio/include/sio/io_device.h:297-307 *)
Definition r_strings (old : list bytes) : RD (list bytes) :=
  let* len := r_i32 in
  if 0 <? len then r_repeat (Z.to_nat len) r_string else rret old.

(** sio/src/io_device.cc:41-55: the pointer variable receives the match word *)
Definition r_pointer_to : RD Z := r_u32.

(** sio/src/io_device.cc:59-71; [a] is the address of the object being read *)
Definition r_pointed_at (a : addr) : RD unit := fun d =>
  match r_u32 d with
  | Ok (m, d') =>
      Ok (tt, if m =? 4294967295 then d'
              else mkR (r_buf d') (r_cur d') (map_insert m a (r_at d')) (r_next d'))
  | Throw e => Throw e
  | UB k => UB k
  end.

(** A new object: the next address of the supply.
    [SIOObjectHandler::create], called at src/cpp/src/SIO/SIOCollectionHandler.cc:57. *)
Definition r_new : RD addr := fun d =>
  Ok (r_next d, mkR (r_buf d) (r_cur d) (r_at d) (r_next d + 1)).

(** [api::read_relocation], sio/src/api.cc:20-39, for one pointer variable holding [m]. *)
Definition reloc_ptr (at_ : list (Z * addr)) (m : Z) : addr :=
  if m =? 0 then 0 else match assoc m at_ with Some a => a | None => 0 end.

(** ** Blocks *)

(** A block to be written: name, version and the calls issued by its [write]. sio/include/sio/block.h:22-85. *)
Record wblock := mkWB { wb_name : bytes; wb_version : Z; wb_calls : list dcall }.

(** isalpha and isalnum in the C locale, as used at sio/include/sio/definitions.h:222 and 229 *)
Definition is_alpha (z : Z) : bool :=
  ((65 <=? z) && (z <=? 90)) || ((97 <=? z) && (z <=? 122)) || (z =? 95).
Definition is_alnum (z : Z) : bool := is_alpha z || ((48 <=? z) && (z <=? 57)).

(** The scan of the C string in [sio::validate], sio/include/sio/definitions.h:217-234:
    stops at the first NUL. *)
Fixpoint validate_tail (s : bytes) : bool :=
  match s with
  | [] => true
  | b :: s' => if Zb b =? 0 then true else is_alnum (Zb b) && validate_tail s'
  end.
Definition validate (s : bytes) : bool :=
  match s with
  | [] => false
  | b :: s' => is_alpha (Zb b) && validate_tail s'
  end.

(** [sio::valid_record_name], sio/include/sio/definitions.h:241-249 *)
Definition valid_record_name (s : bytes) : bool :=
  (Zlen s <=? max_record_name_len) && validate s.

(** Re-throwing of [sio::exception] with a new code (SIO_RETHROW): only sio exceptions are
    caught. sio/include/sio/exception.h:9, used at sio/src/api.cc:304-306, 444-446 and 501-503. *)
Definition is_sio (e : exn) : bool :=
  match e with
  | ENotFound | EAlreadyOpen | EOpenFail | ENotOpen | EEof | EIoFailure | ENoMarker
  | ECompressError | EBadState | EInvalidArgument | EBadAlloc | EOutOfRange => true
  | _ => false
  end.
Definition rethrow {A} (e' : exn) (r : Res A) : Res A :=
  match r with Throw e => if is_sio e then Throw e' else Throw e | _ => r end.

(** One iteration of the loop of [api::write_blocks], sio/src/api.cc:421-447 *)
Definition write_block (d : wdev) (blk : wblock) : Res wdev :=
  let block_start := w_cur d in
  let name := wb_name blk in
  rethrow EIoFailure (
    do d <- dev_calls d ([DData (be 4 block_marker); DData (be 4 block_marker);
                          DData (be 4 (wb_version blk)); DData (be 4 (Zlen name)); DData name]
                         ++ wb_calls blk);
    let blk_end := w_cur d in
    let blklen := u32 (blk_end - block_start) in
    do d <- w_seek d block_start;
    do d <- w_data d (be 4 blklen);
    w_seek d blk_end).

(** the loop of write_blocks, sio/src/api.cc:421-447 *)
Fixpoint write_block_list (d : wdev) (blks : list wblock) : Res wdev :=
  match blks with
  | [] => Ok d
  | b :: bs => do d1 <- write_block d b; write_block_list d1 bs
  end.

(** [api::write_blocks], sio/src/api.cc:420-449 *)
Definition write_blocks (d : wdev) (blks : list wblock) : Res wdev :=
  do d <- write_block_list d blks; w_relocate d.

(** ** Records *)

(** [sio::record_info], sio/include/sio/definitions.h, lines 146-161 *)
Record record_info := mkRI {
  ri_start : Z;      (* _file_start *)
  ri_end : Z;        (* _file_end *)
  ri_hlen : Z;       (* _header_length *)
  ri_options : Z;
  ri_dlen : Z;       (* _data_length *)
  ri_ulen : Z;       (* _uncompressed_length *)
  ri_name : bytes }.

(** sio/src/api.cc:581-583 *)
Definition is_compressed (opts : Z) : bool := Z.testbit opts 0.
(** sio/src/api.cc:587-594 (32-bit options word) *)
Definition set_compression (opts : Z) (value : bool) : Z :=
  let o := Z.land opts 4294967294 in if value then Z.lor o compression_bit else o.

(** [api::write_record] into a buffer, sio/src/api.cc:453-504.  On success returns the info
    and the record buffer.  (If an exception is thrown after the buffer was moved into the
    device the caller's buffer is lost: not modelled here, see FileModel.) *)
Definition write_record (name : bytes) (rec_buf : buffer) (blocks : list wblock) (opts : Z)
  : Res (record_info * buffer) :=
  if negb (valid_record_name name) then Throw EInvalidArgument else
  if negb (b_valid rec_buf) then Throw EInvalidArgument else
  rethrow EIoFailure (
    let opts := set_compression opts false in
    do d <- dev_calls (mkW rec_buf 0 [] [])
              [DData (be 4 record_marker); DData (be 4 record_marker); DData (be 4 opts)];
    let datalen_pos := w_cur d in
    do d <- dev_calls d
              [DData (be 4 record_marker); DData (be 4 record_marker);
               DData (be 4 (Zlen name)); DData name];
    let hlen := w_cur d in
    do d <- w_seek d 0;
    do d <- w_data d (be 4 hlen);
    do d <- w_seek d hlen;
    do d <- write_blocks d blocks;
    let end_pos := w_cur d in
    do d <- w_seek d datalen_pos;
    let dlen := u32 (end_pos - hlen) in
    do d <- w_data d (be 4 dlen);
    do d <- w_data d (be 4 dlen);
    Ok (mkRI 0 0 (u32 hlen) opts dlen dlen name,
        mkBuffer (resize (b_bytes (w_buf d)) end_pos) true)).

(** ** Streams

    A [std::ifstream] on a regular file: the file content, the get position and the state
    bits.  [read] and [seekg] follow the C++11 rules: both do nothing on a stream that is not
    good except setting [failbit]; [seekg] first clears [eofbit]; seeking beyond the end of
    a file succeeds. sio/include/sio/definitions.h:104. *)
Record ifs := mkIfs {
  s_data : bytes; s_pos : Z; s_open : bool; s_eof : bool; s_fail : bool }.

(** [stream.good()], as used at sio/src/api.cc:74 *)
Definition s_good (s : ifs) : bool := negb (s_eof s) && negb (s_fail s).
Definition s_avail (s : ifs) : Z := Z.max 0 (Zlen (s_data s) - s_pos s).

(** [stream.open()], src/cpp/src/MT/LCReader.cc:47 *)
Definition open_ifs (data : bytes) : ifs := mkIfs data 0 true false false.

(** [stream.read( p, n )]: the bytes stored at [p] and the new stream, used at sio/src/api.cc:80, 102 and 153 *)
Definition s_read (s : ifs) (n : Z) : bytes * ifs :=
  if negb (s_good s) then ([], mkIfs (s_data s) (s_pos s) (s_open s) (s_eof s) true)
  else if n <=? s_avail s then
    (sub (s_data s) (s_pos s) n, mkIfs (s_data s) (s_pos s + n) (s_open s) false false)
  else
    (sub (s_data s) (s_pos s) (s_avail s),
     mkIfs (s_data s) (s_pos s + s_avail s) (s_open s) true true).

(** [stream.seekg( pos )], absolute, used at sio/src/api.cc:149 and 157 *)
Definition s_seek (s : ifs) (pos : Z) : ifs :=
  if s_fail s then mkIfs (s_data s) (s_pos s) (s_open s) false true
  else if pos <? 0 then mkIfs (s_data s) (s_pos s) (s_open s) false true
  else mkIfs (s_data s) pos (s_open s) false false.

(** [stream.setstate( failbit )], sio/src/api.cc:94 *)
Definition s_setfail (s : ifs) : ifs := mkIfs (s_data s) (s_pos s) (s_open s) (s_eof s) true.

(** Outcome of a stream operation: the stream keeps its new state also if an exception is
    thrown. See the catch clauses of the callers, e.g. src/cpp/src/MT/LCReader.cc:110-129. *)
Definition SRes (A : Type) : Type := (Res A * ifs)%type.

(** A word at a fixed offset of the (116 byte) header buffer. *)
Definition word_at (l : bytes) (pos : Z) : Z := unbe (sub l pos 4).

(** [api::read_record_info], sio/src/api.cc:70-131.  [outbuf] is the previous content of the
    caller's buffer.  Returns the info and the new buffer content. *)
Definition read_record_info (s : ifs) (outbuf : bytes) : SRes (record_info * bytes) :=
  if negb (s_open s) then (Throw ENotOpen, s) else
  if negb (s_good s) then (Throw EBadState, s) else
  let file_start := s_pos s in
  let buf := resize outbuf max_record_info_len in
  let '(bs1, s1) := s_read s 8 in
  let buf := put buf 0 bs1 in
  if s_eof s1 then (Throw EEof, s1) else
  if negb (s_good s1) then (Throw EBadState, s1) else
  let hlen := word_at buf 0 in
  if negb (word_at buf 4 =? record_marker) then (Throw ENoMarker, s_setfail s1) else
  (* header_length - 8 in unsigned 32-bit arithmetic; up to that many bytes are stored
     behind index 8 of a buffer of 116 bytes *)
  let '(bs2, s2) := s_read s1 (u32 (hlen - 8)) in
  if max_record_info_len <? 8 + Zlen bs2 then (UB UBOutOfBounds, s2) else
  let buf := put buf 8 bs2 in
  let options := word_at buf 8 in
  let dlen := word_at buf 12 in
  let ulen := word_at buf 16 in
  let name_length := word_at buf 20 in
  if max_record_name_len <? name_length then (Throw ENoMarker, s2) else
  let name := sub buf 24 name_length in
  let tot_len := u32 (dlen + hlen) in
  let tot_len := if is_compressed options
                 then u32 (tot_len + Z.land (4 - Z.land dlen 3) 3) else tot_len in
  let file_end := file_start + tot_len in
  (Ok (mkRI file_start file_end hlen options dlen ulen name, resize buf hlen), s2).

(** [api::read_record_data], sio/src/api.cc:135-162 *)
Definition read_record_data (s : ifs) (ri : record_info) (outbuf : bytes) (shift : Z)
  : SRes bytes :=
  if negb (s_open s) then (Throw ENotOpen, s) else
  if negb (s_good s) then (Throw EBadState, s) else
  let buf := resize outbuf (shift + ri_dlen ri) in
  let s1 := s_seek s (ri_start ri + ri_hlen ri) in
  if negb (s_good s1) then (Throw EBadState, s1) else
  let '(bs, s2) := s_read s1 (ri_dlen ri) in
  let buf := put buf shift bs in
  if negb (s_good s2) then (Throw EIoFailure, s2) else
  let s3 := s_seek s2 (ri_end ri) in
  if negb (s_good s3) then (Throw EBadState, s3) else
  (Ok buf, s3).

(** [api::read_record], sio/src/api.cc:166-172 *)
Definition read_record (s : ifs) (outbuf : bytes) : SRes (record_info * bytes) :=
  match read_record_info s outbuf with
  | (Ok (ri, buf), s1) =>
      match read_record_data s1 ri buf (ri_hlen ri) with
      | (Ok buf', s2) => (Ok (ri, buf'), s2)
      | (Throw e, s2) => (Throw e, s2)
      | (UB k, s2) => (UB k, s2)
      end
  | (Throw e, s1) => (Throw e, s1)
  | (UB k, s1) => (UB k, s1)
  end.

(** ** Reading blocks *)

(** [sio::block_info], sio/include/sio/definitions.h:168-181 *)
Record block_info := mkBI {
  bi_start : Z; bi_end : Z; bi_hlen : Z; bi_version : Z; bi_dlen : Z; bi_name : bytes }.

(** [api::extract_block], sio/src/api.cc:244-273 *)
Definition extract_block (rec_buf : bytes) (index : Z) : Res (block_info * bytes) :=
  if Zlen rec_buf <=? index then Throw EInvalidArgument else
  let d0 := mkR (sub rec_buf index (Zlen rec_buf - index)) 0 [] 1 in
  match (let* block_len := r_u32 in
         let* marker := r_u32 in
         if negb (marker =? block_marker) then rthrow ENoMarker else
         let* version := r_u32 in
         let* name_len := r_u32 in
         let* name := r_data name_len in
         fun d =>
           let hlen := u32 (r_cur d) in
           match r_seek block_len d with
           | Ok (_, d') =>
               Ok (mkBI index (index + block_len) hlen version (u32 (block_len - hlen)) name, d')
           | Throw e => Throw e
           | UB k => UB k
           end) d0 with
  | Ok (info, _) =>
      do sp <- span rec_buf index (bi_end info - index);
      Ok (info, sp)
  | Throw e => Throw e
  | UB k => UB k
  end.

(** A block handler for reading, producing a value of type [A] from the block version. sio/include/sio/block.h:22-85. *)
Record rblock (A : Type) := mkRB { rb_name : bytes; rb_read : Z -> RD A }.
Arguments mkRB {A} _ _. Arguments rb_name {A} _. Arguments rb_read {A} _ _.

(** [std::find_if] over the handlers, sio/src/api.cc:291-293 *)
Definition find_block {A} (name : bytes) (blocks : list (rblock A)) : option (rblock A) :=
  find (fun b => bytes_eqb (rb_name b) name) blocks.

(** The loop of [api::read_blocks], sio/src/api.cc:283-307.  [at_], [next] are the state of
    the device that is shared by all blocks.  A block of length 0 without handler makes the
    loop repeat itself forever (with a handler, the seek fails); otherwise the position grows, so [fuel] = size of the record is enough.
    The results of the handlers are collected in the order of the blocks in the record. *)
Fixpoint read_blocks_loop {A} (fuel : nat) (rec_buf : bytes) (blocks : list (rblock A))
    (pos : Z) (at_ : list (Z * addr)) (next : addr)
  : Res (list (bytes * A) * list (Z * addr) * addr) :=
  match fuel with
  | O => UB UBDiverge
  | S fuel' =>
      if Zlen rec_buf <=? pos then Ok ([], at_, next) else
      do '(info, sp) <- extract_block rec_buf pos;
      match find_block (bi_name info) blocks with
      | None =>
          if bi_end info =? pos then UB UBDiverge else
          read_blocks_loop fuel' rec_buf blocks (bi_end info) at_ next
      | Some blk =>
          (* set_buffer, seek, read *)
          do '(_, d) <- r_seek (bi_hlen info) (mkR sp 0 at_ next);
          do '(a, d') <- rethrow EIoFailure (rb_read blk (bi_version info) d);
          do '(rest, at2, next2) <-
             read_blocks_loop fuel' rec_buf blocks (bi_end info) (r_at d') (r_next d');
          Ok ((bi_name info, a) :: rest, at2, next2)
      end
  end.

(** [api::read_blocks], sio/src/api.cc:277-309.  The relocation table is returned, to be
    applied to the pointer fields with [reloc_ptr] (see [rdev]). *)
Definition read_blocks {A} (rec_buf : bytes) (blocks : list (rblock A)) (next : addr)
  : Res (list (bytes * A) * list (Z * addr) * addr) :=
  read_blocks_loop (S (length rec_buf)) rec_buf blocks 0 [] next.

(** [api::read_block_infos], sio/src/api.cc:224-240 *)
Fixpoint read_block_infos_loop (fuel : nat) (rec_buf : bytes) (pos : Z) : Res (list block_info) :=
  match fuel with
  | O => UB UBDiverge
  | S fuel' =>
      if Zlen rec_buf <=? pos then Ok [] else
      do '(info, _) <- extract_block rec_buf pos;
      if bi_end info =? pos then UB UBDiverge else
      do rest <- read_block_infos_loop fuel' rec_buf (bi_end info);
      Ok (info :: rest)
  end.
Definition read_block_infos (rec_buf : bytes) : Res (list block_info) :=
  read_block_infos_loop (S (length rec_buf)) rec_buf 0.

(** ** Output stream

    A [std::ofstream] opened on a file and positioned at its end: only appends matter here. *)

(** Padding written after the record, sio/src/api.cc:524 and 564 *)
Definition rec_padlen (n : Z) : Z := Z.land (4 - Z.land n 3) 3.

(** [api::write_record( stream, rec_buf, info )], sio/src/api.cc:508-537: the bytes appended
    to the stream *)
Definition stream_record (rec_buf : bytes) : bytes :=
  rec_buf ++ zeros (Z.to_nat (rec_padlen (Zlen rec_buf))).

(** the two-span version for compressed records, sio/src/api.cc:541-577 *)
Definition stream_record2 (hdr data : bytes) : bytes :=
  hdr ++ data ++ zeros (Z.to_nat (rec_padlen (Zlen data))).

(** [api::compress_record], sio/include/sio/api.h:450-477; [comp] is the compressor.  Returns
    the new info, the record buffer with the updated header and the compressed data. *)
Definition compress_record (comp : bytes -> bytes) (ri : record_info) (rec_buf : buffer)
  : Res (record_info * buffer * bytes) :=
  if negb (b_valid rec_buf) then Throw EInvalidArgument else
  rethrow EIoFailure (
    let opts := set_compression (ri_options ri) true in
    do data <- span (b_bytes rec_buf) (ri_hlen ri) (b_size rec_buf - ri_hlen ri);
    let cdata := comp data in
    let dlen := u32 (Zlen cdata) in
    do d <- dev_calls (mkW rec_buf 0 [] [])
              [DData (be 4 (ri_hlen ri)); DData (be 4 record_marker);
               DData (be 4 opts); DData (be 4 dlen)];
    Ok (mkRI (ri_start ri) (ri_end ri) (ri_hlen ri) opts dlen (ri_ulen ri) (ri_name ri),
        w_buf d, cdata)).
