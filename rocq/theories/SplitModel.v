(** * Splitting the output over several files

    Model of src/cpp/src/UTIL/LCSplitWriter.cc on top of a SIO::SIOWriter,
    src/cpp/src/SIO/SIOWriter.cc. *)

From Verif Require Import Bytes StrMap SioModel Ieee ObjModel EventModel IndexModel FileModel BitModel.

(** a position that does not exist, std::string::npos, LCSplitWriter.cc:125 *)
Definition npos : Z := 2 ^ 64 - 1.
(** std::string::find_last_of of one character, LCSplitWriter.cc:125 *)
Fixpoint find_last (c : byte) (s : bytes) : Z :=
  match s with
  | [] => npos
  | x :: s' =>
      let r := find_last c s' in
      if r =? npos then (if byte_dec x c then 0 else npos) else r + 1
  end.
(** std::string::rfind of a string, LCSplitWriter.cc:129 *)
Fixpoint rfind (p s : bytes) : Z :=
  match s with
  | [] => if bytes_eqb p [] then 0 else npos
  | _ :: s' =>
      let r := rfind p s' in
      if r =? npos then (if bytes_eqb (firstn (length p) s) p then 0 else npos) else r + 1
  end.

(** LCSplitWriter::getCountingString, LCSplitWriter.cc:142-152, with NDIGITS = 3, LCSplitWriter.cc:10-14:
    setw and setfill pad with zeros on the left *)
Definition counting (k : Z) : bytes :=
  let d := decimal 10 k in repeat (digit 0) (3 - length d) ++ d.

(** LCSplitWriter::setBaseFilename, LCSplitWriter.cc:123-140: the base name and the extension;
    the position of the dot is stored in an unsigned int, sums and differences of std::size_t wrap *)
Definition base_filename (n : bytes) : Res (bytes * bytes) :=
  let dot := find_last (bZ 46) n mod two32 in
  if (0 <? dot) && (dot =? (Zlen n - 6) mod 2 ^ 64) && (rfind (str "lcio") n =? (dot + 2) mod two32)
  then Ok (firstn (length n - 6) n, skipn (length n - 6) n)
  else Throw LException.

(** The members of LCSplitWriter, LCSplitWriter.h:128-134, and of the SIOWriter it writes with,
    SIOWriter.h:101-115: the disk, the open stream with the name of its file, the random access
    manager and the compression level.  What is written to the stream reaches the disk with a
    flush or when the stream is closed. *)
Record split := mkSp {
  sp_disk : disk; sp_out : option (bytes * ofs); sp_mgr : ramgr; sp_level : Z;
  sp_max : Z; sp_base : bytes; sp_ext : bytes; sp_file : bytes; sp_count : Z; sp_last : Z }.
(** the constructor, LCSplitWriter.h:29-37 *)
Definition new_split (d : disk) (raw : buffer) (level max : Z) : split :=
  mkSp d None (new_mgr raw) level max [] [] [] 0 4294967295.

(** The outcome of a call after which the program can go on.  The result [Throw] of the functions
    below is an exception after which the state is not modelled. LCSplitWriter.cc:31-80. *)
Inductive answer : Type := Done | Threw (e : exn).

Section Split.
Context (comp : Z -> bytes -> bytes).
(** the buffers records are made in, see FileModel *)
Context (b1 b2 : buffer).

(** SIOWriter::flush, SIOWriter.cc:167-169 *)
Definition sp_flush (s : split) : split :=
  match sp_out s with
  | None => s
  | Some (n, o) => mkSp (save (sp_disk s) n (o_data o)) (sp_out s) (sp_mgr s) (sp_level s) (sp_max s) (sp_base s) (sp_ext s) (sp_file s) (sp_count s) (sp_last s)
  end.
(** SIOWriter::open, SIOWriter.cc:20-33 and 51-58, 90-92: a stream that is open already cannot be
    opened *)
Definition sp_open_file (s : split) : Res (answer * split) :=
  let n := sio_filename (sp_file s) in
  match sp_disk s n with
  | Some _ => Ok (Threw LIOException, s)
  | None =>
      match sp_out s with
      | Some _ => Throw ENotOpen
      | None => Ok (Done, mkSp (save (sp_disk s) n []) (Some (n, mkO [] 0)) (sp_mgr s) (sp_level s) (sp_max s) (sp_base s) (sp_ext s) (sp_file s) (sp_count s) (sp_last s))
      end
  end.
(** SIOWriter::close, SIOWriter.cc:159-163, with LCIORandomAccessMgr.cc:289-296 *)
Definition sp_close (s : split) : Res (answer * split) :=
  match sp_out s with
  | None =>
      match rm_map (mg_map (sp_mgr s)) with
      | [] => Ok (Done, mkSp (sp_disk s) None (mg_clear (sp_mgr s)) (sp_level s) (sp_max s) (sp_base s) (sp_ext s) (sp_file s) (sp_count s) (sp_last s))
      | _ => Ok (Threw LIOException, s)
      end
  | Some (n, o) =>
      do '(g, o') <- write_access (sp_mgr s) o;
      Ok (Done, mkSp (save (sp_disk s) n (o_data o')) None (mg_clear g) (sp_level s) (sp_max s) (sp_base s) (sp_ext s) (sp_file s) (sp_count s) (sp_last s))
  end.
(** SIOWriter::writeRunHeader and writeEvent, SIOWriter.cc:105-155 *)
Definition sp_put (s : split) (i : witem) : Res (answer * split) :=
  match sp_out s with
  | None => Ok (Threw LIOException, s)
  | Some (n, o) =>
      do w <- write_item comp (mkWr o (sp_mgr s) (sp_level s)) b1 b2 i;
      Ok (Done, mkSp (sp_disk s) (Some (n, wr_o w)) (wr_mgr w) (sp_level s) (sp_max s) (sp_base s) (sp_ext s) (sp_file s) (sp_count s) (sp_last s))
  end.

(** LCSplitWriter::getFilename, LCSplitWriter.cc:84-92: the name is in [sp_file] afterwards *)
Definition get_filename (s : split) : split :=
  mkSp (sp_disk s) (sp_out s) (sp_mgr s) (sp_level s) (sp_max s) (sp_base s) (sp_ext s)
       (if sp_count s =? sp_last s then sp_file s else sp_base s ++ str "." ++ counting (sp_count s) ++ sp_ext s) (sp_count s) (sp_count s).
(** LCSplitWriter::file_size, LCSplitWriter.cc:96-106, of the file [sp_file] *)
Definition file_size (s : split) : Z := match sp_disk s (sp_file s) with Some c => Zlen c | None => -1 end.

(** LCSplitWriter::open, LCSplitWriter.cc:31-35 *)
Definition split_open (s : split) (n : bytes) : Res (answer * split) :=
  match base_filename n with
  | Ok (base, ext) =>
      sp_open_file (get_filename (mkSp (sp_disk s) (sp_out s) (sp_mgr s) (sp_level s) (sp_max s) base ext (sp_file s) 0 (sp_last s)))
  | _ => Ok (Threw LException, mkSp (sp_disk s) (sp_out s) (sp_mgr s) (sp_level s) (sp_max s) (sp_base s) (sp_ext s) (sp_file s) 0 (sp_last s))
  end.
(** LCSplitWriter::writeRunHeader and writeEvent, LCSplitWriter.cc:42-71 *)
Definition next_file (s : split) : Res (answer * split) :=
  do '(a, s) <- sp_close s;
  match a with
  | Threw _ => Ok (a, s)
  | Done => sp_open_file (get_filename (mkSp (sp_disk s) (sp_out s) (sp_mgr s) (sp_level s) (sp_max s) (sp_base s) (sp_ext s) (sp_file s) (u32 (sp_count s + 1)) (sp_last s)))
  end.
Definition split_write (s : split) (i : witem) : Res (answer * split) :=
  let s := get_filename (sp_flush s) in
  do '(a, s) <- (if sp_max s <? file_size s then next_file s else Ok (Done, s));
  match a with
  | Threw _ => Ok (a, s)
  | Done => sp_put s i
  end.

(** the calls: open, setCompressionLevel (LCSplitWriter.h:72-74), writeRunHeader and writeEvent, flush,
    close (LCSplitWriter.cc:73-79) *)
Inductive sop : Type := SOpen (n : bytes) | SLevel (z : Z) | SWrite (i : witem) | SFlush | SClose.
Definition sp_step (s : split) (o : sop) : Res (answer * split) :=
  match o with
  | SOpen n => split_open s n
  | SLevel z => Ok (Done, mkSp (sp_disk s) (sp_out s) (sp_mgr s) z (sp_max s) (sp_base s) (sp_ext s) (sp_file s) (sp_count s) (sp_last s))
  | SWrite i => split_write s i
  | SFlush => Ok (Done, sp_flush s)
  | SClose => sp_close s
  end.
(** a program that goes on after exceptions *)
Fixpoint sp_run (s : split) (l : list sop) : Res (list answer * split) :=
  match l with
  | [] => Ok ([], s)
  | o :: l' =>
      do '(a, s1) <- sp_step s o;
      do '(as', s2) <- sp_run s1 l';
      Ok (a :: as', s2)
  end.

End Split.
