(** * StdHep files

    Model of src/cpp/src/UTIL/lXDR.cc (reading), src/cpp/src/UTIL/lStdHep.cc and src/cpp/src/UTIL/LCStdHepRdrNew.cc.

    The machine has 64 bit [long] and does not have network byte order.  A [double] is its 64 bit word.
    Memory is not exhausted: an array of any size that is not negative can be allocated.  After an
    exception of [new] the reader is not used any more.  Members that cannot be observed (begin and end
    of run records, pointers to blocks, names of blocks) are read and dropped. *)

From Verif Require Import Bytes SioModel Ieee ObjModel.

(** ** lXDR *)

(** the open file, the position, the error code (src/cpp/include/UTIL/lXDR.hh:114-118) *)
Record xdr := mkX { x_file : bytes; x_pos : Z; x_err : Z }.
Definition set_err (e : Z) (x : xdr) : xdr := mkX (x_file x) (x_pos x) e.
(** lXDR.hh:133-140, src/cpp/include/UTIL/lStdHep.hh:54-60 *)
Definition READERROR : Z := 5.
Definition SEEKERROR : Z := 7.
Definition BLOCKERROR : Z := 101.
Definition NOEVENTTABLE : Z := 102.
Definition NOEVENT : Z := 103.
Definition NOTSUPPORTED : Z := 104.
Definition EVTABLECORRUPT : Z := 105.
Definition ENDOFFILE : Z := 106.

(** [fread] of [n] bytes in all: either all of them, or what is left is consumed and the call fails,
    lXDR.cc:121, 132, 143, 178, 201 and 224 *)
Definition x_get (n : Z) (x : xdr) : option bytes * xdr :=
  if n <=? 0 then (Some [], x)
  else if x_pos x + n <=? Zlen (x_file x)
  then (Some (sub (x_file x) (x_pos x) n), mkX (x_file x) (x_pos x + n) (x_err x))
  else (None, mkX (x_file x) (Z.max (x_pos x) (Zlen (x_file x))) (x_err x)).
(** checkRead( long* ), lXDR.cc:110-125 *)
Definition check_long (x : xdr) : option Z * xdr :=
  match x_get 4 x with
  | (Some b, x') => (Some (s32 (unbe b)), x')
  | (None, x') => (None, set_err READERROR x')
  end.
(** readLong, lXDR.cc:152-157; readDouble, 159-164 with checkRead( double* ) 127-136; readFloat, 166-171 with 138-150 *)
Definition x_long (x : xdr) : Z * xdr :=
  match check_long x with (Some v, x') => (v, x') | (None, x') => (0, x') end.
Definition x_double (x : xdr) : Z * xdr :=
  match x_get 8 x with
  | (Some b, x') => (unbe b, x')
  | (None, x') => (0, set_err READERROR x')
  end.
Definition x_float (x : xdr) : Z * xdr :=
  match x_get 4 x with
  | (Some b, x') => (unbe b, x')
  | (None, x') => (0, set_err READERROR x')
  end.
(** readString, lXDR.cc:173-186: the array without the final zero, and [length], which was [len] before *)
Definition x_string (len : Z) (x : xdr) : option bytes * Z * xdr :=
  match check_long x with
  | (None, x') => (None, len, x')
  | (Some n, x') =>
      match x_get (Z.land (n + 3) 4294967292) x' with
      | (Some b, x2) => (Some b, n, set_err 0 x2)
      | (None, x2) => (None, n, set_err READERROR x2)
      end
  end.
(** [n] numbers of [k] bytes *)
Fixpoint words (k : nat) (n : nat) (b : bytes) : list Z :=
  match n with
  | O => []
  | S n' => unbe (firstn k b) :: words k n' (skipn k b)
  end.
(** readLongArray, lXDR.cc:188-218; readDoubleArray, 220-232.  [new] of a negative number of elements
    throws std::bad_array_new_length. *)
Definition x_longs (len : Z) (x : xdr) : Res (option (list Z) * Z * xdr) :=
  match check_long x with
  | (None, x') => Ok (None, len, x')
  | (Some n, x') =>
      if n <? 0 then Throw EBadAlloc else
      match x_get (4 * n) x' with
      | (Some b, x2) => Ok (Some (map s32 (words 4 (Z.to_nat n) b)), n, set_err 0 x2)
      | (None, x2) => Ok (None, n, set_err READERROR x2)
      end
  end.
Definition x_doubles (len : Z) (x : xdr) : Res (option (list Z) * Z * xdr) :=
  match check_long x with
  | (None, x') => Ok (None, len, x')
  | (Some n, x') =>
      if n <? 0 then Throw EBadAlloc else
      match x_get (8 * n) x' with
      | (Some b, x2) => Ok (Some (words 8 (Z.to_nat n) b), n, set_err 0 x2)
      | (None, x2) => Ok (None, n, set_err READERROR x2)
      end
  end.
(** filePosition, lXDR.cc:338-350; [fseek] to a negative position fails *)
Definition file_position (pos : Z) (x : xdr) : Z * xdr :=
  if pos =? -1 then (x_pos x, x)
  else if pos <? 0 then (-1, set_err SEEKERROR x)
  else (pos, mkX (x_file x) pos (x_err x)).

(** an element of an array behind a pointer, e.g. the arrays of lStdHep.hh:362-383 *)
Definition elem (a : option (list Z)) (i : Z) : Res Z :=
  match a with
  | None => UB UBNullDeref
  | Some l => if (0 <=? i) && (i <? Zlen l) then Ok (nth (Z.to_nat i) l 0) else UB UBOutOfBounds
  end.
(** a C string: the bytes before the first zero, as compared at lStdHep.cc:227 *)
Fixpoint cstr (b : bytes) : bytes :=
  match b with
  | [] => []
  | c :: b' => if Zb c =? 0 then [] else c :: cstr b'
  end.
(** the first character of a string that may be a null pointer, lStdHep.cc:227 *)
Definition first_char (s : option bytes) : Res Z :=
  match s with
  | None => UB UBNullDeref
  | Some b => Ok (match b with [] => 0 | c :: _ => Zb c end)
  end.

(** ** lStdHep *)

(** EventTable, lStdHep.hh:286-312 *)
Record table := mkT { t_empty : bool; t_ievt : Z; t_next : Z; t_num : Z; t_ptrs : option (list Z) }.
(** the constructor, lStdHep.cc:296-302 *)
Definition new_table : table := mkT true 0 (-3) 0 None.
(** read, lStdHep.cc:323-346, after cleanup, 310-321 *)
Definition read_table (t : table) (x : xdr) : Res (table * xdr) :=
  let '(id, x) := x_long x in
  let '(_, x) := x_long x in
  let '(_, len, x) := x_string 0 x in
  if negb (id =? 2) then Ok (mkT true 0 (t_next t) 0 None, set_err NOEVENTTABLE x) else
  let '(next, x) := x_long x in
  let '(num, x) := x_long x in
  do '(_, len, x) <- x_longs len x;
  do '(_, len, x) <- x_longs len x;
  do '(_, len, x) <- x_longs len x;
  do '(_, len, x) <- x_longs len x;
  do '(ptrs, len, x) <- x_longs len x;
  Ok (mkT (num <=? 0) 0 next num ptrs, x).

(** Event, lStdHep.hh:329-384 *)
Record hev := mkHev {
  he_empty : bool; he_num : Z; he_n : Z;
  he_ist : option (list Z); he_id : option (list Z); he_mo : option (list Z); he_da : option (list Z);
  he_p : option (list Z); he_v : option (list Z);
  he_wgt : Z; he_scale : option (list Z); he_spin : option (list Z); he_color : option (list Z); he_idrup : Z }.
(** the constructor, lStdHep.cc:363-373 *)
Definition new_hev : hev := mkHev false 0 0 None None None None None None 0 None None None 0.
(** cleanup, lStdHep.cc:380-397: the weight and the process stay *)
Definition clean (e : hev) : hev := mkHev true 0 0 None None None None None None (he_wgt e) None None None (he_idrup e).
Definition with_empty (b : bool) (e : hev) : hev :=
  mkHev b (he_num e) (he_n e) (he_ist e) (he_id e) (he_mo e) (he_da e) (he_p e) (he_v e) (he_wgt e) (he_scale e) (he_spin e) (he_color e) (he_idrup e).

(** the block with the particles, lStdHep.cc:449-463 and 465-480 *)
Definition read_hep (len : Z) (e : hev) (x : xdr) : Res (hev * Z * xdr) :=
  let '(num, x) := x_long x in
  let '(n, x) := x_long x in
  do '(ist, len, x) <- x_longs len x;
  do '(id, len, x) <- x_longs len x;
  do '(mo, len, x) <- x_longs len x;
  do '(da, len, x) <- x_longs len x;
  do '(p, len, x) <- x_doubles len x;
  do '(v, len, x) <- x_doubles len x;
  Ok (mkHev (he_empty e) num n ist id mo da p v (he_wgt e) (he_scale e) (he_spin e) (he_color e) (he_idrup e), len, x).
(** what follows in version 4, lStdHep.cc:484-493 *)
Definition read_ev4 (len : Z) (e : hev) (x : xdr) : Res (hev * Z * xdr) :=
  let '(w, x) := x_double x in
  let '(_, x) := x_double x in
  let '(_, x) := x_double x in
  do '(scale, len, x) <- x_doubles len x;
  do '(spin, len, x) <- x_doubles len x;
  do '(color, len, x) <- x_longs len x;
  let '(idrup, x) := x_long x in
  Ok (mkHev (he_empty e) (he_num e) (he_n e) (he_ist e) (he_id e) (he_mo e) (he_da e) (he_p e) (he_v e) w scale spin color idrup, len, x).
(** begin and end of a run, lStdHep.cc:500-518 *)
Definition read_run_info (x : xdr) : xdr :=
  let '(_, x) := x_long x in
  let '(_, x) := x_long x in
  let '(_, x) := x_long x in
  let '(_, x) := x_float x in
  let '(_, x) := x_float x in
  let '(_, x) := x_double x in
  let '(_, x) := x_double x in x.
(** the loop over the blocks, lStdHep.cc:440-522: [n] blocks are left, the next one is [i] *)
Fixpoint read_hep_blocks (n : nat) (i : Z) (ids : option (list Z)) (len : Z) (e : hev) (x : xdr) : Res (hev * xdr) :=
  match n with
  | O => Ok (e, x)
  | S n' =>
      let '(_, x) := x_long x in
      let '(_, x) := x_long x in
      let '(_, len, x) := x_string len x in
      do k <- elem ids i;
      let e := with_empty false e in
      if k =? 101 then
        do '(e, len, x) <- read_hep len e x;
        read_hep_blocks n' (i + 1) ids len e x
      else if k =? 201 then
        do '(e, len, x) <- read_hep len e x;
        do '(e, len, x) <- read_ev4 len e x;
        read_hep_blocks n' (i + 1) ids len e x
      else if (k =? 106) || (k =? 107) then
        read_hep_blocks n' (i + 1) ids len (with_empty true e) (read_run_info x)
      else read_hep_blocks n' (i + 1) ids len e x
  end.
(** Event::read, lStdHep.cc:399-524 *)
Definition read_hev (e : hev) (x : xdr) : Res (hev * xdr) :=
  let e := clean e in
  let '(id, x) := x_long x in
  let '(_, x) := x_long x in
  let '(version, len, x) := x_string 0 x in
  let x := if id =? 4 then x else set_err NOEVENT x in
  let '(_, x) := x_long x in
  let '(_, x) := x_long x in
  let '(_, x) := x_long x in
  let '(_, x) := x_long x in
  let '(nblocks, x) := x_long x in
  let '(dimblocks, x) := x_long x in
  do c <- first_char version;
  if c =? 50 then
    let '(_, x) := x_long x in
    let '(dimntuples, x) := x_long x in
    do '(ids, len, x) <- (if dimblocks =? 0 then Ok (None, len, x) else
                            do '(ids, len, x) <- x_longs len x;
                            do '(_, len, x) <- x_longs len x;
                            Ok (ids, len, x));
    if negb (dimntuples =? 0) then Ok (e, set_err NOTSUPPORTED x) else
    read_hep_blocks (Z.to_nat nblocks) 0 ids len e x
  else
    do '(ids, len, x) <- x_longs len x;
    do '(_, len, x) <- x_longs len x;
    read_hep_blocks (Z.to_nat nblocks) 0 ids len e x.

(** the reader, lStdHep.hh:116, 286-312 and 329-400 *)
Record hep := mkHep { h_x : xdr; h_tab : table; h_evt : hev }.

(** reads [n] strings, lStdHep.cc:248 *)
Fixpoint x_strings (n : nat) (len : Z) (x : xdr) : xdr :=
  match n with
  | O => x
  | S n' => let '(_, len, x) := x_string len x in x_strings n' len x
  end.
(** closingDate of the old versions, lStdHep.cc:226-229: [new char[ len + 1 ]] and [strcpy] *)
Definition copy_date (date : option bytes) (len : Z) : Res unit :=
  if len + 1 <? 0 then Throw EBadAlloc else
  match date with
  | None => UB UBNullDeref
  | Some d => if len <? Zlen (cstr d) then UB UBOutOfBounds else Ok tt
  end.
(** readFileHeader, lStdHep.cc:212-256 *)
Definition read_file_header (h : hep) : Res hep :=
  let x := h_x h in
  let '(id, x) := x_long x in
  if negb (id =? 1) then Ok (mkHep (set_err BLOCKERROR x) (h_tab h) (h_evt h)) else
  let '(_, x) := x_long x in
  let '(version, len, x) := x_string 0 x in
  let '(_, len, x) := x_string len x in
  let '(_, len, x) := x_string len x in
  let '(date, len, x) := x_string len x in
  match version with
  | None => UB UBNullDeref
  | Some v =>
      do '(len, x) <- (if bytes_eqb (cstr v) (str "2.00") || bytes_eqb (cstr v) (str "1.00")
                       then do _ <- copy_date date len; Ok (len, x)
                       else let '(_, len, x) := x_string len x in Ok (len, x));
      let '(_, x) := x_long x in
      let '(_, x) := x_long x in
      let '(_, x) := x_long x in
      let '(_, x) := x_long x in
      let '(nblocks, x) := x_long x in
      do c <- first_char version;
      let '(nntuples, x) := if c =? 50 then x_long x else (0, x) in
      do '(_, nblocks, x) <- x_longs nblocks x;
      if nblocks <? 0 then Throw EBadAlloc else
      let x := x_strings (Z.to_nat nblocks) len x in
      let x := if 0 <? nntuples then set_err NOTSUPPORTED x else x in
      do '(t, x) <- read_table (h_tab h) x;
      Ok (mkHep x t (h_evt h))
  end.
(** the constructors, LCStdHepRdrNew.cc:21-34, lStdHep.cc:29-41, lXDR.cc:41-85 *)
Definition hep_open (file : option bytes) : Res hep :=
  match file with
  | None => Throw LIOException
  | Some f =>
      do h <- read_file_header (mkHep (mkX f 0 0) new_table new_hev);
      if x_err (h_x h) =? 0 then Ok h else Throw LIOException
  end.

(** the events of a table, lStdHep.cc:142-152, as long as [k] of them are left; without a result: the
    table is used up *)
Fixpoint table_events (k : nat) (h : hep) : Res (option Z * hep) :=
  match k with
  | O => Ok (None, h)
  | S k' =>
      let t := h_tab h in
      do p <- elem (t_ptrs t) (t_ievt t);
      let '(q, x) := file_position p (h_x h) in
      if negb (q =? p) then Ok (Some (x_err x), mkHep x t (h_evt h)) else
      do '(e, x) <- read_hev (h_evt h) x;
      if negb (x_err x =? 0) then Ok (Some (x_err x), mkHep x t e) else
      let h' := mkHep x (mkT (t_empty t) (t_ievt t + 1) (t_next t) (t_num t) (t_ptrs t)) e in
      if he_empty e then table_events k' h' else Ok (Some (x_err x), h')
  end.
(** the next event table, lStdHep.cc:155-170.  A table begins before the end of the file, so that when the
    fuel is used up a table has been read for the second time, and the loop goes on forever. *)
Fixpoint next_table (fuel : nat) (h : hep) : Res (option Z * hep) :=
  match fuel with
  | O => UB UBDiverge
  | S fuel' =>
      let t := h_tab h in
      if t_next t =? -2 then Ok (Some ENDOFFILE, mkHep (set_err ENDOFFILE (h_x h)) t (h_evt h)) else
      if t_next t =? -1 then Ok (Some EVTABLECORRUPT, mkHep (set_err EVTABLECORRUPT (h_x h)) t (h_evt h)) else
      let '(q, x) := file_position (t_next t) (h_x h) in
      if negb (q =? t_next t) then Ok (Some (x_err x), mkHep x t (h_evt h)) else
      do '(t', x) <- read_table t x;
      let h' := mkHep x t' (h_evt h) in
      if negb (x_err x =? 0) then Ok (Some (x_err x), h') else
      if t_empty t' then next_table fuel' h' else Ok (None, h')
  end.
(** lStdHep::readEvent, lStdHep.cc:135-174: the error code *)
Fixpoint hep_loop (fuel : nat) (h : hep) : Res (Z * hep) :=
  match fuel with
  | O => UB UBDiverge
  | S fuel' =>
      do '(c, h) <- table_events (Z.to_nat (t_num (h_tab h) - t_ievt (h_tab h))) h;
      match c with
      | Some c => Ok (c, h)
      | None =>
          let t := h_tab h in
          do '(c, h) <- next_table (S (S (length (x_file (h_x h))))) (mkHep (h_x h) (mkT true (t_ievt t) (t_next t) (t_num t) (t_ptrs t)) (h_evt h));
          match c with
          | Some c => Ok (c, h)
          | None => hep_loop fuel' h
          end
      end
  end.
Definition hep_read (h : hep) : Res (Z * hep) :=
  hep_loop (S (S (S (length (x_file (h_x h)))))) (mkHep (h_x h) (h_tab h) (with_empty true (h_evt h))).

(** ** LCStdHepRdrNew *)

(** digits of a particle code, and the table of charges, LCStdHepRdrNew.cc:502-508 *)
Definition dec_digit (v k : Z) : Z := (v / 10 ^ k) mod 10.
Definition ch100 : list Z :=
  [-1; 2; -1; 2; -1; 2; -1; 2; 0; 0; -3; 0; -3; 0; -3; 0; -3; 0; 0; 0; 0; 0; 0; 3; 0; 0; 0;
   0; 0; 0; 0; 0; 0; 3; 0; 0; 3; 0; 0; 0; 0; -1; 0; 0; 0; 0; 0; 0; 0; 0; 0; 6; 3; 6; 0; 0; 0; 0; 0; 0; 0; 0; 0;
   0; 0; 0; 0; 0; 0; 0; 0; 0; 0; 0; 0; 0; 0; 0; 0; 0; 0; 0; 0; 0; 0; 0; 0; 0; 0; 0; 0; 0; 0; 0; 0; 0; 0; 0; 0;
   0].
Definition charge_of (i : Z) : Res Z := elem (Some ch100) (i - 1).
(** threeCharge, LCStdHepRdrNew.cc:489-579; the negation of the smallest [int] overflows *)
Definition three_charge (pdg : Z) : Res Z :=
  if pdg =? - two31 then UB UBOverflow else
  let ida := Z.abs pdg in
  let q1 := dec_digit ida 3 in
  let q2 := dec_digit ida 2 in
  let q3 := dec_digit ida 1 in
  let n9 := dec_digit ida 8 in
  let n10 := dec_digit ida 9 in
  let sid := if (n10 =? 1) && (n9 =? 0) then 0
             else if (q2 =? 0) && (q1 =? 0) then ida mod 10000
             else if ida <=? 102 then ida
             else 0 in
  let extra := ida / 10000000 in
  let nj := dec_digit ida 0 in
  let signed c := if c =? 0 then 0 else if pdg <? 0 then - c else c in
  if (ida =? 0) || (0 <? extra) then Ok 0
  else if (0 <? sid) && (sid <=? 100) then
    do c <- charge_of sid;
    let c := if (ida =? 1000017) || (ida =? 1000018) || (ida =? 1000034) || (ida =? 1000052) || (ida =? 1000053) || (ida =? 1000054) then 0
             else if (ida =? 5100061) || (ida =? 5100062) then 6 else c in
    Ok (signed c)
  else if nj =? 0 then Ok 0
  else if q1 =? 0 then
    if (q2 =? 3) || (q2 =? 5) then
      do a <- charge_of q3;
      do b <- charge_of q2;
      Ok (signed (a - b))
    else
      do a <- charge_of q2;
      do b <- charge_of q3;
      Ok (signed (a - b))
  else if q3 =? 0 then
    do a <- charge_of q2;
    do b <- charge_of q1;
    Ok (signed (a + b))
  else
    do a <- charge_of q3;
    do b <- charge_of q2;
    do c <- charge_of q1;
    Ok (signed (a + b + c)).

Section Particles.
(** [(float)( n / 3. )] and [(float)( t / 299.792 )]: any functions *)
Context (third in_time : Z -> Z).

(** the particles of the collection; a particle is known by its place, LCStdHepRdrNew.cc:125 and 160 *)
Definition parts := list mcp.

(** the particle of line [i], LCStdHepRdrNew.cc:162-216; [int] of a [long] *)
Definition make_particle (e : hev) (i : Z) : Res mcp :=
  do pid <- elem (he_id e) i;
  let pdg := s32 pid in
  do c <- three_charge pdg;
  do px <- elem (he_p e) (5 * i);
  do py <- elem (he_p e) (5 * i + 1);
  do pz <- elem (he_p e) (5 * i + 2);
  do m <- elem (he_p e) (5 * i + 4);
  do vx <- elem (he_v e) (4 * i);
  do vy <- elem (he_v e) (4 * i + 1);
  do vz <- elem (he_v e) (4 * i + 2);
  do st <- elem (he_ist e) i;
  do t <- elem (he_v e) (4 * i + 3);
  do '(spin, color) <-
     match he_scale e with
     | None => Ok ([0; 0; 0], [0; 0])
     | Some _ =>
         do sx <- elem (he_spin e) (3 * i);
         do sy <- elem (he_spin e) (3 * i + 1);
         do sz <- elem (he_spin e) (3 * i + 2);
         do c0 <- elem (he_color e) (2 * i);
         do c1 <- elem (he_color e) (2 * i + 1);
         Ok ([d2f sx; d2f sy; d2f sz], [s32 c0; s32 c1])
     end;
  Ok (mkMC [] pdg (s32 st) 0 [vx; vy; vz] (in_time t) [f2d (d2f px); f2d (d2f py); f2d (d2f pz)] (f2d (d2f m)) (third c)
           [0; 0; 0] [0; 0; 0] spin color []).
Fixpoint make_particles (e : hev) (n : nat) (i : Z) : Res parts :=
  match n with
  | O => Ok []
  | S n' =>
      do p <- make_particle e i;
      do l <- make_particles e n' (i + 1);
      Ok (p :: l)
  end.

(** getElementAt, src/cpp/src/IMPL/LCCollectionVec.cc:60-62: operator[] *)
Definition part (l : parts) (i : Z) : Res mcp :=
  if (0 <=? i) && (i <? Zlen l) then match nth_error l (Z.to_nat i) with Some p => Ok p | None => UB UBOutOfBounds end else UB UBOutOfBounds.
Fixpoint change (n : nat) (f : mcp -> mcp) (l : parts) : parts :=
  match l, n with
  | [], _ => []
  | p :: l', O => f p :: l'
  | p :: l', S n' => p :: change n' f l'
  end.
Definition more_parents (a : addr) (p : mcp) : mcp :=
  mkMC (mc_parents p ++ [a]) (mc_pdg p) (mc_gen p) (mc_sim p) (mc_vertex p) (mc_time p) (mc_p p) (mc_mass p) (mc_charge p)
       (mc_endpoint p) (mc_pend p) (mc_spin p) (mc_color p) (mc_daughters p).
Definition more_daughters (a : addr) (p : mcp) : mcp :=
  mkMC (mc_parents p) (mc_pdg p) (mc_gen p) (mc_sim p) (mc_vertex p) (mc_time p) (mc_p p) (mc_mass p) (mc_charge p)
       (mc_endpoint p) (mc_pend p) (mc_spin p) (mc_color p) (mc_daughters p ++ [a]).
(** MCParticleImpl::addParent of particle [d] with [p], src/cpp/src/IMPL/MCParticleImpl.cc:218-232 *)
Definition add_parent (d p : Z) (l : parts) : Res parts :=
  do o <- part l d;
  if existsb (Z.eqb p) (mc_parents o) then Ok l else
  do _ <- part l p;
  Ok (change (Z.to_nat p) (more_daughters d) (change (Z.to_nat d) (more_parents p) l)).

(** a daughter that does not list the particle yet gets it as a parent, LCStdHepRdrNew.cc:321-334 *)
Definition link_daughter (p d : Z) (l : parts) : Res parts :=
  do o <- part l d;
  if existsb (Z.eqb p) (mc_parents o) then Ok l else add_parent d p l.
(** for all daughters from [d] on, [n] of them, LCStdHepRdrNew.cc:316-335 *)
Fixpoint link_range (p d : Z) (n : nat) (l : parts) : Res parts :=
  match n with
  | O => Ok l
  | S n' => do l <- link_daughter p d l; link_range p (d + 1) n' l
  end.
(** the second loop, LCStdHepRdrNew.cc:293-406; C++ division truncates *)
Definition link_daughters (e : hev) (i : Z) (l : parts) : Res parts :=
  do d1 <- elem (he_da e) (2 * i);
  do d2 <- elem (he_da e) (2 * i + 1);
  let fd := Z.rem d1 10000 - 1 in
  let ld := Z.rem d2 10000 - 1 in
  if (-1 <? fd) && (-1 <? ld) then
    if fd <=? ld then link_range i fd (Z.to_nat (ld + 1 - fd)) l
    else do l <- link_daughter i fd l; link_daughter i ld l
  else if -1 <? fd then
    if fd <? he_n e then link_daughter i fd l else Ok l
  else Ok l.

(** the particles of an incomplete decay, LCStdHepRdrNew.cc:437-457: from [k] on up to [i], which is not
    reached from above.  Returns the number of inconsistencies. *)
Fixpoint repair_from (fuel : nat) (k i outn : Z) (nic : Z) (l : parts) : Res (Z * parts) :=
  if i =? k then Ok (nic, l) else
  match fuel with
  | O => UB UBOutOfBounds
  | S fuel' =>
      do parent <- part l k;
      do mcp <- part l i;
      if (mc_gen parent =? 2) && match mc_daughters parent with [] => true | _ => false end && (Zlen (mc_parents mcp) <? outn) then
        do l <- add_parent i k l;
        repair_from fuel' (k + 1) i outn (nic - 1) l
      else repair_from fuel' (k + 1) i outn nic l
  end.
(** the third loop, LCStdHepRdrNew.cc:413-459 *)
Definition repair (e : hev) (i : Z) (nic : Z) (l : parts) : Res (Z * parts) :=
  do mcp <- part l i;
  let nic := if (mc_gen mcp =? 2) && match mc_daughters mcp with [] => true | _ => false end then nic + 1 else nic in
  if (0 <? nic) && (mc_pdg mcp =? 94) then
    do m1 <- elem (he_mo e) (2 * i);
    do d1 <- elem (he_da e) (2 * i);
    do d2 <- elem (he_da e) (2 * i + 1);
    let outn := Z.max 0 (Z.rem d2 10000 - Z.rem d1 10000 + 1) in
    repair_from (S (length l)) (Z.rem m1 10000 - 1) i outn nic l
  else Ok (nic, l).

(** a mother that does not list the particle yet, LCStdHepRdrNew.cc:468-473 and 476-481 *)
Definition link_mother (d p : Z) (l : parts) : Res parts :=
  do o <- part l p;
  if existsb (Z.eqb d) (mc_daughters o) then Ok l else add_parent d p l.
(** for all mothers from [p] on up to [last] *)
Fixpoint link_mothers_from (fuel : nat) (d p last : Z) (l : parts) : Res parts :=
  if last <? p then Ok l else
  match fuel with
  | O => UB UBOutOfBounds
  | S fuel' => do l <- link_mother d p l; link_mothers_from fuel' d (p + 1) last l
  end.
(** the last loop, LCStdHepRdrNew.cc:461-484 *)
Definition link_mothers (e : hev) (i : Z) (l : parts) : Res parts :=
  do m1 <- elem (he_mo e) (2 * i);
  do m2 <- elem (he_mo e) (2 * i + 1);
  let mom1 := s32 (m1 - 1) in
  let mom2 := s32 (m2 - 1) in
  if (0 <? mom1) && (mom2 =? -1) then link_mother i mom1 l
  else if (-1 <? mom1) && (-1 <? mom2) then link_mothers_from (S (length l)) i mom1 mom2 l
  else Ok l.

(** loops over all particles: [n] of them from [i] on, LCStdHepRdrNew.cc:162, 293, 414 and 461 *)
Fixpoint each (f : Z -> parts -> Res parts) (n : nat) (i : Z) (l : parts) : Res parts :=
  match n with
  | O => Ok l
  | S n' => do l <- f i l; each f n' (i + 1) l
  end.
Fixpoint repair_all (e : hev) (n : nat) (i : Z) (nic : Z) (l : parts) : Res parts :=
  match n with
  | O => Ok l
  | S n' => do '(nic, l) <- repair e i nic l; repair_all e n' (i + 1) nic l
  end.

(** the family links, LCStdHepRdrNew.cc:293-484 *)
Definition link_all (e : hev) (l : parts) : Res parts :=
  let n := length l in
  do l <- each (link_daughters e) n 0 l;
  do l <- repair_all e n 0 0 l;
  each (link_mothers e) n 0 l.
(** the particles of an event record, LCStdHepRdrNew.cc:124-486; [resize] with a negative number throws *)
Definition particles (e : hev) : Res parts :=
  if he_n e <? 0 then Throw StdLengthError else
  do l <- make_particles e (Z.to_nat (he_n e)) 0;
  link_all e l.

(** the collection: its parameters _idrup (if set) and _weight, and the particles, LCStdHepRdrNew.cc:125 and 153-160 *)
Record mccoll := mkMCC { cc_idrup : option Z; cc_weight : Z; cc_parts : parts }.
(** LCStdHepRdrNew::readEvent, LCStdHepRdrNew.cc:87-487: null at the end of the file *)
Definition hep_event (h : hep) : Res (option mccoll) * option hep :=
  match hep_read h with
  | Throw x => (Throw x, None)
  | UB k => (UB k, None)
  | Ok (c, h') =>
      if c =? 0 then
        ((do l <- particles (h_evt h');
          Ok (Some (mkMCC (if he_idrup (h_evt h') =? 0 then None else Some (s32 (he_idrup (h_evt h')))) (d2f (he_wgt (h_evt h'))) l))), Some h')
      else if c =? ENDOFFILE then (Ok None, Some h')
      else (Throw LIOException, Some h')
  end.
End Particles.
