(** * The Fortran interface: vectors, parameters and run headers

    Model of src/cpp/src/CPPFORT/lciof77apiext.cc (lines 61-147, 297-640), src/cpp/src/CPPFORT/lcvec.cc and
    src/cpp/include/CPPFORT/cpointer.h, as called by the wrappers of cfortran.h: an array of Fortran strings is handed
    over as a matrix of characters whose rows have one character more than the strings.  Warnings on std::cerr are left out.
    An array is the list of its elements, a matrix the list of its characters; accesses outside of them are undefined. *)

From Verif Require Import Bytes StrMap SioModel ObjModel EventModel ImplModel.

(** ** Objects *)

(** the content of a vector: int, float, pointer, std::string; LCIOSTLTypes.h and cpointer.h:17-18 *)
Inductive vval := VI (l : list Z) | VF (l : list Z) | VP (l : list Z) | VS (l : list bytes).
(** a vector: [fv_lc] if it is an LCIntVec, LCFloatVec, LCObjectVec or LCStrVec, which derive from LCObject and from the
    vector (src/cpp/include/pre-generated/EVENT/LCIntVec.h:24), otherwise a plain std::vector *)
Record fvec := mkFV { fv_lc : bool; fv_val : vval }.
(** the classes with parameters, lciof77apiext.cc:520-539 *)
Inductive fcls := CRun | CEvent | CColl.
(** the vectors and the parameters of run headers, events and collections of a program, by address *)
Record fstate := mkFS { f_vec : addr -> option fvec; f_par : addr -> option (fcls * params) }.

(** the element types of the functions: names of the functions, e.g. lciof77apiext.cc:389, 401, 413, 432 *)
Inductive fkind := KI | KF | KP | KS.
(** no code: the element type of a vector *)
Definition kind_of (v : vval) : fkind := match v with VI _ => KI | VF _ => KF | VP _ => KP | VS _ => KS end.
(** no code: comparison of element types *)
Definition kind_eqb (a b : fkind) : bool :=
  match a, b with KI, KI | KF, KF | KP, KP | KS, KS => true | _, _ => false end.

(** [reinterpret_cast<IntVec* >(vector)] etc. followed by an access: the object must be of this class,
    lciof77apiext.cc:446, lcvec.cc:10 *)
Definition as_class (h : addr -> option fvec) (lc : bool) (k : fkind) (p : addr) : Res vval :=
  if p =? 0 then UB UBNullDeref else
  match h p with
  | Some v => if Bool.eqb (fv_lc v) lc && kind_eqb (kind_of (fv_val v)) k then Ok (fv_val v) else UB UBPrecondition
  | None => UB UBPrecondition
  end.
(** [f2c_pointer<IntVec,LCObject>(vector)] etc. followed by an access, cpointer.h:25-32: the object must be an LCObject;
    the dynamic_cast gives null if it has no such base *)
Definition as_lcobject (h : addr -> option fvec) (k : fkind) (p : addr) : Res vval :=
  if p =? 0 then UB UBNullDeref else
  match h p with
  | Some v => if fv_lc v then if kind_eqb (kind_of (fv_val v)) k then Ok (fv_val v) else UB UBNullDeref
              else UB UBPrecondition
  | None => UB UBPrecondition
  end.

(** ** Strings of C *)

(** the constructor of std::string from [const char*], e.g. lciof77apiext.cc:419: up to the first NUL *)
Fixpoint c_string (l : bytes) : Res bytes :=
  match l with
  | [] => UB UBOutOfBounds
  | b :: r => if byte_dec b x00 then Ok [] else do s <- c_string r; Ok (b :: s)
  end.
(** what a user of [c_str()] sees of a std::string: up to the first NUL, lciof77apiext.cc:493 *)
Fixpoint c_str (s : bytes) : bytes :=
  match s with [] => [] | b :: r => if byte_dec b x00 then [] else b :: c_str r end.
(** a string at a place of a matrix, lciof77apiext.cc:419 *)
Definition string_at (mem : bytes) (pos : Z) : Res bytes :=
  if (pos <? 0) || (Zlen mem <? pos) then UB UBOutOfBounds else c_string (skipn (Z.to_nat pos) mem).
(** [strcpy], lciof77apiext.cc:495 *)
Definition strcpy (mem : bytes) (pos : Z) (s : bytes) : Res bytes :=
  let t := c_str s ++ [x00] in
  if (pos <? 0) || (Zlen mem <? pos + Zlen t) then UB UBOutOfBounds
  else Ok (firstn (Z.to_nat pos) mem ++ t ++ skipn (Z.to_nat (pos + Zlen t)) mem).
(** [int elemlen = nchstringv + 1], lciof77apiext.cc:320, 381, 415, 488 *)
Definition elemlen (nch : Z) : Res Z := if nch + 1 <? two31 then Ok (nch + 1) else UB UBOverflow.
(** the loop over the strings of a matrix, lciof77apiext.cc:323-328, 418-422, 74-79, 46-51 *)
Fixpoint read_rows (n : nat) (mem : bytes) (pos len : Z) : Res (list bytes) :=
  match n with
  | O => Ok []
  | S n' => do s <- string_at mem pos; do l <- read_rows n' mem (pos + len) len; Ok (s :: l)
  end.
(** the loop that copies strings to a matrix, lciof77apiext.cc:384-388, 491-496, 111-117 *)
Fixpoint write_rows (l : list bytes) (mem : bytes) (pos len : Z) : Res bytes :=
  match l with
  | [] => Ok mem
  | s :: l' => do mem' <- strcpy mem pos s; write_rows l' mem' (pos + len) len
  end.

(** ** Making vectors *)

(** the arguments: an array and the number of elements, or a matrix, the number of strings and their length *)
Inductive fargs := AI (a : list Z) (n : Z) | AF (a : list Z) (n : Z) | AP (a : list Z) (n : Z) | AS (mem : bytes) (n nch : Z).
(** the loop over an array, lciof77apiext.cc:308, 314, 391, 403, 434 *)
Definition read_array (a : list Z) (n : Z) : Res (list Z) :=
  if Zlen a <? n then UB UBOutOfBounds else Ok (firstn (Z.to_nat n) a).
(** lcintvectorcreate .. (306-329), intvectorcreate .. (389-436), lcobjectvectorcreate (297-304): the new content.
    The pointers are to LCObjects. *)
Definition make (g : fargs) : Res vval :=
  match g with
  | AI a n => do l <- read_array a n; Ok (VI l)
  | AF a n => do l <- read_array a n; Ok (VF l)
  | AP a n => do l <- read_array a n; Ok (VP l)
  | AS mem n nch => do e <- elemlen nch; do l <- read_rows (Z.to_nat n) mem 0 e; Ok (VS l)
  end.

(** ** Copying vectors to arrays *)

(** [vecLength], the number of elements to copy and the new value of the argument for the number, which are equal;
    lciof77apiext.cc:333-342, 447-455: [size] is converted to int *)
Definition copied (size n : Z) : Z := if n <? s32 size then n else s32 size.
(** the loop over the elements of an array, lciof77apiext.cc:343, 359, 457, 473, 514 *)
Definition fill (l a : list Z) (n : Z) : Res (list Z) :=
  if Zlen a <? n then UB UBOutOfBounds else Ok (firstn (Z.to_nat n) l ++ skipn (Z.to_nat n) a).
(** lcgetintvector (331-345), lcgetfloatvector (347-361), lcgetstringvector (364-387), getintvector .. getpointervector
    (445-516): the arguments after the call *)
Definition fetch (v : vval) (g : fargs) : Res fargs :=
  match v, g with
  | VI l, AI a n => let m := copied (Zlen l) n in do a' <- fill l a m; Ok (AI a' m)
  | VF l, AF a n => let m := copied (Zlen l) n in do a' <- fill l a m; Ok (AF a' m)
  | VP l, AP a n => let m := copied (Zlen l) n in do a' <- fill l a m; Ok (AP a' m)
  | VS l, AS mem n nch => let m := copied (Zlen l) n in
      do e <- elemlen nch; do mem' <- write_rows (firstn (Z.to_nat m) l) mem 0 e; Ok (AS mem' m nch)
  | _, _ => UB UBPrecondition
  end.
(** the element type of the function: as the arguments *)
Definition args_kind (g : fargs) : fkind := match g with AI _ _ => KI | AF _ _ => KF | AP _ _ => KP | AS _ _ _ => KS end.
(** the cast at the beginning of these functions: lcgetintvector and lcgetfloatvector use f2c_pointer (332, 348), the others
    reinterpret_cast (365, 446, 462, 479, 503); there is no such function for LCObjectVec *)
Definition fetch_from (h : addr -> option fvec) (lc : bool) (k : fkind) (p : addr) : Res vval :=
  match lc, k with
  | true, KI | true, KF => as_lcobject h k p
  | true, KP => UB UBPrecondition
  | _, _ => as_class h lc k p
  end.

(** ** Elements, lcvec.cc *)

(** the values that the functions of lcvec.cc return *)
Inductive felem := ENum (z : Z) | EStr (s : bytes).
(** lcivcgetlength .. (9, 19, 29), intvectorgetlength .. (41, 51, 61, 71) *)
Definition vec_length (v : vval) : Z :=
  match v with VI l | VF l | VP l => s32 (Zlen l) | VS l => s32 (Zlen l) end.
(** the element at [index-1] of the vector, lcvec.cc:16, 26, 36, 48, 58, 68, 78: [index-1] becomes a std::size_t *)
Definition vec_element (v : vval) (index : Z) : Res felem :=
  if index =? - two31 then UB UBOverflow else
  if index <? 1 then UB UBOutOfBounds else
  match v with
  | VI l | VF l | VP l => match nth_error l (Z.to_nat (index - 1)) with Some z => Ok (ENum z) | None => UB UBOutOfBounds end
  | VS l => match nth_error l (Z.to_nat (index - 1)) with Some s => Ok (EStr (c_str s)) | None => UB UBOutOfBounds end
  end.

(** ** Parameters *)

(** LCIO::ERROR and LCIO::SUCCESS, cmake/LCIO.h.in:99-100 *)
Definition f_error : Z := 0.
Definition f_success : Z := 1.
(** do_set_method, lciof77apiext.cc:561-582; parameters() never is read only, see ImplModel *)
Definition set_method (h : addr -> option fvec) (p : params) (method key : bytes) (vec : addr) : Res (params * Z) :=
  if bytes_dec method (str "setIntValues") then
    do v <- as_class h false KI vec; match v with VI l => Ok (fst (par_do false p (P_setInts key l)), f_success) | _ => UB UBPrecondition end
  else if bytes_dec method (str "setFloatValues") then
    do v <- as_class h false KF vec; match v with VF l => Ok (fst (par_do false p (P_setFloats key l)), f_success) | _ => UB UBPrecondition end
  else if bytes_dec method (str "setStringValues") then
    do v <- as_class h false KS vec; match v with VS l => Ok (fst (par_do false p (P_setStrings key l)), f_success) | _ => UB UBPrecondition end
  else Ok (p, f_error).
(** do_get_method, lciof77apiext.cc:584-621: the vector after the call; all functions append to it *)
Definition get_method (h : addr -> option fvec) (p : params) (method key : bytes) (vec : addr) : Res (option vval * Z) :=
  let strings (f : list bytes -> list bytes) :=
    do v <- as_lcobject h KS vec; match v with VS l => Ok (Some (VS (f l)), f_success) | _ => UB UBPrecondition end in
  if bytes_dec method (str "getIntValues") then
    do v <- as_lcobject h KI vec; match v with VI l => Ok (Some (VI (par_vals (p_int p) key l)), f_success) | _ => UB UBPrecondition end
  else if bytes_dec method (str "getFloatValues") then
    do v <- as_lcobject h KF vec; match v with VF l => Ok (Some (VF (par_vals (p_flt p) key l)), f_success) | _ => UB UBPrecondition end
  else if bytes_dec method (str "getStringValues") then strings (par_vals (p_str p) key)
  else if bytes_dec method (str "getIntKeys") then strings (par_keys (p_int p))
  else if bytes_dec method (str "getFloatKeys") then strings (par_keys (p_flt p))
  else if bytes_dec method (str "getStringtKeys") then strings (par_keys (p_str p))
  else Ok (None, f_error).
(** LCIO::LCRUNHEADER, LCEVENT and LCCOLLECTION, src/cpp/src/IMPL/LCIO.cc:43-45, compared in lciof77apiext.cc:522-532 *)
Definition class_of (name : bytes) : option fcls :=
  if bytes_dec name (str "LCRunHeader") then Some CRun else
  if bytes_dec name (str "LCEvent") then Some CEvent else
  if bytes_dec name (str "LCCollection") then Some CColl else None.
(** no code: comparison of classes *)
Definition fcls_eqb (a b : fcls) : bool := match a, b with CRun, CRun | CEvent, CEvent | CColl, CColl => true | _, _ => false end.
(** [reinterpret_cast<LCEventImpl* >(classp)->parameters()] etc., lciof77apiext.cc:523-533, 543-553 *)
Definition pars_of (s : fstate) (c : fcls) (obj : addr) : Res params :=
  if obj =? 0 then UB UBNullDeref else
  match f_par s obj with Some (c', p) => if fcls_eqb c c' then Ok p else UB UBPrecondition | None => UB UBPrecondition end.

(** ** Programs *)

(** the calls.  [lc]: the function for LCIntVec etc.; [a]: the address that [new] returns *)
Inductive fcall :=
| F_create (lc : bool) (g : fargs) (a : addr)
| F_delete (k : fkind) (p : addr)
| F_fetch (lc : bool) (p : addr) (g : fargs)
| F_length (lc : bool) (k : fkind) (p : addr)
| F_element (lc : bool) (k : fkind) (p : addr) (index : Z)
| F_set (cls : bytes) (obj : addr) (method key : bytes) (p : addr)
| F_get (cls : bytes) (obj : addr) (method key : bytes) (p : addr).
(** what the program sees: a number (pointer, status, length), the arguments after the call, or an element *)
Inductive fout := ONum (z : Z) | OArgs (status : Z) (g : fargs) | OElem (e : felem).

(** [new] and [delete]: no code of its own; a deleted address is free *)
Definition forget {A} (f : addr -> option A) (a : addr) : addr -> option A := fun b => if b =? a then None else f b.

(** one call.  [new] never returns an address in use; such a call stands for no execution and is given the outcome of a
    failing [new].  The functions return the results of the definitions above. *)
Definition fstep (s : fstate) (c : fcall) : Res (fstate * fout) :=
  match c with
  | F_create lc g a => (* lciof77apiext.cc:297-329, 389-436 *)
      match (if a =? 0 then None else Some (f_vec s a)) with
      | Some None => do v <- make g; Ok (mkFS (put (f_vec s) a (mkFV lc v)) (f_par s), ONum a)
      | _ => Throw EBadAlloc
      end
  | F_delete k p => (* lciof77apiext.cc:395-399, 407-411, 426-430, 438-442; deleting null does nothing *)
      if p =? 0 then Ok (s, ONum f_success)
      else do v <- as_class (f_vec s) false k p; Ok (mkFS (forget (f_vec s) p) (f_par s), ONum f_success)
  | F_fetch lc p g => (* 331-387, 445-516 *)
      do v <- fetch_from (f_vec s) lc (args_kind g) p; do g' <- fetch v g; Ok (s, OArgs f_success g')
  | F_length lc k p => (* lcvec.cc *)
      do v <- as_class (f_vec s) lc k p; Ok (s, ONum (vec_length v))
  | F_element lc k p index => (* lcvec.cc *)
      do v <- as_class (f_vec s) lc k p; do e <- vec_element v index; Ok (s, OElem e)
  | F_set cls obj method key p => (* lciof77apiext.cc:520-538 *)
      match class_of cls with
      | None => Ok (s, ONum f_error)
      | Some c => do pr <- pars_of s c obj; do r <- set_method (f_vec s) pr method key p;
                  Ok (mkFS (f_vec s) (put (f_par s) obj (c, fst r)), ONum (snd r))
      end
  | F_get cls obj method key p => (* lciof77apiext.cc:540-559 *)
      match class_of cls with
      | None => Ok (s, ONum f_error)
      | Some c => do pr <- pars_of s c obj; do r <- get_method (f_vec s) pr method key p;
                  match fst r with
                  | None => Ok (s, ONum (snd r))
                  | Some v => Ok (mkFS (put (f_vec s) p (mkFV true v)) (f_par s), ONum (snd r))
                  end
      end
  end.
(** a sequence of calls: no code of its own *)
Fixpoint frun (s : fstate) (l : list fcall) : Res (fstate * list fout) :=
  match l with
  | [] => Ok (s, [])
  | c :: l' => do r <- fstep s c; do r' <- frun (fst r) l'; Ok (fst r', snd r :: snd r')
  end.

(** ** Run headers and the headers of events *)

(** lcwriterunheader, lciof77apiext.cc:61-87: the header that is written; the arguments are strings of C *)
Definition f_write_run (irun : Z) (det desc : bytes) (mem : bytes) (nsub nch : Z) : Res runhdr :=
  do e <- elemlen nch; do l <- read_rows (Z.to_nat nsub) mem 0 e;
  Ok (mkRun irun det desc l no_params).
(** lcreadnextrunheader, lciof77apiext.cc:89-127, on the header of readNextRunHeader, [None] for the null pointer at the end
    of the file: number, detector name, description, subdetectors and their number after the call *)
Definition f_read_run (h : option runhdr) (det desc mem : bytes) (nch : Z) : Res (Z * bytes * bytes * bytes * Z) :=
  match h with
  | None => UB UBNullDeref
  | Some h =>
      do det' <- strcpy det 0 (rh_det h); do desc' <- strcpy desc 0 (rh_desc h);
      do e <- elemlen nch; do mem' <- write_rows (rh_subs h) mem 0 e;
      Ok (rh_run h, det', desc', mem', s32 (Zlen (rh_subs h)))
  end.
