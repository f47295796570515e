(** * Lazily unpacked events

    Model of src/cpp/src/IOIMPL/LCEventLazyImpl.cc and of the read accesses of its base class
    src/cpp/src/IMPL/LCEventImpl.cc.  A lazily unpacked event has its header, and keeps the event
    record until a collection is asked for.

    The collections of the event are its own objects, made by the event header; a collection added by
    the program is not modelled, the handlers of the blocks always write to the collections of the
    event.  After an exception while the blocks are decoded the collections are filled in part: the
    state of the event is not known in the model from then on. *)

From Verif Require Import Bytes StrMap SioModel Ieee ObjModel EventModel IndexModel FileModel.
From Verif Require ImplModel.

(** ** The base class *)

(** the members of LCEventImpl, src/cpp/include/IMPL/LCEventImpl.h:174-186, the objects in memory, and the
    objects that setReadOnly( true ) was called on (AccessChecked.cc:14-16) *)
Record base := mkBase { b_evt : event; b_heap : heap; b_locked : list addr }.

(** what a program may ask of an event that was read,
    src/cpp/include/IOIMPL/LCEventLazyImpl.h:43-61, src/cpp/src/IMPL/LCEventImpl.cc:35-142 *)
Inductive access : Type :=
| ARun | AEvent | ADetector | ATime | AWeight | AParameters
| ANames                                  (* getCollectionNames *)
| AGet (n : bytes)                        (* getCollection, and reading everything in it *)
| ATake (n : bytes)                       (* takeCollection *)
| AModify (n : bytes) (i : nat)           (* a set method of the i-th element of a collection *)
| ARemove (n : bytes).                    (* removeCollection, the event is not read only *)

(** what it gets: the collection comes with the memory that its elements live in,
    the results of the functions of LCEventImpl.cc:35-142 *)
Inductive answer : Type :=
| NInt (v : Z) | NText (s : bytes) | NPars (p : params) | NNames (l : list bytes) | NColl (c : coll) (h : heap) | NDone.

(** setTransient( true ), src/cpp/src/IMPL/LCCollectionVec.cc:68-71 *)
Definition transient (c : coll) : coll := mkColl (c_type c) (Z.lor (c_flag c) (2 ^ BITTransient)) (c_par c) (c_elems c).
(** the event with other collections *)
Definition with_cols (b : base) (cols : list (bytes * coll)) : base :=
  let e := b_evt b in mkBase (mkEvt (ev_run e) (ev_num e) (ev_time e) (ev_det e) (ev_par e) cols) (b_heap b) (b_locked b).
(** getWeight, LCEventImpl.cc:54-57, see ImplModel *)
Definition weight (p : params) : Res Z :=
  do w <- ImplModel.par_val 0 (p_flt p) ImplModel.evt_wgt;
  Ok (if (w =? 0) || (w =? two31) then 1065353216 else w).

(** LCEventImpl.cc:35-140; checkAccess of the elements, src/cpp/src/IMPL/AccessChecked.cc:18-26 *)
Definition base_do (b : base) (a : access) : Res answer * base :=
  let e := b_evt b in
  match a with
  | ARun => (Ok (NInt (ev_run e)), b)
  | AEvent => (Ok (NInt (ev_num e)), b)
  | ADetector => (Ok (NText (ev_det e)), b)
  | ATime => (Ok (NInt (ev_time e)), b)
  | AWeight => ((do w <- weight (ev_par e); Ok (NInt w)), b)
  | AParameters => (Ok (NPars (ev_par e)), b)
  | ANames => (Ok (NNames (sm_keys (ev_cols e))), b)
  | AGet n => match sm_get n (ev_cols e) with
              | Some c => (Ok (NColl c (b_heap b)), b)
              | None => (Throw LDataNotAvailable, b)
              end
  | ATake n => match sm_get n (ev_cols e) with
               | Some c => (Ok (NColl (transient c) (b_heap b)), with_cols b (sm_set n (transient c) (ev_cols e)))
               | None => (Throw LDataNotAvailable, b)
               end
  | AModify n i => match sm_get n (ev_cols e) with
                   | Some c => match nth_error (c_elems c) i with
                               | Some x => (if existsb (Z.eqb x) (b_locked b) then Throw LReadOnly else Ok NDone, b)
                               | None => (Throw StdOutOfRange, b)
                               end
                   | None => (Throw LDataNotAvailable, b)
                   end
  | ARemove n => (Ok NDone, with_cols b (sm_del n (ev_cols e)))
  end.

(** setAccessMode, LCEventImpl.cc:174-190, called by the reader (LCReader.cc:203-204); LCCollectionVec::setReadOnly,
    LCCollectionVec.cc:20-31, passes the mode on to the elements that the collection has at the time *)
Definition lock (readonly : bool) (e : event) : list addr :=
  if readonly then flat_map (fun nc => c_elems (snd nc)) (ev_cols e) else [].

(** an event that was unpacked by the reader, LCReader.cc:157-176 and 203-204 *)
Definition immediate (readonly : bool) (l : levent) : base := mkBase (le_evt l) (le_heap l) (lock readonly (le_evt l)).
(** no code of its own: a program that uses LCEventImpl.cc:35-142 *)
Fixpoint base_run (b : base) (l : list access) : list (Res answer) :=
  match l with
  | [] => []
  | a :: l' => let (r, b') := base_do b a in r :: base_run b' l'
  end.

(** ** LCEventLazyImpl *)

(** a block handler: name and type of the collection, or a null pointer, LCEventLazyImpl.cc:106-114 and 32 *)
Definition slot := option (bytes * bytes).
(** the members, src/cpp/include/IOIMPL/LCEventLazyImpl.h:66-79 *)
Record lazyev := mkLz {
  lz_base : base; lz_rec : option (record_info * bytes); lz_blocks : list slot; lz_unpacked : bool }.

(** the constructor, LCReader.cc:153 *)
Definition lz_new (b : base) : lazyev := mkLz b None [] false.
(** setupBlocks, LCEventLazyImpl.cc:106-114 *)
Definition setup_blocks (e : event) : list slot := map (fun nc => Some (fst nc, c_type (snd nc))) (ev_cols e).
(** setBuffer, LCEventLazyImpl.cc:38-48; [shrink] does not change the size *)
Definition set_buffer (ri : record_info) (buf : bytes) (z : lazyev) : Res lazyev :=
  match lz_rec z with
  | Some _ => Throw LIOException
  | None => Ok (mkLz (lz_base z) (Some (ri, buf)) (lz_blocks z ++ setup_blocks (b_evt (lz_base z))) (lz_unpacked z))
  end.
(** [buffer::span( start )], sio/src/buffer.cc:379-387 *)
Definition span_from (l : bytes) (start : Z) : Res bytes :=
  if Zlen l <? start then Throw EOutOfRange else Ok (skipn (Z.to_nat start) l).

(** what the search for a handler finds (sio/src/api.cc:291-293): a null pointer is dereferenced *)
Inductive found (A : Type) : Type := FNone | FSome (b : rblock A) | FNull.
Arguments FNone {A}. Arguments FSome {A}. Arguments FNull {A}.
Fixpoint find_slot {A} (name : bytes) (blocks : list (option (rblock A))) : found A :=
  match blocks with
  | [] => FNone
  | None :: _ => FNull
  | Some b :: bs => if bytes_eqb (rb_name b) name then FSome b else find_slot name bs
  end.
(** [api::read_blocks], sio/src/api.cc:277-309, with block handlers some of which may be null pointers *)
Fixpoint read_slots_loop {A} (fuel : nat) (rec_buf : bytes) (blocks : list (option (rblock A)))
    (pos : Z) (at_ : list (Z * addr)) (next : addr)
  : Res (list (bytes * A) * list (Z * addr) * addr) :=
  match fuel with
  | O => UB UBDiverge
  | S fuel' =>
      if Zlen rec_buf <=? pos then Ok ([], at_, next) else
      do '(info, sp) <- extract_block rec_buf pos;
      match find_slot (bi_name info) blocks with
      | FNull => UB UBNullDeref
      | FNone =>
          if bi_end info =? pos then UB UBDiverge else
          read_slots_loop fuel' rec_buf blocks (bi_end info) at_ next
      | FSome blk =>
          do '(_, d) <- r_seek (bi_hlen info) (mkR sp 0 at_ next);
          do '(a, d') <- rethrow EIoFailure (rb_read blk (bi_version info) d);
          do '(rest, at2, next2) <-
             read_slots_loop fuel' rec_buf blocks (bi_end info) (r_at d') (r_next d');
          Ok ((bi_name info, a) :: rest, at2, next2)
      end
  end.
Definition read_slots {A} (rec_buf : bytes) (blocks : list (option (rblock A))) (next : addr)
  : Res (list (bytes * A) * list (Z * addr) * addr) :=
  read_slots_loop (S (length rec_buf)) rec_buf blocks 0 [] next.

Section Reading.
(** zlib and the sort of the particle ids, see IndexModel and ObjModel; the environment variable
    LCIO_IGNORE_NULL_IN_SUBSET_COLLECTIONS; the first free address when the event is unpacked *)
Context (uncomp : bytes -> option bytes) (srt : forall A : Type, (A -> Z) -> list A -> list A) (ignore_null : bool) (next : addr).

(** SIOCollectionHandler, see [coll_handlers] of EventModel, SIOCollectionHandler.cc:16-20 *)
Definition slot_handler (s : slot) : option (rblock rcoll) :=
  match s with
  | None => None
  | Some (n, ty) => Some (mkRB n (fun vers => match get_handler ty with
                                              | Some t => read_coll srt t vers
                                              | None => rub UBNullDeref
                                              end))
  end.

(** the data of the record, LCEventLazyImpl.cc:59-71; a buffer of size 0 cannot be constructed
    (sio/src/buffer.cc:159-164) *)
Definition lz_data (ri : record_info) (buf : bytes) : Res bytes :=
  if is_compressed (ri_options ri) then
    if ri_ulen ri =? 0 then Throw EInvalidArgument else
    do data <- span_from buf (ri_hlen ri);
    uncompress uncomp data (ri_ulen ri) (zeros (Z.to_nat (ri_ulen ri)))
  else span_from buf (ri_hlen ri).

(** read_blocks with the handlers of the event, LCEventLazyImpl.cc:67 and 70 *)
Definition lz_blocks_read (data : bytes) (z : lazyev) : Res (event * heap) :=
  let e := b_evt (lz_base z) in
  do '(out, at_, _) <- read_slots data (map slot_handler (lz_blocks z)) next;
  if repeats (map fst out) then UB UBPrecondition else
  let out := map (fun x => (fst x, reloc_rcoll at_ (snd x))) out in
  Ok (mkEvt (ev_run e) (ev_num e) (ev_time e) (ev_det e) (ev_par e) (filled (ev_cols e) out),
      heap_of (flat_map (fun x => rc_objs (snd x)) out)).

(** unpackEvent, LCEventLazyImpl.cc:52-76, with postProcessEvent (80-102): the relations are restored before
    the check for null pointers throws, and the event counts as unpacked before that.  Without a state:
    it is not modelled (see above). *)
Definition unpack (z : lazyev) : Res unit * option lazyev :=
  if lz_unpacked z then (Ok tt, Some z) else
  match lz_rec z with
  | None => (Throw LIOException, Some z)
  | Some (ri, buf) =>
      match lz_data ri buf with
      | Throw x => (Throw x, Some z)
      | UB k => (UB k, None)
      | Ok data =>
          match lz_blocks_read data z with
          | Throw x => (Throw x, None)
          | UB k => (UB k, None)
          | Ok (e, h) =>
              match restore h (ev_cols e) with
              | Throw x => (Throw x, None)
              | UB k => (UB k, None)
              | Ok h' =>
                  let z' := mkLz (mkBase e h' (b_locked (lz_base z))) (Some (ri, [])) (lz_blocks z) true in
                  (if negb ignore_null && null_in_subset (ev_cols e) then Throw LException else Ok tt, Some z')
              end
          end
      end
  end.

(** [std::remove_if] without [erase], LCEventLazyImpl.cc:32: the handlers behind the removed one move up by
    one place, which leaves a null pointer in the last place; if the removed one is the last, nothing
    moves.  The names are distinct.  A null pointer is dereferenced. *)
Fixpoint moved_up (n : bytes) (l : list slot) : Res (list slot) :=
  match l with
  | [] => Ok []
  | None :: _ => UB UBNullDeref
  | Some (m, ty) :: l' =>
      if bytes_eqb m n then
        if existsb (fun s => match s with None => true | Some _ => false end) l' then UB UBNullDeref else
        Ok (match l' with [] => [Some (m, ty)] | _ => l' ++ [None] end)
      else do l2 <- moved_up n l'; Ok (Some (m, ty) :: l2)
  end.

(** the methods of LCEventLazyImpl: getCollection (LCEventLazyImpl.cc:17-20) and takeCollection (24-27) unpack the event
    first, removeCollection (31-34) does not; a modification begins with getCollection.  Everything else
    is inherited. *)
Definition with_base (z : lazyev) (b : base) : lazyev := mkLz b (lz_rec z) (lz_blocks z) (lz_unpacked z).
Definition unpacks (a : access) : bool := match a with AGet _ | ATake _ | AModify _ _ => true | _ => false end.
Definition inherited (z : lazyev) (a : access) : Res answer * option lazyev :=
  let (r, b) := base_do (lz_base z) a in (r, Some (with_base z b)).
Definition lazy_do (z : lazyev) (a : access) : Res answer * option lazyev :=
  if unpacks a then
    match unpack z with
    | (Ok _, Some z') => inherited z' a
    | (Ok _, None) => (UB UBUninit, None)
    | (Throw x, z') => (Throw x, z')
    | (UB k, z') => (UB k, z')
    end
  else
    match a with
    | ARemove n =>
        match moved_up n (lz_blocks z) with
        | Ok l => inherited (mkLz (lz_base z) (lz_rec z) l (lz_unpacked z)) a
        | Throw x => (Throw x, None)
        | UB k => (UB k, None)
        end
    | _ => inherited z a
    end.
Fixpoint lazy_run (z : option lazyev) (l : list access) : list (Res answer) :=
  match l, z with
  | a :: l', Some z => let (r, z') := lazy_do z a in r :: lazy_run z' l'
  | _, _ => []
  end.

(** the event that the reader delivers in lazy mode: the event of the header gets the buffer
    (LCReader.cc:166-172), then the access mode is set (203-204) *)
Definition lazy_event (readonly : bool) (l : levent) : Res lazyev :=
  match le_rec l with
  | None => Throw LIOException
  | Some (ri, buf) =>
      do z <- set_buffer ri buf (lz_new (mkBase (le_evt l) (le_heap l) []));
      Ok (with_base z (mkBase (le_evt l) (le_heap l) (lock readonly (le_evt l))))
  end.
End Reading.
