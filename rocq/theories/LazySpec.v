(** * What lazily unpacked events are compared with *)

From Verif Require Import Bytes SioModel ObjModel EventModel IndexModel FileModel FileSpec LazyModel.

(** read accesses: everything but modifications of elements and removeCollection *)
Definition reads (a : access) : bool := match a with AModify _ _ | ARemove _ => false | _ => true end.

(** a compressed record has data, and gives it back in full *)
Definition intact (uncomp : bytes -> option bytes) (ri : record_info) (buf : bytes) : Prop :=
  is_compressed (ri_options ri) = true ->
  0 < ri_ulen ri /\ exists d, uncomp (sub buf (ri_hlen ri) (ri_dlen ri)) = Some d /\ Zlen d = ri_ulen ri.

(** a reader, and the same reader with setReadMode "lazy unpack" (LCReader.cc:31-39) *)
Definition lazily (r : reader) : reader :=
  mkRd (rd_s r) (rd_raw r) (rd_comp r) (rd_files r) (rd_idx r) (rd_direct r) true (rd_mgr r) (rd_names r) (rd_max r) (rd_next r).

(** [z], delivered in lazy mode, answers all read accesses like [l], when it is unpacked into memory
    from [next] on, provided that its record is intact *)
Definition answers_like uncomp srt ignore_null (next : addr) (readonly : bool) (l z : levent) : Prop :=
  forall ri buf, le_rec z = Some (ri, buf) -> intact uncomp ri buf ->
  exists ev, lazy_event readonly z = Ok ev /\
    forall accs, forallb reads accs = true ->
      lazy_run uncomp srt ignore_null next (Some ev) accs = base_run (immediate readonly l) accs.

(** the outcomes of the same call with a reader and the same reader in lazy mode *)
Inductive alike uncomp srt ignore_null (next : addr) (readonly : bool)
  : Res (option levent) * reader -> Res (option levent) * reader -> Prop :=
| AL_event l r z rz : le_rec l = None -> (exists rec, le_rec z = Some rec) -> rd_s rz = rd_s r ->
    answers_like uncomp srt ignore_null next readonly l z ->
    alike uncomp srt ignore_null next readonly (Ok (Some l), r) (Ok (Some z), rz)
| AL_none r : alike uncomp srt ignore_null next readonly (Ok None, r) (Ok None, lazily r)
| AL_throw e ez r rz : alike uncomp srt ignore_null next readonly (Throw e, r) (Throw ez, rz)
| AL_ub k r rz : alike uncomp srt ignore_null next readonly (UB k, r) (UB k, rz)
(** the event record cannot be unpacked: with an intact record the first access that needs it fails in the same way *)
| AL_late x r z rz : (exists rec, le_rec z = Some rec) -> (forall o, x <> Ok o) ->
    (forall ri buf, le_rec z = Some (ri, buf) -> intact uncomp ri buf ->
      exists ev, lazy_event readonly z = Ok ev /\
        forall a, unpacks a = true -> fst (lazy_do uncomp srt ignore_null next ev a) = match x with Ok _ => UB UBUninit | Throw e => Throw e | UB k => UB k end) ->
    alike uncomp srt ignore_null next readonly (x, r) (Ok (Some z), rz).

(** the result of a call in the usual mode, and that of the same call in lazy mode: an event whose
    record is not an empty compressed one answers all read accesses alike *)
Definition same_result uncomp srt ignore_null (readonly : bool) (x y : result) : Prop :=
  match x, y with
  | REvt (Some l), REvt (Some z) =>
      exists next ri buf, le_rec z = Some (ri, buf) /\
        ((is_compressed (ri_options ri) = true -> ri_ulen ri <> 0) ->
         exists ev, lazy_event readonly z = Ok ev /\
           forall accs, forallb reads accs = true ->
             lazy_run uncomp srt ignore_null next (Some ev) accs = base_run (immediate readonly l) accs)
  | _, _ => x = y
  end.
