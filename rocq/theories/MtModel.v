(** * A writer object of MT: any sequence of calls

    Model of the members of MT::LCWriter, src/cpp/src/MT/LCWriter.cc, called one after the other in any order
    and going on after exceptions (for calls of several threads at the same time see ThreadModel). *)

From Verif Require Import Bytes StrMap SioModel Ieee ObjModel EventModel IndexModel FileModel FileSpec ThreadModel WriterModel.

(** open( name ), open( name, mode ), setCompressionLevel, writeRunHeader and writeEvent with the names of
    collections, close.  src/cpp/include/MT/LCWriter.h:57-97 *)
Inductive mtcall : Type :=
| MCreate (name : bytes) | MOpen (name : bytes) (mode : Z) | MLevel (level : Z) | MWrite (i : witem) | MClose.

(** the members of LCWriter.h:103-113: the disk, the stream, the manager and the level are those of [wobj] of
    WriterModel (whose buffer is not used); whether there is a manager; the size of new buffers *)
Record mobj := mkMO { mo_w : wobj; mo_there : bool; mo_max : Z }.
(** the constructor, LCWriter.h:45 and 105-113: the level is -1, there is no manager; [max] is 2465792, in the
    model it can be any size *)
Definition new_mobj (d : disk) (raw : buffer) (max : Z) : mobj := mkMO (mkWO d None true (new_mgr raw) raw (-1)) false max.

Section Mt.
Context (comp : Z -> bytes -> bytes) (uncomp : bytes -> option bytes) (mraw : buffer).

(** open( name, mode ), LCWriter.cc:37-80: a new manager with the buffer [mraw], then as SIOWriter.cc:55-92, of
    which it is a copy *)
Definition mt_open (w : mobj) (name : bytes) (mode : Z) : Res unit * mobj :=
  let '(r, w1) := wo_open uncomp (WriterModel.set_mgr (mo_w w) (new_mgr mraw)) name mode in (r, mkMO w1 true (mo_max w)).
(** open( name ), LCWriter.cc:21-33 *)
Definition mt_create (w : mobj) (name : bytes) : Res unit * mobj :=
  match wo_disk (mo_w w) (sio_filename name) with
  | Some _ => (Throw LIOException, w)
  | None => mt_open w name 0
  end.
(** writeRunHeader and writeEvent, LCWriter.cc:90-136 and 146-198: all records are made before the stream is
    looked at *)
Definition mt_write (w : mobj) (i : witem) : Res unit * mobj :=
  let v := mo_w w in
  match (do '(raws, key) <- raw_item (mo_max w) i;
         do recs <- (if negb (wo_level v =? 0) then comp_texts comp (wo_level v) raws else Ok (map plain_text raws));
         Ok (recs, key, last_size raws)) with
  | Throw e => (Throw e, w)
  | UB k => (UB k, w)
  | Ok (recs, key, size) =>
      match wo_stream v with
      | None => (Throw LIOException, w)
      | Some (n, o) =>
          if negb (wo_good v) then (Throw EBadState, w)
          else if negb (mo_there w) then (UB UBNullDeref, w)
          else
            let v1 := put_stream v n (fold_left o_write recs o) in
            (Ok tt, mkMO (WriterModel.set_mgr v1 (mg_add (wo_mgr v) key (o_pos o))) true (if mo_max w <? size then u32 size else mo_max w))
      end
  end.
(** close, LCWriter.cc:202-208: the manager is used without a test and is gone afterwards *)
Definition mt_close (w : mobj) : Res unit * mobj :=
  if negb (mo_there w) then (UB UBNullDeref, w)
  else
    match wo_close (mo_w w) with
    | (Ok u, w1) => (Ok u, mkMO w1 false (mo_max w))
    | (r, w1) => (r, mkMO w1 true (mo_max w))
    end.
(** one call; setCompressionLevel is LCWriter.cc:84-86 *)
Definition mt_do (w : mobj) (c : mtcall) : Res unit * mobj :=
  match c with
  | MCreate name => mt_create w name
  | MOpen name mode => mt_open w name mode
  | MLevel z => let v := mo_w w in (Ok tt, mkMO (mkWO (wo_disk v) (wo_stream v) (wo_good v) (wo_mgr v) (wo_raw v) z) (mo_there w) (mo_max w))
  | MWrite i => mt_write w i
  | MClose => mt_close w
  end.
(** a program that goes on after an exception, no code of its own: calls of LCWriter.cc:21-208 *)
Fixpoint mt_all (w : mobj) (l : list mtcall) : list (Res unit) * mobj :=
  match l with
  | [] => ([], w)
  | c :: l' =>
      let '(r, w1) := mt_do w c in
      match r with
      | UB _ => ([r], w1)
      | _ => let '(rs, w2) := mt_all w1 l' in (r :: rs, w2)
      end
  end.
End Mt.
