(** * The run/event index: specification *)

From Coq Require Import Sorted.
From Verif Require Import Bytes StrMap SioModel SioSpec Ieee ObjModel ObjSpec EventModel EventSpec IndexModel.

(** ** Run and event numbers *)

Definition key_ok (k : runevt) : Prop := int32 (fst k) /\ int32 (snd k).
(** An entry: run and event number (negative for run headers), and position.  Entries with
    negative event numbers are told apart by their run number only. *)
Definition same_key (a b : runevt) : Prop := a = b \/ (snd a < 0 /\ snd b < 0 /\ fst a = fst b).
Definition same_keyb (a b : runevt) : bool :=
  (fst a =? fst b) && ((snd a =? snd b) || ((snd a <? 0) && (snd b <? 0))).
Definition entry_ok (e : runevt * Z) : Prop := key_ok (fst e) /\ int64 (snd e).

(** the index after the entries [l] were added *)
Definition index_of (l : list (runevt * Z)) : remap := fold_left (fun m e => rm_add m (fst e) (snd e)) l no_remap.
(** the position that was given last for a key *)
Definition last_position (k : runevt) (l : list (runevt * Z)) : option Z :=
  fold_left (fun r e => if same_keyb (fst e) k then Some (snd e) else r) l None.

(** lexicographic order of events *)
Definition evt_lt (a b : Z * Z) : Prop := fst a < fst b \/ (fst a = fst b /\ snd a < snd b).

(** ** What the writer of the index relies on

    It looks at the first and at the last entry only: if these have the same run number, it stores
    this number once; if the second is not more than 2^31-1 bytes behind the first, it stores
    32-bit offsets to the position of the first entry. *)
Definition covers (l : list (runevt * Z)) : Prop :=
  match l with
  | [] => True
  | f :: _ =>
      let z := last l f in
      (fst (fst f) = fst (fst z) -> forall e, In e l -> fst (fst e) = fst (fst f)) /\
      (fst (fst f) <> fst (fst z) -> forall e, In e l -> int32 (fst (fst e) - fst (fst f))) /\
      (snd z - snd f < 2 ^ 31 -> forall e, In e l -> int32 (snd e - snd f)) /\
      (forall e, In e l -> int64 (snd e - snd f))
  end.

(** ** Random access records *)

Definition racc_ok (a : racc) : Prop :=
  key_ok (ra_min a) /\ key_ok (ra_max a) /\ int32 (ra_nrun a) /\ int32 (ra_nevt a) /\ int32 (ra_order a) /\
  int64 (ra_index a) /\ int64 (ra_prev a) /\ int64 (ra_next a) /\ int64 (ra_first a).
