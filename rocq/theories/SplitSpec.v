(** * Splitting the output: specification *)

From Verif Require Import Bytes StrMap SioModel SioSpec Ieee ObjModel EventModel EventFacts IndexModel FileModel FileSpec BitModel BitSpec SplitModel.

(** the name of the file with number [k]: three digits, or more without leading zero *)
Definition file_number (base ext : bytes) (k : Z) (n : bytes) : Prop :=
  exists c ds, numeral (c :: ds) k /\ (2 <= length ds)%nat /\ ((2 < length ds)%nat -> c <> Init.Byte.x30) /\
    n = base ++ [Init.Byte.x2e] ++ (c :: ds) ++ ext.

(** the calls between open and close, and the items they write with their compression levels *)
Definition inner (o : sop) : Prop := match o with SOpen _ | SClose => False | _ => True end.
Fixpoint written (level : Z) (l : list sop) : list (Z * witem) :=
  match l with
  | [] => []
  | SLevel z :: l' => written z l'
  | SWrite i :: l' => (level, i) :: written level l'
  | _ :: l' => written level l'
  end.

(** no file is open, and there are no entries left for an index *)
Definition idle (s : split) : Prop := sp_out s = None /\ exists raw, usable raw /\ sp_mgr s = new_mgr raw.

Section Split.
Context (comp : Z -> bytes -> bytes) (uncomp : bytes -> option bytes) (b1 b2 : buffer).

(** the number of bytes of items *)
Definition size_of (g : list (Z * witem)) : Z := Zlen (flat_map (item_text comp b1 b2) g).
(** items that can be written to one file *)
Definition group_ok (g : list (Z * witem)) : Prop :=
  Forall item_ok g /\ runs_close (map (fun zi => item_key (snd zi)) g) /\ Zlen g < 2 ^ 27 /\ size_of g < 2 ^ 61.
(** the items [g] are in the file [n], which was written by one SIOWriter *)
Definition holds_items (d : disk) (n : bytes) (g : list (Z * witem)) : Prop :=
  exists raw, usable raw /\ made_by comp uncomp d n (mkSess 0 raw b1 b2 g) [].
(** a file is left when it has more than [max] bytes, and not before; no file except the first is
    left empty *)
Definition split_at (max : Z) (groups : list (list (Z * witem))) : Prop :=
  forall k g, nth_error groups k = Some g ->
    ((S k < length groups)%nat -> max < size_of g) /\
    (forall g' x, g = g' ++ [x] -> g' <> [] -> size_of g' <= max) /\
    ((0 < k)%nat -> g <> []).
(** what a session with [LCSplitWriter] does: the calls in [ops] write their items to files numbered
    from 0, all other files stay as they are *)
Definition splits (base ext : bytes) (max : Z) (its : list (Z * witem)) (d d' : disk) (names : list bytes) (groups : list (list (Z * witem))) : Prop :=
  concat groups = its /\ groups <> [] /\
  (forall k n, nth_error names k = Some n -> file_number base ext (Z.of_nat k) n) /\ NoDup names /\
  Forall2 (holds_items d') names groups /\ split_at max groups /\
  (forall n, ~ In n names -> d' n = d n).

End Split.
(** the items with the names of their files *)
Definition labelled (names : list bytes) (groups : list (list (Z * witem))) : list (bytes * witem) :=
  flat_map (fun ng => map (fun zi => (fst ng, snd zi)) (snd ng)) (combine names groups).
(** no file with a number up to [N] exists *)
Definition free (d : disk) (base ext : bytes) (N : Z) : Prop := forall k n, 0 <= k <= N -> file_number base ext k n -> d n = None.
