(** * What is expected of relations *)
From Coq Require Import ZArith List Bool.
From Verif Require Import Bytes SioModel ObjModel NavModel.
Import ListNotations.
Open Scope Z_scope.

(** ** The navigator *)

(** the weight of the relation of [f] with [t] after a history of calls, [None]: not related *)
Definition weight_after (fadd : Z -> Z -> Z) (cs : list nav_call) (f t : addr) : option Z :=
  fold_left (fun o c =>
    match c with
    | NAdd f' t' w => if (f' =? f) && (t' =? t) then Some (match o with None => w | Some v => fadd v w end) else o
    | NRemove f' t' => if (f' =? f) && (t' =? t) then None else o
    | _ => o
    end) cs None.
(** object [b] with weight [w] in an answer given as two vectors *)
Definition related (objs : list addr) (ws : list Z) (b : addr) (w : Z) : Prop :=
  exists i, nth_error objs i = Some b /\ nth_error ws i = Some w.
(** the answers of a navigator *)
Definition to_objects (n : nav) (a : addr) : list addr := snd (nav_to_objects n a).
Definition to_weights (n : nav) (a : addr) : list Z := snd (nav_to_weights n a).
Definition from_objects (n : nav) (a : addr) : list addr := snd (nav_from_objects n a).
Definition from_weights (n : nav) (a : addr) : list Z := snd (nav_from_weights n a).

(** ** Relations at run time *)

(** the pairs of a 1-to-1 relation after a history *)
Definition pairs_after (cs : list call1) : list (addr * addr) :=
  fold_left (fun l c =>
    match c with
    | Set1 f t => (f, t) :: filter (fun p => negb (fst p =? f) && negb (snd p =? t)) l
    | Unset1 f => filter (fun p => negb (fst p =? f)) l
    end) cs [].
(** no null pointers are related *)
Definition no_null1 (cs : list call1) : Prop :=
  Forall (fun c => match c with Set1 f t => f <> 0 /\ t <> 0 | Unset1 _ => True end) cs.
(** how often a pair is related after a history of an N-to-N relation *)
Definition copies_after (cs : list calln) (f t : addr) : nat :=
  fold_left (fun n c =>
    match c with
    | AddN f' t' => if (f' =? f) && (t' =? t) then S n else n
    | RemoveN f' t' => if (f' =? f) && (t' =? t) then 0%nat else n
    | RemoveAllN f' => if f' =? f then 0%nat else n
    | MergeN _ _ => n
    end) cs 0%nat.
(** neither null pointers nor merge_relations *)
Definition plain_n (cs : list calln) : Prop :=
  Forall (fun c => match c with
                   | AddN f t | RemoveN f t => f <> 0 /\ t <> 0
                   | RemoveAllN f => f <> 0
                   | MergeN _ _ => False
                   end) cs.
(** how often [x] is in a list *)
Definition copies (x : addr) (l : list addr) : nat := count_occ Z.eq_dec l x.
(** the start *)
Definition empty1 : rt1 := mkRt1 (fun _ => 0) (fun _ => 0).
Definition emptyn : rtn := mkRtn (fun _ => []) (fun _ => []).
Definition empty1n : rt1n := mkRt1n (fun _ => []) (fun _ => 0).
(** a program of a 1-to-N relation that adds only objects that are not related, and removes a link only
    when it exists *)
Fixpoint careful (owner : addr -> addr) (cs : list calln) : Prop :=
  match cs with
  | [] => True
  | AddN f t :: cs' => f <> 0 /\ t <> 0 /\ owner t = 0 /\ careful (fun x => if x =? t then f else owner x) cs'
  | RemoveN f t :: cs' => f <> 0 /\ t <> 0 /\ owner t = f /\ careful (fun x => if x =? t then 0 else owner x) cs'
  | RemoveAllN f :: cs' => f <> 0 /\ careful (fun x => if owner x =? f then 0 else owner x) cs'
  | MergeN _ _ :: _ => False
  end.
(** the owner after such a program *)
Definition owner_after (cs : list calln) : addr -> addr :=
  fold_left (fun o c =>
    match c with
    | AddN f t => fun x => if x =? t then f else o x
    | RemoveN f t => fun x => if x =? t then 0 else o x
    | RemoveAllN f => fun x => if o x =? f then 0 else o x
    | MergeN _ _ => o
    end) cs (fun _ => 0).
(** no object is merged with itself *)
Definition no_self_merge (cs : list calln) : Prop :=
  Forall (fun c => match c with MergeN f1 f2 => f1 <> f2 | _ => True end) cs.
