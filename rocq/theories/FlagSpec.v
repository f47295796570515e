(** * What is expected of flag words *)

From Coq Require Import ZArith List Bool.
Import ListNotations.
Open Scope Z_scope.

(** the bit [i] of a word with bit [i] initially [old], after the operations [ops]: a list of (bit, new
    value of that bit) *)
Definition last_set (ops : list (Z * bool)) (i : Z) (old : bool) : bool :=
  fold_left (fun cur op => if fst op =? i then snd op else cur) ops old.
(** all operations are on one of the 32 bits of the word *)
Definition on_32_bits (ops : list (Z * bool)) : Prop := Forall (fun op => 0 <= fst op <= 31) ops.
(** the bit [i] of an [int] in two's complement *)
Definition bit_of (w i : Z) : bool := (w / 2 ^ i) mod 2 =? 1.

(** the value of the flag with the name [x], initially [old], after setting flags by their names *)
Definition last_named {A} (dec : forall a b : A, {a = b} + {a <> b}) (ops : list (A * bool)) (x : A) (old : bool) : bool :=
  fold_left (fun cur op => if dec (fst op) x then snd op else cur) ops old.
