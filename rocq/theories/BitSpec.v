(** * What is expected of bit fields, of their encoding strings and of cell ids *)

From Verif Require Import Bytes.

(** ** Fields of a 64 bit word *)

(** the place and kind of a field: its first bit, its number of bits, whether it is signed *)
Record place := mkPlace { p_off : Z; p_width : Z; p_signed : bool }.
(** the number in the field of the (two's complement) word [b] *)
Definition number_in (b : Z) (p : place) : Z :=
  let u := (b / 2 ^ p_off p) mod 2 ^ p_width p in
  if p_signed p && (2 ^ (p_width p - 1) <=? u) then u - 2 ^ p_width p else u.
(** the numbers that have a place in the field *)
Definition fits (p : place) (x : Z) : Prop :=
  if p_signed p then - 2 ^ (p_width p - 1) <= x < 2 ^ (p_width p - 1) else 0 <= x < 2 ^ p_width p.
(** bit [i] of the word belongs to the field *)
Definition has_bit (p : place) (i : Z) : Prop := p_off p <= i < p_off p + p_width p.
Definition inside_64 (p : place) : Prop := 0 <= p_off p < 64 /\ 0 <= p_width p /\ p_off p + p_width p <= 64.
Definition apart (p q : place) : Prop := forall i, ~ (has_bit p i /\ has_bit q i).
(** all fields of the list are apart *)
Definition all_apart (ps : list place) : Prop :=
  forall i j p q, nth_error ps i = Some p -> nth_error ps j = Some q -> i <> j -> apart p q.

(** ** Encoding strings *)

(** a number written in decimal digits *)
Inductive numeral : bytes -> Z -> Prop :=
  | numeral_one d : 0 <= d <= 9 -> numeral [bZ (48 + d)] d
  | numeral_more s n d : numeral s n -> 0 <= d <= 9 -> numeral (s ++ [bZ (48 + d)]) (10 * n + d).
(** what an encoding string says about a field: its name, its first bit if given, the number of bits,
    whether it is signed *)
Record descr := mkDescr { d_name : bytes; d_off : option Z; d_width : Z; d_signed : bool }.
Definition good_name (s : bytes) : Prop :=
  s <> [] /\ ~ In Init.Byte.x2c s /\ ~ In Init.Byte.x3a s.  (* not empty, without ',' and ':' *)
(** [s] is a description: name, colon, first bit and colon if given, minus if signed, number of bits *)
Definition describes (s : bytes) (d : descr) : Prop :=
  good_name (d_name d) /\ (d_signed d = true -> 1 <= d_width d) /\ d_width d < 2 ^ 31 /\
  exists width, numeral width (d_width d) /\
  let sw := (if d_signed d then [Init.Byte.x2d] else []) ++ width in
  match d_off d with
  | None => s = d_name d ++ [Init.Byte.x3a] ++ sw
  | Some o => o < 2 ^ 31 /\ exists off, numeral off o /\ s = d_name d ++ [Init.Byte.x3a] ++ off ++ [Init.Byte.x3a] ++ sw
  end.
(** descriptions separated by commas *)
Inductive encoding : bytes -> list descr -> Prop :=
  | encoding_nil : encoding [] []
  | encoding_one s d : describes s d -> encoding s [d]
  | encoding_more s d s' ds : describes s d -> encoding s' ds -> ds <> [] -> encoding (s ++ [Init.Byte.x2c] ++ s') (d :: ds).
(** ** Numbers as the C library reads them *)

(** space, tab, newline, vertical tab, form feed, carriage return *)
Definition white : list byte := [Init.Byte.x20; Init.Byte.x09; Init.Byte.x0a; Init.Byte.x0b; Init.Byte.x0c; Init.Byte.x0d].
Definition decimal_digits : list byte :=
  [Init.Byte.x30; Init.Byte.x31; Init.Byte.x32; Init.Byte.x33; Init.Byte.x34; Init.Byte.x35; Init.Byte.x36; Init.Byte.x37; Init.Byte.x38; Init.Byte.x39].
(** white space, a sign, digits, and then anything else, which is ignored; without digits the number is 0 *)
Inductive number_text : bytes -> Z -> Prop :=
  | text_number ws sign ds rest n : Forall (fun c => In c white) ws -> In sign [[]; [Init.Byte.x2b]; [Init.Byte.x2d]] -> numeral ds n ->
      (forall c r, rest = c :: r -> ~ In c decimal_digits) ->
      number_text (ws ++ sign ++ ds ++ rest) (if list_eq_dec byte_dec sign [Init.Byte.x2d] then - n else n)
  | text_other ws sign rest : Forall (fun c => In c white) ws -> In sign [[]; [Init.Byte.x2b]; [Init.Byte.x2d]] ->
      (forall c r, rest = c :: r -> ~ In c decimal_digits /\ (sign = [] -> ~ In c (Init.Byte.x2b :: Init.Byte.x2d :: white))) ->
      number_text (ws ++ sign ++ rest) 0.
(** [s] describes a field, with the numbers as texts *)
Definition loosely (s : bytes) (d : descr) : Prop :=
  good_name (d_name d) /\ 0 <= d_width d < 2 ^ 31 /\
  exists width, good_name width /\ number_text width (if d_signed d then - d_width d else d_width d) /\
  match d_off d with
  | None => s = d_name d ++ [Init.Byte.x3a] ++ width
  | Some o => 0 <= o < 2 ^ 31 /\ exists off, good_name off /\ number_text off o /\ s = d_name d ++ [Init.Byte.x3a] ++ off ++ [Init.Byte.x3a] ++ width
  end.
Inductive loose_encoding : bytes -> list descr -> Prop :=
  | loose_one s d : loosely s d -> loose_encoding s [d]
  | loose_more s d s' ds : loosely s d -> loose_encoding s' ds -> loose_encoding (s ++ [Init.Byte.x2c] ++ s') (d :: ds).

(** where the fields are: a field whose first bit is not given follows the one before *)
Fixpoint places (next : Z) (ds : list descr) : list (bytes * place) :=
  match ds with
  | [] => []
  | d :: ds' =>
      let o := match d_off d with Some o => o | None => next end in
      (d_name d, mkPlace o (d_width d) (d_signed d)) :: places (o + d_width d) ds'
  end.
(** the numbers of bits the class is able to handle *)
Definition width_supported (p : place) : Prop := if p_signed p then p_width p <= 62 else p_width p <= 31.

(** ** Names and histories of assignments *)

(** what a name stands for: the last field of that name *)
Definition field_of (fields : list (bytes * place)) (name : bytes) : option place :=
  match find (fun f => bytes_eqb (fst f) name) (rev fields) with Some f => Some (snd f) | None => None end.
(** a sequence of assignments of numbers to named fields, of which the field [name] accepts the numbers
    [accepts]: the number in the field at the end is the last one accepted, or what it was before *)
Definition last_assigned (accepts : Z -> bool) (name : bytes) (ops : list (bytes * Z)) (old : Z) : Z :=
  fold_left (fun cur op => if bytes_eqb (fst op) name && accepts (snd op) then snd op else cur) ops old.
