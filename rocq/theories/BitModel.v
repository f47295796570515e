(** * UTIL::BitField64, UTIL::CellIDEncoder and UTIL::CellIDDecoder

    Left shifts of negative numbers and into the sign bit have their two's complement meaning (as
    since C++20, and with the usual compilers before); shifts by the width of the type or more, and
    overflow of signed differences are undefined. *)

From Verif Require Import Bytes StrMap FlagModel.

(** ** Splitting strings *)

(** LCTokenizer::operator(), src/cpp/include/UTIL/BitField64.h:37-46: [ts] are the tokens so far,
    [last] is the previous character *)
Definition add_char (ts : list bytes) (c : byte) : list bytes := removelast ts ++ [last ts [] ++ [c]].
Definition tok_step (del : byte) (st : list bytes * byte) (c : byte) : list bytes * byte :=
  let '(ts, last) := st in
  (if byte_dec c del then ts else add_char (if byte_dec last del then ts ++ [[]] else ts) c, c).
(** std::for_each with a tokenizer, BitField64.cc:203 and 210 *)
Definition tokenize (del : byte) (s : bytes) : list bytes := fst (fold_left (tok_step del) s ([], del)).

(** the C library function atol (used in BitField64.cc:221, 230 and 231): white space, a sign, digits;
    undefined if the number is not representable *)
Definition is_space (c : byte) : bool := let z := Zb c in (z =? 32) || ((9 <=? z) && (z <=? 13)).
Definition is_digit (c : byte) : bool := let z := Zb c in (48 <=? z) && (z <=? 57).
Fixpoint skip_space (s : bytes) : bytes := match s with c :: s' => if is_space c then skip_space s' else s | [] => [] end.
Fixpoint digits (acc : Z) (s : bytes) : Z :=
  match s with c :: s' => if is_digit c then digits (acc * 10 + (Zb c - 48)) s' else acc | [] => acc end.
Definition minus : byte := Init.Byte.x2d.
Definition plus : byte := Init.Byte.x2b.
Definition atol (s : bytes) : Res Z :=
  let s1 := skip_space s in
  let n := match s1 with
           | c :: s2 => if byte_dec c minus then - digits 0 s2 else if byte_dec c plus then digits 0 s2 else digits 0 s1
           | [] => 0
           end in
  if (n <? - two63) || (two63 <=? n) then UB UBOverflow else Ok n.

(** ** One field *)

(** the members of BitFieldValue, BitField64.h:106-115 (the name of the field, its first bit and number
    of bits; [_minVal] and [_maxVal] are [int]s) *)
Record field := mkField { f_name : bytes; f_off : Z; f_width : Z; f_signed : bool; f_mask : Z; f_min : Z; f_max : Z }.

(** std::abs for [int], used at src/cpp/src/UTIL/BitField64.cc:17, 224 and 233 *)
Definition int_abs (z : Z) : Res Z := if z =? - two31 then UB UBOverflow else Ok (Z.abs z).
(** BitFieldValue::BitFieldValue, BitField64.cc:11-53; [off] is unsigned, [sw] an [int] *)
Definition new_field (name : bytes) (off sw : Z) : Res field :=
  do w <- int_abs sw;
  if (63 <? off) || (64 <? u32 (off + w)) then Throw LException
  else if 63 <? w then UB UBShift                        (* 1LL << 64 *)
  else if w =? 63 then UB UBOverflow                     (* ( 1LL << 63 ) - 1 *)
  else
    let mask := u64 (Z.shiftl (Z.shiftl 1 w - 1) off) in
    if sw <? 0 then Ok (mkField name off w true mask (s32 (Z.shiftl 1 (w - 1) - Z.shiftl 1 w)) (s32 (Z.shiftl 1 (w - 1) - 1)))
    else if 31 <? w then UB UBShift                      (* 0x0001 << 32 *)
    else Ok (mkField name off w false mask 0 (s32 (Z.shiftl 1 w))).

(** BitFieldValue::value, BitField64.cc:56-73; [b] is the 64 bit word *)
Definition value (b : Z) (f : field) : Z :=
  let v := s64 (Z.shiftr (Z.land (u64 b) (f_mask f)) (f_off f)) in
  if f_signed f then
    if negb (Z.land v (Z.shiftl 1 (f_width f - 1)) =? 0) then v - Z.shiftl 1 (f_width f) else v
  else v.

(** BitFieldValue::operator=, BitField64.cc:75-92: the new word and what happens *)
Definition assign (b : Z) (f : field) (x : Z) : Res unit * Z :=
  if (x <? f_min f) || (f_max f <? x) then (Throw LException, b)
  else
    let b1 := s64 (Z.land (u64 b) (u64 (Z.lnot (f_mask f)))) in
    (Ok tt, s64 (Z.lor (u64 b1) (Z.land (u64 (Z.shiftl x (f_off f))) (f_mask f)))).

(** ** BitField64 *)

(** the members of BitField64, BitField64.h:237-240 *)
Record bitfield := mkBF { bf_fields : list field; bf_value : Z; bf_map : list (bytes * Z); bf_joined : Z }.
Definition no_fields : bitfield := mkBF [] 0 [] 0.
(** setValue, BitField64.h:165 *)
Definition set_value (b : bitfield) (v : Z) : bitfield := mkBF (bf_fields b) v (bf_map b) (bf_joined b).

(** addField, BitField64.cc:172-193 *)
Definition add_field (b : bitfield) (name : bytes) (off sw : Z) : Res bitfield :=
  do f <- new_field name off sw;
  let m := sm_set name (Zlen (bf_fields b)) (bf_map b) in
  if Z.land (u64 (bf_joined b)) (f_mask f) =? 0
  then Ok (mkBF (bf_fields b ++ [f]) (bf_value b) m (s64 (Z.lor (u64 (bf_joined b)) (f_mask f))))
  else Throw LException.

(** the separators of src/cpp/src/UTIL/BitField64.cc:201 and 208 *)
Definition comma : byte := Init.Byte.x2c.
Definition colon : byte := Init.Byte.x3a.
(** init, BitField64.cc:195-248: the loop over the descriptors *)
Fixpoint init_loop (offset : Z) (b : bitfield) (descs : list bytes) : Res bitfield :=
  match descs with
  | [] => Ok b
  | d :: descs' =>
      match tokenize colon d with
      | [name; ws] =>
          do a <- atol ws;
          let width := s32 a in
          do w <- int_abs width;
          do b' <- add_field b name offset width;
          init_loop (u32 (offset + w)) b' descs'
      | [name; os; ws] =>
          do o <- atol os;
          do a <- atol ws;
          let width := s32 a in
          do w <- int_abs width;
          do b' <- add_field b name (u32 o) width;
          init_loop (u32 (u32 o + w)) b' descs'
      | _ => Throw LException
      end
  end.
(** the constructor, BitField64.h:156-159 *)
Definition bit_field (s : bytes) : Res bitfield := init_loop 0 no_fields (tokenize comma s).

(** index, BitField64.cc:97-107 *)
Definition index (b : bitfield) (name : bytes) : Res Z :=
  match sm_get name (bf_map b) with Some i => Ok i | None => Throw LException end.
(** operator[], BitField64.h:173-181 ([at] throws std::out_of_range) and 195-206 *)
Definition field_at (b : bitfield) (i : Z) : Res field :=
  match nth_error (bf_fields b) (Z.to_nat i) with Some f => Ok f | None => Throw StdOutOfRange end.
Definition field_named (b : bitfield) (name : bytes) : Res field :=
  do i <- index b name; match nth_error (bf_fields b) (Z.to_nat i) with Some f => Ok f | None => UB UBOutOfBounds end.
(** [ b[ name ] ] and [ b[ name ] = x ] *)
Definition get_named (b : bitfield) (name : bytes) : Res Z := do f <- field_named b name; Ok (value (bf_value b) f).
Definition set_named (b : bitfield) (name : bytes) (x : Z) : Res unit * bitfield :=
  match field_named b name with
  | Ok f => let '(r, v) := assign (bf_value b) f x in (r, set_value b v)
  | Throw e => (Throw e, b)
  | UB k => (UB k, b)
  end.

(** highestBit, BitField64.cc:109-119 *)
Definition highest_bit (b : bitfield) : Z :=
  fold_left (fun hb f => if hb <? f_off f + f_width f then f_off f + f_width f else hb) (bf_fields b) 0.
(** lowWord and highWord, BitField64.h:211-216 *)
Definition low_word (b : bitfield) : Z := u32 (Z.land (bf_value b) (two32 - 1)).
Definition high_word (b : bitfield) : Z := u32 (Z.shiftr (bf_value b) 32).

(** printing an unsigned number in decimal, [n < 10^fuel] *)
Definition digit (z : Z) : byte := bZ (48 + z).
Fixpoint decimal (fuel : nat) (n : Z) : bytes :=
  match fuel with
  | O => []
  | S fuel' => if n <? 10 then [digit n] else decimal fuel' (n / 10) ++ [digit (n mod 10)]
  end.
(** fieldDescription, BitField64.cc:136-170 *)
Definition describe (f : field) : bytes :=
  f_name f ++ [colon] ++ decimal 10 (f_off f) ++ [colon] ++ (if f_signed f then [minus] else []) ++ decimal 10 (f_width f).
Fixpoint join (sep : byte) (l : list bytes) : bytes :=
  match l with
  | [] => []
  | [x] => x
  | x :: l' => x ++ [sep] ++ join sep l'
  end.
Definition field_description (b : bitfield) : bytes := join comma (map describe (bf_fields b)).

(** ** Cell ids *)

(** What CellIDEncoder and CellIDDecoder see of a collection: the parameter CellIDEncoding and the flag
    word; and of a hit: its two cell id words. src/cpp/include/UTIL/CellIDDecoder.h:84-97. *)
Record cells := mkCells { cl_enc : option bytes; cl_flag : Z }.
(** the constructor of CellIDEncoder, src/cpp/include/UTIL/CellIDEncoder.h:109-117, with setCellIDFlag,
    126-146; [id1] is the flag bit of the type of hits, CellIDEncoder.cc:16-47 *)
Definition encoder (enc : bytes) (id1 : Z) (c : cells) : Res (bitfield * cells) :=
  do b <- bit_field enc;
  do flag <- (if 31 <? highest_bit b then flag_set_bit (cl_flag c) id1 else flag_unset_bit (cl_flag c) id1);
  Ok (b, mkCells (Some enc) flag).
(** setCellID, CellIDEncoder.h:119-122 and 70-75: the words go through [int] parameters *)
Definition cell_words (b : bitfield) : Z * Z := (s32 (low_word b), s32 (high_word b)).

(** the constructor of CellIDDecoder, src/cpp/include/UTIL/CellIDDecoder.h:58-79, with the default
    encoding, 125-127 *)
Definition default_encoding : bytes := str "M:3,S-1:3,I:9,J:9,K-1:6".
Definition decoder (c : cells) : Res bitfield :=
  let s := match cl_enc c with Some s => s | None => [] end in
  bit_field (match s with [] => default_encoding | _ => s end).
(** operator(), CellIDDecoder.h:91-106: [old] is the hit decoded last, hits are told apart by their
    address *)
Definition decode (b : bitfield) (old : option Z) (hit : Z) (words : Z * Z) : bitfield * option Z :=
  if match old with Some h => h =? hit | None => false end then (b, old)
  else (set_value b (s64 (Z.lor (Z.land (fst words) (two32 - 1)) (Z.shiftl (snd words) 32))), Some hit).
