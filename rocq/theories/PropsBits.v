(** * Properties of bit fields, their encoding strings and cell ids *)

From Verif Require Import Bytes StrMap FlagModel FlagSpec FlagProofs BitModel BitSpec BitProofs BitParse BitFacts BitExamples BitLoose.

(** ** C21: bit fields are independent and sign correct *)

(** For every accepted encoding, every start value and every sequence of assignments: each field gives the
    number that the arithmetic of two's complement says; at the end it gives the last number assigned to
    it that was accepted; bits that belong to no field are unchanged.  (Not assigned: the number 2^width
    to an unsigned field, see [C21_top_value_refuted].) *)
Theorem C21_assignments : forall s b v ops, bit_field s = Ok b -> - 2 ^ 63 <= v < 2 ^ 63 ->
  Forall (fun op : bytes * Z => forall p, field_of (named_places b) (fst op) = Some p -> p_signed p = false -> snd op <> 2 ^ p_width p) ops ->
  let b' := assign_all (set_value b v) ops in
  - 2 ^ 63 <= bf_value b' < 2 ^ 63 /\
  (forall name p, field_of (named_places b) name = Some p ->
     get_named (set_value b v) name = Ok (number_in v p) /\
     get_named b' name = Ok (last_assigned (accepts b name) name ops (number_in v p))) /\
  (forall i, 0 <= i < 64 -> (forall p, In p (map snd (named_places b)) -> ~ has_bit p i) -> bit_of (bf_value b') i = bit_of v i).
Proof. exact assignments. Qed.
Print Assumptions C21_assignments.

Example C21_assignments_case : bit_field ex_enc = Ok ex_bits /\
  let ops := [(str "side", -2); (str "layer", 127); (str "y", -32768); (str "side", 2); (str "x", 5); (str "layer", 3); (str "z", 1)] in
  let b' := assign_all (set_value ex_bits (-1)) ops in
  map (fun n => get_named b' (str n)) ["layer"; "side"; "x"; "y"]%string = [Ok 3; Ok (-2); Ok 5; Ok (-32768)].
Proof. split; [exact ex_bits_ok|]. vm_compute. reflexivity. Qed.

(** A number that is not accepted makes the assignment throw; the word stays as it is. *)
Theorem C21_rejected : forall s b v name x r b', bit_field s = Ok b -> set_named (set_value b v) name x = (r, b') -> r <> Ok tt ->
  r = Throw LException /\ b' = set_value b v.
Proof. exact rejected. Qed.
Print Assumptions C21_rejected.

Example C21_rejected_case : set_named (set_value ex_bits 77) (str "side") 2 = (Throw LException, set_value ex_bits 77).
Proof. vm_compute. reflexivity. Qed.

(** The numbers accepted by a field of up to 32 bits (signed) or 30 bits (unsigned): those that fit, and
    the number 2^width if it is unsigned.  Wider fields accept nothing. *)
Theorem C21_accepted_numbers : forall s b name p, bit_field s = Ok b -> field_of (named_places b) name = Some p -> forall x,
  accepts b name x = true <->
  (if p_signed p then p_width p <=? 32 else p_width p <=? 30) = true /\ (fits p x \/ p_signed p = false /\ x = 2 ^ p_width p).
Proof. exact accepted_numbers. Qed.
Print Assumptions C21_accepted_numbers.

Example C21_accepted_numbers_case :
  map (accepts ex_bits (str "side")) [-3; -2; -1; 0; 1; 2] = [false; true; true; true; true; false] /\
  field_of (named_places ex_bits) (str "side") = Some (mkPlace 7 2 true).
Proof. split; vm_compute; reflexivity. Qed.

(** An unsigned field accepts 2^width, which does not fit, and stores 0. *)
Theorem C21_top_value_refuted : exists s b name x b', bit_field s = Ok b /\
  set_named b name x = (Ok tt, b') /\ get_named b' name = Ok 0 /\ x <> 0.
Proof.
  exists (str "a:3"), (match bit_field (str "a:3") with Ok b => b | _ => no_fields end), (str "a"), 8. eexists.
  split; [vm_compute; reflexivity|]. split; [vm_compute; reflexivity|]. split; [vm_compute; reflexivity|discriminate].
Qed.
Print Assumptions C21_top_value_refuted.

(** A field of 33 bits signed, or 31 bits unsigned, is accepted in the encoding, but accepts no number at
    all, not even 0. *)
Theorem C21_wide_field_refuted : exists s b, bit_field s = Ok b /\ In (str "a", mkPlace 0 33 true) (named_places b) /\
  In (str "b", mkPlace 33 31 false) (named_places b) /\
  forall x, fst (set_named b (str "a") x) = Throw LException /\ fst (set_named b (str "b") x) = Throw LException.
Proof.
  exists (str "a:-33,b:31"), (match bit_field (str "a:-33,b:31") with Ok b => b | _ => no_fields end).
  assert (E : bit_field (str "a:-33,b:31") = Ok (match bit_field (str "a:-33,b:31") with Ok b => b | _ => no_fields end)) by (vm_compute; reflexivity).
  split; [exact E|]. split; [vm_compute; tauto|]. split; [vm_compute; tauto|]. intros x.
  set (b := match bit_field (str "a:-33,b:31") with Ok b => b | _ => no_fields end) in *.
  assert (G : forall n p, field_of (named_places b) n = Some p -> (if p_signed p then p_width p <=? 32 else p_width p <=? 30) = false -> fst (set_named b n x) = Throw LException).
  { intros n p H1 H2. pose proof (C21_accepted_numbers _ b n p E H1 x) as A. unfold accepts in A.
    destruct (set_named b n x) as [r b'] eqn:S. cbn [fst] in *.
    assert (Hr : r <> Ok tt) by (intros ->; destruct A as [A _]; specialize (A eq_refl); destruct A; congruence).
    refine (proj1 (C21_rejected _ b (bf_value b) n x r b' E _ Hr)). destruct b; exact S. }
  split; eapply G; vm_compute; reflexivity.
Qed.
Print Assumptions C21_wide_field_refuted.

(** Fields by number: the fields in the order of the encoding string; a number that is none of theirs throws
    std::out_of_range. *)
Theorem C21_by_index : forall s b i, bit_field s = Ok b -> 0 <= i ->
  match nth_error (named_places b) (Z.to_nat i) with
  | Some (n, p) => exists f, field_at b i = Ok f /\ f_name f = n /\ forall v, - 2 ^ 63 <= v < 2 ^ 63 -> value v f = number_in v p
  | None => field_at b i = Throw StdOutOfRange
  end.
Proof. exact by_index. Qed.
Print Assumptions C21_by_index.

Example C21_by_index_case : nth_error (named_places ex_bits) 1 = Some (str "side", mkPlace 7 2 true) /\
  (exists f, field_at ex_bits 1 = Ok f /\ value 256 f = -2) /\ field_at ex_bits 4 = Throw StdOutOfRange.
Proof. split; [vm_compute; reflexivity|]. split; [|vm_compute; reflexivity].
  exists (match field_at ex_bits 1 with Ok f => f | _ => mkField [] 0 0 false 0 0 0 end). split; vm_compute; reflexivity. Qed.

(** ** C22: encoding strings are parsed to non-overlapping fields *)

(** Any string: if it is accepted, the fields are inside the 64 bits and apart. *)
Theorem C22_fields_apart : forall s b, bit_field s = Ok b ->
  Forall inside_64 (map place_of (bf_fields b)) /\ all_apart (map place_of (bf_fields b)).
Proof. exact accepted_places. Qed.
Print Assumptions C22_fields_apart.

(** The description of the fields of an accepted string is accepted and gives the same fields. *)
Theorem C22_description : forall s b, bit_field s = Ok b -> bit_field (field_description b) = Ok b.
Proof. exact described. Qed.
Print Assumptions C22_description.

Example C22_description_case : bit_field ex_enc = Ok ex_bits /\ field_description ex_bits = str "layer:0:7,side:7:-2,x:32:-16,y:48:-16".
Proof. split; [exact ex_bits_ok|vm_compute; reflexivity]. Qed.

(** A string of descriptions "name:width" and "name:first:width", separated by commas, is accepted exactly
    if all the fields are inside the 64 bits, have supported widths and are apart, and gives just those
    fields; otherwise, if the widths are supported, the constructor throws. *)
Theorem C22_parsed : forall s ds, encoding s ds ->
  match bit_field s with
  | Ok b => (Forall inside_64 (map snd (places 0 ds)) /\ Forall width_supported (map snd (places 0 ds)) /\ all_apart (map snd (places 0 ds))) /\
            map (fun f => (f_name f, place_of f)) (bf_fields b) = places 0 ds
  | r => ~ (Forall inside_64 (map snd (places 0 ds)) /\ Forall width_supported (map snd (places 0 ds)) /\ all_apart (map snd (places 0 ds))) /\
         (Forall width_supported (map snd (places 0 ds)) -> r = Throw LException)
  end.
Proof. exact parsed. Qed.
Print Assumptions C22_parsed.

Example C22_parsed_case : encoding ex_enc ex_descr /\ bit_field ex_enc = Ok ex_bits /\
  map snd (places 0 ex_descr) = [mkPlace 0 7 false; mkPlace 7 2 true; mkPlace 32 16 true; mkPlace 48 16 true].
Proof. split; [exact ex_encoding|]. split; [exact ex_bits_ok|]. vm_compute. reflexivity. Qed.

Example C22_overlap_case : bit_field (str "a:5,b:3:4") = Throw LException /\ bit_field (str "a:60:5") = Throw LException.
Proof. split; vm_compute; reflexivity. Qed.

(** The numbers may be written as the C library reads them: after white space, with a sign, followed by
    anything else, and without digits for 0.  Such a string gives the same fields, or the same error, as the
    string in which the numbers are written plainly. *)
Theorem C22_loose_numbers : forall s s' ds, loose_encoding s ds -> encoding s' ds -> bit_field s = bit_field s'.
Proof. exact loose_parsed. Qed.
Print Assumptions C22_loose_numbers.

Example C22_loose_numbers_case : loose_encoding (str "a: +7x,side:	12y: -2.5") [mkDescr (str "a") None 7 false; mkDescr (str "side") (Some 12) 2 true] /\
  encoding (str "a:7,side:12:-2") [mkDescr (str "a") None 7 false; mkDescr (str "side") (Some 12) 2 true] /\
  bit_field (str "a: +7x,side:	12y: -2.5") = bit_field (str "a:7,side:12:-2") /\
  exists b, bit_field (str "a:7,side:12:-2") = Ok b /\ map snd (named_places b) = [mkPlace 0 7 false; mkPlace 12 2 true].
Proof.
  assert (N : forall c r (l : list byte), (forall d, In d decimal_digits -> c <> d) -> (forall c' r', c :: r = c' :: r' -> ~ In c' decimal_digits)).
  { intros c r _ H c' r' E Hin. injection E as <- <-. exact (H c Hin eq_refl). }
  assert (L : loose_encoding (str "a: +7x,side:	12y: -2.5") [mkDescr (str "a") None 7 false; mkDescr (str "side") (Some 12) 2 true]).
  { apply (loose_more (str "a: +7x") _ (str "side:	12y: -2.5")).
    - split; [apply good_name_dec; vm_compute; reflexivity|]. split; [cbn; lia|]. exists (str " +7x"). split; [apply good_name_dec; vm_compute; reflexivity|].
      split; [|reflexivity]. apply (text_number (str " ") (str "+") (str "7") (str "x") 7).
      + repeat constructor.
      + right. left. reflexivity.
      + apply (numeral_one 7). lia.
      + apply N; [exact []|]. intros d Hd <-. vm_compute in Hd. repeat (destruct Hd as [Hd|Hd]; [discriminate Hd|]). exact Hd.
    - apply loose_one. split; [apply good_name_dec; vm_compute; reflexivity|]. split; [cbn; lia|]. exists (str " -2.5"). split; [apply good_name_dec; vm_compute; reflexivity|].
      split.
      + apply (text_number (str " ") (str "-") (str "2") (str ".5") 2).
        * repeat constructor.
        * right. right. left. reflexivity.
        * apply (numeral_one 2). lia.
        * apply N; [exact []|]. intros d Hd <-. vm_compute in Hd. repeat (destruct Hd as [Hd|Hd]; [discriminate Hd|]). exact Hd.
      + cbn [d_off]. split; [lia|]. exists (str "	12y"). split; [apply good_name_dec; vm_compute; reflexivity|]. split; [|reflexivity].
        apply (text_number (str "	") [] (str "12") (str "y") 12).
        * constructor; [right; left; reflexivity|constructor].
        * left. reflexivity.
        * apply (num2 1 2); lia.
        * apply N; [exact []|]. intros d Hd <-. vm_compute in Hd. repeat (destruct Hd as [Hd|Hd]; [discriminate Hd|]). exact Hd. }
  assert (E : encoding (str "a:7,side:12:-2") [mkDescr (str "a") None 7 false; mkDescr (str "side") (Some 12) 2 true]).
  { apply (encoding_more (str "a:7") _ (str "side:12:-2")); [| |discriminate].
    - apply (ex_describes _ _ (str "7")); [apply good_name_dec; vm_compute; reflexivity|cbn; lia|cbn; lia|apply (numeral_one 7); lia|reflexivity|reflexivity].
    - apply encoding_one. split; [apply good_name_dec; vm_compute; reflexivity|]. split; [cbn; lia|]. split; [cbn; lia|]. exists (str "2"). split; [apply (numeral_one 2); lia|].
      cbn [d_off]. split; [lia|]. exists (str "12"). split; [apply (num2 1 2); lia|reflexivity]. }
  split; [exact L|]. split; [exact E|]. split; [exact (C22_loose_numbers _ _ _ L E)|].
  exists (match bit_field (str "a:7,side:12:-2") with Ok b => b | _ => no_fields end). split; vm_compute; reflexivity.
Qed.

(** A description with one part, or with four, is no description: the constructor throws. *)
Theorem C22_parts : forall s ds b p1 p2 p3 p4, encoding s ds -> ds <> [] -> bit_field s = Ok b ->
  good_name p1 -> good_name p2 -> good_name p3 -> good_name p4 ->
  bit_field (s ++ str "," ++ p1) = Throw LException /\
  bit_field (s ++ str "," ++ p1 ++ str ":" ++ p2 ++ str ":" ++ p3 ++ str ":" ++ p4) = Throw LException.
Proof.
  intros s ds b p1 p2 p3 p4 E N B G1 G2 G3 G4. change (str ",") with [Init.Byte.x2c]. change (str ":") with [Init.Byte.x3a].
  split; [exact (name_only_rejected s ds b p1 E N B G1)|exact (four_parts_rejected s ds b p1 p2 p3 p4 E N B G1 G2 G3 G4)].
Qed.
Print Assumptions C22_parts.

Example C22_parts_case : encoding ex_enc ex_descr /\ ex_descr <> [] /\ bit_field ex_enc = Ok ex_bits /\ good_name (str "z") /\
  bit_field (ex_enc ++ str "," ++ str "z") = Throw LException.
Proof. split; [exact ex_encoding|]. split; [discriminate|]. split; [exact ex_bits_ok|]. split; [apply good_name_dec; vm_compute; reflexivity|vm_compute; reflexivity]. Qed.

(** A field with all 64 bits, or an unsigned one with 32, fits, but the constructor is undefined. *)
Theorem C22_width_refuted : exists s s', bit_field s = UB UBShift /\ bit_field s' = UB UBShift /\
  s = str "id:-64" /\ s' = str "id:32".
Proof. exists (str "id:-64"), (str "id:32"). repeat split. Qed.
Print Assumptions C22_width_refuted.

(** ** C23: encoder and decoder of cell ids agree *)

(** A collection on which a CellIDEncoder has been made; the encoder with any start value, after any
    assignments; the two words given to the hit, or those words after the hit has been written and read
    (the second word is lost unless the flag bit for it is set): a decoder made from the collection gives
    the values of all fields, provided the hit is not the one this decoder has decoded last. *)
Theorem C23_cell_ids : forall enc id1 c b c' v ops old hit words, encoder enc id1 c = Ok (b, c') ->
  - 2 ^ 31 <= cl_flag c < 2 ^ 31 -> 0 <= id1 <= 31 -> - 2 ^ 63 <= v < 2 ^ 63 ->
  (forall h, old = Some h -> h <> hit) ->
  let b' := assign_all (set_value b v) ops in
  words = cell_words b' \/ words = kept_words id1 (cl_flag c') (cell_words b') ->
  exists d d', decoder c' = Ok d /\ decode d old hit words = (d', Some hit) /\
    forall name x, get_named b' name = Ok x -> get_named d' name = Ok x.
Proof. exact cell_ids. Qed.
Print Assumptions C23_cell_ids.

Example C23_cell_ids_case :
  let c := mkCells None 0 in
  exists c', encoder ex_enc 31 c = Ok (ex_bits, c') /\ cl_flag c' = - 2 ^ 31 /\
  let b' := assign_all ex_bits [(str "layer", 100); (str "side", -1); (str "x", -3); (str "y", 12)] in
  cell_words b' = (484, 851965) /\ fst (decode ex_bits None 1 (484, 851965)) = b'.
Proof. eexists. split; [vm_compute; reflexivity|]. split; [reflexivity|]. split; vm_compute; reflexivity. Qed.

(** In terms of what was assigned: the decoder gives for every field the last number that was accepted for
    it, or, if there was none, the number in the start value. *)
Theorem C23_assigned_values : forall enc id1 c b c' v ops old hit words, encoder enc id1 c = Ok (b, c') ->
  - 2 ^ 31 <= cl_flag c < 2 ^ 31 -> 0 <= id1 <= 31 -> - 2 ^ 63 <= v < 2 ^ 63 ->
  (forall h, old = Some h -> h <> hit) ->
  Forall (fun op : bytes * Z => forall p, field_of (named_places b) (fst op) = Some p -> p_signed p = false -> snd op <> 2 ^ p_width p) ops ->
  let b' := assign_all (set_value b v) ops in
  words = cell_words b' \/ words = kept_words id1 (cl_flag c') (cell_words b') ->
  exists d d', decoder c' = Ok d /\ decode d old hit words = (d', Some hit) /\
    forall name p, field_of (named_places b) name = Some p ->
      get_named d' name = Ok (last_assigned (accepts b name) name ops (number_in v p)).
Proof. exact assigned_values. Qed.
Print Assumptions C23_assigned_values.

Example C23_assigned_values_case :
  let ops := [(str "layer", 100); (str "side", -1); (str "x", -3); (str "y", 12); (str "side", 7)] in
  exists c' d', encoder ex_enc 31 (mkCells None 0) = Ok (ex_bits, c') /\
  decode ex_bits None 1 (cell_words (assign_all (set_value ex_bits 0) ops)) = (d', Some 1) /\
  map (fun n => get_named d' (str n)) ["layer"; "side"; "x"; "y"]%string = [Ok 100; Ok (-1); Ok (-3); Ok 12].
Proof.
  intros ops. eexists. exists (fst (decode ex_bits None 1 (cell_words (assign_all (set_value ex_bits 0) ops)))).
  split; [vm_compute; reflexivity|]. split; [reflexivity|]. vm_compute. reflexivity.
Qed.

(** A collection on which no encoding was set, or the empty one: the decoder has the five fields M,
    S-1, I, J and K-1 of 3, 3, 9, 9 and 6 bits, and the first word of the cell id gives the numbers in them. *)
Theorem C23_default_encoding : forall c hit words, cl_enc c = None \/ cl_enc c = Some [] ->
  exists d d', decoder c = Ok d /\ decode d None hit words = (d', Some hit) /\
    map fst (named_places d) = [str "M"; str "S-1"; str "I"; str "J"; str "K-1"] /\
    map (fun n => get_named d' n) (map fst (named_places d)) =
    map Ok (let w := fst words mod 2 ^ 32 in [w mod 8; w / 8 mod 8; w / 64 mod 512; w / 32768 mod 512; w / 16777216 mod 64]).
Proof. exact default_decoded. Qed.
Print Assumptions C23_default_encoding.

Example C23_default_encoding_case : exists d d', decoder (mkCells None 0) = Ok d /\ decode d None 1 (-1, 5) = (d', Some 1) /\
  map (fun n => get_named d' (str n)) ["M"; "S-1"; "I"; "J"; "K-1"]%string = [Ok 7; Ok 7; Ok 511; Ok 511; Ok 63].
Proof.
  exists (match decoder (mkCells None 0) with Ok b => b | _ => no_fields end), (fst (decode (match decoder (mkCells None 0) with Ok b => b | _ => no_fields end) None 1 (-1, 5))).
  split; [vm_compute; reflexivity|]. split; [reflexivity|]. vm_compute. reflexivity.
Qed.

(** A decoder keeps the hit it decoded last, by its address: if the cell id of that hit is set anew, or
    another hit comes to be at the same address, the old values are returned. *)
Theorem C23_same_hit_refuted : exists d d1 o1 d2 o2 hit words words' name,
  bit_field ex_enc = Ok d /\ decode d None hit words = (d1, o1) /\ decode d1 o1 hit words' = (d2, o2) /\
  get_named d2 name = Ok 1 /\ get_named (set_value d (Z.land (fst words') (two32 - 1))) name = Ok 2.
Proof.
  exists ex_bits. eexists. eexists. eexists. eexists. exists 1, (1, 0), (2, 0), (str "layer").
  split; [exact ex_bits_ok|]. split; [vm_compute; reflexivity|]. split; [vm_compute; reflexivity|]. split; vm_compute; reflexivity.
Qed.
Print Assumptions C23_same_hit_refuted.
