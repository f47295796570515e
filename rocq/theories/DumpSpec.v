(** * What a listing of the records of a file has to show *)

From Coq Require Import ZArith List Bool.
From Verif Require Import Bytes SioModel SioProofs SioRecord SioSpec FileModel FileSpec DumpModel.
Import ListNotations.
Open Scope Z_scope.

(** a record of a file: its name, the compression level and the blocks *)
Record drec := mkD { d_name : bytes; d_level : Z; d_blocks : list wblock }.

(** ** Sizes: everything is stored in words of four bytes *)
Definition up4 (n : Z) : Z := 4 * ((n + 3) / 4).
Definition call_size (c : dcall) : Z := match c with DData b => up4 (Zlen b) | DTag _ | DPtr _ => 4 end.
Fixpoint calls_size (cs : list dcall) : Z := match cs with [] => 0 | c :: cs' => call_size c + calls_size cs' end.
(** four words and the name, followed by what the block writes *)
Definition block_head (b : wblock) : Z := 16 + up4 (Zlen (wb_name b)).
Definition block_size (b : wblock) : Z := block_head b + calls_size (wb_calls b).
(** six words and the name, followed by the blocks *)
Definition record_head (name : bytes) : Z := 24 + up4 (Zlen name).
Fixpoint data_size (bs : list wblock) : Z := match bs with [] => 0 | b :: bs' => block_size b + data_size bs' end.

Definition drec_ok (r : drec) : Prop :=
  valid_record_name (d_name r) = true /\ blocks_ok (d_blocks r) /\ NoDup (blocks_tags (d_blocks r)) /\
  sized (d_level r) (record_head (d_name r) + data_size (d_blocks r)).

(** ** The program that writes the file: each record is made in a buffer and goes to the file,
    compressed if the level is not 0 *)
Fixpoint write_drecs (comp : Z -> bytes -> bytes) (buf : buffer) (rs : list drec) : Res (list bytes) :=
  match rs with
  | [] => Ok []
  | r :: rs' =>
      do '(ri, b) <- write_record (d_name r) buf (d_blocks r) 0;
      do x <- encode comp (d_level r) ri b;
      do l <- write_drecs comp b rs';
      Ok (x :: l)
  end.

(** [part]: the bytes of the record in the file and the number of bytes of its data *)
Definition stored (uncomp : bytes -> option bytes) (r : drec) (part : bytes * Z) : Prop :=
  exists pad, 0 <= pad < 4 /\ Zlen (fst part) = record_head (d_name r) + snd part + pad /\
    (d_level r = 0 -> snd part = data_size (d_blocks r) /\ pad = 0) /\
    (d_level r <> 0 -> exists data, uncomp (sub (fst part) (record_head (d_name r)) (snd part)) = Some data /\ Zlen data = data_size (d_blocks r)).

(** ** The listing *)

(** the records with the places where they start *)
Fixpoint placed (start : Z) (l : list (drec * (bytes * Z))) : list (Z * (drec * (bytes * Z))) :=
  match l with [] => [] | x :: l' => (start, x) :: placed (start + Zlen (fst (snd x))) l' end.

Definition expected_record (x : Z * (drec * (bytes * Z))) : line :=
  let '(start, (r, (part, dlen))) := x in
  LRecord (d_name r) start (start + Zlen part) (if d_level r =? 0 then 0 else 1) (record_head (d_name r)) dlen (data_size (d_blocks r)).
Fixpoint expected_blocks (start : Z) (bs : list wblock) : list line :=
  match bs with
  | [] => []
  | b :: bs' =>
      LBlock (wb_name b) start (start + block_size b) (wb_version b / 65536) (wb_version b mod 65536) (block_head b) (calls_size (wb_calls b))
      :: expected_blocks (start + block_size b) bs'
  end.
Definition expected_lines (detailed : bool) (x : Z * (drec * (bytes * Z))) : list line :=
  if detailed then LRecords :: expected_record x :: LBlocks :: expected_blocks 0 (d_blocks (fst (snd x))) ++ [LEmpty]
  else [expected_record x].

(** [skip] records are left out, at most [count] are listed; nothing at all is printed if there are
    less than [skip] *)
Definition expected (detailed : bool) (skip count : Z) (rs : list drec) (parts : list (bytes * Z)) : list line :=
  if Zlen rs <? skip then []
  else (if detailed then [] else [LRecords]) ++
       flat_map (expected_lines detailed) (firstn (Z.to_nat count) (skipn (Z.to_nat skip) (placed 0 (combine rs parts)))).
