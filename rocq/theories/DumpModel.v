(** * Listing the records of a file: [sio::api::dump_records]

    The columns of the output are kept as data; widths, separators and rules between the lines are
    left out. *)

From Coq Require Import ZArith List Bool.
From Verif Require Import Bytes SioModel ObjModel IndexModel.
Import ListNotations.
Open Scope Z_scope.

(** the lines that are printed: sio/src/api.cc:327-336 and 351-360 (titles of the columns for
    records), 362-371 (a record), 372-383 (titles for blocks), 394-405 (a block), 406 (empty line) *)
Inductive line :=
| LRecords
| LRecord (name : bytes) (start end_ options hlen dlen ulen : Z)
| LBlocks
| LBlock (name : bytes) (start end_ major minor hlen dlen : Z)
| LEmpty.

(** sio/src/api.cc:361-371 *)
Definition record_line (ri : record_info) : line :=
  LRecord (ri_name ri) (ri_start ri) (ri_end ri) (ri_options ri) (ri_hlen ri) (ri_dlen ri) (ri_ulen ri).
(** sio/src/api.cc:395-405; the version is split as in sio/src/version.cc:21-29 *)
Definition block_line (bi : block_info) : line :=
  LBlock (bi_name bi) (bi_start bi) (bi_end bi) (ver_major (bi_version bi)) (ver_minor (bi_version bi)) (bi_hlen bi) (bi_dlen bi).

Section Codec.
(** zlib *)
Context (uncomp : bytes -> option bytes).

(** sio/src/api.cc:384-393: the blocks of a record with the data [buf]; [old] are the contents of
    the buffer for decompressed data.  Returns the blocks and the new contents of that buffer. *)
Definition dump_blocks (ri : record_info) (buf old : bytes) : Res (list block_info * bytes) :=
  if is_compressed (ri_options ri) then
    do d <- uncompress uncomp buf (ri_ulen ri) old;
    do l <- read_block_infos d;
    Ok (l, d)
  else
    do sp <- span buf 0 (ri_dlen ri);
    do l <- read_block_infos sp;
    Ok (l, old).

(** The loop, sio/src/api.cc:337-409: what is printed and how it ends.  [n] is record_counter
    (unsigned int, 32 bit); [fuel] as for [skip_records] (IndexModel.v). *)
Fixpoint dump_loop (fuel : nat) (count : Z) (detailed : bool) (n : Z) (s : ifs) (info rec old : bytes) : list line * Res unit :=
  match fuel with
  | O => ([], UB UBDiverge)
  | S f =>
      if count <=? n then ([], Ok tt) else
      match read_record_info s info with
      | (Ok (ri, info1), s1) =>
          if detailed then
            match read_record_data s1 ri rec 0 with
            | (Ok rec1, s2) =>
                let s3 := s_seek s2 (ri_end ri) in
                match dump_blocks ri rec1 old with
                | Ok (l, old1) =>
                    let '(out, r) := dump_loop f count detailed (u32 (n + 1)) s3 info1 rec1 old1 in
                    (LRecords :: record_line ri :: LBlocks :: map block_line l ++ LEmpty :: out, r)
                | Throw e => ([LRecords; record_line ri; LBlocks], Throw e)
                | UB k => ([LRecords; record_line ri; LBlocks], UB k)
                end
            | (Throw e, _) => ([], Throw e)
            | (UB k, _) => ([], UB k)
            end
          else
            let s2 := s_seek s1 (ri_end ri) in
            let '(out, r) := dump_loop f count detailed (u32 (n + 1)) s2 info1 rec old in
            (record_line ri :: out, r)
      | (Throw e, _) => ([], Throw e)
      | (UB k, _) => ([], UB k)
      end
  end.

(** sio/src/api.cc:410-416: the end of the file is not an error *)
Definition until_eof (r : Res unit) : Res unit := match r with Throw EEof => Ok tt | _ => r end.

(** the buffers of 1 MByte, sio/src/api.cc:320-321: only what is read into them matters *)
Definition dump_buf : bytes := [].

(** api::dump_records, sio/src/api.cc:313-417 *)
Definition dump_records (s : ifs) (skip count : Z) (detailed : bool) : list line * Res unit :=
  let go (s1 : ifs) :=
    let '(out, r) := dump_loop (stream_fuel s1) count detailed 0 s1 skip_buf dump_buf dump_buf in
    ((if detailed then [] else [LRecords]) ++ out, until_eof r) in
  if 0 <? skip then
    match skip_n_records skip s with
    | (Ok _, s1) => go s1
    | (Throw e, _) => ([], until_eof (Throw e))
    | (UB k, _) => ([], UB k)
    end
  else go s.
End Codec.
