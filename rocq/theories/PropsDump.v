(** * C64: the listing of the records of a file *)

From Coq Require Import ZArith List Bool Lia.
From Verif Require Import Bytes SioModel SioProofs SioRecord SioSpec EventFacts FileModel FileSpec FileExamples DumpModel DumpSpec DumpProofs.
Import ListNotations.
Open Scope Z_scope.

(** A file of any records, compressed or not, is listed record by record: names, places, options and
    sizes are those of the file, and in the detailed form also those of all blocks.  The records
    lie behind each other, from the beginning of the file to its end. *)
Theorem C64_listing : forall comp uncomp rs buf skip count detailed,
  codec_ok comp uncomp -> Forall drec_ok rs -> Zlen rs < two32 -> usable buf -> 0 <= skip ->
  exists parts, write_drecs comp buf rs = Ok (map fst parts) /\ Forall2 (stored uncomp) rs parts /\
    dump_records uncomp (open_ifs (concat (map fst parts))) skip count detailed = (expected detailed skip count rs parts, Ok tt).
Proof.
  intros comp uncomp rs buf skip count detailed HC Hrs Hl Hu Hs. exact (listing comp uncomp rs HC Hrs Hl buf skip count detailed Hu Hs).
Qed.
Print Assumptions C64_listing.

(** three records: two blocks with links between them, no block, a compressed one *)
Definition ex_recs : list drec :=
  [mkD (str "Rec") 0 [mkWB (str "A") 65538 [DTag 10; DPtr 20]; mkWB (str "Bcdef") 2 [DData (str "xyz"); DTag 20; DPtr 10]];
   mkD (str "Empty") 0 []; mkD (str "Packed") 6 [mkWB (str "A") 131072 [DData (str "hello")]]].
Definition ex_dbuf : buffer := mkBuffer (zeros 16) true.

Example C64_case : codec_ok ex_comp ex_uncomp /\ Forall drec_ok ex_recs /\ Zlen ex_recs < two32 /\ usable ex_dbuf.
Proof.
  split; [exact ex_codec|]. split; [|split; [vm_compute; reflexivity|split; [reflexivity|discriminate]]].
  repeat (apply Forall_cons || apply Forall_nil); (split; [reflexivity|]); (split; [repeat constructor; vm_compute; congruence|]);
    (split; [cbn; repeat constructor; cbn; intuition discriminate|]); (split; [vm_compute; reflexivity|intros _; vm_compute; reflexivity]).
Qed.

(** the file and its listings *)
Definition ex_file64 : bytes := match write_drecs ex_comp ex_dbuf ex_recs with Ok l => concat l | _ => [] end.
Example C64_lines :
  dump_records ex_uncomp (open_ifs ex_file64) 0 10 false =
    ([LRecords; LRecord (str "Rec") 0 92 0 28 64 64; LRecord (str "Empty") 92 124 0 32 0 0; LRecord (str "Packed") 124 188 1 32 29 28], Ok tt) /\
  dump_records ex_uncomp (open_ifs ex_file64) 0 1 true =
    ([LRecords; LRecord (str "Rec") 0 92 0 28 64 64; LBlocks; LBlock (str "A") 0 28 1 2 20 8; LBlock (str "Bcdef") 28 64 0 2 24 12; LEmpty], Ok tt) /\
  dump_records ex_uncomp (open_ifs ex_file64) 1 1 false = ([LRecords; LRecord (str "Empty") 92 124 0 32 0 0], Ok tt) /\
  dump_records ex_uncomp (open_ifs ex_file64) 4 1 false = ([], Ok tt).
Proof. split; [|split; [|split]]; vm_compute; reflexivity. Qed.

(** The short listing of a file that was cut in the data of a record shows that record as if it were
    complete, up to a place behind the end of the file, and ends without an error; only the detailed
    listing notices. *)
Theorem C64_cut_refuted : exists file name start end_ opts hlen dlen ulen,
  dump_records ex_uncomp (open_ifs file) 0 10 false = ([LRecords; LRecord name start end_ opts hlen dlen ulen], Ok tt) /\
  Zlen file < end_ /\ dump_records ex_uncomp (open_ifs file) 0 10 true = ([], Throw EIoFailure).
Proof.
  exists (firstn 70 ex_file64), (str "Rec"), 0, 92, 0, 28, 64, 64.
  split; [vm_compute; reflexivity|]. split; vm_compute; reflexivity.
Qed.
Print Assumptions C64_cut_refuted.
