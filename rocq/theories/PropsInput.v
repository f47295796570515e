(** * Untrusted input (C39)

    For every byte string given as a file, reading records succeeds, reports the end of the file or
    throws; it accesses no memory outside of the buffers and ends.  This is false of the code: the
    theorems list all the ways in which it can fail, on the bytes of the input (InputSpec), and each
    of them is met by a file.

    In the model, undefined behaviour is the outcome [UB], and a loop that does not end is
    [UB UBDiverge]. *)

From Verif Require Import Bytes StrMap SioModel SioProofs Ieee ObjModel EventModel EventFacts EventExamples IndexModel FileModel
  FileExamples InputSpec InputProofs InputObj InputEvent InputFile InputExamples.

(** ** Records and blocks *)

(** Reading a record: undefined only if the header that stands at the position of the stream has a
    length that does not fit the buffer of 116 bytes (or is less than 8, which is subtracted from it). *)
Theorem C39_record_partial : forall s outbuf k s', 0 <= s_pos s -> read_record s outbuf = (UB k, s') ->
  k = UBOutOfBounds /\ exists hlen, word_in (s_data s) (s_pos s) hlen /\ word_in (s_data s) (s_pos s + 4) record_marker /\
    ~ (8 <= hlen <= 116).
Proof. exact read_record_cause. Qed.
Print Assumptions C39_record_partial.

Theorem C39_header_length_refuted : exists F,
  fst (read_record (open_ifs F) []) = UB UBOutOfBounds /\ next_event F = UB UBOutOfBounds.
Proof. exact header_length_witness. Qed.
Print Assumptions C39_header_length_refuted.

(** another file, in which the header is too short; and one with a record that is read *)
Example C39_record_case :
  fst (read_record (open_ifs x_short_header) []) = UB UBOutOfBounds /\
  (exists ri buf, fst (read_record (open_ifs x_good) []) = Ok (ri, buf) /\ ri_name ri = header_record).
Proof. split; [vm_compute; reflexivity|]. eexists _, _. split; vm_compute; reflexivity. Qed.

(** Reading the blocks of a record with any handlers: undefined only if a block says that it has
    length zero (the loop does not end) or that its name has about 2^32 bytes, or in a handler. *)
Theorem C39_blocks_partial : forall A (blocks : list (rblock A)) buf next k,
  read_blocks buf blocks next = UB k ->
  (k = UBDiverge /\ zero_block buf) \/ (k = UBOutOfBounds /\ long_name buf) \/
  exists blk p len v nl d, In blk blocks /\ block_at buf p len v nl /\ part_of (r_buf d) buf /\ 0 <= r_cur d /\
    rb_read blk v d = UB k.
Proof. exact (fun A => @read_blocks_cause A). Qed.
Print Assumptions C39_blocks_partial.
Theorem C39_block_infos_partial : forall buf k, read_block_infos buf = UB k ->
  (k = UBDiverge /\ zero_block buf) \/ (k = UBOutOfBounds /\ long_name buf).
Proof. exact read_block_infos_cause. Qed.
Print Assumptions C39_block_infos_partial.

(** Any number of turns of the loop leaves it where it was. *)
Theorem C39_zero_block_refuted : exists buf, Zlen buf = 16 /\
  (forall A (blocks : list (rblock A)) next, Forall (fun b => rb_name b <> []) blocks ->
     read_blocks buf blocks next = UB UBDiverge) /\
  (exists info sp, extract_block buf 0 = Ok (info, sp) /\ bi_end info = 0) /\
  next_event (xrec header_record buf) = UB UBDiverge.
Proof. exact zero_block_witness. Qed.
Print Assumptions C39_zero_block_refuted.
Theorem C39_name_length_refuted : exists buf, Zlen buf = 20 /\ read_block_infos buf = UB UBOutOfBounds /\
  next_event (xrec header_record buf) = UB UBOutOfBounds.
Proof. exact name_length_witness. Qed.
Print Assumptions C39_name_length_refuted.

(** ** Run headers and events *)

(** the data of a record with a run header *)
Theorem C39_run_data_partial : forall data k, read_run_record data = UB k ->
  (k = UBDiverge /\ zero_block data) \/ (k = UBOutOfBounds /\ long_name data).
Proof. exact read_run_cause. Qed.
Print Assumptions C39_run_data_partial.

(** The data of the two records of an event: undefined only if there is a block with length zero or a
    name of 2^32 bytes, or two blocks with the same name; or if there is a collection of a type that is not known, a length of an array
    that overflows 32 bits, or a reconstructed particle of a version up to 1.2; or if a particle has a
    parent that is not among the particles read.  The types of the other objects, their numbers of
    elements, versions, flags and pointers are arbitrary. *)
Theorem C39_event_data_partial : forall srt ign names hdata edata next k, 0 < next ->
  read_event srt ign names hdata edata next = UB k ->
  zero_block hdata \/ long_name hdata \/ zero_block edata \/ long_name edata \/ repeated_block edata
  \/ (exists e0, read_header_record names hdata = Ok e0 /\ bad_collection (map (fun nc => c_type (snd nc)) (ev_cols e0)) edata)
  \/ (exists e0 e h next', read_header_record names hdata = Ok e0 /\ read_event_record srt edata e0 next = Ok (e, h, next') /\ orphan h).
Proof. exact read_event_cause. Qed.
Print Assumptions C39_event_data_partial.

(** each of them occurs *)
Theorem C39_unknown_type_refuted : exists F, next_event F = UB UBNullDeref /\
  exists ty data vers, F = xheader ty ++ xevent vers data /\ ~ In ty known_types.
Proof. exact unknown_type_witness. Qed.
Print Assumptions C39_unknown_type_refuted.
Theorem C39_array_length_refuted : exists F, next_event F = UB UBOutOfBounds /\
  exists data, F = xheader (str "TPCHit") ++ xevent cur_vers data.
Proof. exact array_length_witness. Qed.
Print Assumptions C39_array_length_refuted.
Theorem C39_old_particle_refuted : exists F, next_event F = UB UBOutOfBounds /\
  exists data, F = xheader (str "ReconstructedParticle") ++ xevent 65538 data.
Proof. exact old_particle_witness. Qed.
Print Assumptions C39_old_particle_refuted.
Theorem C39_orphan_refuted : exists F, next_event F = UB UBNullDeref /\
  exists data, F = xheader (str "MCParticle") ++ xevent cur_vers data.
Proof. exact orphan_witness. Qed.
Print Assumptions C39_orphan_refuted.

(** Two blocks for the same collection.  In the code this is undefined if the collection is a subset whose
    second block is longer: the addresses of the elements of the first are written after the elements
    were moved.  The model takes all records with repeated blocks as undefined. *)
Theorem C39_repeated_block_refuted : exists F, next_event F = UB UBPrecondition /\
  exists b1 b2, F = xheader (str "MCParticle") ++ xrec event_record (xblock (str "col") cur_vers b1 ++ xblock (str "col") cur_vers b2) /\
    Zlen b1 < Zlen b2.
Proof. exact repeated_block_witness. Qed.
Print Assumptions C39_repeated_block_refuted.

(** ** Files *)

(** Reading the next run header, and the next event, with a reader that goes on to other files on the
    disk [d].  The contents of the files are arbitrary, and so are the state of the stream, the
    buffers and the codec.  [file_cause C F]: the file has a record header with an impossible length, or a
    record of 4 GB; or [C] holds, the causes above for data of records of the file.  The file is what
    was opened or one of the disk.  In particular, reading ends. *)
Theorem C39_next_run_partial : forall uncomp d r k r', 0 < rd_next r -> 0 <= s_pos (rd_s r) ->
  read_next_run uncomp d r = (UB k, r') ->
  exists F, (F = s_data (rd_s r) \/ exists n, d n = Some F) /\
    (bad_header F \/ huge_record F \/
     exists data, payload uncomp F data /\ (zero_block data \/ long_name data)).
Proof. exact next_run_cause. Qed.
Print Assumptions C39_next_run_partial.

Theorem C39_next_event_partial : forall uncomp srt ign d r k r', 0 < rd_next r -> 0 <= s_pos (rd_s r) ->
  read_next_event uncomp srt ign d r = (UB k, r') ->
  exists F, (F = s_data (rd_s r) \/ exists n, d n = Some F) /\
    (bad_header F \/ huge_record F \/
     (exists data, payload uncomp F data /\ (zero_block data \/ long_name data)) \/
     (exists ed, payload uncomp F ed /\ repeated_block ed) \/
     (exists hd ed e0, payload uncomp F hd /\ payload uncomp F ed /\ read_header_record (rd_names r) hd = Ok e0 /\
        bad_collection (map (fun nc => c_type (snd nc)) (ev_cols e0)) ed) \/
     (exists hd ed e0 next e h next', payload uncomp F hd /\ payload uncomp F ed /\ 0 < next /\
        read_header_record (rd_names r) hd = Ok e0 /\ read_event_record srt ed e0 next = Ok (e, h, next') /\ orphan h)).
Proof. exact next_event_cause. Qed.
Print Assumptions C39_next_event_partial.

(** Any number of turns of the loop over the records leaves the stream where it was. *)
Theorem C39_huge_record_refuted : exists F, Zlen F = 24 /\ next_event F = UB UBDiverge /\
  forall fuel, fst (fst (read_records fuel (fun ri => is_header ri || is_event ri) (evt_func ex_uncomp isort) (mkES None None) (reading F)))
               = UB UBDiverge.
Proof. exact huge_record_witness. Qed.
Print Assumptions C39_huge_record_refuted.

(** A file with an event is read; all beginnings and all ends of it are defined as well.  If any one of
    its bytes is inverted, reading is still defined, except for the bytes of the lengths of the headers
    and of the type of the collection. *)
Example C39_case :
  0 < rd_next (reading x_good) /\ s_pos (rd_s (reading x_good)) = 0 /\
  (exists l, next_event x_good = Ok (Some l) /\ map (fun nc => length (c_elems (snd nc))) (ev_cols (le_evt l)) = [1%nat]) /\
  forallb (fun n => defined (next_event (firstn n x_good))) (seq 0 (length x_good)) = true /\
  forallb (fun n => defined (next_event (skipn n x_good))) (seq 0 (length x_good)) = true /\
  count_undefined x_good = ex_undefined.
Proof.
  split; [reflexivity|]. split; [reflexivity|]. split; [eexists; split; vm_compute; reflexivity|].
  split; [vm_compute; reflexivity|]. split; vm_compute; reflexivity.
Qed.
