{
 "claims": [
  {
   "property": "C01",
   "status": "proved",
   "theorems": [
    "C01_primitives_roundtrip",
    "C01_elements_aligned",
    "C01_empty_vector_into_used_target_refuted"
   ],
   "note": "Reading into fresh variables; reading an empty vector into a used variable leaves the old elements (refuted witness)."
  },
  {
   "property": "C02",
   "status": "proved",
   "theorems": [
    "C02_growth_preserves_bytes"
   ],
   "note": "Every positive initial capacity, writes below 2^32-3 bytes each."
  },
  {
   "property": "C03",
   "status": "proved",
   "theorems": [
    "C03_links_restored",
    "C03_object_written_twice_refuted"
   ],
   "note": "Each object tagged once per record; an object tagged twice (two owning collections) is shown to lose its identity."
  },
  {
   "property": "C04",
   "status": "proved",
   "theorems": [
    "C04_records_roundtrip",
    "C04_record_names"
   ],
   "note": "Records up to the 32-bit length limit."
  },
  {
   "property": "C05",
   "status": "proved",
   "theorems": [
    "C05_dispatch",
    "C05_handler_order_irrelevant"
   ],
   "note": "Handlers with distinct names."
  },
  {
   "property": "C06",
   "status": "proved",
   "theorems": [
    "C06_compression_transparent"
   ],
   "note": "Every invertible codec whose output for records below 2 GB fits the 32-bit length field; compression level chosen per record, files divided into sessions in any way. The codec itself (zlib) is a parameter."
  },
  {
   "property": "C07",
   "status": "proved",
   "theorems": [
    "C07_parameters_roundtrip",
    "C08_run_header_roundtrip"
   ],
   "note": "Events and collections; the parameters of run headers are part of C08. Collections of vertices and generic objects get string parameters of their own on writing."
  },
  {
   "property": "C08",
   "status": "proved",
   "theorems": [
    "C08_run_header_roundtrip"
   ],
   "note": "Records below the 32-bit limit."
  },
  {
   "property": "C09",
   "status": "proved",
   "theorems": [
    "C09_event_header_roundtrip"
   ],
   "note": "Names accepted by addCollection, registered types, any list of collections to write and to read. The subset marker is removed again by the reader."
  },
  {
   "property": "C10",
   "status": "proved",
   "theorems": [
    "C10_attributes",
    "C10_all_attributes",
    "C10_particle_ids_sorted"
   ],
   "note": "All 21 types and every flag word; ObjSpec.stored lists the attributes that survive (single precision for momenta and masses)."
  },
  {
   "property": "C11",
   "status": "partial",
   "theorems": [
    "C11_event_roundtrip",
    "C11_type_names",
    "C11_duplicate_track_state_refuted",
    "C11_cluster_weights_refuted",
    "C11_null_vertex_refuted"
   ],
   "note": "Every event satisfying event_ok/event_fits whose MC parents lie in the same or an earlier collection; the refuted theorems show why some of the conditions are needed."
  },
  {
   "property": "C12",
   "status": "partial",
   "theorems": [
    "C12_subset_references",
    "C12_missing_target_throws"
   ],
   "note": "With LCIO_IGNORE_NULL_IN_SUBSET_COLLECTIONS missing targets become null; without it (default) the event is unreadable, which is proved as well."
  },
  {
   "property": "C13",
   "status": "proved",
   "theorems": [
    "C13_sequential_reading"
   ],
   "note": "Any number of files, each made by any number of sessions (the first not empty), any order of readNextEvent and readNextRunHeader calls."
  },
  {
   "property": "C14",
   "status": "proved",
   "theorems": [
    "C14_truncated_file",
    "C14_direct_access_refuted"
   ],
   "note": "Every byte position; an item is delivered if its text is complete, and not if more than its (at most three) padding bytes are missing. Opening such a file for direct access is undefined behaviour if just the last record is missing (refuted witness)."
  },
  {
   "property": "C15",
   "status": "proved",
   "theorems": [
    "C15_index_roundtrip",
    "C15_ordinary_files",
    "C15_one_run_refuted",
    "C15_short_offset_refuted"
   ],
   "note": "Every index whose entries share the format chosen from the first and last entry (covers); always so for ordinary files (every event's run header written, positions increasing); refuted witnesses for maps outside that."
  },
  {
   "property": "C16",
   "status": "partial",
   "theorems": [
    "C16_direct_access",
    "C16_any_calls",
    "C16_ordinary_sessions",
    "C16_continued_run_refuted",
    "C16_negative_number_refuted",
    "C16_after_end_refuted",
    "C16_rebuilt_index_refuted",
    "C16_rebuilt_partly_refuted",
    "C16_rebuilt_compressed_refuted"
   ],
   "note": "Proved for files made by any number of sessions whose index has the form chosen by the writer (sess_covers; C16_ordinary_sessions gives a sufficient condition), event numbers not negative, any calls before. The full statement is false: refuted for a session with events of a run whose header is elsewhere, for negative event numbers, after the end of the file was hit, and for files without index."
  },
  {
   "property": "C17",
   "status": "partial",
   "theorems": [
    "C17_append",
    "C17_no_overwriting",
    "C17_file_name",
    "C17_append_destroys_refuted",
    "C17_empty_file_refuted"
   ],
   "note": "Proved for every sequence of sessions whose first one is not empty (bytes kept: without further conditions; index: sess_covers and distinct numbers). Refuted: a file closed before anything was written cannot be appended to; a file that was not closed is destroyed by appending."
  },
  {
   "property": "C18",
   "status": "proved",
   "theorems": [
    "C18_fixed_size_and_found"
   ],
   "note": "The record is always 136 bytes and read back from the end of the file."
  },
  {
   "property": "C19",
   "status": "proved",
   "theorems": [
    "C19_every_interleaving",
    "C19_nothing_lost",
    "C19_read_back",
    "C19_no_deadlock",
    "C19_second_close_refuted"
   ],
   "note": "Small-step model of MT::LCWriter with the mutex and the atomics; for every number of threads, programs and schedule, by an invariant. At most one close() in all programs together is assumed: with two the code dereferences a null pointer (refuted theorem). Exceptions of write calls occur only after the file was closed by another thread. Sequential consistency of the atomics and the mutex is assumed; run headers and events are not shared between threads; open() is not called concurrently."
  },
  {
   "property": "C20",
   "status": "partial",
   "theorems": [
    "C20_strict_weak_order",
    "C20_listing",
    "C20_negative_event_refuted"
   ],
   "note": "Strict weak order on all int pairs; events with a negative number are indistinguishable from run headers in the map (refuted witness)."
  },
  {
   "property": "C21",
   "status": "partial",
   "theorems": [
    "C21_assignments",
    "C21_rejected",
    "C21_accepted_numbers",
    "C21_by_index",
    "C21_top_value_refuted",
    "C21_wide_field_refuted"
   ],
   "note": "Every accepted encoding, start value and sequence of assignments, except assigning 2^width to an unsigned field: that number is accepted and stored as 0 (refuted witness). Fields wider than 32 (signed) or 30 (unsigned) bits accept nothing (refuted witness)."
  },
  {
   "property": "C22",
   "status": "proved",
   "theorems": [
    "C22_fields_apart",
    "C22_description",
    "C22_parsed",
    "C22_loose_numbers",
    "C22_parts",
    "C22_width_refuted"
   ],
   "note": "Every string; in addition exactly which well formed strings are accepted and with which fields. Widths the constructor cannot handle (64 bits, 32 bits unsigned) are undefined behaviour (refuted witness)."
  },
  {
   "property": "C23",
   "status": "proved",
   "theorems": [
    "C23_cell_ids",
    "C23_assigned_values",
    "C23_default_encoding",
    "C23_same_hit_refuted"
   ],
   "note": "Every encoding, start value and history of assignments; directly and after storage of the hit. A decoder used twice for the same hit address returns the old values (refuted witness)."
  },
  {
   "property": "C24",
   "status": "proved",
   "theorems": [
    "C24_answers",
    "C24_symmetric"
   ],
   "note": "Every program of adds, removes and queries, for every addition of weights."
  },
  {
   "property": "C25",
   "status": "proved",
   "theorems": [
    "C25_collection",
    "C25_weights_stored",
    "C25_types_stored",
    "C25_order_refuted"
   ],
   "note": "Every program; forward answers identical, reverse answers with the same objects and weights, whose order can differ (refuted witness). Files keep the weights."
  },
  {
   "property": "C26",
   "status": "proved",
   "theorems": [
    "C26_any_program",
    "C26_handler",
    "C26_one_to_one",
    "C26_particle_ids",
    "C26_all_of_an_algorithm",
    "C26_bad_parameters",
    "C26_overlapping_handlers_refuted",
    "C26_failed_handler_refuted",
    "C26_order_refuted"
   ],
   "note": "Any number of handler lifetimes one after the other, starting from any parameters that describe algorithms consistently. Two handlers alive at the same time lose registrations (refuted witness). In addition: what setParticleID stores."
  },
  {
   "property": "C27",
   "status": "proved",
   "theorems": [
    "C27_stamp_to_date",
    "C27_date_unique",
    "C27_date_to_stamp",
    "C27_any_object",
    "C27_unix",
    "C27_date_string",
    "C27_overflow_refuted",
    "C27_invalid_date_refuted",
    "C27_unix_refuted"
   ],
   "note": "Every stamp and every date; the instant of a date counts days one by one with the Gregorian rules. Refuted witnesses for the documented end of the range (2106), for non-existing dates that the constructor accepts and for unixTime after 2038."
  },
  {
   "property": "C28",
   "status": "partial",
   "theorems": [
    "C28_event_is_a_map",
    "C28_add_accepted",
    "C28_names_identifiers",
    "C28_embedded_nul_refuted"
   ],
   "note": "Every program of calls on the event, its collections and their elements. The map properties for all names; identifiers for names without NUL characters; a name with a NUL character is only checked up to it (refuted witness)."
  },
  {
   "property": "C29",
   "status": "proved",
   "theorems": [
    "C29_read_only",
    "C29_unchecked_refuted"
   ],
   "note": "Every world, every program after setAccessMode(READ_ONLY) and every checked modifying call (178 setters of the element classes). The modifying calls that are not checked are listed in the specification; witnesses that they change read only data."
  },
  {
   "property": "C30",
   "status": "proved",
   "theorems": [
    "C30_mirrored",
    "C30_read_only_parent_refuted"
   ],
   "note": "Every program that adds parents to modifiable particles, mixed with any other calls. With a read only parent the lists get out of step (refuted witness)."
  },
  {
   "property": "C31",
   "status": "proved",
   "theorems": [
    "C31_daughters_rebuilt",
    "C31_parent_in_later_collection_refuted"
   ],
   "note": "Proved for any number of MC collections with parents in the same or an earlier collection; refuted for parents in later collections."
  },
  {
   "property": "C32",
   "status": "proved",
   "theorems": [
    "C32_energy",
    "C32_short_form",
    "C32_detailed_form",
    "C32_particles"
   ],
   "note": "Every sequence of contributions, for every floating point addition."
  },
  {
   "property": "C33",
   "status": "proved",
   "theorems": [
    "C33_collection_flags",
    "C33_named_collection_flags",
    "C33_named_simulator_status",
    "C33_quality_bits",
    "C33_bitset32",
    "C33_simulator_status",
    "C33_process_flags",
    "C33_contains",
    "C33_added_particles",
    "C33_tracker_hit_flags",
    "C33_made_bitset",
    "C33_endpoint_bit",
    "C33_other_bits_refuted"
   ],
   "note": "All words, all sequences. Bits outside 0..31 are ignored or undefined (witness)."
  },
  {
   "property": "C34",
   "status": "proved",
   "theorems": [
    "C34_last_value",
    "C34_keys_once",
    "C34_empty_vector_refuted"
   ],
   "note": "Every history. A key set to an empty vector has no first element: the scalar getter is undefined behaviour (refuted witness)."
  },
  {
   "property": "C35",
   "status": "proved",
   "theorems": [
    "C35_one_to_one",
    "C35_n_to_n",
    "C35_n_to_n_merge",
    "C35_one_to_n",
    "C35_merge_refuted",
    "C35_self_merge_refuted",
    "C35_one_to_n_refuted"
   ],
   "note": "Every program without null pointers; also 1-to-N relations and merge_relations under stated conditions, with refuted witnesses outside them."
  },
  {
   "property": "C36",
   "status": "proved",
   "theorems": [
    "C36_nothing_lost",
    "C36_read_back",
    "C36_names",
    "C36_no_overwriting",
    "C36_other_extension",
    "C36_second_session_refuted",
    "C36_early_write_refuted"
   ],
   "note": "For one session of a split writer that is new or was used for a session with several files; the program may write, flush and set the compression level in any way. Reusing a split writer after a session with a single file, or writing before open, uses a wrong file name (refuted witnesses). Extensions other than .slcio are never split."
  },
  {
   "property": "C37",
   "status": "partial",
   "theorems": [
    "C37_lazy_files_partial",
    "C37_next_event_partial",
    "C37_taken",
    "C37_empty_event_refuted",
    "C37_null_in_subset_refuted",
    "C37_read_only_refuted",
    "C37_remove_refuted"
   ],
   "note": "Proved for all written files, all orders of calls and all sequences of read accesses, except events without collections in compressed records (refuted); for files of any contents where the record decompresses to the announced size. Differences: exception type of the empty event, time of the exception for null entries in subsets, read-only protection, removeCollection before unpacking."
  },
  {
   "property": "C38",
   "status": "proved",
   "theorems": [
    "C38_generic_objects_roundtrip",
    "C38_stale_fixed_bit_refuted",
    "C38_different_fixed_sizes_refuted"
   ],
   "note": "FIXED bit matching the objects; without that objects are lost (refuted witness)."
  },
  {
   "property": "C39",
   "status": "partial",
   "theorems": [
    "C39_record_partial",
    "C39_blocks_partial",
    "C39_block_infos_partial",
    "C39_run_data_partial",
    "C39_event_data_partial",
    "C39_next_run_partial",
    "C39_next_event_partial",
    "C39_header_length_refuted",
    "C39_zero_block_refuted",
    "C39_name_length_refuted",
    "C39_unknown_type_refuted",
    "C39_array_length_refuted",
    "C39_old_particle_refuted",
    "C39_orphan_refuted",
    "C39_repeated_block_refuted",
    "C39_huge_record_refuted",
    "C39_stream_partial",
    "C39_event_at_partial",
    "C39_run_at_partial",
    "C39_skip_partial",
    "C39_index_partial",
    "C39_open_partial",
    "C39_number_partial",
    "C39_lists",
    "C39_append_partial",
    "C39_chain_refuted",
    "C39_file_record_refuted",
    "C39_cut_file_refuted",
    "C39_index_overflow_refuted"
   ],
   "note": "False in general: for arbitrary bytes the theorems list every way in which sequential reading (records, blocks, all object handlers, relocation, post-processing, several files) can be undefined or endless, in terms of the bytes of the file; each way has a witness file. The same for readStream, readEvent, readRunHeader, skipNEvents, opening for direct access (index in the file or rebuilt) and opening to append."
  },
  {
   "property": "C40",
   "status": "proved",
   "theorems": [
    "C40_unique",
    "C40_state_added",
    "C40_second_rejected",
    "C40_location_changed_refuted",
    "C40_assignment_refuted"
   ],
   "note": "Every sequence of calls that does not hand out the vector of states. Changing the location of a stored state and assignment of tracks break it (refuted witnesses)."
  },
  {
   "property": "C41",
   "status": "proved",
   "theorems": [
    "C41_skip_is_reading",
    "C41_counting",
    "C41_counting_rewinds_refuted",
    "C41_next_file_refuted"
   ],
   "note": "One file, after any calls. Counting: the index of the file agrees with its items. Refuted beyond the statement: with several files skipping does not go on to the next file; counting without direct access goes back to the first event."
  },
  {
   "property": "C42",
   "status": "partial",
   "theorems": [
    "C42_selective_reading",
    "C42_unread_parents_refuted"
   ],
   "note": "The selection must contain the collections of the MC parents; otherwise a null pointer is dereferenced (refuted witness)."
  },
  {
   "property": "C43",
   "status": "proved",
   "theorems": [
    "C43_mirrored",
    "C43_links",
    "C43_attributes",
    "C43_accepted",
    "C43_first_line_refuted",
    "C43_dangling_refuted"
   ],
   "note": "For every reader state and file contents. In addition: the links are exactly the declared ones and repairs of decays; attributes; records with consistent tables are accepted. Refuted witnesses: a single mother in the first line is not linked; tables that point outside the record lead to out-of-bounds accesses."
  },
  {
   "property": "C44",
   "status": "partial",
   "theorems": [
    "C44_antiparticle",
    "C44_baryons",
    "C44_mesons",
    "C44_diquarks",
    "C44_bounded",
    "C44_codes_refuted"
   ],
   "note": "Proved for all hadron codes with valid quark digits (mesons: heavier quark first) and for all ints but the smallest; codes with other digits and the smallest int are undefined behaviour (refuted witness)."
  },
  {
   "property": "C45",
   "status": "partial",
   "theorems": [
    "C45_events",
    "C45_stale_weight_refuted"
   ],
   "note": "Proved for all well-formed files, with any number of tables, records and particles; records hold one block. Weight and process of events that do not store them are taken over from the event before (refuted witness for that part)."
  },
  {
   "property": "C46",
   "status": "partial",
   "theorems": [
    "C46_open_other_partial",
    "C46_open_partial",
    "C46_truncated_refuted",
    "C46_cycle_refuted",
    "C46_wrong_block_refuted",
    "C46_no_pointer_refuted"
   ],
   "note": "False in general: null pointer for files cut in the header, endless loops for cyclic tables, wrong blocks accepted, the same event returned for ever. Proved: opening a file whose first strings are complete, or that does not begin with a file header, is defined."
  },
  {
   "property": "C47",
   "status": "proved",
   "theorems": [
    "C47_listeners",
    "C47_truncated_file",
    "C47_two_listeners_refuted",
    "C47_limit_zero_refuted"
   ],
   "note": "Every list of files, every sequence of calls with a positive limit or without one. With more than one listener it is assumed that the parents of MCParticles are in the collection of the particle: the event is post-processed for each listener, so that otherwise the later ones see repeated links (refuted witness). A limit of 0 reads a record and loses an event (refuted witness)."
  },
  {
   "property": "C48",
   "status": "proved",
   "theorems": [
    "C48_merged",
    "C48_copy_of_copy",
    "C48_fixed_subset_refuted",
    "C48_type_name_refuted",
    "C48_null_element_refuted"
   ],
   "note": "The conditions for storing an event again are spelled out in copyable; refuted witnesses show that three of them are needed: without them merging loses a type name, dereferences a null pointer, or succeeds and leaves a file that cannot be read. The output is not one of the inputs; fewer than 2^27 items. The listener writes while files are read; the model collects the calls first."
  },
  {
   "property": "C49",
   "status": "proved",
   "theorems": [
    "C49_split"
   ],
   "note": "The conditions on the items are those of C48; no file with one of the possible names exists before; the output name ends with .slcio (other names: C36_other_extension); fewer than 2^27 items. The listener writes while the file is read; the model collects the calls first."
  },
  {
   "property": "C50",
   "status": "partial",
   "theorems": [
    "C50_index_added",
    "C50_several_files",
    "C50_force",
    "C50_no_index_refuted",
    "C50_force_refuted",
    "C50_force_missing_refuted"
   ],
   "note": "Proved for all files closed by a writer, in any number, with missing files in between and the same file more than once. False for what the program is made for: a file without index records loses all its events, and with -f every file does; with -f a missing file leads to fclose of a null pointer (refuted witnesses)."
  },
  {
   "property": "C51",
   "status": "proved",
   "theorems": [
    "C51_listeners",
    "C51_any_files",
    "C51_remove_twice_refuted"
   ],
   "note": "Listeners are removed only while registered (otherwise undefined: refuted witness), do not throw and do not use the reader. What they change is an arbitrary function of their address and the record."
  },
  {
   "property": "C52",
   "status": "partial",
   "theorems": [
    "C52_same_records",
    "C52_no_exception",
    "C52_record_stays",
    "C52_deleted_twice_refuted",
    "C52_cut_file_refuted"
   ],
   "note": "Proved for every file and every sequence of calls, up to the first call of a kind whose last call threw while the one before had returned a record. That call deletes the record again: refuted, also for a file that is not damaged (asking for run headers at its end)."
  },
  {
   "property": "C53",
   "status": "proved",
   "theorems": [
    "C53_deleted_once",
    "C53_nothing_left",
    "C53_read_program",
    "C53_read_deleted",
    "C53_same_books",
    "C53_two_names_refuted",
    "C53_shared_element_refuted",
    "C53_shallow_copy_refuted",
    "C53_taken_again_refuted",
    "C53_reused_address_refuted",
    "C53_taken_deleted_refuted"
   ],
   "note": "The rules of ownership are spelled out in OwnSpec. Two of them are needed only because the event never forgets that a collection was taken: it must not be added again, nor must its address be used for another collection (otherwise it is never deleted: refuted witnesses). The library accepts, and then deletes twice: one collection under two names, one object in two collections, copies of particles with particle ids (refuted witnesses). C53_same_books: the calls of the event do the same as in the model used for C28. C53_read_program and C53_read_deleted start from an event that was read, for any bytes from which the reader makes an event."
  },
  {
   "property": "C54",
   "status": "proved",
   "theorems": [
    "C54_table",
    "C54_consistent_table",
    "C54_event",
    "C54_other_name_refuted",
    "C54_other_pointers_refuted",
    "C54_mother_refuted",
    "C54_parent_elsewhere_refuted",
    "C54_too_many_refuted",
    "C54_gap_refuted",
    "C54_daughters_gap_refuted"
   ],
   "note": "For every function that computes energies and times. The default name of the collection: with another name the call throws after having added it, or stores pointers to other particles (refuted witnesses). The number of particles and the numbers of the mothers are not checked by the code (refuted witnesses: reads and writes outside the arrays); parents or daughters that do not follow each other come back as others (refuted witnesses)."
  },
  {
   "property": "C55",
   "status": "proved",
   "theorems": [
    "C55_older",
    "C55_fewer_links",
    "C55_same",
    "C55_update",
    "C55_update_older",
    "C55_end",
    "C55_refused",
    "C55_mothers_refuted",
    "C55_refused_changes_refuted",
    "C55_weight_refuted"
   ],
   "note": "The statement says 'without adding or replacing a collection': a refused event has nevertheless got the weight and the process of the StdHep event, which is consumed (refuted witness). An event of weight 0 reports weight 1 (refuted witness). Links declared by the daughters alone are lost with the older reader (refuted witness)."
  },
  {
   "property": "C56",
   "status": "proved",
   "theorems": [
    "C56_unknown",
    "C56_flags",
    "C56_hard",
    "C56_defined",
    "C56_parentless",
    "C56_comes_back",
    "C56_gluons",
    "C56_gluons_refuted",
    "C56_exotic_refuted",
    "C56_mixed_refuted",
    "C56_order_refuted",
    "C56_second_beam_refuted",
    "C56_defined_refuted"
   ],
   "note": "The bits are those of the specification flagged, which follows the code where the documentation leaves it open. Refuted witnesses: a decay into gluons sets no bit; an exotic particle in the final state is not flagged since its number and not its code is compared; with two Higgs bosons the daughters of different ones are paired; particles without parents that do not come first are missed; only the first beam particle is searched; Higgs bosons without daughters, cycles, null pointers and the smallest int are undefined."
  },
  {
   "property": "C57",
   "status": "proved",
   "theorems": [
    "C57_once",
    "C57_values",
    "C57_numbers",
    "C57_ild",
    "C57_usable_refuted",
    "C57_numbers_refuted",
    "C57_names_refuted",
    "C57_system_refuted",
    "C57_ild_name_refuted",
    "C57_ild_empty_refuted"
   ],
   "note": "The test of a new encoding only looks for the names as parts of the string: refuted witnesses for accepted strings that BitField64 refuses, that have other fields in between, lack a field or have both subdet and system. ILDCellIDEncoder: a further field of the same name hides the canonical one by name; with an empty string it throws after having changed the collection (refuted witnesses)."
  },
  {
   "property": "C58",
   "status": "proved",
   "theorems": [
    "C58_repaired"
   ],
   "note": "Cut at any byte of a file of any number of sessions; the recovered items are characterised by their positions in the file (up to 3 bytes of padding behind the last one). An output that is also the input, and failures to write, are outside the model."
  },
  {
   "property": "C59",
   "status": "proved",
   "theorems": [
    "C59_counted",
    "C59_missing_file",
    "C59_kind",
    "C59_both_kinds",
    "C59_same_numbers_refuted",
    "C59_cut_refuted",
    "C59_stdhep_refuted"
   ],
   "note": "For StdHep files, in lists together with LCIO files, the number in the header less one is counted, which need not be the number of events (C59_stdhep_refuted). Refuted witnesses: events with equal numbers are counted once; a file that was cut off is not counted (exception)."
  },
  {
   "property": "C60",
   "status": "proved",
   "theorems": [
    "C60_made",
    "C60_next",
    "C60_while",
    "C60_vector",
    "C60_handle",
    "C60_null_element_refuted",
    "C60_other_class_refuted",
    "C60_removed_refuted"
   ],
   "note": "Collections of less than 2^31 elements. Refuted witnesses for what users may expect beyond the statement: a null element ends the loop early; next does not check the class of later elements; the number of elements is taken once, so removing elements leads outside the collection."
  },
  {
   "property": "C61",
   "status": "proved",
   "theorems": [
    "C61_views",
    "C61_nothing_left",
    "C61_stored",
    "C61_copy_refuted",
    "C61_outlived_refuted",
    "C61_grown_refuted"
   ],
   "note": "The specification is over the history of the program and knows no addresses of data. Refuted witnesses: copies delete the data twice; a view used after its owner was deleted; data of variable size that grows under a view."
  },
  {
   "property": "C62",
   "status": "proved",
   "theorems": [
    "C62_schedules",
    "C62_number_of_tasks",
    "C62_no_tasks_refuted",
    "C62_negative_refuted",
    "C62_cut_file_refuted"
   ],
   "note": "Small-step model with a step per statement that other threads can see. Refuted witnesses beyond the statement: hardware_concurrency() may return 0, then no task is ever started and the program never ends; LCIO_MAX_THREADS=-1 allows 4294967295 tasks; an exception from a file that was cut off ends the program with started events not processed."
  },
  {
   "property": "C63",
   "status": "proved",
   "theorems": [
    "C63_checked",
    "C63_usage",
    "C63_missing_file",
    "C63_skip_refuted",
    "C63_error_refuted",
    "C63_large_average_refuted"
   ],
   "note": "Refuted witnesses beyond the statement: skipping more events than are in the first file ends the program with an uncaught exception although the second file has them; an lcio::IOException while reading is only printed and the exit status is that of the events before it, possibly success; averages of more than 2^24 elements are compared after rounding to float."
  },
  {
   "property": "C64",
   "status": "proved",
   "theorems": [
    "C64_listing",
    "C64_cut_refuted"
   ],
   "note": "Files of less than 2^32 records. Refuted witness beyond the statement: the short listing of a file that was cut in the data of its last record shows that record as complete, ending behind the end of the file, and reports no error."
  },
  {
   "property": "C65",
   "status": "proved",
   "theorems": [
    "C65_vectors",
    "C65_parameters",
    "C65_unknown",
    "C65_run_header",
    "C65_short_row_refuted",
    "C65_last_row_refuted",
    "C65_stl_vector_refuted",
    "C65_string_keys_refuted",
    "C65_last_run_refuted"
   ],
   "note": "Less than 2^31 elements. Refuted beyond the statement: strings longer than the rows are not truncated but overwrite the next row or run out of the matrix; lcgetparameters is undefined for the STL vectors that the manual tells to use; the method getStringKeys is unknown (getStringtKeys); lcreadnextrunheader dereferences null at the end of a file."
  },
  {
   "property": "C66",
   "status": "proved",
   "theorems": [
    "C66_warnings",
    "C66_times",
    "C66_builtin",
    "C66_late_refuted"
   ],
   "note": "Refuted beyond the statement: a warning that is to be printed before it is registered gets an empty entry, its registration throws, and it is never shown."
  },
  {
   "property": "C67",
   "status": "partial",
   "theorems": [
    "C67_class_names",
    "C67_object_partial",
    "C67_null",
    "C67_derived_refuted",
    "C67_tpc_refuted"
   ],
   "note": "False for objects of TrackerHitPlane and TrackerHitZCylinder, which are derived from TrackerHit and are tested after it, and for TPCHit, which has no name; proved for all other classes."
  },
  {
   "property": "C68",
   "status": "proved",
   "theorems": [
    "C68_values",
    "C68_description",
    "C68_doubles_refuted"
   ],
   "note": "Refuted beyond the statement: the object also has 15 doubles that the description does not name (a typedef of the wrong enumeration)."
  },
  {
   "property": "C69",
   "status": "partial",
   "theorems": [
    "C69_lists_partial",
    "C69_parent_refuted",
    "C69_remove_refuted",
    "C69_position_refuted",
    "C69_range_refuted",
    "C69_number_refuted"
   ],
   "note": "Proved for all sequences of calls, but: lcmcpgetparent, lccolremoveelementat and lcsthgetposition count from 0; lcgetsimcalohit never reports an index out of range; the functions that copy values to an array report one more than their number, and with size 0 write beyond the array."
  },
  {
   "property": "C70",
   "status": "partial",
   "theorems": [
    "C70_initial",
    "C70_attributes",
    "C70_call",
    "C70_failed_call",
    "C70_succeeds",
    "C70_last_set",
    "C70_untouched",
    "C70_words",
    "C70_values",
    "C70_contributions",
    "C70_copy",
    "C70_track_copy",
    "C70_shape_refuted",
    "C70_last_index_refuted"
   ],
   "note": "Proved for all classes, states and sequences of calls, but setShape of a cluster appends instead of setting, and setIntVal and the others write beyond the vector for the index 2^32 - 1. The values of floating point numbers are their bits; the endpoint of a particle with daughters is C71."
  },
  {
   "property": "C71",
   "status": "partial",
   "theorems": [
    "C71_endpoint",
    "C71_endpoint_defined",
    "C71_unset_partial",
    "C71_status_refuted",
    "C71_end_vertex",
    "C71_endpoint_stored_partial",
    "C71_daughter_order_refuted",
    "C71_end_vertex_stored",
    "C71_closest",
    "C71_closest_refuted",
    "C71_particle_id",
    "C71_track_state"
   ],
   "note": "Proved for all objects and events, but: setSimulatorStatus clears the mark of an endpoint that was set; after reading the daughters are in the order of the collection, so the endpoint is the same only if they were before; the closest state is undefined for a track without states and wrong if a distance is NaN. The distance is a parameter, its comparison is that of binary32."
  },
  {
   "property": "C72",
   "status": "proved",
   "theorems": [
    "C72_event",
    "C72_event_setters",
    "C72_weight",
    "C72_weight_refuted",
    "C72_locked_weight_refuted",
    "C72_run_header"
   ],
   "note": "A weight 0 comes back as 1 and a weight that is no float is rounded; the weight of a read only event can be changed through parameters()."
  },
  {
   "property": "C73",
   "status": "partial",
   "theorems": [
    "C73_call",
    "C73_get",
    "C73_wrong_object",
    "C73_failed_call",
    "C73_last_set",
    "C73_new",
    "C73_new_with_arguments",
    "C73_hit_numbers",
    "C73_read_only_refuted",
    "C73_status_refuted",
    "C73_added_refuted",
    "C73_names_refuted",
    "C73_index_refuted",
    "C73_component_refuted",
    "C73_shape_refuted"
   ],
   "note": "Proved for all functions but: exceptions are not turned into LCIO::ERROR; lctrkgetsubdetectorhitnumbers throws for read only tracks; an object of the wrong class is added as a null pointer; lcgobgettypename and lcgobgetdatadescription return pointers to strings that are gone; index 0 of a generic object is undefined; lcsthgetposition and lcsthgetmomentum count from 0; lcclusetshape continues the shape."
  },
  {
   "property": "C74",
   "status": "partial",
   "theorems": [
    "C74_writer_calls",
    "C74_read_back",
    "C74_second_open",
    "C74_fortran_writer",
    "C74_fortran_reader",
    "C74_failed_open_refuted",
    "C74_open_mode_refuted",
    "C74_read_after_end_refuted",
    "C74_file_name"
   ],
   "note": "Proved for all programs that do not open an existing file for appending while another file is open. Not as stated: an open that throws because a file is open already leaves the writer unusable, nothing can be written or closed afterwards and the file never gets its index (C74_second_open); an open with an unknown mode returns while another file is open and the items go there; in Fortran one read after the end ends the program by an exception that is not caught."
  },
  {
   "property": "C75",
   "status": "proved",
   "theorems": [
    "C75_run_record",
    "C75_header_record",
    "C75_event_record",
    "C75_index_and_access_records",
    "C75_stored_records",
    "C75_own_parameters"
   ],
   "note": "The layout is written out in LayoutSpec as lists of fields with literal numbers and names, independently of the writing functions of the model."
  },
  {
   "property": "C76",
   "status": "proved",
   "theorems": [
    "C76_run_header",
    "C76_event_header",
    "C76_event",
    "C76_rejected_versions",
    "C76_old_particle_refuted"
   ],
   "note": "The old layouts are written out in CompatSpec as lists of fields with the version of each field.  C76_old_particle_refuted: with two or more Monte Carlo particles of an old reconstructed particle the read is out of bounds; the other theorems exclude this case (old_fits).  Collections of vertices and generic objects need a version after 1.1, since their types are in the parameters."
  },
  {
   "property": "C77",
   "status": "proved",
   "theorems": [
    "C77_usable",
    "C77_event",
    "C77_event_status",
    "C77_event_deleted",
    "C77_event_delete_undefined",
    "C77_deletable_refuted",
    "C77_read_only",
    "C77_run_header",
    "C77_navigator",
    "C77_navigator_collection"
   ],
   "note": "C77_deletable_refuted: lcevtaddcollection returns 1 for a collection that is already held under another name or by another event, and the deletion is then undefined. Of the functions in lccol.cc only lccolcreate and lccoldelete are in this model (the lists of objects are C69)."
  },
  {
   "property": "C78",
   "status": "proved",
   "theorems": [
    "C78_converted",
    "C78_events",
    "C78_storable",
    "C78_read",
    "C78_stdhep",
    "C78_error",
    "C78_exists",
    "C78_number_refuted"
   ],
   "note": "Preconditions: the events can be stored (C78_storable: numbers in range, records smaller than 4 GB, or 2 GB if compressed) and are fewer than 2^27 - 1. C78_number_refuted: the event numbers of the StdHep file are lost. If an exception escapes, the contents of the output are not modelled."
  },
  {
   "property": "C79",
   "status": "partial",
   "theorems": [
    "C79_calls",
    "C79_write",
    "C79_failed_open_refuted",
    "C79_second_open_refuted",
    "C79_mode_refuted"
   ],
   "note": "Proved for all programs that open no file while another is open; a close without an open since the last close is undefined (null pointer). Not as stated otherwise: any open but that of open( name ) for a file that exists, also one that throws or has an unknown mode, replaces the manager of the index, so that the items already in the open file are missing in its index, and all of them are lost when such a file without an index is opened for appending."
  },
  {
   "property": "C80",
   "status": "partial",
   "theorems": [
    "C80_nth_event_partial",
    "C80_selected_event",
    "C80_usage",
    "C80_missing_file",
    "C80_far_beyond_refuted"
   ],
   "note": "The right event is shown in all cases in which there is one. Not as stated: the message that there are fewer than n events is printed only for n = number of events + 1; for larger n, and for a file that does not exist, the program is terminated by an exception of sio, which is no IOException. Selected events: event numbers that are not negative, files as in C16."
  },
  {
   "property": "C81",
   "status": "partial",
   "theorems": [
    "C81_all_files",
    "C81_missing_file",
    "C81_usage",
    "C81_damaged_header_refuted"
   ],
   "note": "The first part holds in full. Not as stated: a run header that cannot be read ends the program with an exception of sio, which is no IOException, although the events could be read (witness); a file that does not exist likewise. Files as in C18."
  },
  {
   "property": "C82",
   "status": "proved",
   "theorems": [
    "C82_any_order",
    "C82_missing_file"
   ],
   "note": "Preconditions: all files together have fewer than 2^31 events (the counters are ints). Opening, reading an event, and printing with the lock held are single steps; the readers share nothing in the model (the tables of the library are only read). C82_missing_file: the files before the missing one are read to their ends, those behind it in any state."
  },
  {
   "property": "C83",
   "status": "partial",
   "theorems": [
    "C83_table",
    "C83_any_table",
    "C83_status",
    "C83_quality",
    "C83_type",
    "C83_foreign_refuted"
   ],
   "note": "Full for collections that contain all relatives of their particles, whatever order and repetitions they have. Not as stated otherwise: a relative that is not in the collection, as in subsets, is shown as 0, the number of the first particle (C83_foreign_refuted; C83_any_table says what is shown in general). The numbers printed with printf formats are not modelled as text."
  },
  {
   "property": "C84",
   "status": "partial",
   "theorems": [
    "C84_lines",
    "C84_values",
    "C84_cycle",
    "C84_ends",
    "C84_returns",
    "C84_status_refuted"
   ],
   "note": "Full for the lines, their order and numbers, and for termination (undefined behaviour if the numbers exceed an int). Not as stated: generator status, simulator status and endpoint in a line are those of the mother, not of the particle of the line (C84_values, C84_status_refuted). Texts of numbers are not modelled."
  },
  {
   "property": "C85",
   "status": "partial",
   "theorems": [
    "C85_lines",
    "C85_determined",
    "C85_usage",
    "C85_missing_file",
    "C85_type_refuted"
   ],
   "note": "Full for files whose collections with this type name hold generic objects of one int and two floats that are written with the event (also by subset collections), in which no TypeName is an empty list of strings. Not as stated: a collection of other objects with this parameter ends the program with an exception (C85_type_refuted). Texts of numbers are not modelled."
  },
  {
   "property": "C86",
   "status": "partial",
   "theorems": [
    "C86_sum",
    "C86_lacking",
    "C86_class_refuted",
    "C86_null_refuted"
   ],
   "note": "Full for files in which each event has a collection MCParticle of particles that are written with it (also as a subset of another collection). Not as stated otherwise: an event without it ends the program with an exception (C86_lacking), and elements of another class and null elements are undefined behaviour (C86_class_refuted, C86_null_refuted). Floating point arithmetic is a parameter of the theorems; the final division is not modelled."
  },
  {
   "property": "C87",
   "status": "partial",
   "theorems": [
    "C87_first_session",
    "C87_negative_refuted",
    "C87_append",
    "C87_append_refuted"
   ],
   "note": "Full for the record of a session (first and last entry, numbers of runs and events) and for the file record of a file of one session whose last entry has no negative run number. False otherwise: with negative run numbers the last entry of the file record is (0,0) (C87_negative_refuted), and a session that appends adds the counts of the session before again (C87_append, C87_append_refuted)."
  }
 ]
}