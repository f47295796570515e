# Formal model of LCIO (C++): design

The source read is the tree in /repo at the pinned commit.  The model is written in Rocq/Coq 8.16.1
under `rocq/theories`.  Nothing of the C++ is executed: the tie between model and code is the citation
(file and lines) at every definition of the `*Model.v` files.

## 1. Trusted base

* The Coq kernel (8.16.1).
* The axioms printed by `Print Assumptions` under each theorem: none (section 5).
* The reading of the C++ code recorded in the comments of the `*Model.v` files, for an LP64 little-endian
  host (`sio/src/memcpy.cc:6-22` swaps the bytes) with two's complement integers.
* The statements in the `Props*.v` files and the definitions of the `*Spec.v` files they use.

Not modelled, and therefore trusted to behave:

* memory exhaustion; the allocator (addresses of new objects come from a supply of distinct non-null
  numbers that is a parameter or a state component);
* `std::ifstream`/`ofstream` buffering: a stream is the bytes of the file, a position and the state bits;
  writing to an open output stream never fails; files are shorter than 2^63 bytes;
* zlib: a pair of functions `comp` (for each level) and `uncomp`, of which the theorems that need it assume
  the inverse law and a bound on the size;
* IEEE arithmetic: floating point values are their bit patterns.  Comparison and the conversions between
  `float` and `double` are defined on bit patterns (`Ieee.v`, default rounding); sums and quotients are
  arbitrary functions the theorems quantify over;
* the C++ library containers, which are modelled by their contract (`std::map` as a list in order of the
  keys, `std::sort` as any function that permutes and sorts);
* for threads: sequential consistency of the mutex and of the atomics.

## 2. Architecture

| Part | Model | Specification, proofs | Theorems |
|---|---|---|---|
| bytes, words, outcomes, maps | `Bytes` `StrMap` `ZMap` `Ieee` `ListFacts` | | |
| sio: buffers, devices, relocation, blocks, records, streams | `SioModel` | `SioSpec` `SioProofs` `SioRecord` `SioRead` `SioFrame` | `PropsSio` |
| the 21 object handlers, collections | `ObjModel` | `ObjSpec` `ObjProofs` `ObjCalls` `CollSpec` `CollProofs` | `PropsEvent` |
| run headers, events, relocation, post-processing | `EventModel` | `EventSpec` `EventProofs` `PostProofs` `EventFacts` `EventExamples` | `PropsEvent` |
| index, random access records | `IndexModel` | `IndexSpec` `IndexProofs` `IndexFile` `IndexFacts` `IndexExamples` | `PropsIndex` |
| `SIOWriter`, `MT::LCWriter`, `MT::LCReader` | `FileModel` | `FileSpec` `FileFrame` `FileRead` `FileWrite` `FileSessions` `FileSeq` `FileDeliver` `FileFacts` `FileUse` `FileDirect` `FileMore` `FileCount` `FileExamples`; `StreamSpec` `FileStream` | `PropsFile` `PropsFileName` `PropsStream` |
| SIOReader | `ReaderModel` | `ReaderSpec` `ReaderProofs` | `PropsReader` |
| destructors and ownership | `OwnModel` | `OwnSpec` `OwnProofs` `OwnReadSpec` `OwnReadProofs` | `PropsOwn` |
| older StdHep reader, updateNextEvent | `HepUpdModel` | `HepUpdSpec` `HepUpdProofs` | `PropsHepUpd` |
| process of an event | `ProcModel` | `ProcSpec` `ProcProofs` | `PropsProc` |
| encoding of tracking detectors | `ConfModel` | `ConfSpec` `ConfProofs` | `PropsConf` |
| values in the random access records | `IndexModel` | `PropsFileRec` | `PropsFileRec` |
| readmcparticles | `McSumModel` | `McSumSpec` `McSumProofs` | `PropsMcSum` |
| readcalibration | `CalModel` | `CalSpec` `CalProofs` | `PropsCal` |
| tree of daughters | `TreeOutModel` | `TreeOutSpec` `TreeOutProofs` | `PropsTreeOut` |
| table of particles, status texts | `McOutModel` | `McOutSpec` `McOutProofs` | `PropsMcOut` |
| lcio_parallel_read | `ParModel` | `ParSpec` `ParProofs` | `PropsPar` |
| anajob | `AnaModel` | `AnaSpec` `AnaProofs` | `PropsAna` |
| dumpevent | `ShowModel` | `ShowSpec` `ShowProofs` | `PropsShow` |
| MT writer objects, any sequence of calls | `MtModel` | `MtSpec` `MtProofs` | `PropsMt` |
| counting events in StdHep files | `StdCountModel` | | `PropsStdCount` |
| conversion of StdHep files | `StdJobModel` | `StdJobSpec`, `StdJobProofs` | `PropsStdJob` |
| events, run headers, navigators from Fortran | `FevtModel` | `FevtSpec`, `FevtProofs` | `PropsFevt` |
| records of earlier versions | (ObjModel, EventModel) | `CompatSpec`, `CompatProofs`, `CompatObjs`, `CompatColl`, `CompatFile` | `PropsCompat` |
| bytes of the records | (SioModel, ObjModel, EventModel, IndexModel, FileModel) | `LayoutSpec`, `LayoutProofs`, `LayoutFile` | `PropsLayout` `PropsOwnPar` |
| a writer under any calls, Fortran files | `WriterModel` | `WriterSpec`, `WriterProofs`, `WriterRun` | `PropsWriter` |
| Fortran functions for one object | `WrapModel` | `WrapSpec`, `WrapProofs` | `PropsWrap` |
| Attributes of events and run headers | `EvAttrModel` | `EvAttrSpec`, `EvAttrProofs` | `PropsEvAttr` |
| Derived getters | `DerivModel` | `DerivSpec`, `DerivProofs` | `PropsDeriv` |
| Attributes of objects | `AttrModel`, `ImplModel` | `AttrSpec`, `AttrProofs`, `AttrRuns` | `PropsAttr` |
| Fortran lists | `F77Model` | `F77Spec`, `F77Proofs` | `PropsF77` |
| type names, event summary | `TypeModel` | `TypeSpec`, `TypeProofs` | `PropsType` |
| warnings | `WarnModel` | `WarnSpec`, `WarnProofs` | `PropsWarn` |
| Fortran vectors, parameters, run headers | `FortModel` | `FortSpec`, `FortProofs` | `PropsFort` |
| listing of records | `DumpModel` | `DumpSpec`, `DumpProofs` | `PropsDump` |
| checking collections | `CheckModel` | `CheckSpec`, `CheckProofs` | `PropsCheck` |
| parallel processing | `SchedModel` | `SchedSpec`, `SchedProofs` | `PropsSched` |
| typed views | `ViewModel` | `ViewSpec`, `ViewProofs`, `ViewFixed` | `PropsView` |
| repairing and counting tools | `FixModel` | `FixProofs` | `PropsFix` |
| HEPEVT common block | `HevtModel` | `HevtSpec` `HevtProofs` | `PropsHevt` |
| `lcio_merge_files`, `lcio_split_file`, `addRandomAccess` | `MergeModel` | `CopySpec` `CopyObj` `CopySize` `CopyEvent` `MergeProofs` `ToolProofs` | `PropsCopy` `PropsTools` `PropsForce` |
| arbitrary input bytes (no model of its own) | the above | `InputSpec` `InputProofs` `InputObj` `InputEvent` `InputFile` `InputStream` `InputIndex` `InputExamples` `InputDirect` | `PropsInput` `PropsDirect` |
| several threads | `ThreadModel` | `ThreadSpec` `ThreadProofs` `ThreadInv` `ThreadRun` | `PropsThread` |
| `LCSplitWriter` | `SplitModel` | `SplitSpec` `SplitProofs` | `PropsSplit` |
| `LCEventLazyImpl` | `LazyModel` | `LazySpec` `LazyProofs` `LazyFile` `LazyExamples` | `PropsLazy` |
| IMPL classes: setters, access control, parameters, event | `ImplModel` | `ImplSpec` `ImplProofs` `AccessProofs` | `PropsImpl` |
| flag words, `BitSet32`, `ProcessFlag` | `FlagModel` | `FlagSpec` `FlagProofs` | `PropsFlags` |
| `BitField64`, cell ids | `BitModel` | `BitSpec` `BitProofs` `BitParse` `BitFacts` `BitExamples` | `PropsBits` |
| `LCRelationNavigator`, `LCRTRelations` | `NavModel` | `NavSpec` `NavProofs` | `PropsNav` |
| `PIDHandler` | `PidModel` | `PidSpec` `PidProofs` | `PropsPid` |
| `LCTime` | `TimeModel` | `TimeSpec` `TimeProofs` | `PropsTime` |
| StdHep reader (`lXDR`, `lStdHep`, `LCStdHepRdrNew`) | `HepModel` | `HepSpec` `HepProofs` `HepCharge` `HepFormat` `HepFile` `HepExamples` | `PropsHep` |
Property theorems are in `Props*.v`, each closed by `exact` (or by the evaluation of a witness), followed by
`Print Assumptions`, and by an `Example` that a concrete, non-trivial case meets the hypotheses.

**Outcomes.**  Every operation that can fail returns `Res A`: `Ok a`, `Throw e` (a C++ exception), `UB k`
(undefined behaviour: out-of-bounds access, null dereference, signed overflow, bad shift, uninitialised
read, violated precondition of a library function; and `UBDiverge`, a loop that does not end).  A theorem
that says `= Ok ..` excludes all others.

**Loops.**  Loops whose number of turns is not evident take fuel that is computed from the input so that it
suffices whenever every turn makes progress (the theorems on well-formed files show that it suffices; C39
shows for arbitrary bytes that it runs out only in the listed cases, where the state repeats).  No theorem
is bounded by fuel.

**Handlers.**  The `write` method of a handler is straight-line code issuing device calls (`SIO_DATA`,
`SIO_SDATA`, `SIO_PNTR`, `SIO_PTAG`).  It is modelled as the list of device calls it issues, which the device
model executes on the growing buffer as `sio::write_device` does.  The `read` method is a function on the
read device.

**Objects.**  A heap maps addresses to objects; pointers are addresses, 0 is the null pointer.  Events are
compared up to the injective renaming of addresses that relocation gives (`EventSpec`).

## 3. Properties

What is modelled and how each is proved.  The theorems are listed with their state in `MANIFEST.json`; the
note of the manifest is repeated here.

* **C01** Primitive values survive the output and input devices (proved).  Method: device calls on byte lists; round trip by induction over the list of values.  Theorems: `C01_primitives_roundtrip`, `C01_elements_aligned`, `C01_empty_vector_into_used_target_refuted`.  Reading into fresh variables; reading an empty vector into a used variable leaves the old elements (refuted witness).
* **C02** Growing the output buffer never loses or alters bytes (proved).  Method: the buffer with its capacity and position refines appending; induction over the writes.  Theorems: `C02_growth_preserves_bytes`.  Every positive initial capacity, writes below 2^32-3 bytes each.
* **C03** Links between objects in a record are restored exactly (proved).  Method: the relocation tables of both devices; the map of ids is injective; graph renaming.  Theorems: `C03_links_restored`, `C03_object_written_twice_refuted`.  Each object tagged once per record; an object tagged twice (two owning collections) is shown to lose its identity.
* **C04** Records and blocks are framed so that a reader recovers them (proved).  Method: framing of records; induction over the list of records.  Theorems: `C04_records_roundtrip`, `C04_record_names`.  Records up to the 32-bit length limit.
* **C05** Blocks are dispatched by name, unknown blocks are skipped (proved).  Method: framing of blocks; look-up by name against association lists.  Theorems: `C05_dispatch`, `C05_handler_order_irrelevant`.  Handlers with distinct names.
* **C06** Compression is transparent (proved).  Method: codec functions universally quantified with the inverse law as a hypothesis.  Theorems: `C06_compression_transparent`.  Every invertible codec whose output for records below 2 GB fits the 32-bit length field; compression level chosen per record, files divided into sessions in any way. The codec itself (zlib) is a parameter.
* **C07** Named parameters survive writing and reading (proved).  Method: the three maps as sorted association lists; round trip.  Theorems: `C07_parameters_roundtrip`, `C08_run_header_roundtrip`.  Events and collections; the parameters of run headers are part of C08. Collections of vertices and generic objects get string parameters of their own on writing.
* **C08** Run headers survive writing and reading (proved).  Method: round trip of the block.  Theorems: `C08_run_header_roundtrip`.  Records below the 32-bit limit.
* **C09** Event headers survive writing and reading (proved).  Method: round trip of the block.  Theorems: `C09_event_header_roundtrip`.  Names accepted by addCollection, registered types, any list of collections to write and to read. The subset marker is removed again by the reader.
* **C10** Stored attributes of every object type survive writing and reading (proved).  Method: one lemma per handler, against a separate list of the stored attributes (`ObjSpec.stored`).  Theorems: `C10_attributes`, `C10_all_attributes`, `C10_particle_ids_sorted`.  All 21 types and every flag word; ObjSpec.stored lists the attributes that survive (single precision for momenta and masses).
* **C11** A whole event survives writing and reading (partial).  Method: composition of C03-C10.  Theorems: `C11_event_roundtrip`, `C11_type_names`, `C11_duplicate_track_state_refuted`, `C11_cluster_weights_refuted`, `C11_null_vertex_refuted`.  Every event satisfying event_ok/event_fits whose MC parents lie in the same or an earlier collection; the refuted theorems show why some of the conditions are needed.
* **C12** Subset collections restore references, not copies (partial).  Method: composition of C03-C10.  Theorems: `C12_subset_references`, `C12_missing_target_throws`.  With LCIO_IGNORE_NULL_IN_SUBSET_COLLECTIONS missing targets become null; without it (default) the event is unreadable, which is proved as well.
* **C13** Sequential reading returns exactly what was written, in order (proved).  Method: induction over the history of the writer and the calls of the reader.  Theorems: `C13_sequential_reading`.  Any number of files, each made by any number of sessions (the first not empty), any order of readNextEvent and readNextRunHeader calls.
* **C14** A file cut off at any byte never yields a phantom event (proved).  Method: induction over the records with the stream model, for every prefix.  Theorems: `C14_truncated_file`, `C14_direct_access_refuted`.  Every byte position; an item is delivered if its text is complete, and not if more than its (at most three) padding bytes are missing. Opening such a file for direct access is undefined behaviour if just the last record is missing (refuted witness).
* **C15** The random access index round-trips (proved).  Method: codec of the index record.  Theorems: `C15_index_roundtrip`, `C15_ordinary_files`, `C15_one_run_refuted`, `C15_short_offset_refuted`.  Every index whose entries share the format chosen from the first and last entry (covers); always so for ordinary files (every event's run header written, positions increasing); refuted witnesses for maps outside that.
* **C16** Direct access finds every event that was written (partial).  Method: positions of the items against the index, after any calls.  Theorems: `C16_direct_access`, `C16_any_calls`, `C16_ordinary_sessions`, `C16_continued_run_refuted`, `C16_negative_number_refuted`, `C16_after_end_refuted`, `C16_rebuilt_index_refuted`, `C16_rebuilt_partly_refuted`, `C16_rebuilt_compressed_refuted`.  Proved for files made by any number of sessions whose index has the form chosen by the writer (sess_covers; C16_ordinary_sessions gives a sufficient condition), event numbers not negative, any calls before. The full statement is false: refuted for a session with events of a run whose header is elsewhere, for negative event numbers, after the end of the file was hit, and for files without index.
* **C17** Appending keeps old events and makes new ones reachable (partial).  Method: sessions as a list; chain of access records.  Theorems: `C17_append`, `C17_no_overwriting`, `C17_file_name`, `C17_append_destroys_refuted`, `C17_empty_file_refuted`.  Proved for every sequence of sessions whose first one is not empty (bytes kept: without further conditions; index: sess_covers and distinct numbers). Refuted: a file closed before anything was written cannot be appended to; a file that was not closed is destroyed by appending.
* **C18** The random access record has a fixed size and is found from the end of the file (proved).  Method: length of the record, reading from the end.  Theorems: `C18_fixed_size_and_found`.  The record is always 136 bytes and read back from the end of the file.
* **C19** Concurrent writers never interleave inside an event (proved).  Method: small-step semantics; invariant by induction over the steps of any schedule.  Theorems: `C19_every_interleaving`, `C19_nothing_lost`, `C19_read_back`, `C19_no_deadlock`, `C19_second_close_refuted`.  Small-step model of MT::LCWriter with the mutex and the atomics; for every number of threads, programs and schedule, by an invariant. At most one close() in all programs together is assumed: with two the code dereferences a null pointer (refuted theorem). Exceptions of write calls occur only after the file was closed by another thread. Sequential consistency of the atomics and the mutex is assumed; run headers and events are not shared between threads; open() is not called concurrently.
* **C20** Sorted run and event numbering (partial).  Method: laws of the comparison; the map against a sorted list.  Theorems: `C20_strict_weak_order`, `C20_listing`, `C20_negative_event_refuted`.  Strict weak order on all int pairs; events with a negative number are indistinguishable from run headers in the map (refuted witness).
* **C21** Bit fields are independent and sign correct (partial).  Method: bit arithmetic on Z with 64-bit wrap.  Theorems: `C21_assignments`, `C21_rejected`, `C21_accepted_numbers`, `C21_by_index`, `C21_top_value_refuted`, `C21_wide_field_refuted`.  Every accepted encoding, start value and sequence of assignments, except assigning 2^width to an unsigned field: that number is accepted and stored as 0 (refuted witness). Fields wider than 32 (signed) or 30 (unsigned) bits accept nothing (refuted witness).
* **C22** Encoding strings are parsed to non-overlapping fields (proved).  Method: parser of the encoding against a grammar.  Theorems: `C22_fields_apart`, `C22_description`, `C22_parsed`, `C22_loose_numbers`, `C22_parts`, `C22_width_refuted`.  Every string; in addition exactly which well formed strings are accepted and with which fields. Widths the constructor cannot handle (64 bits, 32 bits unsigned) are undefined behaviour (refuted witness).
* **C23** Encoder and decoder of cell ids agree (proved).  Method: composition.  Theorems: `C23_cell_ids`, `C23_assigned_values`, `C23_default_encoding`, `C23_same_hit_refuted`.  Every encoding, start value and history of assignments; directly and after storage of the hit. A decoder used twice for the same hit address returns the old values (refuted witness).
* **C24** Forward and reverse relations are always consistent (proved).  Method: maps from addresses to lists; induction over programs.  Theorems: `C24_answers`, `C24_symmetric`.  Every program of adds, removes and queries, for every addition of weights.
* **C25** Relation collections reproduce the navigator (proved).  Method: the navigator rebuilt from its collection.  Theorems: `C25_collection`, `C25_weights_stored`, `C25_types_stored`, `C25_order_refuted`.  Every program; forward answers identical, reverse answers with the same objects and weights, whose order can differ (refuted witness). Files keep the weights.
* **C26** Particle id algorithms are registered consistently (proved).  Method: handlers and parameters of the collection; induction over lifetimes.  Theorems: `C26_any_program`, `C26_handler`, `C26_one_to_one`, `C26_particle_ids`, `C26_all_of_an_algorithm`, `C26_bad_parameters`, `C26_overlapping_handlers_refuted`, `C26_failed_handler_refuted`, `C26_order_refuted`.  Any number of handler lifetimes one after the other, starting from any parameters that describe algorithms consistently. Two handlers alive at the same time lose registrations (refuted witness). In addition: what setParticleID stores.
* **C27** Time stamps and calendar dates correspond (proved).  Method: the loops of the code against counting days one by one with the Gregorian rules.  Theorems: `C27_stamp_to_date`, `C27_date_unique`, `C27_date_to_stamp`, `C27_any_object`, `C27_unix`, `C27_date_string`, `C27_overflow_refuted`, `C27_invalid_date_refuted`, `C27_unix_refuted`.  Every stamp and every date; the instant of a date counts days one by one with the Gregorian rules. Refuted witnesses for the documented end of the range (2106), for non-existing dates that the constructor accepts and for unixTime after 2038.
* **C28** Event collections behave like a map with unique valid names (partial).  Method: state machine against a finite map.  Theorems: `C28_event_is_a_map`, `C28_add_accepted`, `C28_names_identifiers`, `C28_embedded_nul_refuted`.  Every program of calls on the event, its collections and their elements. The map properties for all names; identifiers for names without NUL characters; a name with a NUL character is only checked up to it (refuted witness).
* **C29** Read-only data stays unchanged (proved).  Method: every modifying call; invariant over programs.  Theorems: `C29_read_only`, `C29_unchecked_refuted`.  Every world, every program after setAccessMode(READ_ONLY) and every checked modifying call (178 setters of the element classes). The modifying calls that are not checked are listed in the specification; witnesses that they change read only data.
* **C30** Monte Carlo parent and daughter lists mirror each other (proved).  Method: adjacency lists; invariant.  Theorems: `C30_mirrored`, `C30_read_only_parent_refuted`.  Every program that adds parents to modifiable particles, mixed with any other calls. With a read only parent the lists get out of step (refuted witness).
* **C31** Daughter lists are rebuilt after reading (proved).  Method: post-processing as a fold over the collections.  Theorems: `C31_daughters_rebuilt`, `C31_parent_in_later_collection_refuted`.  Proved for any number of MC collections with parents in the same or an earlier collection; refuted for parents in later collections.
* **C32** Hit contributions are accumulated without loss (proved).  Method: state machine, sums as folds.  Theorems: `C32_energy`, `C32_short_form`, `C32_detailed_form`, `C32_particles`.  Every sequence of contributions, for every floating point addition.
* **C33** Flag bits are independent (proved).  Method: bits of words.  Theorems: `C33_collection_flags`, `C33_named_collection_flags`, `C33_named_simulator_status`, `C33_quality_bits`, `C33_bitset32`, `C33_simulator_status`, `C33_process_flags`, `C33_contains`, `C33_added_particles`, `C33_tracker_hit_flags`, `C33_made_bitset`, `C33_endpoint_bit`, `C33_other_bits_refuted`.  All words, all sequences. Bits outside 0..31 are ignored or undefined (witness).
* **C34** Parameter maps return the last value set (proved).  Method: state machine against the last value set.  Theorems: `C34_last_value`, `C34_keys_once`, `C34_empty_vector_refuted`.  Every history. A key set to an empty vector has no first element: the scalar getter is undefined behaviour (refuted witness).
* **C35** Runtime relations between objects stay symmetric (proved).  Method: tables of links; invariant over programs.  Theorems: `C35_one_to_one`, `C35_n_to_n`, `C35_n_to_n_merge`, `C35_one_to_n`, `C35_merge_refuted`, `C35_self_merge_refuted`, `C35_one_to_n_refuted`.  Every program without null pointers; also 1-to-N relations and merge_relations under stated conditions, with refuted witnesses outside them.
* **C36** Split writing loses nothing (proved).  Method: invariant over programs of the split writer.  Theorems: `C36_nothing_lost`, `C36_read_back`, `C36_names`, `C36_no_overwriting`, `C36_other_extension`, `C36_second_session_refuted`, `C36_early_write_refuted`.  For one session of a split writer that is new or was used for a session with several files; the program may write, flush and set the compression level in any way. Reusing a split writer after a session with a single file, or writing before open, uses a wrong file name (refuted witnesses). Extensions other than .slcio are never split.
* **C37** Lazy unpacking equals eager unpacking (partial).  Method: the lazy event as a state machine against the immediate one.  Theorems: `C37_lazy_files_partial`, `C37_next_event_partial`, `C37_taken`, `C37_empty_event_refuted`, `C37_null_in_subset_refuted`, `C37_read_only_refuted`, `C37_remove_refuted`.  Proved for all written files, all orders of calls and all sequences of read accesses, except events without collections in compressed records (refuted); for files of any contents where the record decompresses to the announced size. Differences: exception type of the empty event, time of the exception for null entries in subsets, read-only protection, removeCollection before unpacking.
* **C38** Generic user objects survive writing and reading (proved).  Method: codec.  Theorems: `C38_generic_objects_roundtrip`, `C38_stale_fixed_bit_refuted`, `C38_different_fixed_sizes_refuted`.  FIXED bit matching the objects; without that objects are lost (refuted witness).
* **C39** Untrusted input never makes the record reader read outside its buffers (partial).  Method: a predicate transformer over the readers: outcome is never UB unless a listed cause occurs in the bytes; for the chain of random access records, the pigeonhole principle on the positions of the file.  Theorems: `C39_record_partial`, `C39_blocks_partial`, `C39_block_infos_partial`, `C39_run_data_partial`, `C39_event_data_partial`, `C39_next_run_partial`, `C39_next_event_partial`, `C39_header_length_refuted`, `C39_zero_block_refuted`, `C39_name_length_refuted`, `C39_unknown_type_refuted`, `C39_array_length_refuted`, `C39_old_particle_refuted`, `C39_orphan_refuted`, `C39_repeated_block_refuted`, `C39_huge_record_refuted`, `C39_stream_partial`, `C39_event_at_partial`, `C39_run_at_partial`, `C39_skip_partial`, `C39_index_partial`, `C39_open_partial`, `C39_number_partial`, `C39_lists`, `C39_append_partial`, `C39_chain_refuted`, `C39_file_record_refuted`, `C39_cut_file_refuted`, `C39_index_overflow_refuted`.  False in general: for arbitrary bytes the theorems list every way in which sequential reading (records, blocks, all object handlers, relocation, post-processing, several files) can be undefined or endless, in terms of the bytes of the file; each way has a witness file. The same for readStream, readEvent, readRunHeader, skipNEvents, opening for direct access (index in the file or rebuilt) and opening to append.
* **C40** Track states are unique per location (proved).  Method: state machine.  Theorems: `C40_unique`, `C40_state_added`, `C40_second_rejected`, `C40_location_changed_refuted`, `C40_assignment_refuted`.  Every sequence of calls that does not hand out the vector of states. Changing the location of a stored state and assignment of tracks break it (refuted witnesses).
* **C41** Skipping and counting agree with reading (proved).  Method: reader state machine.  Theorems: `C41_skip_is_reading`, `C41_counting`, `C41_counting_rewinds_refuted`, `C41_next_file_refuted`.  One file, after any calls. Counting: the index of the file agrees with its items. Refuted beyond the statement: with several files skipping does not go on to the next file; counting without direct access goes back to the first event.
* **C42** Selective reading of collections does not disturb the others (partial).  Method: selection of blocks, corollary of C05/C11.  Theorems: `C42_selective_reading`, `C42_unread_parents_refuted`.  The selection must contain the collections of the MC parents; otherwise a null pointer is dereferenced (refuted witness).
* **C43** StdHep daughter ranges give symmetric family links (proved).  Method: the loops of readEvent as functions on a list of particles; invariants.  Theorems: `C43_mirrored`, `C43_links`, `C43_attributes`, `C43_accepted`, `C43_first_line_refuted`, `C43_dangling_refuted`.  For every reader state and file contents. In addition: the links are exactly the declared ones and repairs of decays; attributes; records with consistent tables are accepted. Refuted witnesses: a single mother in the first line is not linked; tables that point outside the record lead to out-of-bounds accesses.
* **C44** Charges derived from particle codes (partial).  Method: digit arithmetic.  Theorems: `C44_antiparticle`, `C44_baryons`, `C44_mesons`, `C44_diquarks`, `C44_bounded`, `C44_codes_refuted`.  Proved for all hadron codes with valid quark digits (mesons: heavier quark first) and for all ints but the smallest; codes with other digits and the smallest int are undefined behaviour (refuted witness).
* **C45** StdHep files are read event by event (partial).  Method: a grammar of files; the reader on every file of it.  Theorems: `C45_events`, `C45_stale_weight_refuted`.  Proved for all well-formed files, with any number of tables, records and particles; records hold one block. Weight and process of events that do not store them are taken over from the event before (refuted witness for that part).
* **C46** Untrusted StdHep files are refused or read (partial).  Method: predicate transformer, witnesses.  Theorems: `C46_open_other_partial`, `C46_open_partial`, `C46_truncated_refuted`, `C46_cycle_refuted`, `C46_wrong_block_refuted`, `C46_no_pointer_refuted`.  False in general: null pointer for files cut in the header, endless loops for cyclic tables, wrong blocks accepted, the same event returned for ever. Proved: opening a file whose first strings are complete, or that does not begin with a file header, is defined.
* **C47** Listeners get every record once and in order (proved).  Method: induction over the records of a file and over the files; relation between items and calls of the listeners.  Theorems: `C47_listeners`, `C47_truncated_file`, `C47_two_listeners_refuted`, `C47_limit_zero_refuted`.  Every list of files, every sequence of calls with a positive limit or without one. With more than one listener it is assumed that the parents of MCParticles are in the collection of the particle: the event is post-processed for each listener, so that otherwise the later ones see repeated links (refuted witness). A limit of 0 reads a record and loses an event (refuted witness).
* **C48** A merged file is read like the files it was made of (proved).  Method: the specification of an event that was read, composed with itself; corollary of C13 and C47.  Theorems: `C48_merged`, `C48_copy_of_copy`, `C48_fixed_subset_refuted`, `C48_type_name_refuted`, `C48_null_element_refuted`.  The conditions for storing an event again are spelled out in copyable; refuted witnesses show that three of them are needed: without them merging loses a type name, dereferences a null pointer, or succeeds and leaves a file that cannot be read. The output is not one of the inputs; fewer than 2^27 items. The listener writes while files are read; the model collects the calls first.
* **C49** The parts of a split file are read like the whole (proved).  Method: composition of C36 and C47 by the specification of copies of C48.  Theorems: `C49_split`.  The conditions on the items are those of C48; no file with one of the possible names exists before; the output name ends with .slcio (other names: C36_other_extension); fewer than 2^27 items. The listener writes while the file is read; the model collects the calls first.
* **C50** Adding an index does not change what is in a file (partial).  Method: an index added is an appended session without items; C16, C17.  Theorems: `C50_index_added`, `C50_several_files`, `C50_force`, `C50_no_index_refuted`, `C50_force_refuted`, `C50_force_missing_refuted`.  Proved for all files closed by a writer, in any number, with missing files in between and the same file more than once. False for what the program is made for: a file without index records loses all its events, and with -f every file does; with -f a missing file leads to fclose of a null pointer (refuted witnesses).
* **C51** Registered listeners get every record, change it in turn and then see it read only (proved).  Method: sets of addresses; induction over programs, with C47.  Theorems: `C51_listeners`, `C51_any_files`, `C51_remove_twice_refuted`.  Listeners are removed only while registered (otherwise undefined: refuted witness), do not throw and do not use the reader. What they change is an arbitrary function of their address and the record.
* **C52** SIOReader returns the records of the file and keeps the last one alive (partial).  Method: state machine over the pointers; induction over programs.  Theorems: `C52_same_records`, `C52_no_exception`, `C52_record_stays`, `C52_deleted_twice_refuted`, `C52_cut_file_refuted`.  Proved for every file and every sequence of calls, up to the first call of a kind whose last call threw while the one before had returned a record. That call deletes the record again: refuted, also for a file that is not damaged (asking for run headers at its end).
* **C53** Everything is deleted exactly once (proved).  Method: owner of every address as an independent state; invariant between the pointers stored in objects and the owners, induction over programs.  Theorems: `C53_deleted_once`, `C53_nothing_left`, `C53_read_program`, `C53_read_deleted`, `C53_same_books`, `C53_two_names_refuted`, `C53_shared_element_refuted`, `C53_shallow_copy_refuted`, `C53_taken_again_refuted`, `C53_reused_address_refuted`, `C53_taken_deleted_refuted`.  The rules of ownership are spelled out in OwnSpec. Two of them are needed only because the event never forgets that a collection was taken: it must not be added again, nor must its address be used for another collection (otherwise it is never deleted: refuted witnesses). The library accepts, and then deletes twice: one collection under two names, one object in two collections, copies of particles with particle ids (refuted witnesses). C53_same_books: the calls of the event do the same as in the model used for C28. C53_read_program and C53_read_deleted start from an event that was read, for any bytes from which the reader makes an event.
* **C54** A HEPEVT table survives the conversion to an event and back (proved).  Method: list of links as an independent description of the family; induction over lines.  Theorems: `C54_table`, `C54_consistent_table`, `C54_event`, `C54_other_name_refuted`, `C54_other_pointers_refuted`, `C54_mother_refuted`, `C54_parent_elsewhere_refuted`, `C54_too_many_refuted`, `C54_gap_refuted`, `C54_daughters_gap_refuted`.  For every function that computes energies and times. The default name of the collection: with another name the call throws after having added it, or stores pointers to other particles (refuted witnesses). The number of particles and the numbers of the mothers are not checked by the code (refuted witnesses: reads and writes outside the arrays); parents or daughters that do not follow each other come back as others (refuted witnesses).
* **C55** The two StdHep readers agree, and an event gets what was read (proved).  Method: the newer reader is the older one followed by a loop that only adds links; the lemmas of C43; equations for the calls on the event.  Theorems: `C55_older`, `C55_fewer_links`, `C55_same`, `C55_update`, `C55_update_older`, `C55_end`, `C55_refused`, `C55_mothers_refuted`, `C55_refused_changes_refuted`, `C55_weight_refuted`.  The statement says 'without adding or replacing a collection': a refused event has nevertheless got the weight and the process of the StdHep event, which is consumed (refuted witness). An event of weight 0 reports weight 1 (refuted witness). Links declared by the daughters alone are lost with the older reader (refuted witness).
* **C56** The process flag of an event says what its hard final state is (proved).  Method: relation for the choice of the final state, shown equivalent to the loops and unique; invariant of the counting loop; pigeonhole argument for chains of Higgs bosons.  Theorems: `C56_unknown`, `C56_flags`, `C56_hard`, `C56_defined`, `C56_parentless`, `C56_comes_back`, `C56_gluons`, `C56_gluons_refuted`, `C56_exotic_refuted`, `C56_mixed_refuted`, `C56_order_refuted`, `C56_second_beam_refuted`, `C56_defined_refuted`.  The bits are those of the specification flagged, which follows the code where the documentation leaves it open. Refuted witnesses: a decay into gluons sets no bit; an exotic particle in the final state is not flagged since its number and not its code is compared; with two Higgs bosons the daughters of different ones are paired; particles without parents that do not come first are missed; only the first beam particle is searched; Higgs bosons without daughters, cycles, null pointers and the smallest int are undefined.
* **C57** The cell id encoding of tracking detectors is fixed at its first use and keeps the fields in order (proved).  Method: invariant over histories; first occurrences in strings as independent description of find; letters cannot reach over separators; parser theorem of C22.  Theorems: `C57_once`, `C57_values`, `C57_numbers`, `C57_ild`, `C57_usable_refuted`, `C57_numbers_refuted`, `C57_names_refuted`, `C57_system_refuted`, `C57_ild_name_refuted`, `C57_ild_empty_refuted`.  The test of a new encoding only looks for the names as parts of the string: refuted witnesses for accepted strings that BitField64 refuses, that have other fields in between, lack a field or have both subdet and system. ILDCellIDEncoder: a further field of the same name hides the canonical one by name; with an empty string it throws after having changed the collection (refuted witnesses).
* **C58** copyfix recovers every complete item of a file that was cut off (proved).  Method: the calls of the listener for a cut file (C47) are copies that can be written again (C48).  Theorems: `C58_repaired`.  Cut at any byte of a file of any number of sessions; the recovered items are characterised by their positions in the file (up to 3 bytes of padding behind the last one). An output that is also the input, and failures to write, are outside the model.
* **C59** lcio_event_counter counts the events that were written (proved).  Method: induction over the files with C41.  Theorems: `C59_counted`, `C59_missing_file`, `C59_kind`, `C59_both_kinds`, `C59_same_numbers_refuted`, `C59_cut_refuted`, `C59_stdhep_refuted`.  For StdHep files, in lists together with LCIO files, the number in the header less one is counted, which need not be the number of events (C59_stdhep_refuted). Refuted witnesses: events with equal numbers are counted once; a file that was cut off is not counted (exception).
* **C60** Typed views of a collection return its elements in order (proved).  Method: induction over the calls with the position as invariant.  Theorems: `C60_made`, `C60_next`, `C60_while`, `C60_vector`, `C60_handle`, `C60_null_element_refuted`, `C60_other_class_refuted`, `C60_removed_refuted`.  Collections of less than 2^31 elements. Refuted witnesses for what users may expect beyond the statement: a null element ends the loop early; next does not check the class of later elements; the number of elements is taken once, so removing elements leads outside the collection.
* **C61** Fixed objects are views of their data, in memory and in files (proved).  Method: invariant that relates the memory to the history of the program, induction over the calls; C38 for files.  Theorems: `C61_views`, `C61_nothing_left`, `C61_stored`, `C61_copy_refuted`, `C61_outlived_refuted`, `C61_grown_refuted`.  The specification is over the history of the program and knows no addresses of data. Refuted witnesses: copies delete the data twice; a view used after its owner was deleted; data of variable size that grows under a view.
* **C62** Parallel processing: every event once, run headers in between, for all schedules (proved).  Method: invariant over the steps of all threads, C47 for what the reader delivers; a continuation that ends the program is built by induction over what is left.  Theorems: `C62_schedules`, `C62_number_of_tasks`, `C62_no_tasks_refuted`, `C62_negative_refuted`, `C62_cut_file_refuted`.  Small-step model with a step per statement that other threads can see. Refuted witnesses beyond the statement: hardware_concurrency() may return 0, then no task is ever started and the program never ends; LCIO_MAX_THREADS=-1 allows 4294967295 tasks; an exception from a file that was cut off ends the program with started events not processed.
* **C63** lcio_check_col_elements succeeds exactly if the collections have the expected sizes (proved).  Method: the files deliver what was written (C13, C41); invariant of the counters over the events; rounding to 24 binary digits bounded by integer arithmetic.  Theorems: `C63_checked`, `C63_usage`, `C63_missing_file`, `C63_skip_refuted`, `C63_error_refuted`, `C63_large_average_refuted`.  Refuted witnesses beyond the statement: skipping more events than are in the first file ends the program with an uncaught exception although the second file has them; an lcio::IOException while reading is only printed and the exit status is that of the events before it, possibly success; averages of more than 2^24 elements are compared after rounding to float.
* **C64** The listing of a file shows every record and block where it is (proved).  Method: the file is a sequence of records (as for C04, C14); sizes are computed by a separate arithmetic of padded lengths; induction over the records and, for each, over its blocks.  Theorems: `C64_listing`, `C64_cut_refuted`.  Files of less than 2^32 records. Refuted witness beyond the statement: the short listing of a file that was cut in the data of its last record shows that record as complete, ending behind the end of the file, and reports no error.
* **C65** Fortran programs get back what they put into vectors, parameters and run headers (proved).  Method: programs are sequences of calls on a heap of vectors and parameter objects; rows of matrices by induction over the strings; parameters by invariants of calls that do not delete the vector or set the key.  Theorems: `C65_vectors`, `C65_parameters`, `C65_unknown`, `C65_run_header`, `C65_short_row_refuted`, `C65_last_row_refuted`, `C65_stl_vector_refuted`, `C65_string_keys_refuted`, `C65_last_run_refuted`.  Less than 2^31 elements. Refuted beyond the statement: strings longer than the rows are not truncated but overwrite the next row or run out of the matrix; lcgetparameters is undefined for the STL vectors that the manual tells to use; the method getStringKeys is unknown (getStringtKeys); lcreadnextrunheader dereferences null at the end of a file.
* **C66** A warning is shown as often as it may be, and once more at the end (proved).  Method: the map is a function of the calls so far (invariant by induction over the calls); the specification only looks at the sequence of calls.  Theorems: `C66_warnings`, `C66_times`, `C66_builtin`, `C66_late_refuted`.  Refuted beyond the statement: a warning that is to be printed before it is registered gets an empty entry, its registration throws, and it is never shown.
* **C67** The type name of a class is the one under which its objects are stored (partial).  Method: by cases over the classes; compared with the handler map and with the class names of C11.  Theorems: `C67_class_names`, `C67_object_partial`, `C67_null`, `C67_derived_refuted`, `C67_tpc_refuted`.  False for objects of TrackerHitPlane and TrackerHitZCylinder, which are derived from TrackerHit and are tested after it, and for TPCHit, which has no name; proved for all other classes.
* **C68** An event summary holds the values that were set, under the names of its description (proved).  Method: invariant by induction over the calls; the specification keeps the sequence of calls and parses the description.  Theorems: `C68_values`, `C68_description`, `C68_doubles_refuted`.  Refuted beyond the statement: the object also has 15 doubles that the description does not name (a typedef of the wrong enumeration).
* **C69** The Fortran interface gives the objects of a list by their index, counted from 1 (partial).  Method: invariant between the memory and the history of calls, by induction over the calls.  Theorems: `C69_lists_partial`, `C69_parent_refuted`, `C69_remove_refuted`, `C69_position_refuted`, `C69_range_refuted`, `C69_number_refuted`.  Proved for all sequences of calls, but: lcmcpgetparent, lccolremoveelementat and lcsthgetposition count from 0; lcgetsimcalohit never reports an index out of range; the functions that copy values to an array report one more than their number, and with size 0 write beyond the array.
* **C70** An attribute of a data object is what was set last, and nothing else changes it (partial).  Method: case analysis over classes, calls and getters against a table of effects, induction over the sequence of calls.  Theorems: `C70_initial`, `C70_attributes`, `C70_call`, `C70_failed_call`, `C70_succeeds`, `C70_last_set`, `C70_untouched`, `C70_words`, `C70_values`, `C70_contributions`, `C70_copy`, `C70_track_copy`, `C70_shape_refuted`, `C70_last_index_refuted`.  Proved for all classes, states and sequences of calls, but setShape of a cluster appends instead of setting, and setIntVal and the others write beyond the vector for the index 2^32 - 1. The values of floating point numbers are their bits; the endpoint of a particle with daughters is C71.
* **C71** Endpoints, end vertices and closest track states are found through the references, also after storage (partial).  Method: equivalence with an inductive description; composition with the round trip of events (C10); loop invariant for the closest state; induction over the calls.  Theorems: `C71_endpoint`, `C71_endpoint_defined`, `C71_unset_partial`, `C71_status_refuted`, `C71_end_vertex`, `C71_endpoint_stored_partial`, `C71_daughter_order_refuted`, `C71_end_vertex_stored`, `C71_closest`, `C71_closest_refuted`, `C71_particle_id`, `C71_track_state`.  Proved for all objects and events, but: setSimulatorStatus clears the mark of an endpoint that was set; after reading the daughters are in the order of the collection, so the endpoint is the same only if they were before; the closest state is undefined for a track without states and wrong if a distance is NaN. The distance is a parameter, its comparison is that of binary32.
* **C72** Attributes of events and run headers are what was set last while they could be modified (proved).  Method: invariant over the program: every attribute is a fold over the history of calls and outcomes.  Theorems: `C72_event`, `C72_event_setters`, `C72_weight`, `C72_weight_refuted`, `C72_locked_weight_refuted`, `C72_run_header`.  A weight 0 comes back as 1 and a weight that is no float is rounded; the weight of a read only event can be changed through parameters().
* **C73** The Fortran functions for one object set and return the attribute they are named after (partial).  Method: each function reduced to a C++ call whose effects are those of C70; frame argument over the memory and induction over the program.  Theorems: `C73_call`, `C73_get`, `C73_wrong_object`, `C73_failed_call`, `C73_last_set`, `C73_new`, `C73_new_with_arguments`, `C73_hit_numbers`, `C73_read_only_refuted`, `C73_status_refuted`, `C73_added_refuted`, `C73_names_refuted`, `C73_index_refuted`, `C73_component_refuted`, `C73_shape_refuted`.  Proved for all functions but: exceptions are not turned into LCIO::ERROR; lctrkgetsubdetectorhitnumbers throws for read only tracks; an object of the wrong class is added as a null pointer; lcgobgettypename and lcgobgetdatadescription return pointers to strings that are gone; index 0 of a generic object is undefined; lcsthgetposition and lcsthgetmomentum count from 0; lcclusetshape continues the shape.
* **C74** A writer object does what each call says in any sequence of calls (partial).  Method: simulation: an invariant relates stream, index and disk to the sessions of the specification and is kept by each call; files closed are those of C13 and C16, whose reading theorems are then applied.  Theorems: `C74_writer_calls`, `C74_read_back`, `C74_second_open`, `C74_fortran_writer`, `C74_fortran_reader`, `C74_failed_open_refuted`, `C74_open_mode_refuted`, `C74_read_after_end_refuted`, `C74_file_name`.  Proved for all programs that do not open an existing file for appending while another file is open. Not as stated: an open that throws because a file is open already leaves the writer unusable, nothing can be written or closed afterwards and the file never gets its index (C74_second_open); an open with an unknown mode returns while another file is open and the items go there; in Fortran one read after the end ends the program by an exception that is not caught.
* **C75** The bytes of every record are those of the file format (proved).  Method: the calls of the write device are related to lists of fields (same bytes under every assignment of words to objects, same stored objects and references), for each class, collection, block and record; the relocation of the record then gives the numbering.  Theorems: `C75_run_record`, `C75_header_record`, `C75_event_record`, `C75_index_and_access_records`, `C75_stored_records`, `C75_own_parameters`.  The layout is written out in LayoutSpec as lists of fields with literal numbers and names, independently of the writing functions of the model.
* **C76** Records of earlier versions are read, with defaults for fields they do not have (proved).  Method: each reading function is related to the list of fields of the version (fields that are left out match a branch that reads nothing), for each class, then collections, blocks and records with any numbering of objects; relocation as for C11.  Theorems: `C76_run_header`, `C76_event_header`, `C76_event`, `C76_rejected_versions`, `C76_old_particle_refuted`.  The old layouts are written out in CompatSpec as lists of fields with the version of each field.  C76_old_particle_refuted: with two or more Monte Carlo particles of an old reconstructed particle the read is out of bounds; the other theorems exclude this case (old_fits).  Collections of vertices and generic objects need a version after 1.1, since their types are in the parameters.
* **C77** Events, run headers and relation navigators from Fortran (proved).  Method: invariants over the history of calls and results: the object at the handle agrees with the last values given to it, the map of collections with the additions and removals that returned 1, the navigator with a run of the calls made on it; a frame lemma for each kind of object.  Theorems: `C77_usable`, `C77_event`, `C77_event_status`, `C77_event_deleted`, `C77_event_delete_undefined`, `C77_deletable_refuted`, `C77_read_only`, `C77_run_header`, `C77_navigator`, `C77_navigator_collection`.  C77_deletable_refuted: lcevtaddcollection returns 1 for a collection that is already held under another name or by another event, and the deletion is then undefined. Of the functions in lccol.cc only lccolcreate and lccoldelete are in this model (the lists of objects are C69).
* **C78** stdhepjob converts StdHep files (proved).  Method: induction over the collections that the reader gives, with the writer state as in write_items; the file invariant of C14 for one session; the results of reading by C13; that the events are readable from the fact that parents and daughters mirror each other.  Theorems: `C78_converted`, `C78_events`, `C78_storable`, `C78_read`, `C78_stdhep`, `C78_error`, `C78_exists`, `C78_number_refuted`.  Preconditions: the events can be stored (C78_storable: numbers in range, records smaller than 4 GB, or 2 GB if compressed) and are fewer than 2^27 - 1. C78_number_refuted: the event numbers of the StdHep file are lost. If an exception escapes, the contents of the output are not modelled.
* **C79** An object of MT::LCWriter under any sequence of calls (partial).  Method: simulation by the invariant of C74 for the shared parts (open, close), with a new manager at each open; the records of an item are those of write_item for any buffers.  Theorems: `C79_calls`, `C79_write`, `C79_failed_open_refuted`, `C79_second_open_refuted`, `C79_mode_refuted`.  Proved for all programs that open no file while another is open; a close without an open since the last close is undefined (null pointer). Not as stated otherwise: any open but that of open( name ) for a file that exists, also one that throws or has an unknown mode, replaces the manager of the index, so that the items already in the open file are missing in its index, and all of them are lost when such a file without an index is opened for appending.
* **C80** dumpevent shows the event that was asked for (partial).  Method: the program as two or one calls of the reader, whose results are those of C16_any_calls; inversion of that specification; induction on the text of the environment variable.  Theorems: `C80_nth_event_partial`, `C80_selected_event`, `C80_usage`, `C80_missing_file`, `C80_far_beyond_refuted`.  The right event is shown in all cases in which there is one. Not as stated: the message that there are fewer than n events is printed only for n = number of events + 1; for larger n, and for a file that does not exist, the program is terminated by an exception of sio, which is no IOException. Selected events: event numbers that are not negative, files as in C16.
* **C81** anajob prints all runs and events of all files (partial).  Method: every state of the one reader after close is idle; numbers from C18, sequential reading from C06 for any idle reader; induction on the lists of files and on the loops; settings kept by reading run headers.  Theorems: `C81_all_files`, `C81_missing_file`, `C81_usage`, `C81_damaged_header_refuted`.  The first part holds in full. Not as stated: a run header that cannot be read ends the program with an exception of sio, which is no IOException, although the events could be read (witness); a file that does not exist likewise. Files as in C18.
* **C82** lcio_parallel_read prints every event once, whatever the order of the threads (proved).  Method: the steps of one thread do not depend on the others (induction on the schedule); invariant of one thread over its steps: the items read so far are a prefix of the file and the events printed their copies; sum over the list of threads.  Theorems: `C82_any_order`, `C82_missing_file`.  Preconditions: all files together have fewer than 2^31 events (the counters are ints). Opening, reading an event, and printing with the lock held are single steps; the readers share nothing in the model (the tables of the library are only read). C82_missing_file: the files before the missing one are read to their ends, those behind it in any state.
* **C83** The table of particles shows relations and status faithfully (partial).  Method: invariant of the map of positions under filling and under operator[]; induction over the collection; case analysis on the bits.  Theorems: `C83_table`, `C83_any_table`, `C83_status`, `C83_quality`, `C83_type`, `C83_foreign_refuted`.  Full for collections that contain all relatives of their particles, whatever order and repetitions they have. Not as stated otherwise: a relative that is not in the collection, as in subsets, is shown as 0, the number of the first particle (C83_foreign_refuted; C83_any_table says what is shown in general). The numbers printed with printf formats are not modelled as text.
* **C84** The tree of daughters is printed completely and with consistent numbers (partial).  Method: induction over the depth of calls and the daughters, each line with the way to its particle; unbounded ways from a cycle contradict the finite list; induction over a bound for termination.  Theorems: `C84_lines`, `C84_values`, `C84_cycle`, `C84_ends`, `C84_returns`, `C84_status_refuted`.  Full for the lines, their order and numbers, and for termination (undefined behaviour if the numbers exceed an int). Not as stated: generator status, simulator status and endpoint in a line are those of the mother, not of the particle of the line (C84_values, C84_status_refuted). Texts of numbers are not modelled.
* **C85** readcalibration prints exactly the calibration constants of a file (partial).  Method: the copy of each event (FileSpec) shown to give the same type names and values, induction over the events; the file reading by the theorems about readers.  Theorems: `C85_lines`, `C85_determined`, `C85_usage`, `C85_missing_file`, `C85_type_refuted`.  Full for files whose collections with this type name hold generic objects of one int and two floats that are written with the event (also by subset collections), in which no TypeName is an empty list of strings. Not as stated: a collection of other objects with this parameter ends the program with an exception (C85_type_refuted). Texts of numbers are not modelled.
* **C86** readmcparticles sums the energies of the stable particles of every event (partial).  Method: the copy of each event (FileSpec) shown to have the same particles with rounded momenta, induction over the events; the file reading by the theorems about readers.  Theorems: `C86_sum`, `C86_lacking`, `C86_class_refuted`, `C86_null_refuted`.  Full for files in which each event has a collection MCParticle of particles that are written with it (also as a subset of another collection). Not as stated otherwise: an event without it ends the program with an exception (C86_lacking), and elements of another class and null elements are undefined behaviour (C86_class_refuted, C86_null_refuted). Floating point arithmetic is a parameter of the theorems; the final division is not modelled.
* **C87** The random access records describe their session and the file (partial).  Method: the index is sorted and has the entries that were added (IndexProofs); the record functions computed; witnesses by computation.  Theorems: `C87_first_session`, `C87_negative_refuted`, `C87_append`, `C87_append_refuted`.  Full for the record of a session (first and last entry, numbers of runs and events) and for the file record of a file of one session whose last entry has no negative run number. False otherwise: with negative run numbers the last entry of the file record is (0,0) (C87_negative_refuted), and a session that appends adds the counts of the session before again (C87_append, C87_append_refuted).

## 4. Deviations of the code from what was expected

Each is a theorem with a concrete witness.

* `C81_damaged_header_refuted`: If a run header cannot be read the program does not go on to the events, although they can be read: the exception of sio is not an IOException (anajob.cc:83-98).
* `C70_shape_refuted`: setShape of a cluster does not set the shape: the values are appended to those it had.
* `C70_last_index_refuted`: setIntVal of an object without fixed size does not extend it for the last index, 2^32 - 1: index + 1 is 0, the vector is emptied and the value written beyond it.
* `C21_top_value_refuted`: An unsigned field accepts 2^width, which does not fit, and stores 0.
* `C21_wide_field_refuted`: A field of 33 bits signed, or 31 bits unsigned, is accepted in the encoding, but accepts no number at all, not even 0.
* `C22_width_refuted`: A field with all 64 bits, or an unsigned one with 32, fits, but the constructor is undefined.
* `C23_same_hit_refuted`: A decoder keeps the hit it decoded last, by its address: if the cell id of that hit is set anew, or another hit comes to be at the same address, the old values are returned.
* `C85_type_refuted`: see the theorem
* `C63_skip_refuted`: If more events are to be skipped than are in the first file, an exception that is not caught ends the program, although the check would pass for the events of the second file.
* `C63_error_refuted`: An error when reading that is an lcio::IOException is only printed: the program succeeds with the events that were read before, here those of the first file; the second one begins with an event without its header.
* `C63_large_average_refuted`: Averages of more than 2^24 elements are not exact: one event with 2^24 + 1 elements is not more than 2^24.
* `C76_old_particle_refuted`: a particle of version 1.2 may have several Monte Carlo particles; their weights are read into one variable, beyond its end if there are two or more
* `C57_usable_refuted`: "the encodings that are accepted are usable" is false: BitField64 does not accept this one.
* `C57_numbers_refuted`: "in an accepted encoding the fields have the numbers returned by layer() etc." is false.
* `C57_names_refuted`: "an accepted encoding has a field side" is false: the name may be part of another one.
* `C57_system_refuted`: "the field subdet is number subdet() in an accepted encoding that has one" is false if there is a field system, too.
* `C57_ild_name_refuted`: "the name of a canonical field stands for that field" is false if a further field has the same name.
* `C57_ild_empty_refuted`: "a constructor that throws leaves the collection as it was" is false.
* `C48_fixed_subset_refuted`: [fixed_subsets_ok] is needed: the file is read, merging it succeeds, and reading the merged file fails. The subset collection of the file has the FIXED bit; the object, read as part of a collection without it, is not of fixed size any more, so that the sizes which belong to the bit are not written.
* `C48_null_element_refuted`: [owners_ok] is needed: a reader that accepts missing elements of subset collections gives a null pointer to the writer.
* `C48_type_name_refuted`: see the theorem
* `C71_status_refuted`: setSimulatorStatus clears the mark: then getEndpoint gives (1,2,3) without daughters, not (0,0,0), and with a daughter no longer the endpoint that was set.
* `C71_closest_refuted`: Without states it reads beyond the vector; with a distance that is not a number the closest is not found.
* `C71_daughter_order_refuted`: see the theorem
* `C39_chain_refuted`: A random access record that names itself as the one before it; after every number of turns the loop goes on.
* `C39_file_record_refuted`: A file record behind an event, pointing to the event instead of a random access record: opening the file for direct access dereferences a null pointer, although the event alone can be opened.
* `C39_cut_file_refuted`: A file with an event and an index, which can be read. If its last record is missing, opening it for direct access dereferences a null pointer.
* `C39_index_overflow_refuted`: An index in which a run is larger than 2^31 - 1, and one with a position larger than 2^63 - 1: a signed addition overflows.
* `C64_cut_refuted`: The short listing of a file that was cut in the data of a record shows that record as if it were complete, up to a place behind the end of the file, and ends without an error; only the detailed listing notices.
* `C72_weight_refuted`: "getWeight returns the weight set last" is false: 0 becomes 1, and 0.1 is rounded to a float
* `C72_locked_weight_refuted`: "the weight of a read only event does not change" is false: parameters() gives access to it
* `C11_duplicate_track_state_refuted`: two states of a track at the same location: the event is written, but cannot be read
* `C11_cluster_weights_refuted`: a hit without weight in a cluster: undefined behaviour on writing
* `C11_null_vertex_refuted`: a null entry in a subset of vertices: undefined behaviour on writing
* `C31_parent_in_later_collection_refuted`: a parent in a later collection: the particles of that collection lose their daughters
* `C38_stale_fixed_bit_refuted`: the FIXED bit is never unset: with a flag word kept from a collection of fixed size objects, objects of varying size are lost
* `C38_different_fixed_sizes_refuted`: fixed size objects of different sizes: undefined behaviour on writing
* `C42_unread_parents_refuted`: particles whose parents are in a collection that is not read: undefined behaviour
* `C69_parent_refuted`: lcmcpgetparent( p, 1 ) does not give the first parent: with two parents it gives the second, and with one it reads beyond the list
* `C69_remove_refuted`: lccolremoveelementat( c, 1 ) removes the second element, and leaves the first
* `C69_position_refuted`: lcsthgetposition( h, i ), i = 1, 2, 3, does not give x, y, z: 1 gives y, and 3 reads beyond the array
* `C69_range_refuted`: lcgetsimcalohit does not report an index out of range, although it has a check for it: it reads beyond the list
* `C69_number_refuted`: lcpidgetparameters, lcvtxgetparameters and lcclugethitcontributions do not return the number of values, but one more; and called with the size 0 they write beyond the array
* `C77_deletable_refuted`: "an event can be deleted when every call before returned 1" is false: [lcevtaddcollection] accepts the same collection under two names, or a collection that another event holds
* `C14_direct_access_refuted`: Opening a file for direct access dereferences a null pointer if just its last record is missing.
* `C16_continued_run_refuted`: A session with events of run 5, whose header is not in it, and the header of run 7: event 5/1 is not found, and is returned instead as the event 7/1, which was never written.
* `C16_negative_number_refuted`: a negative event number finds the first event behind the run header
* `C16_after_end_refuted`: once the end of the file was hit, events are not found any more
* `C16_rebuilt_index_refuted`: A file that ends before its index (the program did not close it): the index is rebuilt, but contains none of the four events that sequential reading gives.
* `C16_rebuilt_partly_refuted`: Rebuilding passes over the record it was looking for and reads the next one: of three run headers and four events only the run header and the event that come directly behind a run header are found.
* `C16_rebuilt_compressed_refuted`: If the run headers are compressed the file cannot even be opened: the compressed bytes are taken for the data.
* `C17_append_destroys_refuted`: appending to a file that was not closed destroys what is in it
* `C17_empty_file_refuted`: a file that was closed before anything was written to it can be neither appended to nor opened for direct access
* `C41_counting_rewinds_refuted`: counting without direct access goes back to the start of the file
* `C41_next_file_refuted`: skipping does not go on to the next file, reading does
* `C87_negative_refuted`: If all run numbers are negative, the last entry in the record of the file is event 0 of run 0, which was not written.
* `C87_append_refuted`: The file of two sessions has 2 run headers and 3 events; the record at its end has 3 and 5. For one session it is right.
* `C59_same_numbers_refuted`: [numbered] is needed: events with the same numbers are counted once. Six events are read from a file that was merged from two copies; three are counted.
* `C59_cut_refuted`: A file that was cut off, from which an event can be read, is not counted at all.
* `C33_other_bits_refuted`: LCFlagImpl::setBit and unsetBit ignore bits outside 0..31; bitSet and setQualityBit of them are undefined.
* `C65_short_row_refuted`: If a row is too short the string is not truncated: it runs into the next rows, and the call succeeds.
* `C65_last_row_refuted`: In the last row it is written behind the end of the matrix.
* `C65_stl_vector_refuted`: The manual says that the vectors of the wrapper functions for STL vectors are to be used for both calls; lcgetparameters casts the pointer to LCObject, so that the call is undefined for such a vector.
* `C65_string_keys_refuted`: The names of the string parameters are not to be had by the method getStringKeys, only by getStringtKeys.
* `C65_last_run_refuted`: At the end of the file readNextRunHeader returns a null pointer, which lcreadnextrunheader dereferences.
* `C43_first_line_refuted`: A mother is not linked if it is the first line and the only mother.
* `C43_dangling_refuted`: A range of daughters that reaches beyond the record, or a mother beyond the record, or a state with code 94 without mother: the particle that does not exist is accessed.
* `C44_codes_refuted`: Codes that are not those of a particle lead to an access outside the table of charges, and the smallest int cannot be negated; both may come from a file.
* `C45_stale_weight_refuted`: An event without weight and process gets those of the event before: the same record gives different collections, depending on what was read before.
* `C46_truncated_refuted`: A file that ends before the version: a null pointer is compared with a string.
* `C46_cycle_refuted`: Two empty tables that point to each other: readEvent does not return.
* `C46_no_pointer_refuted`: A table with a pointer -1: the event before is returned again, by every call.
* `C46_wrong_block_refuted`: A table that points to a record that is not an event record: the error is forgotten with the next array, and what follows is returned as an event.
* `C55_mothers_refuted`: Links that only the daughters declare are lost with the older reader.
* `C55_refused_changes_refuted`: A refused event has the weight and the process of the StdHep event nevertheless, or (if it must not be changed) its process; and the StdHep event is consumed.
* `C55_weight_refuted`: An event of weight 0 has weight 1 afterwards.
* `C54_other_name_refuted`: With the name of another collection the particles are added, and then the call throws because there is no collection "MCParticle".
* `C54_other_pointers_refuted`: If there is one, the pointers stored in the table are those of the other particles.
* `C54_mother_refuted`: A mother that is not in the table is read from the end of the collection.
* `C54_parent_elsewhere_refuted`: A particle whose first parent is not in the collection: the production time of the line before the first one is read.
* `C54_too_many_refuted`: More particles than lines: the number is not checked.
* `C54_gap_refuted`: Parents that do not follow each other: the ones between them become parents too.
* `C54_daughters_gap_refuted`: Daughters that do not follow each other: the numbers that come back are others.
* `C34_empty_vector_refuted`: A key that was set to an empty vector has no first element: the scalar getter reads outside.
* `C28_embedded_nul_refuted`: The check ends at the first NUL character: a name with anything behind one is accepted.
* `C30_read_only_parent_refuted`: A read only parent: addParent throws after it has listed the parent.
* `C40_location_changed_refuted`: The location of a state already added can be changed, and assignment appends the states of the other track: both give two states at one location.
* `C29_unchecked_refuted`: Not every modifying call is checked: these change the read only event, a read only collection and read only elements.
* `C40_assignment_refuted`: Assignment of tracks appends the states: two states at one location.
* `C20_negative_event_refuted`: an event with a negative number is listed as a run, not as an event
* `C15_one_run_refuted`: An index whose first and last entry belong to the same run but others do not: the header of run 7 is read back as one of run 5.
* `C15_short_offset_refuted`: An index whose first and last positions are close but another is more than 2 GB away: the position is read back as a negative number.
* `C39_zero_block_refuted`: A block whose announced length is 0 and for which there is no handler: the loop over the blocks never ends.
* `C39_unknown_type_refuted`: A collection type in the header of an event that no handler exists for: the event record is read with a null handler.
* `C39_repeated_block_refuted`: Two blocks for the same collection. In the code this is undefined if the collection is a subset whose second block is longer: the addresses of the elements of the first are written after the elements were moved. The model takes all records with repeated blocks as undefined.
* `C39_huge_record_refuted`: A record that is skipped and whose announced length takes the stream back to its start: the loop over the records never ends.
* `C39_array_length_refuted`: A TPCHit with 2^30 raw words: their size in bytes is 0 modulo 2^32, so that the check passes and the words are read outside the buffer.
* `C39_header_length_refuted`: A record whose announced header length is larger than what was read, or too small: bytes outside the buffer are used.
* `C39_name_length_refuted`: A name length beyond the data of the record: bytes outside the buffer are read.
* `C39_old_particle_refuted`: A particle in the format up to version 1.2 with more than one float at its end: they are all read into one variable.
* `C39_orphan_refuted`: A particle whose parent is not in the file: a null pointer is used when the daughters are rebuilt.
* `C37_empty_event_refuted`: An event without collections in a compressed record: asking for a collection throws std::invalid_argument, not DataNotAvailableException.
* `C37_null_in_subset_refuted`: A subset collection that refers to an object that is not in the file: the usual reader throws when the event is read; the lazy reader delivers the event, throws at the first access, and gives the collection with null pointers at the second one.
* `C37_read_only_refuted`: The elements of a lazily unpacked event are not protected: a set method of an element succeeds although the event was read in read only mode.
* `C37_remove_refuted`: removeCollection before the event is unpacked leaves a null pointer among the block handlers
* `C83_foreign_refuted`: In general the numbers in brackets are not those of the relatives: one that is not in the collection (a subset, for example) is shown as number 0, like the first particle.
* `C86_class_refuted`: see the theorem
* `C86_null_refuted`: see the theorem
* `C79_failed_open_refuted`: An open that throws while a file is open takes the index of that file away: the file is written on and is closed without an error, but only the event behind the open is counted.
* `C79_second_open_refuted`: An open of a second file throws, and the first one is closed without an index; all it contains is lost when it is opened for appending.
* `C79_mode_refuted`: An open with a mode that does not exist, while a file is open, does not throw and takes the index away: the event can be read but is not counted.
* `C25_order_refuted`: the order of the objects in the reverse direction is not always kept
* `C35_merge_refuted`: merging asks for lists sorted by address, which add_relation does not give
* `C35_self_merge_refuted`: merging an object with itself breaks the symmetry of links that exist twice
* `C35_one_to_n_refuted`: adding an object that is related already leaves it in the list of its former owner
* `C53_two_names_refuted`: addCollection accepts the same collection under two names; ~LCEventImpl deletes it twice.
* `C53_shared_element_refuted`: An object in two collections, neither of which is a subset, is deleted twice.
* `C53_shallow_copy_refuted`: The defaulted copy constructor of ReconstructedParticleImpl (and the implicit ones of ClusterImpl and SimCalorimeterHitImpl) copies the pointers to the parts, which both destructors delete.
* `C53_taken_again_refuted`: takeCollection is never forgotten: a collection that was taken, removed and added again is not deleted with the event.
* `C53_reused_address_refuted`: Nor is another collection that happens to have the address of a taken one that was deleted.
* `C53_taken_deleted_refuted`: A collection that was taken stays in the event under its name: looking at it after deleting it is undefined.
* `C26_overlapping_handlers_refuted`: with two handlers alive at the same time both hand out the same id and registrations get lost
* `C26_failed_handler_refuted`: a handler for a collection of another type throws, but leaves parameters behind
* `C26_order_refuted`: setting a particle id again does not keep the list ordered by likelihood, whatever the sorting does: here two particle ids that were in order, the first one with the likelihood lowered from 2.0 to 0.5 below the second one with 1.0
* `C56_gluons_refuted`: "a Higgs boson that decays into two gluons sets higgsgg" is false.
* `C56_exotic_refuted`: "an exotic particle in the hard final state sets exotic" is false: its number is compared, not its code.
* `C56_mixed_refuted`: "higgsbb is only set if a Higgs boson decays into two b quarks" is false: the second daughter may be that of another Higgs boson.
* `C56_order_refuted`: "the hard final state of a file without beam particles consists of particles without parents" is false if these do not come first; here the electron is flagged, the neutrino is not.
* `C56_second_beam_refuted`: "the daughters of both beam particles are searched" is false: only those of the first are.
* `C56_defined_refuted`: Each of the conditions of C56_defined is needed: a Higgs boson without daughters, one that is its own daughter, a pointer to no particle and the smallest int are undefined.
* `C51_remove_twice_refuted`: Removing a listener that is not registered is undefined.
* `C52_deleted_twice_refuted`: A file that is read to its end: readNextRunHeader throws, and when it is called once more the run header that was returned first is deleted again.
* `C52_cut_file_refuted`: A file that was cut off: the same happens with readNextEvent.
* `C62_no_tasks_refuted`: hardware_concurrency() may return 0. No task is ever started then, and the program does not end for any file with an event.
* `C62_negative_refuted`: a negative number of tasks in the environment: "<= 0" is never true for the unsigned number
* `C62_cut_file_refuted`: A second file that was cut off: the exception leaves main, and an event in front of the cut, for which a task was started, is not processed.
* `C80_far_beyond_refuted`: The message that there are fewer events is not printed for every number that is too large.
* `C01_empty_vector_into_used_target_refuted`: Reading an empty vector into a variable that already holds elements leaves these elements: the round trip needs a fresh target.
* `C03_object_written_twice_refuted`: An object that is tagged twice in one record (it is written by two owning collections): the second tag stays "not referenced", so a reader gets two copies and all pointers go to the first one.
* `C36_second_session_refuted`: After a session with one file the next one cannot be opened: the old name is used, whose file exists.
* `C36_early_write_refuted`: If a write comes before open, it throws, and the session afterwards goes to a file with another name.
* `C59_stdhep_refuted`: The number of events in a StdHep file is not counted: of two files with the same header the one with two events and the one with one event count as two.
* `C78_number_refuted`: The numbers of the events in the StdHep file are lost.
* `C47_limit_zero_refuted`: a limit of 0: a run header is delivered nevertheless; at an event the header of the event is read and the event is lost, the next call throws
* `C47_two_listeners_refuted`: An event with a particle whose parent is in another collection, two listeners: the second one sees the parent twice and the daughter three times.
* `C19_second_close_refuted`: Closing twice, from one thread or from two, which is harmless with SIOWriter, dereferences a null pointer.
* `C27_overflow_refuted`: 2^32 seconds after the start of 1970 the stamp of a date starts again with 0
* `C27_invalid_date_refuted`: dates that do not exist are accepted: day 0, month 0, hour 25
* `C27_unix_refuted`: the unix time of stamps from 2^31 seconds on (2038) is wrong
* `C50_no_index_refuted`: "appends the records needed for direct access - if they don't exist" (addRandomAccess.cc:19): a file that ends behind its last event, without index records, and from which all events can be read, has none afterwards.
* `C50_force_refuted`: With -f ("will create a TOC for direct access in any case") the same happens to files that have an index.
* `C50_force_missing_refuted`: and for a file that does not exist a null pointer is passed to fclose
* `C84_status_refuted`: So a line does not show the particle: the status in it is that of another one.
* `C67_derived_refuted`: "The name of an object is the name of its class" is false for hits on planes and cylinders: for none of them; a collection made with this name would be written by the handler of another class.
* `C67_tpc_refuted`: "There is a name for every class" is false: for a TPCHit the name is UNKNOWN, which has no handler, and asking for the name of the class does not end.
* `C68_doubles_refuted`: "The description names all values of the object" is false: there are 15 doubles which it does not name, because ESD is a name of EventSummaryFloatValues and not of the empty EventSummaryDoubleValues.
* `C60_null_element_refuted`: "a loop over a collection sees all its elements" is false if there is a null pointer among them.
* `C60_other_class_refuted`: "what next returns is a T" is false for a collection with elements of different classes: only the first element is checked, and using the result of the cast is undefined.
* `C60_removed_refuted`: "an iterator stays within the collection" is false if elements are removed.
* `C61_copy_refuted`: "objects are deleted once" is false for copies: the data is deleted with the first of the two.
* `C61_outlived_refuted`: "a view keeps its data" is false: it is used after it was deleted with the object.
* `C61_grown_refuted`: "the numbers of values of a view are those of its data" is false for data of a variable size that was changed: the view has 1 value, a second view is refused, and a file gets one of two values.
* `C66_late_refuted`: A warning that is to be printed before it is registered can not be registered any more: it is never shown.
* `C73_read_only_refuted`: Not so for a track that is read only, as those of an event read from a file: the function that returns the numbers of hits throws.
* `C73_status_refuted`: The functions that modify are declared to return LCIO::SUCCESS or LCIO::ERROR, but LCIO::ERROR is never returned: with a read only object they throw an exception into the Fortran program.
* `C73_added_refuted`: An object of another class is added as a null pointer, with LCIO::SUCCESS.
* `C73_names_refuted`: The names of a generic object cannot be read: the pointer returned is one to a string that is gone.
* `C73_index_refuted`: Index 0 of a generic object is not rejected: the values are dropped and memory outside of them is written.
* `C73_component_refuted`: The components of the momentum of a simulated tracker hit are counted from 0, other than all other elements.
* `C73_shape_refuted`: lcclusetshape does not set the shape: a second call continues the first one.
* `C74_failed_open_refuted`: An open that throws does not leave the writer as it was.
* `C74_open_mode_refuted`: An open that returns need not have opened the file: with a mode that does not exist the file that was open stays open, and takes what is written.
* `C74_read_after_end_refuted`: A read that finds the end gives the null pointer, but one more read ends the program: the exception is not caught.

## 5. Assumptions of the theorems

`Print Assumptions` gives "Closed under the global context" for every theorem of the `Props*.v` files: no axiom
is used.  `coqchk -o` and `vcheck` list in addition the axioms that occur in library files that are
loaded but not used: `Coq.ssr.ssrunder` (`Under_rel` and what belongs to it, module-type parameters of the
standard library), which come with `Lia`/`ZArith`.

No axiom, parameter, functor, module type or switched-off check is declared in `rocq/theories`.  Sections
use `Context` for parameters that the theorems quantify over (codec, sort, floating point sums, ...).

## 6. Simplifications, file by file

What is left out of the functions that are modelled, beyond section 1.

* **SioModel**: lengths beyond 32 bits are truncated as in the code; a write device on a buffer that
  failed to grow is not modelled.  A block whose write throws leaves the record writer without its buffer; not used
  further.
* **ObjModel**: handlers write pointers as given; null entries where the code dereferences them are `UB`.  A
  `TrackerHitPlane` in a collection of type TrackerHit is not considered (handlers are chosen by the type of the collection).  The format of files
  older than the current version is read where the code has a branch for it; writing is always the current version.
* **EventModel**: a record with two blocks for the same collection, which the writer never makes, is
  `UB UBPrecondition` as a whole (in the code it is undefined for subsets; see C39).  Different collections of an event are different
  objects.  Access mode of events just read is treated in LazyModel and ImplModel.
* **IndexModel**: counters of type `int` are not wrapped.  Index entries that were read before an exception are
  dropped.  The buffers of the manager are represented by their contents.
* **FileModel**: after an exception of a write call the writer is not used any more.  Listeners do not change events.  The disk does not change while
  it is read.
* **BitModel**: left shifts of negative numbers as on two's complement machines; a `BitField64` whose construction
  threw is not used.
* **ImplModel**: arguments that the code converts from `double` to `float` are given as converted; float addition is
  any function; the collections of an event are `LCCollectionVec`s; track states and parameters are never read
  only themselves (as in the code).
* **NavModel**: loop counters are not wrapped; `assert` is compiled out; the precondition of `std::list::merge` is
  `UBPrecondition`.
* **TimeModel**: `getDateString` for members within their column widths; the default constructor (current time)
  is not modelled.
* **PidModel**: `UnknownAlgorithm` is `LException`; particle ids are values; handlers run one after the other or
  interleaved, never in threads.
* **SplitModel**: `fileSize()` is only called by the writer; opening an open stream ends the program.
* **ThreadModel**: run headers and events are not shared between threads; `open()` is not concurrent; stream writes
  do not fail.
* **LazyModel**: `addCollection` before unpacking and the state after a failed block are not modelled; both modes
  get the same new addresses.
* **MergeModel**: the calls of the listener are collected first and written then; an output that is one of the inputs is
  `UBPrecondition`; the file left after an exception while writing is not modelled.
* **ReaderModel**: listeners do not throw and do not use the reader; freed memory is not reused.
* **OwnModel**: objects are represented by the addresses they delete; the event is not read only; only accepted calls of addTrackState; objects on the stack and other event classes are not covered.
* **HepUpdModel**: the new collection and particles are placed at given free addresses; the functions shared by both readers are those of HepModel.
* **ProcModel**: particles are given by a list of addresses and contents; the numbers of equal particles are not limited to `int`; a chain with more steps than particles is an endless loop (proved to be one).
* **ConfModel**: strings are shorter than `npos`; the singleton is an ordinary object.
* **McSumModel**: `main` of readmcparticles up to the last line; the energy of a particle and the addition are functions given from outside, the cast of an element to a particle is undefined behaviour for other classes and for null.
* **CalModel**: `main` of readcalibration with the class CalibrationConstant; a line is its three values, output before an exception is not modelled, nor an event counter beyond an int.
* **TreeOutModel**: `printDaughterParticles` with a bound on the depth of calls (`UBDiverge` beyond); a line is its numbers, its particle and the values taken from the mother.
* **McOutModel**: `printMCParticles`, `getSimulatorStatusString` and `getQualityBits` for a given object; a line is its index, particle, text of the status and numbers of relatives; fewer than 2^31 elements.
* **ParModel**: threads as steps in any order; printing with the mutex locked is one step; `LCTOOLS::dumpEvent` is not modelled; each reader has addresses of its own for new objects.
* **AnaModel**: the results of the calls; printing (`LCTOOLS::dumpRunHeader`, `dumpEvent`) is not modelled.
* **ShowModel**: the arguments as texts; printing of the event (`LCTOOLS::dumpEventDetailed`) is not modelled.
* **MtModel**: one thread; the size of the first buffers is a parameter (2465792 in the code); `open` and `close` share the functions of `WriterModel`, of which the code is a copy; streams on regular files never fail to write.
* **StdJobModel**: `main` of `stdhepjob.cc` and `stdhepjob_new.cc` without the check of the number of arguments, `atoi` and the output to the screen; the loop has a number of turns after which the model gives up, and the theorems hold for every number that is large enough.
* **FevtModel**: the functions of `lcevt.cc`, `lcrhd.cc`, `lcrnv.cc` and `lccolcreate`, `lccoldelete`; pointers are addresses and a new object has one that was never used; a function that returns the address of a vector is modelled by the elements of the vector; of a collection only type, parameters, flag word and relations are kept, and the objects in it are not deleted with it; numbers are not restricted to the range of `int`.
* **WriterModel**: SIOWriter as an object with its stream, index and buffer under any sequence of calls; lcwrt.cc and, of lcrdr.cc, open, the reads and skip. Left out: streams that fail to write, lcrdrreadstream, deleting.
* **WrapModel**: the functions of src/cpp/src/CPPFORT for one object: conversion of pointers (f2c_pointer), of indices and strings, the C++ call made, the loops that copy arrays; the calls themselves are those of ImplModel and AttrModel. Left out: deleting, particle ids, getters of computed values.
* **EvAttrModel**: setWeight and getWeight with the conversions between double and float, and LCRunHeaderImpl: its setters, addActiveSubdetector, setReadOnly and parameters (on the record of EventModel); the other setters of LCEventImpl are in ImplModel.
* **DerivModel**: getEndpoint of MCParticleImpl, getEndVertex of ReconstructedParticleImpl, getClosestTrackState of TrackImpl (the index of the state instead of the pointer; the computation of the squared distance with pow() is a parameter), the setters and getters of ParticleIDImpl and TrackStateImpl.
* **AttrModel**: the getters and the constructors without arguments of all data classes, the getters with an index of TPCHit, SimCalorimeterHit and LCGenericObject, the copy constructors of SimCalorimeterHitImpl and TrackImpl; the setters are those of `ImplModel`. Floating point numbers are their bits, the addition of energies and std::sort are parameters.
* **F77Model**: the functions of `CPPFORT` that add to lists and return by index (`lccol`, `lcmcp`, `lcsth`, `lcsch`, `lcobv`, `lcpid`, `lcvtx`, `lcclu` and the hits of `lciof77apiext.cc`); pointers are addresses, the floating point addition is a parameter, objects are not deleted and not read only, the energy of MCParticle etc. (single setters and getters) is left out.
* **TypeModel**: `lctypename` and `EventSummary`; dynamic_cast is the relation between the interface classes; `EventSummary::print` has no definition in the code.
* **WarnModel**: `LCWarning`; rules and fixed sentences of the output and the texts of the built-in warnings are left out.
* **FortModel**: `lciof77apiext.cc` vectors, parameters and run headers, `lcvec.cc`, `f2c_pointer`; the conversions of cfortran.h are not modelled: arrays of strings are taken as C matrices with rows of one character more than the strings.
* **DumpModel**: `api::dump_records`; the columns of the lines are kept as data, widths and rules are left out.
* **CheckModel**: the options are given as getopt_long, atoi and atof deliver them; floats are positive finite quotients rounded to 24 binary digits, to nearest, ties to even; printing is left out.
* **SchedModel**: an interleaving of steps; a step is the call of the reader, a test of a future, a printed line; std::async always starts its task (`std::launch::async`), starting one never fails; the memory an event shares with the reader is not modelled here (see ThreadModel).
* **ViewModel**: the result of dynamic_cast is a predicate on addresses; a `static_cast` to another class in `LCIterator::next` is undefined behaviour at once, not when the result is used; addresses are never used again after they were deleted.
* **FixModel**: as for `MergeModel`, the calls of the listener are collected before they are written; `lcio_event_counter` only for files that are not StdHep files, these are in `StdCountModel`, which reads the number in the header by the same steps as `HepModel`.
* **HevtModel**: energy, production time and the largest component of the vertex are arbitrary functions; new particles follow each other in memory; the unused blocks (hepevt_spin etc.) are left out.
* **HepModel**: 64-bit `long`; the reader is not used after `bad_array_new_length`; run records and names of
  blocks are read and dropped; the divisions by 3 and 299.792 are any functions.
## 7. Code that is not modelled

* printing: `UTIL/LCTOOLS.cc`, `UTIL/Operators.cc`;
* the Fortran, Java, Python and ROOT interfaces (`CPPFORT` but for `HEPEVT.cc`, `lcvec.cc` and, of `lciof77apiext.cc`, the vectors, parameters, run headers and hits, the lists of objects of `lccol`, `lcmcp`, `lcsth`, `lcsch`, `lcobv`, `lcpid`, `lcvtx` and `lcclu`, the file functions of `lcwrt` and `lcrdr`, `lcevt`, `lcrhd`, `lcrnv`, and the functions for one object of `lcrcp`, `lctrk`, `lctrh`, `lccah`, `lctph`, `lcgob`, `lcrel`, `lcmcp`, `lcsth`, `lcsch`, `lcvtx` and `lcclu`; `rootDict`), the converter for Delphes, the drawing example;
* `UTIL/LCFourVector.h`, the constants of `ILDConf.h`;
* the programs in `EXAMPLE` and `TESTS`, except `lcio_merge_files`, `lcio_split_file`, `addRandomAccess`, `copyfix`, `lcio_event_counter`, `stdhepjob`, `stdhepjob_new`, `lcio_parallel_processing` and `lcio_check_col_elements`;
* ownership of what the readers of single objects allocate before they throw.

