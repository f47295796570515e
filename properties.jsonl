{"id": "C01", "title": "Primitive values survive the output and input devices", "statement": "Any sequence of primitive values (8, 16, 32 and 64-bit integers, raw 32/64-bit floating point words, strings, arrays and vectors of them) written one after the other with sio::write_device and read back in the same order with sio::read_device yields exactly the same values, and the read position ends exactly where the write position ended. Every element starts on a 4-byte boundary of the record buffer.", "quantifier": "every finite sequence of primitive writes, every value, every vector and string length below 2^31", "why_tests_cant": "the sequence length, element count and values are unbounded; tests only sample a few layouts and paddings", "anchors": ["sio/include/sio/io_device.h: write_device::data, read_device::data", "sio/include/sio/api.h: api::read, api::write", "sio/src/memcpy.cc: memcpy::copy_impl", "sio/include/sio/definitions.h: padding, padding_mask"]}
{"id": "C02", "title": "Growing the output buffer never loses or alters bytes", "statement": "However small the initial record buffer is and however often it has to be enlarged while a record is being written, the bytes of the finished record are the concatenation of the (padded) encodings of the writes; seeking back to fill in a length or a link word changes only those bytes.", "quantifier": "every initial capacity, every sequence of writes and seeks", "why_tests_cant": "the interaction of capacity, write position and growth has unboundedly many cases; a test exercises one growth pattern", "anchors": ["sio/include/sio/api.h: api::write", "sio/src/buffer.cc: buffer::expand, buffer::span", "sio/src/io_device.cc: write_device::seek, write_device::data"]}
{"id": "C03", "title": "Links between objects in a record are restored exactly", "statement": "After a record is written and read back, every pointer between objects of that record points to the read-back copy of the object it pointed to; a null pointer stays null; a pointer to an object that is not stored in the record becomes null, never another object.", "quantifier": "every object graph (any number of objects and pointers, cycles, forward and backward references, shared targets, missing targets)", "why_tests_cant": "object graphs are unbounded and the outcome depends on address order and on the id numbering of the whole record", "anchors": ["sio/src/api.cc: api::write_relocation, api::read_relocation", "sio/src/io_device.cc: write_device::pointer_to, write_device::pointed_at, read_device::pointer_to, read_device::pointed_at"]}
{"id": "C04", "title": "Records and blocks are framed so that a reader recovers them", "statement": "A record written to a stream (with any valid record name, any options word and any list of blocks with valid names) is read back with the same name, options and block contents; reading consumes exactly the bytes of that record, so a stream that is the concatenation of records is read back as that list of records; every record starts at a multiple of four bytes from the first one.", "quantifier": "every list of records, every name, every list of blocks and block contents whose sizes fit the 32-bit length fields", "why_tests_cant": "unbounded lists and sizes; correctness of offsets depends on every length in the file", "anchors": ["sio/src/api.cc: write_record, read_record_info, read_record_data, write_blocks, read_blocks, extract_block", "sio/include/sio/definitions.h: record_info, block_info"]}
{"id": "C05", "title": "Blocks are dispatched by name, unknown blocks are skipped", "statement": "When a record is unpacked with a set of block handlers, each handler whose name occurs in the record gets exactly the bytes and the version that were stored under that name, independent of the order of handlers; blocks without a handler are skipped without disturbing the others.", "quantifier": "every list of stored blocks and every list of handlers", "why_tests_cant": "unbounded number and order of blocks and handlers", "anchors": ["sio/src/api.cc: api::read_blocks, api::extract_block, api::read_block_infos"]}
{"id": "C06", "title": "Compression is transparent", "statement": "For any compressor and decompressor pair that are inverse to each other, a file written with compression on delivers exactly the same events and run headers as the file written with compression off, and compressed and uncompressed records can be mixed in one file.", "quantifier": "every inverse pair of codecs, every sequence of records, every per-record choice of compression", "why_tests_cant": "unbounded data and every compression level and mix", "anchors": ["sio/include/sio/api.h: api::compress_record", "sio/src/api.cc: is_compressed, set_compression, write_record (two-span version)", "sio/src/compression/zlib.cc: zlib_compression::compress, uncompress", "src/cpp/src/SIO/SIOReader.cc", "src/cpp/src/MT/LCReader.cc: readNextEvent"]}
{"id": "C07", "title": "Named parameters survive writing and reading", "statement": "The int, float and string parameter maps of an event, run header or collection, with any keys (including duplicates between the three maps) and any vector values, are read back identical.", "quantifier": "every parameter set", "why_tests_cant": "unbounded number of keys and values", "anchors": ["src/cpp/src/SIO/SIOLCParameters.cc: SIOLCParameters::read, write", "src/cpp/src/IMPL/LCParametersImpl.cc"]}
{"id": "C08", "title": "Run headers survive writing and reading", "statement": "A run header written with writeRunHeader is read back with the same run number, detector name, description, active subdetectors in order, and parameters.", "quantifier": "every run header", "why_tests_cant": "unbounded strings, lists and parameters", "anchors": ["src/cpp/src/SIO/SIORunHeaderHandler.cc: read, write", "src/cpp/src/SIO/LCIORecords.cc"]}
{"id": "C09", "title": "Event headers survive writing and reading", "statement": "The event header record gives back run number, event number, 64-bit time stamp, detector name, event parameters, and the list of collection names with their types (with the subset marker) in the order of the event.", "quantifier": "every event", "why_tests_cant": "unbounded numbers of collections and parameters", "anchors": ["src/cpp/src/SIO/SIOEventHandler.cc: read, write", "src/cpp/src/SIO/LCIORecords.cc: setupBlocks"]}
{"id": "C10", "title": "Stored attributes of every object type survive writing and reading", "statement": "For each LCIO object type, an element written in a collection is read back with the same attribute values, except exactly those attributes the collection flag word declares as not stored, which get their default value.", "quantifier": "every object of every type, every flag word", "why_tests_cant": "all combinations of flag bits, all values and all vector lengths", "anchors": ["src/cpp/src/SIO/SIOParticleHandler.cc", "src/cpp/src/SIO/SIOSimCalHitHandler.cc", "src/cpp/src/SIO/SIOCalHitHandler.cc", "src/cpp/src/SIO/SIOTrackHandler.cc", "src/cpp/src/SIO/SIOClusterHandler.cc", "src/cpp/src/SIO/SIOReconstructedParticleHandler.cc", "src/cpp/src/SIO/SIOVertexHandler.cc"]}
{"id": "C11", "title": "A whole event survives writing and reading", "statement": "An event with any collections of supported types, written and read back, has the same header, the same collections under the same names with the same types, flags, parameters and elements in the same order, and all cross references between elements of all its collections point to the corresponding read-back elements.", "quantifier": "every event built from supported types within the 32-bit size limits", "why_tests_cant": "unbounded collections, elements and cross references", "anchors": ["src/cpp/src/SIO/SIOWriter.cc: writeEvent", "src/cpp/src/MT/LCWriter.cc: writeEvent", "src/cpp/src/MT/LCReader.cc: readNextEvent", "src/cpp/src/SIO/SIOCollectionHandler.cc", "src/cpp/src/SIO/LCIORecords.cc"]}
{"id": "C12", "title": "Subset collections restore references, not copies", "statement": "A subset (reference) collection read back contains, in the same order, pointers to the elements of the owning collections of the same event; entries whose target is not stored in the event are null.", "quantifier": "every event with any number of subset collections", "why_tests_cant": "unbounded references across collections", "anchors": ["src/cpp/src/SIO/SIOCollectionHandler.cc", "src/cpp/src/SIO/SIOHandlerMgr.cc", "src/cpp/src/SIO/SIOEventHandler.cc: SubsetPostfix handling"]}
{"id": "C13", "title": "Sequential reading returns exactly what was written, in order", "statement": "Opening a file produced by any sequence of writeRunHeader and writeEvent calls and calling readNextEvent until it returns null yields exactly the written events in the written order; the same holds for readNextRunHeader and the run headers.", "quantifier": "every sequence of write calls", "why_tests_cant": "histories are unbounded", "anchors": ["src/cpp/src/MT/LCReader.cc: readNextEvent, readNextRunHeader", "src/cpp/src/SIO/SIOReader.cc", "src/cpp/src/SIO/SIOWriter.cc"]}
{"id": "C14", "title": "A file cut off at any byte never yields a phantom event", "statement": "If a file is truncated at an arbitrary byte (crash while writing, partial copy), sequential reading returns exactly the events whose records are completely contained in the remaining prefix, in order, and then stops with end of data or an exception; it never returns an event that was not written.", "quantifier": "every written file and every truncation point", "why_tests_cant": "every byte offset of every possible file would have to be tried", "anchors": ["sio/src/api.cc: read_record_info, read_record_data", "src/cpp/src/MT/LCReader.cc: readNextEvent", "src/cpp/src/SIO/SIOReader.cc"]}
{"id": "C15", "title": "The random access index round-trips", "statement": "For every set of run headers and events, the index record written at close and read back maps every (run, event) to the same file position, independent of whether short or long offsets and one or several runs are stored, as long as the choice made by the writer covers all entries.", "quantifier": "every finite map from (run, event) to positions", "why_tests_cant": "the encoding choice depends on minima and maxima over the whole map", "anchors": ["src/cpp/src/SIO/SIOIndexHandler.cc: read, write", "src/cpp/src/SIO/RunEventMap.cc", "src/cpp/src/SIO/LCIORandomAccessMgr.cc: writeRandomAccessRecords, readLCIOIndex"]}
{"id": "C16", "title": "Direct access finds every event that was written", "statement": "After writing any sequence of run headers and events with distinct (run, event) numbers and closing the file, opening it for direct access and calling readEvent(run, event) returns the event that was written with these numbers, and null for numbers that were never written.", "quantifier": "every sequence of writes, every query", "why_tests_cant": "unbounded histories and queries", "anchors": ["src/cpp/src/SIO/LCIORandomAccessMgr.cc: createEventMap, getEventPosition", "src/cpp/src/MT/LCReader.cc: readEvent(int,int)", "src/cpp/src/SIO/SIOWriter.cc: close"]}
{"id": "C17", "title": "Appending keeps old events and makes new ones reachable", "statement": "Appending to a properly closed file and closing it again leaves all previously written records byte for byte in place up to the trailing index, and the index chain afterwards covers both the old and the new events.", "quantifier": "every sequence of sessions (write, append, append, ...)", "why_tests_cant": "unbounded number of append sessions", "anchors": ["src/cpp/src/SIO/LCIORandomAccessMgr.cc: initAppend, createFileRecord, writeRandomAccessRecords", "src/cpp/src/SIO/SIOWriter.cc: open(filename, mode)"]}
{"id": "C18", "title": "The random access record has a fixed size and is found from the end of the file", "statement": "The trailing random access record always occupies the same number of bytes, whatever its contents, so a reader that seeks back by that size from the end of a closed file always lands on its first byte.", "quantifier": "every record contents", "why_tests_cant": "holds for all contents, not for sampled ones", "anchors": ["src/cpp/include/SIO/LCSIO.h: RandomAccessSize", "src/cpp/src/SIO/SIORandomAccessHandler.cc", "src/cpp/src/SIO/LCIORandomAccessMgr.cc: seekStream, readLCIORandomAccess"]}
{"id": "C19", "title": "Concurrent writers never interleave inside an event", "statement": "When several threads write events and run headers through one MT::LCWriter, then for every interleaving the resulting file is a valid file: each event header record is directly followed by the record of the same event, each thread's items appear in that thread's order, nothing is lost or duplicated, and the index points at the right positions.", "quantifier": "every number of threads, every program per thread, every schedule", "why_tests_cant": "schedules are unbounded; races show up only in some of them", "anchors": ["src/cpp/src/MT/LCWriter.cc: writeEvent, writeRunHeader"]}
{"id": "C20", "title": "Sorted run and event numbering", "statement": "The order used by the run/event index is a strict weak order on all entries, run headers come before events, and getRuns/getEvents return each stored run and event exactly once in that order.", "quantifier": "every set of run and event numbers, including negative and extreme values", "why_tests_cant": "comparison properties quantify over triples of all keys", "anchors": ["src/cpp/src/SIO/RunEventMap.cc: operator<", "src/cpp/include/SIO/RunEventMap.h: RunEvent", "src/cpp/src/MT/LCReader.cc: getRuns, getEvents"]}
{"id": "C21", "title": "Bit fields are independent and sign correct", "statement": "For every field list accepted by BitField64, assigning a value that the field accepts and reading it back returns the same value, and does not change the value of any other field; rejected values leave the whole word unchanged.", "quantifier": "every accepted encoding, every sequence of assignments, every 64-bit start value", "why_tests_cant": "all widths, offsets, signs and values; 2^64 words", "anchors": ["src/cpp/src/UTIL/BitField64.cc: BitFieldValue, BitField64::addField", "src/cpp/include/UTIL/BitField64.h"]}
{"id": "C22", "title": "Encoding strings are parsed to non-overlapping fields", "statement": "BitField64 accepts an encoding string only if all its fields lie inside 64 bits and no two fields overlap; the field description generated from an accepted encoding is itself accepted and gives the same fields.", "quantifier": "every encoding string", "why_tests_cant": "unbounded strings", "anchors": ["src/cpp/src/UTIL/BitField64.cc: init, addField, fieldDescription", "src/cpp/include/UTIL/BitField64.h: LCTokenizer"]}
{"id": "C23", "title": "Encoder and decoder of cell ids agree", "statement": "A hit whose cell id is set through CellIDEncoder on a collection and decoded through CellIDDecoder constructed from that collection yields the encoded field values, also when the id is split into two 32-bit words.", "quantifier": "every encoding and all field values", "why_tests_cant": "unbounded encodings and 2^64 ids", "anchors": ["src/cpp/include/UTIL/CellIDEncoder.h", "src/cpp/include/UTIL/CellIDDecoder.h", "src/cpp/include/UTIL/BitField64.h: lowWord, highWord"]}
{"id": "C24", "title": "Forward and reverse relations are always consistent", "statement": "After any sequence of addRelation and removeRelation, b is among the objects related to a with weight w exactly if a is among the objects related from b with the same weight w; no pair appears twice; adding an existing pair adds the weights.", "quantifier": "every history of adds and removes", "why_tests_cant": "unbounded histories", "anchors": ["src/cpp/src/UTIL/LCRelationNavigator.cc: addRelation, removeRelation"]}
{"id": "C25", "title": "Relation collections reproduce the navigator", "statement": "A navigator built from the collection produced by createLCCollection answers every query with the same objects and weights as the original navigator.", "quantifier": "every history and every query", "why_tests_cant": "unbounded histories", "anchors": ["src/cpp/src/UTIL/LCRelationNavigator.cc: createLCCollection, initialize"]}
{"id": "C26", "title": "Particle id algorithms are registered consistently", "statement": "After any sequence of addAlgorithm calls, ids and names are in one-to-one correspondence, parameter indices match the registered names, and a handler created later from the same collection sees the same algorithms, ids and parameter names.", "quantifier": "every sequence of registrations over several handler lifetimes", "why_tests_cant": "unbounded histories", "anchors": ["src/cpp/src/UTIL/PIDHandler.cc", "src/cpp/src/UTIL/CollectionParameterMap.cc"]}
{"id": "C27", "title": "Time stamps and calendar dates correspond", "statement": "For every non-negative 64-bit time stamp, the calendar date computed by LCTime is the valid Gregorian date and time of day of that instant; for every valid date from 1970 until the 32-bit second counter overflows, constructing LCTime from the date and converting the resulting stamp back gives the same date.", "quantifier": "every time stamp below 2^63 and every valid date in range", "why_tests_cant": "2^63 stamps; leap year rules over centuries", "anchors": ["src/cpp/src/UTIL/LCTime.cc: convertToCalTime, convertFromCalTime, daysInMonth", "src/cpp/include/UTIL/LCTime.h"]}
{"id": "C28", "title": "Event collections behave like a map with unique valid names", "statement": "Under any sequence of addCollection, removeCollection and takeCollection, an event never holds two collections with one name, only names that are valid C identifiers are accepted, getCollection returns the collection last added under that name, and getCollectionNames lists exactly the names present.", "quantifier": "every sequence of operations and every name", "why_tests_cant": "unbounded histories and strings", "anchors": ["src/cpp/src/IMPL/LCEventImpl.cc: addCollection, removeCollection, takeCollection, getCollection, validateCollectionName"]}
{"id": "C29", "title": "Read-only data stays unchanged", "statement": "Once an event read from file is in read-only mode, every modifying call on the event, its collections and their elements that is access-checked throws ReadOnlyException and leaves all observable state unchanged.", "quantifier": "every state and every checked modifying call", "why_tests_cant": "all objects, all setters, all histories", "anchors": ["src/cpp/src/IMPL/AccessChecked.cc", "src/cpp/src/IMPL/LCEventImpl.cc: setAccessMode", "src/cpp/src/IMPL/LCCollectionVec.cc: setReadOnly"]}
{"id": "C30", "title": "Monte Carlo parent and daughter lists mirror each other", "statement": "After any sequence of addParent calls on modifiable particles, p is listed as parent of d exactly as often as d is listed as daughter of p, and no pair is listed twice.", "quantifier": "every sequence of addParent calls", "why_tests_cant": "unbounded graphs", "anchors": ["src/cpp/src/IMPL/MCParticleImpl.cc: addParent, addDaughter"]}
{"id": "C31", "title": "Daughter lists are rebuilt after reading", "statement": "Only parent links are stored; after reading an event with one Monte Carlo particle collection whose parents all lie in that collection, every particle's daughter list again contains exactly the particles that list it as parent.", "quantifier": "every parent graph inside a collection", "why_tests_cant": "unbounded graphs", "anchors": ["src/cpp/src/SIO/SIOParticleHandler.cc: restoreParentDaughterRelations"]}
{"id": "C32", "title": "Hit contributions are accumulated without loss", "statement": "In the short form each contributing particle appears at most once in a simulated calorimeter hit, in the detailed form every call adds one entry; in both forms the hit energy is the sum, in call order, of all contributed energies.", "quantifier": "every sequence of contributions", "why_tests_cant": "unbounded sequences", "anchors": ["src/cpp/src/IMPL/SimCalorimeterHitImpl.cc: addMCParticleContribution"]}
{"id": "C33", "title": "Flag bits are independent", "statement": "Setting or clearing a flag bit makes that bit read accordingly and leaves all other 31 bits unchanged, for collection flags, hit quality bits, particle simulator status and process flags.", "quantifier": "every 32-bit word and every sequence of set and clear operations on bits 0..31", "why_tests_cant": "all words and histories", "anchors": ["src/cpp/src/IMPL/LCFlagImpl.cc", "src/cpp/src/IMPL/TrackerHitImpl.cc: setQualityBit", "src/cpp/include/UTIL/BitSet32.h", "src/cpp/include/UTIL/ProcessFlag.h"]}
{"id": "C34", "title": "Parameter maps return the last value set", "statement": "For every history of setValue/setValues/getters on LCParameters, getIntVals and friends return the vector last set for that key in that type's map, untouched keys and the two other maps are not affected, and scalar getters return the first element or the documented default when the key is absent.", "quantifier": "every history", "why_tests_cant": "unbounded histories", "anchors": ["src/cpp/src/IMPL/LCParametersImpl.cc"]}
{"id": "C35", "title": "Runtime relations between objects stay symmetric", "statement": "Under any sequence of set_relation and unset_relation a 1-to-1 runtime relation is a partial matching; under any sequence of add_relation, remove_relation and remove_relations an N-to-N relation lists f at t exactly as often as t at f.", "quantifier": "every history over any objects", "why_tests_cant": "unbounded histories", "anchors": ["src/cpp/include/LCRTRelations.h: set_relation, unset_relation, add_relation, remove_relation, remove_relations, merge_relations"]}
{"id": "C36", "title": "Split writing loses nothing", "statement": "With LCSplitWriter, the concatenation of the files in counting order contains exactly the items written, in order, a new file is started only when the previous one exceeds the size limit, and no two files of one session share a name.", "quantifier": "every sequence of writes and every size limit", "why_tests_cant": "unbounded histories", "anchors": ["src/cpp/src/UTIL/LCSplitWriter.cc"]}
{"id": "C37", "title": "Lazy unpacking equals eager unpacking", "statement": "An event read with lazy unpacking answers every sequence of read accesses with the same result as the same event unpacked immediately.", "quantifier": "every event and every sequence of accesses", "why_tests_cant": "unbounded events and access histories", "anchors": ["src/cpp/src/IOIMPL/LCEventLazyImpl.cc", "src/cpp/src/MT/LCReader.cc"]}
{"id": "C38", "title": "Generic user objects survive writing and reading", "statement": "A collection of generic objects, with fixed or varying numbers of int, float and double values, is read back with the same number and values of elements.", "quantifier": "every collection of generic objects whose fixed-size flag matches the objects", "why_tests_cant": "unbounded sizes", "anchors": ["src/cpp/src/SIO/SIOLCGenericObjectHandler.cc", "src/cpp/src/IMPL/LCGenericObjectImpl.cc"]}
{"id": "C39", "title": "Untrusted input never makes the record reader read outside its buffers", "statement": "For every byte string given as a file, reading records either succeeds, reports end of file or throws; it does not access memory outside its buffers and does not loop forever.", "quantifier": "every byte string", "why_tests_cant": "every possible input file", "anchors": ["sio/src/api.cc: read_record_info, read_block_infos, read_blocks", "sio/include/sio/api.h: api::read"]}
{"id": "C40", "title": "Track states are unique per location", "statement": "Under any sequence of addTrackState calls a track never holds two states at the same location other than AtOther, and getTrackState(location) returns the state added for that location.", "quantifier": "every sequence of calls", "why_tests_cant": "unbounded histories", "anchors": ["src/cpp/src/IMPL/TrackImpl.cc: addTrackState, getTrackState"]}
{"id": "C41", "title": "Skipping and counting agree with reading", "statement": "After skipNEvents(n) with n at least 1 and at most the number of remaining events, the next event read is the one that would have been read after n calls of readNextEvent.", "quantifier": "every file and every n", "why_tests_cant": "unbounded files and counts", "anchors": ["src/cpp/src/MT/LCReader.cc: skipNEvents", "sio/src/api.cc: skip_n_records", "sio/include/sio/api.h: skip_records"]}
{"id": "C42", "title": "Selective reading of collections does not disturb the others", "statement": "When only some collections are requested for reading, the requested ones are read back exactly as in a full read except that references into collections not read are null.", "quantifier": "every event and every selection", "why_tests_cant": "2^n selections of unbounded events", "anchors": ["src/cpp/src/SIO/LCIORecords.cc: setupBlocks", "src/cpp/src/MT/LCReader.cc"]}
{"id": "C43", "title": "StdHep daughter ranges give symmetric family links", "statement": "For every StdHep event record, the particle collection built by LCStdHepRdrNew has parent and daughter lists that mirror each other, without duplicates.", "quantifier": "every daughter range table", "why_tests_cant": "unbounded tables", "anchors": ["src/cpp/src/UTIL/LCStdHepRdrNew.cc: readEvent"]}
{"id": "C44", "title": "Charges derived from particle codes", "statement": "For every particle code the charge computed by LCStdHepRdrNew is the sum of the charges of the quarks the code names, and that of the antiparticle is the opposite.", "quantifier": "every baryon, meson and diquark code, every int", "why_tests_cant": "2^32 codes", "anchors": ["src/cpp/src/UTIL/LCStdHepRdrNew.cc: threeCharge"]}
{"id": "C45", "title": "StdHep files are read event by event", "statement": "For every well-formed StdHep file, opening succeeds and the calls of readEvent return exactly the stored events, each once and in the order of the event tables, with the stored weights and process numbers, and then null for ever.", "quantifier": "every file with any number of tables, records and particles", "why_tests_cant": "unbounded files", "anchors": ["src/cpp/src/UTIL/lStdHep.cc: readFileHeader, readEvent, EventTable::read, Event::read", "src/cpp/src/UTIL/lXDR.cc"]}
{"id": "C46", "title": "Untrusted StdHep files are refused or read", "statement": "For every byte string given as a StdHep file, opening it and reading events either succeeds, reports the end or throws.", "quantifier": "every byte string", "why_tests_cant": "every possible input file", "anchors": ["src/cpp/src/UTIL/lStdHep.cc", "src/cpp/src/UTIL/lXDR.cc", "src/cpp/src/UTIL/LCStdHepRdrNew.cc"]}
{"id": "C47", "title": "Listeners get every record once and in order", "statement": "For every list of files written by LCWriter, and every sequence of calls readStream(listeners, max) with positive max, each call delivers the next max run headers and events of the files, in the order in which they were written and across the boundaries of the files, to each listener once; EndOfDataException is thrown exactly if fewer than max are left, and readStream(listeners) delivers all that are left.", "quantifier": "every list of written files, every sequence of calls with any numbers of listeners and limits", "why_tests_cant": "unbounded files and sequences of calls", "anchors": ["src/cpp/src/MT/LCReader.cc: readStream, readNextRecord", "src/cpp/src/SIO/SIOReader.cc: readStream"]}
{"id": "C48", "title": "A merged file is read like the files it was made of", "statement": "For every list of files written by LCWriter, lcio_merge_files writes a file from which, whichever collections are selected and in whichever order events and run headers are requested, exactly the items of the given files are read, in their order and equal to what was written to the given files, and it changes no other file; provided that what was read can be stored again: the elements of subset collections are stored in the event, generic objects have type names, and subsets of fixed-size generic objects are taken from fixed-size collections.", "quantifier": "every list of files of any number of items, every reader of the merged file", "why_tests_cant": "unbounded files, all readers", "anchors": ["src/cpp/src/EXAMPLE/lcio_merge_files.cc", "src/cpp/src/SIO/SIOReader.cc: readStream, processEvent", "src/cpp/src/MT/LCWriter.cc", "src/cpp/src/SIO/SIOLCGenericObjectHandler.cc: initWriting"]}
{"id": "C49", "title": "The parts of a split file are read like the whole", "statement": "For every file written by LCWriter whose items can be stored again, lcio_split_file writes new files numbered from 0 and changes no other file; each of them but the last has more than the given number of bytes, none goes on after exceeding it, and reading them one after the other gives exactly the items of the file, in order and equal to what was written to the file.", "quantifier": "every file of any number of items, every size limit, every reader of the parts", "why_tests_cant": "unbounded files, all limits, all readers", "anchors": ["src/cpp/src/EXAMPLE/lcio_split_file.cc", "src/cpp/src/UTIL/LCSplitWriter.cc", "src/cpp/src/SIO/SIOReader.cc: readStream"]}
{"id": "C50", "title": "Adding an index does not change what is in a file", "statement": "For every list of files given to addRandomAccess, each file that exists has the same items afterwards: every sequence of calls of a reader, sequential or with direct access, gets the items that were in the file before, and no other file is changed or created.", "quantifier": "every list of files, every sequence of calls of a reader", "why_tests_cant": "unbounded files and sequences of calls", "anchors": ["src/cpp/src/EXAMPLE/addRandomAccess.cc", "src/cpp/src/MT/LCWriter.cc: open", "src/cpp/src/SIO/LCIORandomAccessMgr.cc: initAppend"]}
{"id": "C51", "title": "Registered listeners get every record, change it in turn and then see it read only", "statement": "For every list of written files and every program that registers and removes listeners at SIOReader and calls readStream in between, each record is delivered to exactly the listeners registered at that time, each once even if it was registered several times; each listener gets the record modifiable first, as the listeners before it left it, and then read only.", "quantifier": "every list of files, every program of registrations and streaming calls, every behaviour of the listeners", "why_tests_cant": "unbounded files and programs, all listeners", "anchors": ["src/cpp/src/SIO/SIOReader.cc: registerLCEventListener, removeLCEventListener, registerLCRunListener, removeLCRunListener, readStream, processEvent, processRunHeader"]}
{"id": "C52", "title": "SIOReader returns the records of the file and keeps the last one alive", "statement": "For every file and every sequence of readNextEvent, readNextRunHeader, readEvent, readRunHeader and skipNEvents, SIOReader returns what MT::LCReader returns; a returned event (run header) stays valid until the next call for an event (run header), and no record is deleted twice.", "quantifier": "every file, also damaged ones, every sequence of calls", "why_tests_cant": "unbounded files and sequences of calls", "anchors": ["src/cpp/src/SIO/SIOReader.cc: readNextEvent, readNextRunHeader, readEvent, readRunHeader"]}
{"id": "C53", "title": "Everything is deleted exactly once", "statement": "In every program that makes objects, collections and an event and gives away or deletes only what it owns (a collection owns its elements unless it is a subset, a particle, cluster, track or calorimeter hit owns its particle ids, track states or contributions, an event owns the collections added and not taken or removed), no destructor deletes anything that does not exist any more, and what exists at the end is exactly what has an owner: deleting the event leaves nothing behind but what the program owns.", "quantifier": "every program, every choice of addresses by the allocator", "why_tests_cant": "unbounded programs; memory errors need not show in a test", "anchors": ["src/cpp/src/IMPL/LCEventImpl.cc: ~LCEventImpl, addCollection, takeCollection, removeCollection", "src/cpp/src/IMPL/LCCollectionVec.cc: ~LCCollectionVec", "src/cpp/src/IMPL/ClusterImpl.cc: ~ClusterImpl", "src/cpp/src/IMPL/ReconstructedParticleImpl.cc: ~ReconstructedParticleImpl", "src/cpp/src/IMPL/TrackImpl.cc: ~TrackImpl", "src/cpp/src/IMPL/SimCalorimeterHitImpl.cc: ~SimCalorimeterHitImpl"]}
{"id": "C54", "title": "A HEPEVT table survives the conversion to an event and back", "statement": "For every HEPEVT table whose mothers are lines of the table, HEPEVT::fromHepEvt adds one MCParticle per line and toHepEvt of that event gives the table back: number of lines, status, id, mothers, vertex and charge are the same, momentum and mass are rounded to float, the daughters are those that follow from the mothers (the same ones if the table is consistent), and lines beyond the table are untouched; conversely the particles of an event that fit into the table and whose parents follow each other come back with generator status, id, charge, vertex, rounded momentum and mass, and the same family.", "quantifier": "every table of any number of lines, every event", "why_tests_cant": "unbounded numbers of particles and families", "anchors": ["src/cpp/src/CPPFORT/HEPEVT.cc: fromHepEvt, toHepEvt", "src/cpp/include/CPPFORT/hepevt0.h", "src/cpp/include/CPPFORT/hepevt1.h"]}
{"id": "C55", "title": "The two StdHep readers agree, and an event gets what was read", "statement": "For every StdHep file the older reader LCStdHepRdr returns particles with the attributes of their lines, mirrored family links, all links declared by daughter ranges and no others but repairs; it accepts what the newer reader accepts and lacks only links declared by daughters alone, so both return the same collections for a file whose declared mothers declare their daughters. updateNextEvent adds exactly that collection under the given name, sets weight, process and (if asked) number of the event and changes nothing else; at the end of the file it says so and changes nothing; unusable names and events that must not be changed are refused without adding or replacing a collection.", "quantifier": "every file, every event, every name", "why_tests_cant": "unbounded numbers of particles and families, all contents of files", "anchors": ["src/cpp/src/UTIL/LCStdHepRdr.cc: readEvent, updateNextEvent", "src/cpp/src/UTIL/LCStdHepRdrNew.cc: readEvent, updateNextEvent", "src/cpp/src/IMPL/LCEventImpl.cc: setWeight, getWeight, addCollection"]}
{"id": "C56", "title": "The process flag of an event says what its hard final state is", "statement": "For every collection of MCParticles and every limit on the particles looked at, decodeMCTruthProcess chooses one hard final state by the documented rules (daughters of a particle with generator status 3; else the particles without parents if there are more than two; else the daughters of the first daughter of the first particle that has several) and sets exactly the bits that follow from it: one for each kind of lepton, neutrino, photon (not counting the two radiated ones) and quark in it and those of the decay of a Higgs boson in it, followed through any number of copies; 'unknown' and nothing else if there is none. It returns for every family without cycles whose pointers are valid and whose Higgs bosons decay.", "quantifier": "every list of particles with arbitrary family links, every limit", "why_tests_cant": "unbounded numbers of particles, chains of any length, cyclic families", "anchors": ["src/cpp/src/UTIL/ProcessFlag.cc: decodeMCTruthProcess", "src/cpp/include/UTIL/ProcessFlag.h"]}
{"id": "C57", "title": "The cell id encoding of tracking detectors is fixed at its first use and keeps the fields in order", "statement": "For every sequence of calls on LCTrackerCellID: until the first access an encoding string is accepted exactly if it contains the names subdet (or system), side, layer, module and sensor, first found in that order; from the first access on every access returns the last accepted string (or the canonical one) and every attempt to set another one throws and changes nothing; valueString prints the value of every field under its name. For encodings that begin with the five fields and use these names once, the indices returned by subdet() ... sensor() are those of the fields. ILDCellIDEncoder keeps the canonical fields in the first cell id word with their indices whatever fields are added.", "quantifier": "every sequence of calls, every string, every word", "why_tests_cant": "unbounded histories and all strings", "anchors": ["src/cpp/include/UTIL/LCTrackerConf.h: set_encoding_string, encoding_string, valueString", "src/cpp/include/UTIL/ILDConf.h: ILDCellIDEncoder", "src/cpp/src/UTIL/BitField64.cc: valueString, index"]}
{"id": "C58", "title": "copyfix recovers every complete item of a file that was cut off", "statement": "For every file written by LCWriter in any number of sessions and cut off at any byte, copyfix writes a file from which exactly the run headers and events that end in front of the cut are read, in their order and equal to what was written, whichever collections are selected and whatever is asked for; it changes no other file, and the new file is like one written by LCWriter (it has an index, can be appended to); provided that what was read can be stored again.", "quantifier": "every file, every byte at which it is cut off", "why_tests_cant": "unbounded files, every place of the cut", "anchors": ["src/cpp/src/EXAMPLE/copyfix.cc: main, RunEventProcessor", "src/cpp/src/MT/LCReader.cc: readStream"]}
{"id": "C59", "title": "lcio_event_counter counts the events that were written", "statement": "For every list of files written by LCWriter in which no two events of a file have the same run and event number, lcio_event_counter reports the number of events that were written to them.", "quantifier": "every list of files", "why_tests_cant": "unbounded files and numbers of files", "anchors": ["src/cpp/src/EXAMPLE/lcio_event_counter.cc: main", "src/cpp/src/MT/LCReader.cc: getNumberOfEvents"]}
{"id": "C60", "title": "Typed views of a collection return its elements in order", "statement": "For every collection whose elements are of the class T or null, LCIterator<T> returns in its k-th call of next the k-th element that was in the collection when it was made, whatever is added in between, and null after the last one; the loop 'while( T* t = it.next() )' ends and is executed for the elements in front of the first null; LCTypedVector<T> has all elements in order with null for those of another class; these and LCObjectHandle<T> throw if and only if the first element (the object) is null or of another class; no call has undefined behaviour unless elements are removed or of another class.", "quantifier": "every collection, every class, every program of calls", "why_tests_cant": "unbounded collections and programs of calls", "anchors": ["src/cpp/include/UTIL/LCIterator.h: LCIterator, next", "src/cpp/include/UTIL/LCTypedVector.h: LCTypedVector", "src/cpp/include/UTIL/LCObjectHandle.h: LCObjectHandle"]}
{"id": "C61", "title": "Fixed objects are views of their data, in memory and in files", "statement": "For every program that makes, wraps, sets, reads and deletes LCFixedObjects and LCGenericObjects without using anything after it or its data was deleted, an LCFixedObject can be made of an object if and only if that is a generic object of the same numbers of values (otherwise an exception is thrown); a value asked for through any of the objects is the one last set through any of them; nothing is left when all objects are deleted; and an object that is written to a file and read back can be wrapped again with the same numbers and has the same values.", "quantifier": "every program of calls, every event", "why_tests_cant": "unbounded programs with aliasing; unbounded events", "anchors": ["src/cpp/include/UTIL/LCFixedObject.h: LCFixedObject, obj, ~LCFixedObject", "src/cpp/src/IMPL/LCGenericObjectImpl.cc: setIntVal", "src/cpp/src/SIO/SIOLCGenericObjectHandler.cc: read, write"]}
{"id": "C62", "title": "Parallel processing: every event once, run headers in between, for all schedules", "statement": "For every list of files written by LCWriter and every interleaving of the main thread with the tasks of lcio_parallel_processing: at most the given number of tasks is active at a time; tasks are started and run headers are printed in the order of the items of the files; a run header is printed only when all tasks started before it have returned; each task prints the numbers of its event once; if the program ends every event of the files was processed exactly once; and as long as it has not ended there is a continuation that ends it (no deadlock), if the number of tasks is positive.", "quantifier": "every list of files, every number of tasks, every interleaving of unbounded length", "why_tests_cant": "all interleavings of an unbounded number of threads", "anchors": ["src/cpp/src/EXAMPLE/lcio_parallel_processing.cc: Scheduler, startTask, waitForAll, processFinishedTasks, main", "src/cpp/src/MT/LCReader.cc: readNextRecord"]}
{"id": "C63", "title": "lcio_check_col_elements succeeds exactly if the collections have the expected sizes", "statement": "For every list of files written by LCWriter and all options that make sense together, lcio_check_col_elements exits with success exactly if the bounds derived from the options are in order, at least one event that is looked at contains the collection, and the numbers of elements lie within the bounds for all but the allowed number of events (with --average: the average lies within the bounds); --startevent and --maxevents select the events as documented as long as not more events are skipped than the first file has; the limits from --expelements and relative errors are the nearest integers up to the precision of floats. Options that contradict each other make it fail before anything is read.", "quantifier": "every list of files, all options, all numbers of events and elements within the ranges of int and, for averages, of exact floats", "why_tests_cant": "all combinations of twelve options with files of any length; rounding of floats", "anchors": ["src/cpp/src/EXAMPLE/lcio_check_col_elements.cc: main", "src/cpp/src/MT/LCReader.cc: open, skipNEvents, readNextEvent", "src/cpp/src/IMPL/LCEventImpl.cc: getCollection"]}
{"id": "C64", "title": "The listing of a file shows every record and block where it is", "statement": "For every file of records made by sio::api::write_record, with any blocks and any compression, sio::api::dump_records prints one line for each record from number skip on, at most count of them, in order: its name, the places in the file where it starts and ends (each record starts where the one before ends, the last ends with the file), its options, the length of its header and of its data before and after compression. In the detailed form each record is followed by one line for each block, in order, with name, place within the record, version and lengths. The end of the file ends the listing without an error; if there are less than skip records nothing is printed.", "quantifier": "every list of records, every list of blocks, all names, versions, compression levels, every skip and count", "why_tests_cant": "all contents of files; places are sums of padded lengths over everything before", "anchors": ["sio/src/api.cc: dump_records", "sio/src/api.cc: read_record_info", "sio/src/api.cc: read_record_data", "sio/src/api.cc: read_block_infos", "sio/src/api.cc: skip_n_records", "sio/src/version.cc"]}
{"id": "C65", "title": "Fortran programs get back what they put into vectors, parameters and run headers", "statement": "A vector that the Fortran interface makes from an array of integers, reals or pointers, or from an array of strings, has the length and, counted from 1, the elements of that array; fetched into another array (whose strings are long enough) it gives the elements again, at most as many as that array is said to have, the number of them, and leaves the rest of the array as it is. Values handed to lcsetparameters for a run header, event or collection and a key are what lcgetparameters delivers into an empty LCIntVec, LCFloatVec or LCStrVec after any further calls that do not set values of the same type for the same object and key. Unknown names of classes and methods give an error and change nothing. The number, names and subdetectors handed to lcwriterunheader are what lcreadnextrunheader delivers for that header.", "quantifier": "all arrays, lengths of strings and sizes of targets; all sequences of calls", "why_tests_cant": "unbounded arrays and call sequences; char matrices with arbitrary strides", "anchors": ["src/cpp/src/CPPFORT/lciof77apiext.cc: lcintvectorcreate .. getpointervector, lcsetparameters, lcgetparameters, do_set_method, do_get_method, lcwriterunheader, lcreadnextrunheader", "src/cpp/src/CPPFORT/lcvec.cc", "src/cpp/include/CPPFORT/cpointer.h: f2c_pointer"]}
{"id": "C66", "title": "A warning is shown as often as it may be, and once more at the end", "statement": "For every sequence of calls of LCWarning: a warning whose first call is its registration with the number max is shown by the first max calls of printWarning and by no later one, each time with the number of times it will be shown again; registering a name again throws an exception and changes nothing; when the program ends, the warnings that were shown are listed once each, in the order of their names, below one heading, and nothing is listed if none was shown. The warnings that LCIO registers itself have different names and a maximum of 10.", "quantifier": "every sequence of registrations and calls, all names, texts and numbers", "why_tests_cant": "unbounded sequences; interleaving of any number of warnings", "anchors": ["src/cpp/src/UTIL/LCWarning.cc: registerWarning, printWarning, ~LCWarning", "src/cpp/include/UTIL/LCWarning.h"]}
{"id": "C67", "title": "The type name of a class is the one under which its objects are stored", "statement": "The name that lctypename returns for a class is the one for which the I/O library has the handler of this class and no other. For an object given by a pointer to LCObject it is the name of the class of the object.", "quantifier": "all classes, all objects", "why_tests_cant": "all objects of all classes; the result depends on the order of the casts and on the inheritance between the classes", "anchors": ["src/cpp/include/UTIL/LCIOTypeInfo.h: lctypename", "src/cpp/src/SIO/SIOHandlerMgr.cc"]}
{"id": "C68", "title": "An event summary holds the values that were set, under the names of its description", "statement": "For every sequence of calls on an EventSummary: no call fails; a getter returns the value that was last set for the same entry, or 0; the values are stored at the positions at which the description names the entry; every entry is named once.", "quantifier": "every sequence of calls, all values", "why_tests_cant": "unbounded sequences of calls, all values", "anchors": ["src/cpp/include/UTIL/EventSummary.h: EventSummary", "src/cpp/include/UTIL/LCFixedObject.h"]}
{"id": "C69", "title": "The Fortran interface gives the objects of a list by their index, counted from 1", "statement": "For every program of Fortran calls: the i-th element of a collection, parent or daughter of a particle, hit, contribution to a hit and component of a position, counted from 1, is the i-th that was added and was not removed; the numbers of elements, the energy of a hit with its contributions, and the parameters and contributions copied to an array with their number are those of the calls before; an index out of range is reported.", "quantifier": "every sequence of calls with objects of the right class, all values and indices", "why_tests_cant": "unbounded sequences of calls on any number of objects that refer to each other; indices out of range read other memory, which a test need not notice", "anchors": ["src/cpp/src/CPPFORT/lccol.cc", "src/cpp/src/CPPFORT/lcmcp.cc", "src/cpp/src/CPPFORT/lcsth.cc: lcsthgetposition", "src/cpp/src/CPPFORT/lcsch.cc", "src/cpp/src/CPPFORT/lcobv.cc", "src/cpp/src/CPPFORT/lcpid.cc: lcpidgetparameters", "src/cpp/src/CPPFORT/lcvtx.cc: lcvtxgetparameters", "src/cpp/src/CPPFORT/lcclu.cc: lcclugethitcontributions", "src/cpp/src/CPPFORT/lciof77apiext.cc: lcgetsimcalohit, lcgetsimcalohitmccont", "src/latex/manual/f77summary.tex"]}
{"id": "C70", "title": "An attribute of a data object is what was set last, and nothing else changes it", "statement": "For every class of data objects: a new object has the documented initial values; a modifying call changes exactly the attributes it names - a setter gives the attribute the value, an adder appends, a bit setter changes one bit - and all other getters return what they returned before; a call that fails changes nothing; so after any sequence of calls each getter returns the value set last, or the initial one. Getters with an index give the element of that index or report that there is none, and a copy of an object has equal attributes.", "quantifier": "every class, every object state, every sequence of modifying calls with all arguments, every getter", "why_tests_cant": "the number of pairs of calls and getters and of sequences is unbounded; a setter that changes a neighbouring member or the wrong number of array elements shows only for particular values and orders", "anchors": ["src/cpp/src/IMPL/CalorimeterHitImpl.cc", "src/cpp/src/IMPL/SimCalorimeterHitImpl.cc", "src/cpp/src/IMPL/SimTrackerHitImpl.cc", "src/cpp/src/IMPL/TrackerHitImpl.cc", "src/cpp/src/IMPL/TrackerHitPlaneImpl.cc", "src/cpp/src/IMPL/TrackImpl.cc", "src/cpp/src/IMPL/ClusterImpl.cc", "src/cpp/src/IMPL/MCParticleImpl.cc", "src/cpp/src/IMPL/ReconstructedParticleImpl.cc", "src/cpp/src/IMPL/VertexImpl.cc", "src/cpp/src/IMPL/LCGenericObjectImpl.cc", "src/cpp/src/IMPL/TPCHitImpl.cc"]}
{"id": "C71", "title": "Endpoints, end vertices and closest track states are found through the references, also after storage", "statement": "For every event: getEndpoint of a particle is the endpoint that was set, else the vertex of its first daughter that is not marked as produced elsewhere, else (0,0,0); getEndVertex is the start vertex of the first daughter particle or NULL; getClosestTrackState is the first of the states with the smallest distance; and endpoints and end vertices are the same after the event is written and read. Particle ids and track states have the values set last.", "quantifier": "all objects, all numbers and orders of daughters and states, all events that are written and read, all sequences of setters", "why_tests_cant": "unbounded graphs of particles; daughters are not stored but rebuilt on reading, so a change of their order shows only for particular events", "anchors": ["src/cpp/src/IMPL/MCParticleImpl.cc: getEndpoint", "src/cpp/include/pre-generated/EVENT/MCParticle.h", "src/cpp/src/IMPL/ReconstructedParticleImpl.cc: getEndVertex", "src/cpp/src/IMPL/TrackImpl.cc: getClosestTrackState", "src/cpp/src/IMPL/ParticleIDImpl.cc", "src/cpp/src/IMPL/TrackStateImpl.cc"]}
{"id": "C72", "title": "Attributes of events and run headers are what was set last while they could be modified", "statement": "After any program on a new event, getRunNumber, getEventNumber, getTimeStamp and getDetectorName return the value of the last setter that did not throw (0, 0, 0, \"unknown\" before that), the parameters are what the changes made of them, and getWeight is the parameter \"_weight\", or 1 if that is absent or zero. The setters throw ReadOnlyException and change nothing exactly while the access mode set last is READ_ONLY. The same holds for run headers, where subdetectors can always be added.", "quantifier": "all sequences of calls on the event, its collections, their objects and on a run header, all values", "why_tests_cant": "unbounded histories in which modes change; the weight is stored among the parameters, where other calls can reach it", "anchors": ["src/cpp/src/IMPL/LCEventImpl.cc: setters, getWeight, setAccessMode", "src/cpp/src/IMPL/LCRunHeaderImpl.cc", "src/cpp/src/IMPL/AccessChecked.cc", "src/cpp/src/IMPL/LCParametersImpl.cc"]}
{"id": "C73", "title": "The Fortran functions for one object set and return the attribute they are named after", "statement": "For the functions of the Fortran interface that work on one object (lcrcp*, lctrk*, lctrh*, lccah*, lctph*, lcgob*, lcrel*, lcmcp*, lcsth*, lcsch*, lcvtx*, lcclu*): a function that sets or adds something has exactly the effect on the object that its name says and leaves every other attribute and every other object as it was; a function that returns an attribute returns what was set last, or the value of a new object; indices count from 1; strings end at the first NUL; on failure nothing changes and LCIO::ERROR is returned.", "quantifier": "all 104 modifying and 109 returning functions, all objects and arguments, all sequences of calls on any number of objects", "why_tests_cant": "213 functions written by hand, each a chance to call the wrong method; interference between objects and functions needs all sequences", "anchors": ["src/cpp/src/CPPFORT/lcrcp.cc", "src/cpp/src/CPPFORT/lctrk.cc", "src/cpp/src/CPPFORT/lctrh.cc", "src/cpp/src/CPPFORT/lccah.cc", "src/cpp/src/CPPFORT/lctph.cc", "src/cpp/src/CPPFORT/lcgob.cc", "src/cpp/src/CPPFORT/lcrel.cc", "src/cpp/src/CPPFORT/lcmcp.cc", "src/cpp/src/CPPFORT/lcsth.cc", "src/cpp/src/CPPFORT/lcsch.cc", "src/cpp/src/CPPFORT/lcvtx.cc", "src/cpp/src/CPPFORT/lcclu.cc", "src/cpp/include/CPPFORT/cpointer.h"]}
{"id": "C74", "title": "A writer object does what each call says in any sequence of calls", "statement": "Whatever calls are made of one LCWriter (open with or without a mode, setCompressionLevel, writeRunHeader, writeEvent, flush, close), in any order and going on after exceptions: a call that throws changes nothing that later calls show; every run header and event whose write returned is, in order, in the file that was opened last; every file that was closed can be read and gives back its items, also when it was written in several sessions; other files are not touched.  The Fortran functions return LCIO::SUCCESS where the call returned and LCIO::ERROR where it threw, and the Fortran reader returns pointers to the items in order and the null pointer at the end.", "quantifier": "all sequences of calls, all names, modes, levels, events and run headers that fit the sizes of the format, all earlier contents of the files", "why_tests_cant": "the state of the stream, of the index and of the buffer after exceptions depends on the whole history; tests use open, write, close", "anchors": ["src/cpp/src/SIO/SIOWriter.cc", "src/cpp/src/SIO/LCIORandomAccessMgr.cc", "src/cpp/src/CPPFORT/lcwrt.cc", "src/cpp/src/CPPFORT/lcrdr.cc"]}
{"id": "C75", "title": "The bytes of every record are those of the file format", "statement": "The records written for run headers, event headers and events, the index and the random access records consist of exactly the bytes of the file format: record header with length, marker 0xabadcafe, options, stored and original length and name; blocks with length, marker 0xdeadbeef, version 2.15 and name; then the fields of each object in a fixed order, depending on the flag word only, big-endian, strings and short words padded to multiples of four; objects that are stored and referred to in the same record have a number that is unique in the record, other stored objects have 0xffffffff and other references 0.  With compression the data are replaced by the compressed data, padded to a multiple of four, and the option bit is set.", "quantifier": "all run headers, events with any collections and parameters, index entries, compression levels and codecs within the sizes of the format", "why_tests_cant": "a round trip test reads with the same library, so that a change of the order of fields or of a name made in both directions goes unnoticed, although old files and other implementations (Java) do not agree any more", "anchors": ["src/cpp/src/SIO", "sio/src/api.cc", "sio/include/sio/api.h"]}
{"id": "C76", "title": "Records of earlier versions are read, with defaults for fields they do not have", "statement": "A run header, event header or event record whose blocks carry an earlier version of the format is read completely: every field that existed in that version has the stored value, every field that came in later has the default of a new object (times, qualities, spin, colour, second cell ids, energy errors, particle ids, start vertices, parameters and so on, each from its own version on), fields that only the old versions have are skipped, and references lead to the copies of the objects that have a number in the record.  Run and event headers of versions below 0.8 are refused with an IO exception.  A reconstructed particle of version 1.2 or earlier must not list more than one Monte Carlo particle: the weights of several are read into one variable, which is undefined behaviour.", "quantifier": "all versions, all run headers and events with collections of all types that could be written at the version, any numbering of the objects in the record", "why_tests_cant": "tests have files of a few versions with a few types of objects; a wrong comparison of versions shifts all following fields, but only for files of exactly the versions in between and collections with the flag bits concerned", "anchors": ["src/cpp/src/SIO", "src/cpp/src/SIO/LCSIO.cc", "src/cpp/src/SIO/SIOReconstructedParticleHandler.cc:25-168", "src/cpp/src/SIO/SIOClusterHandler.cc", "src/cpp/src/SIO/SIOTrackerHitHandler.cc"]}
{"id": "C77", "title": "Events, run headers and relation navigators from Fortran", "statement": "After any Fortran program that created an event with lcevtcreate and did not delete it, the lcevtget functions return the values set last (0, 'unknown' at the start), lcevtgetcollection returns the collection added last under a name and not removed since (0 otherwise) and lcevtgetcollectionnames exactly these names; lcevtaddcollection returns 1 exactly for a free name that is an identifier and a collection that is not null, otherwise 0 without effect. Deleting the event deletes exactly the collections it holds, if each is held once and was not deleted before; otherwise it is undefined. Run headers return what was set last and all subdetectors in order; navigators answer with the objects and weights related by the calls made on them, and a navigator made from the collection of a navigator gives the same answers. Calls on other objects have no effect. On events that are read only the setters let the exception escape, while lcevtremovecollection returns 0.", "quantifier": "all programs of any number of calls on any number of events, run headers, navigators and collections, all names, texts, numbers and weights", "why_tests_cant": "the effects depend on the whole history of calls on several objects, on names with NUL characters or that are taken, and on collections shared between events; the Fortran examples use one event and each function once", "anchors": ["src/cpp/src/CPPFORT/lcevt.cc", "src/cpp/src/CPPFORT/lcrhd.cc", "src/cpp/src/CPPFORT/lcrnv.cc", "src/cpp/src/CPPFORT/lccol.cc"]}
{"id": "C78", "title": "stdhepjob converts StdHep files", "statement": "For any input, if the calls of readEvent on it give collections and then the end of the file, or as many as the third argument asks for (a negative number asks for all), stdhepjob and stdhepjob_new end and leave an output file that consists of one run header (run 0, detector Unknown, a description with the name of the input) and one event for each of these collections in their order: run 0, numbers 0, 1, 2..., weight and process of the StdHep event, and one collection MCParticle with the particles of the StdHep event, their attributes and relations. Reading the output in any order of calls gives copies of them. No other file changes. If the output exists already nothing is written, and an error in the input ends the program with the exception.", "quantifier": "all contents of the input file with any number of events and particles, all limits, both readers, all names, compression levels and buffers, and all sequences of reading calls on the output", "why_tests_cant": "the number of events, the tables of the input and the way the reading ends are unbounded; the example programs are only run by hand", "anchors": ["src/cpp/src/EXAMPLE/stdhepjob.cc", "src/cpp/src/EXAMPLE/stdhepjob_new.cc", "src/cpp/src/UTIL/LCStdHepRdr.cc", "src/cpp/src/UTIL/LCStdHepRdrNew.cc"]}
{"id": "C79", "title": "An object of MT::LCWriter under any sequence of calls", "statement": "For any sequence of calls of open, setCompressionLevel, writeRunHeader, writeEvent and close of one MT::LCWriter, going on after exceptions, in which no file is opened while another is open: open creates, replaces or continues the file with the given name, each item that is given while a file is open is added to it and the others are refused with an exception, close ends the session, also of an empty file, and no other file is touched; so that each closed file gives back the items of all its sessions in order. A write that throws changes nothing. Calls never make a file that was written unreadable or incomplete.", "quantifier": "all sequences of calls of any length, all names, modes, levels, items and collection names, all files that were there before, all sizes of buffers", "why_tests_cant": "states after exceptions and the order of calls are unbounded; the tests use a writer for one file", "anchors": ["src/cpp/src/MT/LCWriter.cc", "src/cpp/include/MT/LCWriter.h", "src/cpp/src/SIO/LCIORandomAccessMgr.cc: writeRandomAccessRecords"]}
{"id": "C80", "title": "dumpevent shows the event that was asked for", "statement": "For a file written by the library, `dumpevent file n` shows the n-th event of the file and `dumpevent file run event` the event with these numbers, restricted to the collections named in LCIO_READ_COL_NAMES; if there is no such event, or if the file cannot be read, the program prints a message and exits with status 1.", "quantifier": "all files written in any number of sessions, all numbers as the C library reads them from the arguments, all values of the environment variable", "why_tests_cant": "numbers, files and texts are unbounded; no test runs the program", "anchors": ["src/cpp/src/EXAMPLE/dumpevent.cc:23-148", "src/cpp/src/MT/LCReader.cc: skipNEvents, readNextEvent, readEvent"]}
{"id": "C81", "title": "anajob prints all runs and events of all files", "statement": "For files written by the library, `anajob file1 file2 ...` prints for each file the numbers of its runs and events, then all run headers of all files and then all events of all files, in the order of the files and within each file in the order of writing, restricted to the collections named in LCIO_READ_COL_NAMES; if something goes wrong with the run headers the events are still read.", "quantifier": "all lists of files, each written in any number of sessions, all values of the environment variable", "why_tests_cant": "lists of files and their contents are unbounded; one reader is opened and closed many times; no test runs the program on several files", "anchors": ["src/cpp/src/EXAMPLE/anajob.cc:23-135", "src/cpp/src/MT/LCReader.cc: open, close, getNumberOfRuns, getNumberOfEvents, readNextRunHeader, readNextEvent"]}
{"id": "C82", "title": "lcio_parallel_read prints every event once, whatever the order of the threads", "statement": "For files written by the library, in every interleaving of its threads `lcio_parallel_read file1 file2 ...` prints at any time for each file the first events of that file in their order; when the threads have run to their ends each event of each file is printed exactly once and the number printed at the end is that of all events in all files. A file that does not exist ends the program with an exception instead of the number.", "quantifier": "all lists of files, each written in any number of sessions, all orders in which the threads run", "why_tests_cant": "the number of interleavings is unbounded; no test runs the program", "anchors": ["src/cpp/src/EXAMPLE/lcio_parallel_read.cc:22-77", "src/cpp/src/MT/LCReader.cc: open, readNextEvent"]}
{"id": "C83", "title": "The table of particles shows relations and status faithfully", "statement": "LCTOOLS::printMCParticles prints one line for each particle of a collection in its order; the numbers in brackets are the positions in the collection of the parents and daughters of the particle; the text for the simulator status (getSimulatorStatusString), and that for the quality of simulated tracker hits (getQualityBits), has the letter of each bit at its place exactly if the bit is set.", "quantifier": "all collections, all particles and relations, all values of status and quality", "why_tests_cant": "relations form arbitrary graphs over unbounded collections, also subsets; the tests only look at the program's exit", "anchors": ["src/cpp/src/UTIL/LCTOOLS.cc:1133-1244", "src/cpp/src/UTIL/LCTOOLS.cc:1380-1472"]}
{"id": "C84", "title": "The tree of daughters is printed completely and with consistent numbers", "statement": "LCTOOLS::printDaughterParticles prints one line for each way from the particle down to a descendant, a mother before its daughters and daughters in their order; lines are numbered without gaps from the given index, the next number is returned, the number in brackets is that of the mother's line, and each line shows the values of its particle; the function ends exactly if there is a bound on the length of the ways.", "quantifier": "all particles, all graphs of daughters (shared daughters and cycles included), all indices", "why_tests_cant": "recursion over graphs of any depth and width; no test calls the function", "anchors": ["src/cpp/src/UTIL/LCTOOLS.cc:1281-1315"]}
{"id": "C85", "title": "readcalibration prints exactly the calibration constants of a file", "statement": "For a file as LCWriter leaves it, readcalibration prints one line per object in the collections whose type name is CalibrationConstant, in the order of events, collections and elements, with the cell id, offset and gain that were written, and the number of events; objects of other collections do not matter.", "quantifier": "all files made by any number of sessions at any compression, all events and collections, all values", "why_tests_cant": "needs the composition of writer, file format, reader, parameters added on writing and the view on generic objects for files of any length; the test reads one file of one event", "anchors": ["src/cpp/src/EXAMPLE/readcalibration.cc:21-79", "src/cpp/src/EXAMPLE/CalibrationConstant.h:9-48", "src/cpp/include/UTIL/LCFixedObject.h:48-76"]}
{"id": "C86", "title": "readmcparticles sums the energies of the stable particles of every event", "statement": "For a file as LCWriter leaves it, readmcparticles reports the number of events and the sum over all events of the energies of the particles with generator status 1 in the collection MCParticle, with momentum and mass as precise as the file keeps them.", "quantifier": "all files made by any number of sessions at any compression, all events and particles, any arithmetic", "why_tests_cant": "composition of writer, file format and reader for files of any length; no test runs the program", "anchors": ["src/cpp/src/EXAMPLE/readmcparticles.cc:16-62", "src/cpp/src/IMPL/MCParticleImpl.cc:159-161", "src/cpp/src/IMPL/LCEventImpl.cc:71-83"]}
{"id": "C87", "title": "The random access records describe their session and the file", "statement": "The random access record that closes a session holds the first and the last run/event of the session (in the order of the index) and its numbers of run headers and events, and the file record behind it holds the same for the whole file.", "quantifier": "all sessions, all run and event numbers", "why_tests_cant": "needs all orders of writing and all 32 bit numbers; the tests only read events through the index and never look at these values", "anchors": ["src/cpp/src/SIO/LCIORandomAccessMgr.cc:31-76", "src/cpp/src/SIO/LCIORandomAccessMgr.cc:175-187", "src/cpp/src/SIO/LCIORandomAccessMgr.cc:289-343", "src/cpp/src/SIO/RunEventMap.cc:61-76"]}
