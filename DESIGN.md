# Design of the couchstore verification

Source: `/repo` (read as text only). Prover: Coq 8.16.1, logical name `Verif`, sources in `rocq/theories`.

## 1. Method

The model is a set of small total Gallina functions that follow the C++ functions one by one.
Every model definition has a comment citing the file and lines it models and says what is simplified.

| layer | files | contents |
|---|---|---|
| bytes | `Bytes.v`, `Codec.v` | byte lists (`list N`), big-endian fields (`src/bitfield.*`), packed kv lengths, kv entries, roots, node pointers (`src/node_types.*`), doc info values, file headers |
| file | `File.v` | a file is a size and a total byte function; `pwrite` with short writes and failures taken from an arbitrary plan; `raw_write`, `read_skipping_prefixes`, chunk write/read, header write/read |
| recovery | `Header.v`, `Crash.v` | header search, open, commit, rewind, fast-forward, seek; the crash relation |
| tree | `Btree*.v` | lookup, modify, bulk build, root completion, reduce, range counting, guided purge, over an abstract append-only node store |
| database | `Db*.v` | save, local docs, read API, compaction, replay; connected with the file layer by instantiating the store |
| I/O buffer | `IoBuffer.v` | the buffered file operations |
| sorting | `MergeSort.v` | external merge sort of the bulk builder |
| views | `View*.v` | view codecs, bitmaps, sorted list, purge callbacks, index header |
| misc | `Flags.v`, `Crc.v`, `Fatbuf.v` | open flags, CRC-32, arenas |

Specifications are in separate `Spec*.v` files that do not mention the model (finite maps as functions, sorted lists, sets).
Property theorems are in `Properties*.v`: each is closed by `exact` of a lemma proved elsewhere and followed by `Print Assumptions`
and by an `Example` showing a concrete non-trivial case satisfying the hypotheses.

### Conventions

* Bytes and integers are `N`. Fixed-width truncation (`mod 2^k`) is written in the model wherever the code encodes a value into a
  narrower field. Arithmetic on in-memory 64-bit counters is unbounded unless a property is about wrap-around.
* Undefined behaviour (out-of-bounds read, shift out of range, conversion out of range) is a distinct error value `UB`.
* Loops are structural recursion or recursion on fuel. Fuel exhaustion is a distinct error value (`FUEL`) that theorems exclude
  by concluding with a success value, or whose impossibility is proved.
* External functions are Section variables and become theorem parameters: snappy compression `compress`/`uncompress`
  (assumed `uncompress (compress x) = Some x`), the CRC32C checksum (any function), the cipher (decrypt after encrypt).
  They are never axioms.
* Write failures and short writes come from an arbitrary plan (a list consumed by each write), so theorems quantify over all of them.

### Crash model

The storage has a durable image (what is there after the last completed sync) and a current image.
After a crash each byte position independently holds the durable byte or any byte that was written to that position since the last
sync; the length is any value between the durable and the current length; bytes inside this length never written are zero.
This allows any reordering and tearing of writes, even inside sectors. Not modelled: bit rot of already durable data,
a sync that reports success without doing its work, exposure of stale disk blocks.

## 2. Properties

| id | model | proof plan |
|---|---|---|
| C01 | file + header + commit steps, crash relation | invariant: block-start bytes after the last committed header are never Header until the flip; the flip happens after a sync; every crash image scans back to the old or the new header, and all chunks below it are durable |
| C02 | header encode/decode, write_header/pread_header | round trip through the file at any position |
| C03 | find_header over any file produced by appends | same invariant as C01 without crash |
| C04 | raw_write/read_skipping_prefixes/chunks | induction over blocks; overlay lemmas |
| C05 | chunk reads are stable under later writes | frame lemma: reads touch only bytes below the snapshot; lifted through the tree functions |
| C06 | save_documents, modify_btree, lookup | refinement to a finite map |
| C07 | update_indexes | invariant over histories linking the two sorted maps |
| C08, C09, C11 | btree_lookup with fold | fold = filtered in-order list |
| C10 | btree_lookup without fold | = per-key map lookups in sorted order |
| C12 | save loop | arithmetic over batches |
| C13, C14 | reduces and flush | reduce homomorphism invariant in the tree relation |
| C15 | btree_eval_seq_reduce | = length of the filtered list, using exact subtree counts |
| C16 | local docs | refinement to a map |
| C17 | save with duplicate ids | expected false: `_refuted` witness |
| C18 | callbacks during modify | list of callback events = map lookups in key order |
| C19, C20 | compaction | fold over source + bulk build of target |
| C21, C22 | rewind/fastforward/seek over header layouts | list-of-headers specification |
| C23 | seekFirstHeaderContaining | expected false for uneven spacing: `_refuted`; partial: found header contains the sequence, search terminates |
| C24 | commit with failing steps | case analysis + C01 invariant |
| C25 | iobuffer | refinement: abstract file = underlying file overlaid by dirty buffer; cached clean buffers agree with it |
| C26 | flush_mr_partial | node_len invariant |
| C27 | finish_root | measure strictly decreasing; fuel bound |
| C28 | kv lengths | exact characterisation of the lossless range; `_refuted` outside |
| C29 | comparators | order laws |
| C30 | pread_bin_internal | for arbitrary file contents |
| C31 | find_header_at_pos with UB outcome | expected false (zero-length header chunk): `_refuted`; partial under non-empty chunk |
| C32 | read_kv etc. with UB outcome | never UB for read_kv and doc info; `_refuted` for short sequence keys |
| C33 | index values | round trip |
| C34 | save with failing writes | state relation: roots unchanged, store only extended |
| C35 | merge_sort | permutation + sortedness; bulk load |
| C36 | flags | bit-level lemmas |
| C37 | os.cc write counter | invariant |
| C38, C39, C43 | view codecs | round trips |
| C40 | bitmap | set refinement |
| C41 | sorted_list | set refinement |
| C42 | purge | expected partly false (partial purge with nothing changed): investigate, `_refuted` and `_partial` |
| C44 | crc32.cc | table equals bitwise polynomial division |
| C45 | fatbuf | arithmetic invariant |
| C46 | metadata header | round trip and in-bounds parsing |
| C47 | replay | refinement on top of C06/C16 |
| C48 | db_write_header by version | case analysis |

## 3. Trusted base

* Coq's kernel (and `vm_compute`).
* Axioms: none of our own. What `Print Assumptions` lists is recorded below per theorem family (goal: "Closed under the global context" everywhere).
* The reading of the C++ text: the model is tied to the code only by the citations.
* Section parameters named above (compression, checksum, cipher) as hypotheses of theorems.

### Modelled

| module | models |
|---|---|
| `Base`, `Codec` | byte lists, `bitfield.h`, `node_types.cc` entries, pointers and roots, id and sequence keys, document-information values |
| `File` | `util.cc` alignment, `couch_file_write.cc`, `couch_file_read.cc`, `crc32.cc` checks, `os.cc` pread/pwrite/sync with failures, short writes and crashes |
| `Header` | `couch_db.cc`: header encoding and parsing, header scan, commit, metadata header, opening and creating, rewind, fast-forward, seek, header search |
| `History` | executions: creation, chunk writes, header changes, commits (also failing), crash and reopening |
| `Btree` | `btree_modify.cc`, `reduces.cc`: leaf and pointer node building, splitting, modification, new root, index totals |
| `TreeStore`, `BtreeRead` | reading of nodes and `btree_read.cc`: lookup (single keys, several keys, ranges) and folding |
| `Db` | `couch_save.cc` (documents and local documents), `couch_db.cc`: document lookup, enumerations, counts, information |
| `Crc` | `crc32.cc`: table and `hash_crc32` |
| `Alloc` | `util.cc` fatbuf, `arena.cc` |
| `Bitmap`, `SortedList` | `views/bitmap.cc`, `views/sorted_list.cc` |
| `Flags`, `PSync` | `couch_db.cc` decoding of open flags and encoding of the sync interval; the automatic sync of `os.cc` |
| `MergeSort`, `TreeWriter` | `merge_sort.h`, `tree_writer.cc`: sorting records and writing an index from them |
| `Compact` | `db_compact.cc`: copying documents (filter and rewrite hooks, dropping deletes, recovery), local documents, header, commit |
| `Replay` | `db_compact.cc`, `couch_cxx_util.cc`: replaying documents and local documents of a source in batches, the hooks, the commit |
| `EnvExample` | a concrete checksum, compression and cipher used only by examples and refutations |
| `SpecOrder`, `SpecFile`, `SpecCrash` | specification vocabulary of the file level |
| `SpecMap`, `SpecDb`, `SpecSession` | specification vocabulary: updating a map, contents of a database, sessions and what a handle shows |
| `SpecCompact` | what compaction is to keep: policies and hooks that follow them |
| `SpecReplay` | what replaying is to do to the contents of the target |
| `IoBuffer` | src/iobuffer.cc: the write buffer, the list of read buffers, invalidation, flushing, all operations of BufferedFileOps; raw calls that are short or fail |
| `SpecIo` | direct access to a file, and the calls that do not give up written bytes |
| `ViewCodec` | src/views/keys.cc, values.cc, reductions.cc: all encoders and decoders |
| `IndexHeader` | src/views/index_header.cc: encode_index_header, decode_index_header |
| `SpecView` | what fits into the view records |
| `Reducers`, `Cleanup` | `src/views/reducers.cc` (view and id reductions; the built-in reducers), `src/views/purgers.cc`, `src/views/util.cc` (key order; the collation of JSON keys is a parameter), `src/views/view_group.cc` cleanup of a group |
| `SpecNode` | the size of nodes and the indexes made by any sequence of operations of the index writer |
| `FileMerger`, `Quicksort`, `FileSorter`, `ViewFiles` | `src/file_merger.cc`, `src/quicksort.c`, `src/file_sorter.cc`, `src/views/file_merger.cc`, `src/views/file_sorter.cc` and the records of `src/views/util.cc` |
| `SpecSorter` | the format of record files, orders of records, the newest record of a key |
| `Collate`, `SpecJson` | `src/views/collate_json.cc`: the comparison of JSON keys in its three modes, with strtod and the comparison of ICU as parameters |
| `ViewGroup` | `src/views/view_group.cc`: the initial build, the incremental update and the compaction of a view group, without spatial views; `src/views/compaction.cc` |
| `SpecGroup` | what an update may leave in an index, records with different keys, files prepared by the sorter |
| `Walk` | `couchstore_walk_id_tree`, `couchstore_walk_seq_tree`, `couchstore_walk_local_tree`, `walk_node_callback`, `local_read_docinfo` (src/couch_db.cc:1225-1236, 1597-1722) |
| `SpecWalk` | the shape of an index, the calls of a walk, totals |
| `BuiltinReducers` | `src/views/reducers.cc`: `_sum`, `_stats`, choice of the reduce functions (the type double and the C library functions for it are parameters) |
| `SpecReduce`, `DoubleExample` | results of reduce functions, decimal notation, what is assumed of doubles; an instance for the examples |
| `Spatial` | `src/views/spatial.cc`: keys, boxes, interleaving, comparisons; `src/views/spatial_modify.cc`; building and compacting spatial views in `src/views/view_group.cc` (the comparison of doubles and the scaled centre are parameters) |
| `SpecSpatial` | boxes, spatial indexes, searches, interleaved numbers |
| `Stream` | `src/stream.cc`: FileOpsStream, ChunkedStream, ChecksumStream, EncryptedStream (the cipher is a parameter; FileStream, which only tests use, is left out); records and names of temporary files in `src/tree_writer.cc` |
| `SpecStream` | files of chunks, the calls of a stream and those of a plain sequence of bytes |
| `OsFile` | `src/os.cc`: open, close, pread, pwrite with validation, sync, advice, over the answers of the operating system (errors, signals, short and lost transfers, other threads opening files) |
| `SpecOs` | answers without signals, answers that are kept, bytes stored at a position |
| `Check` | `src/check.cc` |
| `SpecRecover` | what it means that a file is damaged and that a document can still be read (for compaction in recovery mode and tolerant enumeration); what such an enumeration is to deliver |
| `Dbck` | src/dbck.cc: the hooks, the walk through older headers and `recover_file`; simplified: the hook's counting is a scan of its own, printing and option parsing are left out |
| `SpecDbck` | adding the documents of older versions that are missing; the headers that rewinding leads to |
| `Compactor` | src/compactor.cc: the purge hook with its context, the compaction with it, and the choice made by the options; option parsing and printing are left out |
| `SpecCompactor` | old deletions and the highest sequence number |
| `Dbinfo` | src/dbinfo.cc (couch_dbinfo), openDatabase of src/couch_cxx_util.cc |
| `Dbdump` | src/dbdump.cc (couch_dbdump): listing documents by sequence number, by id, by key; going through headers |
| `DbdumpLocal` | src/dbdump.cc (couch_dbdump --local): listing local documents, with and without --json and --key |
| `DbdumpJson` | src/dbdump.cc (couch_dbdump --json): what becomes of each document |
| `DbdumpTree` | src/dbdump.cc (couch_dbdump --tree): the nodes and documents of the three indexes |
| `DbdumpIterate` | src/dbdump.cc (couch_dbdump --iterate-headers) with --tree and --local |
| `SpecCrc`, `SpecUtil` | CRC-32 as division of polynomials; specification vocabulary of the small components |
| `SessionExample` | a concrete session for the examples |
| `*Facts`, `ReachNav`, `DbSave`, `DbRead` | proofs |
| `Properties*` | the theorems |

### Not modelled
Memory allocation failure, threads and concurrent handles, tracing/latency collection, the operating system below the crash model and the answers of its calls in `OsFile`,
JavaScript map/reduce execution, command line tools other than `couch_check`, `couch_dbck`, `couch_compact`, `couch_dbinfo` and the listing of documents and local documents and the drawing of indexes of `couch_dbdump`, Windows code.

## 4. Status

Every theorem named below is followed by `Print Assumptions` in its file; the answer is "Closed under the global context" for
all of them (no axioms, neither own nor from the standard library).

| property | status | theorems | remark |
|---|---|---|---|
| C01 | proved | `C01_crash`, `C01_no_pending`, `C01_pending`, `C01_documents` | Every execution of creation, chunk writes, commits, failed commits and reopening, with any write failure, short write and crash point; disk versions 11 to 14, plain and encrypted files. C01_documents: the reopened handle shows the documents of the acknowledged (or pending) commit. |
| C02 | proved | `C02_commit_open` |  |
| C03 | proved | `C03_newest`, `C03_no_forgery` |  |
| C04 | partial | `C04_read_back`, `C04_compressed`, `C04_short_writes`, `C04_short_reads`, `C04_read_data`, `C04_big_refuted` | Proved for chunks up to 2 GiB on disk, plain, compressed and encrypted. Refuted for a body of exactly 2 GiB: the size limit is not checked. |
| C05 | proved | `C05_snapshot` | Every header of a commit in effect, and the current state, under any further writes, failures included. Format limits: ids below 4096 bytes, values below 2^28 bytes, sequence numbers below 2^48, files below 2^47 bytes, distinct ids (and, when given by the caller, unused sequence numbers) in a batch. |
| C06 | proved | `C06_contents`, `C06_saved` | Every session: creation, saves, local saves, commits, failures, crashes and reopening in any order. Format limits: ids below 4096 bytes, values below 2^28 bytes, sequence numbers below 2^48, files below 2^47 bytes, distinct ids (and, when given by the caller, unused sequence numbers) in a batch. |
| C07 | proved | `C07_same` | Format limits: ids below 4096 bytes, values below 2^28 bytes, sequence numbers below 2^48, files below 2^47 bytes, distinct ids (and, when given by the caller, unused sequence numbers) in a batch. Beyond them see C17_refuted and C12_clash_refuted. |
| C08 | proved | `C08_changes` | For enumeration without the tolerate-corruption option. Format limits: ids below 4096 bytes, values below 2^28 bytes, sequence numbers below 2^48, files below 2^47 bytes, distinct ids (and, when given by the caller, unused sequence numbers) in a batch. |
| C09 | proved | `C09_all_docs` | For enumeration without the tolerate-corruption option. Format limits: ids below 4096 bytes, values below 2^28 bytes, sequence numbers below 2^48, files below 2^47 bytes, distinct ids (and, when given by the caller, unused sequence numbers) in a batch. |
| C10 | proved | `C10_ids`, `C10_sequences` | For non-empty key lists (an empty one is refused). Format limits: ids below 4096 bytes, values below 2^28 bytes, sequence numbers below 2^48, files below 2^47 bytes, distinct ids (and, when given by the caller, unused sequence numbers) in a batch. |
| C11 | proved | `C11_ids`, `C11_sequences` | Format limits: ids below 4096 bytes, values below 2^28 bytes, sequence numbers below 2^48, files below 2^47 bytes, distinct ids (and, when given by the caller, unused sequence numbers) in a batch. |
| C12 | proved | `C12_consecutive`, `C12_given`, `C12_monotone`, `C12_clash_refuted` | C12_clash_refuted shows what the condition on given sequence numbers excludes: a given number equal to that of another document leaves the indexes inconsistent. Format limits: ids below 4096 bytes, values below 2^28 bytes, sequence numbers below 2^48, files below 2^47 bytes, distinct ids (and, when given by the caller, unused sequence numbers) in a batch. |
| C13 | proved | `C13_counts` | Fewer than 2^40 documents (field width). Format limits: ids below 4096 bytes, values below 2^28 bytes, sequence numbers below 2^48, files below 2^47 bytes, distinct ids (and, when given by the caller, unused sequence numbers) in a batch. |
| C14 | proved | `C14_space` | Format limits: ids below 4096 bytes, values below 2^28 bytes, sequence numbers below 2^48, files below 2^47 bytes, distinct ids (and, when given by the caller, unused sequence numbers) in a batch. |
| C15 | proved | `C15_count` | Format limits: ids below 4096 bytes, values below 2^28 bytes, sequence numbers below 2^48, files below 2^47 bytes, distinct ids (and, when given by the caller, unused sequence numbers) in a batch. |
| C16 | proved | `C16_local`, `C16_batch`, `C16_documents`, `C16_absent` | Format limits: ids below 4096 bytes, values below 2^28 bytes, sequence numbers below 2^48, files below 2^47 bytes, distinct ids (and, when given by the caller, unused sequence numbers) in a batch. |
| C17 | partial | `C17_refuted` | Refuted: a batch with the same id twice leaves two entries for it in both indexes, and the lookup shows the first. |
| C18 | proved | `C18_calls` | Format limits: ids below 4096 bytes, values below 2^28 bytes, sequence numbers below 2^48, files below 2^47 bytes, distinct ids (and, when given by the caller, unused sequence numbers) in a batch. |
| C19 | proved | `C19_contents`, `C19_counts`, `C19_errors`, `C19_space_refuted` | Also that the new file survives a crash, and that compaction fails only with input/output errors of the target. C19_space_refuted shows what the condition on encryption excludes: the stored sizes are copied although encryption changes the space taken. The snapshot compacted is any commit in effect or the current state of a session; recovery mode off; source and target both encrypted or both not; the purge pointer is empty (no database of the model has one). Format limits: ids below 4096 bytes, values below 2^28 bytes, sequence numbers below 2^48, files below 2^47 bytes, distinct ids (and, when given by the caller, unused sequence numbers) in a batch. |
| C20 | proved | `C20_filter`, `C20_drop`, `C20_need_body_refuted` | The hooks decide as a policy on revisions. C20_need_body_refuted: a filter that asks for the body of a document without one makes the compaction fail. The snapshot compacted is any commit in effect or the current state of a session; recovery mode off; source and target both encrypted or both not; the purge pointer is empty (no database of the model has one). Format limits: ids below 4096 bytes, values below 2^28 bytes, sequence numbers below 2^48, files below 2^47 bytes, distinct ids (and, when given by the caller, unused sequence numbers) in a batch. |
| C21 | partial | `C21_rewind`, `C21_end`, `C21_handles`, `C21_documents`, `C21_failed_refuted` | Proved for all executions with disk version 14, and for older versions when no commit has failed. Refuted for older versions after a commit that failed at its last sync. |
| C22 | partial | `C22_offset`, `C22_forward_any`, `C22_stay`, `C22_neighbours`, `C22_end_partial`, `C22_end_refuted` | Offset and forward seeks on every file; neighbours for every execution without failed commits. Refuted: seeking to the end of a file of less than one block and two bytes. |
| C23 | partial | `C23_search_partial`, `C23_dense`, `C23_refuted`, `C23_beyond_refuted` | The found header contains the sequence number, and is the first one if every block has a header. Refuted for unevenly spaced headers. |
| C24 | partial | `C24_handle`, `C24_previous`, `C24_retry`, `C24_lossy_refuted` | Proved when a failed sync leaves the written data to be synced again. Refuted when a failed sync drops it (as some systems do): the retry in the commit callback and a later commit then acknowledge data that is not on the medium. |
| C25 | partial | `C25_direct_partial`, `C25_close`, `C25_commit`, `C25_free_refuted`, `C25_eof_refuted` | Proved for sequences in which the buffers are not given up, and the end of the file is not asked for, while written bytes are in the buffer: for those cases the statement is refuted (C25_free_refuted, C25_eof_refuted). C25_commit treats the only caller that gives up the buffers: at most the block-type byte of a commit whose last sync failed is lost. System errors, short reads and writes and appends by other handles included; positive buffer sizes (otherwise the behaviour is undefined). |
| C26 | proved | `C26_shape`, `C26_errors` | Every session; node sizes of 2 and more (the API only accepts multiples of 1024 and the default 1279). Format limits: ids below 4096 bytes, values below 2^28 bytes, sequence numbers below 2^48, files below 2^47 bytes, distinct ids (and, when given by the caller, unused sequence numbers) in a batch. |
| C27 | proved | `C27_round`, `C27_terminates` | Any request: node sizes, mode, reduce functions; any pointers. |
| C28 | partial | `C28_entries_partial`, `C28_node_partial`, `C28_entries_refuted` | Proved for keys below 4096 bytes and values below 2^28 bytes. Refuted beyond: the length limits are not checked when an entry is written. |
| C29 | proved | `C29_id_order`, `C29_id_total`, `C29_seq_order` |  |
| C30 | proved | `C30_body`, `C30_header`, `C30_encrypted`, `C30_node`, `C30_errors` |  |
| C31 | partial | `C31_roots`, `C31_safe_partial`, `C31_scan_partial`, `C31_refuted` | Refuted for a header chunk with an empty body; proved otherwise. |
| C32 | partial | `C32_parse_partial`, `C32_seq_key_refuted` | All entry, pointer, root and document-information parsers stay inside their buffers. Refuted for sequence keys shorter than six bytes, which the comparator reads beyond their end. |
| C33 | proved | `C33_docinfo`, `C33_injective` | Within the field widths of the format. |
| C34 | proved | `C34_save`, `C34_local`, `C34_local_one` | Any write failure or short write. Format limits: ids below 4096 bytes, values below 2^28 bytes, sequence numbers below 2^48, files below 2^47 bytes, distinct ids (and, when given by the caller, unused sequence numbers) in a batch. |
| C35 | proved | `C35_sorted`, `C35_records`, `C35_index` | Fewer than 2^63 records; keys below 4 KiB and values below 256 MiB in the index; the temporary files do not fail. |
| C36 | partial | `C36_decode`, `C36_encode_partial`, `C36_encode_whole`, `C36_rounded_down_refuted`, `C36_defined_refuted` | Decoding is proved. Encoding is proved for whole kilobytes; refuted in between: 1025 bytes give 2 KiB, not 1 KiB, and 0 is undefined behaviour. |
| C37 | partial | `C37_bound_partial`, `C37_failed_sync_refuted` | Proved where no automatic sync fails. Refuted otherwise: a failed sync restarts the count. |
| C38 | partial | `C38_keys`, `C38_values`, `C38_peek`, `C38_id_values_partial`, `C38_empty_refuted` | Keys and values both ways, for all buffers. The id-index value of a document without any emitted key is decoded without setting its number of views (C38_empty_refuted); for all others it is proved. |
| C39 | proved | `C39_reduction`, `C39_id_reduction`, `C39_again`, `C39_wrap_refuted` | C39_wrap_refuted is about bytes that the encoder does not write: the number of values wraps at 256. |
| C40 | proved | `C40_order`, `C40_set`, `C40_unset`, `C40_union`, `C40_intersect`, `C40_equal`, `C40_empty` | All bitmaps of 128 bytes, partitions 0 to 1023. |
| C41 | proved | `C41_ascending`, `C41_get`, `C41_add`, `C41_remove`, `C41_new` | Allocation is assumed to succeed. |
| C42 | partial | `C42_id_exact_partial`, `C42_view_exact_partial`, `C42_id_always_partial`, `C42_view_always_partial`, `C42_group_always_partial`, `C42_id_refuted`, `C42_view_refuted` | The full statement is refuted (C42_id_refuted, C42_view_refuted): when removing entries makes the parent of the leaves larger than its limit (long keys become the last keys of their leaves), it is split and everything but the last part is lost. Proved for every index made by builds, updates and cleanups, of any shape: no entry of the partitions is left, nothing is added, changed or reordered, and whatever else is missing is missing at the front (always_partial, also for whole groups in their files); nothing else is missing when no node can exceed its limit (exact_partial). The collation of JSON keys is any total order. |
| C43 | proved | `C43_roundtrip`, `C43_decoded`, `C43_damaged_refuted` | For every header whose lists were made by the sorted-list operations; everything that is decoded is such a header. Compression of external kind, with the law that uncompressing gives back the bytes. C43_damaged_refuted is about damaged bytes: they are read behind the end. |
| C44 | proved | `C44_client`, `C44_crc`, `C44_unique`, `C44_modes` | CRC-32C comes from a library outside the repository and is a parameter. |
| C45 | proved | `C45_disjoint`, `C45_refused` | The allocation of the block is assumed to succeed. |
| C46 | partial | `C46_parse`, `C46_stored`, `C46_cut`, `C46_context_refuted`, `C46_legacy_refuted` | Refuted for an encrypted file created with the legacy checksum flag, whose version 11 header does not record the metadata header; and for contexts above 255 bytes. |
| C47 | partial | `C47_replay`, `C47_reads`, `C47_same_partial`, `C47_compaction_partial`, `C47_local_refuted`, `C47_given_refuted` | C47_replay and C47_reads say for every replay which contents the target then has. The full statement, equality with the source, is proved for changes that save documents under new sequence numbers and do not delete local documents, and refuted for the rest: local documents deleted in the source stay in the target, and documents saved under a given lower sequence number are missed. Format limits: ids below 4096 bytes, values below 2^28 bytes, sequence numbers below 2^48, files below 2^47 bytes, distinct ids (and, when given by the caller, unused sequence numbers) in a batch. |
| C48 | proved | `C48_version`, `C48_defaults`, `C48_new`, `C48_sessions`, `C48_compact` | Saves, commits and opening keep the version; compaction keeps version 11 without the upgrade flag, and otherwise gives 14 - also for versions 12 and 13, which are upgraded without being asked. |
| C49 | partial | `C49_ranges_refuted` | Refuted: after the first range the lookup stops at that level of the index; single ranges are C11. |
| C50 | partial | `C50_disjoint`, `C50_free`, `C50_aligned_refuted` | Disjointness, place and release are proved (malloc succeeds and returns separate memory). Alignment is refuted: after an odd-sized block, an aligned block in a new chunk is misaligned. |
| C51 | partial | `C51_recent_refuted` | Refuted: a recycled read buffer stays last in the list, so that it is the next one to be recycled; the other buffers keep older blocks. The model takes the call list::splice(it.base(), list, it) on the last element to be without effect, as in the implementation of boost::intrusive::list. |
| C52 | proved | `C52_report`, `C52_mark` | For every group made by builds, updates (also purging ones) and cleanups; fewer than 2^40 rows per index. The count is of the rows of the partitions; rows lost by the split of C42 are not counted. Cleanups that end with an error and those stopped early are not covered. |
| C53 | proved | `C53_strict`, `C53_refuses`, `C53_recovery` | For every content of the file. With recovery: a header block of unknown version whose checksum is right still stops the search (it has to fail the check of length or checksum to be passed over); metadata-header files are left out of C53_recovery. |
| C54 | proved | `C54_size` | At the level of the index writer (modify_btree, guided_purge_btree, bulk building), with arbitrary callbacks; reductions shorter than 2^16 bytes, file smaller than 2^48 bytes. Only successful operations make a new index; the database and view operations use this writer with fixed node sizes. |
| C55 | partial | `C55_merge`, `C55_truncated_refuted`, `C55_duplicates_refuted` | C55_merge for every number of files and every total preorder of the keys, with strictly ordered source files of representable records. Refuted: a source file that ends within the four bytes of the length of a record is taken as complete; equal keys within one source file are both kept. Opening files, allocation and writing of the result are assumed to succeed. |
| C56 | proved | `C56_quicksort` | For every total preorder; accesses outside of the array and the end of every loop are part of the model. |
| C57 | partial | `C57_sort_partial`, `C57_sort_file_partial`, `C57_lost_refuted`, `C57_hang_refuted`, `C57_names_refuted` | Sorted permutation for every file, buffer size up to 2 GiB and number of temporary files, when every run is written and less than 100000 temporary names are used. Refuted: an error of writing the last runs is not reported and their records are lost; after an error of an earlier run the sort waits for ever; after 100000 temporary files of a process every sort fails. The interleaving of the two threads is not modelled: each run is taken as written when it is handed over. |
| C58 | partial | `C58_order_partial`, `C58_preorder`, `C58_collate_preorder_partial`, `C58_total_partial`, `C58_unicode_refuted`, `C58_formfeed_refuted`, `C58_binary_refuted` | Proved for every two valid texts whose strings have no \f and no \u escape from 128 on, and in the modes without ICU only characters below 128. strtod and the comparison of ICU are parameters: strtod reads the whole number, both orders are total preorders. Refuted: of \u escapes from 128 on only the low eight bits are used, so that different keys compare as equal; \f is compared as the letter f; the binary mode puts bytes from 128 on first where char is signed. |
| C59 | proved | `C59_compact` | For every group made by builds, updates and cleanups and every map/reduce view; files smaller than 2^48 bytes. Compactions that end with an error and spatial views are left out. |
| C60 | partial | `C60_build`, `C60_sorter_partial`, `C60_errors_refuted` | C60_build for every set of records that the sorter passes in order; C60_sorter_partial (with C57) that it does so for every file with different keys when every run is written. Refuted: errors of the sorter are returned with their own numbers, which mean other errors for the caller (C60_errors_refuted). Records with equal keys are left out. |
| C61 | partial | `C61_update`, `C61_rows`, `C61_sorter_partial`, `C61_batches_refuted` | C61_update for every batch size: rows, mask and statistics; the number of cleaned rows is exact if no record concerns a partition of the mask. Refuted: the independence of the size of batches (C61_batches_refuted): a row set for a partition of the mask is removed by the next batch, and counted. An index without records is not cleaned up at all (up_none). Records with equal keys, failing updates and spatial views are left out. |
| C62 | partial | `C62_ids`, `C62_sequences`, `C62_locals`, `C62_documents`, `C62_cancel_refuted`, `C62_depth_refuted` | Proved for every session without COUCHSTORE_TOLERATE_CORRUPTION; a start sequence number counts modulo 2^48. Refuted with that option: a negative result does not end the walk (C62_cancel_refuted), and after a failed call for an inner node the depths are too large and the error is lost (C62_depth_refuted). |
| C63 | partial | `C63_reduction`, `C63_count`, `C63_sum_partial`, `C63_stats_partial`, `C63_numbers`, `C63_names`, `C63_digits_refuted`, `C63_sum_refuted`, `C63_long_refuted`, `C63_empty_refuted` | C63_reduction for every view, every reduce function and every tree; _count exact modulo 2^64. _sum and _stats: exact for integers whose magnitudes add up to less than 10^15, and whose squares add up to less than 10^6 (C63_sum_partial, C63_stats_partial; missing: fractions, where the result depends on rounding). The type double and printf, strtod and sscanf are parameters with the usual properties for integers. Refuted: _stats prints six digits, so its results depend on the shape of the tree (C63_digits_refuted); _sum prints fifteen (C63_sum_refuted); numbers with more than 31 characters are rejected (C63_long_refuted); a node without values counts as a zero in the smallest and largest number (C63_empty_refuted). |
| C64 | partial | `C64_build`, `C64_compact`, `C64_search`, `C64_code`, `C64_order`, `C64_merger`, `C64_lost_refuted`, `C64_interleave_refuted` | Proved: index, boxes, search and compaction for all rows if no write fails and compression works (C64_build, C64_compact, C64_search); the codes and the order for fewer than 2048 coordinates (C64_code, C64_order). Refuted: that a failing write is reported - the error of the flush at spatial_modify.cc:319 is dropped and rows are missing (C64_lost_refuted); that all numbers of coordinates admitted by the assertion work (C64_interleave_refuted). The computation of the scaled centre (arithmetic of doubles) is a parameter. |
| C65 | partial | `C65_stream`, `C65_verified`, `C65_cut`, `C65_nonces`, `C65_refines`, `C65_records`, `C65_names`, `C65_truncated_refuted`, `C65_retry_refuted`, `C65_flush_refuted`, `C65_swapped_refuted`, `C65_write_again_refuted` | Proved: every sequence of calls in which writes and flushes are made at the end gives the results of a plain sequence of bytes (C65_stream); reads from any file return bytes of checked chunks only, up to the first failure (C65_verified); a file cut within the bytes of a chunk gives an error there (C65_cut); each sealed chunk has its own nonce (C65_nonces); records come back, and reading them is reading them from the bytes as C35 assumes (C65_records, C65_refines); names do not repeat (C65_names). Refuted: a file cut within a chunk header reads as complete (C65_truncated_refuted); after a failed check the next read returns the unchecked bytes or leaves the chunk (C65_retry_refuted); a flush between reads skips data (C65_flush_refuted); sealed chunks can be reordered (C65_swapped_refuted); a repeated flush after a failed one leaves an unreadable file (C65_write_again_refuted). The cipher is a parameter. |
| C66 | partial | `C66_distinct`, `C66_crash_refuted`, `C66_retry_refuted` | Proved: in every reachable state the chunks that stand in the file have different nonces (C66_distinct); without failures and crashes these are all chunks ever written through the handle. Refuted over time: the nonce is the position in the file, so a chunk lost in a crash (C66_crash_refuted) or whose write failed in its middle (C66_retry_refuted) leaves its nonce to the next, different chunk under the same key. |
| C67 | partial | `C67_interrupts`, `C67_read`, `C67_write`, `C67_periodic`, `C67_validated`, `C67_refines`, `C67_open`, `C67_close`, `C67_beyond_refuted`, `C67_read_back_refuted`, `C67_close_refuted`, `C67_close_error_refuted`, `C67_low_refuted`, `C67_advise_refuted` | Proved: signals do not show in reads and writes (C67_interrupts), what results say (C67_read, C67_write), no more than the period of bytes is written without a sync (C67_periodic), validation of writes of up to 8192 bytes that are read back in full (C67_validated, up to equal checksums), opening, and closing without interruption (C67_open, C67_close); C67_refines: they are the operations the models of buffers and streams are built on. Refuted: bytes after the first 8192 are not validated (C67_beyond_refuted); reading back mistakes errors and the end of the file for progress (C67_read_back_refuted); an interrupted close closes a descriptor of another thread or reports an error for a closed file (C67_close_refuted, C67_close_error_refuted); low descriptors abort (C67_low_refuted); the number saved for a failed advice is another one (C67_advise_refuted). |
| C68 | partial | `C68_readable`, `C68_sessions`, `C68_counts_refuted`, `C68_open_refuted` | Proved: what success means for any file (C68_readable); on files written by the library the program succeeds exactly if every compressed body decompresses and every undeleted document has a body to read (C68_sessions). Refuted: the comparison of the numbers of documents never sees a difference, as neither counter is incremented (C68_counts_refuted); a file that cannot be opened leads to a null pointer (C68_open_refuted). |
| C69 | partial | `C69_recovers`, `C69_locals_refuted`, `C69_write_refuted`, `C69_body_refuted` | Proved for unencrypted databases whose local documents can be read, with compression that works and writes to the new file that succeed (C69_recovers): the new file shows exactly the documents that can be read, also after a crash; success means that nothing to be kept is missing, and is reported if everything can be read. Refuted: a damaged node of the index of local documents makes the recovery fail with all documents lost (C69_locals_refuted); a failing write of the root of the index by sequence numbers leaves a committed file without that index, in which a lookup by sequence number follows a null pointer (C69_write_refuted); a failing write of a body loses a readable document from a committed file (C69_body_refuted). |
| C70 | partial | `C70_changes`, `C70_all`, `C70_walk`, `C70_cancel_refuted`, `C70_walk_refuted` | Proved in full for the documents delivered and for the result of the enumerations (C70_changes, C70_all), and for the documents delivered by tolerant walks over the nodes (C70_walk). Refuted: the callback cannot end a tolerant enumeration, as its errors are treated like damaged nodes (C70_cancel_refuted); a walk succeeds though documents are lost, as the call after a child overwrites its error (C70_walk_refuted). |
| C71 | partial | `C71_recovers`, `C71_counts`, `C71_versions`, `C71_recovers_all`, `C71_null_refuted`, `C71_deleted_refuted`, `C71_count_refuted`, `C71_success_refuted` | Proved for unencrypted databases with readable local documents, working compression and writes to the new file that succeed (C71_recovers: exact contents with and without the option for stale commits, number of documents recovered, durability after every crash; C71_counts: the counters for every damaged file). Assumed in C71_recovers: each header found by rewinding is that of a commit, and no sequence number belongs to two ids. C71_versions proves the first for databases of the current format with undamaged headers whose oldest commit is the first of the file (rewinding visits exactly the older commits in order), and C71_recovers_all is the whole statement without it. Refuted: with damaged local documents a null pointer is followed (C71_null_refuted); a deletion whose record is lost is undone by an older version (C71_deleted_refuted); documents whose saving failed are counted as recovered, with success (C71_count_refuted); success is the result although everything was lost (C71_success_refuted). |
| C72 | partial | `C72_contents`, `C72_errors`, `C72_purge_refuted`, `C72_drop_refuted` | Proved: the documents of the output with any options, its purge sequence number, crashes (C72_contents), and the kinds of errors (C72_errors); input and output both encrypted or both not; the purge pointer is empty (no database of the model has one). Refuted: a run with --purge-before that finds nothing to remove sets the purge sequence number back to 0 although an earlier run had removed documents (C72_purge_refuted); with --purge-before the option --dropdeletes drops nothing (C72_drop_refuted). |
| C73 | partial | `C73_ends`, `C73_backward`, `C73_forward`, `C73_counts`, `C73_no_header`, `C73_oldest_first_refuted`, `C73_damage_refuted` | Proved: on every file the listing ends, with falling or rising positions (C73_ends); backward prints all commits in effect (C73_backward), with the counts of their documents (C73_counts, files of version 14); forward from the offset of a commit prints it and all later ones, and without --iterate-headers the one asked for is printed (C73_forward; without failed commits). The rounding of sizes to units is not modelled. Refuted: --iterate-headers forward without an offset prints only the latest header (C73_oldest_first_refuted); at a damaged header the list ends and the program reports success although an older valid header follows (C73_damage_refuted). |
| C74 | partial | `C74_dump`, `C74_file`, `C74_key`, `C74_commits`, `C74_damaged`, `C74_no_header`, `C74_encrypted_refuted`, `C74_iterate_refuted` | Proved: all documents of a snapshot are listed once, in order, with their bodies (C74_dump), also on the file as a crash left it (C74_file); --key (C74_key); --iterate-headers lists all older commits in effect (C74_commits, version 14); in a damaged file exactly what is still found is listed, and success means that nothing is missing (C74_damaged, without --iterate-headers). Listing of documents without --json and without --tree; the text, and the snappy and xattr decoding of bodies, are not modelled. Refuted: on an encrypted database --iterate-headers lists everything and then reports a failure (C74_encrypted_refuted; C74_commits says exactly when); with --iterate-headers the error of a pass is overwritten by the outcome of the seek, so success is reported although documents are missing (C74_iterate_refuted). |
| C75 | proved | `C75_locals`, `C75_all`, `C75_key`, `C75_missing`, `C75_file`, `C75_file_key`, `C75_no_header` | The decoding of local documents (maybe_decode_local_doc, not in this repository) and the JSON parser are parameters: the theorems hold for all of them. The text that is printed is not modelled. --iterate-headers and --tree are not part of the claim; with --iterate-headers the outcome of a pass is overwritten as in C74. |
| C76 | partial | `C76_json`, `C76_all`, `C76_key`, `C76_damaged`, `C76_file`, `C76_no_header`, `C76_inflate_refuted`, `C76_abort_refuted` | Proved: exactly which documents are printed and with what (C76_json); all of them if all can be inflated and are well formed, or with --no-body (C76_all); --key (C76_key); damaged files (C76_damaged); files after a crash (C76_file) and without headers (C76_no_header). The decompressor, the attribute decoder and the JSON parser are not in this repository: they are parameters and the theorems hold for all of them. Formatting is not modelled. Refuted: a document that cannot be inflated is left out and success is reported (C76_inflate_refuted: the function returns before it prints); a document marked as JSON that is not JSON ends the program by an exception that nothing catches, and the documents after it are not listed (C76_abort_refuted). |
| C77 | partial | `C77_tree`, `C77_known`, `C77_file`, `C77_damaged`, `C77_root`, `C77_no_header`, `C77_damaged_refuted` | Proved: the drawing of all three indexes, complete and with sizes and totals (C77_tree), also after a crash (C77_file); no document with a body, and no deleted one, is marked as corrupt (C77_known); in a damaged file exactly the documents still found are drawn (C77_damaged, by id and by sequence number); a root that cannot be read, and a file without headers, are reported (C77_root, C77_no_header). Without --iterate-headers; formatting is not modelled. Refuted: the program reports success although documents of a damaged file are missing, as the call after a child overwrites its error (C77_damaged_refuted). |
| C78 | partial | `C78_tree`, `C78_locals`, `C78_iterate_refuted` | Proved for files of version 14: every commit in effect from the one given on is drawn in full (C78_tree) or its local documents are listed (C78_locals), and which result is reported. --json is left out for documents (C76). Refuted: the result of a pass is overwritten by that of the seek, so that success is reported although the newest index could not be drawn (C78_iterate_refuted); and when the oldest header is not at the beginning of the file, as in encrypted databases, a failure is reported although everything was shown (both theorems say when). |
