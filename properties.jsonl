{"id": "C01", "title": "A crash never loses an acknowledged commit", "statement": "If the process or machine stops at any moment while documents are being written or a commit is in progress, then opening the file again succeeds and shows exactly the state of the last acknowledged commit; the only other permitted outcome is the complete state of the one commit that had been started and not yet acknowledged. No mixture of two states, and no open error, is possible.", "quantifier": "for every earlier file contents, every sequence of appends and commits, every crash point, and every way the storage can have kept or dropped each byte written since the last sync (any subset, any file length between the synced and the current one)", "why_tests_cant": "The number of crash points times subsets of unsynced bytes is astronomically large and the outcome depends on the storage, so a test can only try a few orders.", "anchors": ["src/couch_db.cc: couchstore_commit_ex, write_disk_block_type, find_header, find_header_at_pos", "src/couch_file_write.cc: write_header, raw_write, db_write_buf"]}
{"id": "C02", "title": "What was committed is what is opened", "statement": "After a successful commit, opening the file yields the same update sequence, purge sequence, timestamp, disk version, previous-header link and the same three index roots that the committing handle had.", "quantifier": "for every handle state whose numbers fit their on-disk widths, every supported disk version and every file length", "why_tests_cant": "The header mixes seven bit widths, three layouts and variable-size roots at any file offset; example tests fix a handful of values.", "anchors": ["src/couch_db.cc: db_write_header_impl, calculate_header_size, find_header_at_pos, raw_header_to_internal_header, read_db_root", "src/node_types.cc: encode_root, read_root"]}
{"id": "C03", "title": "Opening finds the newest header and document contents cannot forge one", "statement": "Opening a file selects the valid header with the highest position. No document body, key or index node that a user can store creates a position that the scan mistakes for a header.", "quantifier": "for every file built by any sequence of appends and commits, whatever bytes the documents contain", "why_tests_cant": "The bytes are chosen by users; a test cannot try every body at every alignment.", "anchors": ["src/couch_db.cc: find_header, find_header_at_pos", "src/couch_file_write.cc: raw_write"]}
{"id": "C04", "title": "Stored bytes are read back unchanged at every offset", "statement": "A body or index node written to the file is read back byte for byte from the position that was returned by the write, whatever the file length was before and whatever is appended after.", "quantifier": "for every byte string below the chunk size limit, every starting offset, every pattern of short writes by the operating system, and every later sequence of appends", "why_tests_cant": "Block prefixes are interleaved in the stored bytes, so the result depends on offset modulo the block size and on length; exhaustive testing of pairs is infeasible.", "anchors": ["src/couch_file_write.cc: db_write_buf, raw_write, write_entire_buffer", "src/couch_file_read.cc: read_skipping_prefixes, pread_bin_internal"]}
{"id": "C05", "title": "A snapshot never changes under a reader", "statement": "Whatever a handle could read at a given header (documents, ranges, counts, local documents) stays exactly the same after any number of later saves and commits made to the file.", "quantifier": "for every snapshot, every read request on it and every later history of writes, including writes that fail half way", "why_tests_cant": "It is a statement about all future histories.", "anchors": ["src/couch_file_write.cc: db_write_buf, write_header", "src/btree_read.cc: btree_lookup", "src/couch_db.cc: couchstore_commit_ex"]}
{"id": "C06", "title": "Saving documents behaves as updating a map", "statement": "After any history of save batches, looking up an id returns the most recently saved revision information for that id and its body, and returns not-found for an id never saved.", "quantifier": "for every history of batches with distinct ids within a batch, every id, every document and metadata content within the format limits, every node-size setting", "why_tests_cant": "The index is rewritten bottom-up with splitting at byte thresholds; the interesting shapes appear only with particular size sequences.", "anchors": ["src/couch_save.cc: couchstore_save_documents_and_callback, update_indexes", "src/btree_modify.cc: modify_btree, modify_node, flush_mr_partial, finish_root", "src/btree_read.cc: btree_lookup_inner"]}
{"id": "C07", "title": "The id index and the sequence index describe the same documents", "statement": "In every reachable state the two indexes contain exactly the same set of documents: each id occurs once in the id index and its current sequence number occurs once in the sequence index with the same revision data, and nothing else occurs in either.", "quantifier": "for every history of save batches (distinct ids per batch, fresh sequence numbers)", "why_tests_cant": "The second index is maintained by remove/insert pairs produced from callbacks in the first update; consistency is an invariant over all histories.", "anchors": ["src/couch_save.cc: update_indexes, idfetch_update_cb, seq_action_compare"]}
{"id": "C08", "title": "Changes are enumerated completely and in order", "statement": "Enumerating changes since a sequence number delivers every live or deleted document whose current sequence is at or after it, exactly once, in ascending sequence order, restricted by the deletes-only and no-deletes options.", "quantifier": "for every tree contents and shape, every start sequence below 2^48, every combination of the filter options", "why_tests_cant": "Tree shapes and start points are unbounded in number.", "anchors": ["src/couch_db.cc: couchstore_changes_since, lookup_callback", "src/btree_read.cc: btree_lookup_inner"]}
{"id": "C09", "title": "All documents are enumerated in id order from any start key", "statement": "Enumerating all documents from a start key delivers exactly the documents whose id is not below it, in ascending byte order.", "quantifier": "for every tree contents and shape and every start key, including the empty key and keys that are absent", "why_tests_cant": "Unbounded shapes and start keys.", "anchors": ["src/couch_db.cc: couchstore_all_docs", "src/btree_read.cc: btree_lookup_inner, lookup_compare"]}
{"id": "C10", "title": "A multi-key lookup reports exactly the requested keys that exist", "statement": "Looking up a set of ids (or sequence numbers) delivers each existing requested document once, in ascending order, and nothing else, whatever order the request was in.", "quantifier": "for every tree and every finite list of requested keys", "why_tests_cant": "Requested keys interleave arbitrarily with node boundaries.", "anchors": ["src/couch_db.cc: iterate_docinfos, couchstore_docinfos_by_id, couchstore_docinfos_by_sequence", "src/btree_read.cc: btree_lookup_inner"]}
{"id": "C11", "title": "A range lookup returns exactly the closed range", "statement": "Looking up with a start and an end key returns exactly the entries between them inclusive, in order, and nothing when start is above end.", "quantifier": "for every tree and every pair of keys", "why_tests_cant": "The end condition is tested in leaf nodes while the child selection is done in inner nodes; boundary placements are unbounded.", "anchors": ["src/btree_read.cc: btree_lookup_inner", "src/couch_db.cc: iterate_docinfos"]}
{"id": "C12", "title": "Sequence numbers are assigned consecutively and never go back", "statement": "Saving a batch gives the documents consecutive sequence numbers in the order they were submitted, starting just above the database's last sequence, and the last sequence never decreases; with the use-as-given option the database's last sequence becomes the maximum of the old one and the given ones.", "quantifier": "for every database state and batch", "why_tests_cant": "Statement about every batch and history.", "anchors": ["src/couch_save.cc: couchstore_save_documents_and_callback, add_doc_to_update_list"]}
{"id": "C13", "title": "Document counts are exact", "statement": "The live and deleted document counts reported for a database equal the real numbers of live and deleted documents, in every reachable state.", "quantifier": "for every history of saves, and every tree shape", "why_tests_cant": "The counts are stored as partial sums in every inner node and recomputed incrementally.", "anchors": ["src/reduces.cc: by_id_reduce, by_id_rereduce", "src/btree_modify.cc: flush_mr_partial", "src/couch_db.cc: couchstore_db_info"]}
{"id": "C14", "title": "Reported space usage is the sum over the live data", "statement": "The size totals kept with the indexes equal the sum of the stored sizes of the documents and of the index nodes reachable from the root (modulo the 48-bit field width).", "quantifier": "for every history of saves and every tree shape", "why_tests_cant": "Partial sums at every level, updated incrementally.", "anchors": ["src/reduces.cc: by_id_reduce, by_id_rereduce", "src/btree_modify.cc: flush_mr_partial", "src/couch_db.cc: couchstore_db_info"]}
{"id": "C15", "title": "Counting changes in a range is exact", "statement": "The number of changes reported between two sequence numbers equals the number of documents whose current sequence lies between them inclusive.", "quantifier": "for every tree contents and shape and every pair of bounds below 2^48", "why_tests_cant": "The count skips whole subtrees using stored sums; edges can fall anywhere.", "anchors": ["src/couch_db.cc: btree_eval_seq_reduce, couchstore_changes_count", "src/reduces.cc: by_seq_reduce, by_seq_rereduce"]}
{"id": "C16", "title": "Local documents behave as an independent map", "statement": "Saving or deleting local documents (singly or as a batch) acts as a map update on local documents; it does not affect ordinary documents or sequence numbers, and saving ordinary documents does not affect local documents. Deleting an absent local document changes nothing visible.", "quantifier": "for every history of operations", "why_tests_cant": "Statement over all histories.", "anchors": ["src/couch_db.cc: couchstore_save_local_document, cb::couchstore::saveLocalDocuments, couchstore_open_local_document", "src/btree_modify.cc: modify_btree"]}
{"id": "C17", "title": "A batch may contain the same id twice", "statement": "Saving a batch in which an id occurs more than once leaves exactly one current revision for that id in both indexes.", "quantifier": "for every batch", "why_tests_cant": "No test in the suite submits a repeated id, and the outcome depends on which sort order the copies get.", "anchors": ["src/couch_save.cc: update_indexes", "src/btree_modify.cc: modify_node"]}
{"id": "C18", "title": "The save callback reports the replaced revision", "statement": "During a save, the callback is called once per saved id, with the previously stored revision information if the id existed and with none if it did not.", "quantifier": "for every state and batch of distinct ids", "why_tests_cant": "Depends on how the batch interleaves with the stored keys and node boundaries.", "anchors": ["src/btree_modify.cc: do_save_callback, modify_node", "src/couch_save.cc: update_indexes"]}
{"id": "C19", "title": "Compaction preserves the database", "statement": "Compacting a database (without dropping deletes and without a filter) yields a database with the same documents, revision information and bodies under the same ids and sequence numbers, the same local documents, the same last sequence and purge sequence, and correct counts.", "quantifier": "for every source database contents and tree shape", "why_tests_cant": "All contents and shapes; bodies move to new offsets.", "anchors": ["src/db_compact.cc: couchstore_compact_db_ex, compact_seq_tree, output_seqtree_item, compact_localdocs", "src/tree_writer.cc: TreeWriter", "src/btree_modify.cc: complete_new_btree"]}
{"id": "C20", "title": "Compaction that drops deletes drops exactly the deletes", "statement": "With the drop-deletes option (and with a user filter) the compacted database contains exactly the documents that the option and the filter keep, and the purge sequence is advanced as documented.", "quantifier": "for every source database and every filter decision function", "why_tests_cant": "All contents and all filters.", "anchors": ["src/db_compact.cc: compact_seq_fetchcb, output_seqtree_item, couchstore_set_purge_seq"]}
{"id": "C21", "title": "Rewinding goes through the commits in reverse order", "statement": "Rewinding a handle k times shows the state of the k-th last commit, for each k up to the number of commits, and then reports that there is no header.", "quantifier": "for every sequence of commits with any amount of data between them", "why_tests_cant": "Any number and spacing of commits.", "anchors": ["src/couch_db.cc: couchstore_rewind_db_header, couchstore_rewind_db_header_impl, find_header"]}
{"id": "C22", "title": "Seeking moves to the neighbouring header or stays", "statement": "Seeking forward or backward moves to the next or previous header of the file; seeking to an offset succeeds exactly when there is a valid header there; when a seek reports no header the handle stays at the header it was on.", "quantifier": "for every file with any layout of headers, every current header and every offset", "why_tests_cant": "Layouts are unbounded.", "anchors": ["src/couch_db.cc: seek, couchstore_fastforward_db_header_impl, couchstore_rewind_db_header_impl"]}
{"id": "C23", "title": "Searching for the first header containing a sequence number finds the first one", "statement": "With granularity one, the search positions the handle on the lowest-positioned header whose last sequence is at or above the requested one.", "quantifier": "for every layout of headers with strictly increasing sequence numbers, every tip and every requested sequence up to the tip's", "why_tests_cant": "Binary search over byte offsets with uneven spacing; the tests use evenly spaced commits.", "anchors": ["src/couch_db.cc: seekFirstHeaderContaining"]}
{"id": "C24", "title": "A failed commit leaves the handle as it was", "statement": "If a commit fails at any step, the handle's header position, timestamp and previous-header link are those from before the call, the previously committed state is still found when the file is opened, and a later successful commit makes all data saved so far durable.", "quantifier": "for every state and every failing step (header write, first sync, block-type write, second sync)", "why_tests_cant": "Requires injecting each failure in each state, followed by arbitrary continuation.", "anchors": ["src/couch_db.cc: couchstore_commit_ex"]}
{"id": "C25", "title": "Buffered file access is indistinguishable from direct access", "statement": "With buffering enabled, every read returns what it would have returned without buffering, and after a sync the underlying file equals the file that unbuffered access would have produced.", "quantifier": "for every sequence of reads, writes, syncs and buffer releases at any offsets and lengths, any buffer capacity and number of buffers", "why_tests_cant": "Interaction of dirty write buffer, read cache invalidation and eviction over unbounded sequences.", "anchors": ["src/iobuffer.cc: BufferedFileOps, ReadBufferManager, write_to_buffer, read_from_buffer, flush_buffer"]}
{"id": "C26", "title": "Index updates cannot fail or overflow for lack of node space", "statement": "Writing an index node never exceeds the buffer reserved for it; every node written is parsed back to the entries that were put in it; entries in each node and subtree are in ascending order and all leaves have the same depth.", "quantifier": "for every tree, every sorted batch within the key and value limits, all node-size settings", "why_tests_cant": "The node length is tracked incrementally over insertions and partial flushes.", "anchors": ["src/btree_modify.cc: flush_mr_partial, mr_push_item, maybe_flush, finish_root", "src/node_types.cc: write_kv, read_kv"]}
{"id": "C27", "title": "Updating an index terminates", "statement": "Building the new root after an update or a bulk load terminates: each round strictly reduces the number of nodes at the top level, for every node-size setting including zero.", "quantifier": "for every number of nodes and every threshold", "why_tests_cant": "Termination over all inputs.", "anchors": ["src/btree_modify.cc: finish_root, mr_move_pointers, complete_new_btree, modify_btree"]}
{"id": "C28", "title": "Index entries keep their key and value lengths", "statement": "An entry stored in an index node comes back with the same key and value for every key and value the API accepts.", "quantifier": "for every key and value size the API accepts", "why_tests_cant": "Needs sizes at and above the packed 12 and 28-bit field limits, which tests avoid.", "anchors": ["src/node_types.cc: encode_kv_length, decode_kv_length, write_kv, read_kv", "src/couch_save.cc: assemble_seq_index_value"]}
{"id": "C29", "title": "Key order is a total order consistent with the bytes", "statement": "Id comparison is a total order equal to lexicographic byte order with shorter-prefix first; sequence comparison on encoded keys equals numeric order and byte order; the empty start key is below every key.", "quantifier": "for all keys", "why_tests_cant": "Orders must hold for all triples.", "anchors": ["src/util.cc: ebin_cmp, seq_cmp", "src/btree_read.cc: lookup_compare", "src/node_types.cc: decode_sequence_key"]}
{"id": "C30", "title": "Damaged data is reported, never returned", "statement": "Reading a body, node or header whose stored checksum does not match its stored bytes returns an error; no read returns bytes whose checksum does not match, and a read that would need bytes beyond the end of the file returns an error.", "quantifier": "for every file contents whatsoever (arbitrary corruption) and every position", "why_tests_cant": "All possible corruptions cannot be tried.", "anchors": ["src/couch_file_read.cc: pread_bin_internal, read_skipping_prefixes, pread_header", "src/crc32.cc: perform_integrity_check"]}
{"id": "C31", "title": "Parsing a header never reads outside the bytes it was given", "statement": "Whatever bytes are in the file, looking for a header reads only inside the buffers it obtained and gives either an error or a header whose index roots lie before the header.", "quantifier": "for every file contents and position", "why_tests_cant": "Arbitrary untrusted input.", "anchors": ["src/couch_db.cc: find_header_at_pos, read_db_root", "src/node_types.cc: read_root"]}
{"id": "C32", "title": "Parsing index entries never reads outside the node", "statement": "Whatever bytes a node contains, reading its entries, its child pointers and its document information accesses only bytes of the node, and reports corruption otherwise.", "quantifier": "for every node contents", "why_tests_cant": "Arbitrary untrusted input.", "anchors": ["src/node_types.cc: read_kv, decode_sequence_key", "src/couch_db.cc: by_seq_read_docinfo, by_id_read_docinfo, btree_eval_seq_reduce", "src/btree_read.cc: btree_lookup_inner"]}
{"id": "C33", "title": "Revision information survives storage", "statement": "The id, sequence, revision number, revision metadata, deleted flag, content flags and size of a document that are read back from either index equal the ones saved.", "quantifier": "for every document information within the format limits", "why_tests_cant": "Bit-packed fields with a stolen flag bit; all values cannot be sampled.", "anchors": ["src/couch_save.cc: assemble_id_index_value, assemble_seq_index_value", "src/couch_db.cc: by_id_read_docinfo, by_seq_read_docinfo"]}
{"id": "C34", "title": "A failed save leaves the database readable and unchanged", "statement": "If a save fails part way (for example the disk is full), the handle still shows exactly the documents, counts and sequences from before the save, except that body space may have been consumed.", "quantifier": "for every state, batch and failing write", "why_tests_cant": "Failures at every possible write in every state.", "anchors": ["src/couch_save.cc: couchstore_save_documents_and_callback, update_indexes", "src/btree_modify.cc: modify_btree"]}
{"id": "C35", "title": "Bulk sorting returns a sorted permutation", "statement": "Sorting the temporary record file used for bulk index building yields the same multiset of records in ascending key order, for every record sequence and block size; bulk loading the sorted records yields an index with exactly those entries.", "quantifier": "for every finite record sequence, comparison order and block size", "why_tests_cant": "External merge with alternating tapes; sizes near powers of the block size are the hard cases and are unbounded.", "anchors": ["src/merge_sort.h: merge_sort", "src/tree_writer.cc: TreeWriter::sort, TreeWriter::write"]}
{"id": "C36", "title": "Open flags are decoded to the documented settings", "statement": "The buffering, node size, tracing, validation and periodic-sync settings taken from the open flags are the documented functions of the flag bits, independent of other bits; encoding a periodic sync interval in bytes and decoding it gives the request rounded down to a power of two, between 1 KiB and 1 TiB.", "quantifier": "for every flag word and every requested interval", "why_tests_cant": "2^64 flag words and intervals.", "anchors": ["src/couch_db.cc: get_tree_file_options_from_flags, couchstore_encode_periodic_sync_flags"]}
{"id": "C37", "title": "Periodic sync bounds the unsynced data", "statement": "With a periodic sync interval set, after every successful write the number of bytes written since the last sync is below the interval.", "quantifier": "for every sequence of writes of any sizes and every interval", "why_tests_cant": "Unbounded sequences.", "anchors": ["src/os.cc: CouchstoreOS pwrite/sync with set_periodic_sync"]}
{"id": "C38", "title": "View index keys and values survive encoding", "statement": "Decoding an encoded view key, view value, id-index key or id-index value gives back the same partition, document id, emitted keys and values, and re-encoding a decoded buffer gives the same bytes.", "quantifier": "for every key and value within the format limits", "why_tests_cant": "Nested variable-length records; all shapes cannot be enumerated.", "anchors": ["src/views/keys.cc: decode_view_btree_key, encode_view_btree_key, decode_view_id_btree_key, encode_view_id_btree_key", "src/views/values.cc: decode_view_btree_value, encode_view_btree_value, decode_view_id_btree_value, encode_view_id_btree_value"]}
{"id": "C39", "title": "View reductions survive encoding and respect the size limit", "statement": "Decoding an encoded view reduction gives back the count, the partition set and the reduce values; an encoding above the size limit is refused.", "quantifier": "for every reduction", "why_tests_cant": "All shapes cannot be enumerated.", "anchors": ["src/views/reductions.cc: decode_view_btree_reduction, encode_view_btree_reduction, decode_view_id_btree_reduction, encode_view_id_btree_reduction"]}
{"id": "C40", "title": "Partition bitmaps are sets of partitions", "statement": "The bitmap operations set, unset, test, union, intersection, equality and emptiness agree with the corresponding operations on sets of partition numbers 0 to 1023, and every stored byte order is as documented.", "quantifier": "for every bitmap and partition number", "why_tests_cant": "2^1024 bitmaps.", "anchors": ["src/views/bitmap.cc: is_bit_set, set_bit, unset_bit, intersect_bitmap, union_bitmap, is_equal_bitmap"]}
{"id": "C41", "title": "The sorted list is a set ordered by its comparison", "statement": "Adding, looking up, removing and iterating over the list behave as on a finite ordered set with replacement of equal elements; iteration is ascending and the size is the number of distinct elements.", "quantifier": "for every sequence of operations and every comparison that is a total preorder", "why_tests_cant": "Unbounded operation sequences.", "anchors": ["src/views/sorted_list.cc: sorted_list_add, sorted_list_get, sorted_list_remove, sorted_list_size, sorted_list_iterator"]}
{"id": "C42", "title": "View cleanup removes exactly the entries of the cleaned partitions", "statement": "Cleaning up a view index for a set of partitions removes every entry of these partitions and keeps every other entry, in order.", "quantifier": "for every index contents and shape and every set of partitions, when the cleanup is not stopped early", "why_tests_cant": "Subtrees are dropped or kept as a whole using stored bitmaps; all shapes cannot be tried.", "anchors": ["src/btree_modify.cc: purge_node, guided_purge_btree, maybe_purgekv, maybe_purgekp", "src/views/purgers.cc: view_purgekp_action, view_purgekv_action, view_id_btree_purge_kp, view_btree_purge_kp"]}
{"id": "C43", "title": "View index headers survive encoding", "statement": "Decoding an encoded view index header gives back the same signature, partition bitmasks, partition sequences, root states and version data.", "quantifier": "for every header within the format limits", "why_tests_cant": "Many nested variable-length lists.", "anchors": ["src/views/index_header.cc: decode_index_header, encode_index_header"]}
{"id": "C44", "title": "The legacy checksum is the standard CRC-32", "statement": "The checksum used for version 11 files is the IEEE CRC-32 of the data, for every byte string; when the mode of a file is not known, data with either of the two checksums is accepted and nothing else.", "quantifier": "for every byte string", "why_tests_cant": "All byte strings.", "anchors": ["src/crc32.cc: hash_crc32, get_checksum, perform_integrity_check"]}
{"id": "C45", "title": "The in-memory record allocator hands out disjoint space inside its block", "statement": "Successive allocations from one allocated block are disjoint and inside the block; an allocation that does not fit is refused.", "quantifier": "for every sequence of sizes", "why_tests_cant": "Unbounded sequences; overlap may stay invisible in tests.", "anchors": ["src/util.cc: fatbuf_alloc, fatbuf_get"]}
{"id": "C46", "title": "Metadata header with the encryption key id survives storage", "statement": "The metadata header written at the start of an encrypted file is read back with the same key identifier and wrapped key data, and malformed metadata is reported as corruption rather than read out of bounds.", "quantifier": "for every key identifier and wrapped key and, for the second part, for every byte string", "why_tests_cant": "Untrusted variable-length fields.", "anchors": ["src/couch_db.cc: create_metadata_header, read_metadata_header, parse_short_string"]}
{"id": "C47", "title": "Catch-up replay after compaction reaches the source state", "statement": "Replaying the changes made to the source database during compaction brings the compacted database to the same documents, local documents and last sequence as the source.", "quantifier": "for every history of changes between the start of compaction and the replay, any batch limits", "why_tests_cant": "All interleavings of source changes with replay steps.", "anchors": ["src/db_compact.cc: replay, updateLocalDocuments, Context"]}
{"id": "C48", "title": "Disk version is preserved by commits and upgraded only by compaction", "statement": "Committing keeps the disk version of the file and, for versions without a timestamp or previous-header field, exposes the defaults; checksums are chosen according to the version.", "quantifier": "for every version and state", "why_tests_cant": "Few versions but every state and history.", "anchors": ["src/couch_db.cc: db_write_header, couchstore_open_db_ex", "src/db_compact.cc: couchstore_compact_db_ex"]}
{"id": "C49", "title": "A lookup with several ranges returns the union of the ranges", "statement": "Looking up ids or sequence numbers with the ranges option and several begin/end pairs in ascending order delivers exactly the documents that lie in one of the ranges, in order.", "quantifier": "for every database, and every ascending list of disjoint ranges", "why_tests_cant": "Which ranges share a node depends on the shape of the index.", "anchors": ["include/libcouchstore/couch_db.h: RANGES, couchstore_docinfos_by_id, couchstore_docinfos_by_sequence", "src/btree_read.cc: btree_lookup_inner", "src/couch_db.cc: iterate_docinfos"]}
{"id": "C50", "title": "Blocks of the arena allocator do not overlap", "statement": "Blocks in use in an arena never overlap and lie in memory obtained from the system; giving back everything since a mark keeps the blocks from before the mark; blocks requested as aligned start at multiples of four.", "quantifier": "for every sequence of allocations, marks and releases", "why_tests_cant": "Unbounded sequences; overlap or misalignment depends on sizes near the end of a chunk and may stay invisible.", "anchors": ["src/arena.cc: arena_alloc, arena_alloc_unaligned, add_chunk, arena_mark, arena_free_from_mark"]}
{"id": "C51", "title": "Recently read blocks are served from memory", "statement": "With n read buffers, reading again a block that is among the last n different blocks read does not access the file.", "quantifier": "for every sequence of reads, every number of buffers", "why_tests_cant": "Which buffer is recycled has no effect on what is returned, so that no test of results sees it; it needs a sequence with more blocks than buffers.", "anchors": ["src/iobuffer.cc: ReadBufferManager::findBuffer, relocateBuffer"]}
{"id": "C52", "title": "View cleanup reports what it removed and leaves nothing to clean up", "statement": "A successful cleanup of a view group returns the position of a header that can be read, that has no partition left to clean up and otherwise differs from the old one only in the index roots, and returns the number of rows of the cleaned partitions: entries of the id index and values of all views.", "quantifier": "for every group of indexes made by updates and cleanups, every set of partitions, every collation that is a total order", "why_tests_cant": "The count and the remaining partitions are taken from reductions of whole subtrees in indexes of any size and shape.", "anchors": ["include/libcouchstore/couch_db.h, src/views/view_group.cc: couchstore_cleanup_view_group, cleanup_btree", "src/views/purgers.cc", "src/views/reducers.cc"]}
{"id": "C53", "title": "Opening without recovery mode never silently goes back past a damaged header", "statement": "Opening an existing file without the recovery flag succeeds only if every block above the one it opens at is marked as data or as a metadata block: if a block above the newest readable header is marked as a header and cannot be read (wrong checksum, wrong length, unknown version, roots that point forward), the open fails instead of returning an older state. With the recovery flag the same file opens at the newest header that can still be read, whatever bytes stand in the blocks above.", "quantifier": "for every file content (also arbitrary damage), every size, every position of the damaged block", "why_tests_cant": "The block that is damaged, the kind of damage, and what lies above and below range over all file contents.", "anchors": ["src/couch_db.cc: find_header, find_header_at_pos, couchstore_open_db_ex", "include/libcouchstore/couch_db.h: COUCHSTORE_OPEN_RECOVERY_MODE"]}
{"id": "C54", "title": "No index node grows beyond the node size", "statement": "However an index was built up - any sequence of inserting, replacing and removing entries, of cleanups, and of bulk building as in compaction, with any order of keys, any sizes of entries and any reductions - every node stored for it holds at most three entries, or all of its entries but the last together take no more than the configured node size (of leaves and of inner nodes respectively). So no history makes the cost of reading or rewriting one node grow with the size of the database.", "quantifier": "for every sequence of operations on the index, every entry size, every node size of at least two bytes", "why_tests_cant": "Where a node is split depends on the sizes of all entries and on the whole history of the node; a small set of histories cannot show that no sequence of small changes makes a node grow.", "anchors": ["src/btree_modify.cc: maybe_flush, flush_mr_partial, modify_node, purge_node, complete_new_btree", "src/couch_btree.h: kv_chunk_threshold, kp_chunk_threshold"]}
{"id": "C55", "title": "Merging files of view updates keeps the newest record of every key", "statement": "When the sorted files of an incremental view update are merged, the result is a file in strictly ascending key order. It has exactly one record for every key that occurs in any file, and this record is the one of the last file (in the order of the arguments) that has the key. No record is lost, and a damaged source file is not taken for a complete one.", "quantifier": "for every number of files, every records, every order of keys", "why_tests_cant": "The merge keeps a sorted vector with one record of every file and refills it; which records meet depends on all files at once. Tests use a few files with few keys.", "anchors": ["src/file_merger.cc: merge_files, do_merge_files, sorted_vector_add, sorted_vector_pop", "src/views/file_merger.cc: merge_view_kvs_ops_files, merge_view_ids_ops_files", "src/views/util.cc: read_view_record, write_view_record, dedup_view_records_merger"]}
{"id": "C56", "title": "The in-memory sort gives a sorted permutation", "statement": "quicksort puts the elements of every array in ascending order of the comparison function and loses or duplicates none; it accesses no element outside of the array and always ends.", "quantifier": "for every array and every comparison that is a total preorder", "why_tests_cant": "The choice of pivots and the insertion sort shortcut make the path depend on the data; errors at the borders of partitions show only for special arrangements.", "anchors": ["src/quicksort.c: quicksort, qsort_fallback, med3, vecswap"]}
{"id": "C57", "title": "Sorting a file of view records gives all records in order", "statement": "When the sort of a view file reports success, the records are those of the source file in ascending key order: in the file itself for an incremental update, handed to the callback for an initial build. This holds for every number of runs and every intermediate merge of temporary files. A failure to write is reported, and the sort always ends.", "quantifier": "for every source file, buffer size and number of temporary files, every failure of writing", "why_tests_cant": "Which temporary files are merged when depends on the number and the levels of all files; sorts with more than 16 runs need gigabytes of input with the fixed buffer size. Write failures do not occur in tests.", "anchors": ["src/file_sorter.cc: sort_file, do_sort_file, sort_worker, parallel_sorter_finish, pick_merge_files, merge_tmp_files, sorter_random_name", "src/views/file_sorter.cc: sort_view_kvs_ops_file, sort_view_kvs_file, sort_view_ids_ops_file, sort_view_ids_file"]}
{"id": "C58", "title": "Keys of views are ordered as JSON values", "statement": "CollateJSON gives the order of the two JSON values: null, false, true, numbers, strings, arrays, objects, and within one type numbers by value, strings by the text they stand for (however its characters are escaped), arrays and objects element by element with the shorter one first. Keys that stand for different strings do not compare as equal in the modes without language rules, and the order is a total preorder, so searching and sorting with it are well defined.", "quantifier": "for every two valid JSON texts without whitespace, of every nesting and length, and all three modes", "why_tests_cant": "The texts are compared token by token while both are read; nesting, escapes and different types at every depth multiply, and transitivity is about triples of texts.", "anchors": ["src/views/collate_json.cc: CollateJSON, compareStringsUnicode, compareStringsASCII, ConvertJSONEscape, createStringFromJSON", "src/views/collate_json.h: CollateJSONMode"]}
{"id": "C59", "title": "Compacting a view group keeps exactly the rows of the other partitions", "statement": "After a successful compaction of a view group, every index of the new file (the index by document id and every view) has exactly the rows of the old index that do not belong to a partition to be cleaned up, with the same keys and values and in the same order. The new header is the old one except for the roots and an empty cleanup mask, it can be decoded again, and the number reported is the number of rows written. What the target file contained before is not changed.", "quantifier": "for every group made by builds, updates and cleanups, every number of views, every cleanup mask, every content of the target", "why_tests_cant": "The rows kept depend on the mask and on every row; the sizes of the nodes written depend on all sizes of keys, values and reductions. Tests use groups of a few hundred equal rows.", "anchors": ["src/views/view_group.cc: couchstore_compact_view_group, compact_btree, compact_view_fetchcb", "src/views/compaction.cc: view_btree_filter, view_id_btree_filter"]}
{"id": "C60", "title": "The initial build of a view group indexes every record once", "statement": "After a successful build the header at the returned position can be read; every index has exactly the rows of the records of its file, in the order of the keys, whatever the order of the records in the file. Everything else in the header is as in the header that was read. An error of the sorter is returned as the error it is.", "quantifier": "for every set of records with different keys, every order of them in the file, every number of views", "why_tests_cant": "The order of the records, the sorting in runs and merges and the splitting of nodes all depend on the data.", "anchors": ["src/views/view_group.cc: couchstore_build_view_group, build_btree, build_btree_record_callback", "src/views/file_sorter.cc: sort_view_kvs_file, sort_view_ids_file"]}
{"id": "C61", "title": "An incremental update of a view group sets and removes exactly what its records say", "statement": "After a successful update every index has the rows that its records set and the old rows whose keys no record names, except that rows of partitions to be cleaned up may be removed; keys that a record removes are gone. A partition stays in the cleanup mask of the new header exactly if one of the indexes still has a row of it. The statistics tell how many rows were set and removed and how many were cleaned up. The result does not depend on the size of the batches in which the records are applied.", "quantifier": "for every group made by builds, updates and cleanups, every set of records, every batch size, every cleanup mask", "why_tests_cant": "Cleaning up and updating go on in the same pass over the nodes, and the pass is repeated for every batch; which rows are purged depends on which nodes a batch visits.", "anchors": ["src/views/view_group.cc: couchstore_update_view_group, update_btree, update_id_btree, update_view_btree, read_record", "src/views/purgers.cc", "src/btree_modify.cc: modify_btree, modify_node"]}
{"id": "C62", "title": "A tree walk visits the nodes and documents of an index depth first with the right depths, sizes and reduce values", "statement": "couchstore_walk_id_tree, couchstore_walk_seq_tree and couchstore_walk_local_tree call the user's function for the root at depth 0 and then depth first: every node before what lies below it, documents one level deeper than their leaf, in the order of the index, from the start key on and filtered by the options. All leaves are equally deep. A node is reported with the bytes that it and the nodes below it take in the file and with the totals of all documents below it (live, deleted, body bytes; number; nothing). A walk that ignores the nodes is the enumeration by couchstore_all_docs or couchstore_changes_since. A negative result of the function ends the walk and is returned.", "quantifier": "every session of writes, commits, crashes and reopenings, every start key, every combination of filter options, every user function", "why_tests_cant": "The shape of the index depends on every earlier save; tests check the documents of a walk over small databases, not that each node's depth, subtree size and reduce value agree with what lies below it in every database that can arise.", "anchors": ["src/couch_db.cc:1446-1511", "src/couch_db.cc:1597-1722", "src/btree_read.cc:25-179", "include/libcouchstore/couch_db.h:732-840"]}
{"id": "C63", "title": "The reduce values of a view are those of exactly its rows", "statement": "The reduction stored with the root of a view - which is what a reduce query over the whole view returns - has the number of emitted values and the set of the partitions that have rows, and for every reduce function of the view a result of that function for exactly the rows of the view: each row counts once, whatever nodes the rows lie in and however the view was built up. _count gives the number of values, _sum their sum, _stats sum, number, smallest, largest and sum of squares, as decimal numbers. A value that is not a number makes _sum and _stats fail; every number is accepted.", "quantifier": "every view made by builds, updates, cleanups and compactions; every list of up to 255 reduce functions, built-in or not; every shape of the tree", "why_tests_cant": "The result depends on how the rows are spread over nodes, because results are printed as text and reduced again; tests use few rows and small numbers.", "anchors": ["src/views/reducers.cc:83-358", "src/views/reducers.cc:435-768", "src/views/reductions.cc"]}
{"id": "C64", "title": "Spatial views: exact boxes, complete searches, a consistent order", "statement": "Building a spatial view from records whose keys are boxes succeeds if no write fails, and the resulting index holds exactly the rows, in the order in which the sorter passed them; a failing write makes the build fail. Every inner entry and the root carry the smallest box around the rows below them, so that a search that only descends into children whose box meets a window finds exactly the rows that meet it. Compaction keeps the rows and their order, except those of the partitions to be cleaned up, and counts them. The order on keys is that of the interleaved bits of the scaled centres (a space-filling curve): total, the same for all dimensions the code admits, and monotone in every coordinate.", "quantifier": "all rows, numbers of dimensions, key and value sizes, files, masks, windows; all lists of coordinates", "why_tests_cant": "Whether a row can be found depends on the boxes of all nodes above it, for every split into nodes and every window; a wrong bound in one node of a large index hides rows only for some windows.", "anchors": ["src/views/spatial.cc:50-321", "src/views/spatial_modify.cc:31-393", "src/views/view_group.cc:1890-2197"]}
{"id": "C65", "title": "The temporary files of a sort are faithful sequences of bytes", "statement": "A stream of chunks with checksums, or of encrypted chunks, behaves as a plain sequence of bytes: what is written at its end and flushed is what is read after a seek, in the same order and of the same length, whatever the sizes of the writes and reads, the size of the write buffer, and however few bytes the file system moves per call; reading past the end is reported as the end. Whatever is in the file, reads that succeed return only bytes of chunks whose checksum or authentication code is right. Records written by a TreeWriter are read back unchanged. A file that was cut, damaged or put together in another order is refused, also after a read has failed once. Consecutive temporary file names never collide.", "quantifier": "all data, sizes of writes, reads and buffers, all sequences of calls, all answers of the file system, all contents of files, both kinds of stream", "why_tests_cant": "The result depends on where the ends of chunks fall between the ends of reads and writes and on short reads and writes of the system; tests use a few sizes on a real file system, where short answers do not occur.", "anchors": ["src/stream.cc:62-104", "src/stream.cc:114-201", "src/stream.cc:273-456", "src/tree_writer.cc:42-101", "src/tree_writer.cc:301-345"]}
{"id": "C66", "title": "No nonce is used twice under the key of a file", "statement": "Encrypted chunks are sealed with AES-GCM, where two messages under the same key and nonce give away both. Every chunk that stands in an encrypted database file is encrypted with a nonce of its own; over the life of the file no two different chunks, including those whose write failed and those lost in a crash, are ever encrypted with the same nonce under the key of the file.", "quantifier": "every execution: creation, chunk writes, commits, failing and short writes, crashes, reopening; all sizes of chunks", "why_tests_cant": "That ciphers see the same nonce twice has no effect that a test of reads and writes could notice; it depends on where failed writes and crashes happened before.", "anchors": ["src/crypto.h:14-29", "src/couch_file_write.cc:139-180", "src/couch_file_read.cc:158-216", "src/couch_db.cc:590-640"]}
{"id": "C67", "title": "The default file operations report what the system did", "statement": "The file operations that come with the library hide signals: calls interrupted by a signal are repeated and give the results they would have given without it. A read returns bytes that stand in the file at its position, and a failed one an error with the number of the system; a write has stored a first part of its bytes at its position and changed nothing else, and returns how many. With validated writes, a write whose bytes did not reach the file is reported. Files are opened also by users that do not own them. Closing closes the file of the handle and no other.", "quantifier": "all contents, positions and sizes, all sequences of answers of the system including short transfers, signals, errors and, for validated writes, bytes that are lost", "why_tests_cant": "Signals at a chosen moment, errors of a device and writes that the system confirms but loses do not occur in tests; closing the descriptor of another thread needs an interruption within a close.", "anchors": ["src/os.cc:107-128", "src/os.cc:130-210", "src/os.cc:212-281", "src/os.cc:322-389"]}
{"id": "C68", "title": "The checking program finds unreadable documents and raises no false alarm", "statement": "When couch_check ends with success on a file, every record that the index by sequence lists can be read with its body, except deleted documents that have none, every local document that is listed can be read, and both indexes can be walked in full. On a file written by the library, it ends with success whenever all bodies marked as compressed can be decompressed and every document that is not deleted was saved with a body. When it ends with success, the numbers of documents of the two indexes agree; a file that cannot be opened is reported.", "quantifier": "for the first part every file whatever its bytes; for the others all sequences of sessions of the library, all documents, both with and without encryption", "why_tests_cant": "A checking program is used on files that no test produces; what its success means has to hold for all of them.", "anchors": ["src/check.cc:40-57", "src/check.cc:59-77", "src/check.cc:92-144"]}
{"id": "C69", "title": "Compaction in recovery mode keeps every document that can still be read", "statement": "If parts of a database file have been damaged so that reading them gives an error, cb::couchstore::compact with COUCHSTORE_COMPACT_RECOVERY_MODE writes a file that holds exactly the documents that can still be read - those that couchstore_docinfo_by_sequence finds and whose body is read -, with the same metadata, bodies and sequence numbers in both indexes, all local documents and the same last sequence number. The result survives crashes. Success is reported exactly when nothing to be kept is missing or everything can be read; the loss of a part never makes the call lose other parts.", "quantifier": "for all databases reachable by any history of saves and commits, all snapshots of them, all sets of damaged chunks (nodes of the indexes and bodies), all hooks that follow a policy, all short writes of the target, all crashes after the end", "why_tests_cant": "Tests damage one or two places of small files; the claim ranges over all sets of damaged nodes and bodies in trees of any shape, and over failing writes in the middle of the recovery.", "anchors": ["/repo/src/db_compact.cc:97-231", "/repo/src/db_compact.cc:298-442", "/repo/src/db_compact.cc:455-497", "/repo/src/btree_read.cc:18-160", "/repo/src/couch_db.cc:1341-1378"]}
{"id": "C70", "title": "Tolerant enumeration of a damaged database delivers every document that can still be found", "statement": "If parts of a database file have been damaged so that reading them gives an error, couchstore_changes_since and couchstore_all_docs with COUCHSTORE_TOLERATE_CORRUPTION call back for exactly the documents of the range, and of the kind asked for, that couchstore_docinfo_by_sequence and couchstore_docinfo_by_id respectively still find, each once, with its information, in ascending order. Success is reported only if no document of the range is missing and no call failed, and it is then reported unless the range is empty. The callback can end the enumeration by returning an error. The same holds of the documents that couchstore_walk_id_tree and couchstore_walk_seq_tree call back for.", "quantifier": "for all databases reachable by any history of saves, commits, crashes, compactions and replays, encrypted or not, all snapshots of them, all sets of damaged chunks, all start keys and sequence numbers, all filters, all callbacks", "why_tests_cant": "Tests damage one or two nodes of small trees; the claim ranges over all sets of damaged nodes in trees of any shape and all starting points, including those inside a damaged part.", "anchors": ["/repo/src/couch_db.cc:1446-1595", "/repo/src/btree_read.cc:25-179", "/repo/include/libcouchstore/couch_db.h:617-660"]}
{"id": "C71", "title": "The recovery program saves every document that can be read, of the latest version or else of the latest older one", "statement": "couch_dbck writes a new database that has the local documents and exactly the documents of the latest version that can be found by their sequence numbers and read, unchanged; with the option for stale commits and when damage was detected, it also has, for every id that is then missing, the revision of the latest older version in which the document can be found and its body read, and nothing else. The new database is committed and is found after any crash. The numbers that the program prints - documents referred to, corrupted documents, documents recovered from stale commits - are those of these sets, and the program ends with a result, whatever is damaged; success means that the documents counted are in the new database.", "quantifier": "For all databases that the library can write, all sets of damaged chunks, all numbers of older versions, all crash images of the new file.", "why_tests_cant": "A test damages one place in one file with one or two commits; the claim ranges over every combination of damaged index nodes and bodies in all versions, and over the order in which older versions supply documents.", "anchors": ["/repo/src/dbck.cc:87-144", "/repo/src/dbck.cc:168-281", "/repo/src/dbck.cc:283-404", "/repo/src/couch_db.cc:1005-1045"]}
{"id": "C72", "title": "The compaction program removes exactly the old deletions, and its purge sequence number tells what was removed", "statement": "couch_compact writes a database that has the documents and local documents of the input, unchanged; with --purge-before T it leaves out exactly the deleted documents whose time in the metadata is before T and whose sequence number is at most that of --purge-only-upto-seq, and with --dropdeletes it leaves out all deleted documents. Every sequence number that was removed, now or earlier, is at most the purge sequence number of the output, which never falls below that of the input. The output is found after any crash, and the program fails only if the disk, the compression or the encryption fails.", "quantifier": "For all databases that the library can write, all versions of them, all options and times, all metadata, all crash images of the output.", "why_tests_cant": "The decision depends on the time, length and layout of the metadata and the sequence number of every deleted document, and the purge sequence number on all of them together with what earlier runs removed; tests try a handful of documents and a single run.", "anchors": ["/repo/src/compactor.cc:45-74", "/repo/src/compactor.cc:76-161", "/repo/src/db_compact.cc:160-231", "/repo/src/db_compact.cc:298-442", "/repo/src/internal.h:69-73"]}
{"id": "C73", "title": "couch_dbinfo lists the commits of a file", "statement": "couch_dbinfo prints, for the latest header or the one at --header-offset, its position, version, sequence numbers, timestamp and the numbers of live and deleted documents as of that commit. With --iterate-headers it prints all headers in the file: backward from the latest to the oldest commit, forward from the oldest (or from the given one) to the latest, each commit once. The program ends on every file, and if it cannot read a header that is in the file, it says so.", "quantifier": "For all files (termination, order), all databases that the library can write with any number of commits, all offsets and both directions.", "why_tests_cant": "The list depends on the whole history of commits and on every block between them; a test sees a few files with a few headers, and no test runs the program.", "anchors": ["/repo/src/dbinfo.cc:49-142", "/repo/src/couch_cxx_util.cc:160-182", "/repo/src/couch_db.cc:2141-2243", "/repo/src/couch_db.cc:1846-1876"]}
{"id": "C74", "title": "couch_dbdump lists every document of the commits asked for, with its body, and reports success exactly if nothing is missing", "statement": "On a database built by any operations, and on its file as any crash left it, couch_dbdump lists every document of the snapshot once, in order of sequence number or of id, with its information and its decompressed body, and reports success. With --key it lists that document, or fails if there is none. With --iterate-headers it lists the commit it starts at and all older commits in effect, each with the documents it had, and reports success. In a file with damage that is noticed it lists exactly the documents that are still found one by one, and reports success only if none is missing.", "quantifier": "for all databases built by any sequence of operations, all their snapshots and commits, all crashes, all damage noticed when read, both orders, all ids", "why_tests_cant": "What is listed depends on the whole tree, on the chain of headers, and on which of several error codes survives a pass over a header; a test sees a few files, mostly healthy, and the text of the output.", "anchors": ["/repo/src/dbdump.cc:421-691", "/repo/src/dbdump.cc:901-1059", "/repo/src/couch_db.cc:1513-1595", "/repo/src/couch_db.cc:2183-2243", "/repo/src/btree_read.cc:25-172"]}
{"id": "C75", "title": "couch_dbdump --local lists every local document that is there, and reports success exactly if nothing is missing or unreadable", "statement": "On a database built by any operations, on its file as any crash left it, and on a file with damage that is noticed, couch_dbdump --local prints exactly the local documents that are found when looked up one by one, each once, in the order of their ids, with their value (decoded if there is something to decode). Without --json one that cannot be decoded is printed without its value; with --json one that cannot be decoded or is not JSON is left out. Success is reported exactly if no local document of the snapshot is missing and none is unreadable. With --key the local document with this id is printed if it is found; otherwise the program prints nothing and fails.", "quantifier": "for all databases built by any sequence of operations, all their snapshots, all crashes, all damage noticed when read, all decoders and parsers, all ids", "why_tests_cant": "Which documents are still listed depends on where in the tree the damage lies and on the handling of the error of every node and every call together; a test sees a few healthy files with a few local documents.", "anchors": ["/repo/src/dbdump.cc:770-899", "/repo/src/dbdump.cc:994-1007", "/repo/src/btree_read.cc:25-172", "/repo/src/couch_db.cc:1878-1943"]}
{"id": "C76", "title": "couch_dbdump --json prints one object for every document, and none is left out without a failure", "statement": "With --json couch_dbdump prints every document of the snapshot once, in order of sequence number or of id, with its information and its body: inflated if its datatype says snappy and the library has not done so, split into attributes and value if it has attributes; null if it has no body, if the body cannot be read, or with --no-body. A document whose contents are not what its datatype says does not prevent the others from being printed, and is itself printed or reported. In a damaged file the documents that are still found are printed, and success is reported only if none is missing.", "quantifier": "for all databases built by any sequence of operations, all their snapshots, all damage noticed when read, all metadata and bodies, all decompressors and parsers, both orders, all ids", "why_tests_cant": "The path that is taken depends on the datatype byte, the length of the metadata, the compression mark and the bytes of every single document; tests store well-formed documents.", "anchors": ["/repo/src/dbdump.cc:421-691", "/repo/src/dbdump.cc:959-993", "/repo/src/couch_db.cc:1239-1278", "/repo/src/couch_db.cc:1446-1595"]}
{"id": "C77", "title": "couch_dbdump --tree draws the whole index, and reports success only if nothing is missing", "statement": "On a database built by any operations, and on its file as any crash left it, couch_dbdump --tree prints the index by sequence number, by id or of local documents as it is in the file: every node, indented by its depth, with the size of everything below it and its reduce value, before everything below it, and every document once, in order; it counts the documents and reports success. Documents that have a body or are deleted are never marked as corrupt. In a file with damage that is noticed it prints exactly the documents that are still found, and it reports a failure if any is missing.", "quantifier": "for all databases built by any sequence of operations, all their snapshots, all shapes of the index, all crashes, all damage noticed when read, all three indexes", "why_tests_cant": "The output depends on the shape of the tree, which depends on the whole history of updates and on the node sizes, and the result depends on how the error of each node is passed on through all levels; a test sees small healthy trees.", "anchors": ["/repo/src/dbdump.cc:694-740", "/repo/src/dbdump.cc:959-1007", "/repo/src/couch_db.cc:1597-1722", "/repo/src/btree_read.cc:25-172"]}
{"id": "C78", "title": "couch_dbdump --iterate-headers shows every commit also with --tree and with --local", "statement": "On a database built by any operations, couch_dbdump --iterate-headers with --tree draws the index of the commit it starts at and those of all older commits in effect, each in full, newest first; with --local it lists the local documents that each of these commits had. It reports success if nothing failed, and a failure if one of the commits could not be shown in full.", "quantifier": "for all databases built by any sequence of operations with any number of commits, all commits to start at, all three indexes, all decoders and parsers", "why_tests_cant": "What is shown depends on the whole chain of headers and on the trees of all commits; the reported result depends on which of several error codes survives the loop. A test sees a file with a few commits.", "anchors": ["/repo/src/dbdump.cc:901-1059", "/repo/src/dbdump.cc:863-899", "/repo/src/couch_db.cc:2183-2243", "/repo/src/couch_db.cc:1597-1722"]}
