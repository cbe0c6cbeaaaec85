{"id": "C01", "title": "Seeking locates the row", "statement": "Seeking a block to row offset o with 0 <= o <= size succeeds and leaves the pointer at absolute row o, inside the physical file that holds row o (for o < size the offset inside that file is strictly smaller than the file's row count, so empty physical files are skipped). A negative offset o with -size <= o < 0 behaves as size+o. Every other offset fails with -1 and leaves the pointer unchanged.", "quantifier": "every layout (any number of physical files, any sizes, including empty files and empty blocks) and every signed 64-bit offset", "why_tests_cant": "The binary search has unboundedly many layouts; empty files in the middle, at the front and at the end give corner cases a fixed set of layouts cannot exhaust.", "anchors": ["src/bigfile.c: big_block_seek", "src/bigfile.c: big_block_eof"]}
{"id": "C02", "title": "Relative seeks compose and end-of-file is exact", "statement": "From a pointer at row a, a relative seek by d with 0 <= a+d <= size moves to row a+d; the end-of-file test is true exactly when the pointer is at row size; a relative seek past the end fails and leaves the pointer unchanged.", "quantifier": "every layout, every valid pointer, every displacement", "why_tests_cant": "Unbounded layouts and pointer histories.", "anchors": ["src/bigfile.c: big_block_seek_rel", "src/bigfile.c: big_block_eof"]}
{"id": "C03", "title": "Read returns what was written", "statement": "After a successful write of n rows at row o, a read of those n rows through any handle layout-equal to the writer's returns exactly the written elements, for every physical partition of the block, every I/O buffer size that holds a row, and every shape and stride of the source and destination arrays.", "quantifier": "all layouts, offsets, row counts, buffer sizes, array shapes/strides, element values, and both byte orders of the block and of the machine", "why_tests_cant": "The product of layout x chunking x stride x offset is unbounded; tests sample a handful.", "anchors": ["src/bigfile.c: big_block_write", "src/bigfile.c: big_block_read", "src/bigfile.c: _dtype_convert"]}
{"id": "C04", "title": "A write changes only its own rows", "statement": "A successful write at rows [o,o+n) leaves every other row that could be read before readable with the same bytes; the only other observable change is that rows never written before, lying in front of the written ones in the same physical file, become readable as zeros. No file other than the data files holding those rows changes.", "quantifier": "all layouts, contents, offsets and arrays", "why_tests_cant": "A frame condition speaks about every byte of every other file.", "anchors": ["src/bigfile.c: big_block_write"]}
{"id": "C05", "title": "Out-of-range transfers are rejected without effect", "statement": "A read or write of n rows from a pointer at row a with a+n > size returns -1 and changes neither any file, nor the caller's array, nor the pointer.", "quantifier": "all layouts, pointers, arrays", "why_tests_cant": "Must hold for every boundary position.", "anchors": ["src/bigfile.c: big_block_write", "src/bigfile.c: big_block_read"]}
{"id": "C06", "title": "The I/O buffer size is invisible", "statement": "The files, pointer, checksums and returned data after a read or write do not depend on the configured buffer size, as long as one row fits in the buffer.", "quantifier": "all pairs of buffer sizes, all layouts and arrays", "why_tests_cant": "Unbounded family of chunk boundaries relative to file boundaries.", "anchors": ["src/bigfile.c: big_file_set_buffer_size", "src/bigfile.c: big_block_write", "src/bigfile.c: big_block_read"]}
{"id": "C07", "title": "Transfers terminate", "statement": "Every read and every write finishes after finitely many chunk transfers.", "quantifier": "all layouts, arrays and buffer sizes (including buffers smaller than one row)", "why_tests_cant": "Non-termination cannot be observed by a finite test.", "anchors": ["src/bigfile.c: big_block_write", "src/bigfile.c: big_block_read", "src/bigfile.c: big_file_set_buffer_size"]}
{"id": "C08", "title": "Rows never written are not fabricated", "statement": "Reading a row that was never written, when no later row of the same physical file was written either, fails with -1: stale data of an earlier block of the same name is never returned.", "quantifier": "all layouts, all histories of creates, grows and writes", "why_tests_cant": "Requires reasoning over all earlier contents of the directory.", "anchors": ["src/bigfile.c: big_block_read", "src/bigfile.c: _big_block_create", "src/bigfile.c: big_block_grow"]}
{"id": "C09", "title": "A block behaves like a growable table under any history", "statement": "Under every sequence of write, read, grow, flush and close-and-reopen on one block, each read of rows [o,o+n) returns for each row the value of the latest write covering it.", "quantifier": "all operation histories of any length, all layouts", "why_tests_cant": "Histories are unbounded.", "anchors": ["src/bigfile.c: big_block_write", "src/bigfile.c: big_block_read", "src/bigfile.c: big_block_grow", "src/bigfile.c: big_block_flush", "src/bigfile.c: _big_block_open"]}
{"id": "C10", "title": "The physical partition is invisible", "statement": "Two blocks with the same dtype, width and size but different numbers and sizes of physical files, subjected to the same fully-covering writes, return the same data for every read.", "quantifier": "all pairs of layouts with the same total size", "why_tests_cant": "Pairs of layouts are unbounded.", "anchors": ["src/bigfile.c: big_block_write", "src/bigfile.c: big_block_read"]}
{"id": "C11", "title": "Strided arrays are traversed in C order and nothing else is touched", "statement": "Iterating over an array of any number of dimensions (1..32), dims and byte strides visits data + sum(index_k*stride_k) for the multi-indices in row-major order; a read into such an array changes only the bytes of its elements.", "quantifier": "all dims, strides (also negative, also record-interleaved) and element counts", "why_tests_cant": "Unbounded shapes and strides.", "anchors": ["src/bigfile.c: big_array_init", "src/bigfile.c: big_array_iter_init", "src/bigfile.c: big_array_iter_advance"]}
{"id": "C12", "title": "Convenience read clips at the end", "statement": "big_block_read_simple(start,n) returns the rows start .. min(start+n,size)-1 and never fails when all those rows have been written; negative start counts from the end.", "quantifier": "all starts (also negative), counts and layouts", "why_tests_cant": "Boundary arithmetic on signed/unsigned 64-bit numbers.", "anchors": ["src/bigfile.c: big_block_read_simple"]}
{"id": "C13", "title": "Checksums equal the data checksums when each row is written once", "statement": "On a fresh block, after any sequence of writes covering disjoint row ranges, the recorded checksum of each physical file equals the 32-bit sum of the bytes of that file, independently of order and chunking, and the reduced checksum shown by bigfile-ls equals System V `sum -s` of the concatenated data, so bigfile-check succeeds.", "quantifier": "all write orders, partitions into writes, chunk sizes and layouts", "why_tests_cant": "Orders and partitions are unbounded.", "anchors": ["src/bigfile.c: sysvsum", "src/bigfile.c: big_block_flush", "utils/bigfile-ls.c: listbigblock", "utils/bigfile-check"]}
{"id": "C14", "title": "The recorded checksum always describes the current data", "statement": "After any sequence of writes the recorded checksum of each physical file equals the checksum of its current contents.", "quantifier": "all write histories, including overwriting", "why_tests_cant": "Histories are unbounded.", "anchors": ["src/bigfile.c: sysvsum", "src/bigfile.c: big_block_write"]}
{"id": "C15", "title": "Header round trip", "statement": "A block written out by flush is read back by open with the same dtype, width, number of files, file sizes, offsets, total size and checksums.", "quantifier": "all block layouts the API can create", "why_tests_cant": "Text codec over unbounded numbers and file counts.", "anchors": ["src/bigfile.c: big_block_flush", "src/bigfile.c: _big_block_open"]}
{"id": "C16", "title": "Opening an arbitrary header is safe", "statement": "Opening a block whose header file holds arbitrary bytes either fails, or yields a block whose offsets are the running sums of its file sizes and whose size is their total, with non-negative file count and width and a valid element type; it never has undefined behaviour.", "quantifier": "every byte string as header contents", "why_tests_cant": "All byte strings.", "anchors": ["src/bigfile.c: _big_block_open", "src/bigfile.c: dtype_isvalid"]}
{"id": "C17", "title": "A crash while rewriting the header is detected or harmless", "statement": "If a crash leaves any prefix of a rewritten header on disk, a later open either fails or yields exactly the new layout; it never yields a different layout.", "quantifier": "every block and every crash point (prefix length)", "why_tests_cant": "Crash points times layouts are unbounded.", "anchors": ["src/bigfile.c: big_block_flush", "src/bigfile.c: _big_block_open"]}
{"id": "C18", "title": "Every block that can be created can be reopened", "statement": "If creating a block with a given dtype, width and file list succeeds, a later open of the block succeeds.", "quantifier": "all dtypes, widths, file counts accepted by create", "why_tests_cant": "Unbounded dtype strings and counts.", "anchors": ["src/bigfile.c: _big_block_create_internal", "src/bigfile.c: _big_block_open", "src/bigfile.c: dtype_isvalid"]}
{"id": "C19", "title": "dtype normalisation is canonical", "statement": "Normalising a dtype yields an explicit byte order, is idempotent, preserves kind and item size for strings up to 7 characters (6 when the byte order is omitted), maps '=' and '|' and omitted order to the machine's order, and never overruns the 8-byte field.", "quantifier": "all C strings and both machine byte orders", "why_tests_cant": "All strings.", "anchors": ["src/bigfile.c: _dtype_normalize", "src/bigfile.c: big_file_dtype_itemsize", "src/bigfile.c: big_file_dtype_kind"]}
{"id": "C20", "title": "Files are portable between byte orders", "statement": "Data written on a machine of either byte order, into a block of either byte order, is read on a machine of either byte order as the same values.", "quantifier": "all values, all four combinations of machine orders, both block orders, all scalar kinds and widths", "why_tests_cant": "Tests run on one machine.", "anchors": ["src/bigfile.c: _dtype_convert", "src/bigfile.c: byte_swap", "src/bigfile.c: MACHINE_ENDIAN_F"]}
{"id": "C21", "title": "Writing does not modify the caller's array", "statement": "A write leaves the bytes of the caller's source array unchanged.", "quantifier": "all arrays and dtypes (also of non-native byte order)", "why_tests_cant": "All dtypes and strides.", "anchors": ["src/bigfile.c: _dtype_convert", "src/bigfile.c: byte_swap", "src/bigfile-record.c: big_file_write_records"]}
{"id": "C22", "title": "Integer casts are value preserving or wrap", "statement": "Reading or writing with a different integer type converts each value to the unique value of the destination type congruent to it modulo 2^width; in particular every value representable in both types is preserved and a round trip through a wider type is the identity.", "quantifier": "all values of i4, i8, u4, u8, b1", "why_tests_cant": "2^64 values.", "anchors": ["src/bigfile.c: cast"]}
{"id": "C23", "title": "Floating point casts through a wider type are lossless", "statement": "Storing f4 data in an f8 block and reading it back as f4 returns the same values; i4/u4 data survive a round trip through f8.", "quantifier": "all 2^32 f4 bit patterns (NaNs up to payload quieting), all i4/u4 values", "why_tests_cant": "Full value ranges.", "anchors": ["src/bigfile.c: cast"]}
{"id": "C24", "title": "Unsupported conversions are rejected without effect", "statement": "Reading or writing with a pair of element types that has no conversion returns -1 and changes no file.", "quantifier": "all dtype pairs", "why_tests_cant": "All dtype strings.", "anchors": ["src/bigfile.c: cast", "src/bigfile.c: big_block_write"]}
{"id": "C25", "title": "Complex data keep real and imaginary parts", "statement": "Transferring complex data between arrays and blocks of different byte order preserves the real and the imaginary part.", "quantifier": "all complex values and byte orders", "why_tests_cant": "All values.", "anchors": ["src/bigfile.c: byte_swap"]}
{"id": "C26", "title": "Attributes form a map", "statement": "After any sequence of set and remove operations, looking an attribute up by name returns the type, length and value of the latest set not followed by a remove, and nothing for all other names; the attribute list is sorted by name without duplicates.", "quantifier": "all histories, names and values", "why_tests_cant": "Histories unbounded.", "anchors": ["src/bigfile.c: attrset_set_attr", "src/bigfile.c: attrset_lookup_attr", "src/bigfile.c: attrset_remove_attr", "src/bigfile.c: attrset_add_attr"]}
{"id": "C27", "title": "Attribute storage is memory safe", "statement": "No sequence of attribute operations accesses the attribute buffer out of bounds; growing and moving the buffer preserves every stored name and value.", "quantifier": "all histories and all addresses the allocator may return", "why_tests_cant": "Allocator behaviour and histories are unbounded.", "anchors": ["src/bigfile.c: attrset_add_attr", "src/bigfile.c: attrset_append_attr"]}
{"id": "C28", "title": "Reading an attribute does not change it", "statement": "Getting an attribute any number of times returns the same value each time.", "quantifier": "all attribute types and values, any number of reads", "why_tests_cant": "Number of reads unbounded.", "anchors": ["src/bigfile.c: attrset_get_attr", "src/bigfile.c: _dtype_convert"]}
{"id": "C29", "title": "Attributes survive flush and reopen", "statement": "Every attribute set on a block is found with the same type, length and bytes after flush and reopen.", "quantifier": "all attribute sets the API accepts", "why_tests_cant": "Text codec over all byte strings.", "anchors": ["src/bigfile.c: attrset_write_attr_set_v2", "src/bigfile.c: attrset_read_attr_set_v2"]}
{"id": "C30", "title": "Removing an attribute is durable", "statement": "An attribute removed from a block is absent after flush (or close) and reopen.", "quantifier": "all attribute sets and names", "why_tests_cant": "All histories of set/remove/flush.", "anchors": ["src/bigfile.c: attrset_remove_attr", "src/bigfile.c: big_block_flush"]}
{"id": "C31", "title": "Attribute names with blanks are rejected without effect", "statement": "Setting an attribute whose name contains a space, tab or newline fails and leaves the attribute map unchanged.", "quantifier": "all names", "why_tests_cant": "All strings.", "anchors": ["src/bigfile.c: attrset_set_attr"]}
{"id": "C32", "title": "A crash while rewriting attributes keeps the block openable", "statement": "If a crash leaves any prefix of a rewritten attribute file on disk, a later open has defined behaviour and shows a subset of the attributes.", "quantifier": "every attribute set and crash point", "why_tests_cant": "Crash points unbounded.", "anchors": ["src/bigfile.c: attrset_write_attr_set_v2", "src/bigfile.c: attrset_read_attr_set_v2"]}
{"id": "C33", "title": "Legacy attributes are readable and overridden by new ones", "statement": "Opening a block with a legacy (v1) attribute file yields its attributes, and a v2 attribute of the same name takes precedence.", "quantifier": "all well-formed v1 files and v2 files", "why_tests_cant": "All byte strings.", "anchors": ["src/bigfile.c: attrset_read_attr_set_v1", "src/bigfile.c: _big_block_open"]}
{"id": "C34", "title": "Serialising a block handle is faithful", "statement": "Packing a block handle and unpacking it (pickle, MPI broadcast) gives a handle with the same dtype, width, path, layout, checksums, dirty state and attributes, wherever the copy is placed in memory.", "quantifier": "all block handles, all addresses", "why_tests_cant": "All sizes and addresses.", "anchors": ["src/bigfile.c: _big_block_pack", "src/bigfile.c: _big_block_unpack"]}
{"id": "C35", "title": "Growing preserves the table and appends", "statement": "Growing a block by files of sizes g_1..g_k keeps all rows, adds sum(g) unwritten rows at the end and persists when flushed.", "quantifier": "all layouts and growth lists", "why_tests_cant": "Unbounded.", "anchors": ["src/bigfile.c: big_block_grow", "src/bigfile.c: _big_block_grow_internal"]}
{"id": "C36", "title": "Creating over an existing block starts afresh", "statement": "Creating a block at the place of an existing one yields a block without readable rows and without attributes.", "quantifier": "all earlier contents of the directory", "why_tests_cant": "All earlier histories.", "anchors": ["src/bigfile.c: _big_block_create", "src/bigfile.c: _big_block_create_internal"]}
{"id": "C37", "title": "Even partition", "statement": "The automatic partition of `size` rows over n files gives sizes that sum to `size` and differ by at most one.", "quantifier": "all sizes and file counts", "why_tests_cant": "Unbounded arithmetic.", "anchors": ["src/bigfile-mpi.c: big_file_mpi_create_block", "src/bigfile-mpi.c: big_block_mpi_grow_simple", "utils/bigfile-copy.c", "bigfile/pyxbigfile.pyx: ColumnLowLevelAPI.create"]}
{"id": "C38", "title": "Record fields are packed, disjoint and independent", "statement": "Completing a record type assigns consecutive non-overlapping offsets whose total is the record size; setting field c of row i makes get return it and changes no other field of any row.", "quantifier": "all record types, row indices and values", "why_tests_cant": "Unbounded.", "anchors": ["src/bigfile-record.c: big_record_type_complete", "src/bigfile-record.c: big_record_set", "src/bigfile-record.c: big_record_get"]}
{"id": "C39", "title": "Record I/O round trip", "statement": "Writing n records at row o and reading n records at row o restores the buffer, for every record type with distinct field names.", "quantifier": "all record types, offsets, counts, layouts", "why_tests_cant": "Unbounded.", "anchors": ["src/bigfile-record.c: big_file_write_records", "src/bigfile-record.c: big_file_read_records", "src/bigfile-record.c: big_record_view_field"]}
{"id": "C40", "title": "Segmentation of ranks", "statement": "The ranks are split into consecutive segments: every rank with data gets a segment number, numbers are non-decreasing in rank, start at 0 and have no gaps, ranks without data get none, a segment without its last rank never exceeds the requested size, and a segment is only closed once it exceeds it. All ranks compute the same number of segments, and every number below it, but possibly the last, is in use.", "quantifier": "all rank counts, size vectors and thresholds", "why_tests_cant": "Unbounded.", "anchors": ["src/mp-mpiu.c: _MPIU_Segmenter_assign_colors", "src/mp-mpiu.c: MPIU_Segmenter_init"]}
{"id": "C41", "title": "Collective write equals one serial write", "statement": "A collective write of arrays whose element types can be converted succeeds on all ranks or fails on all ranks; it succeeds exactly when all rows fit and their files exist, and then leaves the same files as a serial write of the concatenation of all ranks' arrays at the pointer, and advances every rank's pointer by the total, whatever the number of ranks, the distribution of rows, the number of writers, the aggregation threshold and the interleaving of the writers.", "quantifier": "all rank counts, size vectors, concurrency, thresholds, schedules", "why_tests_cant": "Schedules cannot be enumerated.", "anchors": ["src/bigfile-mpi.c: _throttle_action", "src/bigfile-mpi.c: _aggregated", "src/bigfile-mpi.c: big_block_mpi_write"]}
{"id": "C42", "title": "Collective read equals one serial read, scattered", "statement": "A collective read of rows that are in the files succeeds on all ranks and gives rank k the rows a serial read would put at that rank's offset.", "quantifier": "all rank counts, size vectors, concurrency, thresholds", "why_tests_cant": "Unbounded.", "anchors": ["src/bigfile-mpi.c: _throttle_action", "src/bigfile-mpi.c: _aggregated", "src/bigfile-mpi.c: big_block_mpi_read"]}
{"id": "C43", "title": "Ranks agree on errors", "statement": "The value returned by the error agreement step is the same on every rank, zero exactly when no rank failed, and the error message on every rank is that of the failing rank with the highest number.", "quantifier": "all rank counts and failure patterns", "why_tests_cant": "Unbounded failure patterns.", "anchors": ["src/bigfile-mpi.c: big_file_mpi_broadcast_anyerror"]}
{"id": "C44", "title": "Physical files are created exactly once", "statement": "In a collective create or grow every (new) physical file is created by exactly one rank.", "quantifier": "all rank and file counts", "why_tests_cant": "Unbounded arithmetic.", "anchors": ["src/bigfile-mpi.c: _big_block_mpi_create", "src/bigfile-mpi.c: big_block_mpi_grow"]}
{"id": "C45", "title": "Collective flush records the right checksums", "statement": "After collective writes that cover each row once, interleaved with any number of collective flushes, the header holds for each physical file the checksum of its contents.", "quantifier": "all rank counts, write distributions and numbers of flushes", "why_tests_cant": "Histories unbounded.", "anchors": ["src/bigfile-mpi.c: big_block_mpi_flush", "bigfile/pyxbigfile.pyx: _MPI_flush"]}
{"id": "C46", "title": "Collective calls match", "statement": "In a collective transfer all members of each communicator issue the same sequence of collective operations on it, so no rank waits forever, whatever ranks fail.", "quantifier": "all rank counts, size vectors, concurrency, thresholds, failure patterns", "why_tests_cant": "Deadlocks depend on configuration and schedule.", "anchors": ["src/bigfile-mpi.c: _throttle_action", "src/bigfile-mpi.c: _aggregated"]}
{"id": "C47", "title": "Failed collective writes do not damage other rows", "statement": "A collective write that would pass the end of the block fails on all ranks and writes no rows outside those addressed by the caller, and none out of place.", "quantifier": "all configurations", "why_tests_cant": "Unbounded.", "anchors": ["src/bigfile-mpi.c: _aggregated"]}
{"id": "C48", "title": "Sparse all-to-all equals dense all-to-all", "statement": "The sparse exchange visits every partner exactly once, posts a receive for exactly the messages that are sent, and delivers the same data as MPI_Alltoallv.", "quantifier": "all rank counts (also not powers of two) and count matrices", "why_tests_cant": "Unbounded.", "anchors": ["src/mp-mpiu.c: MPI_Alltoallv_sparse", "src/mp-mpiu.c: MPIU_Alltoallv"]}
{"id": "C49", "title": "Leader election", "statement": "The rank returned by the max/min location helper is the lowest rank attaining the extremum, the same on every rank.", "quantifier": "all rank counts and values", "why_tests_cant": "Unbounded.", "anchors": ["src/mp-mpiu.c: MPIU_GetLoc"]}
{"id": "C50", "title": "Listing finds every block", "statement": "Listing a file returns exactly the paths of the blocks in it, each once.", "quantifier": "all directory trees", "why_tests_cant": "All trees.", "anchors": ["src/bigfile.c: big_file_list", "src/bigfile.c: listbigfile_r"]}
{"id": "C51", "title": "Creating directories", "statement": "Creating a block or file makes every missing parent directory, keeps all existing files and directories, and succeeds again when repeated.", "quantifier": "all paths and directory trees", "why_tests_cant": "All trees.", "anchors": ["src/bigfile.c: _big_file_mksubdir_r", "src/bigfile.c: _big_file_mkdir"]}
{"id": "C52", "title": "Error messages are thread safe", "statement": "Under any interleaving of threads setting error messages each replaced message is freed exactly once, the last one remains readable, and no message is freed while installed.", "quantifier": "all interleavings, any number of threads", "why_tests_cant": "Interleavings cannot be enumerated.", "anchors": ["src/bigfile.c: big_file_set_error_message"]}
{"id": "C53", "title": "Raising an error never overruns its buffer", "statement": "Formatting an error message stays within the allocated buffer and consumes only the arguments supplied.", "quantifier": "all messages, paths and nestings of errors", "why_tests_cant": "All strings.", "anchors": ["src/bigfile.c: _big_file_raise"]}
{"id": "C54", "title": "bigfile-copy makes an equal block", "statement": "After a successful bigfile-copy the new block has the same dtype, width, size, attributes and rows as the old one and valid checksums, for every file count and buffer size.", "quantifier": "all blocks, file counts, buffer sizes", "why_tests_cant": "Unbounded.", "anchors": ["utils/bigfile-copy.c: main"]}
{"id": "C55", "title": "bigfile-copy-mpi hands out every row exactly once and finishes", "statement": "The work items sent by the server partition the rows of the block, each is processed by exactly one worker, and all processes finish.", "quantifier": "all rank counts, sizes, chunk sizes and message orders", "why_tests_cant": "Message orders unbounded.", "anchors": ["utils/bigfile-copy-mpi.c: server", "utils/bigfile-copy-mpi.c: slave"]}
{"id": "C56", "title": "Python slicing agrees with sequence slicing", "statement": "column[i:j] returns the same rows as slicing the list of all rows, for all i, j including negative, omitted and out-of-range values, and column[i] the i-th row.", "quantifier": "all sizes, i, j", "why_tests_cant": "All integers.", "anchors": ["bigfile/__init__.py: Column.__getitem__", "bigfile/pyxbigfile.pyx: ColumnLowLevelAPI.read"]}
{"id": "C57", "title": "Python slice assignment stays in its slice", "statement": "column[i:j] = value changes only rows i..j-1.", "quantifier": "all sizes, i, j and value lengths", "why_tests_cant": "All integers.", "anchors": ["bigfile/__init__.py: Column.__setitem__", "bigfile/pyxbigfile.pyx: ColumnLowLevelAPI.write"]}
{"id": "C58", "title": "Chunked creation from an array stores the array", "statement": "create_from_array writes every row exactly once and the block equals the array (serially and across MPI ranks).", "quantifier": "all lengths, widths, memory limits, file counts, rank distributions", "why_tests_cant": "Unbounded.", "anchors": ["bigfile/__init__.py: File.create_from_array", "bigfile/__init__.py: FileMPI.create_from_array"]}
{"id": "C59", "title": "bigfile-create records the number of rows read", "statement": "After bigfile-create on any input the block opens with the number of complete rows on standard input.", "quantifier": "all inputs, also empty", "why_tests_cant": "All inputs.", "anchors": ["utils/bigfile-create.c: main"]}
{"id": "C60", "title": "Serial and MPI interfaces address the same blocks", "statement": "Every block name denotes the same files through the serial and the MPI interface.", "quantifier": "all block names, also '.'", "why_tests_cant": "All strings.", "anchors": ["src/bigfile.c: big_file_open_block", "src/bigfile-mpi.c: big_file_mpi_open_block", "src/bigfile.c: endswith"]}
{"id": "C61", "title": "Conversions to floating point round to nearest", "statement": "Writing or reading f8 data as f4, or integer data as f4 or f8, gives for each value a floating point number at least as close to it as any other number of the destination type (infinity only beyond the largest finite number).", "quantifier": "all finite f8 values, all integer values of every integer type", "why_tests_cant": "2^64 values.", "anchors": ["src/bigfile.c: cast"]}
{"id": "C62", "title": "Block operations touch only the block's own files", "statement": "Creating, writing, growing, flushing and closing a block change no file other than the block's header, attribute and data files, whatever the handle, the arguments and the outcome; in particular nothing outside the block's directory.", "quantifier": "all file systems, handles, arguments and outcomes", "why_tests_cant": "All file systems and handles.", "anchors": ["src/bigfile.c: _big_block_create", "src/bigfile.c: big_block_write", "src/bigfile.c: big_block_grow", "src/bigfile.c: big_block_flush", "src/bigfile.c: _big_file_open_a_file"]}
{"id": "C63", "title": "Histories of collective operations behave like a table", "statement": "N processes create a block collectively and run any sequence of collective writes, reads, growths, flushes and reopenings. Under every schedule every call returns on every process, with the same code everywhere; a read gives each process its part of the latest values; no call deadlocks.", "quantifier": "all numbers of processes, schedules, file layouts, arrays, thresholds, histories", "why_tests_cant": "Schedules times histories.", "anchors": ["src/bigfile-mpi.c: big_block_mpi_create", "src/bigfile-mpi.c: big_block_mpi_write", "src/bigfile-mpi.c: big_block_mpi_read", "src/bigfile-mpi.c: big_block_mpi_grow", "src/bigfile-mpi.c: big_block_mpi_flush", "src/bigfile-mpi.c: big_block_mpi_close"]}
{"id": "C64", "title": "Collective and serial use can be mixed", "statement": "A block written collectively and flushed can be opened by a single process, which sees the same rows and can go on with any history; a block written and flushed by a single process can be opened collectively, with the same rows.", "quantifier": "all numbers of processes, schedules, layouts and histories on both sides", "why_tests_cant": "Schedules times histories.", "anchors": ["src/bigfile-mpi.c: big_block_mpi_open", "src/bigfile-mpi.c: big_block_mpi_flush", "src/bigfile.c: _big_block_open", "src/bigfile.c: big_block_flush"]}
{"id": "C65", "title": "Collective open and flush equal their serial counterparts", "statement": "A collective open gives every process the handle a single process would get, or fails on all; a collective flush writes exactly what a single process that had recorded the changes of all would write.", "quantifier": "all file systems, handles, numbers of processes, schedules", "why_tests_cant": "All handles and schedules.", "anchors": ["src/bigfile-mpi.c: big_block_mpi_open", "src/bigfile-mpi.c: big_block_mpi_flush", "src/bigfile-mpi.c: big_block_mpi_broadcast"]}
{"id": "C66", "title": "Appending keeps the old rows and adds the new ones", "statement": "column.append(array, Nfile) makes the block longer by the rows of the array, kept in Nfile new files; the new rows hold the array and all earlier rows are unchanged.", "quantifier": "all histories of the block, arrays and file counts", "why_tests_cant": "Unbounded histories, sizes and file counts.", "anchors": ["bigfile/pyxbigfile.pyx: ColumnLowLevelAPI.append", "src/bigfile.c: big_block_grow"]}
{"id": "C67", "title": "bigfile-cat prints exactly the rows asked for", "statement": "bigfile-cat -o start -c count prints the rows start up to start+count of the block, in binary or as decimal text, one line per row; without -c, or if the count reaches past the end, it prints up to the last row; no file is changed; if a row to be printed is missing the exit code is 1.", "quantifier": "all blocks with any history, starts, counts and buffer sizes", "why_tests_cant": "The buffer boundary, the count and the block size meet in unboundedly many ways.", "anchors": ["utils/bigfile-cat.c: main", "src/bigfile.c: dtype_format", "src/bigfile.c: big_block_read_simple"]}
{"id": "C68", "title": "bigfile-set-attr changes one attribute and nothing else", "statement": "bigfile-set-attr gives the named attribute the values on the command line, with the type asked for or else the type it has; all other attributes and all rows stay as they are, and the block can still be opened.", "quantifier": "all blocks with any history, attribute names, types, values and option combinations", "why_tests_cant": "Unboundedly many attribute sets and values; the fault without -t depends on the neighbour in the attribute list.", "anchors": ["utils/bigfile-set-attr.c: main", "src/bigfile.c: attrset_set_attr", "src/bigfile.c: dtype_parse"]}
{"id": "C69", "title": "Numbers survive printing and reading", "statement": "dtype_format prints an integer element as its decimal numeral and leaves the element alone; dtype_parse stores the value any decimal notation of a representable number stands for; an element that is printed and read back has the same bytes.", "quantifier": "all integer types in either byte order, all element values, all decimal notations of all representable numbers", "why_tests_cant": "2^64 values and unboundedly many notations.", "anchors": ["src/bigfile.c: dtype_format", "src/bigfile.c: dtype_parse"]}
{"id": "C70", "title": "bigfile-ls lists every block once", "statement": "bigfile-ls prints the name of every block of the file, nested ones included, none of whose components begins with a dot: each once, in the order of the components, and nothing else; with -l each line consists of the name, type, elements per row, number of rows, checksum, number of files and path of the block. No file is changed.", "quantifier": "all directory trees", "why_tests_cant": "Unboundedly many trees and depths.", "anchors": ["utils/bigfile-ls.c: main", "utils/bigfile-ls.c: listbigfile_r", "utils/bigfile-ls.c: listblock"]}
{"id": "C71", "title": "bigfile-check reports exactly the damaged blocks", "statement": "bigfile-check prints 'check sum failed' for a block exactly if the data in its files are not those that were written.", "quantifier": "all blocks with any history, all later changes of the data files", "why_tests_cant": "All histories and all kinds of damage; two wrongs can cancel in the sum.", "anchors": ["utils/bigfile-check", "utils/bigfile-cat.c: main", "utils/bigfile-ls.c: listblock", "src/bigfile.c: sysvsum"]}
{"id": "C72", "title": "bigfile-get-attr prints the attributes as they are", "statement": "bigfile-get-attr prints the attributes named, or all in the order of their names, with type, length and values in decimal or as text; an unknown name is reported; no file is changed.", "quantifier": "all blocks with any history, all lists of names", "why_tests_cant": "Unboundedly many attribute sets and command lines.", "anchors": ["utils/bigfile-get-attr.c: main", "utils/bigfile-get-attr.c: print_attr", "src/bigfile.c: dtype_format"]}
{"id": "C73", "title": "Renaming and removing blocks", "statement": "bigfile-rename gives a block another name and changes nothing else: under the new name the same block is opened and the same rows are read, and renaming it back restores everything; if it fails nothing changes. bigfile-rm removes the blocks named, with all that is in them, and nothing else.", "quantifier": "all directory trees, blocks, names and lists of names", "why_tests_cant": "Unboundedly many trees and names; what mv does depends on what is there under the new name.", "anchors": ["utils/bigfile-rename", "utils/bigfile-rm"]}
{"id": "C74", "title": "Repartitioning keeps the data at every moment", "statement": "bigfile-repartition spreads each of the blocks named over the number of files asked for, keeping its rows and attributes, and changes nothing else; in whatever order the parallel subshells proceed, and whenever it is interrupted between two commands, the rows of every block are there under its name or its backup name.", "quantifier": "all lists of blocks with any history, file counts, interleavings of the subshells, moments of interruption", "why_tests_cant": "Unboundedly many interleavings and histories.", "anchors": ["utils/bigfile-repartition", "utils/bigfile-rename", "utils/bigfile-copy.c: main", "utils/bigfile-rm"]}
{"id": "C75", "title": "A parallel copy is a copy", "statement": "Whenever bigfile-copy-mpi exits with code 0 the new block has the type, width, rows and attributes of the old one, spread over the files asked for, and its recorded checksums are those of its files, whatever the number of processes and the order in which they receive work and write; no other file changes.", "quantifier": "all blocks with any history, file counts, buffer sizes, numbers of workers, runs of the protocol, interleavings of the workers", "why_tests_cant": "Unboundedly many schedules and histories; the checksums are computed by different processes.", "anchors": ["utils/bigfile-copy-mpi.c: main, server, slave", "src/bigfile-mpi.c: big_block_mpi_close, big_block_mpi_flush", "src/bigfile.c: big_block_write"]}
{"id": "C76", "title": "Sampling chooses the same rows under every schedule", "statement": "bigfile-sample-mpi chooses from each piece of CHUNKSIZE rows as many as the random numbers say; the new block has the chosen rows, in their order, with the attributes of the old one; which rows these are depends neither on the number of processes nor on their schedule; with ratio 1 all rows are chosen.", "quantifier": "all blocks with any history, random number generators, numbers of workers, runs of the protocol, interleavings", "why_tests_cant": "Unboundedly many schedules, histories and random numbers.", "anchors": ["utils/bigfile-sample-mpi.c: main, filesize, server, slave"]}
{"id": "C77", "title": "A block made from the arrays of all processes", "statement": "FileMPI.create_from_array, called by all processes with their arrays, makes a block that holds the rows of all arrays in the order of the ranks, with the type and width of the arrays, the number of files asked for and valid checksums, and returns to every process a handle that reads all of it; or it raises an exception at every process. No other file changes, whatever the schedule.", "quantifier": "all numbers of processes, arrays (also empty ones) at each, types, widths, file counts, memory limits, schedules", "why_tests_cant": "Unboundedly many schedules, sizes and process counts; the checksums are computed by different processes.", "anchors": ["bigfile/__init__.py: FileMPI.create_from_array, FileMPI.create, ColumnMPI.create, ColumnMPI.open, check_unique", "bigfile/pyxbigfile.pyx: ColumnLowLevelAPI.write, _MPI_flush, _MPI_broadcast"]}
{"id": "C78", "title": "Attributes are a dict from Python", "statement": "b.attrs behaves like a Python dict that is saved with the block: after any sequence of attrs[name] = value, del attrs[name], attrs[name], name in attrs, keys(), flush and close-and-open, attrs[name] gives the value last assigned (a string as a string, a list of strings as a list, an array with its type, length and contents), a missing or deleted name raises KeyError, keys() lists exactly the names present in sorted order, and a refused assignment raises and changes nothing", "quantifier": "all sequences of those statements, all names, strings, lists of strings and arrays, every buffer address", "why_tests_cant": "a test uses a few names and values in one order; the dict must be right after every history", "anchors": ["bigfile/pyxbigfile.pyx: AttrSet.keys, __contains__, __getitem__, __delitem__, __setitem__"]}
{"id": "C79", "title": "Dataset is a list of records from Python", "statement": "Dataset(file, names) over columns of equal length opens with the size of the columns, and behaves like a Python list of records: after any sequence of ds[i], ds[a:b], ds[...], ds[a:b] = array and ds.append(array, Nfile), reading gives the records last assigned, append adds the records of the array at the end, the size is the length of the list, an index out of range raises IndexError, and a Dataset opened later sees the same; columns of different lengths raise bigfile.Error", "quantifier": "all record types, all numbers of records and files, all sequences of those statements, every array and index", "why_tests_cant": "a test indexes one small dataset with one field type; the list must be right for every type, slice, array layout and history", "anchors": ["bigfile/pyxbigfile.pyx: Dataset.__init__, read, write, append, _create_records", "bigfile/__init__.py: Dataset.__init__, _getslice, __setitem__, __getitem__"]}
{"id": "C80", "title": "Columns that are pickled, and several Columns of one block, share one table", "statement": "A Column may be pickled and unpickled, in the same or another process, at any time, with or without unflushed writes, and the block may be opened any number of times; after any sequence of reads, writes, flushes, appends, picklings and releases of all these Columns, every read gives the rows last written through any of them, releasing any of them loses nothing, and a Column opened later has all rows, with the checksums of the files recorded", "quantifier": "all element types, file layouts, numbers of Columns, and sequences of those calls on them in any order", "why_tests_cant": "a test pickles one clean Column and reads once; loss depends on the order of pickling, growing, writing and releasing across all handles", "anchors": ["bigfile/pyxbigfile.pyx: Column.__getstate__, __setstate__, _unpickle_column, append, __dealloc__", "src/bigfile.c: _big_block_pack, _big_block_unpack, big_block_close, big_block_flush, big_block_grow"]}
{"id": "C81", "title": "A File of the Python package is a dictionary of tables", "statement": "After any sequence of creations, listings, membership tests and f[name] followed by reads, writes, appends and a release, through any number of File objects of the same path, opened or unpickled at any time: keys() is the sorted list of the names of exactly the blocks there are, name in f says whether there is one, f[name] opens it with what was last written to it or raises if there is none, creating or using one block never disturbs another, and nothing outside the directory of the file changes", "quantifier": "all paths, block names (nested in directories to any depth), element types, layouts, numbers of File objects, and sequences of those calls on them in any order", "why_tests_cant": "a test makes two or three blocks through one File; whether listings, creations and blocks interfere depends on all names and on the order of calls on all File objects", "anchors": ["bigfile/__init__.py: FileBase, File.blocks, File.open, File.create", "bigfile/pyxbigfile.pyx: FileLowLevelAPI.__init__, list_blocks, __getstate__, __setstate__", "src/bigfile.c: big_file_list, big_file_open_block, big_file_create_block"]}
{"id": "C82", "title": "A block filled in several sessions by all processes", "statement": "A block that exists may be opened through FileMPI again and again; in each session every process writes its rows behind those of the processes of lower rank and the block is closed. Afterwards the block holds what the sessions wrote over what it held before, its checksums are valid if no row was written twice, any process can open it and go on from there, and no other file has changed, whatever the schedule", "quantifier": "all histories of the block before, all numbers of processes and sessions, positions, rows per process (also none), slice lengths, schedules", "why_tests_cant": "a test fills a block in one session with one or two processes; the checksums are added up over all processes at every close", "anchors": ["bigfile/__init__.py: FileMPI.open, ColumnMPI.open, ColumnMPI.flush", "bigfile/pyxbigfile.pyx: ColumnLowLevelAPI.write, __exit__, _MPI_flush, _MPI_broadcast"]}
{"id": "C83", "title": "Reading into an array of the caller", "statement": "Column.read(start, length, out) puts the rows asked for, as far as they exist, into out if out has that many rows and the width and type of the block; otherwise it raises an exception. It changes nothing but the elements of out", "quantifier": "all histories of the block, start and length (also -1 and beyond the end), arrays of every shape, type and strides (also reversed or with gaps), contents of memory", "why_tests_cant": "a test reads into one array that fits; what counts is every array that does not, and every history that put the rows there", "anchors": ["bigfile/pyxbigfile.pyx: ColumnLowLevelAPI.read", "src/bigfile.c: big_array_init, big_block_seek, big_block_read"]}
