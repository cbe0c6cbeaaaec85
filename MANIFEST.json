{
 "claims": [
  {
   "property": "C01",
   "status": "proved",
   "theorems": [
    "C01_seek",
    "C01_pointer_inside"
   ],
   "note": ""
  },
  {
   "property": "C02",
   "status": "proved",
   "theorems": [
    "C02_seek_rel",
    "C02_eof"
   ],
   "note": "Pointers are those produced by a successful seek; relative offsets whose target wraps out of the signed 64-bit range are excluded."
  },
  {
   "property": "C03",
   "status": "proved",
   "theorems": [
    "C03_read_after_write",
    "C03_read_after_write_converting"
   ],
   "note": "Both byte orders of block and array; two handles may use different buffers and array shapes."
  },
  {
   "property": "C04",
   "status": "proved",
   "theorems": [
    "C04_write_frame"
   ],
   "note": "Rows outside the range keep their bytes; a row never written before becomes a zero row exactly when a later row of the same file was written; other files are untouched."
  },
  {
   "property": "C05",
   "status": "proved",
   "theorems": [
    "C05_write_out_of_range",
    "C05_read_out_of_range"
   ],
   "note": "Arrays larger than 2^64 - offset elements are excluded."
  },
  {
   "property": "C06",
   "status": "proved",
   "theorems": [
    "C06_write_buffer_size",
    "C06_read_buffer_size"
   ],
   "note": ""
  },
  {
   "property": "C07",
   "status": "partial",
   "theorems": [
    "C07_read_terminates",
    "C07_write_terminates_partial",
    "C07_write_never_ends",
    "C07_termination_refuted"
   ],
   "note": "REFUTED as stated: a write whose row is wider than the transfer buffer loops for ever (C07_write_never_ends, for every fuel). Reads end for every buffer size and writes end when a row fits."
  },
  {
   "property": "C11",
   "status": "proved",
   "theorems": [
    "C11_traversal",
    "C11_read_into_strided",
    "C11_failed_read_frame"
   ],
   "note": ""
  },
  {
   "property": "C20",
   "status": "proved",
   "theorems": [
    "C20_portable"
   ],
   "note": ""
  },
  {
   "property": "C21",
   "status": "partial",
   "theorems": [
    "C21_source_unchanged_partial",
    "C21_source_reversed",
    "C21_source_unchanged_refuted"
   ],
   "note": "REFUTED as stated: a source array of the other byte order is byte-swapped in place and left so. Proved for native arrays, and the damage is characterised exactly."
  },
  {
   "property": "C24",
   "status": "proved",
   "theorems": [
    "C24_table",
    "C24_write_unsupported",
    "C24_read_unsupported"
   ],
   "note": ""
  },
  {
   "property": "C15",
   "status": "proved",
   "theorems": [
    "C15_header_round_trip"
   ],
   "note": "Element types with an ordinary type letter and width, at most 2^24 files; beyond that see C18."
  },
  {
   "property": "C16",
   "status": "partial",
   "theorems": [
    "C16_open_result",
    "C16_open_safe_partial",
    "C16_open_safe_refuted",
    "C16_negative_size_refuted"
   ],
   "note": "REFUTED as stated: a header may carry a negative file size, and truncated attribute files make the reader run off its buffer. Every block that opens has the stated shape, and opening is free of undefined behaviour for arbitrary header bytes when there are no attribute files."
  },
  {
   "property": "C17",
   "status": "proved",
   "theorems": [
    "C17_header_crash"
   ],
   "note": ""
  },
  {
   "property": "C18",
   "status": "partial",
   "theorems": [
    "C18_created_reopens_partial",
    "C18_created_reopens_refuted"
   ],
   "note": "REFUTED as stated: create validates neither the dtype nor the width nor the number of files. The partial theorem says exactly which created blocks reopen."
  },
  {
   "property": "C19",
   "status": "proved",
   "theorems": [
    "C19_normalise",
    "C19_canonical"
   ],
   "note": ""
  },
  {
   "property": "C35",
   "status": "proved",
   "theorems": [
    "C35_grow",
    "C35_grow_persists"
   ],
   "note": ""
  },
  {
   "property": "C36",
   "status": "partial",
   "theorems": [
    "C36_create_over_partial",
    "C36_create_over_refuted"
   ],
   "note": "REFUTED as stated: a legacy attribute file is not removed and its attributes reappear. Proved when there is none."
  },
  {
   "property": "C26",
   "status": "proved",
   "theorems": [
    "C26_attribute_map"
   ],
   "note": "Legal calls (readable value, size fits an int) using at most 2^61 bytes of buffer in all."
  },
  {
   "property": "C27",
   "status": "proved",
   "theorems": [
    "C27_memory_safe"
   ],
   "note": "For arbitrary functions giving the addresses malloc and realloc return."
  },
  {
   "property": "C28",
   "status": "partial",
   "theorems": [
    "C28_get_partial",
    "C28_get_refuted"
   ],
   "note": "REFUTED as stated: a value stored in the other byte order is swapped in place by each read. Proved for values in the machine's byte order."
  },
  {
   "property": "C29",
   "status": "partial",
   "theorems": [
    "C29_sessions",
    "C29_survive_partial",
    "C29_survive_refuted"
   ],
   "note": "REFUTED as stated for foreign byte order (second flush), zero-length values and the empty name. Proved for all other values over all histories of set, remove, flush and reopen."
  },
  {
   "property": "C30",
   "status": "partial",
   "theorems": [
    "C30_removed_partial",
    "C30_removed_refuted"
   ],
   "note": "REFUTED as stated: removal does not mark the attributes dirty. C29_sessions describes exactly when it becomes durable."
  },
  {
   "property": "C31",
   "status": "proved",
   "theorems": [
    "C31_blank_name",
    "C31_blank_meaning"
   ],
   "note": "The dirty flag is set although the call is rejected; the map is unchanged."
  },
  {
   "property": "C32",
   "status": "partial",
   "theorems": [
    "C32_crash_partial",
    "C32_crash_refuted"
   ],
   "note": "REFUTED as stated: a cut inside the four fields of a line runs off the buffer. Every other cut keeps the attributes whose lines are complete."
  },
  {
   "property": "C33",
   "status": "proved",
   "theorems": [
    "C33_legacy"
   ],
   "note": ""
  },
  {
   "property": "C08",
   "status": "proved",
   "theorems": [
    "C08_not_fabricated"
   ],
   "note": "after creation over arbitrary old contents and any legal history; reads must use conversions defined on every element (all but float to integer)"
  },
  {
   "property": "C09",
   "status": "proved",
   "theorems": [
    "C09_history"
   ],
   "note": "hspecs is the table specification in HistSpec.v; operations are write, read, grow, flush, close-and-reopen"
  },
  {
   "property": "C10",
   "status": "proved",
   "theorems": [
    "C10_partition_invisible"
   ],
   "note": "any two layouts of the same total size, any histories that agree up to how growth is cut into files, any buffer sizes"
  },
  {
   "property": "C13",
   "status": "proved",
   "theorems": [
    "C13_checksums"
   ],
   "note": "per-file sums and the reduced checksum printed by bigfile-ls -l against System V sum of all data"
  },
  {
   "property": "C14",
   "status": "partial",
   "theorems": [
    "C14_checksum_partial",
    "C14_checksum_refuted"
   ],
   "note": "REFUTED as stated: overwriting adds the new bytes to the sum without subtracting the old ones. Proved: the recorded value is the sum of all bytes ever written to the file"
  },
  {
   "property": "C12",
   "status": "partial",
   "theorems": [
    "C12_read_simple_partial",
    "C12_read_simple_refuted"
   ],
   "note": "REFUTED for negative start: only a request for exactly the rows up to the end succeeds, every other count fails. Proved for every start >= 0, count, layout and destination type"
  },
  {
   "property": "C22",
   "status": "proved",
   "theorems": [
    "C22_int_cast",
    "C22_unique",
    "C22_value_kept",
    "C22_round_trip"
   ],
   "note": "all ordered pairs of i4 i8 u4 u8 b1 that the code converts (only b1 becomes b1), both byte orders on each side"
  },
  {
   "property": "C23",
   "status": "proved",
   "theorems": [
    "C23_f4_f8_f4",
    "C23_int_f8_int"
   ],
   "note": "all 2^32 bit patterns; NaNs come back with the quiet bit set"
  },
  {
   "property": "C25",
   "status": "partial",
   "theorems": [
    "C25_complex_partial",
    "C25_complex_exchanged",
    "C25_complex_refuted"
   ],
   "note": "REFUTED as stated: when the byte orders differ the whole element is reversed, so real and imaginary part are exchanged, for every value (C25_complex_exchanged). Proved for equal byte orders"
  },
  {
   "property": "C37",
   "status": "partial",
   "theorems": [
    "C37_even_partial",
    "C37_python_even_partial",
    "C37_even_refuted"
   ],
   "note": "REFUTED for size * n >= 2^64 (the product wraps); proved below that bound, and below 2^63 for the Python binding"
  },
  {
   "property": "C61",
   "status": "proved",
   "theorems": [
    "C61_f8_f4_rounds",
    "C61_int_rounds"
   ],
   "note": "every finite f8 and every integer; infinity only beyond the largest finite number plus half an ulp"
  },
  {
   "property": "C38",
   "status": "proved",
   "theorems": [
    "C38_add",
    "C38_complete",
    "C38_disjoint",
    "C38_set",
    "C38_get",
    "C38_others"
   ],
   "note": "fields with dtype strings of at most 7 characters and record size below 2^31, as the 8-byte dtype array and the int offsets require"
  },
  {
   "property": "C39",
   "status": "proved",
   "theorems": [
    "C39_records",
    "C39_round_trip"
   ],
   "note": "all packed record types whose field directories are not inside each other; histories of write, read and append; fields of foreign byte order leave the source buffer byte-swapped (left_by_write, finding C21)"
  },
  {
   "property": "C50",
   "status": "partial",
   "theorems": [
    "C50_listing_partial",
    "C50_nested_refuted",
    "C50_hidden_refuted",
    "C50_only_blocks_refuted"
   ],
   "note": "REFUTED as stated: blocks inside a block and names beginning with a dot are not listed, and any entry named header makes its directory listed. Proved: exactly the remaining blocks, each once, for every tree"
  },
  {
   "property": "C51",
   "status": "proved",
   "theorems": [
    "C51_keeps",
    "C51_makes",
    "C51_again",
    "C51_create_file",
    "C51_create_block",
    "C51_file_in_place_refuted"
   ],
   "note": "C51_file_in_place_refuted documents that a regular file in the last place is accepted as if it were the directory"
  },
  {
   "property": "C62",
   "status": "proved",
   "theorems": [
    "C62_write",
    "C62_flush",
    "C62_close",
    "C62_grow",
    "C62_create",
    "C62_elsewhere"
   ],
   "note": ""
  },
  {
   "property": "C34",
   "status": "proved",
   "theorems": [
    "C34_handle"
   ],
   "note": "All handles whose members fit their C types, including metadata-only blocks; LP64 layout; alignment of the packed attribute list is not modelled."
  },
  {
   "property": "C40",
   "status": "proved",
   "theorems": [
    "C40_segments"
   ],
   "note": ""
  },
  {
   "property": "C41",
   "status": "proved",
   "theorems": [
    "C41_collective_write"
   ],
   "note": "all schedules; segments of fewer than 2^31 rows, rows of less than 2^31 bytes (int counts of MPI); a row fits the chunk buffer"
  },
  {
   "property": "C42",
   "status": "proved",
   "theorems": [
    "C42_collective_read"
   ],
   "note": "same conditions as C41"
  },
  {
   "property": "C43",
   "status": "proved",
   "theorems": [
    "C43_agreement"
   ],
   "note": ""
  },
  {
   "property": "C46",
   "status": "proved",
   "theorems": [
    "C46_write_matches",
    "C46_read_matches"
   ],
   "note": "writes: all failures of files, bounds and conversion; reads: whatever is in the files, provided that the conversion is defined on all element values (out-of-range float to integer conversion is undefined in C)"
  },
  {
   "property": "C47",
   "status": "partial",
   "theorems": [
    "C47_failed_write_partial",
    "C47_refuted"
   ],
   "note": "REFUTED as stated: a rank whose rows lie entirely past the end ignores its failed seek and writes at the common pointer (C47_refuted, one concrete schedule). Proved under all schedules: the call fails on every rank, and rows outside the addressed range and all other files are unchanged"
  },
  {
   "property": "C49",
   "status": "proved",
   "theorems": [
    "C49_leader"
   ],
   "note": ""
  },
  {
   "property": "C44",
   "status": "proved",
   "theorems": [
    "C44_share",
    "C44_create",
    "C44_grow"
   ],
   "note": "each file in the share of exactly one process; under every schedule the files are those of the serial call"
  },
  {
   "property": "C45",
   "status": "partial",
   "theorems": [
    "C45_flush_partial",
    "C45_refuted"
   ],
   "note": "REFUTED as stated: the first flush gives the sums to all processes and a second flush adds them up again (C45_refuted, three processes). Proved for every schedule: one process, or one flush after any history of transfers that writes no row twice"
  },
  {
   "property": "C63",
   "status": "proved",
   "theorems": [
    "C63_collective_history"
   ],
   "note": "chunk buffers hold a row, segments of fewer than 2^31 rows, writes inside the block (see C47)"
  },
  {
   "property": "C64",
   "status": "proved",
   "theorems": [
    "C64_then_serial",
    "C64_then_collective"
   ],
   "note": "the recorded checksums are the subject of C45"
  },
  {
   "property": "C65",
   "status": "proved",
   "theorems": [
    "C65_open",
    "C65_flush"
   ],
   "note": "handles whose members fit their C types"
  },
  {
   "property": "C56",
   "status": "partial",
   "theorems": [
    "C56_slicing_partial",
    "C56_disorder",
    "C56_refuted"
   ],
   "note": "REFUTED as stated: b[1:0] returns all rows from 1 on and b[-1] raises ValueError on a block of three rows. Proved after every history: slices whose bounds are in order, b[...] and b[i] with i other than -1 agree with the list of all rows (IndexError outside), other steps raise ValueError; what happens to bounds out of order"
  },
  {
   "property": "C57",
   "status": "partial",
   "theorems": [
    "C57_assignment_partial",
    "C57_refuted"
   ],
   "note": "REFUTED as stated: the value's length, not the slice, decides which rows change. Proved: the rows of the value replace those from the start of the slice on, nothing else changes; a value that does not fit changes nothing"
  },
  {
   "property": "C58",
   "status": "partial",
   "theorems": [
    "C58_from_array_partial",
    "C58_wide_rows",
    "C58_refuted"
   ],
   "note": "REFUTED as stated: rows wider than memorylimit/1024 leave an empty block and raise ValueError. Proved for the serial call with every length, width, file count and memory limit of at least 1024 rows"
  },
  {
   "property": "C66",
   "status": "proved",
   "theorems": [
    "C66_append"
   ],
   "note": "at least one row and one file"
  },
  {
   "property": "C60",
   "status": "partial",
   "theorems": [
    "C60_open_partial",
    "C60_create_partial",
    "C60_refuted"
   ],
   "note": "REFUTED as stated: the file's own attribute block '.' is found by the serial open but not by the collective one. Proved for every other name: both interfaces open and create the same files"
  },
  {
   "property": "C52",
   "status": "proved",
   "theorems": [
    "C52_threads",
    "C52_fallback_refuted",
    "C52_reader_refuted"
   ],
   "note": "for the builds with an atomic exchange; without one (last conditional branch) both threads may free the same message, and a text obtained by a reader may be freed by a later error before it is used"
  },
  {
   "property": "C53",
   "status": "partial",
   "theorems": [
    "C53_raise",
    "C53_error_partial",
    "C53_long_name_refuted",
    "C53_percent_refuted",
    "C53_refuted"
   ],
   "note": "REFUTED as stated: a block name of 512 bytes or more overruns the buffer, and a name containing a percent directive becomes the format of the next caller. Proved: the exact condition under which a message fits, and the resulting text through any number of callers for values without percent signs"
  },
  {
   "property": "C54",
   "status": "partial",
   "theorems": [
    "C54_copy_partial",
    "C54_small_buffer",
    "C54_refuted"
   ],
   "note": "REFUTED as stated for file counts above 2^24: exit code 0, but the new block cannot be opened; with a buffer smaller than a row the program never ends. Proved for every block made through the library by any number of rounds of row and attribute operations, every other file count and buffer size, with rows times files below 2^64 and the new block outside the directory of the old one: code 0 and equal type, width, rows, attributes, valid checksums if every row is readable, code 1 otherwise"
  },
  {
   "property": "C59",
   "status": "partial",
   "theorems": [
    "C59_create_partial",
    "C59_small_buffer",
    "C59_refuted"
   ],
   "note": "REFUTED as stated: with less than one row of input the block claims 2^64-1 rows, and with a buffer smaller than a row the program never ends (any input). Proved for every other input and buffer size: exit code 0, the rows, the type and the checksums"
  },
  {
   "property": "C55",
   "status": "partial",
   "theorems": [
    "C55_rows",
    "C55_finishes_partial",
    "C55_failure_unreported",
    "C55_one_process_refuted",
    "C55_unbuffered_refuted",
    "C55_small_buffer_refuted"
   ],
   "note": "REFUTED as stated: with one process the server waits for ever (C55_one_process_refuted), with a buffer smaller than a row empty items are handed out for ever (C55_small_buffer_refuted), and if MPI_Send waits for the receiver no successful run ends (C55_unbuffered_refuted); a worker's failure ends the copying but the exit code is 0 (C55_failure_unreported). Proved: each row in at most one item at any point of any run, exactly one at the end if nothing failed (C55_rows); with buffered messages, two or more processes and a buffer of at least a row, every run ends with all processes returned within 10 size + 7 n + 3 steps (C55_finishes_partial). What copying an item does to the files is not part of this model."
  },
  {
   "property": "C48",
   "status": "proved",
   "theorems": [
    "C48_partners",
    "C48_sparse",
    "C48_completes",
    "C48_alltoallv",
    "C48_total"
   ],
   "note": "All rank counts up to 2^30 (a larger count overflows an int in the code), all count matrices and displacements that MPI_Alltoallv itself allows, all schedules, buffered or unbuffered sends. The variant compiled with NO_ISEND_IRECV_IN_DOMAIN is not modelled."
  },
  {
   "property": "C67",
   "status": "partial",
   "theorems": [
    "C67_cat_partial",
    "C67_text_partial",
    "C67_exact_partial",
    "C67_small_buffer",
    "C67_refuted"
   ],
   "note": "REFUTED as stated: the last read is not cut at the rows asked for, so -c 3 with a buffer of two rows prints four rows; with a buffer smaller than a row the program never ends. Proved for every block made through the library and every start, count and buffer of at least a row: exactly which rows are printed (binary for all types, text for integer types), exit code 1 at a missing row, no file changed; and when these are the rows asked for"
  },
  {
   "property": "C68",
   "status": "partial",
   "theorems": [
    "C68_set_partial",
    "C68_string_partial",
    "C68_type_refuted",
    "C68_last_refuted",
    "C68_count_refuted"
   ],
   "note": "REFUTED as stated: without -t an existing attribute gets the type of its successor in the list, or strncpy onto itself if it is the last; a new attribute without -n is written past a buffer of zero bytes. Proved with -t, for native integer types and strings, and a known number of elements: the attribute map changes at this name only, and no file but attr-v2 changes"
  },
  {
   "property": "C69",
   "status": "partial",
   "theorems": [
    "C69_format_partial",
    "C69_parse_partial",
    "C69_round_trip_partial",
    "C69_bool_refuted",
    "C69_unchanged_refuted"
   ],
   "note": "REFUTED as stated: b1 elements are printed but cannot be read, and printing an element of foreign byte order reverses it in place. Proved for all other integer types and all notations"
  },
  {
   "property": "C70",
   "status": "proved",
   "theorems": [
    "C70_ls",
    "C70_long",
    "C70_block",
    "C70_hidden_refuted"
   ],
   "note": "assumes, as C16, that opening the blocks is not undefined behaviour (damaged headers); a block with a component beginning with a dot can be opened but is not listed (C70_hidden_refuted)"
  },
  {
   "property": "C71",
   "status": "partial",
   "theorems": [
    "C71_compares_partial",
    "C71_one_byte_partial",
    "C71_overwritten_refuted",
    "C71_exchanged_refuted",
    "C71_unopenable_refuted"
   ],
   "note": "REFUTED as stated: an undamaged block of which rows were overwritten is reported, exchanged bytes are not, nor is a block that is missing or cannot be opened. Proved: exactly what is compared, for every block made through the library whose rows are all readable; no false alarm if no row was written twice, and then every change of a single byte is reported"
  },
  {
   "property": "C72",
   "status": "partial",
   "theorems": [
    "C72_one_partial",
    "C72_several_partial",
    "C72_twice_refuted",
    "C72_string_refuted"
   ],
   "note": "REFUTED as stated: string attributes (S1) are printed as <<S1> per character, and an attribute of the other byte order named twice is printed with two different values. Proved for integer types: the value, the whole line, several names, all attributes in order, unknown names, no file changed"
  },
  {
   "property": "C73",
   "status": "partial",
   "theorems": [
    "C73_rename_partial",
    "C73_fails",
    "C73_rm",
    "C73_existing_refuted"
   ],
   "note": "REFUTED as stated: if a block of the new name exists the program exits with 0, but the block is moved inside it and the new name still is the other block. Proved if the new name is free and its directory exists: everything is moved, opening and reading give the same results, the inverse restores every file; a failing rename and rm of any list are proved for all trees. mv and rm are modelled after POSIX, without a slash at the end of names"
  },
  {
   "property": "C74",
   "status": "partial",
   "theorems": [
    "C74_repartition_partial",
    "C74_missing_partial",
    "C74_quiet_refuted",
    "C74_backup_refuted",
    "C74_nested_refuted"
   ],
   "note": "REFUTED as stated: without -v every block only gets the backup name (C74_quiet_refuted, for all blocks); if the backup name is taken the rows are lost (C74_backup_refuted); blocks inside the block are lost (C74_nested_refuted). Proved with -v for any number of blocks made through the library with separate names, free backup names and rows of at most 2^28 bytes, every interleaving of the commands and every moment between two commands. Each command is one step; a crash inside bigfile-copy is not covered"
  },
  {
   "property": "C75",
   "status": "partial",
   "theorems": [
    "C75_copy_partial",
    "C75_refuted"
   ],
   "note": "REFUTED as stated: if a row of the old block was never written the program exits with 0 and later rows are missing in the copy (C75_refuted). Proved if all rows of the old block can be read: for every number of workers, every point of every run and every interleaving of the items no item fails, the exit code is 0, and at the end the copy is complete. The new block must not lie inside the old one; at most 2^24 files. One item is processed at a time; the collective open, create and close are replaced by their serial counterparts (C44, C60, C65)"
  },
  {
   "property": "C76",
   "status": "partial",
   "theorems": [
    "C76_sample_partial",
    "C76_refuted"
   ],
   "note": "REFUTED as stated: if a Poisson number is larger than its piece the program aborts (C76_refuted). Proved for all random number generators whose numbers are in range and do not exceed the pieces, under the conditions of C75"
  },
  {
   "property": "C77",
   "status": "partial",
   "theorems": [
    "C77_arrays_partial",
    "C77_wide_rows",
    "C77_names",
    "C77_failure_hangs",
    "C77_failure_refuted"
   ],
   "note": "REFUTED as stated: if rank 0 cannot create the block the other ranks wait for ever (C77_failure_hangs, C77_failure_refuted), and rows wider than memorylimit/1024 raise ValueError at every rank but leave an empty block behind (C77_wide_rows). Proved under every schedule for a free place, rows that fit the transfer buffer and the limit (C77_arrays_partial); ranks that disagree on the name all raise and touch nothing (C77_names)"
  },
  {
   "property": "C78",
   "status": "partial",
   "theorems": [
    "C78_dict_partial",
    "C78_last_value_partial",
    "C78_deleted_returns",
    "C78_long_cut",
    "C78_deleted_refuted",
    "C78_order_refuted",
    "C78_long_refuted"
   ],
   "note": "REFUTED as stated: a saved attribute that is deleted is back when the block is opened again, on every block (C78_deleted_returns); reading an array of the other byte order changes it (C78_order_refuted); a list with a string of 100000 to 999999 bytes reads back cut to a tenth without an exception (C78_long_cut). Proved for every history of all operations, with values of the machine's byte order, not empty, below 2^30 bytes, strings in lists shorter than 100000 bytes and not ending in NUL (numpy drops those); deletions follow the specification that they are saved only together with a later assignment. Empty values and names are excluded, see C29"
  },
  {
   "property": "C79",
   "status": "partial",
   "theorems": [
    "C79_dataset_partial",
    "C79_columns",
    "C79_back_refuted",
    "C79_view_refuted",
    "C79_strings_refuted"
   ],
   "note": "REFUTED as stated: ds[2:1] and ds[-1] raise ValueError (C79_back_refuted); assigning a strided view such as v[::2] stores other records without an exception, because only the address of the array is passed on (C79_view_refuted); strings written on a machine of the other byte order are shown reversed, although the column itself shows them right (C79_strings_refuted). Proved for every history with C-contiguous, non-empty arrays, all records written, and types that numpy spells as they are stored; the answer in the first case is part of the specification. Selection of columns by name, empty arrays and Dataset.create (which omits an argument and cannot succeed) are not covered"
  },
  {
   "property": "C80",
   "status": "partial",
   "theorems": [
    "C80_columns_partial",
    "C80_pickled_grow_refuted",
    "C80_stale_write_refuted",
    "C80_checksum_refuted"
   ],
   "note": "REFUTED as stated: a Column pickled with something to save has a copy that writes the old header when it is released, and rows appended in the meantime are not in the block any more (C80_pickled_grow_refuted); the same if a Column writes that was opened before the block grew (C80_stale_write_refuted); with two writers the recorded checksums are not those of the files (C80_checksum_refuted). Proved for every history of every number of Columns in which a Column writes only if it knows all files and the block grows only while no other Column has something to save: one table, nothing lost, and checksums that count everything written wherever the writer had such checksums. Attributes are not set in these histories"
  },
  {
   "property": "C81",
   "status": "partial",
   "theorems": [
    "C81_dict_partial",
    "C81_stale_refuted",
    "C81_nested_refuted",
    "C81_hidden_refuted",
    "C81_header_refuted"
   ],
   "note": "REFUTED as stated: a File that has listed the blocks keeps that list, so it denies blocks that another File creates, although it opens them (C81_stale_refuted); a block inside the directory of another block and one whose name begins with a dot can be created and opened but are not among the keys (C81_nested_refuted, C81_hidden_refuted); creating a/header makes a a key that cannot be opened (C81_header_refuted). Proved for every history of every number of File objects of a new path, with names that are not of these kinds: one dictionary of tables, each File listing what there was when it made its list. Attributes are not set in these histories, every Column is released before the next call on a File, and the path of the file is new"
  },
  {
   "property": "C82",
   "status": "partial",
   "theorems": [
    "C82_sessions_partial",
    "C82_checksums_refuted"
   ],
   "note": "REFUTED as stated: with two or more processes the second session on a block records wrong checksums, because every process starts from those recorded and closing adds them up. Proved for every history before, every number of processes and sessions, under every schedule: all calls return, the rows are right, later histories go on from them, no other file changes, and the exact checksums recorded; they are valid for one process, and for one session of any number of processes if those recorded before were zero. Blocks with attributes are left out."
  },
  {
   "property": "C83",
   "status": "partial",
   "theorems": [
    "C83_read_into_partial",
    "C83_type_refuted",
    "C83_shape_refuted"
   ],
   "note": "REFUTED as stated: an array of another type with elements of the same size is accepted and gets the bytes of the file unconverted, and an array with the right number of rows but of another width is accepted and gets rows that were not asked for. Proved for every history: an array of the right shape, with any strides, and size of an element gets exactly the bytes of the rows asked for; rows never written raise; a wrong number of rows or size of an element raises ValueError and changes nothing; only elements of the array change."
  }
 ]
}