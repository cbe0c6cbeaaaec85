# Design: a Rocq model of bigfile

## What is modelled

The C library `src/bigfile.c`, `src/bigfile-record.c`, `src/bigfile-mpi.c`,
`src/mp-mpiu.c`, the arithmetic of the Python layer, and the main loops of the
utilities, as total Gallina functions over

* **bytes** `Coq.Init.Byte.byte`; C strings are byte lists without NUL;
* **numbers** `Z`, with explicit wrap-around to 32 or 64 bits wherever the C
  code can wrap;
* **user memory** as partial byte maps; strided arrays address into it, an
  access to an unmapped byte is `Undef`;
* **the file system** as a finite map from path components to files (byte
  strings) and directories; `fopen` modes r, r+, w, w+ as in POSIX;
* **machine byte order** as a parameter;
* **outcomes** `Ret x | Undef why | Diverge`: a C function that returns -1 is
  `Ret` with a return code; undefined behaviour and running out of loop fuel
  are separate outcomes that theorems have to exclude;
* **MPI** as functions on vectors of per-rank states; concurrency of I/O as
  arbitrary interleavings of the lists of positioned writes.

Files: `X.v` holds definitions with citations of the modelled lines,
`XFacts.v` the proofs, `Spec.v` the independent specifications and
`PropsNN.v` the property theorems, each proved by `exact` of a lemma and
followed by `Print Assumptions` and by an `Example` that meets its hypotheses.

A property that is false of the code is stated as `..._refuted` with a concrete
counterexample, next to the strongest true restriction (suffix `_partial`).

## Plan per property

- **C01** Seeking locates the row. Model `big_block_seek` with 64-bit wrap-around and the literal binary search; loop invariant; theorem over all monotone layouts.
- **C02** Relative seeks compose and end-of-file is exact. Same model plus `big_block_seek_rel`, `big_block_eof`.
- **C03** Read returns what was written. Model user memory (byte map), strided iterators, conversion, chunk loop, data files as byte strings. Loop invariant: each chunk = per-row store; compose write with read.
- **C04** A write changes only its own rows. From the per-row characterisation of the write loop plus a frame lemma on files.
- **C05** Out-of-range transfers are rejected without effect. Direct from the bounds check in the modelled functions.
- **C06** The I/O buffer size is invisible. Two runs with different chunk sizes are both equal to the per-row specification.
- **C07** Transfers terminate. Loops have fuel and return `Diverge` when it runs out; prove fuel = rows+1 suffices when a row fits in the buffer; refutation: with a smaller buffer every fuel runs out (write).
- **C08** Rows never written are not fabricated. Read succeeds only if bytes exist; create/grow truncate every data file of the block.
- **C09** A block behaves like a growable table under any history. Refinement of the op-list interpreter to an abstract table; induction over histories.
- **C10** The physical partition is invisible. Both partitions refine the same abstract table.
- **C11** Strided arrays are traversed in C order and nothing else is touched. Model iterators literally; prove the k-th visited address equals the row-major mixed-radix address; frame on stores.
- **C12** Convenience read clips at the end. Model `big_block_read_simple` with the signed/unsigned comparison; prove for start >= 0, refute for negative start.
- **C13** Checksums equal the data checksums when each row is written once. Checksum is additive mod 2^32; induction over chunks and over writes.
- **C14** The recorded checksum always describes the current data. Refuted by an overwrite; positive version is C13.
- **C15** Header round trip. Model printf/fscanf directives used; prove scan(print b) = b.
- **C16** Opening an arbitrary header is safe. Total model of the header scanner over arbitrary bytes with `Undef` for the 8-byte buffer overrun; invariant theorem; refutation for long dtype tokens.
- **C17** A crash while rewriting the header is detected or harmless. Induction on prefixes of the printed header.
- **C18** Every block that can be created can be reopened. Refuted (dtype not validated by create; more than 2^24 files); proved for valid dtypes, width >= 0 and at most 2^24 files.
- **C19** dtype normalisation is canonical. Model normalisation on C strings; case analysis and induction.
- **C20** Files are portable between byte orders. Machine byte order is a parameter of the model; compose write on machine A with read on machine B.
- **C21** Writing does not modify the caller's array. Proved for native sources; refuted for non-native.
- **C22** Integer casts are value preserving or wrap. Model casts on byte lists via two's complement Z; arithmetic mod 2^k.
- **C23** Floating point casts through a wider type are lossless. IEEE conversion on bit patterns as integer arithmetic (decode to sign, mantissa, exponent; encode with round-to-nearest-even); exactness lemmas.
- **C24** Unsupported conversions are rejected without effect. Case analysis on the cast dispatcher; the write loop stops before the first file write.
- **C25** Complex data keep real and imaginary parts. Proved that the round trip through one block is the identity; refuted across byte orders of array and block.
- **C26** Attributes form a map. Model attribute list and buffer; refinement to a finite map by induction over op lists.
- **C27** Attribute storage is memory safe. Buffer accesses are bounds checked in the model (`Undef`); prove never reached for any realloc address oracle.
- **C28** Reading an attribute does not change it. Proved for native attributes, refuted for others.
- **C29** Attributes survive flush and reopen. Model writer and tokenizer; parse(print) = id for non-empty names and values; refuted for empty.
- **C30** Removing an attribute is durable. Refuted (removal does not mark the set dirty); proved when another set follows.
- **C31** Attribute names with blanks are rejected without effect. Direct on the model.
- **C32** A crash while rewriting attributes keeps the block openable. Refuted by a prefix cut in the hex data (read past the end); positive part: cuts at line boundaries.
- **C33** Legacy attributes are readable and overridden by new ones. Model the v1 reader; compose with v2.
- **C34** Serialising a block handle is faithful. Pack.v models the packed bytes field by field (LP64 offsets, arbitrary junk in padding, pointers and uninitialised memory); PackFacts.v proves the round trip by relocating the attribute invariant of AttrFacts.v; the copy also behaves the same under all further attribute operations.
- **C35** Growing preserves the table and appends. Model grow; abstract table append lemma.
- **C36** Creating over an existing block starts afresh. Model create over an arbitrary file system; refuted for v1 attribute files.
- **C37** Even partition. Telescoping sum over Z division.
- **C38** Record fields are packed, disjoint and independent. Model record types; disjointness by prefix sums; memory frame.
- **C39** Record I/O round trip. Compose C03 per field by induction over fields.
- **C40** Segmentation of ranks. Model the colour assignment loop and the reductions as functions of the size vector; induction.
- **C41** Collective write equals one serial write. Small-step semantics of N ranks with shared files and collective operations (Par.v); the ranks run the model of the code (Mpi.v). [ends] says that all schedules finish properly; writers' file operations are logged and commute because they touch disjoint rows.
- **C42** Collective read equals one serial read, scattered. Same semantics; reads leave the files alone.
- **C43** Ranks agree on errors. The agreement step as a program of the small-step semantics.
- **C44** Physical files are created exactly once. Division arithmetic.
- **C45** Collective flush records the right checksums. Vector model of reduce; proved for a single flush; refuted for two.
- **C46** Collective calls match. [ends] excludes deadlock, mismatched collectives and undefined behaviour; proved for failing transfers too.
- **C47** Failed collective writes do not damage other rows. Refuted by running one schedule of a concrete call in Coq: the failed seek is ignored and rows are written at the base pointer. Proved: error on all ranks, and the frame outside the addressed range, under all schedules.
- **C48** Sparse all-to-all equals dense all-to-all. Alltoall.v: small-step semantics of MPI_Alltoallv_sparse on any number of ranks (posting receives, barrier, posting sends, wait, barrier; a network that keeps the order of messages of one pair; sends buffered or not; message truncation and out-of-bounds access are a separate outcome), and of the defaults of MPIU_Alltoallv. XOR with the own rank is an involution below the next power of two, so every partner is visited once. Invariant: for each rank the wanted sources are a permutation of delivered, posted and still to post, and likewise for targets. C48_partners, C48_sparse (safety, progress, bound, result), C48_completes, C48_alltoallv (the result as a concatenation of pieces for every policy), C48_total.
- **C49** Leader election. getloc as a program of the small-step semantics; fold over the vector.
- **C50** Listing finds every block. Model the file system as a finite path map and the recursive scan; set equality for unhidden, un-nested blocks; refuted otherwise.
- **C51** Creating directories. Induction over path components.
- **C52** Error messages are thread safe. Small-step interleaving semantics (copy, exchange, free) of any number of threads; ownership invariant by counting; the non-atomic branch and readers are refuted by schedules.
- **C53** Raising an error never overruns its buffer. Model of the two sprintf calls and of the directives; exact fit condition; induction over the callers; refuted by long names and by names with percent signs.
- **C54** bigfile-copy makes an equal block. The program models main of bigfile-copy.c over the library model (Util.v). The source ranges over the lives of a block (create, rounds of row and attribute operations, close: UtilSpec.v); an invariant keeps table and attribute map of a closed block (CopyFacts.v). The copy loop is proved by induction on the remaining rows, the attributes by induction on the list. Refuted for more than 2^24 files and small buffers.
- **C55** bigfile-copy-mpi hands out every row exactly once and finishes. CopyMpi.v: small-step semantics of the server and any number of workers with message queues; MPI_Send may return at once (eager) or only when the message was received; receiving from any source and the outcome of copying are nondeterministic. Invariants: the items in the logs, at work and in flight cover [0, offset) exactly once; the messages in flight follow the protocol; a measure decreases at every step. C55_rows (all modes), C55_finishes_partial (buffered, two or more processes, a row fits the buffer). Refuted: one process, unbuffered sends, buffer smaller than a row; a failed worker goes unreported.
- **C56** Python slicing agrees with sequence slicing. Model of slice.indices, Column.__getitem__ and ColumnLowLevelAPI.read on top of the C calls (Py.v); compared with slices of the list of rows the table of C09 shows; refuted for bounds out of order and negative indices.
- **C57** Python slice assignment stays in its slice. Column.__setitem__ as one write step of C09; refuted: the length of the value decides.
- **C58** Chunked creation from an array stores the array. Induction over the chunks, with the table of C09 filled up to the current row as invariant.
- **C59** bigfile-create records the number of rows read. The program models main of bigfile-create.c over the library model (Util.v). The oversized block is compared with one of the final size: writes commute with resizing (UtilFacts.v). Refuted for input of less than one row and for a buffer smaller than a row; proved for all other inputs.
- **C60** Serial and MPI interfaces address the same blocks. The files touched by the collective open/create under every schedule are compared with those of the serial calls; refuted for the name '.'.
- **C61** Conversions to floating point round to nearest. Encode/decode of the formats as sign, mantissa, exponent; rounding lemma for the encoder; specification by distance to every datum of the format.
- **C62** Block operations touch only the block's own files. Every file system update in the model of these functions goes through the path of a block file; case analysis and induction over the write loop.
- **C63** Histories of collective operations behave like a table. Every call leads all ranks from one agreed table to the next (CHistFacts.step_all); induction over the history.
- **C64** Collective and serial use can be mixed. The invariant of C63 after a flush implies that of the serial histories (C13), and the other way round.
- **C65** Collective open and flush equal their serial counterparts. The collective calls as a serial computation at rank 0, a broadcast of the packed handle (C34) and agreement on errors.
- **C66** Appending keeps the old rows and adds the new ones. Grow, flush and write as three steps of C09.
- **C67** bigfile-cat prints exactly the rows asked for. Model of main with standard output as a byte list; induction over the reads on top of the read lemma of C54; independent notion of decimal numeral for the text form; refuted for -c by a computed run.
- **C68** bigfile-set-attr changes one attribute and nothing else. Model of main including the aliasing of the type string and the list entry; reduction to one round of C64-style attribute histories; parsing by C69; three computed refutations.
- **C69** Numbers survive printing and reading. print_unsigned/scan_dec against positional notation (decimal_value); two's complement values (C25).
- **C70** bigfile-ls lists every block once. bigfile_ls against the set of directories that open as a block, by induction on the depth of the tree; the scandir order gives the order of names; fields of a line by padded columns.
- **C71** bigfile-check reports exactly the damaged blocks. check_block composes bigfile_cat and bigfile_ls through awk fields; the checksum column is the sum of bytes ever written (history table); a single byte changes the reduced sum.
- **C72** bigfile-get-attr prints the attributes as they are. bigfile_get_attr on the attribute set of a block made through the library; numerals of C69; the attributes keep their bytes if of the machine's order.
- **C73** Renaming and removing blocks. Repart.v models the scripts and mv/rm on the file tree (moving a subtree, into a directory if the target is one). Invariance of opening and reading under moving (alike) gives C73_rename_partial; the frame is stated on every path. Refuted for an existing target.
- **C74** Repartitioning keeps the data at every moment. Repart.v: one subshell per block, three commands each, any schedule. Invariant per block and stage (jinv), preserved by the own command (C73, the copy theorem of C54 with frame) and by the commands of the others (names apart). Refuted without -v, with a taken backup name and for nested blocks.
- **C75** A parallel copy is a copy. Share.v: the items of any protocol run of C55, in any interleaving, processed on the files with one handle per rank; close adds the checksums (C60's mpi_flush). Invariant over the item list: every handle of every rank describes the same table, the sum of the recorded checksums is right. Refuted if a row was never written.
- **C76** Sampling chooses the same rows under every schedule. Share.v: the plan made by the server from the random numbers and the selection loop of the worker; the items of a run lie on the grid of the plan (protocol invariant), their places are disjoint. Random numbers are a parameter. Refuted if a Poisson number exceeds the piece (abort).
- **C77** A block made from the arrays of all processes. MpiPy.v: check_unique, ColumnMPI.create/open, FileMPI.create/create_from_array, _MPI_flush as programs of the schedule semantics of Par.v. The writes of the ranks go to disjoint rows and commute, the checksums add up because every rank starts from zeros. Refuted for wide rows (C77_wide_rows) and for a failing rank 0: an invariant of all reachable states shows the others never return (C77_failure_hangs). comm.allgather of strings is a collective on an injective number code; the list of blocks sent by FileMPI.refresh is left out.
- **C78** Attributes are a dict from Python. PyAttr.v: the methods of AttrSet over the modelled C calls, numpy's conversion of strings and lists of strings to buffers included. PyAttrSpec.v: a dict, its copy on disk and whether something is to be saved. Refinement over all histories, on top of the session invariant of C29. Refuted for deletions (not saved), arrays of the other byte order (reading changes them) and lists with strings of 100000 bytes or more (cut to a tenth)
- **C79** Dataset is a list of records from Python. PyData.v: Dataset.__init__, indexing, assignment and append over the modelled record functions, numpy's spelling of element types included. PyDataSpec.v: a list of records. Refinement over all histories, on top of the record invariant of C39. Refuted for a stop before the start and ds[-1] (ValueError), for arrays that are strided views (other records are stored), and for strings stored in the other byte order (shown reversed)
- **C80** Columns that are pickled, and several Columns of one block, share one table. Pickle.v: pickling over the modelled pack and unpack, the first half of append, release as close, and runs of calls on a growing list of Columns that share the file system. PickleSpec.v: one table, and for each Column the files it knows, whether it has something to save, and whether its checksums count everything written. Invariant over all runs: every handle has the rows of its files and the header on disk is some handle's. Refuted: a copy pickled with something to save, or a Column that writes after another grew the block, puts back the old header, so appended rows are gone; with two writers the recorded checksums are wrong
- **C81** A File of the Python package is a dictionary of tables. PyFile.v: File objects as a path and the list of blocks if there is one; runs of create, keys, in, f[name] followed by any calls on the Column and its release, and pickling, on a growing list of File objects over one file system. PyFileSpec.v: a dictionary from names to tables, and for each File the dictionary it saw when it made its list. Invariant over all runs: below the path there are the files of the blocks and the directories leading to them and nothing else, no block is inside another, every block is a closed table; with the theorem about listings this gives the keys. Refuted: the list is made once, so a File does not see blocks created through another; blocks inside the directory of a block, and names that begin with a dot, can be created and opened but are not listed; a block named header makes its directory a key that cannot be opened
- **C82** A block filled in several sessions by all processes. MpiSess.v: a session is open, write in slices, close at every rank, on top of MpiPy.v; sessions one after the other. MpiSessSpec.v: the table after the sessions and the checksum that is recorded. One theorem by induction over the sessions, with the invariant that the block is closed and holds the rows of the table, starting from any history of one process and ending with any other. Refuted for the checksums: every rank starts a session from the recorded checksum and closing adds them up, so that a second session of two ranks records the old one twice (vm_compute of one schedule).
- **C83** Reading into an array of the caller. PyRead.v: read with out given, on top of the model of seek and read in C; the array of the caller has its own type, dims and strides. PyReadSpec.v: how many rows are asked for and when an array fits. For every history of the block, by the invariant of the histories and the theorem on one read into a strided array. Refuted for the type (only the size of an element is compared) and for the width (only the number of rows is compared), each by vm_compute of one call.

## Not modelled (trusted or out of scope)

* The C compiler, libc and kernel: `fopen/fread/fwrite/fseek/fprintf/fscanf`,
  `strtol`, `atoi`, `qsort`, `bsearch` are modelled by their documented
  behaviour. Memory exhaustion is not modelled.
* Symbolic links, `..` path components, permissions.
* The MPI library: collectives are modelled as the vector functions the
  standard prescribes.
* numpy itself; only the index arithmetic of the Python layer is modelled.
* The program bigfile-join, which is unfinished (a line of it is not C), and bigfile-iosim; option parsing and messages
  of the others; `mv` and `rm` as in POSIX; a crash inside a command of
  bigfile-repartition;
  caller-supplied formats of `dtype_format`/`dtype_parse`; `%g` and `%lf` are
  parameters of the model.
* `MPIU_Gather`/`MPIU_Scatter` debugging helpers, `MPI_Alltoallv_smart` call
  sites under `NO_ISEND_IRECV_IN_DOMAIN`, the Python class hierarchy beyond the
  methods above.

## Trusted base

* Coq 8.16.1: its kernel, and the parser and elaborator for reading the
  statements. `coqchk` rechecks the compiled files.
* Axioms: none of ours, none of the standard library. `Print Assumptions` at
  the end of each `Props*.v` prints "Closed under the global context" for every
  property theorem. `coqchk -o` lists seven entries
  `Coq.ssr.ssrunder.Under_rel.{Under_rel, Under_rel_from_rel, Under_relE,
  under_rel_done, over_rel, over_rel_done, Over_rel}`: fields of a module type
  of the standard library that is loaded with it and used by no theorem here.
* The definitions of the model (`X.v`) as a reading of the C, Cython and Python
  text, and the specifications (`*Spec.v`) as a reading of the English.

## Which code is modelled where

| Model | Code |
| --- | --- |
| `Base.v` | bytes, machine integers, memory, outcomes |
| `FS.v` | the POSIX calls used: fopen modes, mkdir, stat, access, scandir |
| `Fmt.v` | the printf/scanf directives of the header and attribute files |
| `Dtype.v` | `_dtype_normalize`, `dtype_isvalid`, `dtype_itemsize`, `dtype_kind`, `dtype_needswap` (bigfile.c:990-1100) |
| `Cast.v` | `cast`, `byte_swap` on one element, with IEEE 754 conversions (bigfile.c:1253-1418) |
| `Array.v` | `big_array_*`, `dtype_convert` (bigfile.c:1100-1330) |
| `Attr.v` | `attrset_*`, attr and attr-v2 files, `dtype_format` (bigfile.c:1160-1222, 1420-1800) |
| `Block.v` | `_big_block_open/create/grow/flush/close/seek/eof/read/write` (bigfile.c:255-990) |
| `Pack.v` | `_big_block_pack/unpack`, `attrset_pack/unpack` (bigfile.c:1800-1960) |
| `File.v` | `big_file_open/create/open_block/create_block/list`, `_big_file_mksubdir_r`, `_path_join` |
| `Record.v` | bigfile-record.c |
| `Mpi.v`, `Par.v` | bigfile-mpi.c; `MPIU_Segmenter`, broadcasts and error agreement of mp-mpiu.c; `Par.v` adds schedules of the data writes |
| `Alltoall.v` | `MPI_Alltoallv_sparse`, `MPIU_Alltoallv` |
| `Errmsg.v` | `_big_file_raise`, `big_file_set_error_message`, the pointer exchange between threads |
| `Split.v`, `Py.v` | file sizes, slicing, assignment, append, `create_from_array` of the Python layer |
| `PyData.v` | `Dataset.__init__/read/write/append/_create_records`, `Dataset._getslice/__setitem__/__getitem__` |
| `Pickle.v` | `Column.__getstate__/__setstate__/__dealloc__`, `_unpickle_column`, the growing half of `append`, several Columns of one block |
| `PyFile.v` | `File.__init__/blocks/keys/__contains__/__getitem__/open/create/__getstate__/__setstate__`, `FileLowLevelAPI.list_blocks`, several File objects of one path |
| `MpiSess.v` | sessions through `FileMPI.open` / `ColumnMPI.open`, `write`, `__exit__` / `ColumnMPI.flush` on all ranks |
| `PyRead.v` | `ColumnLowLevelAPI.read` with an array of the caller |
| `PyAttr.v` | `AttrSet.__getitem__/__setitem__/__delitem__/__contains__/keys` |
| `MpiPy.v` | `FileMPI.create/create_from_array`, `ColumnMPI.create/open`, `_MPI_flush`, `check_unique` |
| `Util.v` | bigfile-create.c, bigfile-copy.c |
| `CopyMpi.v` | the message passing of bigfile-copy-mpi.c |
| `Tools.v` | bigfile-cat.c, bigfile-set-attr.c, `dtype_parse` |
| `Share.v` | bigfile-copy-mpi.c and bigfile-sample-mpi.c: what the items do to the files; gsl's random numbers are a parameter |
| `Repart.v` | the scripts bigfile-rename, bigfile-rm, bigfile-repartition |
| `Show.v` | bigfile-ls.c, bigfile-get-attr.c, the per-block loop of the script bigfile-check |
