# Formal model of libnpy in Rocq (Coq 8.16.1)

`properties.jsonl` lists the properties, `MANIFEST.json` the theorem(s) for each,
`seeded/LOG.jsonl` the wrong programs the theorems were tried against. Everything
formal is in `rocq/theories`. Nothing of the project was built or run.

## 1. Shape of the model

One Gallina function per C++ function, total and executable (`vm_compute`), over `Z`
for every machine number (wrap-around written as `mod 2^k`) and lists of `Z` for byte
buffers. Every model definition carries the file and lines it models; simplifications
are named in the same comment.

* **Outcomes.** `outcome A := Ok a | Throw e | AssertFail | Undef u`. Undefined
  behaviour (an indeterminate value used, an index outside a buffer, a value-returning
  function without return) is its own result, never a default value. Failed assertions exist only in debug
  builds (`env.dbg = true`); release builds skip the test, as `NDEBUG` does.
* **Environment.** `env` = host endianness, debug/release, memory budget (an allocation
  above it throws `bad_alloc`/`length_error`).
* **Streams.** `istream` = whole contents, unread rest, `eofbit`, `failbit`, and
  file-or-string (they differ in seeking past the end). `get`, `read`, `peek`,
  `get(buf,n,delim)`, `>> size_t`, `seekg` follow libstdc++ 13. Output streams are
  append-only byte lists with `tellp`.
* **Global state.** The parser's static `BUFFER` and the mutable `DTYPE_MAP` are
  explicit state threaded through every parse.
* **Heap contents.** The compressor's uninitialised arrays (`m_dict`, `m_next`,
  `m_lz_code_buf`…) are parameters, so a theorem holds whatever the allocator returned.
* **Loops** are structural, or carry fuel; running out is `Undef OutOfFuel`, which the theorems
  exclude for the inputs they cover.
* **Threads** (C48) are a small-step interleaving semantics of the parser (`Race.v`), and of
  any number of threads loading and peeking their own streams (`Threads.v`).

### Files

| File | Contents |
|------|----------|
| `Base` `Stream` `Arr` | outcomes, machine integers; C++ streams; sparse arrays |
| `Dtype` `Values` | `dtype.cpp`: dtype strings, DTYPE_MAP, read_values/write_values per type; `npy::boolean` |
| `Header` `Npy` | `npy.cpp`, `npy.h`: write_npy_header, the dictionary parser, read_npy_header, save, load, peek |
| `Tensor` | `npy.h`, `tensor.cpp`: class tensor: constructors, strides, ravel, get/set, copy_from/move_from, dtype() |
| `Crc` | `mz_crc32`, `npy_crc32` |
| `Npz` | `npz.cpp`, `npy.h`: ZIP records, writers, readers; the codec is a parameter |
| `Tinfl` `Tdefl` | `miniz.cpp`, `zip.cpp`: inflate and deflate as npy_inflate/npy_deflate use them |
| `TensorVars` | copy/move construction and assignment of `tensor` objects |
| `Files` | save/load/peek by path over a disk: a map from paths to contents, which paths can be written, and how many bytes a write gets through |
| `Race` | the parser again, as steps of a thread over a shared BUFFER and DTYPE_MAP |
| `Program` `Parallel` `Sessions` | whole programs: variables, files and archives over one state; threads running such programs; runs of such programs one after the other over the same disk |
| `Locale` | saving and loading in a program whose global locale groups digits (variant of `Header` and `Npy`) |
| `Assets*` | golden files of the repository run through the model (fidelity tests) |
| `Spec` `ZipSpec` `DeflateSpec` `ProgramSpec` `SessionSpec` | specifications, independent of the model: base-256 numbers, row/column-major formula, Python dictionary text, bit-serial CRC, APPNOTE records, RFC 1951 as inductive relations |
| `*Facts` `Prog*` `Infl*` `Defl*` `Huff*` `MinRed` `Parser*` `ForeignZip` | lemmas |
| `Prop*` | the property theorems, each with `Print Assumptions` and a concrete case that meets its hypotheses |

## 2. Plan per property

| Id | What is modelled | How it is proved |
|----|------------------|------------------|
| C01 C02 | dtype tables, map with insert-on-miss | case analysis; invariant over call histories |
| C03-C07 | write/read_values on memory images, host endianness a parameter | induction on the array; base-256 digits as specification |
| C08 | boolean constructors and assignments | case analysis |
| C09-C11 | write_npy_header | arithmetic on lengths, digit-count bound; C11 shows the limit is exact |
| C10 C12-C17 | the dictionary parser, character by character over the stream; C15 also archives, paths and npy_deflate (PropBuilds.v) | symbolic execution lemmas per parser function; termination by a measure; independence of BUFFER by relating two runs |
| C18-C25 | class tensor | induction on rank, modular arithmetic; C23 refutes the claim for wrapped counts |
| C26-C31 | save/load/peek | composition of the above; C26's complex case across hosts is refuted |
| C32 C33 | mz_crc32 | nibble table = 4 bit-steps; linearity and injectivity of the LFSR |
| C34-C47 | npz.cpp, writers and readers as state machines | induction over histories of writes and reads |
| C48 | interleaving of parsers over shared BUFFER; any number of threads with lists of load/peek calls | witness schedule for the interference; invariant per thread (result still due) for schedules that keep tokens together and for lock-step schedules; two-step schedule to a data race |
| C49 C52 | miniz tdefl as used by zip.cpp, and tinfl | C52: the compressor's output is derivable in `DeflateSpec` for every input (match finder soundness, lazy matching, LZ code buffer, minimum-redundancy lengths, length limiting, canonical codes, header run lengths, output buffer bounds); C49 composes C52 and C50; C49_some_arrays_are_lost (PropSame.v) composes one computation with C72 |
| C50 | miniz tinfl and mz_inflate as used by npy_inflate | every `DeflateSpec` derivation is followed by the coroutine through every suspension (input chunk used up, window full); tables built by tinfl decode the canonical code; PropBig.v follows the second input buffer to the call that drops its rest |
| C51 | load on files of other writers | same parser lemmas, dictionary layout as a relation |
| C53 | readers on archives of other writers | `ZipSpec` records parsed by the reader, composed with C50, C51 |
| C54 | load and peek on every proper prefix of a saved file | text behind the cut is NULs; parser run split at the type code; a triple over the release parser shows that text without a closing brace never returns |
| C55 | load and peek on any bytes, release build | the same triples with all characters allowed; invariant that type, order and length are set together |
| C56 | constructors and assignments of tensor, member by member over a store of objects; std::vector's move as libstdc++ does it | simulation by a machine of plain values, induction over programs |
| C57 | save(path), load(path), peek(path) over `Files`' disk | induction over programs on C26, C29; faults by C54 |
| C58 | npy_inflate on every proper prefix of a DEFLATE stream | C50's simulation with the lost bytes as input that is never offered: the coroutine can only suspend, and mz_inflate reports no end |
| C59 | npz readers on any bytes | stream positions against a stateless description of the bytes (`archive_fate`); bytes past the end read as 255 |
| C60 | npy_inflate on any bytes (DeflateFaults.v) | classification by recursion on the bits (DeflateDecide.v); uniqueness by writing RFC 1951 as a function and showing that every relation of the specification is what it says (DeflateUnique.v); for faults, C50's simulation up to the fault, then the coroutine is `doomed`: it can only fail or wait for input that never comes, and mz_inflate/npy_inflate turn both into an exception |
| C61 | save/load/write/read as templates over any class, as a record of functions, and the Eigen example (Custom.v) | the generic save gives the same bytes as C26's file for any object that presents an array; any load function gets the written header (read_header_written) and read_values on it gives the elements; for the example, index arithmetic of both storage orders (PropCustom.v) |
| C62 | the decompressor of Tinfl.v, and in Checked.v a *variant* of it (not code of /repo) that refuses length symbols 286/287 | invariant on window position, written cells, bit count, tables and code lengths through every loop and every suspension (InflSafe.v); simulation between code and variant; witnesses by evaluation; for the endless stream an induction on the bound (InflEndless.v). The model raises OutOfBounds for every window, table and input access and both memcpys, and BadShift for a shift count outside 0..63 of the bit buffer or a bit count that would wrap (PropSafe.v) |
| C63 | npzfilewriter/npzfilereader by path over `Files`' disk, with a device under each open file (ZipFiles.v): how much of the file it takes, when the stream finds out, what is flushed | simulation of the stream on a device by the string writer; induction over programs; reading back by C35's lemmas, unfinished files by C45 |
| C64 | header_info's other constructor, tensor::load, read_values (Raw.v) | C03-C05's encoding lemmas; the unset maximum length is `None`, reading it is `Undef UninitRead` |
| C65 | the dictionary parser and read_npy_header as in C08-C16; the grammar is LenientSpec.v, independent of the parser | the parser is simulated by functions on the unread text (LenientFacts.v), which decide the grammar's relations (LenientText.v); induction on the entries and on the shape's numbers |
| C66 | the same parser with assertions on; the grammar is StrictSpec.v | functions on the unread text that also fail (StrictFacts.v; BUFFER is followed because read_bool compares stale characters), which decide the strict grammar; a step-by-step comparison with the release functions (StrictText.v) |
| C67 | BigHost.v: the (de)compressor with the three word accesses of miniz.cpp (31/648, 1121, 1168) in the host's byte order | on a little-endian host equal to Tinfl/Tdefl by conversion and induction, then C49/C52; for big-endian hosts computed witnesses, for all builds and memory sizes |
| C68 | TdeflAsserts.v: the compressor with each MZ_ASSERT on its path checked | the invariants of DeflLz/DeflBlock/DeflTop give each asserted fact, so every checked function equals the unchecked one (DeflAsserts.v). Room after a block (1311): the length-limited code the compressor computes never costs more than the fixed code's lengths would (HuffCost.v: minimum redundancy; DeflCost.v: cost of enforcing the limit), so a dynamic block always fits (DeflBlock.v coded_block) |
| C69 | Tdefl.v | cost of the codes per byte (DeflBlock.v toksb_cost, fixed_cost, bd_cost), the stored form when the block is in the window (bd_short; the window invariant cv_dict of DeflTop.v), summed over the blocks (cv_size) |
| C70 | Views.v, Tensor.v, Npy.v | the positions of the indices in reading order are 0, 1, 2, ... (PropViews.v order_positions), the two loops by induction (walk_skip, update_from), then C18 and C26 |
| C71 | Npz.v against MemberSpec.v (positions in the byte string only, no stream) | every reading step is shown to move a stream at position p to position q with the failure flag equal to `len < q` (PropMember.v viewf, takesf), one lemma per record (extra_exact, local_exact, cd_exact, read_exact), then sessions by induction over the list of requests; C71_no_undefined_answers composes with C60 and C62 |
| C72 | Tdefl.v twice over: two runs from different heaps (Twin.v), and the archive writer of Npz.v over histories of calls | a relation `pair` between two compressor states: equal numbers, frequencies, hash heads and output, equal window and chain cells wherever they were filed since the start; a match search from a position whose three bytes are filed only ever reads filed cells (find_same); equal tokens give equal bits (block_same) and bits determine the output buffer (obits_inj); induction over steps, calls and chunks; independence of the build via C68's checked compressor |
| C73 | Program.v: one machine state (variables, disk, archive writers and readers, parser globals) and fifteen kinds of steps built from Tensor, TensorVars, Views, Files, ZipFiles, Npz | simulation against ProgramSpec.v, where arrays are functions and files are values: invariant `follows` (PropProgram.v), one lemma per step (ProgFacts.v for arrays, ProgArch.v for archives and their size bounds), using C18/C22 addressing, C26, C49, C35/C47, C63's devices; induction on the program |
| C74 | Parallel.v: threads running programs of Program.v; calls that parse are taken apart (prepare, parser process of Race.v/Threads.v, conclude), other calls are one step; shared disk and globals | frame lemma (exec_frame: a step reads and changes only its own paths and never the globals), each thread simulated with a private view of the disk and C73's invariant; files that no thread writes are shared, and what the files hold at any moment is handed to C75's sessions (`reusable`); the two disciplines as in C48 (`due`, `solo`); progress by induction on programs and processes |
| C75 | Sessions.v: a list of runs, each `execute` from a fresh machine over the files the last one left, with copies, removals and replacements between them; SessionSpec.v: NPY files and archives of other programs as values | C73's invariant with files described by what every program reads from them (`npy_serves`, `npz_serves`, ProgServe.v), which depends on neither the writer's nor the reader's build: libnpy's own files by C26/C47/C49/C72, others' by C13/C51/C53; induction over the runs |
| C76 | SessionSpec.v: which files a call may be writing (`in_flight`), any contents for those (`torn`); the program up to the call as in C75 | exec_writes: a whole call changes only those files, by C73's invariant on writers; then sessions_follow with `Unknown` for them; replacement by rename as a corollary |
| C77 | Locale.v: the functions that format and parse dimensions, with the locale of the two string streams as argument: num_put and num_get with a separator and a list of group sizes; equal to Header.v and Npy.v in the classic locale (C77_classic). Spec: `pieces` of a number | digits of 10^g q + r; a token relation for the shape loop; the dictionary around an arbitrary shape text; then the reader of C26 on the first elements. Archives (PropLocaleZip.v): members are these files (C77_archive_members), by the archive lemmas of C35 on any named byte strings |
| C78 | Throwing.v: read_npy_header, tensor::load and read_values over reads that may end the call (`xread`, `xget`), with the mask of exceptions() as argument; the parser's own stream keeps the default | every read either does what Stream.v's does or fires (`tracks`, closed under sequencing; the plain reads are `sticky`); with a mask every successful piece takes an exact prefix of the stream, needs all of it and looks at no more (`exact`, closed under sequencing); then C26 and C55 |
| C79 | Parallel.v as for C74, SessionSpec.v's `in_flight` for the next call of every thread that is not parsing (parsing calls write nothing), any contents for those files | C74's invariant `worker_at` (each thread simulated on a private view of the disk) and C76's exec_writes carried over to the shared disk by exec_frame; then sessions_follow with `Unknown` for the files being written |
| C80 | Sinks.v: an output stream with rdstate, exceptions() and any stream buffer as a function of its earlier requests; save as the list of write and put calls it makes | the calls' bytes in a row are Npy.save's bytes (writes_save); induction over the calls (owrites_run, owrites_stuck); C80_come_back composes with C78_until_failure; C80_as_in_files ties it to Files.v |
| C81 | Sources.v: an input stream with rdstate, exceptions() and any stream buffer as a function of its earlier requests; read_npy_header, load and read_values over its read and get | every read does what Stream.v's does on the characters delivered (`mimics`, closed under sequencing), against Throwing.v with the default mask and from there to Npy.v by C78_same_or_failure; `alert`, `mild`, `steady` are closed under sequencing (section `all`) |
| C82 | SharedArrays.v: Parallel.v's threads with some variables one object each for all of them | no step changes a variable outside `changes` (exec_keeps, moves_keeps); the invariant of C74 (PropParallel's section, for any starting world) holds of each thread with the shared variables read into it, and is stable under pointwise equal variables (run_shared_at); running the threads one after the other is allowed (finish_threads); killed inside calls (in PropThreadsKilled.v): C79's frame of a call (call_writes) |

Limits that the theorems state and the code has (each with a witness theorem where the
property text says so): 245 header characters (C11), wrapped element counts (C23), complex in non-native
order (C06, C26), 0x8FFFFFFF sizes (C43), 65536 entries (C44), 32 KiB window boundary of
mz_inflate (C49, C50).

The window limit of C49, C50, C53, C60 (`may_be_refused`): mz_inflate fails when its 32 KiB window fills while all
input left is in tinfl's bit buffer (under 64 bits). A bit of DEFLATE data makes at most 129 bytes, so then at most
8128 bytes are missing; contents of at most one window, or whose size is not 1..8128 above a multiple
of 32768, are never refused.

The 1 MiB limits in C49, C50 and C53: when the compressed data needs a second 1 MiB input buffer and that buffer yields
at least 1 MiB of output, mz_inflate holds back part of its window, npy_inflate sees output space left and
throws the rest of the input buffer away. `C50_second_buffer_lost` (PropBig.v) states when, `C50_more_than_one_buffer` gives
an infinite family of standard streams that are refused for this reason, and the two `_case` theorems exhibit
members of it, alone and in an archive.

## 3. Trusted base

* Coq's kernel (and `vm_compute`, for closed computations in cases, witnesses and golden files).
* `Print Assumptions` under every property theorem says *Closed under the global
  context*: no axioms. The checker also lists seven axioms-like fields of
  `Coq.ssr.ssrunder.Under_rel`, which come with loading the standard library; nothing uses them.
* The specifications `Spec`, `ZipSpec`, `DeflateSpec` say what the English properties say.
* The model is faithful to the C++ text and to libstdc++: by reading, and by `Assets.v`/`AssetsZip.v`, which
  decode and re-encode golden files of the repository.

### Modelled
`include/npy/npy.h`, `src/npy.cpp`, `src/dtype.cpp`, `src/tensor.cpp`, `src/npz.cpp`,
`src/zip.cpp`; the class of `examples/custom_tensors/custom.cpp`; of `src/miniz/miniz.cpp`: mz_crc32, mz_deflate(Init2) and mz_inflate(Init2) with the
parameters zip.cpp passes, tdefl_* and tinfl_* reached from them (raw DEFLATE, default level,
dynamic blocks, no zlib header, MZ_NO_FLUSH/MZ_FINISH).

### Not modelled
* miniz's zip archive API, PNG writer, zlib-header and adler32 paths, tdefl levels other than the default: libnpy never calls them.
* tdefl/tinfl are modelled as built: miniz.h 197-199 selects the unaligned, 64-bit,
  little-endian paths on every host. Tinfl.v and Tdefl.v follow them on a little-endian
  host; theorems about compressed data say `host_big v = false`. BigHost.v has the same
  functions with the host's byte order as a parameter, and shows that on a
  little-endian host they are those of Tinfl.v and Tdefl.v.
* What a file stream keeps back in its own buffer and loses later, at flush or close (C57 and C63 have the file as it is in the end; C80 has what the buffer took), archive writers on failing devices other than as in C63, two writers with one path open at once, locales other than through their grouping of digits (C77; the classic locale everywhere else). Exceptions switched on with `exceptions()` are in C78 and C81 (load and peek) and C80 (save); the library's own streams never have any.
* Character types other than `char`. Tensor classes other than `npy::tensor` are modelled by what their methods answer (C61).
* Eigen: where a dense matrix keeps its coefficients and assignment between storage orders are modelled in Custom.v from its documentation; it is not part of /repo.
* test/, the other examples and the build files.
* Floating-point values are bit patterns: no arithmetic on them happens in the library. `wchar_t` is 32 bits.
* `size_t` is 64 bits, `int` 32 bits, `char` signedness immaterial where used.
* Threads that share a writer or reader, a tensor that one of them changes, or a file that one of them writes (C48, C74: each thread has its own; files that no thread writes may be shared, and in C82 tensors that no thread changes). In C82 the main thread only waits once it has started the others: what a program does after it has joined them is not modelled (a later run of a program is). In C74 a call that parses no header is one step: it reads no shared mutable memory of the library.

## 4. Disagreements between documentation and code (findings)

Recorded as theorems: silent INT8 for unknown dtype strings (C02); parts of complex
numbers exchanged in non-native order (C06); NULs of wide strings lost (C07); `boolean(-1)`
is false but `b = -1` is true (C08); corrupt headers above 245 characters (C11);
uninitialised fields for missing keys (C16); negative and overlong dimensions accepted (C17);
no rank check for unsigned indices (C21); out-of-bounds access for wrapped element
counts (C23); truncated data not reported (C30); `contains` and `read` disagree (C37);
unopened npzfilewriter loses everything silently (C40, C63), as does a full disk (C57, C63); npzfilereader's two-argument read has no return (C63); ZIP64 extra length (C43);
65536 entries open as none (C44); crafted tensor makes an unclosed archive readable (C45);
one short read disables the reader (C46); shared scratch buffer race (C48); data
libnpy compressed it cannot decompress, such as a new 64 x 64 array of doubles (C49, C50); compression broken on big-endian
hosts (C67); shapes written or read wrongly, and silently, once `std::locale::global` has set a locale that
groups digits (C77).
