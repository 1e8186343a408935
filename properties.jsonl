{"id": "C01", "title": "dtype strings round trip", "statement": "For every non-string data type and every requested endianness, from_dtype(to_dtype(t, e)) yields data type t and the endianness that governs the written bytes: the requested one (native resolved to the host's) for multi-byte types, and NATIVE for one-byte types. to_dtype throws exactly for UNICODE_STRING.", "quantifier": "all data types, all requested endiannesses, both host endiannesses", "why_tests_cant": "the host endianness is fixed on the machine running the tests, so half of the cases never run", "anchors": ["src/dtype.cpp: to_dtype, from_dtype, DTYPE_MAP, BIG_ENDIAN_DTYPES, LITTLE_ENDIAN_DTYPES"]}
{"id": "C02", "title": "dtype lookup does not depend on history", "statement": "from_dtype mutates a process-wide table when it meets an unknown string, yet the answer for any string is the same after any sequence of earlier calls; unknown strings always answer (INT8, NATIVE) instead of being rejected.", "quantifier": "all finite histories of from_dtype calls with arbitrary strings, all queried strings", "why_tests_cant": "needs an invariant over unboundedly many earlier calls", "anchors": ["src/dtype.cpp: from_dtype, DTYPE_MAP"]}
{"id": "C03", "title": "fixed-width values round trip", "statement": "Writing any array of a fixed-width type (8/16/32/64-bit integers, floats as bit patterns, complex, boolean) with any endianness and reading the bytes back with the endianness recorded by the dtype string gives back exactly the array, and leaves the stream positioned just after it.", "quantifier": "all fixed-width types, all arrays of any length, all endiannesses, both hosts, any following bytes", "why_tests_cant": "arrays are unbounded and both host endiannesses are never present in one test run", "anchors": ["src/dtype.cpp: write_values, read_values"]}
{"id": "C04", "title": "byte order on disk is the requested one", "statement": "For integer and floating-point elements the written bytes are, element by element, the base-256 digits of the element's bit pattern: least significant first when LITTLE is requested, most significant first when BIG is requested, on any host; NATIVE means the host's order. Output length is exactly count times item size.", "quantifier": "all scalar types, all values, all endiannesses, both hosts", "why_tests_cant": "all bit patterns and both hosts must be covered", "anchors": ["src/dtype.cpp: write_values"]}
{"id": "C05", "title": "files move between hosts", "statement": "An array of integers, floats or booleans written on a host of one endianness and read on a host of the other endianness comes back with the same values.", "quantifier": "all scalar types, arrays, requested endiannesses and host pairs", "why_tests_cant": "no test environment contains two hosts of different endianness", "anchors": ["src/dtype.cpp: write_values, read_values", "include/npy/npy.h: native_endian"]}
{"id": "C06", "title": "complex values in non-native order are component-swapped", "statement": "Complex arrays written in the host's non-native order are not the standard encoding: the imaginary part comes first. The written element is exactly the standard encoding of the number with its parts exchanged; a same-host round trip still restores the array, and a standard-conforming file in non-native order is read with real and imaginary parts exchanged.", "quantifier": "all complex arrays, both widths, both hosts, both non-native orders", "why_tests_cant": "the library's own round-trip tests pass in spite of the defect; only a universally quantified comparison to the external format settles it", "anchors": ["src/dtype.cpp: write_values<std::complex>, read_values<std::complex>"]}
{"id": "C07", "title": "unicode arrays lose exactly their NUL code points", "statement": "Saving and loading an array of wide strings returns each string with its zero code units removed and nothing else changed, for every endianness; so arrays without NUL code points round trip exactly, including empty strings and arrays of differing lengths.", "quantifier": "all arrays of wide strings, all endiannesses, both hosts", "why_tests_cant": "the claim ranges over all strings, including embedded and trailing NULs", "anchors": ["src/dtype.cpp: write_values<std::wstring>, read_values<std::wstring>", "include/npy/npy.h: tensor<std::wstring>::dtype"]}
{"id": "C08", "title": "boolean conversions", "statement": "npy::boolean built from, or assigned, any integer stores only 0 or 1; construction and assignment agree on all non-negative integers and on bool, and disagree on every negative integer (construction gives false, assignment true). A boolean read from a file keeps the file's byte, whatever it is, and is true exactly when that byte is not 0.", "quantifier": "all integers; all byte sequences and byte orders", "why_tests_cant": "ranges over all integers", "anchors": ["include/npy/npy.h: boolean"]}
{"id": "C09", "title": "written headers are well formed", "statement": "For every dtype string, order flag and shape whose dictionary text has at most 245 characters, the emitted header starts with the NPY magic and version 1.0, has total length a multiple of 64, its recorded little-endian length equals the number of bytes following the 10-byte preamble, and it ends in a newline preceded only by spaces after the dictionary.", "quantifier": "all dtype strings, orders and shapes", "why_tests_cant": "shapes are unbounded lists of 64-bit numbers", "anchors": ["include/npy/npy.h: write_npy_header"]}
{"id": "C10", "title": "header round trip", "statement": "Reading the header written for any data type, requested endianness, order flag and shape (dictionary text at most 245 characters) yields exactly that data type, endianness, order and shape, and leaves the stream exactly at the first data byte, whatever follows; it needs no luck about the parser's shared buffer.", "quantifier": "all dtypes, endiannesses, orders, shapes; all following bytes; all prior parser states; debug and release builds", "why_tests_cant": "unbounded shapes; parser state space", "anchors": ["include/npy/npy.h: write_npy_header, read_npy_header", "src/npy.cpp: header_info::header_info"]}
{"id": "C11", "title": "the 245-character limit is exact and covers eight dimensions", "statement": "Shapes with at most eight dimensions always fit. As soon as the dictionary text exceeds 245 characters the recorded header length is wrong, so a reader of the file looks at a wrong place for the data.", "quantifier": "all dtypes, orders and shapes", "why_tests_cant": "the failure needs shapes of nine or more dimensions that tests do not have; the universal part needs a length bound on decimal numbers", "anchors": ["include/npy/npy.h: write_npy_header"]}
{"id": "C12", "title": "header parsing always terminates", "statement": "Parsing any byte string as a header dictionary finishes (with a header, an exception or a failed assertion); there is no input on which it loops, and the work is bounded by the input length.", "quantifier": "all byte strings, debug and release builds, all prior parser states", "why_tests_cant": "ranges over all malformed inputs", "anchors": ["src/npy.cpp: header_info::header_info, read_shape, skip_whitespace, read_to"]}
{"id": "C13", "title": "header parsing ignores key order and blanks", "statement": "A dictionary with the three standard keys in any order, with any amount of blank space where Python allows it before keys, around the colon and after the comma, parses to the same header.", "quantifier": "all permutations of the keys, all blank runs, all dtypes and shapes", "why_tests_cant": "infinitely many spellings", "anchors": ["src/npy.cpp: header_info::header_info, skip_whitespace"]}
{"id": "C14", "title": "header parsing does not depend on earlier parses", "statement": "The result of parsing a dictionary is the same whatever was parsed before by the same thread, although the parser keeps a global scratch buffer and a global dtype table.", "quantifier": "all dictionaries, all prior contents of the scratch buffer, all earlier parses, debug and release builds", "why_tests_cant": "hidden state after arbitrary histories", "anchors": ["src/npy.cpp: BUFFER, read, read_to", "src/dtype.cpp: DTYPE_MAP"]}
{"id": "C15", "title": "assertions only reject", "statement": "If a header or tensor parse - from a stream, from a path or from an archive - returns or throws in a debug build, it gives the same result, the same reader state and the same global state in a release build; so does writing an array to an archive, and compressing. A release build never throws where a debug build returned. The converse fails: a wrong magic string is refused by debug builds only.", "quantifier": "all byte strings, all archives and reader states, all tensors and writers, all file systems; for the compressor: little-endian hosts", "why_tests_cant": "relates two builds on all inputs", "anchors": ["src/npy.cpp: read", "include/npy/npy.h: read_npy_header", "src/zip.cpp: npy_deflate", "include/npy/npy.h: npzstringreader::read, npzfilereader::read, write"]}
{"id": "C16", "title": "missing dictionary keys leave fields undefined", "statement": "Whatever the header text and in any build: if the parser accepts it, the header has a defined dtype, endianness and element length exactly when an entry with the key 'descr' was read, a defined order flag exactly when one with 'fortran_order' was, and an empty shape if none with 'shape' was; loading a tensor from a header without the first two is undefined behaviour (or an allocation failure) rather than a reported error.", "quantifier": "all header texts accepted by the parser, all builds, after any earlier parses", "why_tests_cant": "ranges over all dictionaries", "anchors": ["src/npy.cpp: header_info::header_info", "include/npy/npy.h: tensor::load"]}
{"id": "C17", "title": "shape text parsing", "statement": "For every list of numbers below 2^64 the parser recovers it from its Python tuple text; a number of 2^64 or more silently ends the shape at that position, and a negative number is accepted modulo 2^64.", "quantifier": "all lists of integers", "why_tests_cant": "unbounded lists and numbers", "anchors": ["src/npy.cpp: read_shape"]}
{"id": "C18", "title": "element addressing is row-major or column-major", "statement": "For a tensor whose element count fits in 64 bits, indexing with an in-range multi-index addresses exactly the buffer slot given by the mathematical row-major (or, in FORTRAN order, column-major) formula.", "quantifier": "all shapes with product below 2^64, both orders, all in-range multi-indices", "why_tests_cant": "unbounded rank", "anchors": ["include/npy/npy.h: tensor::ravel, get_ravel_strides"]}
{"id": "C19", "title": "addressing is a bijection", "statement": "In-range multi-indices address distinct slots, every slot is inside the buffer, and every slot of the buffer is addressed by some multi-index.", "quantifier": "all shapes with product below 2^64, both orders", "why_tests_cant": "unbounded rank and sizes", "anchors": ["include/npy/npy.h: tensor::ravel, get_size"]}
{"id": "C20", "title": "signed indices follow numpy", "statement": "The int32 index overloads accept a multi-index exactly when it has the tensor's rank and each component i satisfies -dim <= i < dim, and then address the same slot as the normalised index; otherwise they throw invalid_argument. This holds for all 64-bit dimensions, including those above 2^32.", "quantifier": "all shapes of 64-bit dims, all int32 multi-indices of any length", "why_tests_cant": "wrap-around arithmetic over the full 64-bit range", "anchors": ["include/npy/npy.h: tensor::ravel(std::vector<std::int32_t>)"]}
{"id": "C21", "title": "the unsigned overload does not check rank", "statement": "With an unsigned multi-index the call behaves as documented when the rank matches, ignores extra components, and is undefined behaviour when an otherwise in-range index is too short.", "quantifier": "all shapes and unsigned multi-indices", "why_tests_cant": "ranges over all lengths", "anchors": ["include/npy/npy.h: tensor::ravel(std::vector<std::size_t>)"]}
{"id": "C22", "title": "get and set", "statement": "After set(i, v), get(i) is v, and get(j) is unchanged for every valid j addressing a different element; shape, order and all other slots are unchanged. Two signed spellings of the same position see the same element.", "quantifier": "all tensors, indices and values", "why_tests_cant": "all aliasing patterns of indices", "anchors": ["include/npy/npy.h: tensor::set, tensor::get"]}
{"id": "C23", "title": "element count", "statement": "A tensor's element count is the product of its dimensions (1 for rank 0) when that is below 2^64, and that product modulo 2^64 otherwise; there are shapes with valid in-range indices that address outside the buffer.", "quantifier": "all shapes", "why_tests_cant": "shapes above 2^64 elements cannot be allocated in tests", "anchors": ["include/npy/npy.h: tensor::get_size, ravel"]}
{"id": "C24", "title": "copy_from and move_from", "statement": "They succeed exactly when the source has as many elements as the tensor, then the buffer equals the source; otherwise they throw invalid_argument and the tensor is unchanged. Shape and addressing never change.", "quantifier": "all tensors and source vectors", "why_tests_cant": "all lengths", "anchors": ["include/npy/npy.h: tensor::copy_from, tensor::move_from"]}
{"id": "C25", "title": "FORTRAN order is the transpose", "statement": "Addressing a FORTRAN-order tensor at an index is the same as addressing the C-order tensor of reversed shape at the reversed index.", "quantifier": "all shapes and indices, with no bound on products", "why_tests_cant": "unbounded rank", "anchors": ["include/npy/npy.h: tensor::ravel, get_ravel_strides"]}
{"id": "C26", "title": "save/load round trip", "statement": "Saving a tensor of any supported type (wide strings without NULs) and loading it gives an equal tensor: same shape, order, type, values and addressing.", "quantifier": "all tensors whose header fits, all endiannesses, both hosts, debug and release", "why_tests_cant": "all shapes and contents", "anchors": ["include/npy/npy.h: save, load, tensor::save, tensor::load"]}
{"id": "C27", "title": "concatenated tensors frame themselves", "statement": "Loading consumes exactly the bytes that saving produced, so any sequence of tensors saved one after another to one stream is loaded back in order by the same number of loads.", "quantifier": "all finite sequences of tensors", "why_tests_cant": "unbounded sequences", "anchors": ["include/npy/npy.h: save, load"]}
{"id": "C28", "title": "wrong element type is refused", "statement": "Loading a tensor whose recorded type differs from the requested type throws runtime_error, for every pair of distinct types.", "quantifier": "all pairs of types, all shapes and contents", "why_tests_cant": "all contents", "anchors": ["include/npy/npy.h: tensor::load"]}
{"id": "C29", "title": "peek agrees with load", "statement": "For any byte stream on which load returns a tensor, peek of the same bytes returns a header with the tensor's type, shape and order.", "quantifier": "all byte streams, all requested types", "why_tests_cant": "all streams, valid or not", "anchors": ["include/npy/npy.h: peek, load"]}
{"id": "C30", "title": "truncated data is not detected", "statement": "If a saved tensor file is cut anywhere in its data part, load returns normally with a tensor of the full shape whose leading elements are intact and whose missing bytes are 0x00 (host order) or 0xFF (other order, and wide strings): it is never reported.", "quantifier": "all fixed-width tensors, all cut points in the data", "why_tests_cant": "every crash/cut point of every file", "anchors": ["include/npy/npy.h: load", "src/dtype.cpp: read_values"]}
{"id": "C31", "title": "saved files are injective", "statement": "Two tensors saved with the same endianness give the same bytes only if they are equal; hence equal files mean equal tensors.", "quantifier": "all pairs of tensors with NUL-free strings and fitting headers", "why_tests_cant": "quantifies over pairs", "anchors": ["include/npy/npy.h: save"]}
{"id": "C32", "title": "CRC32 is the standard checksum", "statement": "The checksum of any byte string shorter than 4 GiB equals the reflected CRC-32 of polynomial 0x04C11DB7 with initial value and final complement 0xFFFFFFFF, computed bit by bit. Of a longer string, only its first (length mod 2^32) bytes are covered: the checksum is that of this beginning.", "quantifier": "all byte strings", "why_tests_cant": "all inputs; the code uses a table-driven nibble algorithm", "anchors": ["src/zip.cpp: npy_crc32", "src/miniz/miniz.cpp: mz_crc32"]}
{"id": "C33", "title": "CRC32 catches short bursts", "statement": "Two byte strings of equal length that differ only within a window of 32 consecutive bits (in particular in one byte or one bit) have different checksums, so an uncompressed archive entry damaged that way is reported as an error, never returned.", "quantifier": "all byte strings, all error positions and patterns of up to 32 bits", "why_tests_cant": "all messages and error positions", "anchors": ["src/npz.cpp: read_file", "src/zip.cpp: npy_crc32"]}
{"id": "C34", "title": "NPZ integers round trip", "statement": "16-, 32- and 64-bit fields written to an archive are read back unchanged.", "quantifier": "all values in range", "why_tests_cant": "all 64-bit values", "anchors": ["src/npz.cpp: write, read16, read32, read64"]}
{"id": "C35", "title": "NPZ round trip (stored)", "statement": "Any sequence of named tensors written to an uncompressed archive and closed is readable: reading each name returns the last tensor written under it, in any order of reads, repeatedly, with or without the .npy suffix.", "quantifier": "all finite write sequences under the 32-bit size, 16-bit count and name-length limits; all finite read sequences", "why_tests_cant": "unbounded histories of writes and reads", "anchors": ["src/npz.cpp: write_file, close, read_entries, read_file", "include/npy/npy.h: npzstringwriter, npzstringreader"]}
{"id": "C36", "title": "keys lists what was written", "statement": "keys() of the opened archive is the sorted list of stored names, with the multiplicity with which they were written, each ending in .npy.", "quantifier": "all write sequences within limits", "why_tests_cant": "unbounded histories", "anchors": ["src/npz.cpp: read_entries", "include/npy/npy.h: keys"]}
{"id": "C37", "title": "lookup of names", "statement": "contains(n) is true exactly for stored names; reading or peeking n succeeds for a stored n or when n.npy is stored, and throws invalid_argument otherwise, leaving the reader usable. In particular contains(\"x\") is false although read(\"x\") works when x.npy is stored.", "quantifier": "all archives within limits, all names", "why_tests_cant": "all names", "anchors": ["src/npz.cpp: read_file, contains"]}
{"id": "C38", "title": "entry names are normalised once", "statement": "write(n) stores under n if n already ends in .npy, else under n.npy; the stored name always ends in .npy and normalising again changes nothing.", "quantifier": "all names", "why_tests_cant": "all strings", "anchors": ["include/npy/npy.h: npzstringwriter::write"]}
{"id": "C39", "title": "closing", "statement": "After close, writing throws runtime_error and changes nothing; closing again changes nothing; destroying an unclosed writer produces the same bytes as closing it.", "quantifier": "all writer histories", "why_tests_cant": "unbounded histories", "anchors": ["src/npz.cpp: npzstringwriter::close, write_file, ~npzstringwriter"]}
{"id": "C40", "title": "archives grow by appending", "statement": "Every write and the close only append to the bytes already produced: str() before is a prefix of str() after, for every history.", "quantifier": "all writer histories", "why_tests_cant": "unbounded histories / every crash point", "anchors": ["src/npz.cpp: write_file, close"]}
{"id": "C41", "title": "every returned entry passed its checksum", "statement": "For any bytes whatsoever opened as an archive: whenever reading an entry returns data, the CRC-32 of that data equals the checksum in the directory, and the local header agreed with the directory in name, checksum, method and sizes.", "quantifier": "all byte strings as archives, all names, all earlier reads", "why_tests_cant": "all malformed archives", "anchors": ["src/npz.cpp: read_file, file_entry::check"]}
{"id": "C42", "title": "archive layout conforms to ZIP", "statement": "Archives whose sizes and offsets stay at or below 0x8FFFFFFF and have at most 65535 entries and short names have the APPNOTE layout: local headers with correct sizes and checksums at the recorded offsets, a contiguous central directory with correct offset, size and count, and an end record.", "quantifier": "all write sequences within limits", "why_tests_cant": "all histories", "anchors": ["src/npz.cpp: write_local_header, write_central_directory_header, write_end_of_central_directory"]}
{"id": "C43", "title": "ZIP64 extra fields have a wrong length", "statement": "When a size or offset exceeds 0x8FFFFFFF (but fits 32 bits) the recorded extra-field length is four bytes short of the field actually written, so the entry does not conform to ZIP, while the library's own header reader still recovers the entry.", "quantifier": "all entries with 32-bit sizes and offsets", "why_tests_cant": "needs entries above 2.4 GB", "anchors": ["src/npz.cpp: determine_extra_length, write_zip64_extra, read_zip64_extra"]}
{"id": "C44", "title": "the entry count wraps at 65536", "statement": "An archive with n entries records n modulo 65536: with 65536 entries the closed archive opens as empty.", "quantifier": "all archives", "why_tests_cant": "needs 65536 or more entries", "anchors": ["src/npz.cpp: close"]}
{"id": "C45", "title": "an interrupted archive is not opened by accident", "statement": "A reader opens bytes as an archive only if the 22 bytes before the end start with the end-of-directory signature; an archive cut short before close satisfies this only if the bytes written so far (array data, a name, a size or a checksum) happen to contain that signature there, which a crafted tensor can.", "quantifier": "all writer histories and crash points", "why_tests_cant": "every crash point of every history", "anchors": ["src/npz.cpp: read_entries, assert_sig"]}
{"id": "C46", "title": "a short read poisons the reader", "statement": "After reading an entry that runs past the end of the archive, no later read of the same reader returns data, even of intact entries.", "quantifier": "all archives and read histories", "why_tests_cant": "histories", "anchors": ["src/npz.cpp: read_file"]}
{"id": "C47", "title": "peek of an archive entry", "statement": "peek(n) on an archive returns the header that peek on the saved tensor bytes returns; read(n) returns what load on those bytes returns.", "quantifier": "all archives within limits", "why_tests_cant": "all contents", "anchors": ["src/npz.cpp: peek", "include/npy/npy.h: npzstringreader::read"]}
{"id": "C48", "title": "concurrent loads and peeks interfere unless serialised", "statement": "Threads that load or peek unrelated streams share one scratch buffer. Two threads whose first calls load files libnpy saved can, whatever the arrays, reach a data race on that buffer in two steps, and there is an interleaving in which a parse of a valid file returns the other file's shape without an error. With a lock around every call (with or without assertions), any number of threads making any number of calls each get, from every call that returns, exactly what that call gives on its own, and there is such a schedule in which every call returns; with assertions compiled out the same holds for every schedule that never runs another thread between a fill of the buffer and the copy of the token out of it.", "quantifier": "all numbers of threads, all lists of load/peek calls per thread, all streams, all schedules of the named kinds, all states earlier parses left", "why_tests_cant": "schedules", "anchors": ["src/npy.cpp: BUFFER, read_to, header_info::header_info", "src/dtype.cpp: DTYPE_MAP, from_dtype", "include/npy/npy.h: read_npy_header, load, peek"]}
{"id": "C49", "title": "compressed archives round trip", "statement": "What libnpy compresses it decompresses to the same bytes, for any contents of up to 32768 bytes, or of under 1 MiB with a size that is not 1 to 8128 bytes above a multiple of 32768, and whatever the allocator's memory held; for other contents that are under 1 MiB, or whose compressed form is at most 2 MiB, the outcome is the same bytes or std::runtime_error, never other bytes. So arrays written to a compressed archive are read back equal, in any order and after any other reads, within those limits. The first limit is real: 32769 zero bytes compress to data libnpy refuses to decompress; and a newly made tensor<double>({64, 64}), written by libnpy to any compressed archive in little-endian order, can never be read back from it: the read throws std::runtime_error, whatever the archive holds besides, whatever was read before and whatever memory the compressor was given.", "quantifier": "all byte strings up to the stated sizes, all tensors and archives, all heap contents, all reader histories, debug and release builds; little-endian hosts (for others see C67)", "why_tests_cant": "all contents; the compressor's block and match choices depend on the data in unboundedly many ways, and the failing contents depend on bit positions at the window boundary", "anchors": ["src/zip.cpp: npy_deflate, npy_inflate", "src/miniz/miniz.cpp: tdefl_compress, tinfl_decompress"]}
{"id": "C50", "title": "compressed entries of other programs are read", "statement": "Every compressed entry whose data is a standard (RFC 1951) DEFLATE stream, made by any conforming program, is read back as exactly the bytes it was made from when these are at most 32768, or under 1 MiB (or of at most 1 MiB compressed) and not of a size 1 to 8128 bytes above a multiple of 32768; other contents (under 1 MiB, or of a compressed size up to 2 MiB) give the right bytes or a std::runtime_error, never other bytes. The exception is really raised for some: 32769 zero bytes. When at least eight more bytes follow the stream in its buffer the right bytes are always delivered, if the contents are under 1 MiB or stream and trailing bytes together at most 1 MiB. Larger streams are not always read: those that begin with stored blocks reaching 1 to 8 bytes over the first 1 MiB of compressed data, end within the second, and decode to 2^21 + 2^15 bytes or more are always refused with a std::runtime_error, although they are standard (there is one for any first 1 048 497 bytes of contents followed by a long enough run of zeros).", "quantifier": "all standard DEFLATE streams (any block types, codes and matches), all contents, all archives and reader histories; little-endian hosts (for others see C67)", "why_tests_cant": "the space of valid streams (codes, block splits, match choices, window positions) is infinite; the failing ones depend on which bit of input is still buffered when the 32 KiB window fills", "anchors": ["src/zip.cpp: npy_inflate", "src/miniz/miniz.cpp: mz_inflate, tinfl_decompress", "src/npz.cpp: read_file"]}
{"id": "C51", "title": "NPY files of other programs are loaded", "statement": "A stream standing at an NPY file of format version 1.0 or 2.0 (dictionary text of any length the version allows, keys in any order, any blanks), holding elements of a supported type in either byte order (complex: the host's), loads as a tensor with that shape, order and those values, and the stream is left just after the data. Files of any other format version are refused with an exception when assertions are disabled.", "quantifier": "all shapes, element types, byte orders, values, dictionary layouts, header lengths, stream positions, earlier parses", "why_tests_cant": "files of other writers form an infinite family; the library's own files only ever use one layout, version 1.0 and header lengths below 256", "anchors": ["include/npy/npy.h: read_npy_header, load, peek", "src/npy.cpp: header_info::header_info"]}
{"id": "C52", "title": "compressed output is standard DEFLATE", "statement": "For every byte string, of any length, compression succeeds (no exception, no failed assertion, no access outside the compressor's buffers, all internal loops end) and produces a standard RFC 1951 stream for exactly that string: any conforming program can decompress libnpy's archives.", "quantifier": "all byte strings of any length, all contents of uninitialised heap memory, debug and release builds; little-endian hosts (for others see C67)", "why_tests_cant": "needs every input: the Huffman code construction, the length-limited codes, the match finder over a wrapping window and the output buffer limits interact differently on each", "anchors": ["src/zip.cpp: npy_deflate", "src/miniz/miniz.cpp: mz_deflate, tdefl_compress, tdefl_compress_normal, tdefl_find_match, tdefl_flush_block, tdefl_compress_lz_codes, tdefl_start_dynamic_block, tdefl_optimize_huffman_table, tdefl_calculate_minimum_redundancy"]}
{"id": "C53", "title": "archives of other programs are read", "statement": "An archive whose directory and members follow the ZIP format (members in any order and place, contents under 1 MiB or compressed size up to 2 MiB if DEFLATEd, stored or DEFLATEd, any names, times, flags and attributes, ZIP64 extra fields where the format puts them, no comments) opens in both reader classes; keys() is the sorted list of the member names and contains() answers for exactly those; read/peek of a name gives the decoding of the last member of that name (else of that name with .npy appended), and an array in it written by another program comes back with its type, shape, order and values. A DEFLATEd member that C50 does not promise to decode may be refused with std::runtime_error instead, but is never misread. A wrong checksum, a local header that disagrees with the directory (archives written to a pipe), or an extra field other than ZIP64 is refused with std::runtime_error. Standard members with correct checksums exist that are always refused: those whose data is a large stream of the kind C50 describes.", "quantifier": "all member lists, layouts, extra fields, arrays, reader kinds and histories of earlier reads; little-endian hosts (for others see C67)", "why_tests_cant": "archives come from any ZIP writer; tests hold a few archives from one numpy version", "anchors": ["src/npz.cpp:read_entries", "src/npz.cpp:read_file", "src/npz.cpp:read_zip64_extra", "src/npz.cpp:read_local_header", "src/npz.cpp:read_central_directory_header", "src/npz.cpp:file_entry::check", "include/npy/npy.h:npzstringreader", "include/npy/npy.h:npzfilereader"]}
{"id": "C54", "title": "a save interrupted at any byte", "statement": "If only the first n bytes of a saved tensor reach the file (n less than the file's length), then: with n < 10, load and peek read uninitialised memory; with n >= 10 but the dictionary's closing brace missing, neither load nor peek returns, and a release build throws; with the brace present both return normally, with the tensor's type, shape, order and number of elements, and every leading element whose bytes were written is intact. So every cut behind the brace goes unreported.", "quantifier": "every tensor the API can make, type, order, requested endianness, pair of hosts, build type, every number n of bytes written, every prior history of parses", "why_tests_cant": "every crash point of every saved tensor: the parser state at each cut depends on the type code and the decimal digits of the shape, and the outcome must not depend on what earlier parses left in the shared buffer", "anchors": ["include/npy/npy.h: save, read_npy_header, load, peek", "src/npy.cpp: header_info::header_info, read_to, read_string"]}
{"id": "C55", "title": "loading arbitrary bytes", "statement": "Given any bytes at all, in any stream state, a release build's load and peek end, and stop in no assertion. Their behaviour is defined except when fewer than 10 bytes (12 for format version 2.0) can be read, when the type code is an empty string, or (load) when the dictionary has no 'descr' or no 'fortran_order'. A returned tensor has the requested type and as many elements as its shape says (modulo 2^64).", "quantifier": "every byte string, stream state, requested type, host, memory limit and history of parses", "why_tests_cant": "ranges over all byte strings; a fuzzer can only sample them", "anchors": ["include/npy/npy.h: read_npy_header, load, peek, tensor::load", "src/npy.cpp: header_info::header_info, read_to, read_string, read_bool, read_shape"]}
{"id": "C56", "title": "tensor objects are values, until moved from", "statement": "In every program that constructs, copies, moves, assigns, fills and stores into tensor variables (also self-assignment and self-move), each variable holds at every moment exactly the value a program of plain values would expect, copies never share elements, std::swap exchanges two tensors, and a variable moved from is left with no dimensions and no elements. A moved-from tensor is not a valid rank-0 tensor: reading its element is undefined behaviour, and saving it silently writes a file without data that loads as a different, one-element tensor.", "quantifier": "every sequence of constructions, copies, moves, assignments, fills and element stores over any number of variables", "why_tests_cant": "aliasing and order of moves range over all programs; each member vector is moved separately, so a wrong order would show only in particular histories", "anchors": ["include/npy/npy.h: tensor(const tensor&), tensor(tensor&&), operator=, set, copy_from, save, load"]}
{"id": "C57", "title": "tensors in files", "statement": "After any program of saves, loads and peeks by path, loading a writable path returns exactly the last tensor saved there and peek describes it, whatever else was saved, loaded or failed to load in between. Saving to a path that cannot be opened throws invalid_argument and changes no file; loading or peeking a path with no file throws invalid_argument. A save whose disk fills up, or whose machine stops, after any number of bytes is not reported and the previous contents of the file are gone: a later load fails if the closing brace of the header was not written and otherwise returns a tensor of the right shape.", "quantifier": "every finite program of saves, loads and peeks over any paths, every starting disk, every point at which writing stops", "why_tests_cant": "ranges over all histories of a disk and every byte at which a write may stop", "anchors": ["include/npy/npy.h: save(path), load(path)", "src/npy.cpp: peek(path)"]}
{"id": "C58", "title": "Truncated compressed data is refused", "statement": "If the compressed bytes of an NPZ member are a proper prefix - of any length, even none - of a standard DEFLATE stream (made by libnpy or any other compressor), reading or peeking at the member throws std::runtime_error: no partial array is returned and no memory outside the decompressor's buffers is used, whatever checksum and sizes the archive declares. The reader can be used further. The stream must stand for less than 1 MiB of data or the prefix be at most 1 MiB long.", "quantifier": "every DEFLATE stream, every proper prefix, every archive holding it, every reader history, environment and static parse state; little-endian hosts (for others see C67)", "why_tests_cant": "streams and cut points are unbounded in number; the decoder is a resumable coroutine and the cut can fall in any of its states (inside a bit field, a Huffman code, a stored block or a copy)", "anchors": ["src/zip.cpp: npy_inflate", "src/miniz/miniz.cpp: mz_inflate, tinfl_decompress", "src/npz.cpp: read_file", "include/npy/npy.h: npzstringreader::read, peek"]}
{"id": "C59", "title": "Any bytes as an archive", "statement": "Opening an NPZ reader (from memory or from a file) on any byte string has one of three results, decided by the bytes alone: it opens, and keys() is the sorted list of the names its directory records carry; std::runtime_error is thrown (missing or wrong signature, version above 45, extra field that is not ZIP64 or too short); or the behaviour is undefined, exactly if the four bytes of a signature that must be compared are not all in the file - in particular for every input of fewer than 22 bytes, such as an empty file. Reading any name of an opened archive throws invalid_argument if the directory has no such name; its behaviour is undefined in read_file exactly if an earlier operation of this reader ran past the end of the archive or the entry's local header does not start inside the file, or as the decompressor's is; otherwise it throws runtime_error or bad_alloc (size above memory) or gets data with the recorded checksum. Loading the tensor in a release build hits no assertion and is undefined only for those reasons or for the reasons of C55.", "quantifier": "every byte string, string and file readers, every history of reads, every name, every environment", "why_tests_cant": "ranges over all byte strings; fuzzing can only sample them, and reads of uninitialised bytes do not show", "anchors": ["src/npz.cpp: read_entries, read_end_of_central_directory, read_central_directory_header, read_zip64_extra, read_local_header, read_file, assert_sig", "include/npy/npy.h: npzstringreader, npzfilereader"]}
{"id": "C60", "title": "Any bytes as compressed data", "statement": "Every byte string handed to the decompressor (or found as the compressed data of an archive member) falls into exactly one of three classes defined by RFC 1951: it starts with a complete DEFLATE stream, whose contents are determined by the bytes; it has a fault a decoder must notice (it is cut, uses the reserved block type, has disagreeing stored lengths, an over- or under-subscribed code, a repetition with nothing to repeat, or too many code lengths) - at any place, after any number of good blocks; or it says something the standard gives no meaning to (an undefined symbol, a distance to before the data). In the first class the call returns the contents, or throws for the sizes C50 excepts. In the second class the call throws and returns nothing; so, third class excluded, what is returned is always exactly what the standard says. The third class is not checked for.", "quantifier": "all byte strings of at most 1 MiB; all archives with a member holding such bytes; little-endian hosts (for others see C67)", "why_tests_cant": "The set of malformed streams is infinite, faults can sit at any bit after any prefix of correct blocks, and a fuzzer only samples it.", "anchors": ["src/miniz/miniz.cpp: tinfl_decompress, mz_inflate", "src/zip.cpp: npy_inflate", "src/npz.cpp: read_file"]}
{"id": "C61", "title": "Tensor classes of the user", "statement": "npy::save, npy::load and the npz writers and readers work with any class that answers ndim/shape/dtype/fortran_order/save (resp. has a static load). If such an object answers like an array with a given element type, shape, order and elements, then the file (and the archive entry) is byte for byte the one npy::tensor with that content would give; npy::tensor itself is such a class. When a file so written is loaded with any class, that class's load function gets the element type, order and shape that were saved and a stream standing at the data, and read_values for all elements gives the saved elements and leaves the stream right behind the array. The matrix class of examples/custom_tensors therefore round-trips: coefficient (i,j) of the matrix loaded, in either storage order, on either kind of host and for any byte order, directly or through an archive, is coefficient (i,j) of the matrix or two-dimensional array that was saved. What the example does not do is also settled: it does not look at the element type, refuses more than two dimensions, and reads outside the shape for zero dimensions.", "quantifier": "all classes (as functions from their arguments to answers), element types, shapes, orders, values, byte orders, writing and reading hosts, positions in a longer stream; for the example all matrices of float and double of any size and both storage orders on both sides", "why_tests_cant": "The templates are instantiated by code that does not exist yet: a test fixes one class. The example's storage order conversion has to be right for every matrix size and every pair of orders.", "anchors": ["include/npy/npy.h: save 239-252, load 333-336, npzstringwriter/npzfilewriter::write 433-449/507-523, npzstringreader/npzfilereader::read 567-570/634-637", "src/dtype.cpp: read_values", "examples/custom_tensors/custom.cpp: EigenTensor"]}
{"id": "C62", "title": "Memory safety of decompression", "statement": "Reading a compressed member of an archive, whatever its bytes are and however long it is, never makes the decompressor touch memory outside its window, its code tables or its input, or shift by an undefined amount, except through one gap: it accepts the two length symbols (286, 287) that RFC 1951 rules out. With the one missing test added it is memory safe on every byte string and otherwise gives the same result. For the code as it is the claim is refuted: a member of 219 bytes makes it write past the end of its window, a member whose first match reaches before the start of the data gives the user memory that was never written, and 16 bytes make it produce output for ever. All this happens before any checksum is compared. Members that are valid or have a fault the standard tells a decoder to notice are safe.", "quantifier": "all byte strings of any length (also over several 1 MiB chunks), all bounds on the loops; for the archives all zip files, all members, all histories of earlier reads; little-endian hosts (for others see C67)", "why_tests_cant": "The hostile inputs are a vanishing fraction of all inputs and the out-of-bounds write needs an exact window position; safety is a statement about every input.", "anchors": ["src/miniz/miniz.cpp: tinfl_decompress 437-777, mz_inflate 287-376", "src/zip.cpp: npy_inflate 91-161", "src/npz.cpp: read_file 382-425"]}
{"id": "C63", "title": "archives in files", "statement": "An npzfilewriter on a path that opens behaves, call for call, like an npzstringwriter: every write and close returns the same, and at every moment the file holds a beginning of the string the string writer would have - all of it, as far as the disk takes it, once close() or the destructor has run. A disk that fills up changes no return value. A finished archive is read back by npzfilereader(path) (every name, every tensor, after any earlier reads), whatever else the program does in between and afterwards, as long as nothing else opens that path for writing. An archive that was never closed or not taken whole is not opened by a reader, unless the data written holds the end-of-directory signature itself. A writer on a path that does not open returns from every call as usual and leaves the disk as if it were not there; only is_open() tells. A missing file is refused with invalid_argument; a closed reader still answers keys() and contains(), but reading a name it has is undefined, and the two-argument read of npzfilereader never returns a value (undefined behaviour).", "quantifier": "every program of constructions, writes, closes and destructions of any number of file writers, archive reads, and NPY saves/loads/peeks in any order; every limit of the disk, every flushing behaviour, every moment at which the program stops", "why_tests_cant": "Tests run one program on a disk with room; they cannot enumerate interleavings, fill levels and stopping points, nor show that no beginning of an archive opens.", "anchors": ["include/npy/npy.h: npzfilewriter, npzfilereader", "src/npz.cpp: npzfilewriter::npzfilewriter/close/write_file/~npzfilewriter, npzfilereader::read_entries/close, write_file, close"]}
{"id": "C64", "title": "headers made by the program", "statement": "A program can read data that has no NPY header (or whose header it knows) with a header_info it makes from type, byte order, order flag and shape. For every element type of fixed width, both byte orders and every host, tensor::load and read_values then give exactly the elements whose standard encoding the stream holds, and leave the stream right behind them (complex types: in the host's byte order). With a header for another element type tensor::load throws std::runtime_error and reads nothing. For strings such a header cannot be used: its maximum length is never set, so reading is undefined.", "quantifier": "all element types, byte orders, hosts, shapes, values, stream positions and following bytes", "why_tests_cant": "relates every host and byte order; the undefined read only shows under tools that track initialisation", "anchors": ["src/npy.cpp: header_info::header_info(dtype, endianness, fortran_order, shape)", "include/npy/npy.h: tensor::load", "src/dtype.cpp: read_values"]}
{"id": "C65", "title": "what arbitrary header text means", "statement": "For a release build, whether a header text is accepted, and as what, is settled by a small grammar: one skipped character, entries, then '}'. An entry is a key (one skipped character, then descr, fortran_order or shape up to a single quote), one skipped character, a value, one skipped character; blanks may stand between them, and no other punctuation is looked at. A type code whose second character is U is a string type of the length that follows; one of numpy's codes is its type; any other non-empty code is silently 8-bit integers. The order is told by the first letter T or F, the next 3 or 4 characters are skipped. The shape is the numbers up to ')', commas optional, negatives taken modulo 2^64, ended by anything that is no number below 2^64. Later entries win. The behaviour is undefined exactly when, after such entries, there is a descr key whose code is empty or cut off; every other text is refused with an exception. peek returns a header for a file exactly when bytes 6-7 say version 1.0 or 2.0 and the text of the announced length (missing bytes count as zero; below 2^31) means it; the magic string is not looked at. load returns a tensor exactly when that header names the requested type and an order and the elements, counted modulo 2^64, fit in memory - whatever data follows.", "quantifier": "every text, every byte sequence, every element type, after every history of earlier parses", "why_tests_cant": "The set of accepted texts is infinite and the refused ones are its complement; tests only try examples of either.", "anchors": ["src/npy.cpp: header_info::header_info(dictionary), read, read_to, read_string, read_bool, read_shape, skip_whitespace", "include/npy/npy.h: read_npy_header, peek, load, tensor::load", "src/dtype.cpp: from_dtype"]}
{"id": "C66", "title": "what a debug build accepts", "statement": "In a build with assertions on, the header text of a file is taken for a header exactly when its punctuation is the format's: an opening brace, then entries made of a quoted key (descr, fortran_order or shape), a colon, a quoted type code / the word True or False / a parenthesised list of numbers, and a comma, with blanks allowed between them, then a closing brace; the header is the one these entries make, later ones winning. Text a release build takes for a header either has that punctuation, and both builds return the same header, or makes the debug build stop at a failed assertion, never run into undefined behaviour. peek of a file returns a header exactly when the file starts with the magic string and holds such text, and once it does debug and release builds load the same tensor.", "quantifier": "all texts and all files, after any earlier parses, on either host", "why_tests_cant": "Tests try a few good and bad headers; the claim is an exact description of the accepted language and of how the two builds differ on all byte strings.", "anchors": ["src/npy.cpp: read, skip_whitespace, read_to, read_string, read_bool, read_shape, header_info::header_info", "include/npy/npy.h: read_npy_header, load, peek"]}
{"id": "C67", "title": "compression on big-endian hosts", "statement": "On little-endian hosts compressed data is standard DEFLATE and is read back on any little-endian host (C49, C52). On big-endian hosts this fails silently, although libnpy supports them otherwise (endian_t, host byte order detection): the compressor can report success with bytes that are not a DEFLATE stream of its input and that no host can decompress; for other inputs it reads past the end of a table (a build with assertions stops instead); and standard compressed data can make the decompressor use memory that was never written. So an array written to a compressed archive by a build without assertions on a big-endian host may be lost: the write succeeds, the archive opens and lists the array, reading it throws std::runtime_error everywhere.", "quantifier": "all byte strings, all heap contents, all pairs of writing and reading hosts (little-endian part); all big-endian hosts, builds and memory sizes, and for the archive all reading hosts and builds (big-endian part, for the inputs exhibited)", "why_tests_cant": "tests run on little-endian machines only; the defect is in which byte order three word accesses have on another host", "anchors": ["src/miniz/miniz.h: MINIZ_LITTLE_ENDIAN, MINIZ_HAS_64BIT_REGISTERS, MINIZ_USE_UNALIGNED_LOADS_AND_STORES", "src/miniz/miniz.cpp: MZ_READ_LE32, tinfl_decompress, tdefl_compress_lz_codes", "src/zip.cpp: npy_deflate, npy_inflate"]}
{"id": "C68", "title": "Compressing data trips no assertion", "statement": "In a build with assertions enabled (no NDEBUG) on a little-endian machine, compressing any byte sequence, whatever the memory the allocator returned contained, fails none of the assertions of the compression path: not those of the wrapper (the library never reports a stream error, all input is consumed, the stream is ended) and not those inside the bundled compressor (bits fit their field, every symbol written has a code, every match recorded is within range and within the lookahead, no block is started while output is pending, the block buffer is never full). The output is the one of a release build.", "quantifier": "all byte sequences, all initial contents of the compressor's uninitialised memory, all builds", "why_tests_cant": "The assertions guard internal state (bit buffer, Huffman tables, window, LZ code buffer) reached only by particular inputs of particular lengths; a test run with assertions enabled covers only its own inputs.", "anchors": ["src/miniz/miniz.cpp: MZ_ASSERT, TDEFL_PUT_BITS, tdefl_start_dynamic_block, tdefl_compress_lz_codes, tdefl_flush_block, tdefl_find_match, tdefl_record_match, tdefl_compress_normal", "src/zip.cpp: npy_deflate"]}
{"id": "C69", "title": "Compressing cannot make data much larger", "statement": "Whatever the data and whatever memory the allocator returned: the compressed form of n bytes takes at most n + n/6 + 580 bytes, and at most n + 5 bytes if n <= 31744. So a member of up to 3 GiB, compressed, always fits the 32-bit size fields of the archive.", "quantifier": "all byte strings of any length, all contents of uninitialised heap memory, debug and release builds on little-endian hosts", "why_tests_cant": "The worst case depends on the Huffman codes the compressor computes for a block, on the limit it puts on their lengths and on whether the data of a block is still in the window when the block could be stored instead; no finite set of inputs contains the worst one.", "anchors": ["src/miniz/miniz.cpp: tdefl_flush_block, tdefl_optimize_huffman_table, tdefl_huffman_enforce_max_code_size, tdefl_calculate_minimum_redundancy, tdefl_compress_normal", "src/zip.cpp: npy_deflate"]}
{"id": "C70", "title": "Order of the elements in begin()..end(), values() and data()", "statement": "Iterating over a tensor from begin() to end(), and reading values() or data(), gives every element exactly once, in the order of its indices with the last index moving fastest (C order) or the first index moving fastest (FORTRAN order): the k-th element is what operator() returns at the k-th index of that order. Writing through the k-th position changes the element at the k-th index and no other; `for (T &x : t) x = f(x)` applies f to the element at every index; positions outside [0, size()) are undefined behaviour. save() writes the elements in the same order.", "quantifier": "every tensor obtained from the API whose element count does not overflow 64 bits, every shape, both orders, every position, every value and function f", "why_tests_cant": "a test iterates over a few shapes; the claim is about shapes of any rank and extent and both orders", "anchors": ["include/npy/npy.h: tensor::begin, tensor::end, tensor::values, tensor::data, tensor::operator(), tensor::ravel, save"]}
{"id": "C71", "title": "What any member of any archive is, byte position by byte position", "statement": "Open any bytes as an archive, in memory or from a file, and ask for members by name, in any order and as often as wanted. Opening either fails as C59 says or succeeds; then keys() lists the names of the directory records in sorted order, contains() answers for exactly those names, and every request is answered by a function of the bytes of the archive alone: a name (or, failing that, name.npy) that has no record throws invalid_argument; otherwise the last record of that name decides, and the answer is the contents found through its offset: an exception if the local header has a wrong signature, a too new version, an unusable extra field, or disagrees with the directory on name, checksum, method or sizes, or if memory does not suffice, or if the checksum of the (decompressed if the method is 8, else plain) bytes is wrong; else these bytes. Bytes past the end of the file count as zeros for that one request; afterwards every further request for an existing member is undefined behaviour, the others still throw invalid_argument. Tensors and headers read from the archive are what load and peek give for the contents. If all headers and data lie inside the file, no request is undefined, except by decompressing a senseless stream.", "quantifier": "every byte string, string and file readers, every list of requested names, every decompressor, any memory size, both builds", "why_tests_cant": "hostile or damaged archives are an unbounded set, and the answer to a request depends on all requests before it", "anchors": ["src/npz.cpp: read_zip64_extra, read_local_header, read_central_directory_header, read_entries, npzreader::read_file, check, npzstringreader, npzfilereader", "include/npy/npy.h: npzstringreader, npzfilereader"]}
{"id": "C72", "title": "Compression is reproducible", "statement": "What the compressor writes for a byte string is a function of that byte string alone: the compressor's state is allocated without being cleared (about 300 kB: window, hash chains, token buffer), and none of what the memory held before, nor the build (with or without assertions), nor the size of the machine's memory shows in the output. Hence the same calls on equal archive writers, in any two processes or builds on little-endian machines, answer alike and leave byte-identical archives, at every point of the history, whatever each call's allocation returns.", "quantifier": "every byte string of any length, every two heap contents, every two builds and memory sizes, every writer (stored or compressed, any endianness), every sequence of write and close calls with any arrays of the library", "why_tests_cant": "a test sees a handful of heap contents (usually fresh zero pages); an uninitialised read that shows needs the right stale bytes at the right cell, for the right input", "anchors": ["src/zip.cpp: npy_deflate", "src/miniz/miniz.cpp: tdefl_init, tdefl_compress_normal, tdefl_find_match, tdefl_compress_lz_codes, tdefl_flush_block, mz_deflateInit2", "src/npz.cpp: write_file", "include/npy/npy.h: npzstringwriter::write"]}
{"id": "C73", "title": "Whole programs see arrays and files as plain values", "statement": "A program that makes, fills, sets, copies, moves, saves, loads and peeks arrays by path, writes any number of NPZ archives side by side (stored or compressed, either byte order) and opens, lists, queries and reads them, sees exactly what it would see if arrays were functions from indices to elements, an NPY file held one array, a finished archive held a list of named arrays and a reader were a snapshot of that list: the same elements, headers, key lists and containment answers, and the same exceptions at the same steps (wrong index, wrong type, missing file or member, write after close, unwritable path). No step runs into undefined behaviour or a failed assertion, whichever build and whatever the heap held. The conditions are on the ideal run only: operations on constructed variables and live objects, arrays an NPY header can record, archives under 4 GiB with fewer than 65536 members, compressed members of sizes that survive, files loaded as what they were written as, and no file written while it is being written or read.", "quantifier": "every program (list of steps of any length) meeting the conditions, every typing of its variables, every initial disk, every set of writable paths, every buffering behaviour of the files, every build and heap content on a little-endian machine with at least 4 GiB of memory", "why_tests_cant": "a test runs one program; the interplay of shared parser state, aliasing of variables, several open archives and one disk has to be right for every sequence of calls", "anchors": ["include/npy/npy.h: tensor, save, load, npzfilewriter::write, npzfilereader::read", "src/npy.cpp: peek, header_info", "src/npz.cpp: npzfilewriter, npzfilereader, write_file, read_file", "src/zip.cpp: npy_deflate, npy_inflate", "src/dtype.cpp: to_dtype"]}
{"id": "C74", "title": "Programs in parallel: a lock around header parsing is enough", "statement": "Let any number of threads each run a program as in C73, on variables, writers and readers of its own, all sharing the process's one scratch buffer, one dtype map and one disk; a file that a thread writes is used by no other thread, any other file may be read by all of them. If only the calls that parse an NPY header (load, peek, and reading or peeking an archive member) are serialised with each other, by a lock around each of them, while saves, archive writes, opens and everything else run freely at any moment, including in the middle of another thread's parse, then under every schedule every thread has seen, at every moment, exactly the beginning of what its program sees alone in the ideal world of C73, and nothing is undefined. In release builds even less suffices: that no thread works on headers while another is between filling the scratch buffer and copying its token out. If the process is killed at any moment, later runs of programs find in every file what the one thread that writes it had left in it by then in its ideal world, and what it held before if none does. Schedules that let any number of the threads run to the end exist.", "quantifier": "any number of threads, every family of programs meeting C73's conditions where no thread uses a path another writes, all initial files (of this or other programs, as in C75), every schedule (interleaving of the parser's single accesses to the shared state with all other calls) that respects the lock, cut off anywhere, every build and heap content, all later runs as in C75", "why_tests_cant": "the number of interleavings is astronomical and a stress test samples a few; a race shows only when a thread is preempted inside a token", "anchors": ["src/npy.cpp: BUFFER, read, read_to, header_info", "src/dtype.cpp: DTYPE_MAP, from_dtype", "include/npy/npy.h: load, save, npzfilereader::read, npzfilewriter::write", "src/npz.cpp: npzfilereader::peek, read_file"]}
{"id": "C75", "title": "Files outlive programs and come from elsewhere", "statement": "Let any number of programs as in C73 run one after the other over the same files, each on its own little-endian machine, build, memory size and heap contents, each ended by returning or by being killed with archives unfinished; and let files be copied, removed, replaced or damaged between the runs. The files they start from, and files put there between the runs, may be NPY files and ZIP archives of other programs: version 1.0 or 2.0 headers with the keys in any order and any blanks, either byte order, padded strings, trailing bytes; members stored or DEFLATEd by any compressor, in any directory order, with gaps and ZIP64 fields. Then every program sees exactly what it would see if a file held an array or a list of named arrays for as long as it exists: what one run saved, the next loads, and what another program wrote loads as the array it stands for, with the same exceptions for wrong types, missing files and too little memory. Nothing is undefined.", "quantifier": "every list of runs (of any length, each any program meeting C73's conditions), every initial contents of the disk that is what it is said to be, every list of copies, removals and replacements between runs, every build, memory size from 4 GiB, and heap content of each run", "why_tests_cant": "a test writes and reads within one process of one build; that files carry over between processes, machines, builds and writers has to hold for every history", "anchors": ["include/npy/npy.h: save, load, npzfilewriter::write, npzfilereader::read", "src/npy.cpp: header_info, peek", "src/npz.cpp: npzfilewriter, npzfilereader, read_file", "src/zip.cpp: npy_deflate, npy_inflate"]}
{"id": "C76", "title": "Killed inside a call", "statement": "If the process is killed in the middle of any call, at whatever byte of its output, only the file that call writes can be damaged: the path of the save or of the new archive, or the file of the open archive it writes to, closes or destroys. Every other file holds what the completed calls put there: all later runs of programs, of any build, see exactly that (as in C75), and may write the damaged path anew. A call that does come to its end has written no other file either. So saving to another path and then renaming it over a file replaces that file safely: whenever the process is killed, a later run that loads the file gets all of the old array or all of the new one, with no exception.", "quantifier": "every program as in C73 over all files as in C75, every call in which the process is killed, all contents the file being written may then have, all later runs as in C75; every pair of arrays for the replacement", "why_tests_cant": "a test kills at a few chosen moments; the claim is for every call of every program and for everything the operating system may have written by then", "anchors": ["include/npy/npy.h: save, npzfilewriter::write", "src/npz.cpp: npzfilewriter::npzfilewriter, close, ~npzfilewriter", "src/npy.cpp: BUFFER", "src/dtype.cpp: DTYPE_MAP"]}
{"id": "C77", "title": "The program's locale", "statement": "In a program whose global locale does not group digits, saving, loading and peeking are what they are in the classic locale. In one that groups digits the header of a saved array gives its dimensions in decimal whatever locale is global only if no dimension needs a thousands separator: then, and only then, the file is byte for byte the one a program in the classic locale writes. In a program whose global locale groups digits with a separator other than the comma, arrays that it or a program in the classic locale saved come back exactly. In one whose separator is the comma, every array of at least one dimension and one element, saved by it or by a program in the classic locale, loads as a single value without dimensions, with no exception. A file with separators read in the classic locale loads with another shape, with no exception: with commas or blanks between digits every dimension falls apart into its groups of digits, with another separator the shape ends with the first group before the first separator; what values there are are the first ones of the array. Arrays of four dimensions or fewer always have a readable header. The same holds for members of archives, stored or compressed: a member is the file saving writes in the writing program's locale, and reading it is loading that file in the reading program's.", "quantifier": "all locales with any separator and any list of group sizes (sizes that end the grouping included), all arrays the API can make whose header fits, all byte orders, all streams, all states of the parser; all archives of such arrays and all earlier reads through a reader", "why_tests_cant": "tests run in the classic locale, and a test in another one tries a few shapes; the claims are for every shape and every grouping", "anchors": ["include/npy/npy.h: write_npy_header, save, load", "src/npy.cpp: read_shape", "include/npy/npy.h: npzstringwriter::write, npzfilewriter::write, read", "src/npz.cpp: peek"]}
{"id": "C78", "title": "Streams that throw", "statement": "A caller may switch exceptions on for its own input stream with exceptions(failbit), exceptions(eofbit) or both. With either, load and peek of that stream return what they return on an ordinary stream or end with std::ios_base::failure, and they end so only where the ordinary call would have left the stream failed or used bytes it never read. A stream that is not good to begin with makes them throw at once with failbit on, or with eofbit on if it is at its end. Whatever the bytes are, a tensor is returned only if every byte of its header and of its values was there: the call takes an exact sequence of bytes from the stream - as many value bytes as the tensor has elements times the bytes of one - gives the same tensor whatever follows them, and throws if any of them, however few, are missing. So a saved array cut at any byte throws where an ordinary stream would return zeros or use uninitialised memory, and a program that reads arrays until the exception gets exactly the whole ones. In a release build no byte that was not read is used: peeking is undefined only for an empty type code, and loading only for a dictionary without 'descr' or 'fortran_order' besides.", "quantifier": "all exception masks of eofbit and failbit, all streams and bytes, all types, both byte orders, debug and release builds (release for the claim on undefined behaviour), all states of the parser, all sequences of saved arrays and all cuts", "why_tests_cant": "a test cuts a few files at a few bytes; the claims are for every byte string and every cut", "anchors": ["include/npy/npy.h: read_npy_header, load, peek, tensor::load", "src/dtype.cpp: read_values"]}
{"id": "C79", "title": "A process killed while its threads run", "statement": "Threads run programs over shared files, each file written by one thread at most and then mentioned by no other, under either discipline of C74 (a lock around the calls that parse headers; or, in a release build, whole tokens). If the process is killed at any moment, with any of the threads inside any of their calls, the only files whose contents are uncertain are those that a thread's unfinished call was writing: the path of its save or new archive, or the open archive it writes a member to, closes or destroys. Every other file holds what the one thread that writes it, run alone up to where it had come, leaves in it, or what it held at the start; and any number of later runs of programs, on any little-endian machine and build, read exactly that from those files and can write the uncertain ones anew.", "quantifier": "all numbers of threads, all programs covered by C73 within the ownership rule, all schedules of either discipline, all moments, all contents of the files being written, all later sequences of runs", "why_tests_cant": "the moment of the kill and the interleaving cannot be enumerated by tests", "anchors": ["include/npy/npy.h: save, load, peek, tensor", "src/npz.cpp: npzfilewriter, npzfilereader", "src/npy.cpp: BUFFER, read", "src/dtype.cpp: DTYPE_MAP"]}
{"id": "C80", "title": "Output streams that fail", "statement": "save writes to any std::ostream the caller has, over any stream buffer. Whatever the buffer does (takes less than it is given, refuses, throws), whatever state the stream was in and whatever exceptions are switched on for it, what arrives is a beginning of the file the array has, and the stream is still good afterwards only if it was good before and the whole file arrived. Without exceptions save returns in every case, and to a stream that is not good (at its end, say) it writes nothing. With exceptions(badbit) on a good stream, save returns exactly when the whole file was taken, and with a buffer that tells the truth it throws std::ios_base::failure exactly when some byte was not; exceptions(failbit) alone is not enough, as save returns whatever becomes of values that are written in one piece. On a device that takes so many bytes, exactly those arrive, as in a file saved by path (C57). Several arrays in one stream: what arrives is a beginning of their files one after the other, all of them if the stream is good at the end; with badbit on, exactly the arrays whose save returned are there whole, followed by at most a proper beginning of the next, and a program that loads until an exception (C78) gets exactly those back. To a stream that is not good to begin with nothing is written under any mask, the buffer is not asked, and its own exception cannot escape; where the library's sentry sets failbit then, save throws at once with failbit on, or with badbit or eofbit on if that is what is wrong with the stream. An array that save refuses is refused on every stream, in the same way, and the stream is not touched.", "quantifier": "all stream buffers (any answer to any request, depending on all earlier ones), all exception masks, all states of the stream, either behaviour of the C++ library's sentry on a stream that is not good, all arrays that save accepts, both byte orders, debug and release builds, all sequences of arrays", "why_tests_cant": "a test fails a few writes of a few arrays; the claims are for every buffer, every point of failure and every sequence", "anchors": ["include/npy/npy.h: write_npy_header, save, tensor::save", "src/dtype.cpp: write_values"]}
{"id": "C81", "title": "Input streams over any stream buffer", "statement": "load and peek read from any std::istream the caller has, over any stream buffer - one that delivers fewer characters than it is asked for (a pipe, a socket), stops in the middle, or throws - in any state and with any exceptions switched on. Either an exception leaves the call, or it does exactly what it does on an ordinary stream holding the characters the buffer delivered and no more: same result, same parser state. Without exceptions switched on nothing escapes, not even what the buffer throws, so a short delivery is a truncated file (C30). With badbit and either failbit or eofbit on, a call on a good stream returns exactly when the buffer delivered everything it was asked for, and then the result uses exactly those characters, whatever would have followed; if what was delivered is of a file that save made, the call returns the saved array, having taken exactly the file, or an exception escapes. A buffer that always delivers what it is asked for makes nothing escape under any mask. With failbit on, a call on a stream that is not good to begin with throws at once and asks the buffer for nothing, and with badbit or eofbit alone it does so if that is what is wrong with the stream. What escapes is std::ios_base::failure if the buffer throws nothing, and the buffer's own exception if badbit is on and it delivers in full until it throws.", "quantifier": "all stream buffers (any answer to any request, depending on all earlier ones), all exception masks, all states of the stream, all types, both byte orders, debug and release builds, all states of the parser", "why_tests_cant": "a test tries a few buffers that fail at a few places; the claims are for every buffer", "anchors": ["include/npy/npy.h: read_npy_header, load, peek, tensor::load", "src/dtype.cpp: read_values"]}
{"id": "C82", "title": "Threads that share arrays", "statement": "A program's main thread makes, fills and loads arrays (any program of C73); then any number of threads run programs that all use some of those arrays at once - read elements, iterate, save them to files and into archives, copy them - while no thread assigns to, fills, moves from or loads into a shared one. Each thread also has variables, writers and readers of its own, and files under the rule of C74. No lock is needed for the shared arrays: with C74's lock around the calls that parse headers and nothing else (in a release build, with whole tokens only), under every schedule every thread sees exactly the beginning of what its program sees alone in the ideal world of C73, starting from the arrays and files the main thread left; the shared arrays are at every moment as the main thread left them - and nothing is undefined. If the process ends there, or is killed, later runs of programs find in every file what the one thread that writes it had left in it by then, and what the main thread left if none does. Schedules that let any number of threads run to the end of their programs exist. If the process is killed while the threads are inside calls, only the files that those calls write are in doubt: a call that is under way changes no other file and no shared array, and whatever those files are left with, later runs of programs find in every other file what C82 says above (as C79 for threads that share nothing).", "quantifier": "every program of the main thread and every family of thread programs meeting C73's conditions, every choice of shared variables that no thread changes, all initial files, every schedule that respects the lock, cut off anywhere, every build and heap content", "why_tests_cant": "Whether const member functions of a shared tensor interfere with each other, or with another thread's parse, depends on the schedule; tests see a few schedules of a few programs.", "anchors": ["include/npy/npy.h: tensor::save, operator(), begin, end, copy constructor and assignment, save(path)", "src/npz.cpp: npzfilewriter::write", "src/npy.cpp: BUFFER"]}
