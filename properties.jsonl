{"id": "C01", "title": "Bit stream round trip", "statement": "Writing any sequence of bits with BitWriter, aligning, and reading the produced bytes with BitReader yields exactly the same bits followed by fewer than eight zero padding bits; no call errors or panics.", "quantifier": "every finite bit sequence", "why_tests_cant": "The set of bit sequences is infinite and packing errors depend on the length modulo 8 and the surrounding bits; the one unit test reads back a single byte.", "anchors": [{"file": "lib/src/bit.rs", "symbols": ["BitWriter", "BitReader", "BitVec"]}]}
{"id": "C02", "title": "Bits are packed least-significant-bit first, in call order", "statement": "After any history of write_bit, write_bits_val, write_vec and align calls on a writer, the emitted bytes together with the pending bits are exactly the concatenation of the bits of those calls packed LSB-first into bytes; nothing is emitted early, reordered or lost.", "quantifier": "every history of write calls on one BitWriter", "why_tests_cant": "Histories are unbounded and every alignment of call boundaries to byte boundaries matters.", "anchors": [{"file": "lib/src/bit.rs", "symbols": ["BitWriter::write_bit", "BitWriter::write_bits_val", "BitWriter::write_vec", "BitWriter::align"]}]}
{"id": "C03", "title": "A bit vector behaves as a stack of bits", "statement": "Any history of push and pop on a BitVec leaves it observably equal (get, len, iter, pop, ==) to a plain list of bits with the same pushes and pops.", "quantifier": "every history of push/pop operations", "why_tests_cant": "Histories are unbounded; the failing interleaving (pop a 1 then push a 0 in the same byte) is not in the unit tests.", "anchors": [{"file": "lib/src/bit.rs", "symbols": ["BitVec::from_slice", "BitVec::push", "BitVec::pop", "BitVec::get", "BitVec::iter"]}]}
{"id": "C04", "title": "Fixed-width fields round trip", "statement": "For each width up to 16 bits and each value below 2^width, write_bits_val followed by read_part returns the value, at any bit offset in the stream; and read_part returns the little-endian value of the next bits for any stream.", "quantifier": "every width 0..16, value, and stream position", "why_tests_cant": "Value x width x offset is too large to enumerate in the context of arbitrary surrounding data.", "anchors": [{"file": "lib/src/bit.rs", "symbols": ["BitWriter::write_bits_val", "BitReader::read_part", "BitSource::read_part"]}]}
{"id": "C05", "title": "Alignment skips only zero padding", "statement": "BitReader::align succeeds iff all remaining bits of the partly read byte are zero, then the next read starts on the following byte; otherwise it reports an error; it never touches further bytes of the underlying reader.", "quantifier": "every reader state reachable from any byte stream", "why_tests_cant": "All partial-byte states for all byte values and streams.", "anchors": [{"file": "lib/src/bit.rs", "symbols": ["BitReader::align", "BitReader::position"]}]}
{"id": "C06", "title": "The bit reader takes no more bytes than it needs", "statement": "After reading any number of bits the underlying reader has been advanced by exactly ceil(bits/8) bytes, so whatever follows the bit stream (the gzip trailer, a following member) is still available to the caller.", "quantifier": "every byte stream and number of bits read", "why_tests_cant": "Over-read depends on the whole history of reads.", "anchors": [{"file": "lib/src/bit.rs", "symbols": ["BitReader::read_bit", "BitReader::into_inner"]}]}
{"id": "C07", "title": "Stored blocks round trip", "statement": "A stored (uncompressed) block written by compressed_block is parsed back by parse_deflate as the same stored block, for every payload of at most 65535 bytes.", "quantifier": "every payload up to 65535 bytes", "why_tests_cant": "No unit test re-serialises a stored block; the defect depends on the length's two bytes.", "anchors": [{"file": "lib/src/bit.rs", "symbols": ["BitWriter::write_length_prefixed", "BitWriter::write_aligned_u16", "BitReader::read_length_prefixed", "BitReader::read_aligned_u16"]}]}
{"id": "C08", "title": "Stored block header validation", "statement": "Reading a stored block succeeds iff the stream supplies four header bytes with NLEN the one's complement of LEN (little-endian) and at least LEN payload bytes, and then returns exactly those LEN bytes and leaves the following byte next.", "quantifier": "every byte stream", "why_tests_cant": "65536^2 header values times arbitrary payload lengths.", "anchors": [{"file": "lib/src/bit.rs", "symbols": ["BitReader::read_length_prefixed", "BitReader::read_aligned_u16"]}]}
{"id": "C09", "title": "Match-length codec agrees with RFC 1951", "statement": "For every match length 3..258 the encoder's symbol and extra bits are a row of the RFC 1951 table for that length and decoding them gives the length back; decoding any symbol 257..285 with any extra bits gives the length the RFC table assigns, and 286, 287 are rejected.", "quantifier": "every match length, symbol, extra-bit pattern and following stream", "why_tests_cant": "The decoder reads from an arbitrary following stream; the table is checked against an independent transcription of the RFC.", "anchors": [{"file": "lib/src/huffman.rs", "symbols": ["encode_run_length", "extra_run_length", "decode_run_length"]}]}
{"id": "C10", "title": "Distance codec agrees with RFC 1951", "statement": "For every distance 1..32768 the encoder's symbol and extra bits are the unique row of the RFC 1951 table for it and decoding gives it back; decoding any symbol 0..29 with any extra bits gives the RFC distance; other symbols are rejected.", "quantifier": "every distance, symbol, extra-bit pattern and following stream", "why_tests_cant": "32768 distances in arbitrary stream context.", "anchors": [{"file": "lib/src/huffman.rs", "symbols": ["encode_distance", "decode_distance"]}]}
{"id": "C11", "title": "A Huffman table is accepted exactly when it is a complete code", "statement": "Building a code tree from a list of code lengths succeeds iff there are at least two entries and the Kraft sum over the positive lengths is exactly one; over- and under-subscribed codes are rejected with an error and never panic.", "quantifier": "every list of code lengths 0..15 (at most 65536 entries)", "why_tests_cant": "Infinite family of length vectors; acceptance is a global arithmetic property.", "anchors": [{"file": "lib/src/code_tree.rs", "symbols": ["CodeTree::new"]}]}
{"id": "C12", "title": "Huffman tables use the RFC 1951 canonical codes", "statement": "For every accepted length vector, the bit string the tree assigns to symbol s is exactly the canonical code of RFC 1951 section 3.2.2 (and a symbol has a code iff its length is positive), so streams interoperate with any conforming decoder.", "quantifier": "every accepted list of code lengths and every symbol", "why_tests_cant": "Canonical numbering must hold for every length vector.", "anchors": [{"file": "lib/src/code_tree.rs", "symbols": ["CodeTree::new", "CodeTree::invert", "store_code"]}]}
{"id": "C13", "title": "Huffman decoding inverts encoding and is prefix-free", "statement": "For each symbol s that has a code, decoding a stream that starts with that code returns s and leaves the rest of the stream; two different symbols never have codes one of which is a prefix of the other; and every successful decode consumed exactly the code of the returned symbol.", "quantifier": "every accepted length vector, symbol and following stream", "why_tests_cant": "All trees times all streams.", "anchors": [{"file": "lib/src/code_tree.rs", "symbols": ["CodeTree::decode_symbol", "CodeTree::invert"]}]}
{"id": "C14", "title": "Dynamic block headers are decoded per RFC 1951", "statement": "Reading a dynamic Huffman header succeeds exactly on bit strings that match the RFC 1951 section 3.2.7 grammar (counts, permuted code-length code, run-length coded lengths that exactly fill both tables, complete codes, one-distance-code special case), and yields tables with those lengths.", "quantifier": "every bit stream", "why_tests_cant": "The grammar is infinite and the run-length decoding crosses table boundaries.", "anchors": [{"file": "lib/src/huffman.rs", "symbols": ["read_codes"]}, {"file": "lib/src/code_tree.rs", "symbols": ["CodeTree::new"]}]}
{"id": "C15", "title": "The recorded tree bits replay", "statement": "For every dynamic block parsed, the recorded tree bits are exactly the header bits consumed from the stream, and re-reading the recording yields the same tables without error or panic.", "quantifier": "every bit stream with a valid dynamic header", "why_tests_cant": "Recording must be exact for all headers.", "anchors": [{"file": "lib/src/bit.rs", "symbols": ["BitCollector", "StackIterator"]}, {"file": "lib/src/parse.rs", "symbols": ["read_block"]}, {"file": "lib/src/huffman.rs", "symbols": ["read_codes"]}]}
{"id": "C16", "title": "Parsing is total", "statement": "On every byte stream, draining parse_deflate up to its first error or its end terminates, with no panic (no index out of range, assertion, or arithmetic overflow).", "quantifier": "every byte stream (and any I/O error position)", "why_tests_cant": "Adversarial inputs are unbounded; fuzzing only samples.", "anchors": [{"file": "lib/src/parse.rs", "symbols": ["parse_deflate", "BlockIter::next", "read_block", "scan_huffman_data"]}, {"file": "lib/src/huffman.rs", "symbols": ["read_codes"]}, {"file": "lib/src/lib.rs", "symbols": ["Ref::new"]}]}
{"id": "C17", "title": "Parsed codes are well-formed", "statement": "Every back-reference the parser returns has distance 1..32768 and length 3..258, and every literal and stored byte is a byte.", "quantifier": "every byte stream and every block it yields", "why_tests_cant": "All streams.", "anchors": [{"file": "lib/src/parse.rs", "symbols": ["scan_huffman_data"]}, {"file": "lib/src/lib.rs", "symbols": ["Ref::new"]}]}
{"id": "C18", "title": "Serialise then parse is the identity on blocks", "statement": "For every list of well-formed blocks (in range codes that the block's tables can express), writing each with its final flag via compressed_block, aligning, and parsing the result yields the same list of blocks and then the end, consuming all bytes written.", "quantifier": "every non-empty list of well-formed blocks", "why_tests_cant": "Infinite family of block lists and bit alignments.", "anchors": [{"file": "lib/src/serialise.rs", "symbols": ["compressed_block", "compressed_codes", "encode_run", "encode_distance"]}, {"file": "lib/src/parse.rs", "symbols": ["parse_deflate"]}]}
{"id": "C19", "title": "Parse then serialise reproduces the stream bit for bit", "statement": "For every byte stream that parse_deflate accepts, re-serialising the parsed blocks (final flag on the last, then align) gives exactly the bytes that were consumed. This is the purpose of the library.", "quantifier": "every accepted byte stream", "why_tests_cant": "The unit tests round trip six files; the failing encodings (stored blocks; length 258 written as symbol 284) are in none of them.", "anchors": [{"file": "lib/src/serialise.rs", "symbols": ["compressed_block"]}, {"file": "lib/src/parse.rs", "symbols": ["parse_deflate"]}, {"file": "lib/src/bit.rs", "symbols": ["BitWriter::write_aligned_u16"]}, {"file": "lib/src/huffman.rs", "symbols": ["encode_run_length", "decode_run_length"]}]}
{"id": "C20", "title": "Re-serialising parsed blocks never panics", "statement": "compressed_block applied to any block obtained from parse_deflate never panics.", "quantifier": "every block obtainable by parsing any byte stream", "why_tests_cant": "The unwrap of a missing symbol is only reached for particular tables.", "anchors": [{"file": "lib/src/serialise.rs", "symbols": ["encode_run", "encode_distance", "compressed_codes"]}]}
{"id": "C21", "title": "Parsing ignores what follows the final block", "statement": "If parsing a byte stream succeeds and consumes a prefix, then parsing that prefix followed by any other bytes gives the same blocks and leaves precisely those other bytes unread.", "quantifier": "every accepted stream and every continuation", "why_tests_cant": "Quantifies over pairs of streams.", "anchors": [{"file": "lib/src/parse.rs", "symbols": ["parse_deflate", "BlockIter::next"]}, {"file": "lib/src/bit.rs", "symbols": ["BitReader"]}]}
{"id": "C22", "title": "Truncation is always detected", "statement": "If parsing a byte stream succeeds, then parsing any strict prefix of the consumed bytes yields the end-of-input error of the reader (never a silent shorter result).", "quantifier": "every accepted stream and every cut point", "why_tests_cant": "Every cut point of every stream.", "anchors": [{"file": "lib/src/parse.rs", "symbols": ["parse_deflate", "BlockIter::next"]}, {"file": "lib/src/bit.rs", "symbols": ["BitReader::read_bit"]}]}
{"id": "C23", "title": "The parser implements the RFC 1951 block grammar", "statement": "parse_deflate succeeds with blocks bs exactly when the stream begins with a bit string that the (independently stated) RFC 1951 grammar relates to bs, up to the documented leniency (287/288 literal codes, 31/32 distance codes) and strictness (zero padding).", "quantifier": "every byte stream and block list", "why_tests_cant": "Soundness and completeness against a grammar is a statement about all strings.", "anchors": [{"file": "lib/src/parse.rs", "symbols": ["read_block", "scan_huffman_data", "BlockIter::next"]}, {"file": "lib/src/huffman.rs", "symbols": ["read_codes", "decode_run_length", "decode_distance"]}]}
{"id": "C24", "title": "The window buffer holds the last N bytes", "statement": "After any history of push and extend on a buffer of capacity N, len() is min(N, bytes pushed), capacity() is N, and get_at_dist(d) for 1<=d<=len() is the d-th most recent byte.", "quantifier": "every capacity and every history of pushes", "why_tests_cant": "Wrap-around positions for all capacities and histories.", "anchors": [{"file": "lib/src/circles.rs", "symbols": ["CircularBuffer::push", "CircularBuffer::extend", "CircularBuffer::get_at_dist", "CircularBuffer::len"]}]}
{"id": "C25", "title": "The window snapshot is the last len() bytes in order", "statement": "vec() returns exactly the last len() bytes pushed, oldest first, for every capacity accepted by with_capacity.", "quantifier": "every capacity 1..65535 and every history of pushes", "why_tests_cant": "The failing case needs a 65535-byte window filled completely.", "anchors": [{"file": "lib/src/circles.rs", "symbols": ["CircularBuffer::vec"]}]}
{"id": "C26", "title": "Back-reference copy is LZ77 copy", "statement": "copy(dist,len) fails with an error and no effect iff dist is 0 or exceeds len(); otherwise it emits len bytes where each byte equals the one dist before it (including self-overlap) and the buffer afterwards is as if those bytes were pushed.", "quantifier": "every buffer history, distance and length", "why_tests_cant": "Overlap, wrap-around and history combine without bound.", "anchors": [{"file": "lib/src/circles.rs", "symbols": ["CircularBuffer::copy"]}]}
{"id": "C27", "title": "Decompression implements the LZ77 semantics", "statement": "decompressed_codes writes exactly the byte string the abstract LZ77 semantics (unbounded history, literals and copies) assigns to the codes, whenever all distances fit the 32 KiB window and the history so far; the 32 KiB ring never changes the result.", "quantifier": "every code list, every prior history", "why_tests_cant": "All code lists; window wrap-around after arbitrarily long histories.", "anchors": [{"file": "lib/src/serialise.rs", "symbols": ["decompressed_codes", "decompressed_block"]}, {"file": "lib/src/circles.rs", "symbols": ["CircularBuffer"]}]}
{"id": "C28", "title": "Decompression fails exactly on out-of-window distances and streams across blocks", "statement": "Decompressing codes never panics; it errors iff some reference reaches before the available window; processing blocks one after another with the same dictionary equals processing their concatenation.", "quantifier": "every list of blocks and code lists", "why_tests_cant": "All block splits.", "anchors": [{"file": "lib/src/serialise.rs", "symbols": ["decompressed_block", "decompressed_codes"]}]}
{"id": "C29", "title": "A failing output never receives wrong bytes", "statement": "If the output writer fails at any point, the bytes written up to then are a prefix of the correct decompressed output and the call reports an error.", "quantifier": "every code list and every failure point of the writer", "why_tests_cant": "Every crash point of every run.", "anchors": [{"file": "lib/src/serialise.rs", "symbols": ["decompressed_codes", "decompressed_block"]}, {"file": "lib/src/circles.rs", "symbols": ["CircularBuffer::copy"]}]}
{"id": "C30", "title": "The gzip header is returned verbatim and exactly consumed", "statement": "When discard_header succeeds, the returned bytes followed by the unread remainder are exactly the input, and the result does not depend on what follows the header.", "quantifier": "every byte stream", "why_tests_cant": "All flag combinations with arbitrary-length fields.", "anchors": [{"file": "lib/src/gzip.rs", "symbols": ["discard_header", "read_null_terminated", "has_bit"]}]}
{"id": "C31", "title": "The gzip header is accepted exactly per RFC 1952", "statement": "discard_header succeeds iff the stream begins with an RFC 1952 member header (magic, method 8, reserved flags clear, optional extra/name/comment/header-CRC fields as flagged, in order); it never panics and terminates, and every truncation of a header is an error.", "quantifier": "every byte stream and every cut point", "why_tests_cant": "Grammar-level statement over all strings.", "anchors": [{"file": "lib/src/gzip.rs", "symbols": ["discard_header", "read_null_terminated"]}]}
{"id": "C32", "title": "Every proposed back-reference is correct", "statement": "Each reference the match finder proposes at a position has legal distance and length, points inside the already known data, and copying it reproduces the data at that position without running past the end.", "quantifier": "every preroll, data, position, limit and obscured set", "why_tests_cant": "All data and positions; overlapping matches.", "anchors": [{"file": "lib/src/all_refs.rs", "symbols": ["AllRefs::at", "AllRefs::possible_run_length_at"]}]}
{"id": "C33", "title": "Proposed matches are maximal", "statement": "The length of each proposed reference is the longest possible: the full common run at that distance, capped at 258 and the end of data.", "quantifier": "every data and position", "why_tests_cant": "Needs the first mismatch position for every pair of positions.", "anchors": [{"file": "lib/src/all_refs.rs", "symbols": ["AllRefs::possible_run_length_at"]}]}
{"id": "C34", "title": "The match finder is complete and ordered nearest-first", "statement": "Proposed references at a position are exactly the earlier positions (other than position 0) with the same three bytes within 32768, not obscured and among the nearest `limit` unobscured positions with the same hash, in increasing distance order without duplicates.", "quantifier": "every preroll, data, position, limit and obscured set", "why_tests_cant": "The hash chain is built over all data; collisions and sentinels depend on it globally.", "anchors": [{"file": "lib/src/back_map.rs", "symbols": ["BackMap::from_window", "BackMap::get", "Chain"]}, {"file": "lib/src/all_refs.rs", "symbols": ["AllRefs::at", "Key::sixteen_hash_16"]}, {"file": "lib/src/obscure.rs", "symbols": ["obscure"]}]}
{"id": "C35", "title": "Match search is total", "statement": "For every data and every position the search terminates without panic; it reports `no key` exactly for the last two positions (or beyond); position 0 has no candidates and is never the target of one.", "quantifier": "every preroll, data, position", "why_tests_cant": "Chain termination is an invariant of the whole table.", "anchors": [{"file": "lib/src/back_map.rs", "symbols": ["BackMap", "Chain::next"]}, {"file": "lib/src/all_refs.rs", "symbols": ["AllRefs::at"]}]}
{"id": "C36", "title": "Capped maximum picks the first best up to the cap", "statement": "capped_max_by returns None iff the sequence is empty; otherwise the first element whose score reaches the cap if there is one, else the earliest element with maximal score.", "quantifier": "every sequence, score function and cap", "why_tests_cant": "All sequences.", "anchors": [{"file": "lib/src/iters.rs", "symbols": ["capped_max_by"]}]}
{"id": "C37", "title": "The picker only drops far three-byte matches", "statement": "Picker::Longest returns the capped-maximum-length candidate; DropFarThrees returns the same except that a winner of length 3 with distance over 4096 becomes no match; either way the result is one of the candidates.", "quantifier": "every candidate list and cap", "why_tests_cant": "All candidate lists.", "anchors": [{"file": "lib/src/picker.rs", "symbols": ["Picker::picker", "longest", "drop_far_threes"]}]}
{"id": "C38", "title": "Every guess decodes to the data", "statement": "For every technique (greedy, gzip lazy, three-zip) at every position with data left, the guess is a non-empty list of codes that, decoded after the data before the position, reproduces the data there and does not overrun; guessing never panics and terminates.", "quantifier": "every configuration, data, position and obscured history", "why_tests_cant": "Lazy matching interacts with all data.", "anchors": [{"file": "lib/src/lookahead.rs", "symbols": ["Lookahead::lookahead", "greedy", "gzip", "three_zip"]}, {"file": "lib/src/technique.rs", "symbols": ["Scanner"]}]}
{"id": "C39", "title": "Following only guesses compresses the data correctly", "statement": "Restoring from a trace consisting only of Correct hints yields codes whose decompression is exactly the data.", "quantifier": "every configuration, preroll and data", "why_tests_cant": "All data.", "anchors": [{"file": "lib/src/trace.rs", "symbols": ["restore"]}, {"file": "lib/src/technique.rs", "symbols": ["Scanner::feedback", "Scanner::codes"]}]}
{"id": "C40", "title": "restore inverts trace", "statement": "For all codes that decompress (after the preroll) to the data, restore(trace(codes)) = codes.", "quantifier": "every configuration, preroll, data and code list for it", "why_tests_cant": "Existing tests only use files gzip produced, where hints are rare; the preroll case with a literal hint is untested.", "anchors": [{"file": "lib/src/trace.rs", "symbols": ["trace", "restore"]}, {"file": "lib/src/technique.rs", "symbols": ["Technique::byte_at"]}]}
{"id": "C41", "title": "Tracing is total and one hint per code", "statement": "For all codes that decompress to the data, trace terminates without panic and returns exactly one hint per code.", "quantifier": "every configuration, preroll, data and code list", "why_tests_cant": "The `guessed more than there actually are` panic must be excluded for all inputs.", "anchors": [{"file": "lib/src/trace.rs", "symbols": ["trace", "shared_prefix"]}]}
{"id": "C42", "title": "A fully correct trace means the technique reproduces the encoder", "statement": "The trace consists only of Correct hints iff the codes are exactly the ones the technique itself would generate for that data.", "quantifier": "every configuration, data and code list", "why_tests_cant": "Equivalence over all code lists.", "anchors": [{"file": "lib/src/trace.rs", "symbols": ["trace", "restore"]}]}
{"id": "C43", "title": "Trace serialisation round trips", "statement": "For every list of hints, reading what write produced returns the same list (so verify never panics).", "quantifier": "every list of hints", "why_tests_cant": "Run lengths beyond 32767 and any mix of hints.", "anchors": [{"file": "lib/src/serialise_trace.rs", "symbols": ["write", "read", "verify"]}]}
{"id": "C44", "title": "Malformed traces are rejected", "statement": "Reading a byte string that write could not have been cut from (a truncated trailing record) is an error; read never panics.", "quantifier": "every byte string", "why_tests_cant": "All byte strings and cut points.", "anchors": [{"file": "lib/src/serialise_trace.rs", "symbols": ["read"]}]}
{"id": "C45", "title": "Trace size is bounded and runs of correct hints are cheap", "statement": "The serialised size is at most 3 bytes per hint, and a run of n correct hints costs exactly 2*ceil(n/32767) bytes.", "quantifier": "every list of hints", "why_tests_cant": "Run-length boundaries for all lengths.", "anchors": [{"file": "lib/src/serialise_trace.rs", "symbols": ["write"]}]}
{"id": "C46", "title": "try_gzip never panics on valid input", "statement": "For every gzip level 1..9, preroll, data and codes that decompress to the data, try_gzip returns (its internal validation assertions hold).", "quantifier": "every level, preroll, data and code list", "why_tests_cant": "Fuzzed with level 1 and empty preroll only.", "anchors": [{"file": "lib/src/tracer.rs", "symbols": ["try_gzip"]}, {"file": "lib/src/trace.rs", "symbols": ["validate"]}, {"file": "lib/src/serialise_trace.rs", "symbols": ["verify"]}]}
{"id": "C47", "title": "cat outputs the decompressed file", "statement": "The cat command writes exactly the abstract LZ77 decoding of all blocks of the gzip member, in order, or fails; on failure what was written is a prefix of blocks' output; bytes after the final block are ignored.", "quantifier": "every input file", "why_tests_cant": "All files.", "anchors": [{"file": "rezippers/src/cat.rs", "symbols": ["run"]}, {"file": "lib/src/serialise.rs", "symbols": ["decompressed_block"]}]}
{"id": "C48", "title": "rsync chunking partitions the input", "statement": "Repeatedly taking chunks yields non-empty chunks whose concatenation is the input; every chunk but the last has at least 8192 bytes and none more than 65536; a chunk ends early only at the first position where the sum of the last 8192 bytes is divisible by 4096.", "quantifier": "every input byte sequence", "why_tests_cant": "Chunk boundaries depend on sums over all positions.", "anchors": [{"file": "rezippers/src/zero.rs", "symbols": ["take_rsync"]}]}
{"id": "C49", "title": "zero writes a valid gzip file with the same content", "statement": "The zero command's output is the original header, a DEFLATE stream of stored blocks that parses back to the decompressed data, and the CRC-32 and length trailer, for every non-empty input.", "quantifier": "every non-empty decompressed content", "why_tests_cant": "The failing case needs a 65536-byte chunk that never hits the rolling-sum condition.", "anchors": [{"file": "rezippers/src/zero.rs", "symbols": ["run", "take_rsync"]}]}
{"id": "C50", "title": "The hashing filters are transparent", "statement": "FilterRead/FilterWrite return exactly what the inner stream returns, and the hash is that of exactly the bytes transferred, for any sequence of partial reads/writes and errors.", "quantifier": "every sequence of inner read/write results", "why_tests_cant": "All schedules of short reads/writes and errors.", "anchors": [{"file": "lib/src/filter.rs", "symbols": ["FilterRead", "FilterWrite"]}]}
{"id": "C51", "title": "Cost estimate equals encoded size", "statement": "Lengths::length(code) is the number of bits compressed_codes emits for that code with the same tables, and None iff the code is not expressible.", "quantifier": "every pair of tables and every code", "why_tests_cant": "All tables times all codes.", "anchors": [{"file": "lib/src/serialise.rs", "symbols": ["Lengths::length", "tree_to_lengths", "compressed_codes"]}]}
{"id": "C52", "title": "End-to-end recreation", "statement": "For every accepted DEFLATE stream, the uncompressed data plus the serialised traces and the block framing suffice to recreate the exact stream: parse, decompress, trace, serialise, deserialise, restore, re-serialise gives the consumed bytes.", "quantifier": "every accepted stream and level", "why_tests_cant": "The README's goal; composition of all parts for all streams.", "anchors": [{"file": "lib/src/parse.rs", "symbols": ["parse_deflate"]}, {"file": "lib/src/serialise.rs", "symbols": ["compressed_block"]}, {"file": "lib/src/trace.rs", "symbols": ["trace", "restore"]}, {"file": "lib/src/serialise_trace.rs", "symbols": ["write", "read"]}]}
{"id": "C53", "title": "Configurations", "statement": "Config::gzip(level) returns for exactly levels 1..9 and panics otherwise; the wams tables satisfy the documented meaning: the lookahead is abandoned when a run at least abort_above_length long is already known.", "quantifier": "every level and every known run length", "why_tests_cant": "Doc comment versus code for all run lengths.", "anchors": [{"file": "lib/src/technique.rs", "symbols": ["Config::gzip", "Scanner::best_candidate_better_than"]}, {"file": "lib/src/wams.rs", "symbols": ["CONFIGURATIONS", "LookaheadConfig"]}]}
{"id": "C54", "title": "The block iterator stays ended", "statement": "Once parse_deflate's iterator has returned None it returns None forever; after an I/O error no further call ever yields a block: every further call repeats that error, or every further call reports the end if the broken block was marked final.", "quantifier": "every byte stream and number of further calls", "why_tests_cant": "All histories of next() calls.", "anchors": [{"file": "lib/src/parse.rs", "symbols": ["BlockIter::next"]}]}
{"id": "C55", "title": "Every constructible window buffer accepts data", "statement": "Any buffer obtained from the public constructors (new, with_capacity(c>0), default) accepts push without panic.", "quantifier": "every constructor and byte", "why_tests_cant": "The derived Default constructor is untested.", "anchors": [{"file": "lib/src/circles.rs", "symbols": ["CircularBuffer::default", "CircularBuffer::push"]}]}
{"id": "C56", "title": "Whole gzip files are recreated", "statement": "For every file that is a gzip header, a valid DEFLATE stream and trailing bytes: reading the header, parsing the blocks, and writing header, re-serialised blocks and the unread rest gives the file back.", "quantifier": "every file", "why_tests_cant": "All files; the repository's round-trip test tries a few real ones.", "anchors": [{"file": "lib/src/lib.rs", "symbols": ["tests::round_trip"]}, {"file": "lib/src/gzip.rs", "symbols": ["discard_header"]}, {"file": "lib/src/parse.rs", "symbols": ["parse_deflate"]}, {"file": "lib/src/serialise.rs", "symbols": ["compressed_block"]}]}
{"id": "C57", "title": "dump lists exactly what is in the file", "statement": "The dump command succeeds exactly on a gzip header followed by a valid DEFLATE stream and prints every block in order with its number, kind and codes; on a broken file it reports the error after listing exactly the complete blocks before it; the listing determines the blocks up to the contents of stored ones.", "quantifier": "every input file", "why_tests_cant": "All files and every place a file can be broken.", "anchors": [{"file": "rezippers/src/dump.rs", "symbols": ["run", "print"]}]}
{"id": "C58", "title": "A technique is a definite encoder", "statement": "For every configuration, preroll and data, the codes for which a trace has only Correct hints are exactly those of the greedy, lazy or three-step LZ77 encoder with the configuration's parameters (nearest hash-chain entries, skipped insertions, length at which the search stops, far short matches dropped); there is exactly one such encoding; at the gzip levels try_gzip answers all Correct exactly for the greedy encoder with gzip's published parameters.", "quantifier": "every configuration, preroll, data and code list", "why_tests_cant": "Equality of two encoders on all data; tests compare with gzip on a few files.", "anchors": [{"file": "lib/src/technique.rs", "symbols": ["Scanner", "Config::gzip"]}, {"file": "lib/src/lookahead.rs", "symbols": ["Lookahead::lookahead"]}, {"file": "lib/src/tracer.rs", "symbols": ["try_gzip"]}, {"file": "lib/src/trace.rs", "symbols": ["trace", "restore"]}, {"file": "lib/src/wams.rs", "symbols": ["CONFIGURATIONS"]}]}
{"id": "C59", "title": "Feedback records exactly the history", "statement": "After feeding any codes to a scanner its position is the preroll length plus everything the codes emit, and the positions hidden from later searches are exactly the insides of the fed matches longer than the insertion limit.", "quantifier": "every configuration and every sequence of fed codes", "why_tests_cant": "All histories of feedback calls.", "anchors": [{"file": "lib/src/technique.rs", "symbols": ["Scanner::feedback"]}]}
{"id": "C60", "title": "The search considers the documented number of candidates", "statement": "At every gzip level the match search considers exactly the nearest limit_count_of_distances inserted positions, as the field's comment says, not fewer.", "quantifier": "every level, data and position", "why_tests_cant": "Needs data with more candidates than the second, undocumented limit.", "anchors": [{"file": "lib/src/tracer.rs", "symbols": ["try_gzip"]}, {"file": "lib/src/wams.rs", "symbols": ["WamsOptimisations::limit_count_of_distances"]}, {"file": "lib/src/all_refs.rs", "symbols": ["AllRefs::at"]}]}
{"id": "C61", "title": "The lazy levels recognise lazy matching", "statement": "At levels 4 to 9, where gzip defers a match when the next position has a longer one, codes produced by gzip's lazy rule with that level's parameters trace as all Correct.", "quantifier": "every level 4..9 and every data", "why_tests_cant": "Needs data on which deferring makes a difference.", "anchors": [{"file": "lib/src/technique.rs", "symbols": ["Config::gzip"]}, {"file": "lib/src/lookahead.rs", "symbols": ["Lookahead::lookahead", "gzip"]}, {"file": "lib/src/tracer.rs", "symbols": ["try_gzip"]}]}
{"id": "C62", "title": "The search is quartered for a good known match", "statement": "As the field's comment says, when a match at least apathetic_above_length long is already known only a quarter of the candidates are searched.", "quantifier": "every configuration, data, position and known length", "why_tests_cant": "The boundary length must be hit together with enough candidates.", "anchors": [{"file": "lib/src/technique.rs", "symbols": ["Scanner::best_candidate_better_than"]}, {"file": "lib/src/wams.rs", "symbols": ["LookaheadConfig::apathetic_above_length"]}]}
{"id": "C63", "title": "first_byte_bug = false finds matches with the very first byte", "statement": "With first_byte_bug set to false the technique also considers a match whose source is the first byte of the data, so the setting distinguishes encoders with and without that bug.", "quantifier": "every data and configuration", "why_tests_cant": "A claim over all data for a setting.", "anchors": [{"file": "lib/src/technique.rs", "symbols": ["Config::first_byte_bug", "Config::spicy"]}, {"file": "lib/src/back_map.rs", "symbols": ["BackMap::from_window", "Chain::next"]}]}
{"id": "C64", "title": "Expansion is bounded", "statement": "Whatever the bytes, and however often the block iterator is called, the blocks it returned so far decompress to at most 1032 bytes, and hold at most 8 codes, per byte of input; cat never writes more than 1032 bytes per byte of the file, also when it fails. The factor is reached: for every k some file of k + 24 bytes makes cat write 1032 k + 1 bytes.", "quantifier": "every byte string, number of next() calls, output failure point", "why_tests_cant": "A worst case over all inputs: no test can show no input expands more.", "anchors": [{"file": "lib/src/parse.rs", "symbols": ["parse_deflate", "BlockIter::next"]}, {"file": "rezippers/src/cat.rs", "symbols": ["run"]}, {"file": "lib/src/huffman.rs", "symbols": ["decode_run_length", "decode_distance"]}]}
{"id": "C65", "title": "try_gzip only accepts codes that encode the data", "statement": "When try_gzip returns hints for some data and codes, the codes decompress to the data, and the serialised hints restore exactly the codes.", "quantifier": "every level, preroll, data and code list, including ones unrelated to the data", "why_tests_cant": "Needs all wrong pairs of codes and data.", "anchors": [{"file": "lib/src/tracer.rs", "symbols": ["try_gzip"]}, {"file": "lib/src/trace.rs", "symbols": ["trace", "validate"]}]}
{"id": "C66", "title": "The tracing example runs on every valid file", "statement": "The tracing example prints its listing for every gzip file that decompresses, without panicking.", "quantifier": "every gzip file", "why_tests_cant": "Files with a compressed block after other output are not tried.", "anchors": [{"file": "lib/examples/trace.rs", "symbols": ["main", "print", "try_trace"]}]}
{"id": "C67", "title": "Debug listings are faithful", "statement": "The Debug listing of a code tree is the RFC 1951 code of its lengths: each symbol with a code once, in ascending order of the codes; the listing of the match finder's position table gives, for each hash in ascending order, all positions but the first with that hash, ascending; a bit vector's listing is its length and bits, and pretty_print shows them in lines of eight.", "quantifier": "every accepted list of code lengths, every preroll and data, every bit sequence", "why_tests_cant": "The listings walk whole trees and chains; the repository only prints one tree without checking it.", "anchors": [{"file": "lib/src/code_tree.rs", "symbols": ["CodeTree::fmt", "fmt"]}, {"file": "lib/src/back_map.rs", "symbols": ["BackMap::fmt"]}, {"file": "lib/src/bit.rs", "symbols": ["BitVec::fmt", "BitVec::pretty_print"]}]}
{"id": "C68", "title": "The fuzz targets alarm exactly on mispredictions", "statement": "A run of the fuzz target on some data and gzip's output for it panics if and only if the codes in that output are not the ones predicted at level 1; every other run ends normally.", "quantifier": "every data and every gzip file for it, whatever encoder wrote it", "why_tests_cant": "The fuzzer itself is a test; whether its verdict is right for every encoder output cannot be tested by it.", "anchors": [{"file": "lib/fuzz/fuzz_targets/trace_gzip_1.rs", "symbols": ["fuzz_target!"]}, {"file": "lib/fuzz/fuzz_targets/exec_gzip.rs", "symbols": ["fuzz_target!"]}, {"file": "lib/src/tracer.rs", "symbols": ["try_gzip"]}]}
{"id": "C69", "title": "Printed text is unambiguous", "statement": "The text printed for a list of codes, a list of hints, a hash key, a bit vector, a code tree, a position table, the match finder and by the dump command determines the values printed: two different values never print the same text. Numbers are printed in the usual decimal and hexadecimal notation and plain characters as themselves.", "quantifier": "every pair of values", "why_tests_cant": "All pairs of values; escapes, numbers of any length and separators could collide.", "anchors": [{"file": "lib/src/lib.rs", "symbols": ["Code::fmt", "Trace::fmt", "Ref::fmt"]}, {"file": "lib/src/all_refs.rs", "symbols": ["Key::fmt", "AllRefs::fmt"]}, {"file": "lib/src/code_tree.rs", "symbols": ["CodeTree::fmt"]}, {"file": "lib/src/back_map.rs", "symbols": ["BackMap::fmt"]}, {"file": "lib/src/bit.rs", "symbols": ["BitVec::fmt"]}, {"file": "rezippers/src/dump.rs", "symbols": ["run", "print"]}]}
{"id": "C70", "title": "How a reader delivers its bytes makes no difference", "statement": "Whatever pieces a reader delivers its bytes in and however often it is interrupted, header reading, the block iterator (any number of calls), hint reading, dump and cat give the same results as for the same bytes at once and leave the same bytes unread; through the hashing reader too, which has then hashed exactly the bytes taken.", "quantifier": "every sequence of short reads and interruptions, every byte string, every number of calls", "why_tests_cant": "All schedules of short reads and interruptions.", "anchors": [{"file": "lib/src/bit.rs", "symbols": ["BitReader"]}, {"file": "lib/src/parse.rs", "symbols": ["parse_deflate", "BlockIter::next"]}, {"file": "lib/src/gzip.rs", "symbols": ["discard_header"]}, {"file": "lib/src/serialise_trace.rs", "symbols": ["read"]}, {"file": "rezippers/src/dump.rs", "symbols": ["run"]}, {"file": "rezippers/src/cat.rs", "symbols": ["run"]}, {"file": "lib/src/filter.rs", "symbols": ["FilterRead"]}, {"file": "rezippers/src/main.rs", "symbols": ["open_file"]}]}
{"id": "C71", "title": "How a writer accepts its bytes makes no difference", "statement": "Whatever pieces a writer accepts, however often it is interrupted and wherever it fails, re-serialising and cat give the same result and write the same bytes as with a writer that accepts everything at once up to that point; through the hashing writer too, which has then hashed exactly the bytes written.", "quantifier": "every sequence of short writes and interruptions, every failure point, every list of blocks", "why_tests_cant": "All schedules of short writes, interruptions and failures.", "anchors": [{"file": "lib/src/bit.rs", "symbols": ["BitWriter"]}, {"file": "lib/src/serialise.rs", "symbols": ["compressed_block", "decompressed_block"]}, {"file": "lib/src/circles.rs", "symbols": ["CircularBuffer::copy"]}, {"file": "rezippers/src/cat.rs", "symbols": ["run"]}, {"file": "lib/src/filter.rs", "symbols": ["FilterWrite"]}]}
{"id": "C72", "title": "The collisions example lists the collisions", "statement": "In whatever order its hash map and sets are iterated, every line of the collisions example lists, sorted and with the right count, exactly the three-character typeable strings with one hash; every two strings with the same hash are listed together, unless they are the only two with it and differ only in the first character; no group is listed twice; the text determines the groups.", "quantifier": "every iteration order of the hash map and of each of its sets", "why_tests_cant": "The iteration order is random per run.", "anchors": [{"file": "lib/examples/collisions.rs", "symbols": ["main"]}, {"file": "lib/src/all_refs.rs", "symbols": ["Key::sixteen_hash_16"]}]}
{"id": "C73", "title": "The hard example prints lines of graphic characters", "statement": "Whatever the random numbers and for any number of rounds, the hard example has written exactly that many lines of seven graphic ASCII characters; it stops (by panicking) only when its output fails, having written as much as fitted.", "quantifier": "every random generator, number of rounds and failure point of the output", "why_tests_cant": "An endless loop over random numbers.", "anchors": [{"file": "lib/examples/hard.rs", "symbols": ["main"]}]}
{"id": "C74", "title": "Writing any block value returns", "statement": "Handing any list of block values to the writer either writes it or returns an error; it never panics, and nothing that cannot be represented is written.", "quantifier": "every list of blocks the types can hold: any data, codes, distances, lengths and tree bits", "why_tests_cant": "All block values, including ones no parser produces.", "anchors": [{"file": "lib/src/serialise.rs", "symbols": ["compressed_block", "compressed_codes", "encode_run", "encode_distance"]}, {"file": "lib/src/bit.rs", "symbols": ["BitWriter::write_length_prefixed"]}, {"file": "lib/src/huffman.rs", "symbols": ["read_codes", "encode_distance", "encode_run_length"]}]}
{"id": "C75", "title": "The commands do the same from a file or standard input", "statement": "Whether its input is a named file or standard input, and however that delivers its bytes, a command whose output does not fail exits with the status of its result (0 for success, 1 for an error, 101 for a panic) and has delivered exactly its output, however the device behind standard output takes it; a file that cannot be opened gives status 1 and no output.", "quantifier": "every command, file, division of the input and of the output into pieces, interruption", "why_tests_cant": "All schedules of reads and writes through the buffers.", "anchors": [{"file": "rezippers/src/main.rs", "symbols": ["main", "open_file"]}, {"file": "rezippers/src/cat.rs", "symbols": ["run"]}, {"file": "rezippers/src/dump.rs", "symbols": ["run", "print"]}, {"file": "rezippers/src/zero.rs", "symbols": ["run"]}]}
{"id": "C76", "title": "Success means the output was delivered", "statement": "A command that exits with status 0 has delivered all its output to the device behind standard output; a device that fails after some bytes has got exactly the first bytes of the output.", "quantifier": "every command, input and failure point of the output device", "why_tests_cant": "All failure points; the buffer of standard output hides some of them.", "anchors": [{"file": "rezippers/src/main.rs", "symbols": ["main"]}, {"file": "rezippers/src/cat.rs", "symbols": ["run"]}, {"file": "rezippers/src/dump.rs", "symbols": ["print"]}, {"file": "rezippers/src/zero.rs", "symbols": ["run"]}]}
{"id": "C77", "title": "The tracing example lists every wrong guess", "statement": "What the tracing example prints for a file is one entry per block, numbered from 0, with the kind and (if stored) the size; for each compressed block two sections, for gzip levels 1 and 6, each with the size of the serialised hints and one line per wrongly guessed code, in order, with its position, the neighbouring bytes, the wrong guess and the right code; codes guessed right are not listed.", "quantifier": "every gzip file that decompresses and that the example prints (C66)", "why_tests_cant": "All files, divisions into blocks and sequences of right and wrong guesses.", "anchors": [{"file": "lib/examples/trace.rs", "symbols": ["main", "print", "try_trace"]}, {"file": "lib/src/trace.rs", "symbols": ["validate"]}, {"file": "lib/src/serialise_trace.rs", "symbols": ["verify"]}]}
{"id": "C78", "title": "zero keeps the content and gives one form", "statement": "For every gzip file, zero writes a gzip file with the same header and the same content (cat prints the same), and files with the same header and content give the same output however they were compressed; zero on zero's output changes nothing.", "quantifier": "every gzip file with content, every right decompressor, every way the content was compressed", "why_tests_cant": "All files and all encodings of the same content.", "anchors": [{"file": "rezippers/src/zero.rs", "symbols": ["run", "take_rsync"]}, {"file": "rezippers/src/cat.rs", "symbols": ["run"]}, {"file": "lib/src/gzip.rs", "symbols": ["discard_header"]}]}
{"id": "C79", "title": "An edit changes only chunks near it", "statement": "The chunks zero divides a content into depend only on nearby bytes: the chunks that end before an edit stay as they are; from the first common boundary after an edit the chunks are the same; and wherever the preceding 8192 bytes sum to a multiple of 4096 there is a boundary within the last 8192 bytes, whatever comes before.", "quantifier": "every content, edit and position", "why_tests_cant": "All contents and edits; the point of chunking is that distant bytes do not matter.", "anchors": [{"file": "rezippers/src/zero.rs", "symbols": ["take_rsync"]}]}
{"id": "C80", "title": "A prefix of a file gives a prefix of the results", "statement": "On any prefix of a file, or on a file whose end has not arrived yet, the block iterator returns the same results as on the whole file up to the first end-of-input error; the header is read the same or the end of input is reported; cat prints a prefix of what it prints for the whole and dump lists a prefix of the lines, and each then gives the same result or reports the end of input.", "quantifier": "every byte string, every continuation of it, every number of calls", "why_tests_cant": "All files and cut points; a parser that looks ahead or decides by the amount of input left would break it.", "anchors": [{"file": "lib/src/parse.rs", "symbols": ["parse_deflate", "BlockIter::next"]}, {"file": "lib/src/gzip.rs", "symbols": ["discard_header"]}, {"file": "rezippers/src/cat.rs", "symbols": ["run"]}, {"file": "rezippers/src/dump.rs", "symbols": ["run"]}, {"file": "lib/src/bit.rs", "symbols": ["BitReader"]}]}
{"id": "C81", "title": "restore is safe on any hints", "statement": "Restoring from any list of hints, such as damaged ones or those of another file, ends. It returns one code per hint, up to the end of the data and ignoring further hints: the hinted reference, the byte of the data at that place, or a code that is right for the data (a code of the technique's guess; for the gzip levels, its guess after the codes so far). The codes encode the data exactly if the hinted references, and after a preroll the literals, are right for it. It stops with a panic exactly if the hints do not reach the end of the data or, with a preroll, a literal is looked up past its end.", "quantifier": "every technique, preroll, data and list of hints", "why_tests_cant": "Hints come from a file and may be damaged or belong to other data; the unit tests only restore what was just traced.", "anchors": [{"file": "lib/src/trace.rs", "symbols": ["restore"]}, {"file": "lib/src/technique.rs", "symbols": ["Technique::byte_at", "Scanner::codes", "Scanner::feedback"]}]}
{"id": "C82", "title": "cat checks the file and reads all of it", "statement": "cat succeeds only for gzip files whose CRC-32 and length are those of the content, and prints the contents of all members of the file. (False of the code: the trailer and everything after it are ignored.)", "quantifier": "every gzip file with any number of members, every trailer", "why_tests_cant": "Damage can be anywhere and files can have any number of members; no test has a damaged trailer or a second member.", "anchors": [{"file": "rezippers/src/cat.rs", "symbols": ["run"]}, {"file": "lib/src/gzip.rs", "symbols": ["discard_header"]}, {"file": "lib/src/parse.rs", "symbols": ["parse_deflate"]}]}
{"id": "C83", "title": "What the tracing example has printed when it stops", "statement": "Run on any file with a gzip header, the tracing example lists the blocks that parse and then ends as the parser ends, unless it stops before: with an error at a block with a distance before the start of the output, of which only the kind is printed, or with a panic in a section of a compressed block, of which nothing is printed if a wrongly guessed literal is not found in the data, else the size and the lines up to the first position more than five beyond the data. It always stops, and what it prints for a prefix of a file is a prefix of what it prints for the whole.", "quantifier": "every file, valid or damaged, every prefix of it", "why_tests_cant": "A file can stop the example in any section of any block, and can be cut anywhere; no test runs the example.", "anchors": [{"file": "lib/examples/trace.rs", "symbols": ["main", "print", "try_trace"]}]}
{"id": "C84", "title": "Every part of a stream is short", "statement": "Whatever the file, the tree of a Huffman table is never deeper than fifteen, so the recursive functions on it use bounded stack; reading a symbol reads one to fifteen bits; an accepted dynamic header, and what a block keeps of it, has at most 2311 bits; and a stream takes at most the sum of what its blocks allow: 31 bits per code in a fixed block, 48 in a dynamic one, eight per stored byte, and a constant. The bounds are reached.", "quantifier": "every table of code lengths, every stream and every position in it", "why_tests_cant": "A file can announce any table; tests see a few, and none of them near the limits.", "anchors": [{"file": "lib/src/code_tree.rs", "symbols": ["CodeTree::new", "decode_symbol"]}, {"file": "lib/src/huffman.rs", "symbols": ["read_codes"]}, {"file": "lib/src/parse.rs", "symbols": ["parse_deflate"]}]}
{"id": "C85", "title": "Release builds compute what debug builds compute", "statement": "Builds with and without overflow checks behave alike: on any input shorter than 2^61 bytes every call of the parser returns the same value, error or end in both, and none panics; cat, dump and zero print the same and end alike; decompressing blocks into a window of any capacity gives the same bytes; writing blocks whose references have distances 1 to 32768 gives the same bytes or the same failure.  The one difference: a reference with a distance above 32768, which the public fields allow, panics with overflow checks and makes the writer run forever without them; a distance of 0 panics in both.", "quantifier": "every input and every list of blocks, in both builds", "why_tests_cant": "Tests run in one build, on inputs whose sums stay small; that no intermediate result ever leaves its type is a statement about all inputs.", "anchors": [{"file": "lib/src/bit.rs", "symbols": ["BitReader::read_bit", "BitVec::push", "BitSource::read_part", "BitWriter::write_bits_val"]}, {"file": "lib/src/huffman.rs", "symbols": ["read_codes", "decode_run_length", "decode_distance", "encode_distance"]}, {"file": "lib/src/circles.rs", "symbols": ["CircularBuffer::push", "CircularBuffer::copy"]}, {"file": "lib/src/serialise.rs", "symbols": ["compressed_block", "decompressed_block"]}, {"file": "lib/src/gzip.rs", "symbols": ["discard_header"]}]}
{"id": "C86", "title": "Searching and tracing compute the same in release builds", "statement": "Builds with and without overflow checks trace alike: for data whose table of positions fits in memory, tracing a list of codes at any level or configuration gives the same hints or the same panic in both, restoring from any hints, right or wrong, gives the same codes or the same panic, hints are written to and read from the same bytes, and a search at a position gives the same candidates whatever stretches are hidden.  The one exception is a search at one of the two largest positions a usize can hold: both builds panic there, although the answer past the end of the data is that there is nothing.", "quantifier": "every data, position, list of codes and list of hints, in both builds", "why_tests_cant": "Tests run in one build and near the start of short data; that no position, distance or count ever leaves its type is a statement about all inputs.", "anchors": [{"file": "lib/src/all_refs.rs", "symbols": ["AllRefs::at", "AllRefs::possible_run_length_at"]}, {"file": "lib/src/back_map.rs", "symbols": ["BackMap::from_window"]}, {"file": "lib/src/obscure.rs", "symbols": ["contains"]}, {"file": "lib/src/technique.rs", "symbols": ["Scanner::feedback"]}, {"file": "lib/src/lookahead.rs", "symbols": ["gzip", "three_zip"]}, {"file": "lib/src/trace.rs", "symbols": ["trace", "restore", "validate"]}, {"file": "lib/src/serialise_trace.rs", "symbols": ["write", "read"]}, {"file": "lib/src/tracer.rs", "symbols": ["try_gzip"]}]}
{"id": "C87", "title": "A stream that is no stream is refused for what is wrong with it", "statement": "Reading the blocks of any bytes ends in blocks, in a complaint, or in the I/O error behind the bytes.  It ends in a given complaint exactly if the bytes start with something that complaint is about: a reserved block type, padding that is not zero, stored lengths that do not match, code lengths that are no complete code or run too far or copy nothing, a reserved length or distance symbol, or a match where no distance code was announced.  It ends in the I/O error exactly if the bytes start with neither that nor a stream.  The blocks before the place are returned first, no stream starts with anything complained about, and there is only one complaint.", "quantifier": "every byte sequence and every I/O error behind it", "why_tests_cant": "That a complaint is given for every wrong stream, for no right one, and for what is really wrong, is about all byte sequences and all places they can go wrong.", "anchors": [{"file": "lib/src/parse.rs", "symbols": ["parse_deflate", "BlockIter::next", "read_block", "scan_huffman_data"]}, {"file": "lib/src/huffman.rs", "symbols": ["read_codes", "decode_run_length", "decode_distance"]}, {"file": "lib/src/code_tree.rs", "symbols": ["CodeTree::new"]}, {"file": "lib/src/bit.rs", "symbols": ["BitReader::align", "BitReader::read_length_prefixed"]}]}
{"id": "C88", "title": "What the commands make of any file", "statement": "In every file, however damaged, one list of blocks can be read and then one of three things happens: the stream is complete, something in the file is wrong (the magic number, the method, reserved flags, or anything C87 lists), or the file is too short to tell.  dump lists exactly these blocks and returns accordingly success, the complaint or the I/O error at the end of the file.  cat writes exactly what the blocks decode to and returns the same, unless a reference in them reaches before the start of the data or the output fails first; then it has written everything before that, or what the output took.  The programs exit with status 0 exactly if the file is complete and, for cat, decodes; otherwise with 1.", "quantifier": "every file, every I/O error behind it, every amount of room for the output", "why_tests_cant": "A test shows the message for one damaged file; that every file has exactly one of these endings, and what has been written by then, is about all files.", "anchors": [{"file": "rezippers/src/cat.rs", "symbols": ["run"]}, {"file": "rezippers/src/dump.rs", "symbols": ["run"]}, {"file": "rezippers/src/main.rs", "symbols": ["main"]}, {"file": "lib/src/gzip.rs", "symbols": ["discard_header"]}, {"file": "lib/src/parse.rs", "symbols": ["parse_deflate", "BlockIter::next"]}, {"file": "lib/src/serialise.rs", "symbols": ["decompressed_block"]}]}
{"id": "C89", "title": "What a guess depends on", "statement": "What a technique guesses at a position depends on nothing but the 32768 bytes before it and the bytes a match can reach after it: 258, or 260 and 514 for the two strategies that look ahead.  So tracing a block against the last 32768 bytes of what came before, which is what the window keeps, gives the same hints as tracing it against everything; and what follows in the data changes no hint for codes that end further than this before it.", "quantifier": "every configuration, every history, block and limit, every list of codes, every position and every continuation of the data", "why_tests_cant": "A test compares the hints for one cut of one file; independence of what lies outside is about every other history and continuation.", "anchors": [{"file": "lib/src/technique.rs", "symbols": ["Technique::new", "Technique::scanner", "Scanner::codes"]}, {"file": "lib/src/trace.rs", "symbols": ["trace", "restore"]}, {"file": "lib/src/all_refs.rs", "symbols": ["AllRefs::with_sixteen", "AllRefs::at"]}, {"file": "lib/src/lookahead.rs", "symbols": ["greedy", "three_zip", "gzip"]}, {"file": "lib/src/circles.rs", "symbols": ["ConstantWindow"]}]}
{"id": "C90", "title": "What the regression check accepts", "statement": "The check that the project's regression tests run on a compressed file passes exactly if the file is a gzip header followed by a complete DEFLATE stream of compressed (not stored) blocks, each with exactly the codes that the imitated greedy encoder of the given level chooses for what the block decodes to, seeing the 32768 bytes before it.  Otherwise it panics; it always ends.  At every level from 1 to 9 and for any data cut into any number of blocks there is a file that passes and decompresses to that data.", "quantifier": "every level and every file; every level from 1 to 9 and every non-empty list of chunks of data", "why_tests_cant": "The tests run the check on fourteen small files; what passing means for any other file is about all files.", "anchors": [{"file": "lib/tests/tracing_size.rs", "symbols": ["run_gzip", "try_gzip"]}, {"file": "lib/src/tracer.rs", "symbols": ["try_gzip"]}, {"file": "lib/src/parse.rs", "symbols": ["parse_deflate"]}, {"file": "lib/src/serialise.rs", "symbols": ["decompressed_codes"]}]}
{"id": "C91", "title": "What every single hint says", "statement": "For any configuration, preroll, data and codes, tracing succeeds with given hints exactly if they are these: where the specified encoder, given the codes so far, would go on with some codes, the codes that agree get the hint Correct, the first that differs gets a hint naming it, and the encoder goes on behind it; codes behind the end of the data get none.  Otherwise tracing panics with one message.  Restoring succeeds with given codes exactly if they follow from the hints in the same way, a literal hint being looked up in the data.  Neither depends on anything else.", "quantifier": "every configuration, dictionary limit, preroll, data, list of codes and list of hints", "why_tests_cant": "C58 only speaks of traces without a miss; what a hint after a miss says depends on the whole history of choices.", "anchors": [{"file": "lib/src/trace.rs", "symbols": ["trace", "restore"]}, {"file": "lib/src/technique.rs", "symbols": ["scanner", "feedback", "codes"]}, {"file": "lib/src/lookahead.rs", "symbols": ["lookahead"]}]}
{"id": "C92", "title": "Rewriting a file keeps what it says", "statement": "A gzip file that is parsed and serialised again, with its header and trailing bytes copied, still has the same blocks, so that cat and dump do the same with it, and rewriting it once more changes nothing.  Rewriting fails exactly on files that are broken or cut, with the parser's error, and on files in which a block's table has no code for its own longest matches.", "quantifier": "every file, and every amount of room for the output of cat", "why_tests_cant": "The round-trip tests compare files whose bytes come out the same; files that are written differently, and what they then contain, are not tested.", "anchors": [{"file": "lib/src/parse.rs", "symbols": ["parse_deflate"]}, {"file": "lib/src/serialise.rs", "symbols": ["compressed_block"]}, {"file": "lib/src/gzip.rs", "symbols": ["discard_header"]}, {"file": "lib/src/lib.rs", "symbols": ["tests"]}]}
{"id": "C93", "title": "The text of the tracing example is unambiguous", "statement": "The text that the tracing example prints for a file determines every line: the blocks, sizes, positions, wrong guesses and hints, the neighbouring bytes as far as they are UTF-8, the guesser's configuration, position and hidden runs, and which positions other than the first have which hash; two files give the same text exactly if all of these agree.  Neighbouring bytes are shown as the characters they are in UTF-8, and as U+FFFD, once for the longest start of a character, where they are none.", "quantifier": "every pair of files, complete or broken, whatever characters beyond ASCII the standard library regards as printable", "why_tests_cant": "The example's text is not tested, and what two of all possible listings share cannot be.", "anchors": [{"file": "lib/examples/trace.rs", "symbols": ["try_trace"]}, {"file": "lib/examples/trace.rs", "symbols": ["main"]}, {"file": "lib/src/lib.rs", "symbols": ["impl Debug"]}, {"file": "lib/src/technique.rs", "symbols": ["Scanner"]}, {"file": "lib/src/all_refs.rs", "symbols": ["fmt"]}]}
{"id": "C94", "title": "Hints are stored in the fewest bytes the format allows", "statement": "Of all bytes that read back as some hints, those that the writer stores for them are the fewest, and the only ones as few if no more than 32767 guesses in a row are correct.  A literal is stored as two zero bytes, a reference as its distance, low byte first, and its length less 3, and a run of correct guesses as records of 32767 followed by one of the remaining 1 to 32767.", "quantifier": "every list of hints, every list of bytes that reads back as it", "why_tests_cant": "A test shows the size of a few traces, not that none of the other encodings of a trace is smaller.", "anchors": [{"file": "lib/src/serialise_trace.rs", "symbols": ["write"]}, {"file": "lib/src/serialise_trace.rs", "symbols": ["read"]}]}
{"id": "C95", "title": "A zero run that does not finish leaves nothing that passes for a whole file", "statement": "If the zero command fails, because the decompressor reports an error or because its output stops at any byte before the end of the last block, then cat, given what was written, fails with an unexpected end of input after printing exactly the chunks that were written whole.  After an error of the decompressor these are the chunks completed before it, each written as a block that is not the final one.", "quantifier": "every file, content, position of the decompressor's error and of the output's end", "why_tests_cant": "Tests cannot stop the command at every byte of every output, nor try every content with which the remains might look complete.", "anchors": [{"file": "rezippers/src/zero.rs", "symbols": ["run"]}, {"file": "rezippers/src/zero.rs", "symbols": ["take_rsync"]}, {"file": "rezippers/src/cat.rs", "symbols": ["run"]}]}
{"id": "C96", "title": "Which levels foresee a code", "statement": "The hints try_gzip gives for the same codes at different levels are comparable: a literal marked Correct at one level is marked Correct at every lower one; a match marked Correct at two levels is marked Correct at every level in between; so the levels that recreate a file without a wrong guess have no gaps.  The reason: a search that may try more candidates and stops at a greater length finds a match wherever the other one does, either the same one or one that is longer and further away.", "quantifier": "every preroll, data, code list, position in it and pair or triple of levels; every pair of configurations and history for the search", "why_tests_cant": "Comparing levels on all data; tests run single levels on a few files.", "anchors": [{"file": "lib/src/tracer.rs", "symbols": ["try_gzip"]}, {"file": "lib/src/technique.rs", "symbols": ["Scanner"]}, {"file": "lib/src/all_refs.rs", "symbols": ["AllRefs::at"]}, {"file": "lib/src/wams.rs", "symbols": ["CONFIGURATIONS"]}, {"file": "lib/src/picker.rs", "symbols": ["Picker::picker"]}]}
{"id": "C97", "title": "The mean length of a table's words", "statement": "Lengths::new succeeds for every pair of tables, and its public field mean_literal_len is within one bit of the mean length of the code words of the length table (over all symbols that have one); it is never shorter than the shortest word nor longer than the longest, and the conversion to a byte never loses anything.", "quantifier": "every pair of complete codes with at most 288 symbols", "why_tests_cant": "All tables; the rounding goes wrong only for unusual ones.", "anchors": [{"file": "lib/src/serialise.rs", "symbols": ["Lengths::new", "tree_to_lengths", "mean_literal_len"]}]}
{"id": "C98", "title": "The hints found are the cheapest", "statement": "Whatever hints restore accepts for some data, tracing the codes it returned succeeds with hints that restore to the same codes, say Correct wherever the other hints do, differ from them only in further Corrects and in ending with the data, and are serialised in no more bytes. So no other hints recreate a stream at a gzip level in fewer bytes than those of try_gzip. They are the same hints exactly if none was left over and none spelled out what would have been guessed anyway.", "quantifier": "every technique, preroll, data and list of hints that can be restored", "why_tests_cant": "All hints for the codes would have to be tried; runs of Correct are stored in pieces, so that one more Correct can cost bytes elsewhere.", "anchors": [{"file": "lib/src/trace.rs", "symbols": ["trace", "restore"]}, {"file": "lib/src/serialise_trace.rs", "symbols": ["write"]}, {"file": "lib/src/tracer.rs", "symbols": ["try_gzip"]}]}
{"id": "C99", "title": "What zero writes is protected by its checksum", "statement": "The output of zero ends with the checksum and length of the content, so that it is a gzip member as RFC 1952 has it. If up to four consecutive bytes of the content are changed in the output, or any of its last eight bytes, it is no gzip member at all, and whoever compares the checksum rejects it. cat does not, and prints the changed content. Two contents that differ only within 32 consecutive bits never have the same checksum.", "quantifier": "every gzip file and every change to up to four consecutive bytes of the content or to the last eight bytes", "why_tests_cant": "The contents and changes are unbounded in number; a wrong polynomial or bit order gives checksums that look as good.", "anchors": [{"file": "rezippers/src/zero.rs", "symbols": ["run"]}, {"file": "rezippers/src/cat.rs", "symbols": ["run"]}]}
{"id": "C100", "title": "Guesses alone make a compressor", "statement": "Cut any content into any pieces, restore each from hints that all say Correct, knowing the 32768 bytes before it, and write the codes as fixed blocks: with any header and the checksum and length this is a gzip member, and cat prints the content. The blocks take at most 9 bits per byte of content, 10 per piece, and the padding, and some contents of every size need as much. Tracing such a block gives hints stored in two bytes per 32767 codes.", "quantifier": "every configuration, search limit, header, content and division into pieces", "why_tests_cant": "Contents, divisions and configurations are unbounded; one wrong guess or one code of the wrong length spoils a file.", "anchors": [{"file": "lib/src/trace.rs", "symbols": ["restore", "trace"]}, {"file": "lib/src/technique.rs", "symbols": ["Technique"]}, {"file": "lib/src/serialise.rs", "symbols": ["compressed_block"]}, {"file": "rezippers/src/cat.rs", "symbols": ["run"]}]}
{"id": "C101", "title": "Repetition is found", "statement": "At gzip levels 4 to 9 a literal is guessed exactly if every one of the nearest earlier places with the same next three bytes, as many as the level's chain, is more than 4096 back and differs in the fourth byte. So content whose every three bytes were seen within the last 4096, such as a second copy of up to 4096 bytes, is guessed as matches only, but for at most two bytes at its end. Content that is one byte again and again is guessed in every configuration that looks at a place at all as one match per 258 bytes and at most five codes more, so that the compressor made of guesses writes it in 31 bits per 258 bytes and 84 more.", "quantifier": "every content, position, history of codes, level and configuration", "why_tests_cant": "Contents are unbounded, and a search that misses some repetitions still gives correct files, so no round trip test notices.", "anchors": [{"file": "lib/src/all_refs.rs", "symbols": ["AllRefs"]}, {"file": "lib/src/technique.rs", "symbols": ["Technique", "Config"]}, {"file": "lib/src/trace.rs", "symbols": ["restore"]}]}
{"id": "C102", "title": "Only which bytes are equal matters", "statement": "If the bytes of a content and of its preroll are renamed one to one, and the literals of a sequence of codes with them, then at gzip levels 4 to 9 every guess is the renamed guess, the hints are the same, the same hints restore the renamed codes, and a level that is rejected is rejected in the same way. So the hash by which earlier places are found, under which different bytes collide, has no effect on the result. At levels 1 to 3 it has one.", "quantifier": "every one to one renaming of bytes, content, preroll, sequence of codes or hints, configuration and history", "why_tests_cant": "Which contents collide depends on the hash, and a guess spoilt by a collision still gives a correct, longer, file, so no round trip test notices.", "anchors": [{"file": "lib/src/all_refs.rs", "symbols": ["AllRefs"]}, {"file": "lib/src/technique.rs", "symbols": ["Technique", "Config"]}, {"file": "lib/src/trace.rs", "symbols": ["trace", "restore", "try_gzip"]}]}
{"id": "C103", "title": "Tracing block by block", "statement": "At gzip levels 4 to 9 tracing the blocks of a file one after the other, each after everything before it, gives the hints that tracing the whole file at once gives, except for codes that end in the last 258 bytes of a block that is not the last, where the guess in the whole file may run across the end of the block. At levels 1 to 3 the same holds after a part without long matches; in general it does not, as a block does not know what the matches before it have hidden.", "quantifier": "every configuration that looks at one code at a time, preroll, number of blocks, contents and codes", "why_tests_cant": "The difference needs matches across a block end or hidden by an earlier block; a tool that traced either way would recreate its own files.", "anchors": [{"file": "lib/src/technique.rs", "symbols": ["Technique", "Scanner"]}, {"file": "lib/src/trace.rs", "symbols": ["trace"]}]}
{"id": "C104", "title": "An edit changes little of what zero writes", "statement": "For two gzip files, whoever compressed them and however, whose contents begin with the same bytes, what zero writes has, behind the header, the same bytes too, at least as many as the contents share but for 65536. If the contents end with the same bytes and no chunk has 65536 bytes, what zero writes is the same, but for the eight bytes of the trailer, from the first place on, at least 16384 bytes into the shared end, where the sum of the last 8192 bytes becomes a multiple of 4096 after 8191 places where it was not.", "quantifier": "every two files, contents, headers and shared beginning or end, and every right decompressor", "why_tests_cant": "This is what zero is for (its output is meant for rsync), and it concerns pairs of unbounded contents.", "anchors": [{"file": "rezippers/src/zero.rs", "symbols": ["take_rsync"]}]}
{"id": "C105", "title": "The output of zero is little longer than the content", "statement": "For every gzip file with content, zero writes the header, the content and eight bytes of trailer with five more bytes for every chunk: at least five for every 65536 bytes of content and at most five for every 8192, both rounded up. Both bounds are reached by contents of every length that is a multiple of 65536 or 8192.", "quantifier": "every gzip file with non-empty content, every header and every right decompressor", "why_tests_cant": "It concerns contents of every length and where each can be divided.", "anchors": [{"file": "rezippers/src/zero.rs", "symbols": ["take_rsync"]}]}
{"id": "C106", "title": "The window is all that decompression needs to go on", "statement": "Two window buffers of the same capacity give the same result and the same output for all blocks and writers exactly when the last bytes pushed to them, as many as the capacity, are the same. So decompression can stop after any block, keep vec() of the dictionary, at most 32768 bytes, and go on later with a new buffer that these bytes were pushed to: the outputs put together are the whole output.", "quantifier": "every capacity, every two histories of pushes, every list of blocks and writer, and every place to stop between blocks", "why_tests_cant": "Histories, blocks and writers are unbounded, and that nothing else matters is a statement about all of them.", "anchors": [{"file": "lib/src/circles.rs", "symbols": ["CircularBuffer::vec"]}, {"file": "lib/src/serialise.rs", "symbols": ["decompressed_codes", "decompressed_block"]}, {"file": "lib/src/circles.rs", "symbols": ["CircularBuffer"]}]}
{"id": "C107", "title": "Hints and codes go in step", "statement": "If two lists of codes agree in the first n codes, the hints that tracing gives for them over the same data agree in the first n hints; if two lists of hints agree in the first n, so do the codes restored from them, so that damage to one hint leaves all codes before it as they are. Two encodings of the same data, with any preroll, have their first difference at the same index as their hints.", "quantifier": "every configuration, preroll, data, two lists of codes or hints, and every n", "why_tests_cant": "Guesses of several codes could couple a hint to codes behind it, for some data and some place; the claim is for all of them.", "anchors": [{"file": "lib/src/trace.rs", "symbols": ["trace", "restore"]}, {"file": "lib/src/technique.rs", "symbols": ["Technique::byte_at"]}]}
{"id": "C108", "title": "A dump tells what cat will do", "statement": "If dump prints the same for two files and ends the same way, then cat ends the same way on both, into any output, and writes the same number of bytes, even though the headers, trailers and stored bytes may differ. If the dump shows no stored bytes, cat writes the same bytes.", "quantifier": "every two files with the same dump, however damaged, every I/O error behind them, every amount of room for the output", "why_tests_cant": "The claim compares two programs on all pairs of files; that the listing leaves nothing out that matters to cat cannot be seen from some pairs.", "anchors": [{"file": "rezippers/src/cat.rs", "symbols": ["run"]}, {"file": "rezippers/src/dump.rs", "symbols": ["run"]}, {"file": "rezippers/src/main.rs", "symbols": ["main"]}, {"file": "lib/src/gzip.rs", "symbols": ["discard_header"]}, {"file": "lib/src/parse.rs", "symbols": ["parse_deflate", "BlockIter::next"]}, {"file": "lib/src/serialise.rs", "symbols": ["decompressed_block"]}]}
{"id": "C109", "title": "What dump shows of the output of zero", "statement": "dump on the output of zero succeeds and shows one stored block per chunk of the content, in order and with the chunk's length, and nothing else; if only the last chunk has 65536 bytes, it is shown as a block of 0 bytes. Two files give the same dump after zero exactly if their contents are divided at the same places, whatever the bytes are.", "quantifier": "every gzip file with non-empty content in which no chunk (but possibly the last) has 65536 bytes, every header and right decompressor", "why_tests_cant": "Where a content is divided depends on all of it; the claim is about all contents and about pairs of files.", "anchors": [{"file": "rezippers/src/zero.rs", "symbols": ["run", "take_rsync"]}, {"file": "rezippers/src/cat.rs", "symbols": ["run"]}, {"file": "lib/src/gzip.rs", "symbols": ["discard_header"]}]}
{"id": "C110", "title": "Pipes of commands", "statement": "Run as processes, zero on a gzip file exits with status 0; and on what its output received, read from a file or from standard input in whatever pieces, cat exits with status 0 and has printed exactly the content, zero exits with status 0 and has printed the same again, and dump exits with status 0 and has printed the text for one stored block per chunk.", "quantifier": "every gzip file with non-empty content without a chunk of 65536 bytes, every way the inputs are delivered and the outputs taken, every right decompressor", "why_tests_cant": "The claim composes programs through buffers and pipes that can split the bytes in any way.", "anchors": [{"file": "rezippers/src/main.rs", "symbols": ["main", "open_file"]}, {"file": "rezippers/src/cat.rs", "symbols": ["run"]}, {"file": "rezippers/src/dump.rs", "symbols": ["run", "print"]}, {"file": "rezippers/src/zero.rs", "symbols": ["run"]}]}
