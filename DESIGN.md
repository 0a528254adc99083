# Formal model of rezip-rs in Rocq (Coq 8.16.1)

Everything is in `/verif/rocq/theories` (logical name `Verif`), standard library only.

## Layers

| file | role |
|---|---|
| `Base.v` | outcome type (`Ok`/`Err`/`Panic`/`Diverge`), state monad, byte source and sink |
| `M_*.v` | **model**, one file per Rust module; every definition cites `/repo` file:lines |
| `Spec.v` | **specification**, written from RFC 1951/1952 and plain list functions; uses nothing from `M_*` but the data types `Code`, `Ref`, `Block`, `Trace` |
| `Spec_encoder.v` | specification of the LZ77 encoders (greedy, lazy, three-step) a technique stands for |
| `Clients*.v` | programs that call the API (histories of calls, whole-file loops) which properties talk about; no model of repository code unless a comment says so |
| `L_*.v` | lemmas and proofs |
| `P_*.v` | **property theorems** only, each closed by `exact lemma` with `Print Assumptions` beneath, with non-vacuity `Example`s |

### Modelling conventions

* `u8`, `u16`, `u32` values are `N`; positions/lengths of type `usize` are `nat` (or `N` where wrap-around is
  explicit).  Rust's typing guarantee "this is a `u8`" appears as the hypothesis `bytes_ok l` (every element `< 256`).
* `Result`/`?` is `Ok`/`Err`; every `assert!`, `unwrap`, `expect`, slice index, `panic!` and reachable arithmetic
  overflow is an explicit `Panic`.  Loops without structural measure carry fuel and return `Diverge` when it runs out;
  totality theorems exclude `Panic` and `Diverge`.
* `&mut self` methods are state-monad functions that return the state even on error.
* `io::Read` is `source`: the remaining bytes plus the error kind delivered once they are exhausted (end of file or a
  device error); `read_exact` of more than remains consumes what is there and fails.  `io::Write` is `sink`: bytes
  accepted so far and an optional amount of room left, after which `write_all` writes a partial buffer and fails.
  Short reads and writes and interruptions are in `M_io`, and C70 and C71 prove that they make no difference.
* The model proper computes with unbounded numbers and panics where a debug build reports an overflow.  `M_arith` and
  `M_arith_search` have the machine arithmetic in both builds, and C85 and C86 say where they agree with the model proper.
* `usize` overflow of lengths (more than 2^64 bytes of data) is not modelled, nor allocation failure, nor stack depth (C84 bounds the recursion on trees).

The examples are modelled in `M_example` (`trace.rs`) and `M_examples` (`collisions.rs`, `hard.rs`), the fuzz targets in `M_fuzz`,
with the encoders' outputs and the random generator as parameters, the check of the regression tests (`lib/tests/tracing_size.rs`) in `M_harness`.

### Not modelled

The text of panic messages (the text of the `Debug` implementations, of the dump command and of the tracing example
is modelled, in `M_debug`, `M_text` and `M_example_text`; which characters beyond ASCII are printable is a parameter), clap's parsing of the command line (`M_main` starts with
the parsed command), the `tracing` feature's prints, the disabled `bestguess.rs` tests.  `flate2`'s decoder (in `zero`) and SHA-512 (in
`filter`) are parameters; CRC-32 is written out as the standard bitwise algorithm.

## Plan per property

* **C01, C02, C04, C05, C06** model `BitVec`, `BitWriter`, `BitReader` concretely (bytes, or-ing, shifting); abstraction
  functions `writer_bits`, `reader_bits : … -> list bool`; each operation shown to act as append/uncons; induction on histories.
* **C03** the full statement is false (`pop` leaves the bit set, `push(false)` does not clear it): `_refuted` witness plus
  `_partial` for pushes followed by pops and pushes of ones; `P_stack` gives the exact behaviour for every history.
* **C07** false (`write_aligned_u16` is big-endian, the reader little-endian): `_refuted`, plus `_partial` for lengths
  whose two bytes coincide, and the exact characterisation of what is read back.
* **C08** direct characterisation against the little-endian RFC layout.
* **C09, C10** RFC tables as data in `Spec.v`; finite sweep over the full domain (256 lengths, 32768 distances) lifted to
  arbitrary following streams.
* **C11, C12, C13** induction over the 16 tree levels; Kraft sum in `Spec.v`; RFC §3.2.2 code assignment in `Spec.v`.
* **C14, C15** relational grammar in `Spec.v` (permuted lengths, run-length items); generic "reads exactly these bits" logic over
  any bit source, used for `BitReader`, `BitCollector` and `StackIterator`.
* **C16, C17** weakest-precondition style reasoning on the model; fuel is the number of bits left.
* **C18, C19, C20, C21, C22, C23** block grammar in `Spec.v`; parser sound and complete for it; serialiser produces it.
  C19 and C20 are false in general: `_refuted` witnesses, `_partial` with the exact side condition.
* **C24–C28, C55** ring buffer refined to the list of all bytes ever pushed. C25 false at capacity 65535, C55 false for `default()`.
* **C29** fallible `sink`, statement over every amount of room.
* **C30, C31** header grammar in `Spec.v`.
* **C32–C35** invariant of the hash chains (`from_window`), specification by plain filtering of positions.
* **C36, C37** list induction.
* **C38, C39** LZ77 semantics in `Spec.v`; each guess is decoded after the prefix.
* **C40–C42, C46** simulation between `trace` and `restore` loops. C40, C46 false with a non-empty preroll (`byte_at`
  indexes the data with a position that includes the preroll): `_refuted`, `_partial` otherwise.
* **C43–C45** induction on hint lists. C44 false: a single dangling byte is ignored (`_refuted`, `_partial`).
* **C47** composition. **C48** rolling sum specified as a sum of the last 8192 bytes.
* **C49** false when a chunk has 65536 bytes (`len as u16` is 0): `_refuted`, `_partial` otherwise.
* **C50** schedule of inner results as a list; hash is a parameter.
* **C51** false: the extra bits of the match length are not counted. `_refuted`, `_partial`.
* **C52** composition for single-block streams and for streams whose hints contain no literal (see C40).
  `P_restore` states C40, C46 and C52 exactly (`literals_found`, `restorable` in `Clients_restore`; the hints meant are those of the specified encoder, as in C91): which traces restore,
  and which streams can be taken apart, for every preroll.
* **C53** decision rule; the documented abort rule is false of the code. **C54** iterator histories.
* **C56, C57** composition of C19, C23, C30, C31; `dump` prints structured lines (values, not text). C56 is false for
  non-canonical streams: `_refuted`, and the exact set of recreated files.
* **C58, C59** the encoders are specified in `Spec_encoder.v` by plain filtering of positions; refinement by induction on
  the codes, using C35 for the candidates.
* **C60–C63** documented behaviour of the encoder parameters: each is false of the code (`_refuted` with witness data), the
  `_partial` theorem gives what holds.
* **C64** every code costs at least one bit and every reference two; induction over the parser's loops with the number of
  unread bits as the budget. `C64_reached` builds a file for every size: one dynamic block whose length-258 match costs two bits.
* **C40** (`C40_trace_determines_codes`) two runs of the tracing loop with the same hints, in step.
* **C65** inversion of the restoring loop: what `validate` accepts was restored from hints over the same data.
* **C66** the example (`M_example`) is run block by block beside the abstract decoder; C40–C47 give its assertions. The position it slices at
  is the data's length plus the preroll's minus what the remaining codes emit, so the last code decides: this gives the exact theorem.
* **C67** the listings (`M_debug`) are computed from the same tree paths and chains as C12 and C35.
* **C68** the targets are `try_gzip` at level 1 on the first block; C59 says which codes are all `Correct`, the exact form of
  C65 which codes are accepted at all. False as stated (only the first block is looked at): `_refuted`, `_partial`.
* **C69** each printed item is shown to be prefix-free in its context (numbers end at a non-digit, characters by a sweep over
  all pairs of bytes), lists by induction.
* **C70, C71** `M_io` writes out the retrying loops of std::io over a list of read/write events and models the reading and
  writing code again over any reader or writer; a simulation (same result, related states) carries every theorem over.
* **C72, C73** `M_examples` models the two remaining examples: any order of hash-map iteration, any random generator;
  invariant of filling the map, correctness of the sort, induction on rounds.
* **C74** false (refuted); a relation in `Clients_write` says what should become of every block value, and the writer is shown to do
  exactly that, by composing the outcomes of its steps from any writer state.
* **C75, C76** `M_main` puts std's `BufReader` and the line buffer of standard output around the commands; a simulation with a
  third outcome (the device is full and holds a proper prefix) relates the buffered run to the plain one. C76 is false: errors of the
  flush at exit are dropped; `_refuted`, `_partial` with exactly what success can hide.
* **C77** the listing of the tracing example is a relation in `Clients_listing`; by induction over the tracing loop, whose guesses at
  these levels are single codes (C61), every line is a wrong guess with the right code. The guess is what the specified greedy encoder
  of the level (`level_choice` in `Spec_encoder`, from gzip's table) goes on with at that point; no function of the model is used to say so.
* **C78, C79** C49, C47 and C31 composed, for any decompressor that is right on valid streams; chunks are characterised by C48's
  relation, which is shown to determine them. C78 is false for contents with a 65536-byte chunk; when it is the last one, exactly that chunk is lost.
* **C80** a relation between running on a prefix and running on the whole (same result and related states, or the end of the
  prefix), carried through every reading function like the simulation of C70.
* **C81** a trichotomy for the restoring loop, by induction over its rounds: the hints used, whatever follows them; too few; a literal
  looked up past the end. The theorems are read off from it; the position
  of the literal looked up past the end is that of the codes before it, by a second induction over the rounds.
* **C82** false: cat ignores the trailer and further members. Witnesses, and from C47 what does come out.
* **C83** the model of the example keeps what is printed as state (`M_example`; `L_example` relates it to the lists of the runs that succeed). A cut
  listing is a relation in `Clients_listing`; the proof follows the blocks returned by `next` and, in a section, the tracing loop.
* **C84** heights of the trees follow the sixteen levels of `tree_new`; the bits of headers and blocks are bounded on the grammar of `Spec`,
  which C14 and C23 relate to the parser. Streams that reach the bounds are parsed as examples.
* **C85** `M_arith` models the reading and writing code a second time with explicit machine arithmetic, parameterised by the build; a
  simulation with the model proper carries the bounds that make every operation fit.
* **C86** `M_arith_search` does the same for the searching and tracing code; the lemmas are equations with the model proper under a
  bound on positions that the scanner keeps.
* **C87** `Clients_wrong` lists what can be wrong with the start of a stream, by the RFC's grammar and not by the reader's steps; each
  reading function is shown to complain exactly about that, on bit lists, and the block iterator by the simulation used for C23.
* **C88** `Clients_verdict` says what is found in a file, from C87's grammar and that of the gzip header; a file is shown to have exactly
  one verdict, and the loops of cat and dump follow the blocks of it.
* **C89** Two searches over lists that agree from 32769 bytes before a position on (position 0 of the history is never a candidate) or
  up to what a match reaches give the same candidates and lengths; the strategies and the feedback of the trace carry that along.
  With exactly 32768 bytes the claim is false (`C89_past_refuted`), for the first guess only.
* **C90** `M_harness` models the check of `lib/tests/tracing_size.rs`; induction over the blocks of the file (C88's verdict), each by the
  exact outcome of `try_gzip` (C46) and C58.  Files that pass are built from C58's unique codes and the fixed Huffman tables.
* **C91** `Clients_exact` gives the hints for codes, and the codes for hints, by the encoders of `Spec_encoder`.  Both directions: from the
  derivation by induction on it, from the run by induction on the fuel; each step by C58's exact guess.
* **C92** blocks that were read are writable or lack symbol 285 (C20); what is written is then read back by C18; that other stored lengths
  are not read back whatever follows the stream is a variant of C19's comparison.  cat and dump by C88.  False in general (C07): `_refuted`.
* **C93** the text is built from C77's lines by `M_example_text` with `String::from_utf8_lossy` and the derived `Debug` implementations written out;
  each part is shown to end before what follows it, as in C69; `Clients_text` states UTF-8 (RFC 3629) and maximal subparts as relations.
* **C94** by induction on `trace_bytes`, the relation of the format: dropping a record of correct guesses in front of what follows saves at most its two bytes.
* **C95** `zero_run` on what the decompressor yields up to an error, chunk by chunk with C48; what cat makes of whole blocks and a piece of another
  one through C88's `file_ends`. False if a chunk has 65536 bytes, whose length is written as 0: its bytes can hold a final block.
* **C96** The specified search (`match_at`) is monotone in its three parameters: the candidates of the narrower one are a prefix, and the first best
  of a longer list with a greater cap is the same or lies behind. Lifted to hints one by one through C91. False between the levels 1 to 3, which hide
  the insides of different matches, once a match is longer than 4 bytes.
* **C97** The words listed for a tree (C12) are the lengths from 1 to 15. In a complete code every length is below the number of words, by induction over
  the levels of the tree, counting inner nodes; the rest is arithmetic of the rounded quotient.
* **C98** Both loops run side by side: a greedy technique guesses one code a round, so the hint found is `Correct` or the one restored from. The bytes
  are a function of the lengths of the runs of `Correct`; joining two runs around a hint never costs more than the hint. False of a technique that
  looks ahead (a witness for `Config::spicy`), where a spelled-out literal makes the search start afresh.
* **C99** The step of the CRC register is invertible, and the top 32 bits that leave the register determine the bits fed in, so that a difference within 32
  bits leaves a different register, which the remaining bits keep different. With the exact output (C49) and what cat reads (C82) this gives the files.
* **C100** A client made of the public functions only (`Clients_compress.v`). Guesses decode (C39), in-range codes are written and read back (C18, C23), and
  cat prints what the blocks decode to (C82). A fixed code takes at most 9 bits per byte it stands for: a match of 3 takes 25, a longer one at most 31.
* **C101** With nothing hidden and the table limit at 65535 the candidates of the search are the earlier places of `Clients_repeat.v`. The first best of them is
  refused only if it is the nearest, is far and has three bytes. In constant content the start of the previous code is never hidden and is near, and
  every match found there is as long as it can be. At levels 1 to 3 a second copy can be missed: shown by a content of eight triples with one hash.
* **C102** `Clients_rename.v` says what a renaming is. The candidates of the search are the earlier places with the same three bytes, whatever the hash, as long as
  the table limit is at least the window; matches compare bytes for equality only; so guesses commute with the renaming, and by induction `trace` and `restore` do.
  A content of eight triples with one hash shows that at levels 1 to 3 they do not.
* **C103** `Clients_split.v` traces a list of blocks. By C91 hints are the derivation `traced`, which, if one code is chosen at a time, can be cut after any code and
  put together again; without hidden matches the second half is the derivation for the second block. For the first block use C89. A literal witness for levels 1 to 3.
* **C104** By C49 the output is header, stored blocks of the chunks and trailer. A chunk with the first differing byte is at most 65536 long and those before it are common (C79).
  At a place as described both divisions have a boundary: there is one within 8192 bytes before (C79), and one that is not there would need its own sum.
* **C105** Induction over the chunks, which C48 describes; contents of one chunk repeated, zeros or the period of C49's witness, reach the bounds.
* **C106** Decoding after a history is decoding after its last bytes with the rest put in front; C27 to C29 carry that to the buffer. Conversely a reference
  to every distance tells how much is there and which byte.
* **C107** Induction over C91's relations, comparing two derivations: the encoder's choice is a function of the codes so far, and a code or hint that
  differs ends the part in common. Hints of an encoding determine its codes when literals are looked up where they belong.
* **C108** From C88 (what dump and cat make of any file) and C57 (the listing determines the blocks up to stored bytes): codes that differ in
  literals only decode to as many bytes and fail at the same reference.
* **C109** The bytes zero writes (C49) are a complete stream of stored blocks, so that C88 says what dump lists; the lengths can be read back from
  the listing (C57).
* **C110** Composition of C75 (processes do what the commands do), C78, C47 and C109.

## Fidelity of the model

The repository was not built, so the model was compared with the source by reading, and by running the repository's own
tests on it: `Conformance.v` evaluates the tests of `lib/tests/tracing_size.rs` (those marked `#[ignore]` as broken fail on
the model too), the round trips of small files in `lib/src/lib.rs`, and unit tests of `bit`, `circles`, `parse`, `iters`,
`picker`, `obscure`, `all_refs` and `trace`; `Conformance_docs.v` the listings of `gzip.md` and, but for three lines that
predate the code, `huffman-fixed.txt`.  The two round trips of 20480-byte archives also succeed on the model, in
about three minutes each, and are left out of the build.  These are tests; no theorem depends on them.

## Trusted base

Coq's kernel and what `Print Assumptions` lists (target: "Closed under the global context" for every theorem), the
faithfulness of the hand-written model (source citations on every definition), the specifications in `Spec.v`, and
the conventions above.
