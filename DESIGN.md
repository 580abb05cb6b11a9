# open-vcdiff: formal model and proofs (Rocq / Coq 8.16.1)

Source under study: `/repo/src` (google/open-vcdiff, C++). The code was read as text;
nothing was built or run.

* `properties.jsonl` — the properties, in English.
* `MANIFEST.json` — for each property its status and the theorems that state it.
* `seeded/LOG.jsonl` — wrong programs on which the theorems were tried out.
* `rocq/theories` — model, specification, proofs. Build: in `rocq`,
  `coq_makefile -f _CoqProject -o Makefile && make -j4`.

## 1. Architecture of the development

| layer | files |
|-------|-------|
| common ground | `Base` (lists indexed by `Z`, slices, machine integer conversions), `ListFacts` |
| specification | `Spec` (what VCDIFF means: RFC 3284 and the SDCH extensions), `SpecEncode` (instructions, genuine COPYs), `SpecInstr` (instruction streams), `SpecJson` (a JSON reader), `SpecFind` (which repetitions have to be found), `SpecMaximal` (extending a match, periods), `SpecEdits` (a target put together from parts), `SpecParts` (windows one by one, strings that grow), `SpecShort` (all encodings of given instructions), `SpecWriters` (calls of a code table writer), `SpecCut` (a window of the interleaved format divided between two of its opcodes), `SpecTemplate` (where bytes come from), `SpecDamage` (deltas with one byte changed), `SpecBegun` (a window of the interleaved format of which a part has come), `SpecYield` (what the bytes received so far determine), `SpecStalled` (a window whose instructions end too early), `SpecLong` (the windows of a file, each within 31 bits), `SpecLongTemplate` (the same, with which of them have a checksum) |
| model | `Varint`, `AddrCache`, `CodeTable`, `InstructionMap`, `DecodeTable`, `HeaderParser`, `Adler`, `Decoder`, `EncodeTable`, `RollingHash`, `BlockHash`, `Engine`, `JsonWriter`, `Encoder`, `Cli`, `CliMain`, `Stats`, `Stdio` (the tool with I/O errors), `Writers` (the encoder with any code table writer), `Output`, `Platform`, `PlatformEnc` (other widths of size_t): one per source file, function by function; each definition cites the lines it models |
| proofs | the other files; `Refine`, `Abstract`, `Chunk`, `Sim` go through an intermediate decoder that keeps all target data, and relate it to the real one by simulation |
| properties | `Properties_*`: the property theorems, each with `Print Assumptions` and with Examples that meet its hypotheses |

The specification files use no definition of a model file (`SpecWriters` uses the types of the calls). The notions that a property
theorem uses beside the model functions (`vcd_file`, `window`, `addr_code`, `varint`,
`items_mean`, `execute_all`, `genuine_plan`, `common`, `crowd`, ...) are defined there.

Modelling conventions

* Bytes and all C++ integers are `Z`; a wrap is written explicitly (`to_int32`, `to_size`,
  `to_uchar`, ...) where the code can wrap. LP64 is assumed (`size_t` 64 bit, `int` 32 bit;
  C57 lifts this), release build (`VCD_DFATAL` logs and continues, as with NDEBUG, logging.h; for the decoder
  C59 says what happens without NDEBUG).
* A `(const char** cursor, const char* limit)` pair is the list of the bytes between them.
  Cursor movement is the returned suffix. Reading at the limit is the `[]` case.
* Accesses that the callee does not check (dictionary and target reads of DecodeCopy, the
  near cache index, the cells of the instruction maps, the tables of the block hash) have an
  explicit outcome for undefined behaviour: `UB`/`XUB`/`CUB` in the decoder, `None` in
  the encoder.
* Loops are structural or fuelled; running out of fuel is a distinct outcome (`XFuel`,
  `CFuel`, `Running`), proved unreachable (C37) — except where the program itself does not
  terminate, which is then proved for every amount of fuel (C38).

## 2. Results per property

Status `partial` in MANIFEST.json means here: the property as stated is *false* of the code;
a theorem `..._refuted` gives the witness, and a theorem `..._partial` proves the rest under
the condition that excludes exactly that case.

| id | what is modelled, how it is proved | full statement where it differs from what is proved |
|----|------------------------------------|-----------------------------------------------------|
| C01 | VCDiffEncoder, VCDiffDecoder objects in any state they can be in; C03 composed with C05 | dictionary + target must be below 2^31 bytes (lengths are int32 in the format code) |
| C02 | VCDiffStreamingEncoder (after other calls: C29); decoder on any splitting of the delta | same limit per chunk (`C82_round_trip`) |
| C03 | engine, writer; the output is a `vcd_file` without any tolerance; invariant between writer sections and specification items | |
| C04 | whole decoder, all inputs and splittings, custom code tables; inversion of the parsers, induction over windows | accepted files are files of `Spec` if two tolerances are granted: the second instruction of the last opcode of a window may be dropped, and an interleaved last window may declare more bytes than it has. Without them false (`C04_strict_refuted`). `C04_denotation_unique`: even with them a byte string denotes at most one target |
| C05 | whole decoder; the other direction | headers with 254 near and 0 same caches excluded (C09) |
| C06 | DecodeChunk on every split; simulation with the run on the whole | |
| C07 | the same for rejection | false if the code table is itself an `S` (SDCH) file (`C07_nested_refuted`); proved if no version byte `S` occurs in the chain of headers, so for every file with the default code table |
| C08 | interleaved format | false (`C08_interleaved_split_refuted`: where the chunk ends decides whether a window that declares too many bytes is accepted); proved: splitting never loses acceptance nor changes the output |
| C09 | UB outcomes of the decoder; invariant | false for 254 near and 0 same caches (`C09_cache_254_refuted`); the sum of a NEAR address may overflow int32 (`C20_near_sum_overflow_refuted`), here modelled as wrapping |
| C10 | limits; invariant on totals; at any moment, also after a failing call, the output is cut into windows within the limits (FailedFacts.v `chunks_accounted`) | |
| C11 | output of DecodeChunk | |
| C12 | all decoder states | |
| C13 | proper prefixes of accepted files, also of files longer than 2 GB (`C13_long`, LongCut.v) | |
| C14 | decoder object reuse | false after a custom code table was decoded (`C14_stale_code_table_refuted`); proved for all other histories |
| C15 | SetAllowVcdTarget; simulation between the settings | return values agree and so do the outputs of accepted deltas; for rejected deltas the bytes output before the failure differ (`C15_failed_output_refuted`) |
| C16 | checksum in writer and decoder | the checksum is Adler-32 started from 0, not 1 |
| C17, C18 | VarintBE for both types | |
| C19, C20 | VCDiffAddressCache against caches defined by the history of addresses | false for near = 254 (`C19_near_254_refuted`), overflow as in C09 |
| C21 | default code table against the RFC formula, instruction maps | |
| C22 | writer calls read back by GetNextInstruction, for every accepted code table, cache sizes, both layouts | false for calls of size 0 (`C22_zero_size_refuted`) |
| C23 | DecodeCopy against a byte by byte copy | |
| C24 | RollingHash | |
| C25 | instructions of the engine: `genuine_plan` | |
| C26 | bound on the size of the output: 5 bytes + target + 53 per chunk in the binary formats; in JSON no fixed overhead is enough (`C26_json_refuted`), six characters per byte and four more per chunk are | the claim is false for JSON |
| C27 | target equal to (a prefix of) the dictionary | |
| C28, C29 | histories of encoder calls | C29: binary formats (the JSON writer is not reset, see findings) |
| C30 | JSON writer against the reader of `SpecJson` | false for several chunks with target matching and for an empty target (`C30_json_chunks_refuted`, `C30_json_empty_refuted`) |
| C31 | Validate, UseCodeTable against a declarative predicate | |
| C32 | every byte position of the magic, every splitting | |
| C33 | declared lengths | |
| C34 | writer API | false if AddChecksum is used for one window and not for the next (`C34_windows_refuted`) |
| C35 | nested decoders | false: files of every nesting depth are accepted, by induction (`C35_nesting_refuted`) |
| C36 | changing limits while decoding | false if the limit is lowered below what was decoded (`C36_lower_limit_refuted`) |
| C37 | loop executions counted (`Count`); linear bound for every decoder state and input; encoder calls end | |
| C38 | vcdiff encode / decode with a model of stdio; files longer than 2 GB too (`C38_long_partial`, from C82; ftell returns a 64-bit long) | false for an empty file given by name: the tool loops for ever (`C38_empty_target_refuted`, `C38_empty_delta_refuted`) |
| C39 | block hash tables after any sequence of additions | |
| C40 | adler32.c with 32-bit sums | |
| C41 | vcdiff test; files longer than 2 GB too (`C41_test_long`) | |
| C42 | vcdiff decode, all delta files | empty named delta files (C38), caches 254/0 (C09); "denotes" with the tolerances of C04 |
| C43 | engine, block hash; the search is followed through its cut-offs | the condition on crowded slots is necessary (`C43_every_match_refuted`) |
| C44 | address cache, code table maps, writer; greedy pairing against all encodings | standard format, default code table; optimal for the modes chosen |
| C45 | instrumented copy of the engine and of the block hash (EncodeCount.v), amortised over the bytes encoded | counts loop executions; a block comparison counts once |
| C46 | prefixes of an encoding given packet by packet to the decoder; `C46_long` limits the chunks, not the stream | binary formats |
| C47 | decoded_target_ and unparsed_bytes_ after any calls (Held.v) | the target part is proved; the input that is kept has no bound (`C47_input_held_refuted`) |
| C48 | empty chunks: states before and after differ at most in unread no-op opcodes (Empty.v); encoder: at most in the stored checksum; what a failing call outputs is the target at the window that fails, the same in both states (EmptyFailed.v) | |
| C49 | Adler sums as in Spec; two readings of one file with different dictionaries agree in all lengths and addresses (Detect.v), so the stored checksum compares the chunk with what the wrong dictionary gives | three wrong bytes can cancel: C49_always_refuted |
| C50 | the engine's loop as a list of successful searches (Maximal.v); a match is extended until the bytes differ or a buffer ends | the longest among easily found blocks, as in C43 |
| C51 | the searches of C50 in periodic data: a COPY from the target that is as long as the period goes to the end (Runs.v); costs of the writer | bounds 100 and 121 bytes including the header |
| C52 | Output.v: the calls of DecodeChunk on output_string, incl. ReserveAdditionalBytes; every size they require is the end of a window of the file or was required before (OutputCalls.v), by the simulation of C06 and soundness in pieces (Chunked.v) | `resized` leaves the growth policy open; rejected deltas (OutputFailed.v): one more resize for the window that is wrong |
| C53 | the setters; the limits in terms of the windows of the file (SpecParts.v) | partial: SetMaximumTargetFileSize accepts sizes above INT32_MAX (finding 25) |
| C54 | the runs of two decoders compared step by step on the abstract machine of C06 (More.v); `C54_long` limits the chunks, not the stream | |
| C55 | after each window the writer is in the state Init leaves (Windows.v), so the window is a function of the chunk | binary formats |
| C56 | Stdio.v: the tool with read errors, a buffering C library and a device that may refuse data, both arbitrary functions; what a failed fwrite did not put on the device may be lost | partial: the result of fclose is ignored (finding 27); "test" proved |
| C57 | Platform.v, PlatformEnc.v: every function that computes with size_t or compares blocks, and their callers, with data model, byte order and the macro as parameters; equal to the 64-bit model step by step (PlatformFacts.v, PlatformEncFacts.v), so every other theorem holds of every build; `C57_stream`: streams of any length from any build to any build | limits not lowered while decoding (`C57_lowered`); dictionary and window below 2^31 bytes |
| C58 | The bytes of header and window written out (`laid_out`, `file_start` in Properties_Layout.v), from the invariant of the writer after any history of calls | |
| C59 | Fatal.v: beside every function of the decoder model one that returns the first VCD_DFATAL it reaches; invariant over all call sequences (`finv`) excludes all places but five, which have witnesses | files with their own code table, and dictionary plus target of 2^31 bytes (finding 28) |
| C60 | FatalEnc.v: beside every function of the encoder, engine and writer models one that returns the first VCD_DFATAL it reaches; the invariants of C02, C05 and C22 (`bh_ok`, `engine_ok`, `winv`, `einv`) exclude all 25 places | dictionary of 2^31 bytes or chunk of 2^31-1 (finding 29); calls excluded by the headers reach five places (C60_misuse) |
| C61 | OutputEnc.v: the calls of Output, WriteHeader and FinishEncoding on the output string, incl. ReserveAdditionalBytes; the announced length equals the length of what is appended for every state (also for sizes of 2^31 and more, where both sides are wrong in the same way), so after the reservation every append fits | `resized` leaves the growth policy open |
| C62 | InstructionMap.v: the constructor of VCDiffInstructionMap with bounds checks; induction over the two passes (MapTotal.v) gives the exact condition for staying inside the arrays | false for tables with a NOOP before an instruction of a large size (findings 14, 30) |
| C63 | streaming encoder with a custom VCDiffCodeTableWriter, VCDiffEncoder for the table, decoder with nested decoder: invariant of C02 for any table, C62, C05 | false with the encoder's own header (finding 12); caches 254/0 excluded (C09) |
| C64 | SpecShort.v: all ways to write a list of instructions as a window; induction over the opcodes of the other encoding, in step with the calls of the writer (ShortFacts.v), with C44 for one instruction | proved; the writer alone is not optimal for short COPYs (finding 31) |
| C65 | Writers.v: the streaming encoder with the writer as a parameter (a state and one function per virtual function); SpecWriters.v: the calls to be made. Case analysis of each call, induction over the session; C65_replay: a writer that carries out the instructions outputs the chunks | proved |
| C66 | as C65 | partial: false for a writer whose Init fails later (finding 32); proved if no StartEncoding succeeded before, and for writers with fixed replies |
| C67 | Decoder.v (unparsed_bytes_); `retained` in Kept.v | proved, by the account of what came in Count.v: end of the input in all formats, the bytes after the last complete window in the standard format |
| C68 | `stored` in Properties_Kept.v: the bytes that unparsed_bytes_.assign copies | partial: false (finding 33), exact count for one window byte by byte; proved: at most calls times size of the input |
| C69 | AdlerMore.v (UpdateAdler32, adler32_combine, adler32_range) | proved, by algebra modulo 65521 with the bounds that exclude wraps |
| C70 | BlockHash.v, Encoder.v, EncodeTable.v, JsonWriter.v; `held_bytes` in Properties_Memory.v | proved: invariant of the encoder over call sequences, sizes of the tables |
| C71 | Decoder.v (interleaved windows, DecodeBody); specification `cut_window` in SpecCut.v | proved: the loop carries out every complete instruction (CutFacts.v `body_loop_run`), independence of pieces by the simulation of Session.v |
| C72 | Decoder.v (DecodeChunk, FlushDecodedTarget, AppendNewOutputText), also for calls that fail | partial: refuted for the interleaved format (C72_refuted); proved for the standard format, and in general up to a part of the next window, which is what its instructions so far yield (SpecBegun.v); the windows of a failing call are followed from the place where they begin (FailedFacts.v `part_came`, `window_loop_failed`) |
| C73 | Cli.v, CliMain.v (`vcdiff_main`: the arguments that are left after the flags) | partial: refuted when the output is one of the inputs (C73_same_file_refuted for all worlds, C73_dictionary_refuted); all other files proved unchanged by induction on the loops of Encode, Decode and DecodeAndCompare |
| C74 | Decoder.v under sequences of all calls (DecoderCalls.v `dops_run`) | partial (C14): the state is related to that of a decoder that was given only the calls of the open session (`follows`), by induction on the calls; the expectation `expect` runs each session on a decoder of its own |
| C75 | Stats.v (the functions of Cli.v with input_size and output_size) | proved: same outcome by induction on the passes; the counters equal the read position and, modulo 2^64, the growth of the output file |
| C76 | Decoder.v, Encoder.v; origins of bytes in SpecTemplate.v | proved: the decoder without checksum verification (Template.v) commutes with every map on bytes that fixes the bytes of the delta, so one run on a symbolic dictionary is the template of all; the real decoder agrees with it or refuses; for formats with checksums and for the encoder, the same naturality of the specification (TemplateSpec.v) and C05; `C76_checked_long`, `C76_encoder_long`: the same for files and streams of any length (SpecLongTemplate.v, C82) |
| C77 | Decoder.v, Adler.v, Encoder.v; the damaged delta in SpecDamage.v | partial: a damaged literal can be copied, so the target changes by the same amount in k places and the plain sum by k times that; with k < 65521 (window shorter than 65521 bytes) the sums differ modulo the prime 65521 (DamageFacts.v), and the soundness of the decoder does the rest. Deltas of the encoder without target matching: k = 1, any size, any number of chunks (`C77_stream_partial`). `C77_refuted`: RUN of 65521 bytes; `C77_encoder_refuted`: what the encoder with target matching writes for 65521 equal bytes |
| C78 | EncodeTable.v, InstructionMap.v, AddrCache.v: all accesses with bounds; `writer_for_default_data`: the constructor called with kDefaultCodeTableData | partial, with the exact condition: invariant over all calls (WriterArrays.v `safe`); for the converse the calls that reach the highest mode are given for every cache size (`outside_near`, `outside_same`) |
| C79 | Decoder.v, any two decodings; SpecBegun.v: the beginning of an interleaved window and what its instructions yield | proved: the output is accounted for by complete windows and a begun one (BegunFacts.v `body_loop_begins`, FailedFacts.v `chunks_accounted`); two such accounts of one delta agree by uniqueness of parsing (`parts_agree`) |
| C80 | Decoder.v, any decoding without a failing call; SpecYield.v: the target data that a beginning of a delta determines | proved: an instruction whose bytes are all there does not end with END_OF_DATA (Prompt.v `exec_not_eod`, `step_prompt`), so the loop stops behind all complete instructions (`body_loop_prompt`); headers likewise (`opened_not_eod`); lifted to windows, code tables and calls with the invariant `came` (`came_prompt`) |
| C81 | Decoder.v, any decoding without a failing call; `Spec.declares`: what the header of a window declares; SpecStalled.v | RFC format proved (`C81_in_time_rfc`); interleaved format false (`C81_in_time_refuted`, finding 40), and the stalled window is the only exception (`C81_in_time_partial`): the decoder waits for data only if the header is incomplete (InTime.v `declares_not_eod`), a section is incomplete (`finish_std`) or instructions of an interleaved section are (`il_left`); every stalled window is waited for in this way whatever follows (`C81_stalled_forever`, StalledFacts.v `decode_window_stays`); not premature: from C05_decoder_complete (`C81_not_premature`) and, for files of any length, from C82 (`C81_not_premature_long`) |
| C82 | Encoder.v, Decoder.v as for C02, C03 and C05; SpecLong.v | the lemmas of C05 again with the conditions on the sizes per window (LongStream.v `decode_window_long`, `arun_long`; the totals are size_t), and of C03 with the bound on each window (LongEncode.v); the decoder with VCD_TARGET allowed keeps the target, so the string decoded_target_ grows beyond 2^31 bytes as well; windows with VCD_TARGET are decoded if their segment lies below 2^31 (`C82_decoder_target`, `target_segment_low`), and refused otherwise (`C82_target_high_refuted`, finding 41) |
| C83 | Engine.v, BlockHash.v and the writer as for C43, C50 and C26; SpecEdits.v | Edits.v: new bytes and ends of parts are counted up to a position; a COPY that begins in a kept part reaches its end (C50 and uniqueness), an ADD has at most 46 bytes of a kept part (C43), and every other instruction is paid by new bytes; for streams chunk by chunk (`C83_stream`); false for crowded dictionaries (`C83_crowded_refuted`) |

## 3. Trusted base

* The kernel of Coq 8.16.1, including its virtual machine (`vm_compute` on finite tables and
  witnesses). No `native_compute`.
* Axioms: none. Every `Print Assumptions` in the `Properties_*` files prints "Closed under
  the global context". The files contain no `Axiom`, `Parameter`, section-less `Variable`,
  `Admitted`. (The standard library files loaded by `lia`, via `ZifyClasses`/`ssreflect`, declare the
  seven parameters of `Coq.ssr.ssrunder`'s `Under_rel` module; no theorem here depends on them.)
* The reading of the C++ code that the model files document: that each definition does what
  the cited lines do. No extraction from the C++ text and no execution of it took place. The
  default code table is transcribed row by row and proved equal to the RFC formula (C21).
* The specifications `Spec*.v` as a reading of RFC 3284, of `format_extension_flags.h` and of
  `vcdiff_defs.h`.

* Evidence for that reading, beside the citations: the unit tests of the repository, replayed on the
  model (`RepoTests_Decoder`, `RepoTests_Encoder`, `RepoTests_Parts`). 272 tests of
  `vcdecoder1_test.cc`-`vcdecoder4_test.cc` were translated mechanically (fixtures, edits of the delta file,
  calls, expected results), the expectations of `encodetable_test.cc`, `vcencoder_test.cc`,
  `vcdiffengine_test.cc` byte for byte, and the tests of varints, address cache, JSON writer, rolling hash and
  block hash. All hold of the model. They are tests of the model, no property rests on them. Left out:
  guard pages, `crope`/`wchar_t` strings, debug-only deaths, timing, the 64 MB windows of
  `vcdecoder5_test.cc`; the fuzz tests and the loops over all cuts in two and three parts were run once
  outside the build (all pass).

## 4. What is modelled and what is not, per source file

| source | modelled | not modelled |
|--------|----------|--------------|
| varint_bigendian | Parse, Encode/AppendToString/AppendToOutputString, Length, both types | |
| addrcache | all methods | diagnostics; `near_addresses_`/`same_addresses_` are lists |
| codetable | the table, Validate | VCDiffInstructionName (log text) |
| instruction_map | constructor, both lookups | the arrays are lists of non-empty cells |
| decodetable | GetNextInstruction, UnGetInstruction, UseCodeTable | UnGetInstruction is going back to the state before |
| headerparser | ParseableChunk, all Parse functions | pointers are suffixes |
| checksum, zlib/adler32 | adler32, ComputeAdler32, UpdateAdler32, adler32_combine, adler32_range | unrolled loops are loops |
| vcdecoder | VCDiffStreamingDecoderImpl, VCDiffDeltaFileWindow, VCDiffDecoder | log texts; appending beyond what was reserved for the window counts as UB; ReserveAdditionalBytes in `Output` |
| encodetable | VCDiffCodeTableWriter; ReserveAdditionalBytes in `OutputEnc`, the check of the length after writing in `FatalEnc` | |
| rolling_hash | all | the static table is a value |
| blockhash | all that the encoder uses; word-wise comparison in `PlatformEnc` | |
| vcdiffengine | Init, Encode | log texts |
| jsonwriter | all | locale of `operator<<` |
| vcencoder | streaming and simple encoder, HashedDictionary; any CodeTableWriterInterface implementation (Writers.v) | a writer that does something else with the output string than append, or that throws |
| vcdiff_main | main after the flags were parsed (`CliMain`), Encode, Decode, DecodeAndCompare, file access with a map of files (a file has one name) | gflags parsing, the percentage of --stats (the sizes are in `Stats`), I/O errors other than a missing or unwritable file in `Cli` (read and write errors are in `Stdio`, there input and output are different files), stdin delivering short reads before its end, allocation failure |
| output_string | append, push_back, clear; ReserveAdditionalBytes in `Output` (decoder) and `OutputEnc` (encoder) | output_string_crope.h |
| logging.h VCD_DFATAL in the decoder | Fatal.v | the place reached first; not the places listed in the comment at its head, which the state of the model cannot express |
| logging.h VCD_DFATAL in the encoder | FatalEnc.v | the place reached first, those of the engine before those of the coder for one chunk; not blockhash.cc 59 and rolling_hash.h 110 (see the comment at its head) |
| logging (rest), testing, compile_assert, unique_ptr, tests | | not modelled |

Not modelled at all: allocation failure and exceptions, threads, timing.

## 5. Findings

Each is a theorem or a consequence of the model; line numbers in the model comments.

1. Header with near cache 254 and same cache 0: FirstSameMode is 256 mod 256 = 0, so mode 0 is taken as a
   SAME mode and reads outside an empty array (C09, C19, C20).
2. The NEAR address sum can overflow `int32_t` before it is checked (C20).
3. ComputeAdler32 starts from 0 (Adler-32 proper: 1); `adler32` of a NULL buffer returns 1.  adler32_combine (not used by the
   library) gives wrong results for these checksums (C69_combine_library_refuted).
4. A decoder that has decoded a file with a custom code table uses that table for the next
   file (C14): `Reset` does not reset the reader's table.
5. An unusable custom code table is ignored without an error (vcdecoder.cc 846; C31).
6. Cache sizes that do not fit the mode byte are only rejected at the first window.
7. Interleaved windows: whether a window that declares too many bytes is accepted depends on
   how the data is split (C08); as the last window it is accepted when the data ends (C04).
8. The second instruction of the last opcode of a window is dropped silently when the window
   is already complete (C04).
9. Instructions of size 0 after a complete window are an error, though they change nothing.
10. Varints with any number of leading 0x80 bytes are accepted; the decoder keeps such an
    unfinished varint and parses it again with every chunk.
11. SetMaximumTargetFileSize below what was decoded makes an unsigned difference wrap: the limit is
    off (C36).
12. AddChecksum applies to later windows too (C34); the writer's WriteHeader cannot announce a custom code table,
    so output of the custom table writer is not self-describing: the decoder reads it with the default table, possibly
    without an error (C63_custom_table_refuted).
13. Writer calls of size 0 emit an opcode that requires a size, without the size (C22).
14. FirstInstructionMap::Add writes outside its array for a table with a NOOP-first opcode whose
    second size exceeds all first sizes (C62_refuted; C62_partial: the only case; the theorems on custom tables exclude it).
15. JSON: several chunks with target matching have wrong offsets; an empty target gives `""`;
    Run is not escaped; `output_called_` is not reset, so a reused encoder with an empty target
    outputs `]`; VerifyDictionary and VerifyChunk log an error on success (C30).
16. Flags set on a VCDiffEncoder after its first Encode have no effect.
17. Nested code tables: no bound on the depth (C35), and each level copies all remaining bytes
    of the chunk: quadratic work outside the loops counted in C37.
18. A version-0 file whose code table is an `S` file depends on the splitting (C07).
19. The custom code table section has no length field (RFC 4.1 has one).
20. vcdiff encode/decode of an empty named file never ends, and takes the address of the first element of an empty
    vector (C38). `--max_target_window_size` above 2^31 - 1 is ignored without an error.
21. Indexes with at most 256 slots (buffers up to 1 KB) use only the sum of the bytes of a block: 257 = 1
    modulo 256. Permuted blocks collide, and 47 bytes copied from a dictionary of 320 bytes can be missed (C43).
22. Dictionaries of 2^31 bytes or more: the number of blocks is computed from a negative int.
23. Input that is kept between calls has no bound, whatever the limits: numbers in a window header may be padded
    with bytes 128, so a header of any length is kept (and parsed again on every call).
24. A dictionary that differs in three adjacent bytes by +1, -2, +1 gives the same checksums: the wrong target is output
    and every call returns true (C49_always_refuted).
25. vcdecoder.h 102-110 documents that SetMaximumTargetFileSize refuses arguments above INT32_MAX and leaves the limit
    unchanged; vcdecoder.cc 378-381 accepts every size_t (C53_file_limit_refuted). SetMaximumTargetWindowSize does check.
26. The guarantee of at most one resize per window (vcdecoder.h 78-80, C52) needs a string whose `reserve` never shrinks.
    Before C++20 `std::string::reserve` may shrink, and libstdc++ before GCC 11 does: if append or reserve grew the string
    beyond the end of the window (geometric growth), the next ReserveAdditionalBytes in that window reallocates again.
    Not proved: the string type is outside /repo.
27. The destructor of VCDiffFileBasedCoder ignores the result of fclose (vcdiff_main.cc 204-207), and nothing flushes the
    output before: bytes still in the buffer of the C library are lost on a full disk while the exit status is 0
    (C56_status_refuted); small outputs are lost completely. "vcdiff test" notices, since it reads the delta back (C56_test).
28. In a build without NDEBUG a delta can end the program with exit(1): a code table header with a cache size above 255
    (vcdecoder.cc 773, 778) or with cache sizes whose sum is above 254 (1355), a COPY with a mode the cache does not have when
    the file's code table was ignored (addrcache.cc 304, see finding on UseCodeTable), a window whose source segment and target
    together reach 2^31 bytes (addrcache.cc 270).  The messages of the first three call it an error of the input, so VCD_ERROR
    would be right (C59_refuted).  A release build rejects these deltas (C59_rejected); no other place can be reached (C59_partial).
29. In a build without NDEBUG the encoder ends the program for large data (C60_refuted): Init with a dictionary of 2^31 bytes
    (blockhash.cc 212, the size is cast to int and becomes negative), a chunk of 2^31-1 bytes whose delta encoding does not fit
    in an int32_t (varint_bigendian.cc 111).  A release build continues; no theorem here covers what it then writes.  Below these
    sizes no place is reached, whatever is called in whatever order (C60_streaming_partial).
30. VCDiffCodeTableWriter::Init does not call Validate on a custom code table: with a table without instructions it returns
    true, and calls of Add put their data into the window without an opcode (C62_unchecked).
31. The code table writer chooses the mode of an address before it looks for an opcode.  A SAME address is preferred even where
    SELF takes the same number of bytes and could share an opcode with the ADD before it, so a COPY of 5 or 6 bytes after a short
    ADD may cost one byte more than necessary (C64_writer_refuted).  The engine never asks for such COPYs (C64_shortest_window).
32. StartEncoding does not reset encode_chunk_allowed_ when it fails.  If an earlier StartEncoding succeeded, EncodeChunk and
    FinishEncoding after the failed one are carried out, with a writer that said it could not be initialized (C66_refuted);
    vcencoder.h says that they return false.  The two writers of the library never fail that way (C28_failed_start).
33. Input that arrives in small pieces is copied again and again: at the end of each DecodeChunk unparsed_bytes_.assign copies all
    that is unparsed, which in the standard format is the whole window so far.  A window of n bytes that arrives byte by byte
    costs n(n-1)/2 bytes copied (C68_one_window); the encoder without target matching gets there with an empty dictionary, a target of up to
    64 MB and a decoder with default settings (C68_refuted: about 2^51 bytes for 2^26).  Callers that decode from a network should pass large pieces.
34. The data of an interleaved window is output before its checksum is verified (C72_refuted): a window whose checksum is wrong
    has been delivered in part when the error is reported, if it arrived in more than one call.  The checksum is that of the
    whole window, so this comes with decoding as the data comes in (C71); a caller must discard the output after an error.  With
    VCD_TARGET disallowed a failing call has also appended the complete windows before the failure (C72_case); with the default
    setting it appends nothing (C72_failing_call).
35. vcdiff does not check that its output is not one of its inputs.  `vcdiff decode` with the same name for --delta and --target
    empties the file and exits with status 0, whatever it contained (C73_same_file_refuted): opening the output truncates the
    file, the first fread finds the end of the file, and FinishDecoding accepts that nothing was decoded.  `vcdiff encode` with
    the dictionary as --delta exits with status 0 and leaves a delta whose dictionary is gone (C73_dictionary_refuted).
36. Without checksums (the default of `vcdiff encode`) the wrong dictionary is never noticed if it has
    the right length: the delta of "hello!" against "hello" decodes to "HELLO!" with the dictionary "HELLO" and reports success
    (C76_encoder, C76_case_unchecked).  Not a bug of the decoder: the format has nothing to
    compare with.
37. A JSON delta can be six times the size of the target: `json_escape` writes a control character or DEL as
    `\u00xx` and there is no other way to write it (C26_json_refuted).  A JSON chunk never takes more than six characters per
    byte and four more (C26_json_chunk_partial).
38. The checksum does not protect every byte (C77): one changed byte of a RUN of 65521 bytes goes unnoticed
    (65521 is the modulus of Adler-32, so both sums are 0 for every byte; the window is written out in
    `run_window`), and a changed address byte of a COPY goes unnoticed when the dictionary has another part
    with the same checksum (`C77_other_byte_refuted`, a delta that the encoder writes). Literal bytes are
    safe in windows shorter than 65521 bytes.
39. VCDiffCodeTableWriter does not compare max_mode with the cache sizes, and with the address of kDefaultCodeTableData it
    ignores max_mode (encodetable.cc 102-112): with larger caches a COPY reads a row pointer outside FirstInstructionMap
    (C78_refuted, exact condition in C78_outside).  Init returns true.
40. An interleaved window whose section ends inside an instruction, or whose last instructions have no effect, with
    less target data than declared, is never rejected: DecodeBody returns RESULT_END_OF_DATA and
    interleaved_bytes_expected_ stays above 0 (vcdecoder.cc 137-139, 1286-1290, 1373-1380), but the section pointers
    end with the section, so no further byte can help.  Every later DecodeChunk returns true, outputs nothing and
    keeps all its input in unparsed_bytes_; the error comes with FinishDecoding (C81_in_time_refuted: nine bytes).
    In the RFC format the same defect is rejected at once.
41. Source segment positions are read as 31-bit numbers (headerparser.cc 100-121, 178-217), the target may be longer: a
    VCD_TARGET window that refers to the target beyond its first 2^31 bytes is refused though RFC 3284 allows it
    (C82_target_high_refuted).  This encoder never writes VCD_TARGET windows.
42. With target matching the encoder itself writes deltas whose checksum does not protect the literal bytes
    (C77): for 65521 equal bytes it writes the byte once and a COPY of 65520 bytes of it, and the delta is the same
    for every byte value apart from that one byte, the checksum (0) included. If this byte changes on the way,
    the decoder reports success and delivers 65521 wrong bytes (`C77_encoder_refuted`). Adler-32 is computed
    from the initial value kNoPartialChecksum = 0 (checksum.h 34-38), and 65521 is its modulus.

## 6. Tests of the theorems against wrong programs

`seeded/LOG.jsonl`: each line is a realistic bug introduced into a copy of the model (definition,
edit, broken claim), with the theorems whose proofs then failed. A theorem that survived an edit
which makes its English claim false is tightened, and the line says so.

## 7. Where each theorem is

All files are in rocq/theories; `Print Assumptions` follows each theorem.

| Property | Status | Theorems, by file |
|---|---|---|
| C17 | proved | Properties_Varint.v: `C17_varint_round_trip_minimal` |
| C18 | proved | Properties_Varint.v: `C18_varint_parse_exact` |
| C19 | partial | Properties_Addr.v: `C19_caches_synchronised_partial`, `C19_near_254_refuted` |
| C20 | partial | Properties_Addr.v: `C20_decoded_address_in_range_partial`, `C20_near_sum_overflow_refuted`, `C19_near_254_refuted` |
| C06 | proved | Properties_Stream.v: `C06_split_keeps_success` |
| C07 | partial | Properties_Stream.v: `C07_standard_split_independent_partial`, `C07_default_table_split_independent`, `C07_nested_refuted` |
| C08 | partial | Properties_Stream.v: `C08_interleaved_split_partial`, `C08_interleaved_split_refuted` |
| C09 | partial | Properties_Stream.v: `C09_decoding_is_safe_partial`, `C09_cache_254_refuted`; Properties_Addr.v: `C20_near_sum_overflow_refuted` |
| C10 | proved | Properties_Stream.v: `C10_total_limit`; Properties_Decode.v: `C10_window_limit`, `C10_long_window_rejected`; Properties_Limits.v: `C10_at_any_moment` |
| C11 | proved | Properties_Stream.v: `C11_prefix_output`, `C11_append_only` |
| C12 | proved | Properties_Stream.v: `C12_errors_are_sticky`, `C12_not_started` |
| C14 | partial | Properties_Stream.v: `C14_reuse_partial`, `C14_stale_code_table_refuted` |
| C32 | proved | Properties_Stream.v: `C32_wrong_magic_rejected`, `C32_right_magic_accepted` |
| C35 | partial | Properties_Stream.v: `C35_nesting_refuted` |
| C36 | partial | Properties_Stream.v: `C36_limit_change_partial`, `C36_lower_limit_refuted` |
| C04 | partial | Properties_Decode.v: `C04_decoder_sound_partial`, `C04_one_call_partial`, `C04_standard_partial`, `C04_denotation_unique`, `C04_strict_refuted` |
| C05 | proved | Properties_Decode.v: `C05_decoder_complete` |
| C13 | proved | Properties_Decode.v: `C13_truncation`; Properties_LongCut.v: `C13_long` |
| C15 | partial | Properties_Decode.v: `C15_vcd_target_rejected`, `C15_allowing_more`, `C15_same_results_partial`, `C15_failed_output_refuted` |
| C16 | proved | Properties_Decode.v: `C16_checksum_verified`; Properties_Encode.v: `C16_checksum_written` |
| C23 | proved | Properties_Decode.v: `C23_copy_is_bytewise` |
| C31 | proved | Properties_Decode.v: `C31_validate_exact`, `C31_unusable_table_not_used`, `C31_table_string_meaning` |
| C33 | proved | Properties_Decode.v: `C33_lengths_consistent` |
| C40 | proved | Properties_Decode.v: `C40_adler_exact`, `C40_adler_pieces`, `C40_checksum_exact` |
| C01 | proved | Properties_Encode.v: `C01_round_trip` |
| C02 | proved | Properties_Encode.v: `C02_streaming_round_trip`; Properties_Long.v: `C82_round_trip` |
| C03 | proved | Properties_Encode.v: `C03_well_formed`; Properties_Long.v: `C82_well_formed` |
| C21 | proved | Properties_Encode.v: `C21_default_table`, `C21_first_lookup`, `C21_second_lookup`, `C21_all_chosen` |
| C24 | proved | Properties_Encode.v: `C24_update_hash`, `C24_rolling_hash` |
| C25 | proved | Properties_Encode.v: `C25_genuine_instructions` |
| C26 | partial | Properties_Encode.v: `C26_chunk_expansion`, `C26_stream_expansion`; Properties_JsonSize.v: `C26_json_refuted`, `C26_json_chunk_partial`, `C26_json_stream_partial` |
| C27 | proved | Properties_Encode.v: `C27_identical`, `C27_prefix`, `C27_size` |
| C28 | proved | Properties_Encode.v: `C28_call_order`, `C28_started`, `C28_failed_start` |
| C29 | proved | Properties_Encode.v: `C29_stream_independent`, `C29_encoder_independent` |
| C30 | partial | Properties_Encode.v: `C30_json_partial`, `C30_json_refuses`, `C30_json_chunks_refuted`, `C30_json_empty_refuted` |
| C34 | partial | Properties_Encode.v: `C34_windows_partial`, `C34_windows_refuted` |
| C39 | proved | Properties_Encode.v: `C39_index_history`, `C39_index_complete` |
| C22 | partial | Properties_Instr.v: `C22_read_back_partial`, `C22_zero_size_refuted` |
| C38 | partial | Properties_Cli.v: `C38_round_trip_partial`, `C38_empty_target_refuted`, `C38_empty_delta_refuted`; Properties_LongMore.v: `C38_long_partial` |
| C41 | proved | Properties_Cli.v: `C41_compare_exact`, `C41_test_passes`; Properties_LongMore.v: `C41_test_long` |
| C42 | partial | Properties_Cli.v: `C42_decode_status_partial`, `C38_empty_delta_refuted`; Properties_Decode.v: `C04_strict_refuted` |
| C37 | proved | Properties_Term.v: `C37_decode_linear`, `C37_decode_terminates`, `C37_encode_terminates` |
| C43 | proved | Properties_Find.v: `C43_dictionary_matches`, `C43_target_matches`, `C43_small_dictionary`, `C43_every_match_refuted` |
| C44 | proved | Properties_Short.v: `C44_shortest_address`, `C44_short_instruction`, `C44_shortest_section` |
| C45 | proved | Properties_Work.v: `C45_encode_linear` |
| C46 | proved | Properties_Live.v: `C46_no_lag`; Properties_LongMore.v: `C46_long` |
| C47 | partial | Properties_Held.v: `C47_target_held_partial`, `C47_input_held_refuted` |
| C48 | proved | Properties_Empty.v: `C48_decode_nothing`, `C48_decode_same`, `C48_encode_nothing`, `C48_encode_same` |
| C49 | proved | Properties_Detect.v: `C49_small_errors`, `C49_same_length`, `C49_wrong_dictionary`, `C49_always_refuted` |
| C50 | proved | Properties_Maximal.v: `C50_maximal`, `C50_longest` |
| C51 | proved | Properties_Maximal.v: `C51_run_size`, `C51_periodic_size` |
| C52 | proved | Properties_Output.v: `C52_one_resize_per_window`, `C52_unfinished`; Properties_OutputFailed.v: `C52_rejected` |
| C53 | partial | Properties_Output.v: `C53_window_limit`, `C53_file_limit_partial`, `C53_file_limit_refuted` |
| C54 | proved | Properties_More.v: `C54_monotone`, `C54_grown_dictionary`; Properties_LongMore.v: `C54_long` |
| C55 | proved | Properties_More.v: `C55_windows`, `C55_joined` |
| C56 | partial | Properties_Stdio.v: `C56_decode_partial`, `C56_encode_partial`, `C56_test`, `C56_status_refuted` |
| C57 | proved | Properties_Platform.v: `C57_decode`, `C57_decode_model`, `C57_encode`, `C57_encode_model`, `C57_encode_simple`, `C57_round_trip`; Properties_PlatformStream.v: `C57_stream` |
| C58 | proved | Properties_Layout.v: `C58_window_layout`, `C58_header`, `C58_file_layout` |
| C59 | partial | Properties_Fatal.v: `C59_partial`, `C59_plain`, `C59_sizes`, `C59_no_tables`, `C59_rejected`, `C59_refuted` |
| C60 | partial | Properties_FatalEnc.v: `C60_streaming_partial`, `C60_encode_partial`, `C60_writer_partial`, `C60_refuted`, `C60_misuse` |
| C61 | proved | Properties_OutputEnc.v: `C61_call`, `C61_session` |
| C62 | partial | Properties_Map.v: `C62_partial`, `C62_refuted`, `C62_unchecked` |
| C63 | partial | Properties_Custom.v: `C63_custom_table_partial`, `C63_custom_table_refuted` |
| C64 | proved | Properties_Shortest.v: `C64_shortest_window`, `C64_plain_window_reads`, `C64_writer_refuted` |
| C65 | proved | Properties_Writers.v: `C65_session`, `C65_calls_made`, `C65_pattern`, `C65_total`, `C65_library`, `C65_replay` |
| C66 | partial | Properties_Writers.v: `C66_refuted`, `C66_never_started_partial`, `C66_failed_start_partial`; Properties_Encode.v: `C28_failed_start` |
| C67 | proved | Properties_Kept.v: `C67_end_of_input`, `C67_standard`, `C67_header` |
| C68 | partial | Properties_Kept.v: `C68_refuted`, `C68_one_window`, `C68_calls_times_size_partial` |
| C69 | proved | Properties_Adler.v: `C69_update`, `C69_initial`, `C69_combine`, `C69_range`, `C69_combine_library_refuted` |
| C70 | proved | Properties_Memory.v: `C70_index`, `C70_held` |
| C71 | proved | Properties_Progress.v: `C71_no_delay`, `C71_between`, `C71_cut_is_window` |
| C72 | partial | Properties_Unverified.v: `C72_refuted`, `C72_whole_windows_partial`, `C72_standard`, `C72_failing_call`, `C72_one_piece` |
| C73 | partial | Properties_Main.v: `C73_other_files`, `C73_wrong_use`, `C73_inputs_partial`, `C73_same_file_refuted`, `C73_dictionary_refuted` |
| C74 | partial | Properties_AnyOrder.v: `C74_any_order`, `C74_any_settings`, `C74_wrong_order_is_safe`; Properties_Stream.v: `C14_stale_code_table_refuted` |
| C75 | proved | Properties_Stats.v: `C75_same_outcome`, `C75_sizes`, `C75_no_report` |
| C76 | proved | Properties_Template.v: `C76_template`, `C76_checked`, `C76_encoder`; Properties_LongTemplate.v: `C76_checked_long`, `C76_encoder_long` |
| C77 | partial | Properties_Damage.v: `C77_literal_partial`, `C77_encoder_partial`, `C77_data_section`, `C77_refuted`, `C77_other_byte_refuted`; Properties_DamageStream.v: `C77_stream_partial`; Properties_DamageRun.v: `C77_encoder_refuted` |
| C78 | partial | Properties_Arrays.v: `C78_partial`, `C78_outside`, `C78_refuted` |
| C79 | proved | Properties_Agree.v: `C79_no_contradiction` |
| C80 | proved | Properties_Prompt.v: `C80_nothing_held_back`, `C80_no_decoding_outputs_more` |
| C81 | partial | Properties_InTime.v: `C81_in_time_rfc`, `C81_in_time_partial`, `C81_in_time_refuted`, `C81_stalled_forever`, `C81_not_premature`; Properties_LongInTime.v: `C81_not_premature_long` |
| C82 | proved | Properties_Long.v: `C82_well_formed`, `C82_decoder_complete`, `C82_decoder_target`, `C82_round_trip`, `C82_target_high_refuted` |
| C83 | proved | Properties_Edits.v: `C83_edits`, `C83_one_edit`, `C83_crowded_refuted`; Properties_EditsStream.v: `C83_stream` |
