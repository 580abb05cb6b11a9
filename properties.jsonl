{"id": "C01", "title": "Encode/decode round trip", "statement": "If VCDiffEncoder::Encode(target) (any combination of standard, interleaved and checksum format, target matching on or off) produces a delta, then VCDiffDecoder::Decode(dictionary, delta) returns true and yields exactly the target, provided dictionary+target fit the 31-bit address space and the decoder's size limits.", "quantifier": "all dictionaries, all targets, all three binary format flag combinations, both target-matching settings, all decoder limits that admit the target", "why_tests_cant": "The input space (two arbitrary byte strings) is infinite and the encoder's choices depend on hash collisions, cache history and opcode pairing; tests sample a handful of files.", "anchors": ["src/vcencoder.cc: VCDiffEncoder::EncodeToInterface", "src/vcdecoder.cc: VCDiffDecoder::DecodeToInterface", "src/vcdiffengine.cc", "src/encodetable.cc"]}
{"id": "C02", "title": "Streaming encode round trip", "statement": "Splitting a target arbitrarily (including empty pieces) over EncodeChunk calls between StartEncoding and FinishEncoding produces a delta which decodes to the concatenation of the pieces.", "quantifier": "all dictionaries, all lists of chunks (each chunk and the dictionary together below 2^31 bytes, the decoder's limits admitting the target), all binary formats, target matching on/off, all divisions of the delta for the decoder", "why_tests_cant": "Number and sizes of chunks are unbounded; every split is a different delta.", "anchors": ["src/vcencoder.cc: StartEncoding, EncodeChunk, FinishEncoding", "src/encodetable.cc: Output"]}
{"id": "C03", "title": "Encoder output is well-formed VCDIFF", "statement": "Every byte string produced by StartEncoding/EncodeChunk*/FinishEncoding is a well-formed RFC 3284 file (or the documented SDCH 'S' extension of it) that denotes the concatenated target under the RFC's meaning of instructions, so any conforming decoder restores the target.", "quantifier": "all dictionaries, chunk lists (each chunk and the dictionary together below 2^31 bytes), binary formats", "why_tests_cant": "A decoder written by the same authors can share a misreading with the encoder; conformance with an independent meaning has to hold for every output.", "anchors": ["src/encodetable.cc: WriteHeader, EncodeInstruction, Output", "RFC 3284 sections 4, 5"]}
{"id": "C04", "title": "Decoder soundness", "statement": "If StartDecoding, DecodeChunk(delta), FinishDecoding all succeed, then delta is a well-formed VCDIFF file and the bytes output are the target it denotes; the decoder never reports success with other bytes.", "quantifier": "all dictionaries, all byte strings as delta (default code table files), all decoder settings", "why_tests_cant": "Adversarial inputs are unbounded; tests only cover hand-made corruptions.", "anchors": ["src/vcdecoder.cc: DecodeChunk, DecodeWindow, DecodeBody, ReadHeader", "src/headerparser.cc"]}
{"id": "C05", "title": "Decoder completeness", "statement": "Every well-formed VCDIFF file (default code table, no secondary compression) whose windows respect the decoder's size limits is accepted and decoded to the target it denotes, including files no version of this encoder would write.", "quantifier": "all dictionaries, all well-formed deltas within limits", "why_tests_cant": "The set of well-formed deltas is infinite and much larger than the image of the encoder.", "anchors": ["src/vcdecoder.cc", "src/headerparser.cc", "src/decodetable.cc"]}
{"id": "C06", "title": "Splitting the delta does not lose a success", "statement": "If feeding a delta to DecodeChunk in one call succeeds, then feeding the same bytes in any number of pieces cut at any positions also succeeds at every call, outputs the same bytes in total, and FinishDecoding gives the same answer.", "quantifier": "all byte strings, all ways to cut them, all decoder settings", "why_tests_cant": "Exponentially many splits; resumption happens in the middle of varints, instructions, addresses and headers.", "anchors": ["src/vcdecoder.cc: DecodeChunk, UpdateInstructionPointer, UpdateInterleavedSectionPointers", "src/decodetable.h: UpdatePointers, UnGetInstruction"]}
{"id": "C07", "title": "Standard format: result independent of splitting", "statement": "For a delta in the standard (version 0) format, acceptance, rejection and total output of a successful decode do not depend on how the delta is cut into DecodeChunk calls.", "quantifier": "all byte strings whose version byte is 0, all splits", "why_tests_cant": "Needs agreement on all malformed inputs as well as all good ones.", "anchors": ["src/vcdecoder.cc: DecodeChunk, SetUpWindowSections"]}
{"id": "C08", "title": "Interleaved format: result independent of splitting", "statement": "For a delta in the SDCH ('S') format, whether it is accepted does not depend on how the delta is cut into DecodeChunk calls.", "quantifier": "all byte strings with version byte 'S', all splits", "why_tests_cant": "Would need all malformed inputs crossed with all splits. (Expected to be false of the code: excess instruction bytes are only noticed when they are already available.)", "anchors": ["src/vcdecoder.cc: DecodeBody lines 1311-1335", "src/vcdecoder.cc: UpdateInterleavedSectionPointers"]}
{"id": "C09", "title": "No out-of-bounds access while decoding", "statement": "Whatever bytes are passed to DecodeChunk, the decoder reads only inside the dictionary, the chunk data and the target decoded so far, uses no target pointer after the target buffer may have been reallocated, and performs no signed overflow when computing addresses.", "quantifier": "all dictionaries, all byte sequences, all splits", "why_tests_cant": "Memory safety over adversarial inputs; fuzzing only samples.", "anchors": ["src/vcdecoder.cc: DecodeCopy, DecodeAdd, DecodeRun, ReadHeader", "src/addrcache.cc: DecodeAddress", "src/addrcache.h: DecodeNearAddress"]}
{"id": "C10", "title": "Size limits are enforced", "statement": "At any moment the total number of bytes output since StartDecoding does not exceed the maximum target file size, and no window contributes more than the maximum target window size, provided the limits are not changed after StartDecoding.", "quantifier": "all dictionaries, byte sequences, splits and limit settings", "why_tests_cant": "Protects from decompression bombs; must hold for every adversarial input.", "anchors": ["src/vcdecoder.cc: TargetWindowWouldExceedSizeLimits, DecodeBody"]}
{"id": "C11", "title": "Output is append-only and prefix-correct", "statement": "DecodeChunk only ever appends to the output string; when decoding a delta that is accepted in the end, the output after each call is a prefix of the final target.", "quantifier": "all deltas, all splits, all moments", "why_tests_cant": "Quantifies over all intermediate states of all splits.", "anchors": ["src/vcdecoder.cc: AppendNewOutputText, FlushDecodedTarget"]}
{"id": "C12", "title": "Errors are sticky", "statement": "After DecodeChunk returned false, every further DecodeChunk and FinishDecoding returns false and outputs nothing until StartDecoding is called again; calling DecodeChunk or FinishDecoding without StartDecoding fails.", "quantifier": "all call histories", "why_tests_cant": "Unbounded call sequences.", "anchors": ["src/vcdecoder.cc: DecodeChunk, FinishDecoding, Reset, StartDecoding"]}
{"id": "C13", "title": "Truncation is detected", "statement": "If a well-formed delta is cut short anywhere except exactly at the end of the file header or of a window, FinishDecoding returns false; if the cut is at such a boundary it returns true with the target of the complete windows.", "quantifier": "all well-formed deltas with the default code table, or with a custom one and cache sizes other than 254/0; all cut positions", "why_tests_cant": "Every prefix of every delta.", "anchors": ["src/vcdecoder.cc: IsDecodingComplete, FinishDecoding"]}
{"id": "C14", "title": "Decoding does not depend on earlier decodings", "statement": "The result of StartDecoding/DecodeChunk*/FinishDecoding on a decoder object is the same as on a fresh object with the same settings, whatever was decoded (successfully or not) with that object before.", "quantifier": "all histories of previous operations, all dictionaries and deltas", "why_tests_cant": "Unbounded histories. (Expected to be false after a file with a custom code table; true otherwise.)", "anchors": ["src/vcdecoder.cc: Reset, VCDiffDeltaFileWindow::Reset", "src/decodetable.cc: UseCodeTable"]}
{"id": "C15", "title": "VCD_TARGET policy", "statement": "With SetAllowVcdTarget(false) a delta containing a window with the VCD_TARGET flag is rejected; for deltas without such windows the two settings give the same results and the same total output.", "quantifier": "all deltas, dictionaries, splits", "why_tests_cant": "The two settings use different buffering; equality must hold for all inputs.", "anchors": ["src/headerparser.cc: ParseWinIndicatorAndSourceSegment", "src/vcdecoder.cc: FlushDecodedTarget"]}
{"id": "C16", "title": "Checksums are written and verified correctly", "statement": "With VCD_FORMAT_CHECKSUM each non-empty window carries the Adler-32 of its target data; a window with a checksum is accepted only when the checksum of the decoded data equals the stored one.", "quantifier": "all targets, all deltas", "why_tests_cant": "Every window content and every stored value.", "anchors": ["src/checksum.h: ComputeAdler32", "src/vcencoder.cc: EncodeChunk", "src/vcdecoder.cc: DecodeBody"]}
{"id": "C17", "title": "Varint round trip and minimality", "statement": "For every non-negative 32-bit (64-bit) value the encoder's bytes parse back to the value consuming exactly those bytes whatever follows; the encoding is the unique shortest one and its size is what Length() says.", "quantifier": "all values of both integer types, all following data", "why_tests_cant": "2^31 and 2^63 values times all continuations.", "anchors": ["src/varint_bigendian.cc: Parse, EncodeInternal, AppendToString, Length"]}
{"id": "C18", "title": "Varint parser is safe and exact", "statement": "Parse never looks at or past the limit, moves the cursor only on success, returns only values within the type's range, says END_OF_DATA exactly when some continuation could still make a value, and ERROR exactly when none can.", "quantifier": "all byte strings, both integer types", "why_tests_cant": "All inputs, including runs of 0x80 bytes of any length.", "anchors": ["src/varint_bigendian.cc: Parse"]}
{"id": "C19", "title": "Address caches stay synchronised", "statement": "For any sequence of COPY addresses, the modes and encoded addresses produced by EncodeAddress are decoded by DecodeAddress (with the same cache sizes) to the same addresses, regardless of the history, and the two caches remain equal.", "quantifier": "all sequences of addresses with here-values, all legal near/same cache sizes", "why_tests_cant": "Unbounded sequences and states.", "anchors": ["src/addrcache.cc: EncodeAddress, DecodeAddress, UpdateCache"]}
{"id": "C20", "title": "Decoded addresses are always in range", "statement": "DecodeAddress returns only addresses in [0, here_address) or an error/end-of-data code, and on a non-success leaves stream position and cache unchanged, for arbitrary stream contents and cache history.", "quantifier": "all byte streams, modes, histories", "why_tests_cant": "Adversarial inputs.", "anchors": ["src/addrcache.cc: DecodeAddress, IsDecodedAddressValid"]}
{"id": "C21", "title": "Code table and opcode lookup", "statement": "The built-in code table is the default table of RFC 3284 section 5.6, passes Validate, and for every instruction, size and mode the opcode found by the encoder's maps denotes exactly that instruction (alone, or combined with the preceding one).", "quantifier": "all instructions, all sizes 0..2^31-1, all modes 0..8, all preceding opcodes", "why_tests_cant": "Size range times mode range times preceding opcode; and independent statement of the table.", "anchors": ["src/codetable.cc: kDefaultCodeTableData, Validate", "src/instruction_map.cc: LookupFirstOpcode, LookupSecondOpcode"]}
{"id": "C22", "title": "Instruction stream round trip", "statement": "Any sequence of Add/Copy/Run calls written by VCDiffCodeTableWriter is read back by the decoder's instruction reader as the same sequence of instructions with the same sizes, data and addresses, in standard and in interleaved layout.", "quantifier": "all instruction sequences", "why_tests_cant": "Pairs of instructions are merged into one opcode depending on neighbours and sizes; sequences are unbounded.", "anchors": ["src/encodetable.cc: EncodeInstruction, Add, Copy, Run", "src/decodetable.cc: GetNextInstruction"]}
{"id": "C23", "title": "Overlapping COPY means byte-by-byte copy", "statement": "A COPY whose range extends into data not yet produced, or crosses from the source segment into the target, yields what copying one byte at a time would.", "quantifier": "all source segments, partial targets, addresses and sizes", "why_tests_cant": "The implementation copies in doubling blocks; equality must hold for all lengths and offsets.", "anchors": ["src/vcdecoder.cc: DecodeCopy"]}
{"id": "C24", "title": "Rolling hash equals direct hash", "statement": "Starting from the hash of any window, UpdateHash(old first byte, new last byte) gives exactly the hash of the window shifted by one, for any data and any number of steps.", "quantifier": "all data, all window sizes >= 2, all shifts", "why_tests_cant": "All byte strings; modular arithmetic in 32 bits.", "anchors": ["src/rolling_hash.h"]}
{"id": "C25", "title": "Emitted COPYs are genuine and well placed", "statement": "Every COPY the encoder emits refers to data identical to the target bytes it replaces, of at least 32 bytes, lying entirely in the dictionary or starting in the already encoded target; without target matching only the dictionary is used; two ADDs never follow each other.", "quantifier": "all dictionaries and targets", "why_tests_cant": "Depends on hash chains, collisions, extension to left and right for all inputs.", "anchors": ["src/vcdiffengine.cc: EncodeInternal, EncodeCopyForBestMatch", "src/blockhash.cc: FindBestMatch"]}
{"id": "C26", "title": "Bounded expansion", "statement": "The delta for a chunk is never longer than the chunk plus a fixed small overhead, whatever the data.", "quantifier": "all dictionaries, all targets, all formats", "why_tests_cant": "Worst case over all inputs.", "anchors": ["src/vcdiffengine.cc", "src/encodetable.cc: Output"]}
{"id": "C27", "title": "Identical data is fully deduplicated", "statement": "Encoding a target equal to the dictionary (at least 32 bytes) produces exactly one COPY of the whole dictionary, hence a delta of bounded size.", "quantifier": "all dictionaries of at least 32 bytes", "why_tests_cant": "Must hold in spite of hash collisions and repeated blocks.", "anchors": ["src/blockhash.cc: AddBlock, FindBestMatch", "src/vcdiffengine.cc"]}
{"id": "C28", "title": "Encoder call order", "statement": "EncodeChunk and FinishEncoding before StartEncoding (or after FinishEncoding) return false and output nothing; a failed StartEncoding leaves the encoder unstarted.", "quantifier": "all call histories", "why_tests_cant": "Unbounded call sequences.", "anchors": ["src/vcencoder.cc: StartEncoding, EncodeChunk, FinishEncoding"]}
{"id": "C29", "title": "Encoding does not depend on earlier encodings", "statement": "A second encoding with the same encoder object yields the same bytes as a fresh object would (binary formats).", "quantifier": "all histories, all targets", "why_tests_cant": "Unbounded histories. (Expected to be false for the JSON writer.)", "anchors": ["src/vcencoder.cc", "src/encodetable.cc: Init, Output", "src/jsonwriter.cc: Init, Output"]}
{"id": "C30", "title": "JSON output denotes the target", "statement": "For ASCII dictionary and target the JSON produced is a JSON array of strings and offset/length pairs which, read back, reproduces the target; non-ASCII input is refused.", "quantifier": "all ASCII dictionaries and non-empty chunk lists; all non-ASCII inputs", "why_tests_cant": "Escaping must be right for every string.", "anchors": ["src/jsonwriter.cc"]}
{"id": "C31", "title": "Code table validation protects the decoder", "statement": "A custom code table accepted by Validate only contains known instruction types, modes within range and sizes consistent with the type, and can express every instruction; tables failing it are never used.", "quantifier": "all 1536-byte tables, all cache sizes", "why_tests_cant": "256^1536 tables.", "anchors": ["src/codetable.cc: Validate, ValidateOpcode", "src/decodetable.cc: UseCodeTable"]}
{"id": "C32", "title": "Non-VCDIFF input is rejected at the first wrong byte", "statement": "If the bytes received so far are not a prefix of a VCDIFF file header, DecodeChunk returns false no later than on the call which delivers the first wrong magic byte (version byte included), for every split.", "quantifier": "all byte strings, all splits", "why_tests_cant": "All inputs and splits.", "anchors": ["src/vcdecoder.cc: ReadDeltaFileHeader"]}
{"id": "C33", "title": "Inconsistent window lengths are rejected", "statement": "A window whose declared delta-encoding length differs from its header plus section lengths, or which leaves data in any section, or declares a different target size than its instructions produce, is never accepted (standard format).", "quantifier": "all windows", "why_tests_cant": "All inputs.", "anchors": ["src/headerparser.cc: ParseSectionLengths", "src/vcdecoder.cc: DecodeBody"]}
{"id": "C34", "title": "Code table writer windows are independent", "statement": "Following the documented pattern {{Add|Copy|Run}* [AddChecksum] Output}*, each window contains a checksum exactly when AddChecksum was called for that window, and the decoder restores each window.", "quantifier": "all sequences of windows", "why_tests_cant": "Unbounded histories. (Expected to be false: the checksum flag is never cleared.)", "anchors": ["src/google/encodetable.h: AddChecksum", "src/encodetable.cc: Output, Init"]}
{"id": "C35", "title": "Custom code table nesting is bounded", "statement": "The depth of recursive decoders created while decoding is bounded by a constant independent of the input.", "quantifier": "all byte strings", "why_tests_cant": "All inputs. (Expected to be false: each 7 bytes of input can create another nested decoder.)", "anchors": ["src/vcdecoder.cc: InitCustomCodeTable, ReadCustomCodeTable"]}
{"id": "C36", "title": "Limits may be changed at any time", "statement": "SetMaximumTargetFileSize takes effect for the following windows also when called after StartDecoding: no further window may bring the total above the new maximum.", "quantifier": "all histories", "why_tests_cant": "Unbounded histories. (Expected to be false when lowered below what has already been decoded: unsigned wrap.)", "anchors": ["src/vcdecoder.cc: TargetWindowWouldExceedSizeLimits lines 973-982"]}
{"id": "C37", "title": "Every call terminates with bounded work", "statement": "Every DecodeChunk call terminates, executing a number of instructions linear in the bytes available; every EncodeChunk call terminates.", "quantifier": "all inputs", "why_tests_cant": "Non-termination cannot be excluded by testing.", "anchors": ["src/vcdecoder.cc: DecodeBody", "src/decodetable.cc: GetNextInstruction", "src/blockhash.cc: FindBestMatch", "src/vcdiffengine.cc: EncodeInternal"]}
{"id": "C38", "title": "Command line tool handles every file", "statement": "vcdiff encode terminates and the produced delta decodes with vcdiff decode to the target file, for every target file and buffer size.", "quantifier": "all dictionary, target files, buffer sizes", "why_tests_cant": "All file contents. (Expected to be false for an empty target file given by name: the read loop never sees end of file.)", "anchors": ["src/vcdiff_main.cc: Encode, ReadInput, OpenFileForReading"]}
{"id": "C39", "title": "Block hash index is complete and ordered", "statement": "After indexing, the chain of candidate blocks for a hash value contains exactly the indexed blocks whose hash falls in the same bucket, each once, in increasing position order, so lookups terminate and no indexed block is lost.", "quantifier": "all source data, all sequences of AddOneIndexHash/AddAllBlocks calls", "why_tests_cant": "Depends on all collision patterns.", "anchors": ["src/blockhash.cc: AddBlock, AddAllBlocksThroughIndex, FirstMatchingBlock, NextMatchingBlock"]}
{"id": "C40", "title": "Adler-32 implementation is exact", "statement": "The blocked, deferred-modulo Adler-32 code never overflows its 32-bit sums and computes the mathematical Adler-32 sums for every buffer; computing it over pieces gives the checksum of the whole.", "quantifier": "all buffers of any length, all starting values", "why_tests_cant": "Overflow depends on worst-case runs of 5552 bytes; all inputs.", "anchors": ["src/zlib/adler32.c: adler32", "src/checksum.h"]}
{"id": "C41", "title": "vcdiff test compares exactly", "statement": "The test command, which encodes the target file and decodes the result again, succeeds for every non-empty target file; its comparison reports success exactly if the decoded data is the target file byte for byte and of the same length.", "quantifier": "all dictionaries, target files, buffer sizes, and all sequences of decoded pieces", "why_tests_cant": "The comparison goes through two buffers of different sizes; all positions of a difference and all piece boundaries.", "anchors": ["src/vcdiff_main.cc: DecodeAndCompare, CompareOutput"]}
{"id": "C42", "title": "vcdiff decode does not report success wrongly", "statement": "vcdiff decode terminates, and if its exit status is 0 then the file it has written is what the delta file denotes; output written before a failure is reported by the exit status.", "quantifier": "all dictionary files, delta files (valid or not), buffer sizes and limits", "why_tests_cant": "All delta files including corrupt ones.", "anchors": ["src/vcdiff_main.cc: Decode, WriteOutput, main"]}
{"id": "C43", "title": "Long repetitions are found", "statement": "Data the encoder transmits as new (ADD) never contains 32 or more bytes that also occur in the dictionary (or, with target matching, earlier in the target) if these contain a whole 16-byte block of that buffer, counted from its start, whose hash slot is shared by at most 16 earlier blocks. In particular with a dictionary below 288 bytes no new data contains 47 bytes of the dictionary.", "quantifier": "all dictionaries and targets (together below 2^31 bytes), with and without target matching", "why_tests_cant": "Depends on all alignments, rolling hash states, hash collisions and cut-offs of the search (probe and match limits).", "anchors": ["src/vcdiffengine.cc: EncodeInternal, EncodeCopyForBestMatch", "src/blockhash.cc: FindBestMatch, SkipNonMatchingBlocks, AddBlock, MatchingBytesToLeft, MatchingBytesToRight", "src/rolling_hash.h: UpdateHash"]}
{"id": "C44", "title": "Compact encoding", "statement": "Every COPY address is written in the fewest bytes that any mode of the address cache allows at that point, and for the instructions of a window (with the modes chosen) no sequence of opcodes and sizes of the default code table is shorter than the instruction section written: pairing instructions greedily, replacing only the previous opcode, is optimal.", "quantifier": "all address histories and addresses below 2^31; all sequences of Add, Copy, Run calls with sizes of at least 1, in the standard format", "why_tests_cant": "Optimality is a statement about all other encodings of the same instructions; tests compare with single expected outputs.", "anchors": ["src/addrcache.cc: EncodeAddress", "src/encodetable.cc: EncodeInstruction, Add, Run, Copy", "src/instruction_map.cc: LookupFirstOpcode, LookupSecondOpcode"]}
{"id": "C45", "title": "Encoding takes linear time", "statement": "Preparing a dictionary takes work proportional to its size, and encoding a chunk takes work proportional to the size of the chunk, whatever the contents: no choice of dictionary and target (repetitions, hash collisions) makes the search for matches quadratic.", "quantifier": "all dictionaries and chunks (together below 2^31 bytes), after any sequence of calls on the encoder, with and without target matching", "why_tests_cant": "Tests can only time particular inputs; an adversarial input needs an amortised argument over all positions, matches and hash chains.", "anchors": ["src/vcdiffengine.cc: EncodeInternal, EncodeCopyForBestMatch", "src/blockhash.cc: FindBestMatch, SkipNonMatchingBlocks, MatchingBytesToLeft, MatchingBytesToRight, AddAllBlocksThroughIndex, Init", "src/blockhash.h: kMaxMatchesToCheck, kMaxProbes"]}
{"id": "C46", "title": "Streaming without delay", "statement": "If the sender passes on what each call of StartEncoding and EncodeChunk appends, and the receiver gives each such packet to DecodeChunk, then after packet k the receiver has output exactly the first k chunks and could stop there: no data is held back until a later packet or FinishEncoding.", "quantifier": "all dictionaries, lists of chunks (within the size limits), binary formats, decoders with any plain history", "why_tests_cant": "Tests check the total output of a few chunkings; the claim concerns every prefix of every sequence of calls.", "anchors": ["src/google/vcencoder.h: VCDiffStreamingEncoder", "src/vcencoder.cc: EncodeChunk", "src/vcdecoder.cc: DecodeChunk, AppendNewOutputText"]}
{"id": "C47", "title": "Memory kept by the decoder is bounded by the limits", "statement": "Between calls the decoder keeps of the decoded target at most the maximum target file size, and with SetAllowVcdTarget(false) nothing prior to the current window (at most the maximum target window size); of the input it keeps no more than the limits justify.", "quantifier": "all decoder settings and histories, all inputs in all splittings", "why_tests_cant": "Tests look at outputs, not at what is retained; a bound needs an invariant over all states and inputs.", "anchors": ["src/google/vcdecoder.h: SetAllowVcdTarget", "src/vcdecoder.cc: FlushDecodedTarget, DecodeChunk, unparsed_bytes_"]}
{"id": "C48", "title": "Calls without data are harmless", "statement": "DecodeChunk or EncodeChunk with an empty chunk, at any point of a session, returns true, appends nothing and has no influence on the results of later calls.", "quantifier": "all sessions and positions, all formats, also while a header, a window or a code table is incomplete", "why_tests_cant": "Tests insert an empty chunk at a few points; the decoder re-parses what it has kept on every such call, in every possible state.", "anchors": ["src/vcdecoder.cc: DecodeChunk", "src/vcencoder.cc: EncodeChunk", "src/vcdiffengine.cc: Encode"]}
{"id": "C49", "title": "Checksums detect small errors, also those due to a wrong dictionary", "statement": "The checksum of two strings of equal length differs whenever they differ in exactly one byte, or in exactly two bytes less than 65521 apart. A delta written with VCD_FORMAT_CHECKSUM and decoded with any other dictionary is therefore rejected unless, chunk by chunk, the output has the right length and the right checksum and differs from the chunk in no such way. The length of the output never depends on the dictionary.", "quantifier": "all pairs of strings; all dictionaries, targets, chunkings, decoder settings and splittings of the delta", "why_tests_cant": "Tests corrupt a few bytes of a few deltas; that no small error whatsoever collides is arithmetic modulo a prime over all strings and positions.", "anchors": ["src/zlib/adler32.c: adler32", "src/checksum.h: ComputeAdler32", "src/vcdecoder.cc: DecodeWindow", "src/vcencoder.cc: EncodeChunk"]}
{"id": "C50", "title": "COPYs are maximal", "statement": "No COPY that the encoder chooses could be one byte longer at its end, nor begin one byte earlier if an ADD precedes it; and it is the longest match available where it was found: no match of an easily found block at that position (in the dictionary or, with target matching, in the preceding target) is longer.", "quantifier": "all dictionaries and targets (together below 2^31 bytes), with and without target matching, every COPY of the result", "why_tests_cant": "Tests compare the instructions for a few inputs; that no emitted COPY can be improved concerns every pair of buffers and every position.", "anchors": ["src/blockhash.cc: FindBestMatch, MatchingBytesToLeft, MatchingBytesToRight, ReplaceIfBetterMatch", "src/vcdiffengine.cc: EncodeCopyForBestMatch"]}
{"id": "C51", "title": "Repetitive data takes constant space", "statement": "With target matching, a target that consists of one byte repeated any number of times is encoded in at most 100 bytes with any dictionary; a target that repeats with a period of at most 32 bytes is encoded in at most 121 bytes with a dictionary of less than 32 bytes.", "quantifier": "all lengths (below 2^31), all bytes and periods, all dictionaries, all binary formats", "why_tests_cant": "Tests encode one repetitive input; a constant bound for every length and every dictionary (which may distract the search) is an inductive statement.", "anchors": ["src/vcdiffengine.cc: EncodeInternal, EncodeCopyForBestMatch", "src/blockhash.cc: FindBestMatch, AddOneIndexHash, AddAllBlocksThroughIndex", "src/encodetable.cc: Copy"]}
{"id": "C52", "title": "The output string is resized at most once per window", "statement": "However a delta is divided among DecodeChunk calls, the calls on output_string append exactly the target, and a string (of any initial size and capacity, growing by any policy, whose reserve does not shrink it) is resized at most once for each window of the delta file; before the end of the data, or when a call has returned false, at most once for each complete window and once for the window in progress.", "quantifier": "all decoder settings and histories without custom code table, all deltas (accepted, unfinished or rejected), all splits, all initial sizes and capacities, all growth policies", "why_tests_cant": "The guarantee quantifies over all splits of all deltas and over what the string type does when it grows; a test observes one std::string.", "anchors": ["src/google/vcdecoder.h:78-80", "src/vcdecoder.cc: AppendNewOutputText, FlushDecodedTarget, TargetBytesRemaining", "src/google/output_string.h: ReserveAdditionalBytes"]}
{"id": "C53", "title": "The limits are set as documented", "statement": "SetMaximumTargetFileSize and SetMaximumTargetWindowSize return true and set the limit for arguments up to INT32_MAX, and otherwise return false and leave the limit unchanged; after a limit was set no accepted delta has a longer target (window), and with limit 0 only empty targets are decoded.", "quantifier": "all decoder settings and histories without custom code table, all size_t arguments, all deltas and splits", "why_tests_cant": "Effect of every argument on every delta.", "anchors": ["src/google/vcdecoder.h:92-116", "src/vcdecoder.cc: SetMaximumTargetFileSize, SetMaximumTargetWindowSize, TargetWindowWouldExceedSizeLimits"]}
{"id": "C54", "title": "Larger limits and a longer dictionary keep the result", "statement": "A delta that is accepted is also accepted, with the same target, by a decoder with larger limits, with VCD_TARGET allowed where it was not, and with a dictionary to which bytes were appended; so deltas remain decodable when the dictionary grows at its end.", "quantifier": "all decoder settings and histories without custom code table, all dictionaries and appended bytes, all deltas and splits", "why_tests_cant": "A statement about pairs of runs over all deltas and dictionaries; the addresses of COPYs are counted from the end of the dictionary part of the source segment, so it is not obvious.", "anchors": ["src/vcdecoder.cc: SetUpWindow/ParseWindowSegmentLengths, TargetWindowWouldExceedSizeLimits, SetAllowVcdTarget", "src/headerparser.cc: ParseWinIndicatorAndSourceSegment"]}
{"id": "C55", "title": "Windows are independent of one another", "statement": "The bytes EncodeChunk appends depend on the dictionary, the flags and the chunk, not on the chunks or calls before it; a delta is its header followed by the windows of its chunks, so the second of two deltas without its header can be appended to the first.", "quantifier": "all dictionaries, binary formats, histories of calls, sequences of chunks", "why_tests_cant": "State left in the address cache, hash tables, sections or last-opcode index by some history would only show in particular sequences of chunks.", "anchors": ["src/encodetable.cc: Init, Output", "src/vcdiffengine.cc: Encode", "src/vcencoder.cc: EncodeChunk, StartEncoding"]}
{"id": "C56", "title": "Exit status 0 means the output was written", "statement": "When reading fails at any point or the device refuses data, the tool's exit status is not 0 unless the complete output is on the device; in every case what is on the device is a beginning of the output; 'vcdiff test' returns 0 only if the delta on the device decodes to the target.", "quantifier": "all behaviours of the C library's buffering and of the device, all read errors, all files, flags and buffer sizes", "why_tests_cant": "I/O errors at every position of every file cannot be injected by tests; the repository's test script has none.", "anchors": ["src/vcdiff_main.cc: WriteOutput, ReadInput, ~VCDiffFileBasedCoder, Encode, Decode, DecodeAndCompare"]}
{"id": "C57", "title": "The same result on every platform", "statement": "Decoder and encoder compute the same whatever the width of size_t and unsigned long (ILP32, LLP64, LP64), the byte order and VCDIFF_USE_BLOCK_COMPARE_WORDS: any sequence of calls returns the same values and appends the same bytes, so a delta made by one build is decoded by any other. Conditions: for the decoder, that the limit for the target size is not lowered between StartDecoding and FinishDecoding; for the encoder, that dictionary and window together have less than 2^31 bytes.", "quantifier": "all data models, byte orders and ways of comparing blocks, all sequences of public calls, all dictionaries, targets and deltas (also malformed ones)", "why_tests_cant": "Tests run on one platform; overflow of size_t with 32 bits needs section lengths near 2^31 in hostile headers.", "anchors": ["src/headerparser.cc:24-32 SumWouldOverflow2, SumWouldOverflow4", "src/vcdecoder.cc: TargetWindowWouldExceedSizeLimits, CopyBytes, DecodeCopy, SetUpWindowSections", "src/blockhash.cc:26,108-150,242-301", "src/encodetable.cc: Add, Copy, CalculateLengthOfTheDeltaEncoding"]}
{"id": "C58", "title": "The output has the layout that was asked for", "statement": "StartEncoding writes the five bytes D6 C3 C4 v 0, v being 'S' exactly when the interleaved format or checksums are asked for. Every non-empty chunk becomes one window whose source segment is the whole dictionary at position 0, whose integers are written in their shortest form, whose announced length is the number of bytes that follow, which carries a checksum exactly when asked, and whose data and address sections are empty exactly when the interleaved format was asked for. Encode writes one header and at most one window.", "quantifier": "all dictionaries, binary formats, histories of calls, chunks", "why_tests_cant": "A decoder accepts either layout, so round trip tests do not notice a wrong one; applications use the interleaved format to decode while data arrives and the standard one for other decoders.", "anchors": ["src/encodetable.cc: Output, WriteHeader, CalculateLengthOfTheDeltaEncoding", "src/vcencoder.cc: CreateWriter, StartEncoding, EncodeChunk"]}
{"id": "C59", "title": "No input ends the program in a debug build", "statement": "In a build without NDEBUG VCD_DFATAL calls exit(1). However the decoder is fed, as long as its functions are called in the documented order none of these places in the decoder is reached: malformed deltas are rejected, they do not end the program. Where one is reached, a release build rejects the delta.", "quantifier": "all sequences of calls in the documented order, all dictionaries, all deltas (also malformed ones) and splits, all settings", "why_tests_cant": "The places guard against states that are thought to be impossible, or against hostile headers; tests show single inputs.", "anchors": ["src/logging.h:26-46", "src/vcdecoder.cc: all VCD_DFATAL", "src/headerparser.cc:40-76", "src/decodetable.h:108-122", "src/addrcache.cc:265-317"]}
{"id": "C60", "title": "Encoding never ends the program in a debug build", "statement": "In a build without NDEBUG VCD_DFATAL calls exit(1). Whatever the dictionary, the flags, the order of the calls on an encoder and the data passed, none of these places in the encoder, the engine, the block hash, the address cache or the code table writer is reached.", "quantifier": "all dictionaries, flags, sequences of calls and data; for the writer alone, all code tables it accepts and all sequences of Add, Copy and Run", "why_tests_cant": "The places guard internal invariants (chains of blocks, order of indexing, announced length of a window) over all data and histories; tests show single inputs, and none near 2^31 bytes.", "anchors": ["src/logging.h:26-46", "src/blockhash.cc: all VCD_DFATAL", "src/vcdiffengine.cc:46,53,138,160", "src/encodetable.cc:175,228,245,361,382", "src/addrcache.cc:145,151", "src/varint_bigendian.cc:63,111", "src/vcencoder.cc:122"]}
{"id": "C61", "title": "The encoder makes the output string grow at most once per call", "statement": "During one call of StartEncoding, EncodeChunk or FinishEncoding the output string is resized at most once, and not at all when the call outputs nothing: the space for a window is reserved before its parts are appended, and what is reserved is exactly what is appended, neither less (a second resize) nor more (memory wasted). Over a whole session the string is resized at most as often as calls output something.", "quantifier": "all encoders in all states, formats, data and sequences of calls; all strings, whatever their size, capacity and growth policy", "why_tests_cant": "Tests look at the bytes, not at the number of reallocations; the reservation is computed from lengths that are written in a variable number of bytes, so a wrong one only shows at certain sizes.", "anchors": ["src/encodetable.cc:288-358 CalculateLengthOfTheDeltaEncoding, Output", "src/google/output_string.h:70-105", "src/jsonwriter.cc:36-46", "src/vcencoder.cc:119-164"]}
{"id": "C62", "title": "A code table that Validate accepts can be used for encoding", "statement": "For every custom code table which VCDiffCodeTableData::Validate accepts for the writer's modes, making the instruction map of the code table writer accesses only memory inside the arrays that it allocates.", "quantifier": "all code tables (six arrays of 256 bytes), all maximum modes", "why_tests_cant": "There are 2^12288 tables; the tests use two. The array bounds come from maxima over one half of the table and are used with indices from the other half.", "anchors": ["src/instruction_map.cc:36-194", "src/instruction_map.h:91-153", "src/codetable.cc:187-272", "src/encodetable.cc:67-120"]}
{"id": "C63", "title": "An encoder with its own code table writes deltas that decode to the target", "statement": "A VCDiffStreamingEncoder that is given a VCDiffCodeTableWriter constructed with a custom code table and cache sizes writes a delta which the library's decoder, given the same dictionary, decodes to the target.", "quantifier": "all code tables Validate accepts, all cache sizes, both layouts, flags, dictionaries, targets, chunks and ways to deliver the delta", "why_tests_cant": "No test runs the encoder with a custom table; the decoder tests contain one hand-written file with one table. The space of tables and cache sizes is astronomical.", "anchors": ["src/google/vcencoder.h:159-164", "src/google/encodetable.h:58-73", "src/encodetable.cc:67-136", "src/vcdecoder.cc:746-848"]}
{"id": "C64", "title": "The encoder writes the shortest window for the instructions it has chosen", "statement": "For every chunk, no window with the same instructions, the same layout (interleaved or not), the same source segment and the same use of a checksum is shorter than the one EncodeChunk writes: the address modes, the opcodes for one or two instructions and all the integers are chosen best possible together, not only one by one.", "quantifier": "all dictionaries, flags, histories of calls and chunks; all other encodings of the instructions: every choice of modes, opcodes and integers, also with leading zeros", "why_tests_cant": "A delta that is longer than necessary decodes to the same target, so no round trip test notices; the number of alternatives grows exponentially with the number of instructions.", "anchors": ["src/encodetable.cc:139-285, 307-385", "src/addrcache.cc:141-197 EncodeAddress", "src/instruction_map.cc: LookupFirstOpcode, LookupSecondOpcode"]}
{"id": "C65", "title": "A code table writer of the caller is called as its interface promises", "statement": "With the constructor that takes a CodeTableWriterInterface, each StartEncoding calls Init with the size of the dictionary, VerifyDictionary with the dictionary and WriteHeader with the flags; each EncodeChunk calls VerifyChunk with the chunk, AddChecksum with the checksum of the chunk if the flag is set, then Add and Copy with instructions that carried out in order produce the chunk from the dictionary, then Output once (nothing after AddChecksum for an empty chunk); FinishEncoding calls FinishEncoding. Nothing is called after a reply false, and the encoder returns what the replies say. So Add, Copy and Run calls always follow the pattern ((Add|Copy|Run)* Output)*.", "quantifier": "all writers (any state, any replies, any output), dictionaries, flags, sequences of calls and data", "why_tests_cant": "A mock sees the calls for single inputs; the claim is about what every possible implementation may rely on, in every state.", "anchors": ["src/google/codetablewriter_interface.h:33-90", "src/vcencoder.cc:108-164", "src/vcdiffengine.cc:88-228", "src/google/vcencoder.h:97-164"]}
{"id": "C66", "title": "After a failed StartEncoding nothing is encoded", "statement": "vcencoder.h: EncodeChunk and FinishEncoding return false if StartEncoding was not called earlier or returned false. This holds whatever the code table writer is and whatever was called before.", "quantifier": "all writers, dictionaries, flags and sequences of calls", "why_tests_cant": "The flag encode_chunk_allowed_ survives a StartEncoding that fails; only a writer that refuses at a later Init shows it.", "anchors": ["src/vcencoder.cc:119-164", "src/google/vcencoder.h:151-203"]}
{"id": "C67", "title": "The decoder keeps only the input that it could not use yet", "statement": "After any successful DecodeChunk calls, what the decoder keeps of the input is a suffix of it: all of it while the five bytes of the file header are incomplete, and in the standard format (without a code table in the header) exactly the bytes after the last complete window, everything before having been decoded and output.", "quantifier": "all dictionaries, inputs, ways of cutting them into chunks, settings", "why_tests_cant": "Internal state after every split of every input; a test sees the outcome of some splits.", "anchors": ["src/vcdecoder.cc:862-926", "src/vcdecoder.cc:1085-1167", "src/google/vcdecoder.h:60-110"]}
{"id": "C68", "title": "Decoding in pieces takes work linear in the delta and the target", "statement": "The number of bytes that DecodeChunk copies to keep unparsed input, summed over the calls, is at most a constant times the sizes of the delta and the target, whatever the sizes of the pieces.", "quantifier": "all deltas and ways of cutting them", "why_tests_cant": "A statement about growth over all sizes; a test measures some sizes.", "anchors": ["src/vcdecoder.cc:862-926", "src/google/vcdecoder.h:60-110"]}
{"id": "C69", "title": "Checksums of pieces give the checksum of the whole", "statement": "UpdateAdler32 applied to one piece after another gives the checksum of the concatenation, for all pieces; adler32_combine gives it from the checksums of two parts and the length of the second, as zlib.h says (for checksums that start from 1; those of checksum.h start from 0 and do not combine); all checksums lie in the range of adler32_range.", "quantifier": "all byte strings and ways of cutting them, all start values", "why_tests_cant": "The sums are deferred modulo 65521 in blocks of 5552 bytes with four code paths by length; no set of test strings shows that nothing wraps.", "anchors": ["src/zlib/adler32.c:88-190", "src/checksum.h:33-45", "src/zlib/zlib.h:1262-1299"]}
{"id": "C70", "title": "The memory of a streaming encoder does not grow with what it encodes", "statement": "After any sequence of calls a VCDiffStreamingEncoder holds no more than about 3.5 times the size of its dictionary and 3 KB: the dictionary, its index (a hash table of the least power of two above n/4 entries and two tables with one entry per 16 bytes), the address cache, and no bytes of a window. The index made for a chunk when target matching is on has the same bound in the size of the chunk.", "quantifier": "all dictionaries, flags, sequences of calls and data", "why_tests_cant": "Tests do not measure memory, and only over short sequences.", "anchors": ["src/blockhash.cc:55-150", "src/encodetable.cc:307-386", "src/vcencoder.cc:108-164", "src/jsonwriter.cc:30-46"]}
{"id": "C71", "title": "The interleaved format is decoded as it comes in", "statement": "When a decoder has been given a valid delta of the interleaved format up to an opcode inside a window, in any pieces, it has already output everything that the instructions before that opcode yield, although it has not seen the rest of the window nor its checksum, and it keeps no input. In between it has output at least what the instructions before the last opcode and at most what those before the next one yield.", "quantifier": "all dictionaries, valid deltas, places between two opcodes, and divisions of the input", "why_tests_cant": "Tests compare the output at the end; the state after every prefix of every delta under every division cannot be enumerated.", "anchors": ["src/vcdecoder.cc:1233-1337", "src/vcdecoder.cc:1339-1400", "src/vcdecoder.cc:865-930"]}
{"id": "C72", "title": "Nothing is output before it has been verified", "statement": "At any time, also after a call has failed, what a decoder has output is the target data of complete windows of the delta, whose checksums, where there are any, have been verified. In particular a call that fails outputs nothing, and a damaged delta given in one piece yields nothing.", "quantifier": "all dictionaries, inputs valid or not, and divisions of the input into calls", "why_tests_cant": "Damage can be anywhere and the calls cut anywhere; a test looks at the output of some failures.", "anchors": ["src/vcdecoder.cc:837-930", "src/vcdecoder.cc:1339-1400", "src/google/vcdecoder.h:60-110"]}
{"id": "C73", "title": "The tool changes nothing but its output file", "statement": "A run of vcdiff, successful or not, leaves every file as it was except the one it writes: the delta for encode, delta and test, the target for decode and patch. In particular the dictionary and the input are left as they were. With a wrong command line, or a dictionary or input that does not exist, nothing changes at all, not even the output file, and the status is 1.", "quantifier": "all arguments, flags and contents of the file system", "why_tests_cant": "Names can coincide and errors occur at every step; a test looks at the files it knows of, under distinct names.", "anchors": ["src/vcdiff_main.cc:590-663", "src/vcdiff_main.cc:222-310", "src/vcdiff_main.cc:370-588"]}
{"id": "C74", "title": "Decoder calls in any order", "statement": "Whatever sequence of calls is made of a streaming decoder, each behaves as in its own session on a new decoder with the same settings: DecodeChunk and FinishDecoding fail without output while no session is open, StartDecoding and SetAllowVcdTarget are ignored while one is, a session ends with FinishDecoding or with the first DecodeChunk that fails, limits hold from when they are set. No order of calls leads to undefined behaviour.", "quantifier": "all sequences of calls of the six methods with any arguments", "why_tests_cant": "There are infinitely many sequences of calls; what a wrong call leaves behind shows only in a later session.", "anchors": ["src/vcdecoder.cc:634-664", "src/vcdecoder.cc:880-944", "src/vcdecoder.cc:378-392", "src/vcdecoder.cc:481-488", "src/google/vcdecoder.h:53-160"]}
{"id": "C75", "title": "--stats reports the true sizes", "statement": "With --stats the tool does what it does without, and after a successful command reports exactly the size of the file it read and of the file it wrote (the target as original or decompressed size, the delta as compressed size), twice for vcdiff test; it reports nothing for an empty target and when encoding or decoding failed.", "quantifier": "all files, dictionaries, flags, buffer sizes; input and output different files, sizes that fit size_t", "why_tests_cant": "The sizes are added up over reads and writes whose number and lengths depend on the buffer size and on the data; a chunk that is counted twice or not at all shows only for some of them.", "anchors": ["src/vcdiff_main.cc:370-448", "src/vcdiff_main.cc:450-512", "src/vcdiff_main.cc:514-586", "src/vcdiff_main.cc:590-663"]}
{"id": "C76", "title": "The content of the dictionary only fills in the copied bytes", "statement": "What a delta does - accepted, refused, how many bytes are delivered - depends on the length of the dictionary and not on its content, checksums apart: every delivered byte is either given by the delta or is the byte at a fixed position of the dictionary. In particular a delta written without checksums is accepted with every dictionary of the right length, and a wrong one goes unnoticed; with checksums it is accepted whenever the sums of the windows agree.", "quantifier": "all byte sequences as deltas, in any pieces; all dictionaries of the same length; all deltas written by the encoder, all formats", "why_tests_cant": "A test uses a few dictionaries; that no decision of the decoder looks at the content of any dictionary (and that the encoder leaves nothing in the delta that would) is a statement about all pairs of them.", "anchors": ["src/vcdecoder.cc:1147-1230", "src/vcdecoder.cc:1233-1337", "src/vcdecoder.cc:1339-1390", "src/headerparser.cc:178-258", "src/encodetable.cc:307-370"]}
{"id": "C77", "title": "A damaged literal byte of a delta with checksums does not go unnoticed", "statement": "If one byte of the data section (the bytes that ADD and RUN write) of a window that has a checksum is changed, the decoder refuses the delta or still yields the same target; it never yields another one.", "quantifier": "all dictionaries, deltas, positions and changed bytes, all divisions into pieces and decoder settings", "why_tests_cant": "Whether two targets have the same Adler-32 depends on all of their bytes: a changed literal can be copied thousands of times within the window, and tests change a few bytes of a few deltas.", "anchors": ["src/headerparser.cc:178-258", "src/vcdecoder.cc:1147-1230", "src/vcdecoder.cc:1339-1390", "src/checksum.h:28-40"]}
{"id": "C78", "title": "The code table writer stays inside its arrays whatever is called", "statement": "Once Init has returned true, no sequence of calls of a VCDiffCodeTableWriter (Add, Copy with any address, Run, AddChecksum, Output, Init again) reads or writes outside the instruction maps, the address cache or the sections, for any code table, cache sizes and max_mode that the constructor accepts.", "quantifier": "all code tables, cache sizes, max_mode, all sequences of calls with all arguments", "why_tests_cant": "The row of the map depends on the mode that the address cache chose, which depends on all earlier addresses; a wrong row is read silently, and the constructor compares neither max_mode with the cache sizes nor the code table with either.", "anchors": ["src/encodetable.cc:68-120", "src/encodetable.cc:154-272", "src/instruction_map.cc:27-34", "src/instruction_map.h:91-153", "src/addrcache.cc:105-197"]}
{"id": "C79", "title": "Decodings of one delta do not contradict each other", "statement": "When a delta, or any beginning of it, is decoded twice with the same dictionary, the two outputs agree as far as they go: one is a beginning of the other. This holds for any division into chunks, any limits for the sizes, VCD_TARGET allowed or not, and also when one or both of the decodings fail.", "quantifier": "all deltas and dictionaries, all pairs of beginnings of the delta, all divisions into chunks, all settings, successful and failing decodings", "why_tests_cant": "Tests compare a decoding with the expected target of a valid delta; that the part output from a damaged delta does not depend on how the bytes arrived concerns all damaged deltas and all divisions.", "anchors": ["src/vcdecoder.cc:850-930", "src/vcdecoder.cc:1074-1130", "src/vcdecoder.cc:1131-1391"]}
{"id": "C80", "title": "Streaming decoding holds nothing back", "statement": "As long as no call has failed, the output of a streaming decoding is all that the bytes received so far determine: the target data of every complete window and, in the interleaved format, of every complete instruction of the next window, whatever the chunks were. No other division into chunks and no other settings can produce more output from the same bytes.", "quantifier": "all dictionaries, all byte strings, all divisions into chunks, all settings, all code tables in the delta", "why_tests_cant": "Output that is late instead of wrong is not noticed when the result is compared at the end, and it depends on where the chunk boundaries fall within opcodes, sizes, addresses and code tables.", "anchors": ["src/vcdecoder.cc:1074-1130", "src/vcdecoder.cc:1131-1391", "src/decodetable.cc:58-119", "src/addrcache.cc:250-320"]}
{"id": "C81", "title": "Errors are reported in time, and not too early", "statement": "An invalid window is rejected no later than by the call that delivers its last byte (the end of the sections whose lengths its header declares), whatever the chunks: as long as no call has failed, every window that is complete in the bytes received is valid, within the limits for the sizes, and uses VCD_TARGET only if allowed. And no call fails as long as some continuation would make the bytes received a well-formed delta within the limits.", "quantifier": "all dictionaries, all byte strings, all divisions into chunks, all settings, all code tables in the delta, all continuations", "why_tests_cant": "Tests of invalid deltas check that some call or FinishDecoding fails; which call it is, for every defect and every division into chunks, and that a waiting decoder can still be satisfied, is a statement about all continuations.", "anchors": ["src/vcdecoder.cc:1074-1130", "src/vcdecoder.cc:1233-1337", "src/vcdecoder.cc:1339-1391", "src/vcdecoder.cc:137-145"]}
{"id": "C82", "title": "Streams longer than 2 GB", "statement": "The streaming interfaces have no limit on the length of a stream: although lengths are 32-bit ints in the code, it is only each chunk (with the dictionary) that must stay below 2^31 bytes. A stream of any total length is encoded as a well-formed file, and a decoder whose limit for the target file admits it restores it, in whatever pieces the delta is given to it. The decoder does so for any file whose windows are each below 2^31 bytes, if windows with VCD_TARGET refer only to the first 2^31 bytes of the target.", "quantifier": "all dictionaries, all lists of chunks each below 2^31 bytes, all binary formats, target matching on/off, all decoder settings admitting the target, all divisions of the delta; all files, with a VCD_TARGET segment only below 2^31", "why_tests_cant": "A test would have to process more than 2 GB, and an overflow of a counter depends on the sum of all windows before.", "anchors": ["src/vcencoder.cc:119-160", "src/vcdecoder.cc:946-976", "src/vcdecoder.cc:1074-1130", "src/vcdecoder.cc:1339-1391", "src/headerparser.cc:168-284"]}
{"id": "C83", "title": "The delta is as long as what is new", "statement": "If a target consists of n parts, each taken from the dictionary or new, the delta is at most as long as the new data, plus a constant (109 bytes) for each part and 58 bytes: moving, deleting or replacing passages of a text costs a constant each, however long the passages are. This holds for every dictionary in which no 16 bytes occur twice and no slot of the index is crowded (and with target matching, if no 16 bytes occur twice in the target). A stream costs 53 bytes more for each chunk.", "quantifier": "all dictionaries without repetitions of 16 bytes and without crowded slots, all ways to put a target together from parts of it and new data, all binary formats, target matching on/off", "why_tests_cant": "Tests measure the size of a few deltas; the bound is about every number, length and order of the parts, which can have any alignment to the blocks of the index.", "anchors": ["src/vcdiffengine.cc:75-216", "src/blockhash.cc:303-446", "src/blockhash.h:300-330", "src/encodetable.cc:171-272"]}
