# Formal model of h265nal in Rocq (Coq 8.16.1)

## 1. What is modelled, and how

The library is sequential C++ that turns byte buffers into structs.  Each C++ function becomes one
total Gallina function (`theories/M*.v`), with a comment citing file and lines.

* **Bit reader.** `bb` = bytes, `byte_count_`, `byte_offset_`, `bit_offset_` exactly as
  `BitBuffer` keeps them (`MBitBuffer.v`).  PeekBits/ReadBits/ReadExponentialGolomb/... are
  transcribed statement by statement over machine words (`Z` with explicit `mod 2^32`, masks, shifts).
* **Outcome type.** `Ok a bb | Fail bb | Err e`.  `Fail` is `return nullptr/false` and keeps
  the buffer position (callers go on after a failed sub-parser).  `Err` is undefined behaviour or
  abort: failed assertion, out-of-bounds access, bad shift, conversion of a float out of range, signed overflow, null dereference, out of fuel.
* **Parsers.** State-and-failure monad over `bb`.  A C++ struct filled field by field becomes a
  record built at the end; fields not read keep the C++ initial value.
* **Loops.** `for` loops use `for_N` (binary recursion on the count, so a count of 2^32 is
  cheap to evaluate); no fuel.  `while` loops that are not counted use fuel computed from the
  remaining bits, and the out-of-fuel outcome is an `Err` that the safety theorems exclude.
* **Parser state.** Finite maps for VPS/SPS/PPS as association functions keyed by id.
* **Signed arithmetic.** int32 expressions check their range and give `Err SignedOverflow`.

### Specification side (independent of the model)
* `Spec.v`: bits of bytes, big-endian value, Exp-Golomb codewords, emulation prevention,
  Annex-B/length framing, ones'-complement sum, written from the H.265 text.
* `Syntax*.v`: for each syntax structure an *encoder* `enc_X : X -> list bool`, a transcription of the
  standard's syntax table, plus a validity predicate.  The main functional theorems say
  "the parser accepts exactly the encodings of valid structures and returns the structure".

### Judgements used in the proofs
* `parses m bs v`: from any buffer whose remaining bits start with `bs`, `m` returns `v` having
  consumed exactly `bs` (completeness/round trip).
* `wp E m Q`: on any well-formed buffer `m` either fails, or returns `a` after consuming `bs` with
  `Q a bs`; the only `Err`s are in `E`; in all cases the position only moves forward inside the
  buffer and the bytes are unchanged (safety, progress, soundness).
* `local m`: a successful parse depends only on the consumed bits.

## 2. Plan per property

| id | what is modelled | how it is proved |
|---|---|---|
| C01 | PeekBits/ReadBits 32 & 64 | refinement of the word-level loop to the bit list |
| C02,C03 | ReadExponentialGolomb, ReadSigned.. | induction on zeros; se refuted at the top of the range, proved below it |
| C04-C07 | BitBufferWriter | word-level write refined to list update; round trips by composition; boundary values refuted |
| C08 | inductive call sequences | invariant |
| C09,C10 | UnescapeRbsp vs. spec escape | induction with a zero-count state |
| C11,C12 | more_rbsp_data, rbsp_trailing_bits | via C01 |
| C13 | GetNaluChecksum | loop = sum of words; modular argument for corruption; unaligned case refuted |
| C14 | type predicates + dispatcher | case analysis over all 64 values (finite domain, complete) |
| C15-C19 | FindNaluIndices*, ParseBitstream* | loop invariants over a declarative start-code spec; 64-bit wrap refuted |
| C20-C24 | NAL unit, payload, state | case analysis + frame lemmas + fold lemmas |
| C25-C29, C31, C35-C37, C39, C52 | each syntax parser | `parses`/`wp` against the syntax-table encoder; deviations refuted by concrete witnesses; C37 against the complete standard syntax (SpecSliceStd.v) |
| C30,C32,C33,C34,C38 | checks and derived values | `wp` postconditions + arithmetic |
| C40-C42 | SEI, AUD, hvcC | `wp` + round trips |
| C43-C45 | RTP | case analysis; C44_exact: inductive description of the accepted aggregation packets, both directions; AP desynchronisation refuted |
| C46 | GetSliceQpY | fold over NAL units; overflow refuted |
| C47-C50 | all parsers | `wp`, `local`, size predicates |
| C51 | fdump: pointer structure (MDump.v) and text (MText.v) | which sub-structures fdump dereferences; refuted where a check is missing |
| C53 | hex printing | list of digits |
| C54-C56 | se and ns codes | complete description for every code number / every number of values, including where C03, C06, C07 fail |
| C57-C63 | parse loops, options, box, packets | relations between two runs: framing, dropped/repeated/reordered units, options, escaping, hvcC vs. in band, RTP vs. NAL |
| C68 | text of every fdump function, as output commands run at a level | the commands form whole items (induction on their structure); words, lines, indentation of the text by induction; RtpState refuted (no break before the packet) |
| C69 | text of the fdump functions of the syntax structures | prefix-code argument on the printed words (`tells`): ranges of the parsed fields make %i injective, presence conditions are themselves shown, derived RPS lists are recomputed from the shown syntax; SPS and PPS refuted (extension_data_flag, diff_cu_qp_delta_depth, chroma_bit_depth_entry_minus8 not printed) and proved up to these; slice headers with equal reachable states and buffers under 256 MiB |
| C70 | csv output of tools/h265nal.cc | loop invariant (the counters describe the current picture) gives the rows of the greedy cut into pictures; reading the CSV back is the inverse of writing it |
| C71 | main of tools/h265nal.cc | composition of the parsers' safety (C47, C51) with the printing loops; refuted for slices without header in length mode |
| C72 | contents of --add-contents | C19's ranges plus injectivity of the hexadecimal text; refuted for length-prefixed streams |
| C73 | strtol and the checks of parse_args | split of the string into blanks, sign, digits, rest |
| C74 | ReadFile, exits of main | induction on the chunks of standard input; case analysis of main |
| C75 | parse_args on recognised options | induction on the option list |
| C76, C77 | printing loop of main, options in fdump | one line per unit; the commands printed with options are those without, with fields inserted |
| C78 | every bit parser | from the exact layouts (C24-C41): two runs with one result have the same encoding; counterexamples by vm_compute |
| C79 | ParseBitstreamNALULength, any length size | strong induction on the rest of the buffer, 64-bit wrap included |
| C80 | the whole chain from the standard's syntax to ParseBitstream, ParseBitstreamNALULength, ParseConfigurationBox | induction over the units; invariant: the store holds the parameter sets sent last; C29, C31, C36, C37, C40, C41 for each unit, C57, C61, C62 for the framing |
| C81 | getFramerate with binary32 (Flocq) | Bdiv_correct, relative error of three roundings |
| C82 | the other floating point computations with their roundings | exactness (dyadic quotients, small integers), error bounds for log2f and decimals; the eight sizes too close to a power of two are not products of two sizes up to 2111 |
| C83 | the (data, length) overloads of all parsers as one type of calls with arguments | the safety lemmas of each parser, generalised to any arguments; induction over histories |
| C84 | the option table and getopt_long as documented by GNU | the words-to-options function equals a grammar of command lines, both ways, by induction over the words |
| C85 | main, ParseBitstream*, NalUnitState::fdump and everything it prints, together | the text of one unit determines the unit and the rest of the text (C67 for each kind of unit); then two outputs are walked in lockstep, with the invariant that the stored parameter sets agree in all that is shown of them; the box is walked the same way before (PropsOutputB.v) |
| C86 | main as a sequence of reads, opens and writes (MProcess.v) in a world of files and output streams | the trace is messages, then reads, then the output stage; every prefix of it, cut between any two characters, is examined; the messages (PropsProcessB.v) by induction on the arguments and by cases on the file |
| C87 | ParseBitstream, ParseNalUnit and the store, over pairs of histories | invariant: the store of the late receiver has no entry that the other one lacks or has different; a slice header is a function of its bits and of two entries; framing: bytes in front of the first start code give no unit |
| C88 | the tool (MTool.main), both stream parsers, the hvcC file | both runs written as one function of the bytes of the box and the stream; streams in any container are the fold of ParseNalUnit over the units (C57), which only sees the bytes without emulation prevention (C61); the text of a unit does not use its place; the box by C62 |
| C89 | the tool, the encoders of the standard | composition of C80 (what conforming streams return) with C85 (what equal words mean) |
| C90 | the tool and the two bitstream parsers | the start codes of a prefix are the first start codes, so all units but the last are the same; the parser is a fold (C24), the printing is a fold; for lengths, uniqueness of the decomposition of C24 |
| C91 | the parsers as they are; the work of a run is the relation `takes` of SpecTime.v, which has one rule for each way the model composes calls, for each operation on the buffer and for each of its loops (pure arithmetic between them is not counted) | `timed a c`: at most a steps per bit consumed and c more; composition rules; loops whose rounds consume a bit pay for themselves, loops without reads have constant bounds from the range checks; sum over the disjoint units of a stream |
| C92 | the fdump functions (MText.v) and the tool (MTool.v) as they are; the length of the printed string | `tsz d k t`: the commands of t print at most k * (level + 2) characters at depth d, with rules for sequences, structs, vectors and loops; loops over parsed vectors are paid by their elements (C50: at most 16 elements per byte), other loops have constant bounds from the range checks of the parsers; sum over the disjoint units of a stream, box or packet; the tool adds the contents (at most 4 characters per byte) or the table (one row per unit); C92_quadratic: a lower bound for a family of streams (C80 gives the parse, C51 that it is printed) |
| C93 | all parsers as for C83, with the conversion and the shifts of the slice header; the maps as functions with store and removal. Not modelled: null pointers stored in the maps | `wp (mishaps sized)` for the slice header with only the conditions on the sets; `psafe`: state-passing parsers keep a planted state; induction over histories; the conversion: forward through the four reads, backward through `parses` |
| C94 | MFuzz.v: the calls of LLVMFuzzerTestOneInput of all 27 files, in order, with their arguments and stored structs | C83_never, run_good (C83) and C93; the overflows by evaluation on one input per target |
| C95 | the limits of the standard in SpecLimits.v, apart from the syntax; the parser of C31 | the limits of the text imply those of the parser (PropsLimits.v), then C31, and C80 for whole streams (PropsLimitsB.v); the exceptions by evaluation |
| C64-C67 | more_rbsp_data, AUD, resolution, QP | exact result on every input |

## 3. Trusted base
* Coq 8.16.1's kernel (with `vm_compute` as conversion for the closed-term witnesses) and the OCaml compiler that built it.
* `Print Assumptions` says "Closed under the global context" for every theorem listed in MANIFEST.json except those of C81 and C82: no
  axiom, not even one of the standard library, is used.  The theorems of C81 and C82 speak about real numbers; for each of them it lists
  the axioms of the standard library's reals, `ClassicalDedekindReals.sig_not_dec`, `ClassicalDedekindReals.sig_forall_dec`,
  `FunctionalExtensionality.functional_extensionality_dep` and `Classical_Prop.classic` (used by the standard library's reals and by
  Flocq's proofs), and no others.  (`coqchk`-style listings of the loaded libraries show `Coq.ssr.ssrunder.Under_rel.*`: these are the
  fields of a module type of Coq's own ssreflect library, loaded by `Lia`/`ssreflect`; no theorem depends on them.  They also show
  `Coq.Reals.Rdefinitions.RbaseSymbolsImpl.*` and `RinvImpl.*`: the sealed definitions of R, +, *, ... of the standard library's reals.)
* The hand translation of /repo into `M*.v`.  Every definition cites the lines it models and says where it simplifies.  The
  translation was read against the C++ a second time, file by file, after the proofs were done, and the repository's unit tests give
  the same values on the model (`UnitTests.v`, section 5).
* The specifications `Spec*.v` (transcriptions of the H.265, RFC 7798 and ISO 14496-15 tables).

### Modelled source, by file
| file in /repo | model |
|---|---|
| src/rtc_common.cc, include/rtc_common.h | MBitBuffer.v: reader and writer in full |
| src/h265_common.cc | MCommon.v: Unescape/RBSP, more_rbsp_data, trailing bits, checksum, type predicates |
| src/h265_bitstream_parser.cc | MFraming.v (index search), MNal.v (parse loops) |
| src/h265_profile_tier_level, h265_sub_layer_hrd, h265_hrd, h265_vui, h265_vps | MProfile.v, MSyntaxA.v, MSyntaxB.v |
| src/h265_scaling_list_data, h265_st_ref_pic_set, h265_sps*, h265_pps* | MSyntaxB.v, MSps.v, MPps.v |
| src/h265_pred_weight_table, h265_slice | MSlice.v |
| src/h265_sei | MSei.v (the buffer a user-data payload is resized to is not part of the value; its size is bounded in C40/C50) |
| src/h265_nal_unit*, h265_aud, h265_bitstream_parser_state | MNal.v |
| src/h265_rtp*, h265_configuration_box, h265_utils (GetSliceQpY) | MRtp.v |
| floating point: getFramerate, ceil(a/b), ceil(log2 n), %.df | MFloat.v |
| fdump functions | MDump.v: control flow, pointers, indices and arithmetic; MText.v: the text (proved to agree with MDump.v in FactsTextDump.v) |
| fuzz/*.cc | MFuzz.v: the calls of each target, with their arguments and the parameter sets it makes up |
| tools/h265nal.cc, src/h265_utils.cc (ReadFile), src/h265_common.cc (NalUnitTypeToString) | MTool.v: options, reading, CSV, contents, main; MProcess.v: the order of reads and writes, messages; MGetopt.v: the option table and the words of the command line |

## 4. Not modelled
* The C library.  `getopt_long` is modelled after its GNU documentation (MGetopt.v: abbreviations, permutation; POSIXLY_CORRECT not set), `strtol` and `printf` likewise.  Not modelled: the libraries' messages to stderr,
  the build without `FDUMP_DEFINE`, CMake, `FPRINT_ERRORS` messages.  A file is a reported size and the bytes that can be read.
* Memory allocation failure (`std::bad_alloc` under `noexcept`); buffers above 4 GiB
  (the BitBuffer constructor asserts `byte_count <= UINT32_MAX`).
* Floating point: `getFramerate` is modelled with IEEE 754 binary32 (Flocq).  `ceil(log2(float(x)))`, `ceil(double/double)` and `%.df`
  of a double are modelled by their exact values in MSlice.v, MSps.v and MText.v; MFloat.v models the roundings and C82 proves that they
  never show.  Taken on trust there: std::ceil is exact, the C library's log2f has an error below one unit in the last place, printf
  rounds to the nearest decimal.
* Messages of the library to stderr (`FPRINT_ERRORS`); the text of `usage`.  File names that are links to one another, write errors after a
  successful open.
* Stored copies of arguments in the C++ structs that no code reads back.
* Aliasing: a returned VPS, SPS or PPS is the object that the parser state holds (src/h265_nal_unit_payload_parser.cc:104, 113, 122).  No function of
  the library changes it after that; a caller who changes the returned struct changes the state, which is the last case of C93 (`v_sps`, `v_pps`).
  Null pointers that a caller stores in the maps.

## 5. How theorems are tested
`seeded/mutations.json` holds realistic bugs as edits of the model, `tools/seedtest.py` applies each to a scratch copy, rebuilds, and
`seeded/LOG.jsonl` records which theorems fail.  Ids that begin with A are random edits made by `tools/automut.py`; for those only the first statement that fails is recorded.

`theories/UnitTests.v` (generated by `tools/mktests.py`) runs the repository's own unit tests, /repo/test, on the model: the same bytes,
the same fields, about 1200 comparisons, all equal.  They are tests of the translation, not properties; the few comparisons that are
not translated are listed at the end of that file.

## 6. Naming
`Cnn_*` are the theorems of property Cnn.  `_refuted`: a concrete input on which the code does not do what the standard or the
documentation leads one to expect.  Where that happens, properties.jsonl states what the code does instead, exactly, and the other
theorems of the property prove it; the `_refuted` theorem shows that the exception in the statement is real.  No theorem carries the
suffix `_partial` any more: what used to be partial was completed by an exact description of the rest (PropsDeviate.v, PropsDeviateB.v,
PropsSliceStd.v, PropsAp.v, PropsIff.v, PropsWide.v, PropsToolE.v).

## 7. Deviations found
| where | what | theorem |
|---|---|---|
| ReadSignedExponentialGolomb | odd code numbers from 2^31-1 are misread; writer and reader disagree from 2^30 on | C03_se_refuted, C06_se_refuted |
| Read/WriteNonSymmetric | fail at both ends of the documented range | C07_refuted |
| GetNaluChecksum | off a byte boundary it shifts by a negative amount | C13_unaligned_refuted |
| FindNaluIndicesExplicitFraming | endless loop at 4 GiB | C17_refuted |
| ParseBitstreamNALULength | reads outside the buffer with length fields of 8 bytes or more; reports the size of the length field as the unit's length | C18_refuted, C79_*, C19_length_refuted |
| profile_tier_level | sub-layer level gated by the profile flag | C25_refuted |
| hrd_parameters, VUI | inferred fixed_pic_rate_within_cvs_flag is 0 | C27_refuted, C28_refuted |
| VPS | cprms_present_flag[0] taken as 0 | C29_refuted, C29_hrd_never |
| SPS | MinCbSizeY check before the block size is read; empty cropping windows accepted | C30_refuted, C33_refuted |
| st_ref_pic_set, scaling lists | signed overflow reachable | C34_overflow_refuted, C47_refuted |
| PPS | a failed multilayer extension is ignored (and fdump then dereferences null); phases read as se(v); palette depth condition inverted | C36_refuted, C51_pps_refuted, C52_pps_refuted |
| slice header | default active counts, entry points, deblocking, list modifications, list 1 and chroma weights, current picture referencing | C37_*_refuted |
| SEI | payload_size ignored for fixed layouts; colour remapping depth; failed payload ignored | C40_extent_refuted, C40_remap_refuted, C49_sei_refuted |
| AUD | trailing bits not checked; AUD without payload printed through null | C41_refuted, C51_aud_refuted |
| RTP AP | announced sizes do not bound the units | C44_slice_refuted, C44_escaped_refuted |
| GetSliceQpY | PPS of the end of the stream; overflow; empty aggregation packet | C46_*_refuted |
| fdump | option mismatch, short units in a box; RtpState layout; fields of SPS and PPS not printed | C51_*_refuted, C68_rtp_refuted, C69_*_refuted |
| NaluChecksum::fdump | writes before an empty output buffer | C53_fdump_refuted |
| tool | --dump-length without slice header, hvcC units, -1 of --nalu-length-bytes, contents of length-prefixed units | C71_*refuted, C72_length_prefixed_refuted, C73_minus_one_refuted |
