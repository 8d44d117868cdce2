{
 "C03": {
  "note": "Complete: every code number. C03_se_every_code / C03_se_every_value give the value for all of them, C03_se_exact / C03_se_complete the region where it is the standard's, C03_se_refuted that it is not beyond.",
  "status": "proved"
 },
 "C06": {
  "note": "Complete: every value. The signed round trip fails exactly from 2^30 on (C06_se_refuted, C06_se_round_trip_every_value).",
  "status": "proved"
 },
 "C07": {
  "note": "Complete: C07_nonsymmetric_round_trip inside, C07_outside for every other argument.",
  "status": "proved"
 },
 "C11": {
  "note": "Proved for every buffer ending in well-formed trailing bits. C11_cabac_zero_words_refuted is outside the statement: with cabac_zero_words behind the trailing bits the function answers true.",
  "status": "proved"
 },
 "C13": {
  "note": "Proved for every byte-aligned position, as stated. C13_unaligned_refuted is outside the statement (unaligned start); C13_swap_undetected shows the limit of the error detection.",
  "status": "proved"
 },
 "C17": {
  "note": "Complete: C17_any_size covers every buffer (C17_refuted: the endless loop really occurs); C17_round_trip every list of units; contiguity (C17_in_bounds) for buffers under 4 GiB, where every buffer is such a concatenation (C17_every_buffer).",
  "status": "proved"
 },
 "C18": {
  "note": "Widths 1..7 and 0 (no length field); C18_refuted shows that 8 has to be excluded, C79 describes those widths.",
  "status": "proved"
 },
 "C53": {
  "note": "Complete: C53_fdump_in_bounds for every length from 1, C53_fdump_refuted for 0.",
  "status": "proved"
 },
 "C20": {
  "note": ""
 },
 "C25": {
  "note": "Complete: exact layout in both directions for every input (C25_layout_of_the_code), the standard's where the flags agree; C25_refuted is a standard structure that is misread (src/h265_profile_tier_level_parser.cc:95 tests the profile flag again).",
  "status": "proved"
 },
 "C27": {
  "note": "Complete: exact layout in both directions; C27_standard_iff says for which standard structures it is right (C27_refuted: one for which it is not).",
  "status": "proved"
 },
 "C28": {
  "note": "Complete: exact layout and ranges in both directions; C28_standard_iff; C28_refuted is a standard structure that is rejected.",
  "status": "proved"
 },
 "C41": {
  "note": "pic_type is the first three bits, always; C41_refuted: malformed trailing bits are accepted.",
  "status": "proved"
 },
 "C37": {
  "note": "The code's exact layout is proved in both directions (C37_accepted, C37_layout_of_the_code) for every stored PPS/SPS; C37_standard_layout: the standard's complete syntax without the seven deviations listed in std_no_deviation; each deviation has a _refuted theorem with a standard header that is misread or rejected.",
  "status": "proved"
 },
 "C38": {
  "note": "Proved for every accepted slice."
 },
 "C39": {
  "note": "Proved: the exact list 0 layout and the counts, for every ChromaArrayType and count; the code never reads list 1, see C37."
 },
 "C40": {
  "note": "Header numbers, every payload layout in both directions and the allocation bound. The two limits in the statement are shown by C40_extent_refuted and C40_remap_refuted.",
  "status": "proved"
 },
 "C19": {
  "note": "C19_ranges_annexb; C19_offset_length_prefixed and C19_length_prefixed (every length size) say exactly what is reported; C19_length_refuted is a stream where this is not the unit (src/h265_bitstream_parser.cc:240).",
  "status": "proved"
 },
 "C24": {
  "note": "Lengths of 8 bytes and more: see C18 (refuted there). C24_empty_unit shows why the cut must follow a non-empty unit."
 },
 "C47": {
  "note": "C47_only_overflow for every history of calls, C47_tame for histories of tame calls; C47_refuted: a signed overflow is reachable.",
  "status": "proved"
 },
 "C48": {
  "note": "Model loops carry fuel; no parser can run out of it. RTP/hvcC and stateful parsers included."
 },
 "C51": {
  "note": "Exact conditions for NAL units, both stream formats (every length size), RTP and boxes, for the control flow (MDump.v) and the printed text (MText.v); the refuted theorems exhibit each null dereference.",
  "status": "proved"
 },
 "C49": {
  "note": "Every reader, substructure, VPS, SPS, slice header, AUD in full; C49_pps and C49_sei give the exact result of every truncation for the two parsers that ignore a failed part (C49_pps_refuted, C49_sei_refuted show that they do).",
  "status": "proved"
 },
 "C50": {
  "note": "Proved for every parser, NAL units, Annex B and length-prefixed streams, boxes and RTP packets, in every reachable state. The SEI allocation is not part of the model's state: C50_sei_allocation bounds payload_size, the argument of resize()."
 },
 "C29": {
  "note": "Complete: exact layout in both directions, limits and lengths on every accepted VPS, standard where it holds, C29_hrd_never/C29_refuted where it does not (cprms_present_flag[0] is taken as 0).",
  "status": "proved"
 },
 "C30": {
  "note": "Every range for every accepted SPS (C30_ranges); C30_refuted is an accepted SPS whose width is no multiple of MinCbSizeY.",
  "status": "proved"
 },
 "C31": {
  "note": "Code layout exact in both directions, on all inputs and from escaped bytes; the standard's layout without the deviations of C25/C27, which are refuted there.",
  "status": "proved"
 },
 "C33": {
  "note": "C33_cropped_size and C33_at_most_coded_size for every accepted SPS; C33_positive_iff says when the size is positive; C33_refuted: an accepted SPS of width -16.",
  "status": "proved"
 },
 "C34": {
  "note": "Bounds, history and in-bounds derivation for every input and history; overflow is reachable (C34_overflow_refuted) and excluded for bounded histories (C34_exact_for_bounded_history).",
  "status": "proved"
 },
 "C36": {
  "note": "Code layout exact in both directions, safety, tile vectors, rejected extensions for all inputs; the standard's layout without the deviating extension parts; C36_refuted: a PPS returned without its announced extension (C49_pps says exactly what is returned then).",
  "status": "proved"
 },
 "C44": {
  "note": "C44_exact: iff, for every packet and store. C44_split/C44_units: the announced boundaries for self-delimiting units; C44_slice_refuted, C44_escaped_refuted: packets of the standard where the announced sizes are missed.",
  "status": "proved"
 },
 "C46": {
  "note": "Exact values and exact fault conditions; the refuted theorems show a PPS replaced later, a sum outside int32 and an empty aggregation packet.",
  "status": "proved"
 },
 "C52": {
  "note": "All layouts exact in both directions; the standard's without phases / palette initialisers; C52_pps_refuted: standard extensions that are misread.",
  "status": "proved"
 },
 "C68": {
  "note": "Proved for every fdump function that prints a block, for any state (not only parsed ones), plus the bitstream; C68_rtp_refuted shows the exception.",
  "status": "proved"
 },
 "C69": {
  "note": "VPS, header, AUD, profile_tier_level, hrd, VUI, scaling lists and SEI without loss (against what the C++ object holds); SPS and PPS up to the fields fdump leaves out (C69_sps_refuted, C69_pps_refuted: they are lost); slice headers without loss below 256 MiB (beyond, the 32-bit loop bound of the printing code could wrap).",
  "status": "proved"
 },
 "C70": {
  "note": "C70_csv for every list of units whose slices are not empty and together below 2^64 bytes, C70_tool_annexb for the whole program (options, file, parser, printing) on start-code streams below 4 GiB, C70_names."
 },
 "C71": {
  "note": "C71_tool is the complete classification of every run: all arguments, hvcC file and stream, all length sizes; the refuted theorems show that the exceptions occur.",
  "status": "proved"
 },
 "C72": {
  "note": "C72_annexb, C72_faithful, C72_with_range; C72_length_prefixed_refuted: a length-prefixed stream where other bytes are shown (see C19).",
  "status": "proved"
 },
 "C73": {
  "note": "C73_accepted characterises every argument; C73_minus_one_refuted: the documented -1 is rejected, the empty string is taken for 0.",
  "status": "proved"
 },
 "C74": {
  "note": "C74_stdin, C74_file, C74_exit. A file is modelled by its reported size and the bytes that can be read."
 },
 "C75": {
  "note": "Stated for the options that getopt_long recognises; C84 has the words."
 },
 "C76": {
  "note": "Without hvcC file."
 },
 "C77": {
  "note": "C77_fields for every unit, C77_resolution for every accepted SPS."
 },
 "C78": {
  "note": "Exact where the whole structure is kept; up to 63-bit se(v) aliases elsewhere; the refuted theorems show that the exceptions in the statement are real.",
  "status": "proved"
 },
 "C79": {
  "note": "all sizes 0, 1..7, >=8; the wrap past 2^64 is undefined behaviour in the code and is stated as such"
 },
 "C80": {
  "note": "Annex B, length-prefixed, in two calls, and parameter sets in a configuration box. Units that use the syntax refuted under C25, C27, C29, C36, C37, C40 are excluded by hypotheses; SEI units: the first message is returned, the others are not (C40)."
 },
 "C81": {
  "note": "IEEE 754 binary32 by Flocq; uses the standard library's axioms of the reals (DESIGN.md section 3)"
 },
 "C82": {
  "note": "std::ceil and printf exact; log2f any function with error below one ulp; uses the standard library's axioms of the reals"
 },
 "C83": {
  "note": "The exceptions are theorems: C83_refuted (short vector), C83_depth_refuted (bit depth wraps to 0), C83_overflow_refuted (huge DeltaPoc). Upper ends of <= loops are below 2^32 - 1.",
  "status": "proved"
 },
 "C84": {
  "note": "getopt_long is modelled after its GNU documentation (it is not in the repository). C84_q_refuted and C84_stdin_refuted: where the help text is wrong.",
  "status": "proved"
 },
 "C85": {
  "note": "sets_right: the text of a slice header uses the parameter sets it was parsed with; kept_right shows they can always be given. What is not printed is listed in the definition of seen."
 },
 "C86": {
  "note": "Names of files are strings: two names of one file are two files in the model."
 },
 "C88": {
  "note": "The size of the length field is reported as the length of every unit of a length-prefixed stream (C19); C88_lengths_refuted shows it in the output.",
  "status": "proved"
 },
 "C89": {
  "note": "Proved for the items of PropsStream (C80); what is not printed is what same_item leaves out."
 },
 "C90": {
  "note": "Text and table; the library calls are C90_parse, C90_parse_appended, C90_parse_lengths. The exception for an empty unit in front of the cut is C24_empty_unit. Runs that end without exit code 0 print nothing at all and are the subject of C71 and C75."
 },
 "C91": {
  "note": "All parsers, for all inputs below 2^32 bytes and all states. The relation `takes` counts operations on the buffer, calls, rounds of loops and copied bytes; straight-line arithmetic, allocation and printing are not counted. The quadratic bound for aggregation packets is an upper bound only: that it is reached (all-zero packets: each unit's first Exp-Golomb code scans all that is left and seeks back) is not proved. ParseBitstreamNALULength: when the ranges it visits are within the buffer (C79 says when)."
 },
 "C92": {
  "note": "Bounds for every entry point's text and for the whole output of the tool. The text is quadratic in the long-term pictures of a slice header because SliceSegmentHeaderState::fdump prints whole vectors once per entry (src/h265_slice_parser.cc:785-825); C92_quadratic proves this is reached by streams of every size."
 },
 "C93": {
  "note": "Full. usable_sps/usable_pps state the conditions; C93_needs_* show each is needed; C93_conversion is the exact condition of the conversion. Stored null pointers are excluded."
 },
 "C94": {
  "note": "Full: all 27 files of fuzz/ are modelled in MFuzz.v. C94_steady, C94_overflowing, C94_units, C94_mock, C94_slice, and witnesses C94_overflows, C94_witnesses."
 },
 "C95": {
  "note": "Proved for all SPSs of the standard up to level 6.2 outside the two stated exceptions, each of which is shown by a rejected SPS (C95_wide_window_rejected, C95_level_6_3_rejected)."
 }
}