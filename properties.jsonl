{"id": "C01", "title": "Fixed-width reads are exact and atomic", "statement": "PeekBits/ReadBits(n) on a BitBuffer succeed exactly when 1 <= n <= 32 (64 for the 64-bit overload) and n bits remain; the value is the big-endian number spelled by the next n bits; Read advances by exactly n bits, Peek by none; a failing call moves nothing; no byte outside the buffer is read.", "quantifier": "every byte buffer, every valid position, every width n >= 1", "why_tests_cant": "the value depends on all alignments of position, width and content; tests sample a handful", "anchors": ["src/rtc_common.cc: BitBuffer::PeekBits, BitBuffer::ReadBits, BitBuffer::ConsumeBits"]}
{"id": "C02", "title": "ue(v) decoding is the standard's Exp-Golomb code", "statement": "ReadExponentialGolomb succeeds exactly when the next bits form a complete Exp-Golomb codeword with at most 31 leading zeros; it then returns the code number and advances by exactly the codeword; on any failure the position is what it was before the call.", "quantifier": "every buffer, position and code number 0..2^32-2", "why_tests_cant": "2^32 code numbers at 8 alignments, plus every truncation", "anchors": ["src/rtc_common.cc: BitBuffer::ReadExponentialGolomb"]}
{"id": "C03", "title": "se(v) decoding is the standard's signed mapping", "statement": "ReadSignedExponentialGolomb succeeds under the same condition as ue(v), moves nothing on failure, and for code number k returns (-1)^(k+1)*ceil(k/2), the standard's value, for every even k and every odd k below 2^31-1. For odd k from 2^31-1 on (codewords of 63 bits) the standard's value does not come out: the intermediate k+1 does not fit its signed type, and the exact value returned (or the overflow) is the one of C03_se_every_code.", "quantifier": "every buffer, position and code number", "why_tests_cant": "2^32 code numbers; the wrong ones are all at the top of the range", "anchors": ["src/rtc_common.cc: BitBuffer::ReadSignedExponentialGolomb"]}
{"id": "C04", "title": "What WriteBits writes, ReadBits reads", "statement": "If WriteBits(v,n) succeeds on a writer, a reader positioned where the writer was reads back v mod 2^n with ReadBits(n) and ends where the writer ended.", "quantifier": "every buffer, position, 1<=n<=64 and value v", "why_tests_cant": "all alignments and widths", "anchors": ["src/rtc_common.cc: BitBufferWriter::WriteBits, WritePartialByte"]}
{"id": "C05", "title": "WriteBits touches only its own bits", "statement": "WriteBits(v,n) changes no bit outside the n bits it covers, never changes the buffer size, and when fewer than n bits remain it fails leaving buffer and position unchanged.", "quantifier": "every buffer, position, width and value", "why_tests_cant": "frame conditions range over all other bits of all buffers", "anchors": ["src/rtc_common.cc: BitBufferWriter::WriteBits"]}
{"id": "C06", "title": "Exp-Golomb writing and reading are inverse", "statement": "WriteExponentialGolomb(v) followed by ReadExponentialGolomb at the same place returns v for every v < 2^32-1 when there is room. WriteSignedExponentialGolomb/ReadSignedExponentialGolomb return v for every int32 v with -2^31 < v < 2^30; for larger v what is written is read back as the value C06_se_round_trip_every_value gives, and INT32_MIN is not writable.", "quantifier": "every value, buffer and position", "why_tests_cant": "2^32 values; failures occur only for |v| >= 2^30", "anchors": ["src/rtc_common.cc: BitBufferWriter::WriteExponentialGolomb, WriteSignedExponentialGolomb, BitBuffer::ReadExponentialGolomb, ReadSignedExponentialGolomb"]}
{"id": "C07", "title": "Non-symmetric coding round trips", "statement": "For every num_values n with 2 <= n < 2^31 and val < n, WriteNonSymmetric(val,n) then ReadNonSymmetric(n) returns val, and the number of bits used is SizeNonSymmetricBits(val,n). Outside (n = 0, n = 1, n = 2^31, n > 2^31, val >= n) the calls end in a failed assertion or a shift out of range, although 1 and 2^31 are in the documented range.", "quantifier": "all n, val of 32 bits, all buffers and positions", "why_tests_cant": "quadratically many pairs; boundary failures only at the ends of the range", "anchors": ["src/rtc_common.cc: WriteNonSymmetric, ReadNonSymmetric, SizeNonSymmetricBits, CountBits"]}
{"id": "C08", "title": "The read position never leaves the buffer", "statement": "After any sequence of BitBuffer calls (reads, peeks, skips, seeks, Exp-Golomb and byte reads, successful or not) the position is a valid position of the buffer, RemainingBitCount equals the number of bits after it, and the bytes are unchanged.", "quantifier": "every finite call sequence on every buffer", "why_tests_cant": "unbounded histories", "anchors": ["src/rtc_common.cc: BitBuffer::Seek, ConsumeBits, ConsumeBytes, RemainingBitCount, GetCurrentOffset"]}
{"id": "C09", "title": "UnescapeRbsp inverts emulation prevention", "statement": "Applying the standard's emulation prevention to any RBSP and then UnescapeRbsp returns the RBSP.", "quantifier": "every byte string", "why_tests_cant": "all byte strings of all lengths", "anchors": ["src/h265_common.cc: UnescapeRbsp"]}
{"id": "C10", "title": "UnescapeRbsp only removes emulation bytes", "statement": "UnescapeRbsp returns its input with only 03 bytes that follow 00 00 removed: the output is never longer, it is at least two thirds of the input, and an input without the pattern 00 00 03 is returned unchanged.", "quantifier": "every byte string", "why_tests_cant": "all byte strings", "anchors": ["src/h265_common.cc: UnescapeRbsp"]}
{"id": "C11", "title": "more_rbsp_data agrees with the standard", "statement": "On a buffer whose RBSP ends in well-formed trailing bits, more_rbsp_data is true exactly when data precede the trailing bits; it is false at the end of the buffer and it never moves the position.", "quantifier": "every buffer and position", "why_tests_cant": "all contents and alignments", "anchors": ["src/h265_common.cc: more_rbsp_data"]}
{"id": "C12", "title": "rbsp_trailing_bits accepts exactly 1 0* to the byte boundary", "statement": "rbsp_trailing_bits succeeds exactly when the bits up to the next byte boundary are a one followed by zeros, and then ends on that boundary.", "quantifier": "every buffer and position", "why_tests_cant": "all contents and alignments", "anchors": ["src/h265_common.cc: rbsp_trailing_bits, byte_aligned"]}
{"id": "C13", "title": "The NAL unit checksum is the ones'-complement sum and detects any one-byte corruption", "statement": "GetNaluChecksum returns the 32-bit ones'-complement of the ones'-complement sum of the big-endian 32-bit words (last word zero-padded) from the current byte-aligned position to the end, leaves the position unchanged, and changing any single byte of the data changes the checksum.", "quantifier": "every buffer and byte-aligned position, every corrupted byte", "why_tests_cant": "all contents; a collision would be one input in billions", "anchors": ["src/h265_common.cc: NaluChecksum::GetNaluChecksum"]}
{"id": "C14", "title": "NAL unit type predicates partition the types", "statement": "For every 6-bit nal_unit_type exactly one of IsNalUnitTypeVcl and IsNalUnitTypeNonVcl holds, VCL is exactly 0..31, unspecified exactly 48..63, slice segments exactly 0..9 and 16..21, and those are exactly the types dispatched to the slice parser.", "quantifier": "all nal_unit_type values", "why_tests_cant": "stated over every value and tied to the dispatcher", "anchors": ["src/h265_common.cc: IsSliceSegment, IsNalUnitTypeVcl, IsNalUnitTypeNonVcl, IsNalUnitTypeUnspecified", "src/h265_nal_unit_payload_parser.cc: ParseNalUnitPayload"]}
{"id": "C15", "title": "Annex B splitting finds exactly the start codes", "statement": "FindNaluIndices returns the positions of every 00 00 01 in the buffer that is followed by at least one byte, in order, each payload running to just before the next start code (dropping one extra zero byte) or to the end of the buffer; the ranges are in bounds and disjoint, and no read leaves the buffer.", "quantifier": "every byte buffer", "why_tests_cant": "all byte strings; the skip-ahead search must not miss any alignment", "anchors": ["src/h265_bitstream_parser.cc: FindNaluIndices"]}
{"id": "C16", "title": "Annex B framing round trips", "statement": "Concatenating start codes (3- or 4-byte) and NAL units that are emulation-prevented (no 00 00 00/01 inside, non-empty, not ending in 00) and splitting with FindNaluIndices returns exactly those NAL units.", "quantifier": "every list of NAL units and choice of start code lengths", "why_tests_cant": "unbounded lists of unbounded byte strings", "anchors": ["src/h265_bitstream_parser.cc: FindNaluIndices"]}
{"id": "C17", "title": "Explicit 4-byte framing round trips and stays in bounds", "statement": "FindNaluIndicesExplicitFraming returns entries inside the buffer, increasing from its start, and for the concatenation of 4-byte-length-prefixed units of less than 2^32-4 bytes returns exactly those units, whatever incomplete unit follows. A unit that announces 2^32-4 bytes (and has them: a buffer above 4 GiB) makes it loop for ever; nothing else does.", "quantifier": "every byte buffer of less than 2^63 bytes; every list of units", "why_tests_cant": "unbounded", "anchors": ["src/h265_bitstream_parser.cc: FindNaluIndicesExplicitFraming"]}
{"id": "C18", "title": "Length-prefixed parsing never reads outside the buffer and walks exactly the units", "statement": "ParseBitstreamNALULength with an n-byte length prefix, 0 <= n <= 7, hands to the NAL unit parser only ranges inside the buffer, and for a well-formed buffer exactly the units in order. (Length fields of 8 bytes and more, where lengths wrap around and ranges leave the buffer, are C79.)", "quantifier": "every buffer, every prefix width up to 7 bytes", "why_tests_cant": "crafted lengths near 2^64 are never in test vectors", "anchors": ["src/h265_bitstream_parser.cc: ParseBitstreamNALULength, read_nalu_length"]}
{"id": "C19", "title": "Reported offset and length describe the NAL unit", "statement": "For every NAL unit reported by ParseBitstream, the bytes [offset, offset+length) of the input are the bytes that were parsed as this NAL unit. For every NAL unit reported by ParseBitstreamNALULength the offset is the position of the parsed bytes, while the reported length is the size of the length field, not the size of the unit.", "quantifier": "every buffer, every size of the length field", "why_tests_cant": "all inputs", "anchors": ["src/h265_bitstream_parser.cc: ParseBitstream, ParseBitstreamNALULength (nal_unit->offset, nal_unit->length)"]}
{"id": "C20", "title": "NAL unit header decoding", "statement": "ParseNalUnitHeader succeeds exactly when 16 bits remain, returns the four fields of nal_unit_header() (1,6,6,3 bits), and re-encoding them gives back those 16 bits; GetNalUnitType agrees with it.", "quantifier": "every buffer", "why_tests_cant": "all headers at all positions", "anchors": ["src/h265_nal_unit_header_parser.cc: ParseNalUnitHeader, GetNalUnitType"]}
{"id": "C21", "title": "Payload dispatch follows nal_unit_type only", "statement": "ParseNalUnit returns a unit whenever 16 header bits are present, and fills exactly the payload alternative that nal_unit_type selects (slice, VPS, SPS, PPS, AUD, SEI, or none), or nothing if that payload does not parse.", "quantifier": "every buffer, parser state and option set", "why_tests_cant": "all types, contents and histories", "anchors": ["src/h265_nal_unit_parser.cc: ParseNalUnit", "src/h265_nal_unit_payload_parser.cc: ParseNalUnitPayload"]}
{"id": "C22", "title": "The parameter-set store is last-writer-wins and only successful parameter sets write it", "statement": "After parsing a NAL unit the stored VPS/SPS/PPS are unchanged except that a VPS/SPS/PPS unit that parsed replaces the entry with its own id by the parsed structure; failed parameter sets, slices, SEI, AUD and unknown units leave the store unchanged.", "quantifier": "every parser state (every history) and every NAL unit", "why_tests_cant": "histories are unbounded", "anchors": ["src/h265_nal_unit_payload_parser.cc: ParseNalUnitPayload", "include/h265_bitstream_parser_state.h: H265BitstreamParserState"]}
{"id": "C23", "title": "Slices require, and depend only on, their own parameter sets", "statement": "A slice segment header is returned only if the PPS it names and the SPS that PPS names are stored; the result is the same for any two parser states that agree on those two entries.", "quantifier": "every slice, every pair of parser states", "why_tests_cant": "quantifies over pairs of histories", "anchors": ["src/h265_slice_parser.cc: ParseSliceSegmentHeader"]}
{"id": "C24", "title": "Parsing a stream is parsing its NAL units one after the other", "statement": "ParseBitstream equals folding ParseNalUnit over the NAL units found with one shared state (likewise the length-prefixed variant, for lengths of 1 to 7 bytes), and two calls with a shared state, cut in front of a start code that follows a non-empty NAL unit, give the same units and state as one call on the whole.", "quantifier": "every buffer and every cut", "why_tests_cant": "unbounded streams and cuts", "anchors": ["src/h265_bitstream_parser.cc: ParseBitstream"]}
{"id": "C25", "title": "profile_tier_level() is read with the standard's layout", "statement": "ParseProfileTierLevel reads exactly the fields of profile_tier_level() in order, with one difference from the standard: a sub-layer's level is read iff its profile presence flag is set. For every structure of this layout it returns that structure and consumes exactly its bits, and it accepts nothing else. Hence it is the standard's layout for structures whose sub-layers have equal presence flags.", "quantifier": "every bit string, every profilePresentFlag and maxNumSubLayersMinus1 <= 7", "why_tests_cant": "all presence-flag combinations", "anchors": ["src/h265_profile_tier_level_parser.cc: ParseProfileTierLevel, ParseProfileInfo"]}
{"id": "C26", "title": "Decoded profile type", "statement": "GetProfileType returns UNSPECIFIED unless profile_space is 0, and otherwise the profile that Annex A/G/H/I assigns to profile_idc and the constraint flags: the named profile of the family's table for the bit-depth limit, chroma limit, intra-only, still-picture and low-bit-rate flags, or the family itself when no row matches; idc 0 and idc >= 14 give UNSPECIFIED. It depends on nothing else (in particular not on the compatibility flags).", "quantifier": "every profile information structure with 0/1 flags, in particular every parsed one", "why_tests_cant": "2^75 flag combinations", "anchors": ["src/h265_profile_tier_level_parser.cc: GetProfileType"]}
{"id": "C27", "title": "hrd_parameters() is read with the standard's layout", "statement": "ParseHrdParameters returns, for every encodable hrd_parameters() structure, that structure and consumes exactly its bits, with one difference from the standard: an absent fixed_pic_rate_within_cvs_flag is taken as 0 instead of inferred to be 1. A structure of the standard is returned from its encoding iff fixed_pic_rate_general_flag is 0 in every sub-layer. Each per-sub-layer vector has one entry per sub-layer.", "quantifier": "every bit string, commonInfPresentFlag and maxNumSubLayersMinus1", "why_tests_cant": "all presence flags and sub-layer counts", "anchors": ["src/h265_hrd_parameters_parser.cc", "src/h265_sub_layer_hrd_parameters_parser.cc"]}
{"id": "C28", "title": "vui_parameters() is read with the standard's layout and ranges", "statement": "ParseVuiParameters returns the encoded structure for every structure in range and rejects out-of-range values of the range-checked fields, with C27's difference from the standard: a structure of the standard is returned from its encoding iff its hrd_parameters(), if present, leaves no fixed_pic_rate_within_cvs_flag to inference.", "quantifier": "every bit string", "why_tests_cant": "all presence flags", "anchors": ["src/h265_vui_parameters_parser.cc: ParseVuiParameters"]}
{"id": "C29", "title": "VPS parsing: layout and limits", "statement": "ParseVps returns the encoded structure for every VPS in its layout, and accepts nothing else; an accepted VPS has vps_max_layer_id <= 62, vps_num_layer_sets_minus1 <= 1023, vps_num_hrd_parameters <= vps_num_layer_sets_minus1+1, and vectors of the lengths its counts announce. The layout is the standard's for VPSs without hrd_parameters() whose sub-layers have equal presence flags (C25); a standard VPS with hrd_parameters() is never returned.", "quantifier": "every bit string", "why_tests_cant": "all counts and flags", "anchors": ["src/h265_vps_parser.cc: ParseVps"]}
{"id": "C30", "title": "SPS acceptance implies the documented ranges", "statement": "An accepted SPS satisfies every range the parser checks: ids, chroma_format_idc <= 3, 1 <= width,height <= 16888 and multiples of 8, bit depths, POC bits, coding block sizes, DPB sizes, short- and long-term counts. The documented check that width and height are multiples of MinCbSizeY is made before the block size is read and so only means multiples of 8.", "quantifier": "every byte buffer", "why_tests_cant": "all inputs", "anchors": ["src/h265_sps_parser.cc: ParseSps", "include/h265_sps_parser.h"]}
{"id": "C31", "title": "SPS parsing: layout", "statement": "For every SPS structure in range, ParseSps of its encoding returns exactly that structure and consumes exactly its bits; whatever it accepts is such an encoding. The layout is the standard's for SPSs without the deviating parts of profile_tier_level() (C25) and hrd_parameters() (C27).", "quantifier": "every SPS; every bit string", "why_tests_cant": "all flag combinations and counts", "anchors": ["src/h265_sps_parser.cc: ParseSps"]}
{"id": "C32", "title": "SPS derived geometry", "statement": "For an accepted SPS, getMinCbSizeY/getCtbSizeY/getPicWidthInCtbsY/getPicHeightInCtbsY/getPicSizeInCtbsY return the standard's values: powers of two, exact ceilings (no floating-point error, no wrap), and the picture is covered by its CTBs.", "quantifier": "every accepted SPS", "why_tests_cant": "all sizes; ceil is computed in floating point", "anchors": ["src/h265_sps_parser.cc: getMinCbLog2SizeY..getPicSizeInSamplesY"]}
{"id": "C33", "title": "SPS cropped resolution", "statement": "For an accepted SPS, getResolution succeeds and returns the standard's cropped width and height, which are at most the coded size. They are positive iff the conformance window leaves a sample; the parser also accepts windows that leave none.", "quantifier": "every accepted SPS", "why_tests_cant": "all conformance windows", "anchors": ["src/h265_sps_parser.cc: getResolution, getSubWidthC, getSubHeightC"]}
{"id": "C34", "title": "Short-term reference picture sets stay within their bounds", "statement": "An accepted st_ref_pic_set has at most 16 entries, num_negative_pics <= the maximum passed and num_negative+num_positive <= 16, inter prediction refers only to an earlier set, and deriving its values never indexes outside the 16-entry arrays. The one undefined behaviour is signed overflow of POC sums, which needs histories with huge deltas; with bounded deltas the derivation is exact.", "quantifier": "every bit string, index and list of earlier sets (every history of sets)", "why_tests_cant": "chained inter prediction over unbounded histories", "anchors": ["src/h265_st_ref_pic_set_parser.cc: ParseStRefPicSet, DeriveValues"]}
{"id": "C35", "title": "scaling_list_data(): sizes, values and layout", "statement": "ParseScalingListData consumes exactly the coded lists; every derived coefficient is in 0..255, every list has min(64, 2^(4+2*sizeId)) coefficients.", "quantifier": "every bit string", "why_tests_cant": "all coefficient sequences", "anchors": ["src/h265_scaling_list_data_parser.cc: ParseScalingListData"]}
{"id": "C36", "title": "PPS parsing: layout", "statement": "For every PPS in its layout (without range/3D extensions) ParsePps returns exactly that structure; tile column/row vectors have the announced lengths; range and 3D extensions are rejected; it accepts nothing else, except that a PPS whose announced multilayer extension cannot be parsed is returned without it. The layout is the standard's for PPSs without resampling phases and palette initialisers (C52).", "quantifier": "every PPS; every bit string", "why_tests_cant": "all flag combinations", "anchors": ["src/h265_pps_parser.cc: ParsePps", "src/h265_pps_scc_extension_parser.cc", "src/h265_pps_multilayer_extension_parser.cc"]}
{"id": "C37", "title": "Slice segment header parsing: layout", "statement": "For every slice segment header of the standard's syntax (all of 7.3.6.1, with list modifications, both weight tables and current picture referencing) allowed by its PPS/SPS, ParseSliceSegmentHeader of its encoding returns its field values and consumes exactly its bits, unless it has one of the seven features the parser handles differently: num_ref_idx defaults taken for granted, entry points, deblocking override, list modifications, weights of list 1, chroma weights, current picture referencing. For every input and state: what is accepted is an encoding in the parser's own layout and every such encoding is accepted; without the PPS or SPS nothing is returned.", "quantifier": "every header, PPS, SPS and store; every bit string", "why_tests_cant": "all flag combinations across three structures", "anchors": ["src/h265_slice_parser.cc: ParseSliceSegmentHeader"]}
{"id": "C38", "title": "num_entry_point_offsets is bounded as the standard requires", "statement": "An accepted slice header has num_entry_point_offsets within the standard's limit for its tiles/wavefront mode, and exactly that many offsets.", "quantifier": "every slice, PPS and SPS", "why_tests_cant": "limits are products of attacker-controlled counts", "anchors": ["src/h265_slice_parser.cc: isValidNumEntryPointOffsets"]}
{"id": "C39", "title": "pred_weight_table() layout", "statement": "ParsePredWeightTable returns one luma flag per active reference (and one chroma flag when ChromaArrayType != 0), one weight/offset pair per set flag, and consumes exactly the coded bits.", "quantifier": "every bit string, ChromaArrayType and count", "why_tests_cant": "all counts and flag patterns", "anchors": ["src/h265_pred_weight_table_parser.cc"]}
{"id": "C40", "title": "SEI message header and payload extents", "statement": "ParseSei decodes payload_type and payload_size as sums of ff bytes plus a last byte, keeps user-data (and unknown) payloads of exactly the announced size, never accepts such a payload longer than the data, and never allocates more than 255 bytes per input byte. The payload types with a fixed layout are returned exactly, in the standard's layout but for colour remapping tables whose two depths differ in bytes, and payload_size plays no role for them.", "quantifier": "every byte buffer", "why_tests_cant": "all sizes, including truncated ones", "anchors": ["src/h265_sei_parser.cc: ParseSei, parse_payload"]}
{"id": "C41", "title": "AUD parsing", "statement": "ParseAud succeeds exactly when at least 3 bits are present and returns them as pic_type; the trailing bits are read but not required to be well formed.", "quantifier": "every buffer", "why_tests_cant": "all contents and alignments", "anchors": ["src/h265_aud_parser.cc: ParseAud"]}
{"id": "C42", "title": "Configuration box (hvcC) parsing", "statement": "ParseConfigurationBox accepts only boxes with configurationVersion 1 and the fixed reserved bits, returns the encoded header fields and, for every array, the announced number of NAL units cut at the announced lengths.", "quantifier": "every byte buffer", "why_tests_cant": "all boxes", "anchors": ["src/h265_configuration_box_parser.cc: ParseConfigurationBox"]}
{"id": "C43", "title": "RTP payload dispatch", "statement": "ParseRtp chooses single NAL unit for types 0..47, aggregation packet for 48, fragmentation unit for 49, and nothing otherwise, without consuming bits before the chosen parser starts.", "quantifier": "every packet and parser state", "why_tests_cant": "all packets", "anchors": ["src/h265_rtp_parser.cc: ParseRtp"]}
{"id": "C44", "title": "RTP aggregation packets are split at the announced sizes", "statement": "ParseRtpAp accepts a packet iff, after its header, it consists of NAL units one behind the other, each with a 16-bit size that the rest of the packet reaches, and returns these sizes, headers and payloads. A unit begins where the parser of the previous payload stopped: these are the announced boundaries for units whose payload delimits itself (VPS, SPS, PPS, AUD, unparsed types), and not for slices and escaped units.", "quantifier": "every packet", "why_tests_cant": "all packets", "anchors": ["src/h265_rtp_ap_parser.cc: ParseRtpAp"]}
{"id": "C45", "title": "RTP fragmentation units", "statement": "ParseRtpFu decodes S, E and FuType; it parses a payload exactly when S is set and then dispatches on FuType, never on the packet type.", "quantifier": "every packet", "why_tests_cant": "all packets", "anchors": ["src/h265_rtp_fu_parser.cc: ParseRtpFu"]}
{"id": "C46", "title": "Slice QP", "statement": "GetSliceQpY returns one value per slice with a known PPS, in stream order, and nothing for other NAL units: 26 + init_qp_minus26 + slice_qp_delta with the PPS of that id at the END of the stream; this is the slice's own PPS if no PPS is replaced by one with another init_qp. Its only undefined behaviour is a sum outside int32 (and, for RTP, an aggregation packet without units).", "quantifier": "every bitstream, every RTP packet", "why_tests_cant": "all streams; integer overflow is never sampled", "anchors": ["src/h265_utils.cc: GetSliceQpY"]}
{"id": "C47", "title": "No undefined behaviour while parsing", "statement": "No parser entry point, on any bytes and any parser state reached by parsing, reads outside its buffer, divides by zero, shifts out of range, fails an assertion or dereferences null. The only undefined behaviour is signed overflow; it cannot occur for tame input: payloads that conform to the standard or do not contain 24 zero bits in a row.", "quantifier": "every byte string, every history", "why_tests_cant": "universal over inputs", "anchors": ["src/*.cc parsers"]}
{"id": "C48", "title": "Parsers terminate, only move forward and stay inside the buffer", "statement": "Every parser halts on every input, never moves the position backwards or past the end, and parsed_length never exceeds the unescaped NAL unit length.", "quantifier": "every buffer, every parser", "why_tests_cant": "universal over inputs; loop counts come from the data", "anchors": ["src/*.cc parsers", "src/h265_nal_unit_parser.cc: parsed_length"]}
{"id": "C49", "title": "Parsing depends only on the bits consumed; truncation is detected", "statement": "If a structure parses consuming k bits, it parses to the same value from any buffer with the same k bits, and fails on any buffer that ends earlier. Two parsers tolerate truncation and for them the statement says what comes out: a PPS cut inside its multilayer extension is returned without the extension, a SEI message cut inside its payload is returned without the payload.", "quantifier": "every structure and every pair of buffers", "why_tests_cant": "pairs of inputs", "anchors": ["src/h265_vps_parser.cc", "src/h265_sps_parser.cc", "src/h265_pps_parser.cc", "src/h265_slice_parser.cc"]}
{"id": "C50", "title": "Memory is linear in the input", "statement": "Whatever counts a NAL unit, stream, box or packet claims, and whatever was parsed before with the same state, all vectors of the returned structures together hold at most two elements per bit of the input (16 per byte; vectors filled in parallel by one loop count once), and the buffers allocated for SEI payloads before they are read have at most 255 bytes per input byte.", "quantifier": "every byte string and every history of calls with the parser state", "why_tests_cant": "hostile counts up to 2^32", "anchors": ["src/*.cc parsers"]}
{"id": "C51", "title": "Dumping a parsed structure is safe", "statement": "fdump of whatever the bitstream, NAL unit, configuration box or RTP parser returned dereferences null iff one of these holds: an access unit delimiter whose payload was not parsed, a PPS that lost its announced multilayer extension, a checksum asked for when printing but not when parsing, a unit of the box that could not be parsed. Otherwise everything is printed.", "quantifier": "every input and option set", "why_tests_cant": "all partially parsed inputs", "anchors": ["src/h265_nal_unit_payload_parser.cc: fdump", "src/h265_nal_unit_parser.cc: fdump", "src/h265_pps_parser.cc: fdump", "src/h265_configuration_box_parser.cc: fdump"]}
{"id": "C52", "title": "SPS/PPS extension layouts", "statement": "The range, multilayer, 3D and SCC extensions of the SPS are read with the standard's layout: every encodable extension is returned exactly and consumes exactly its bits. The multilayer and SCC extensions of the PPS likewise, with two differences from the standard: resampling phases are read as se(v) instead of ue(v), the chroma palette depth is read iff the palette is monochrome instead of iff it is not.", "quantifier": "every encodable extension", "why_tests_cant": "all flag combinations", "anchors": ["src/h265_sps_range_extension_parser.cc", "src/h265_sps_multilayer_extension_parser.cc", "src/h265_sps_3d_extension_parser.cc", "src/h265_sps_scc_extension_parser.cc", "src/h265_pps_scc_extension_parser.cc", "src/h265_pps_multilayer_extension_parser.cc"]}
{"id": "C53", "title": "Printable checksum", "statement": "GetPrintableChecksum is the lowercase hexadecimal of the checksum bytes, two digits per byte, and NaluChecksum::fdump never writes outside an output buffer of at least one byte; with output_len = 0 it writes in front of it.", "quantifier": "every checksum and every output length", "why_tests_cant": "all lengths", "anchors": ["src/h265_common.cc: NaluChecksum::fdump, GetPrintableChecksum"]}
{"id": "C54", "title": "Signed Exp-Golomb: every code number", "statement": "For every code number k read by ue(v), the signed reader consumes the same bits and returns -(k/2) for even k, (k+1)/2 for odd k below 2^31-1, has signed overflow at k = 2^31-1, and returns (k+1)/2 - 2^31 for larger odd k; it fails exactly where ue(v) fails. The standard's value is returned iff that value is below 2^30; whatever is returned is an int32.", "quantifier": "every buffer and position", "why_tests_cant": "2^32 code numbers, all buffers", "anchors": ["src/rtc_common.cc: ReadSignedExponentialGolomb"]}
{"id": "C55", "title": "Signed Exp-Golomb write then read: every int32", "statement": "Reading back what WriteSignedExponentialGolomb(v) wrote gives v for v < 2^30, is undefined for v = 2^30 and gives v - 2^31 above; INT32_MIN is never written; nothing is written without room.", "quantifier": "every int32 v, buffer and position", "why_tests_cant": "2^32 values, all buffers", "anchors": ["src/rtc_common.cc: WriteSignedExponentialGolomb, ReadSignedExponentialGolomb"]}
{"id": "C56", "title": "Non-symmetric code: every number of values", "statement": "ReadNonSymmetric(n) returns v < n exactly when the standard's ns(n) codeword of v is next, fails exactly when there is none, for 2 <= n < 2^31; for every other n it aborts (n <= 1, n > 2^31) or shifts out of range (n = 2^31). WriteNonSymmetric(v, n) writes exactly the codeword or, without room, nothing for these n and v < n; outside it aborts or shifts out of range.", "quantifier": "every uint32 n and v, buffer and position", "why_tests_cant": "all 2^64 argument pairs, all buffers", "anchors": ["src/rtc_common.cc: ReadNonSymmetric, WriteNonSymmetric"]}
{"id": "C57", "title": "Framing does not matter", "statement": "The same NAL units give the same parsed units (header, payload, parsed length, checksum) and the same final parser state whether they are sent as an Annex B stream with any mix of 3- and 4-byte start codes, or length-prefixed with any width of the length field that can hold their lengths; undefined behaviour, if any, is the same too.", "quantifier": "every list of NAL units, every choice of start codes, every length width, every initial state", "why_tests_cant": "relation between pairs of unbounded inputs", "anchors": ["src/h265_bitstream_parser.cc: ParseBitstream, ParseBitstreamNALULength"]}
{"id": "C58", "title": "Units without parameter sets can be dropped", "statement": "Leaving out a NAL unit that is not a VPS, SPS or PPS from a stream changes neither the other units returned nor the final state.", "quantifier": "every stream, every position, every unit not of type 32..34, every initial state", "why_tests_cant": "all streams and positions", "anchors": ["src/h265_bitstream_parser.cc: ParseBitstream", "src/h265_nal_unit_payload_parser.cc: ParseNalUnitPayload"]}
{"id": "C59", "title": "Repeating and reordering parameter sets", "statement": "A parameter set sent again while it is in force changes nothing (not the results of any later unit, not the store), parsing the same unit twice in a row gives the same result twice, and two different parameter sets (other kind or other id) may be sent in either order.", "quantifier": "every history, every unit, every initial state", "why_tests_cant": "all histories", "anchors": ["src/h265_nal_unit_payload_parser.cc: ParseNalUnitPayload", "include/h265_bitstream_parser_state.h"]}
{"id": "C60", "title": "Options do not change what is parsed", "statement": "ParsingOptions only decide whether a checksum is present: header, payload, range, parsed length and state are the same for all options.", "quantifier": "every buffer, every pair of options, every initial state", "why_tests_cant": "all inputs and options", "anchors": ["src/h265_nal_unit_parser.cc: ParseNalUnit", "src/h265_bitstream_parser.cc: ParseBitstream"]}
{"id": "C61", "title": "Emulation prevention is transparent", "statement": "Parsing a NAL unit after emulation prevention is parsing it without (ParseNalUnitUnescaped); a stream built as Annex B says from any NAL units gives the same as parsing these unescaped one by one.", "quantifier": "every NAL unit content not ending in a zero byte, every list of them, every initial state", "why_tests_cant": "all contents, including those that need escaping", "anchors": ["src/h265_nal_unit_parser.cc: ParseNalUnit, ParseNalUnitUnescaped", "src/h265_common.cc: UnescapeRbsp"]}
{"id": "C62", "title": "Configuration box equals in-band units", "statement": "A configuration box has the same effect as its NAL units at the front of the stream: same units, same state, and whatever is parsed afterwards gives the same.", "quantifier": "every well-formed box and following stream, every initial state", "why_tests_cant": "all boxes and streams", "anchors": ["src/h265_configuration_box_parser.cc: ParseConfigurationBox"]}
{"id": "C63", "title": "RTP single packets equal NAL units", "statement": "Sending NAL units (type up to 47) in single NAL unit packets gives packets with exactly the header and payload ParseNalUnit returns for the same bytes, and the same state, packet after packet.", "quantifier": "every list of packets, every initial state", "why_tests_cant": "all packets and histories", "anchors": ["src/h265_rtp_parser.cc: ParseRtp", "src/h265_rtp_single_parser.cc: ParseRtpSingle"]}
{"id": "C64", "title": "more_rbsp_data on every buffer", "statement": "more_rbsp_data never fails and never moves, and answers false iff nothing is left or exactly a one bit followed by fewer than eight zero bits is left.", "quantifier": "every buffer and position", "why_tests_cant": "all buffers", "anchors": ["src/h265_common.cc: more_rbsp_data"]}
{"id": "C65", "title": "Access unit delimiter on every buffer", "statement": "ParseAud succeeds iff three bits are left; it returns them as pic_type; afterwards the position is where rbsp_trailing_bits() stopped, whether that succeeded or not.", "quantifier": "every buffer and position", "why_tests_cant": "all buffers", "anchors": ["src/h265_aud_parser.cc: ParseAud"]}
{"id": "C66", "title": "Cropped resolution of every accepted SPS", "statement": "For every accepted SPS getResolution succeeds with the standard's cropped width and height, between -67552 and 16888, positive iff the conformance window leaves a sample in that direction.", "quantifier": "every accepted SPS", "why_tests_cant": "all SPSs", "anchors": ["src/h265_sps_parser.cc: getResolution"]}
{"id": "C67", "title": "GetSliceQpY on every stream", "statement": "If the stream parses, GetSliceQpY is undefined iff for some slice 26 + init_qp_minus26 or the whole sum with slice_qp_delta leaves int32, with the PPS that has the slice's PPS id at the end of the stream; otherwise it returns exactly these sums, one per slice, in stream order, and the state after the stream.", "quantifier": "every stream and initial state", "why_tests_cant": "all streams and histories", "anchors": ["src/h265_utils.cc: GetSliceQpY"]}
{"id": "C68", "title": "Layout of the printed text", "statement": "fdump(level) of any parsed state (NAL unit, parameter set, slice, SEI, configuration box, RTP single/AP/FU packet, ...) prints at level -1 a single line; at every level >= -1 it prints the same words; at level >= 0 every line is indented by two blanks per open brace, every opened block is closed by a brace on a line of its own at the indentation of the line that opened it. RtpState is the one exception: it prints no line break before its packet. A bitstream at level -1 is printed as exactly one line per NAL unit, in order. Whether fdump is defined does not depend on the level.", "quantifier": "every state (of any shape and size), every options value and every indentation level", "why_tests_cant": "all states, including nested vectors of any length, and all levels", "anchors": ["src/*: fdump", "src/h265_common.cc: fdump_indent_level, indent_level_incr, indent_level_decr"]}
{"id": "C69", "title": "The printed text is faithful", "statement": "Two states of the same kind (NAL unit header, access unit delimiter, profile_tier_level, hrd_parameters, VUI, scaling lists, VPS, SPS, PPS, slice segment header, SEI message) obtained from parsing any two buffers and printed by fdump at any two indentation levels with the same words hold the same values, but for the fields that fdump does not print at all (a few of SPS and PPS, named in the theorems): no two values are printed alike.", "quantifier": "every pair of buffers accepted by the parser (slice headers: of less than 256 MiB, same NAL unit type and parser state) and every pair of indentation levels", "why_tests_cant": "ranges over all pairs of accepted inputs; a test compares a few dumps with expected texts", "anchors": ["src/*: fdump", "src/h265_*_parser.cc: Parse*"]}
{"id": "C70", "title": "The table of --dump-length", "statement": "h265nal --dump-length prints a header line and then, for the units of the stream in order, one row of nine comma separated columns per NAL unit (its number, the number of its picture, type, type name, length in bytes, empty bit rate, and for slices the first_slice_segment_in_pic_flag, the address and the POC lsb), and after each picture one row with the picture's number, the type of its last slice and 8 * fps * (bytes of its slices) as bit rate. A picture begins at every slice with first_slice_segment_in_pic_flag = 1 that follows another slice. Each of the 64 types has its own name.", "quantifier": "every start-code stream below 4 GiB, every list of parsed units, every number of frames per second", "why_tests_cant": "all streams, slices and pictures of any number and order", "anchors": ["tools/h265nal.cc: main", "src/h265_common.cc: NalUnitTypeToString, IsSliceSegment"]}
{"id": "C71", "title": "The command line tool has no undefined behaviour", "statement": "With any arguments, any hvcC file and stream below 4 GiB, h265nal ends with an exit code (0 if it printed, -1 or the one of C75 if arguments or files were refused) and defined behaviour, except in exactly these cases: null is dereferenced iff the hvcC file has a unit that cannot be printed (C51) or the stream is unfit for the dump mode (--dump-length with a slice that could not be parsed; a full dump with a unit that cannot be printed); a parser fault, which is signed overflow (C47) or, with --nalu-length-bytes of 8 or more, a length past 2^64 (C79).", "quantifier": "every file contents below 4 GiB, every accepted combination of options, with or without an hvcC file", "why_tests_cant": "every byte string and every option combination", "anchors": ["tools/h265nal.cc: main"]}
{"id": "C72", "title": "--add-contents shows the unit", "statement": "With --add-contents each unit of a start-code stream is followed by exactly its bytes in the file (the escaped bytes between its start code and the next one: what the unit parser was given), two hexadecimal digits per byte, so the bytes can be recovered from the text; offset and length are printed too. For length-prefixed streams the bytes shown are those of the reported offset and length (C19), not the unit's.", "quantifier": "every stream and every unit in it", "why_tests_cant": "all streams", "anchors": ["tools/h265nal.cc: main"]}
{"id": "C73", "title": "Numbers on the command line", "statement": "A numeric argument is accepted iff it writes a number from 0 to INT_MAX in decimal (blanks and a sign in front are allowed) or is empty, and then has that value (0 if empty). The value -1, which the help text names for --nalu-length-bytes, is therefore rejected.", "quantifier": "every argument string", "why_tests_cant": "all strings, including overflow, signs, trailing garbage", "anchors": ["tools/h265nal.cc: parse_args"]}
{"id": "C74", "title": "Input files are read completely", "statement": "Standard input is read to its end whatever its size; a file is either read completely or the tool reports an error; when the tool ends with an error it has written nothing; it ends with success only if every file it was told to read was read.", "quantifier": "every file system, file contents and standard input", "why_tests_cant": "all sizes and contents, all failures of reading", "anchors": ["src/h265_utils.cc: ReadFile, ReadStdinToBuffer", "tools/h265nal.cc: main"]}
{"id": "C75", "title": "Command line options", "statement": "Of several options of the same kind the last one counts, whatever stands between them; the verbosity is the number of -d after the last -q; options not given have the documented defaults; the tool starts iff every option is known, every number valid and there is a file to read; otherwise it exits with -1, or with 0 iff --version precedes everything that is wrong.", "quantifier": "every sequence of options", "why_tests_cant": "all sequences of any length", "anchors": ["tools/h265nal.cc: parse_args"]}
{"id": "C76", "title": "--dump-all prints one line per unit", "statement": "h265nal --dump-all (one line mode) prints exactly one line per NAL unit of the stream, in order: the unit's own text with the options given, followed by its contents if asked for; nothing else is printed.", "quantifier": "every file, every option combination without an hvcC file", "why_tests_cant": "all streams with any number of units", "anchors": ["tools/h265nal.cc: main"]}
{"id": "C77", "title": "Options add fields to the text and change nothing else", "statement": "The text of a unit with any options is the text without options with exactly the requested fields inserted: offset, length, parsed length and checksum (lowercase hexadecimal) in this order at the front of the unit, and the standard's cropped width and height at the end of an SPS.", "quantifier": "every unit, option combination and indentation level", "why_tests_cant": "all states and option combinations", "anchors": ["src/h265_nal_unit_parser.cc: NalUnitState::fdump", "src/h265_sps_parser.cc: SpsState::fdump"]}
{"id": "C78", "title": "Equal results come from equal bits", "statement": "Two successful parses that return the same structure have consumed the same bits: no two different bit strings are parsed to one result. Exact for NAL unit headers, profile/tier/level, HRD, VUI, the SPS extensions and SPSs without scaling lists; up to the se(v) codewords of 63 bits that ReadSignedExponentialGolomb confuses for weight tables, slice headers, SEI messages, scaling lists and PPSs. The same printed SPS therefore comes from the same bits. Excluded, since it is false there: VPSs with two or more HRD structures (only the last is kept), coded scaling differences outside -128..127, PPSs that lost their multilayer extension.", "quantifier": "every pair of buffers and positions, every pair of successful calls", "why_tests_cant": "ranges over all pairs of inputs", "anchors": ["src/h265_sps_parser.cc: ParseSps", "src/h265_vps_parser.cc: ParseVps", "src/h265_pps_parser.cc: ParsePps", "src/h265_slice_parser.cc: ParseSliceSegmentHeader", "src/h265_sei_parser.cc: ParseSei"]}
{"id": "C79", "title": "Length-prefixed parsing for every size of the length field", "statement": "For every number of length bytes, ParseBitstreamNALULength cuts the buffer into pieces (length field, that many bytes) and parses exactly the units of the pieces, in order; it stops silently at a field that is cut, is 0 or announces more than is left. With 8 or more bytes only the last 8 count, and a length whose end passes 2^64 makes it read outside the buffer. With size 0 the whole buffer is one unit, reported at offset 0 with length 0.", "quantifier": "every buffer shorter than 2^63 bytes, every length size, every store", "why_tests_cant": "all buffers and all length sizes", "anchors": ["src/h265_bitstream_parser.cc: ParseBitstreamNALULength"]}
{"id": "C80", "title": "Whole streams come back as they were sent", "statement": "A stream of NAL units written with the syntax of the standard (VPS, SPS, PPS, slice segments with data, access unit delimiters, one-message SEI, units of other types; headers, contents, trailing bits, emulation prevention, start codes of 3 or 4 bytes or length fields, or a configuration box followed by a stream), in which each slice refers to parameter sets sent before it and no unit uses the syntax on which the parser departs from the standard, is parsed without error into exactly one unit for each unit sent, in order, with its header and every field of its contents; the store then holds the parameter sets sent last.", "quantifier": "every stream of such units, any number of units and order, every parsing option, both forms of the last byte", "why_tests_cant": "all streams of all conforming structures", "anchors": ["src/h265_bitstream_parser.cc: ParseBitstream, ParseBitstreamNALULength", "src/h265_nal_unit_parser.cc", "src/h265_configuration_box_parser.cc"]}
{"id": "C81", "title": "Frame rate of a VUI", "statement": "For every VUI the parser returns with vui_num_units_in_tick != 0, getFramerate is a finite float whose relative distance from vui_time_scale / vui_num_units_in_tick is at most 2^-22; if both fields are at most 2^24 it is the float nearest to the quotient, so a whole number of frames per second comes out exactly. With vui_num_units_in_tick = 0 it is infinity, and NaN if the time scale is 0 too, which is what every VUI without timing information gives.", "quantifier": "every VUI parsed from any buffer: all 2^64 pairs of fields", "why_tests_cant": "2^64 pairs of fields, three roundings", "anchors": ["src/h265_vui_parameters_parser.cc: getFramerate, ParseVuiParameters"]}
{"id": "C82", "title": "Floating point does not change what is parsed or printed", "statement": "Where integers are computed through floating point, rounding never shows: for every accepted SPS the picture size in CTBs, computed by a double division and ceil, is the exact ceiling; the numbers of bits of slice_segment_address, short_term_ref_pic_set_idx and lt_idx_sps, computed by ceil(log2f(n)), are Ceil(Log2(n)) for every C library whose log2f is off by less than one unit in the last place (although that is false for some n below 2^23, such as 2^22+1, which no accepted picture size has); the decimals printed for mastering display values are those of the exact product, for every 32-bit value.", "quantifier": "every SPS accepted from any buffer, every faithful log2f, every uint32_t printed", "why_tests_cant": "rounding fails for isolated values only, and depends on the C library", "anchors": ["src/h265_sps_parser.cc: getPicWidthInCtbsY, getPicHeightInCtbsY", "src/h265_slice_parser.cc: ParseSliceSegmentHeader", "src/h265_sei_parser.cc: H265SeiMasteringDisplayColourVolumeState::fdump"]}
{"id": "C83", "title": "Every parser can be called on its own", "statement": "Every public Parse...(data, length, ...) function, GetNalUnitType and ParseNalUnitUnescaped (33 entry points), called on any bytes with any arguments, in any order and with any state that earlier calls produced, returns or meets a signed overflow: no out-of-bounds access, null dereference, failed assertion or endless loop. NAL unit header, type, AUD, VPS, profile_tier_level, HRD, VUI and the SPS extension parsers never meet undefined behaviour; the others only if the bytes they parse contain 24 zero bits in a row, ParseStRefPicSet only if a set it is given has a DeltaPoc beyond 2^29 - 32768. Exceptions: ParseStRefPicSet reads beyond the vector of sets if it is shorter than the index; ParseSpsSccExtension asserts if a bit depth argument wraps to 0. The sets that ParseStRefPicSet and ParseSps return can be passed to ParseStRefPicSet.", "quantifier": "every sequence of calls of all entry points, all bytes, all uint32_t arguments", "why_tests_cant": "unbounded histories and inputs; the fuzzers call each parser with fixed arguments and an empty state", "anchors": ["include/*.h: Parse...(const uint8_t* data, size_t length, ...)", "fuzz/*.cc", "src/h265_st_ref_pic_set_parser.cc: ParseStRefPicSet", "src/h265_sps_scc_extension_parser.cc: ParseSpsSccExtension"]}
{"id": "C84", "title": "Words of the command line", "statement": "h265nal recognises exactly the command lines that write a list of options: each option by its long name or an unambiguous beginning of it, with the argument behind '=' or in the next word, or by its short form (-d, -h, -i file, -o file; clusters, argument glued or in the next word), with operands anywhere and everything after '--' ignored; the options are applied in that order and no name stands for another option. Any other command line is refused, so the tool starts iff the words write known options with valid numbers and a file to read. Every form shown by the help text is recognised, except -q, which is refused, and reading standard input by default: without -i or --hvcc-file the tool stops.", "quantifier": "every list of words", "why_tests_cant": "unbounded command lines, abbreviations and interleavings", "anchors": ["tools/h265nal.cc: longopts, parse_args, usage"]}
{"id": "C85", "title": "The printed dump determines the units", "statement": "If two runs of h265nal with the same arguments, in the default mode, each on an hvcC file, on a stream of less than 2^28 bytes, or on both, print the same words, then they found the same configuration box (header fields, arrays, lengths and units of the arrays) and the same units of the stream, the slices being read with the parameter sets of the box if there is one: as many, in the same order, with the same NAL unit headers and the same payloads, except for what is never printed (all but the last hrd_parameters of a VPS, diff_cu_qp_delta_depth and the palette chroma depth of a PPS, coded differences of scaling lists, extension data flags); offsets, lengths, parsed lengths and checksums are equal if their options are given, and so are the bytes of the units with --add-contents. This holds in one-line and multi-line mode, with start codes and with length fields.", "quantifier": "every argument list, every pair of inputs", "why_tests_cant": "injectivity over all pairs of streams and of sequences of parameter sets that the slice headers refer to", "anchors": ["tools/h265nal.cc: main", "src/h265_nal_unit_parser.cc: NalUnitState::fdump", "src/h265_nal_unit_payload_parser.cc: fdump", "src/h265_configuration_box_parser.cc: ConfigurationBoxState::fdump"]}
{"id": "C86", "title": "What a run reads and writes", "statement": "h265nal reads no file but those named by -i and --hvcc-file, and reads them completely before it opens the output file, so the input may be the output file. It changes no file but the one named by -o, whether it ends well, fails or is killed at any moment; if it ends with a code other than 0, no file was changed. After a run that ends with 0 the output file holds exactly the dump, whatever it held before; if the run is killed, it is as before or holds a beginning of the dump. Without -o, or with -o -, the dump goes to standard output, after the text of -d -d if that is given. A run that ends with 0 prints nothing on standard error; any other prints a message there, except when the hvcC box cannot be parsed in a build without FPRINT_ERRORS. A run depends on no file but its inputs, so it can be repeated after being killed unless its output is an input. The message is about the first bad argument, or that there is nothing to read, or the input that is missing, empty or shorter than its size, or the output that cannot be opened, with its name; a file that can be read is never complained about.", "quantifier": "every command line, every file system, every moment at which the process is killed", "why_tests_cant": "all crash points and all initial contents of the file system", "anchors": ["tools/h265nal.cc: main, parse_args, usage", "src/h265_utils.cc: ReadFile"]}
{"id": "C87", "title": "Loss and damage stay local", "statement": "A receiver that joins an Annex B stream late, at any byte (the rest of a unit before the next start code is skipped), and with an empty store, finds every unit that begins after this point; nothing that was defined becomes undefined; all units that are not slices come out the same, and a slice segment comes out the same if the PPS and the SPS it refers to are sent after this point, and is returned without a header otherwise (never with another one). Likewise two receivers with any two histories agree on every later unit that is not a slice and on every slice whose sets were sent again. Replacing, removing or inserting units that are not parameter sets changes no other unit and not the final store.", "quantifier": "every stream, every byte to join at, every pair of histories, every replaced run of units", "why_tests_cant": "all streams, all points to join and all kinds of damage", "anchors": ["src/h265_bitstream_parser.cc: ParseBitstream, FindNaluIndices", "src/h265_nal_unit_payload_parser.cc: ParseNalUnitPayload", "src/h265_slice_parser.cc: ParseSliceSegmentHeader", "src/h265_bitstream_parser_state.cc"]}
{"id": "C88", "title": "Same units, same output", "statement": "What the tool prints depends on the NAL units and not on how they are stored. Two runs with the same printing options, on files that hold the same NAL units (up to the way emulation prevention bytes are used) behind start codes of any lengths or behind length fields of any size, with the same hvcC file or none, end alike and print the same text, as long as neither offsets nor lengths nor contents are asked for; for start codes of different lengths the lengths and the table of --dump-length are the same too. (Behind length fields the tool reports the size of the length field as the length of each unit, so there --add-length tells the containers apart.) With the parameter sets in an hvcC file instead of at the front of the stream, everything after the line of the box is what otherwise comes after the lines of the sets.", "quantifier": "every list of NAL units, every container, every set of options, every content of the hvcC file", "why_tests_cant": "all lists of units times all containers times all options", "anchors": ["tools/h265nal.cc: main", "src/h265_bitstream_parser.cc: ParseBitstream, ParseBitstreamNALULength", "src/h265_common.cc: UnescapeRbsp", "src/h265_configuration_box_parser.cc: ParseConfigurationBox"]}
{"id": "C89", "title": "Equal output means equal streams were sent", "statement": "Two streams that conform to the standard (within the syntax the parser reads as the standard has it), each stored in some container and printed by the tool with the same options: if the same words are printed, the same units were sent, as many, in the same order, with the same headers, and with the same contents as far as contents are ever printed (all of a VPS; SPS and PPS but for the coded differences of scaling lists and the two PPS fields that are not printed; slice segment headers; access unit delimiters; the first message of an SEI unit). With --add-contents and start codes the bytes of all units are the same, so nothing sent is lost in the text.", "quantifier": "every pair of conforming streams, containers and options", "why_tests_cant": "all pairs of conforming streams", "anchors": ["tools/h265nal.cc: main", "src/h265_bitstream_parser.cc: ParseBitstream", "src/h265_nal_unit_parser.cc: fdump"]}
{"id": "C90", "title": "What follows a unit does not change what is printed about it", "statement": "A file is printed, and another file that begins with the same bytes (the first one cut off anywhere, or with more bytes appended), with the same options and configuration box. In a stream with start codes every line but the last one of the shorter file is a line of the longer one, at the same place; with --dump-length all rows but the last three (the row of the unit that was cut, and at most two rows of pictures). If the added bytes begin with a start code (and the unit in front of it is not empty), the output of the longer file is the output of the shorter one with text added to it; with --dump-length only the row of the last picture can change. With lengths of 1 to 7 bytes in front of the units this holds wherever the file is cut. In the layout with many lines the text of at most one unit changes.", "quantifier": "every file, every cut, every continuation, every set of options", "why_tests_cant": "all files and all places to cut them; tests fix a few files", "anchors": ["src/h265_bitstream_parser.cc FindNaluIndices", "src/h265_bitstream_parser.cc ParseBitstream, ParseBitstreamNALULength", "tools/h265nal.cc main"]}
{"id": "C91", "title": "Parsing takes time proportional to the size of the input", "statement": "Parsing n bytes takes a number of steps (peeks, consumes, seeks, rounds of loops, calls, bytes copied) that is at most a constant times n plus a constant, whatever the bytes are, whatever counts and sizes they announce and whatever parameter sets are stored: for a VPS, SPS, PPS, slice header, SEI, access unit delimiter, NAL unit (with or without checksum), configuration box, single NAL unit and fragmentation unit packet, and a whole stream, however many units it has. For a VPS, SPS or slice header that is accepted the work is proportional to the bits consumed. For an aggregation packet the bound is quadratic in the size of the packet.", "quantifier": "every input, every parameter set state, every option", "why_tests_cant": "tests time a few inputs; the bound is about the worst input of every size", "anchors": ["src/rtc_common.cc BitBuffer", "src/h265_vps_parser.cc ParseVps", "src/h265_sps_parser.cc ParseSps", "src/h265_pps_parser.cc ParsePps", "src/h265_slice_parser.cc ParseSliceSegmentHeader", "src/h265_sei_parser.cc ParseSei", "src/h265_nal_unit_parser.cc ParseNalUnit", "src/h265_configuration_box_parser.cc ParseConfigurationBox", "src/h265_rtp_parser.cc ParseRtp", "src/h265_rtp_ap_parser.cc ParseRtpAp", "src/h265_bitstream_parser.cc ParseBitstream, ParseBitstreamNALULength"]}
{"id": "C92", "title": "The printed text is bounded by the size of the input", "statement": "The text printed for what was parsed from n bytes (a NAL unit, a stream with start codes or length fields, an RTP packet, a configuration box) has at most 41600 characters per byte and 60 more for each pair of long-term pictures listed by one slice header, times the indent level plus 2 (times 1 for text on one line), whatever the bytes are and whatever was parsed before. So the text never exceeds a quadratic function of n, and is linear, at most 56960 characters per byte, if no slice header lists more long-term pictures than the standard allows (16). The whole output of the h265nal tool, in both dump modes, with any arguments, is at most 300 + 83204 n + 30720 n^2 characters for inputs of n bytes in total, and at most 300 + 113924 n if no slice header lists more than 16 long-term pictures. The quadratic part is really there: for every n below 2^24 there is a stream of at most 3 n + 400 bytes (an SPS, a PPS and a slice, encoded as the standard says) for which the text has n^2 characters or more: a megabyte of input can demand more than a hundred gigabytes of text.", "quantifier": "every input, every history of calls before it, every option, every indent level, every set of command line arguments and files", "why_tests_cant": "tests print a few streams; the bound is about the worst input of every size, with counts that claim more than is there", "anchors": ["src/h265_nal_unit_parser.cc NalUnitState::fdump", "src/h265_bitstream_parser.cc BitstreamState::fdump", "src/h265_slice_parser.cc SliceSegmentHeaderState::fdump", "src/h265_rtp_parser.cc RtpState::fdump", "src/h265_configuration_box_parser.cc ConfigurationBoxState::fdump", "tools/h265nal.cc main"]}
{"id": "C93", "title": "Parameter sets that the caller stores itself", "statement": "The maps of the parser state are public, and callers (the fuzz targets and the unit tests, for example) store SPS and PPS structs of their own in them, under any key. If every stored SPS has CtbLog2SizeY below 32, at least as many short-term reference picture sets as its counter says, each with as many entries as its counts say, and a log2_max_pic_order_cnt_lsb_minus4 whose sum with 4 does not wrap to 0, and every stored PPS with pps_scc_extension_flag has its extension, then no call on any bytes, in any order, mixed with any further stores and removals, has undefined behaviour other than signed overflow, and, if the picture size of an SPS is 0, the conversion of an infinite logarithm to an integer; this happens for exactly the slice headers that are not the first of a picture and name such an SPS, complete up to slice_segment_address: alone, as the payload of a NAL unit or single-unit packet, in a first fragment, or in a unit of an Annex B stream with the sets that the units before it left. Everything the SPS and PPS parsers return satisfies the conditions. Each of the conditions is needed: without it a one- or four-byte slice header shifts by 32, converts an infinity, reads outside a vector, fails the assertion of the bit reader or dereferences null.", "quantifier": "every history of calls of any entry point with any bytes and arguments and of stores and removals of parameter sets under any key; every input", "why_tests_cant": "unit tests store one default SPS and parse well-formed slices; which stored values can crash the parser is a question about all values and all inputs", "anchors": ["include/h265_bitstream_parser_state.h H265BitstreamParserState", "src/h265_slice_parser.cc ParseSliceSegmentHeader", "src/h265_sps_parser.cc getPicSizeInCtbsY", "src/h265_st_ref_pic_set_parser.cc ParseStRefPicSet", "src/h265_utils.cc GetSliceQpY"]}
{"id": "C94", "title": "What the fuzz targets can find", "statement": "Of the 27 fuzz targets (fuzz/*.cc), eleven (AUD, HRD, sub-layer HRD, profile_tier_level, VPS, VUI, the four SPS extensions, st_ref_pic_set) return on every input. Thirteen (NAL unit, Annex B stream, configuration box, RTP packet, single NAL unit and aggregation packet, SPS, PPS, the two PPS extensions, prediction weights, scaling lists, SEI) return or meet a signed overflow, and this only if the unescaped input, or one of the NAL units in it, has 24 zero bits in a row; each does overflow on some input. Three (slice, RTP fragment, GetSliceQpY) store parameter sets of their own, with a picture size of 0: they can meet a signed overflow or the conversion of an infinite logarithm; the slice target meets the latter on exactly the inputs whose first bit is 0 and third bit is 1 after unescaping, a quarter of all inputs. The fragment target meets it on exactly the first fragments of such slice segments, the GetSliceQpY target on exactly the streams with such a unit before which no other unit overflows.", "quantifier": "every input of every fuzz target", "why_tests_cant": "fuzzing samples inputs; that eleven of the targets never meet undefined behaviour, and which inputs make the others meet it, is about all inputs", "anchors": ["fuzz/h265_slice_parser_fuzzer.cc LLVMFuzzerTestOneInput", "fuzz/h265_rtp_fu_parser_fuzzer.cc LLVMFuzzerTestOneInput", "fuzz/h265_utils_fuzzer.cc LLVMFuzzerTestOneInput", "fuzz/h265_bitstream_parser_fuzzer.cc LLVMFuzzerTestOneInput", "fuzz/h265_pred_weight_table_parser_fuzzer.cc LLVMFuzzerTestOneInput"]}
{"id": "C95", "title": "Conforming sequence parameter sets are accepted", "statement": "Every SPS that can be written in the syntax of the standard and keeps the limits of its text for a level up to 6.2 (picture size a multiple of MinCbSizeY and within MaxLumaPs, coding tree blocks of at most 64x64, buffering within MaxDpbSize, windows that leave something of the picture, palettes as in the screen content profiles) is accepted and returned exactly, apart from the layout deviations of C25 and C27: none of the parser's own limits rejects it. So the streams of C80 may contain any such SPS. Its resolution is reported as the cropped size, which is never empty. There are two exceptions. The offsets of the default display window are limited to 16384, which a picture without chroma subsampling that is wider or higher than 16385 samples can exceed; and sizes above 16888, which level 6.3 allows, are rejected.", "quantifier": "every SPS of the standard, every bit string after it", "why_tests_cant": "the limits are on all combinations of some hundred values; a limit that is too tight is met only by rare streams", "anchors": ["src/h265_sps_parser.cc: ParseSps, kMaxWidth, kMaxHeight", "src/h265_vui_parameters_parser.cc: ParseVuiParameters", "src/h265_sps_scc_extension_parser.cc: ParseSpsSccExtension"]}
