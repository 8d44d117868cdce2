{
 "claims": [
  {
   "property": "C01",
   "status": "proved",
   "theorems": [
    "C01_read_exact",
    "C01_read64_exact",
    "C01_peek_exact",
    "C01_peek64_exact",
    "C01_read_advances",
    "C01_zero_width_aborts"
   ],
   "note": ""
  },
  {
   "property": "C02",
   "status": "proved",
   "theorems": [
    "C02_ue_exact",
    "C02_ue_complete"
   ],
   "note": ""
  },
  {
   "property": "C03",
   "status": "proved",
   "theorems": [
    "C03_se_exact",
    "C03_se_complete",
    "C03_se_refuted",
    "C03_se_every_code",
    "C03_se_every_value"
   ],
   "note": "Complete: every code number. C03_se_every_code / C03_se_every_value give the value for all of them, C03_se_exact / C03_se_complete the region where it is the standard's, C03_se_refuted that it is not beyond."
  },
  {
   "property": "C04",
   "status": "proved",
   "theorems": [
    "C04_write_read",
    "C04_write_read64"
   ],
   "note": ""
  },
  {
   "property": "C05",
   "status": "proved",
   "theorems": [
    "C05_write_frame",
    "C05_write_frame_bytes"
   ],
   "note": ""
  },
  {
   "property": "C06",
   "status": "proved",
   "theorems": [
    "C06_ue_round_trip",
    "C06_se_round_trip",
    "C06_se_writer_exact",
    "C06_unwritable",
    "C06_se_refuted",
    "C06_se_round_trip_every_value"
   ],
   "note": "Complete: every value. The signed round trip fails exactly from 2^30 on (C06_se_refuted, C06_se_round_trip_every_value)."
  },
  {
   "property": "C07",
   "status": "proved",
   "theorems": [
    "C07_nonsymmetric_round_trip",
    "C07_bits_exact",
    "C07_refuted",
    "C07_outside"
   ],
   "note": "Complete: C07_nonsymmetric_round_trip inside, C07_outside for every other argument."
  },
  {
   "property": "C08",
   "status": "proved",
   "theorems": [
    "C08_position_invariant"
   ],
   "note": ""
  },
  {
   "property": "C09",
   "status": "proved",
   "theorems": [
    "C09_unescape_inverts_escape",
    "C09_escaped_has_no_start_code"
   ],
   "note": ""
  },
  {
   "property": "C10",
   "status": "proved",
   "theorems": [
    "C10_unescape_only_removes",
    "C10_pattern_removed",
    "C10_no_pattern_unchanged"
   ],
   "note": ""
  },
  {
   "property": "C11",
   "status": "proved",
   "theorems": [
    "C11_more_rbsp_data",
    "C11_end_of_buffer",
    "C11_never_moves",
    "C11_cabac_zero_words_refuted"
   ],
   "note": "Proved for every buffer ending in well-formed trailing bits. C11_cabac_zero_words_refuted is outside the statement: with cabac_zero_words behind the trailing bits the function answers true."
  },
  {
   "property": "C12",
   "status": "proved",
   "theorems": [
    "C12_rbsp_trailing_bits",
    "C12_complete"
   ],
   "note": ""
  },
  {
   "property": "C13",
   "status": "proved",
   "theorems": [
    "C13_checksum_value",
    "C13_detects_one_byte",
    "C13_swap_undetected",
    "C13_unaligned_refuted"
   ],
   "note": "Proved for every byte-aligned position, as stated. C13_unaligned_refuted is outside the statement (unaligned start); C13_swap_undetected shows the limit of the error detection."
  },
  {
   "property": "C14",
   "status": "proved",
   "theorems": [
    "C14_type_predicates",
    "C14_other_values"
   ],
   "note": ""
  },
  {
   "property": "C15",
   "status": "proved",
   "theorems": [
    "C15_exact",
    "C15_start_codes",
    "C15_ranges"
   ],
   "note": ""
  },
  {
   "property": "C16",
   "status": "proved",
   "theorems": [
    "C16_round_trip",
    "C16_rbsp_round_trip"
   ],
   "note": ""
  },
  {
   "property": "C17",
   "status": "proved",
   "theorems": [
    "C17_round_trip",
    "C17_any_size",
    "C17_small_round_trip",
    "C17_every_buffer",
    "C17_in_bounds",
    "C17_refuted"
   ],
   "note": "Complete: C17_any_size covers every buffer (C17_refuted: the endless loop really occurs); C17_round_trip every list of units; contiguity (C17_in_bounds) for buffers under 4 GiB, where every buffer is such a concatenation (C17_every_buffer)."
  },
  {
   "property": "C18",
   "status": "proved",
   "theorems": [
    "C18_ranges",
    "C18_any_step",
    "C18_no_length",
    "C18_refuted"
   ],
   "note": "Widths 1..7 and 0 (no length field); C18_refuted shows that 8 has to be excluded, C79 describes those widths."
  },
  {
   "property": "C19",
   "status": "proved",
   "theorems": [
    "C19_length_prefixed",
    "C19_ranges_annexb",
    "C19_offset_length_prefixed",
    "C19_length_refuted"
   ],
   "note": "C19_ranges_annexb; C19_offset_length_prefixed and C19_length_prefixed (every length size) say exactly what is reported; C19_length_refuted is a stream where this is not the unit (src/h265_bitstream_parser.cc:240)."
  },
  {
   "property": "C20",
   "status": "proved",
   "theorems": [
    "C20_exact",
    "C20_succeeds_iff_16_bits",
    "C20_GetNalUnitType"
   ],
   "note": ""
  },
  {
   "property": "C21",
   "status": "proved",
   "theorems": [
    "C21_dispatch",
    "C21_one_alternative",
    "C21_fields",
    "C21_safe"
   ],
   "note": ""
  },
  {
   "property": "C22",
   "status": "proved",
   "theorems": [
    "C22_store",
    "C22_invariant",
    "C22_history"
   ],
   "note": ""
  },
  {
   "property": "C23",
   "status": "proved",
   "theorems": [
    "C23_header",
    "C23_unit",
    "C23_no_slice",
    "C23_needs_parameter_sets"
   ],
   "note": ""
  },
  {
   "property": "C24",
   "status": "proved",
   "theorems": [
    "C24_fold",
    "C24_cut",
    "C24_empty_unit",
    "C24_no_state",
    "C24_length_prefixed",
    "C24_nals_ok",
    "C24_nals_bytes"
   ],
   "note": "Lengths of 8 bytes and more: see C18 (refuted there). C24_empty_unit shows why the cut must follow a non-empty unit."
  },
  {
   "property": "C25",
   "status": "proved",
   "theorems": [
    "C25_layout_of_the_code",
    "C25_data_entry_point",
    "C25_standard_layout",
    "C25_accepts_only_standard",
    "C25_sub_layer_count",
    "C25_refuted"
   ],
   "note": "Complete: exact layout in both directions for every input (C25_layout_of_the_code), the standard's where the flags agree; C25_refuted is a standard structure that is misread (src/h265_profile_tier_level_parser.cc:95 tests the profile flag again)."
  },
  {
   "property": "C26",
   "status": "proved",
   "theorems": [
    "C26_profile_type",
    "C26_parsed_structures"
   ],
   "note": ""
  },
  {
   "property": "C27",
   "status": "proved",
   "theorems": [
    "C27_layout_of_the_code",
    "C27_standard_layout",
    "C27_sub_layer_count",
    "C27_cpb_count",
    "C27_refuted",
    "C27_standard_iff"
   ],
   "note": "Complete: exact layout in both directions; C27_standard_iff says for which standard structures it is right (C27_refuted: one for which it is not)."
  },
  {
   "property": "C28",
   "status": "proved",
   "theorems": [
    "C28_layout_of_the_code",
    "C28_data_entry_point",
    "C28_standard_layout",
    "C28_ranges",
    "C28_refuted",
    "C28_standard_iff"
   ],
   "note": "Complete: exact layout and ranges in both directions; C28_standard_iff; C28_refuted is a standard structure that is rejected."
  },
  {
   "property": "C29",
   "status": "proved",
   "theorems": [
    "C29_layout_of_the_code",
    "C29_whole_parser",
    "C29_ok_out",
    "C29_limits_and_lengths",
    "C29_standard_layout",
    "C29_refuted",
    "C29_hrd_never"
   ],
   "note": "Complete: exact layout in both directions, limits and lengths on every accepted VPS, standard where it holds, C29_hrd_never/C29_refuted where it does not (cprms_present_flag[0] is taken as 0)."
  },
  {
   "property": "C30",
   "status": "proved",
   "theorems": [
    "C30_ranges",
    "C30_refuted"
   ],
   "note": "Every range for every accepted SPS (C30_ranges); C30_refuted is an accepted SPS whose width is no multiple of MinCbSizeY."
  },
  {
   "property": "C31",
   "status": "proved",
   "theorems": [
    "C31_sps_ok",
    "C31_layout_of_the_code",
    "C31_accepted",
    "C31_standard_layout",
    "C31_data_entry_point",
    "C31_sets"
   ],
   "note": "Code layout exact in both directions, on all inputs and from escaped bytes; the standard's layout without the deviations of C25/C27, which are refuted there."
  },
  {
   "property": "C32",
   "status": "proved",
   "theorems": [
    "C32_geometry",
    "C32_ctbs_cover_picture"
   ],
   "note": ""
  },
  {
   "property": "C33",
   "status": "proved",
   "theorems": [
    "C33_positive_iff",
    "C33_cropped_size",
    "C33_positive",
    "C33_at_most_coded_size",
    "C33_refuted"
   ],
   "note": "C33_cropped_size and C33_at_most_coded_size for every accepted SPS; C33_positive_iff says when the size is positive; C33_refuted: an accepted SPS of width -16."
  },
  {
   "property": "C34",
   "status": "proved",
   "theorems": [
    "C34_bounds_and_history",
    "C34_history_invariant",
    "C34_exact_for_bounded_history",
    "C34_bound_explicit",
    "C34_bound_inter",
    "C34_overflow_refuted"
   ],
   "note": "Bounds, history and in-bounds derivation for every input and history; overflow is reachable (C34_overflow_refuted) and excluded for bounded histories (C34_exact_for_bounded_history)."
  },
  {
   "property": "C35",
   "status": "proved",
   "theorems": [
    "C35_layout",
    "C35_coefficients",
    "C35_derivation",
    "C35_standard_ranges"
   ],
   "note": ""
  },
  {
   "property": "C36",
   "status": "proved",
   "theorems": [
    "C36_accepted",
    "C36_safe",
    "C36_layout_of_the_code",
    "C36_standard_layout",
    "C36_tile_vectors",
    "C36_unsupported_extensions_rejected",
    "C36_data_entry_point",
    "C36_refuted"
   ],
   "note": "Code layout exact in both directions, safety, tile vectors, rejected extensions for all inputs; the standard's layout without the deviating extension parts; C36_refuted: a PPS returned without its announced extension (C49_pps says exactly what is returned then)."
  },
  {
   "property": "C37",
   "status": "proved",
   "theorems": [
    "C37_accepted",
    "C37_safe",
    "C37_layout_of_the_code",
    "C37_missing_parameter_sets",
    "C37_own",
    "C37_pps_ok",
    "C37_data_entry_point",
    "C37_standard_layout",
    "C37_default_active_refuted",
    "C37_entry_points_refuted",
    "C37_deblocking_refuted",
    "C37_lists_modification_refuted",
    "C37_weights_l1_refuted",
    "C37_own7",
    "C37_chroma_weights_refuted",
    "C37_current_picture_refuted",
    "C37_pps_std"
   ],
   "note": "The code's exact layout is proved in both directions (C37_accepted, C37_layout_of_the_code) for every stored PPS/SPS; C37_standard_layout: the standard's complete syntax without the seven deviations listed in std_no_deviation; each deviation has a _refuted theorem with a standard header that is misread or rejected."
  },
  {
   "property": "C38",
   "status": "proved",
   "theorems": [
    "C38_limit",
    "C38_count"
   ],
   "note": "Proved for every accepted slice."
  },
  {
   "property": "C39",
   "status": "proved",
   "theorems": [
    "C39_layout",
    "C39_counts"
   ],
   "note": "Proved: the exact list 0 layout and the counts, for every ChromaArrayType and count; the code never reads list 1, see C37."
  },
  {
   "property": "C40",
   "status": "proved",
   "theorems": [
    "C40_header_number",
    "C40_sum_of_bytes",
    "C40_code_unique",
    "C40_message_of_the_code",
    "C40_layout",
    "C40_standard_layout",
    "C40_user_data_extent",
    "C40_allocation",
    "C40_extent_refuted",
    "C40_remap_refuted"
   ],
   "note": "Header numbers, every payload layout in both directions and the allocation bound. The two limits in the statement are shown by C40_extent_refuted and C40_remap_refuted."
  },
  {
   "property": "C41",
   "status": "proved",
   "theorems": [
    "C41_pic_type",
    "C41_refuted"
   ],
   "note": "pic_type is the first three bits, always; C41_refuted: malformed trailing bits are accepted."
  },
  {
   "property": "C42",
   "status": "proved",
   "theorems": [
    "C42_complete",
    "C42_sound",
    "C42_counts",
    "C42_safe"
   ],
   "note": ""
  },
  {
   "property": "C43",
   "status": "proved",
   "theorems": [
    "C43_shape",
    "C43_safe",
    "C43_choice",
    "C43_single"
   ],
   "note": ""
  },
  {
   "property": "C44",
   "status": "proved",
   "theorems": [
    "C44_exact",
    "C44_in_place",
    "C44_safe",
    "C44_layout",
    "C44_slice_refuted",
    "C44_escaped_refuted",
    "C44_split",
    "C44_units"
   ],
   "note": "C44_exact: iff, for every packet and store. C44_split/C44_units: the announced boundaries for self-delimiting units; C44_slice_refuted, C44_escaped_refuted: packets of the standard where the announced sizes are missed."
  },
  {
   "property": "C45",
   "status": "proved",
   "theorems": [
    "C45_safe",
    "C45_exact"
   ],
   "note": ""
  },
  {
   "property": "C46",
   "status": "proved",
   "theorems": [
    "C46_values",
    "C46_own_pps",
    "C46_safe",
    "C46_own_pps_refuted",
    "C46_overflow_refuted",
    "C46_rtp",
    "C46_empty_packet_refuted"
   ],
   "note": "Exact values and exact fault conditions; the refuted theorems show a PPS replaced later, a sum outside int32 and an empty aggregation packet."
  },
  {
   "property": "C47",
   "status": "proved",
   "theorems": [
    "C47_only_overflow",
    "C47_tame",
    "C47_refuted"
   ],
   "note": "C47_only_overflow for every history of calls, C47_tame for histories of tame calls; C47_refuted: a signed overflow is reachable."
  },
  {
   "property": "C48",
   "status": "proved",
   "theorems": [
    "C48_reader",
    "C48_substructures",
    "C48_payload_parsers",
    "C48_stateful_parsers",
    "C48_halts",
    "C48_parsed_length"
   ],
   "note": "Model loops carry fuel; no parser can run out of it. RTP/hvcC and stateful parsers included."
  },
  {
   "property": "C49",
   "status": "proved",
   "theorems": [
    "C49_pps",
    "C49_sei",
    "C49_sei_no_payload",
    "C49_reader",
    "C49_substructures",
    "C49_slice",
    "C49_vps",
    "C49_sps",
    "C49_pps_truncated",
    "C49_pps_same_value",
    "C49_sei_same",
    "C49_sei_header",
    "C49_sei_refuted",
    "C49_pps_refuted",
    "C49_aud"
   ],
   "note": "Every reader, substructure, VPS, SPS, slice header, AUD in full; C49_pps and C49_sei give the exact result of every truncation for the two parsers that ignore a failed part (C49_pps_refuted, C49_sei_refuted show that they do)."
  },
  {
   "property": "C50",
   "status": "proved",
   "theorems": [
    "C50_parameter_sets",
    "C50_parts",
    "C50_slice",
    "C50_nal_unit",
    "C50_annexb",
    "C50_length_prefixed",
    "C50_no_state",
    "C50_length_prefixed_no_state",
    "C50_rtp",
    "C50_box",
    "C50_sei_allocation"
   ],
   "note": "Proved for every parser, NAL units, Annex B and length-prefixed streams, boxes and RTP packets, in every reachable state. The SEI allocation is not part of the model's state: C50_sei_allocation bounds payload_size, the argument of resize()."
  },
  {
   "property": "C51",
   "status": "proved",
   "theorems": [
    "C51_nal_unit",
    "C51_annexb",
    "C51_annexb_no_state",
    "C51_length_prefixed_short",
    "C51_length_prefixed_no_state_short",
    "C51_rtp",
    "C51_box_units",
    "C51_aud_refuted",
    "C51_pps_refuted",
    "C51_options_refuted",
    "C51_box_refuted",
    "C51_rtp_refuted",
    "C51_text_nal",
    "C51_text_annexb",
    "C51_text_length_prefixed_short",
    "C51_text_rtp",
    "C51_text_box",
    "C51_length_prefixed",
    "C51_length_prefixed_no_state",
    "C51_text_length_prefixed"
   ],
   "note": "Exact conditions for NAL units, both stream formats (every length size), RTP and boxes, for the control flow (MDump.v) and the printed text (MText.v); the refuted theorems exhibit each null dereference."
  },
  {
   "property": "C52",
   "status": "proved",
   "theorems": [
    "C52_sps_range_extension",
    "C52_sps_multilayer_extension",
    "C52_sps_3d_extension",
    "C52_sps_scc_extension",
    "C52_pps_multilayer_layout_of_the_code",
    "C52_pps_scc_layout_of_the_code",
    "C52_pps_multilayer_standard",
    "C52_pps_scc_standard",
    "C52_pps_refuted"
   ],
   "note": "All layouts exact in both directions; the standard's without phases / palette initialisers; C52_pps_refuted: standard extensions that are misread."
  },
  {
   "property": "C53",
   "status": "proved",
   "theorems": [
    "C53_printable_checksum",
    "C53_printable_of_nalu",
    "C53_fdump_in_bounds",
    "C53_fdump_refuted"
   ],
   "note": "Complete: C53_fdump_in_bounds for every length from 1, C53_fdump_refuted for 0."
  },
  {
   "property": "C54",
   "status": "proved",
   "theorems": [
    "C54_se_every_code",
    "C54_se_right_iff",
    "C54_se_range"
   ],
   "note": ""
  },
  {
   "property": "C55",
   "status": "proved",
   "theorems": [
    "C55_se_round_trip_every_value"
   ],
   "note": ""
  },
  {
   "property": "C56",
   "status": "proved",
   "theorems": [
    "C56_read_every_count",
    "C56_write_every_count"
   ],
   "note": ""
  },
  {
   "property": "C57",
   "status": "proved",
   "theorems": [
    "C57_start_code_lengths",
    "C57_annexb_is_length_prefixed",
    "C57_length_sizes"
   ],
   "note": ""
  },
  {
   "property": "C58",
   "status": "proved",
   "theorems": [
    "C58_droppable"
   ],
   "note": ""
  },
  {
   "property": "C59",
   "status": "proved",
   "theorems": [
    "C59_same_state",
    "C59_same_state_all",
    "C59_twice",
    "C59_resend",
    "C59_order",
    "C59_units_ok"
   ],
   "note": ""
  },
  {
   "property": "C60",
   "status": "proved",
   "theorems": [
    "C60_unit",
    "C60_stream",
    "C60_checksum"
   ],
   "note": ""
  },
  {
   "property": "C61",
   "status": "proved",
   "theorems": [
    "C61_unit",
    "C61_stream"
   ],
   "note": ""
  },
  {
   "property": "C62",
   "status": "proved",
   "theorems": [
    "C62_in_band",
    "C62_then_stream"
   ],
   "note": ""
  },
  {
   "property": "C63",
   "status": "proved",
   "theorems": [
    "C63_packet",
    "C63_packets"
   ],
   "note": ""
  },
  {
   "property": "C64",
   "status": "proved",
   "theorems": [
    "C64_more_rbsp_data_every_buffer"
   ],
   "note": ""
  },
  {
   "property": "C65",
   "status": "proved",
   "theorems": [
    "C65_aud_every_buffer"
   ],
   "note": ""
  },
  {
   "property": "C66",
   "status": "proved",
   "theorems": [
    "C66_resolution"
   ],
   "note": ""
  },
  {
   "property": "C67",
   "status": "proved",
   "theorems": [
    "C67_qp_every_stream"
   ],
   "note": ""
  },
  {
   "property": "C68",
   "status": "proved",
   "theorems": [
    "C68_layout",
    "C68_same_outcome",
    "C68_profile_info",
    "C68_bitstream",
    "C68_one_line_per_unit",
    "C68_rtp_refuted"
   ],
   "note": "Proved for every fdump function that prints a block, for any state (not only parsed ones), plus the bitstream; C68_rtp_refuted shows the exception."
  },
  {
   "property": "C69",
   "status": "proved",
   "theorems": [
    "C69_nal_unit_header",
    "C69_aud",
    "C69_profile_tier_level",
    "C69_hrd_parameters",
    "C69_vui_parameters",
    "C69_scaling_list_data",
    "C69_vps",
    "C69_sei",
    "C69_sps_printed",
    "C69_pps_printed",
    "C69_slice",
    "C69_pps_refuted",
    "C69_sps_refuted"
   ],
   "note": "VPS, header, AUD, profile_tier_level, hrd, VUI, scaling lists and SEI without loss (against what the C++ object holds); SPS and PPS up to the fields fdump leaves out (C69_sps_refuted, C69_pps_refuted: they are lost); slice headers without loss below 256 MiB (beyond, the 32-bit loop bound of the printing code could wrap)."
  },
  {
   "property": "C70",
   "status": "proved",
   "theorems": [
    "C70_csv",
    "C70_tool_annexb",
    "C70_names"
   ],
   "note": "C70_csv for every list of units whose slices are not empty and together below 2^64 bytes, C70_tool_annexb for the whole program (options, file, parser, printing) on start-code streams below 4 GiB, C70_names."
  },
  {
   "property": "C71",
   "status": "proved",
   "theorems": [
    "C71_refuted",
    "C71_tool",
    "C71_box_case",
    "C71_box_refuted",
    "C71_length_refuted"
   ],
   "note": "C71_tool is the complete classification of every run: all arguments, hvcC file and stream, all length sizes; the refuted theorems show that the exceptions occur."
  },
  {
   "property": "C72",
   "status": "proved",
   "theorems": [
    "C72_annexb",
    "C72_faithful",
    "C72_length_prefixed_refuted",
    "C72_with_range"
   ],
   "note": "C72_annexb, C72_faithful, C72_with_range; C72_length_prefixed_refuted: a length-prefixed stream where other bytes are shown (see C19)."
  },
  {
   "property": "C73",
   "status": "proved",
   "theorems": [
    "C73_accepted",
    "C73_decimal",
    "C73_minus_one_refuted"
   ],
   "note": "C73_accepted characterises every argument; C73_minus_one_refuted: the documented -1 is rejected, the empty string is taken for 0."
  },
  {
   "property": "C74",
   "status": "proved",
   "theorems": [
    "C74_stdin",
    "C74_file",
    "C74_exit"
   ],
   "note": "C74_stdin, C74_file, C74_exit. A file is modelled by its reported size and the bytes that can be read."
  },
  {
   "property": "C75",
   "status": "proved",
   "theorems": [
    "C75_last_wins",
    "C75_verbosity",
    "C75_accepts",
    "C75_exit_code"
   ],
   "note": "Stated for the options that getopt_long recognises; C84 has the words."
  },
  {
   "property": "C76",
   "status": "proved",
   "theorems": [
    "C76_one_line_per_unit"
   ],
   "note": "Without hvcC file."
  },
  {
   "property": "C77",
   "status": "proved",
   "theorems": [
    "C77_fields",
    "C77_resolution"
   ],
   "note": "C77_fields for every unit, C77_resolution for every accepted SPS."
  },
  {
   "property": "C78",
   "status": "proved",
   "theorems": [
    "C78_aliases",
    "C78_exact_structures",
    "C78_structures_upto_aliases",
    "C78_slice",
    "C78_sei",
    "C78_vps_one_hrd",
    "C78_scaling_list_data_in_range",
    "C78_sps",
    "C78_sps_scaling",
    "C78_pps_complete",
    "C78_printed_sps",
    "C78_vps_refuted",
    "C78_scaling_list_data_refuted",
    "C78_pps_refuted"
   ],
   "note": "Exact where the whole structure is kept; up to 63-bit se(v) aliases elsewhere; the refuted theorems show that the exceptions in the statement are real."
  },
  {
   "property": "C79",
   "status": "proved",
   "theorems": [
    "C79_ranges",
    "C79_parse",
    "C79_no_length",
    "C79_empty"
   ],
   "note": "all sizes 0, 1..7, >=8; the wrap past 2^64 is undefined behaviour in the code and is stated as such"
  },
  {
   "property": "C80",
   "status": "proved",
   "theorems": [
    "C80_annexb",
    "C80_two_calls",
    "C80_box",
    "C80_length_prefixed"
   ],
   "note": "Annex B, length-prefixed, in two calls, and parameter sets in a configuration box. Units that use the syntax refuted under C25, C27, C29, C36, C37, C40 are excluded by hypotheses; SEI units: the first message is returned, the others are not (C40)."
  },
  {
   "property": "C81",
   "status": "proved",
   "theorems": [
    "C81_framerate",
    "C81_whole",
    "C81_no_tick",
    "C81_no_timing"
   ],
   "note": "IEEE 754 binary32 by Flocq; uses the standard library's axioms of the reals (DESIGN.md section 3)"
  },
  {
   "property": "C82",
   "status": "proved",
   "theorems": [
    "C82_ctbs",
    "C82_bits",
    "C82_bits_elsewhere",
    "C82_printed"
   ],
   "note": "std::ceil and printf exact; log2f any function with error below one ulp; uses the standard library's axioms of the reals"
  },
  {
   "property": "C83",
   "status": "proved",
   "theorems": [
    "C83_only_overflow",
    "C83_safe",
    "C83_never",
    "C83_sets",
    "C83_refuted",
    "C83_depth_refuted",
    "C83_overflow_refuted"
   ],
   "note": "The exceptions are theorems: C83_refuted (short vector), C83_depth_refuted (bit depth wraps to 0), C83_overflow_refuted (huge DeltaPoc). Upper ends of <= loops are below 2^32 - 1."
  },
  {
   "property": "C84",
   "status": "proved",
   "theorems": [
    "C84_recognised",
    "C84_unknown",
    "C84_accepts",
    "C84_tool",
    "C84_help",
    "C84_q_refuted",
    "C84_stdin_refuted"
   ],
   "note": "getopt_long is modelled after its GNU documentation (it is not in the repository). C84_q_refuted and C84_stdin_refuted: where the help text is wrong."
  },
  {
   "property": "C85",
   "status": "proved",
   "theorems": [
    "C85_tool",
    "C85_units",
    "C85_dumps",
    "C85_box_and_stream",
    "C85_reports",
    "C85_checked"
   ],
   "note": "sets_right: the text of a slice header uses the parameter sets it was parsed with; kept_right shows they can always be given. What is not printed is listed in the definition of seen."
  },
  {
   "property": "C86",
   "status": "proved",
   "theorems": [
    "C86_other_files",
    "C86_failure_touches_nothing",
    "C86_output_file",
    "C86_reads_first",
    "C86_reads_only",
    "C86_outcome",
    "C86_stdout",
    "C86_stderr",
    "C86_inputs_only",
    "C86_again",
    "C86_unreadable_input",
    "C86_unreadable_box",
    "C86_readable",
    "C86_unwritable",
    "C86_stops",
    "C86_nothing_to_read",
    "C86_starts"
   ],
   "note": "Names of files are strings: two names of one file are two files in the model."
  },
  {
   "property": "C87",
   "status": "proved",
   "theorems": [
    "C87_recovery",
    "C87_join",
    "C87_damage",
    "C87_late",
    "C87_damaged_stream",
    "C87_junk_ok"
   ],
   "note": ""
  },
  {
   "property": "C88",
   "status": "proved",
   "theorems": [
    "C88_containers",
    "C88_start_codes",
    "C88_box",
    "C88_lengths_refuted"
   ],
   "note": "The size of the length field is reported as the length of every unit of a length-prefixed stream (C19); C88_lengths_refuted shows it in the output."
  },
  {
   "property": "C89",
   "status": "proved",
   "theorems": [
    "C89_same_output",
    "C89_same_bytes"
   ],
   "note": "Proved for the items of PropsStream (C80); what is not printed is what same_item leaves out."
  },
  {
   "property": "C90",
   "status": "proved",
   "theorems": [
    "C90_parse",
    "C90_parse_appended",
    "C90_parse_lengths",
    "C90_truncated",
    "C90_truncated_text",
    "C90_appended",
    "C90_lengths"
   ],
   "note": "Text and table; the library calls are C90_parse, C90_parse_appended, C90_parse_lengths. The exception for an empty unit in front of the cut is C24_empty_unit. Runs that end without exit code 0 print nothing at all and are the subject of C71 and C75."
  },
  {
   "property": "C91",
   "status": "proved",
   "theorems": [
    "C91_parameter_sets",
    "C91_slice_header",
    "C91_sei_aud",
    "C91_parts",
    "C91_consumed",
    "C91_nal_unit",
    "C91_configuration_box",
    "C91_rtp_single_fu",
    "C91_rtp",
    "C91_stream",
    "C91_length_stream"
   ],
   "note": "All parsers, for all inputs below 2^32 bytes and all states. The relation `takes` counts operations on the buffer, calls, rounds of loops and copied bytes; straight-line arithmetic, allocation and printing are not counted. The quadratic bound for aggregation packets is an upper bound only: that it is reached (all-zero packets: each unit's first Exp-Golomb code scans all that is left and seeks back) is not proved. ParseBitstreamNALULength: when the ranges it visits are within the buffer (C79 says when)."
  },
  {
   "property": "C92",
   "status": "proved",
   "theorems": [
    "C92_quadratic",
    "C92_unit",
    "C92_annexb",
    "C92_length_prefixed",
    "C92_rtp",
    "C92_box",
    "C92_tool"
   ],
   "note": "Bounds for every entry point's text and for the whole output of the tool. The text is quadratic in the long-term pictures of a slice header because SliceSegmentHeaderState::fdump prints whole vectors once per entry (src/h265_slice_parser.cc:785-825); C92_quadratic proves this is reached by streams of every size."
  },
  {
   "property": "C93",
   "status": "proved",
   "theorems": [
    "C93_only_overflow",
    "C93_unsized",
    "C93_qp",
    "C93_rtp_qp",
    "C93_conversion",
    "C93_parsed",
    "C93_needs_shift",
    "C93_needs_size",
    "C93_needs_sets",
    "C93_needs_lsb",
    "C93_needs_counts",
    "C93_needs_scc",
    "C93_conversion_payload",
    "C93_conversion_unit",
    "C93_conversion_single",
    "C93_conversion_fragment",
    "C93_conversion_stream"
   ],
   "note": "Full. usable_sps/usable_pps state the conditions; C93_needs_* show each is needed; C93_conversion is the exact condition of the conversion. Stored null pointers are excluded."
  },
  {
   "property": "C94",
   "status": "proved",
   "theorems": [
    "C94_steady",
    "C94_overflowing",
    "C94_units",
    "C94_mock",
    "C94_slice",
    "C94_witnesses",
    "C94_overflows",
    "C94_quiet",
    "C94_fragment",
    "C94_utils"
   ],
   "note": "Full: all 27 files of fuzz/ are modelled in MFuzz.v. C94_steady, C94_overflowing, C94_units, C94_mock, C94_slice, and witnesses C94_overflows, C94_witnesses."
  },
  {
   "property": "C95",
   "status": "proved",
   "theorems": [
    "C95_sps",
    "C95_sps_420",
    "C95_data",
    "C95_wide_window_rejected",
    "C95_level_6_3_rejected",
    "C95_resolution",
    "C95_annexb",
    "C95_length_prefixed"
   ],
   "note": "Proved for all SPSs of the standard up to level 6.2 outside the two stated exceptions, each of which is shown by a rejected SPS (C95_wide_window_rejected, C95_level_6_3_rejected)."
  }
 ]
}