{
 "claims": [
  {
   "property": "C01",
   "status": "proved",
   "theorems": [
    "C01_read_bits_exact",
    "C01_read_bits64_exact"
   ],
   "note": "Both overloads, every reachable buffer, width and alignment."
  },
  {
   "property": "C02",
   "status": "proved",
   "theorems": [
    "C02_impossible_reads_fail",
    "C02_impossible_reads64_fail",
    "C02_no_out_of_bounds",
    "C02_defined"
   ],
   "note": "Any operation history; undefined behaviour only for ReadNonSymmetric outside 1..2^31-1, see C07."
  },
  {
   "property": "C03",
   "status": "proved",
   "theorems": [
    "C03_position_valid",
    "C03_seek_restores",
    "C03_seek_exact",
    "C03_consume"
   ],
   "note": "Any operation history; Seek to a reported offset gives back the identical state."
  },
  {
   "property": "C04",
   "status": "proved",
   "theorems": [
    "C04_ue_sound",
    "C04_ue_complete",
    "C04_ue_else_fails"
   ],
   "note": "Sound, complete, and fails otherwise."
  },
  {
   "property": "C05",
   "status": "proved",
   "theorems": [
    "C05_failed_golomb_restores",
    "C05_failed_golomb_restores_ndebug_refuted",
    "C05_failed_golomb_ndebug"
   ],
   "note": "Holds with asserts; refuted for NDEBUG builds (C05_failed_golomb_restores_ndebug_refuted), where the exact position is proved instead."
  },
  {
   "property": "C06",
   "status": "proved",
   "theorems": [
    "C06_se_sound",
    "C06_se_complete",
    "C06_se_no_overflow"
   ],
   "note": ""
  },
  {
   "property": "C07",
   "status": "proved",
   "theorems": [
    "C07_ns_sound",
    "C07_ns_complete",
    "C07_ns_one_refuted",
    "C07_ns_one",
    "C07_ns_2_31_undefined",
    "C07_ns_failure_restores_refuted"
   ],
   "note": "Exact for 2<=n<2^31; the edge cases n=1, n=2^31 and the unrestored position are proved as stated."
  },
  {
   "property": "C08",
   "status": "proved",
   "theorems": [
    "C08_write_bits_exact",
    "C08_write_bits_no_room",
    "C08_write_bits_frame",
    "C08_no_out_of_bounds",
    "C08_write_bits_bad_width_undefined"
   ],
   "note": "Widths 1..64; zero and >64 widths proved undefined."
  },
  {
   "property": "C09",
   "status": "proved",
   "theorems": [
    "C09_write_then_read",
    "C09_writes_succeed"
   ],
   "note": "Any sequence of typed writes followed by the matching reads."
  },
  {
   "property": "C10",
   "status": "proved",
   "theorems": [
    "C10_write_ue",
    "C10_write_ue_max_refused",
    "C10_write_se",
    "C10_write_se_min_refused",
    "C10_write_ns",
    "C10_write_ns_one_refuted"
   ],
   "note": "n=1 for the non-symmetric writer is refuted (undefined shift)."
  },
  {
   "property": "C11",
   "status": "proved",
   "theorems": [
    "C11_unescape_escape",
    "C11_escape_unescape",
    "C11_escape_conforming"
   ],
   "note": "Any byte string that fits a std::vector; both directions."
  },
  {
   "property": "C12",
   "status": "proved",
   "theorems": [
    "C12_unescape_strips",
    "C12_unescape_bytes",
    "C12_unescape_identity"
   ],
   "note": ""
  },
  {
   "property": "C13",
   "status": "proved",
   "theorems": [
    "C13_more_data_exact",
    "C13_more_data_standard",
    "C13_more_data_trailing_zeros_refuted"
   ],
   "note": "Exact behaviour proved; agreement with the standard proved for RBSPs without trailing zero bytes and refuted with them."
  },
  {
   "property": "C14",
   "status": "proved",
   "theorems": [
    "C14_trailing_bits_exact"
   ],
   "note": ""
  },
  {
   "property": "C15",
   "status": "proved",
   "theorems": [
    "C15_checksum",
    "C15_checksum_total",
    "C15_sum_is_residue",
    "C15_order_independent"
   ],
   "note": "Value for buffers up to 2^34 bytes (the 64-bit accumulator); termination and position for any size."
  },
  {
   "property": "C16",
   "status": "proved",
   "theorems": [
    "C16_annexb_sound"
   ],
   "note": ""
  },
  {
   "property": "C17",
   "status": "proved",
   "theorems": [
    "C17_annexb_complete",
    "C17_final_start_code_missed_refuted"
   ],
   "note": "A start code in the last three bytes is not reported, proved as a refutation of the unrestricted claim."
  },
  {
   "property": "C18",
   "status": "proved",
   "theorems": [
    "C18_annexb_round_trip",
    "C18_escaped_units",
    "C18_final_zero_byte_refuted"
   ],
   "note": "For NAL units without 00 00 00/01 and without a final zero byte; refuted with a final zero byte."
  },
  {
   "property": "C19",
   "status": "proved",
   "theorems": [
    "C19_framing_exact",
    "C19_framing_round_trip",
    "C19_framing_4gib_refuted"
   ],
   "note": "Below 4 GiB; at 4 GiB a refutation (endless loop)."
  },
  {
   "property": "C20",
   "status": "proved",
   "theorems": [
    "C20_length_prefixed_exact",
    "C20_length_prefixed_wrap_refuted",
    "C20_no_length_field"
   ],
   "note": "Length fields of 1..7 bytes, any buffer, any NAL unit parser; the wrap for 8 bytes is proved as a refutation."
  },
  {
   "property": "C21",
   "status": "proved",
   "theorems": [
    "C21_units_visited",
    "C21_recorded_length_refuted"
   ],
   "note": "The recorded length being the field size is proved as a refutation."
  },
  {
   "property": "C22",
   "status": "proved",
   "theorems": [
    "C22_header_round_trip",
    "C22_header_accepts_only_encodings",
    "C22_header_size",
    "C22_unimplemented",
    "C22_safe",
    "C22_nullptr_only_if_truncated"
   ],
   "note": "Exact for every buffer: accepted headers are exactly the standard's headers with no or an SVC extension; unimplemented report iff an MVC/3D-AVC extension is announced; nullptr only on truncation."
  },
  {
   "property": "C23",
   "status": "proved",
   "theorems": [
    "C23_no_crash",
    "C23_state_well_formed",
    "C23_wide_length_fields",
    "C23_wide_length_field_abort_refuted"
   ],
   "note": "Every entry point taking bytes and a state, in any order, on states reached by any history of calls, for every byte string below 2^61 bytes (below 4 GiB in debug builds): an object or nullptr, never UB, abort or divergence. For length fields of 8 bytes or more the only other outcome is std::terminate; an example is proved (refuted theorem)."
  },
  {
   "property": "C24",
   "status": "proved",
   "theorems": [
    "C24_sps_data_round_trip",
    "C24_sps_round_trip",
    "C24_sps_accepts_only_encodings",
    "C24_sps_safe"
   ],
   "note": "For every SPS value and every standard scaling matrix syntax, the standard bits followed by anything decode to that value; every accepted SPS is a valid value and the bits read are its encoding (scaling lists that the code tolerates although they break off at a bad delta_scale are described by the specification type slist)."
  },
  {
   "property": "C25",
   "status": "proved",
   "theorems": [
    "C25_sps_in_range"
   ],
   "note": "Range limits of H.264 7.4.2.1.1 for every accepted SPS; picture size limited to 1056 macroblocks (the implementation's limit). delta_scale is the exception, see C28_bad_delta_accepted_refuted."
  },
  {
   "property": "C26",
   "status": "proved",
   "theorems": [
    "C26_resolution"
   ],
   "note": "For every accepted SPS; the failure case is unreachable since cropping is checked while parsing."
  },
  {
   "property": "C27",
   "status": "proved",
   "theorems": [
    "C27_hrd_exact",
    "C27_vui_exact"
   ],
   "note": "Exact decoders: accept iff the bits start with the encoding of a valid value, return it, consume exactly it."
  },
  {
   "property": "C28",
   "status": "proved",
   "theorems": [
    "C28_scaling_list_standard",
    "C28_scaling_list_shape",
    "C28_scaling_list_rejects",
    "C28_scaling_list_safe",
    "C28_bad_delta_accepted_refuted",
    "C28_lists_overwritten_refuted"
   ],
   "note": "The routine is exact for every delta sequence, list size and target vector. Two refuted theorems: the caller ignores the rejection (delta_scale 200 accepted), and all 4x4 lists share one vector so later lists overwrite earlier ones."
  },
  {
   "property": "C29",
   "status": "proved",
   "theorems": [
    "C29_pps_round_trip",
    "C29_pps_accepts_only_encodings",
    "C29_pps_in_range",
    "C29_pps_safe",
    "C29_unchecked_ranges_refuted",
    "C29_second_offset_not_inferred_refuted"
   ],
   "note": "Round trip for every valid PPS (all slice group map types, with or without the High part) followed by its trailing bits; accepted PPS are encodings; ranges. Two refuted theorems: several QP/weight/slice group ranges are not checked, and an absent second_chroma_qp_index_offset is left 0 instead of inferred."
  },
  {
   "property": "C30",
   "status": "proved",
   "theorems": [
    "C30_sps_extension_exact",
    "C30_sps_extension_rbsp",
    "C30_sps_svc_extension_exact",
    "C30_subset_sps_round_trip",
    "C30_subset_sps_accepts_only_encodings",
    "C30_prefix_round_trip",
    "C30_prefix_unimplemented",
    "C30_prefix_accepts_only_encodings",
    "C30_safe",
    "C30_prefix_ref0_data_lost_refuted",
    "C30_prefix_unannounced_data_refuted",
    "C30_mvc_extension_not_decoded_refuted"
   ],
   "note": "Exact decoders for the SPS extension and SPS SVC extension; round trip and accepts-only-encodings for subset SPS (profiles without MVC/MVCD/3D-AVC extension, no svc_vui) and prefix NAL units. Refuted theorems record deviations: extension data of prefix NAL units with nal_ref_idc 0 is lost, unannounced extension data is accepted, and the MVC extension is skipped without being read."
  },
  {
   "property": "C31",
   "status": "proved",
   "theorems": [
    "C31_ref_pic_list_modification_exact",
    "C31_lists_recoverable",
    "C31_never_crashes"
   ],
   "note": "Both loops terminate on every input; list 0 and list 1 commands share the vectors but can be recovered."
  },
  {
   "property": "C32",
   "status": "proved",
   "theorems": [
    "C32_pred_weight_table_exact",
    "C32_vector_lengths",
    "C32_never_crashes"
   ],
   "note": "Exact for every chroma array type, slice type and reference counts; vector length relations."
  },
  {
   "property": "C33",
   "status": "proved",
   "theorems": [
    "C33_dec_ref_pic_marking_exact",
    "C33_marking_recoverable",
    "C33_never_crashes"
   ],
   "note": "Exact for every IdrPicFlag and every operation list; the reported vectors determine the operations."
  },
  {
   "property": "C34",
   "status": "proved",
   "theorems": [
    "C34_slice_header_exact",
    "C34_never_crashes",
    "C34_extension_types_unimplemented"
   ],
   "note": "Exact decoder for every nal_ref_idc, unit type except 20 and 21, and every state whose parameter sets are parser results; types 20/21 are shown to give no header (unimplemented)."
  },
  {
   "property": "C35",
   "status": "proved",
   "theorems": [
    "C35_known_parameter_sets",
    "C35_unknown_rejected"
   ],
   "note": "For any state whatsoever: a parsed header's PPS and SPS are in the state and its recorded inputs are theirs; otherwise rejected."
  },
  {
   "property": "C36",
   "status": "proved",
   "theorems": [
    "C36_svc_slice_header_exact",
    "C36_never_crashes",
    "C36_standard_headers",
    "C36_plain_sps_not_used",
    "C36_known_parameter_sets",
    "C36_unimplemented_iff",
    "C36_inferred_counts_refuted",
    "C36_absent_scan_idx_end"
   ],
   "note": "Exact decoder (standard's syntax with inferred reference counts 0) for every state of parser results; the standard's headers decode when counts_agree; the defect with counts inferred from the PPS is proved as C36_inferred_counts_refuted; unimplemented exactly for dec_ref_base_pic_marking."
  },
  {
   "property": "C37",
   "status": "proved",
   "theorems": [
    "C37_last_wins",
    "C37_empty_start",
    "C37_total"
   ],
   "note": "For any starting history and any sequence of units, kept or dropped."
  },
  {
   "property": "C38",
   "status": "proved",
   "theorems": [
    "C38_others_leave_state",
    "C38_accepted_set"
   ],
   "note": "Dropped units, units with a rejected payload and types other than 7, 8 and 15 leave the state alone; accepted sets change one entry of their kind."
  },
  {
   "property": "C39",
   "status": "proved",
   "theorems": [
    "C39_in_order",
    "C39_annexb",
    "C39_dropped",
    "C39_length_prefixed"
   ],
   "note": "Any buffer (units found by FindNaluIndices, C16/C17), well-formed Annex B streams, and length-prefixed streams; which units are dropped is decided by the header alone."
  },
  {
   "property": "C40",
   "status": "proved",
   "theorems": [
    "C40_dropping",
    "C40_replacing",
    "C40_stream"
   ],
   "note": "Dropping or replacing a rejected unit, for sequences of units and for Annex B byte streams; the unimplemented counter may differ."
  },
  {
   "property": "C41",
   "status": "proved",
   "theorems": [
    "C41_option_neutral",
    "C41_checksum_value",
    "C41_stream"
   ],
   "note": "Units, streams, and the value of the checksum (C15)."
  },
  {
   "property": "C42",
   "status": "proved",
   "theorems": [
    "C42_parsed_length"
   ],
   "note": ""
  },
  {
   "property": "C43",
   "status": "proved",
   "theorems": [
    "C43_payload",
    "C43_parsed_iff",
    "C43_svc_slice_rejected_refuted"
   ],
   "note": "Per type: true iff the parser for that type accepts the bits after the header. Type 20 is always true; the refuted theorem shows a rejected SVC slice reported as parsed."
  },
  {
   "property": "C44",
   "status": "proved",
   "theorems": [
    "C44_unit_reports",
    "C44_annexb",
    "C44_length_prefixed",
    "C44_zero_means_parsed",
    "C44_dropped_unnoticed_refuted",
    "C44_counter_wraps_refuted"
   ],
   "note": "Every input; Annex B and length-prefixed. Dropped units going unnoticed in length-prefixed mode and the wrap of the counter are shown by refuted theorems."
  },
  {
   "property": "C45",
   "status": "proved",
   "theorems": [
    "C45_same_as_nal_unit",
    "C45_other_types"
   ],
   "note": "For types 0..23, with or without checksum; types 25..31 other than 28 report only the header."
  },
  {
   "property": "C46",
   "status": "proved",
   "theorems": [
    "C46_exact",
    "C46_total",
    "C46_shape",
    "C46_parameter_sets_recovered",
    "C46_emulation_prevention_refuted",
    "C46_pps_not_last_refuted",
    "C46_delimiter_refuted",
    "C46_slice_refuted"
   ],
   "note": "Exact characterisation of every type 24 packet (C46_exact), shape and size bounds, and recovery of SPS units with a final SPS, PPS or subset SPS. What RFC 6184 allows beyond that is not recovered: four refuted theorems (emulation prevention counted in sizes, PPS not last, access unit delimiter, slice)."
  },
  {
   "property": "C47",
   "status": "proved",
   "theorems": [
    "C47_short",
    "C47_continuation",
    "C47_start",
    "C47_svc_refuted"
   ],
   "note": "Start fragments agree with the NAL unit parser for fu_type other than 0, 14, 20, 21; 14 and 20 refuted (the SVC header extension is not read)."
  },
  {
   "property": "C48",
   "status": "proved",
   "theorems": [
    "C48_slices",
    "C48_reserved",
    "C48_unspecified",
    "C48_type_0_refuted",
    "C48_exclusive",
    "C48_out_of_range",
    "C48_names_distinct"
   ],
   "note": "Every 32-bit value; type 0 is the one disagreement with Table 7-1 (refuted theorem)."
  },
  {
   "property": "C49",
   "status": "proved",
   "theorems": [
    "C49_profile",
    "C49_profile_of_accepted"
   ],
   "note": "For every profile_idc and every flag combination, and for the SPS state the parser returns."
  },
  {
   "property": "C50",
   "status": "proved",
   "theorems": [
    "C50_rows",
    "C50_total",
    "C50_length_prefixed_refuted",
    "C50_single_unit_refuted",
    "C50_bitrate_overflow_refuted"
   ],
   "note": "Annex B mode, no arithmetic overflow (total below 2^31 bytes, bitrate below 2^63); the other modes and the overflow are shown by refuted theorems."
  },
  {
   "property": "C51",
   "status": "proved",
   "theorems": [
    "C51_unit_round_trip",
    "C51_sets_read_completely",
    "C51_unit_bytes"
   ],
   "note": "Content is stated with the encoders of the specification files; slices and SVC slices may be followed by any slice data."
  },
  {
   "property": "C52",
   "status": "proved",
   "theorems": [
    "C52_annexb_round_trip",
    "C52_length_prefixed_round_trip"
   ],
   "note": ""
  },
  {
   "property": "C53",
   "status": "proved",
   "theorems": [
    "C53_parameter_sets",
    "C53_headers",
    "C53_slice_parts",
    "C53_payload"
   ],
   "note": "Every bit-buffer level parser, and the payload parser with its effect on the state."
  },
  {
   "property": "C54",
   "status": "proved",
   "theorems": [
    "C54_in_bounds",
    "C54_annexb_contents",
    "C54_length_prefixed_refuted"
   ],
   "note": "Annex B; the length-prefixed mode prints only the first bytes (refuted theorem)."
  },
  {
   "property": "C55",
   "status": "proved",
   "theorems": [
    "C55_printable",
    "C55_injective",
    "C55_unit_checksum",
    "C55_fdump_in_bounds"
   ],
   "note": "Every checksum of up to 32 bytes (the member array's size)."
  },
  {
   "property": "C56",
   "status": "proved",
   "theorems": [
    "C56_units",
    "C56_rtp",
    "C56_stream",
    "C56_checksum_refuted"
   ],
   "note": "Units, RTP packets and Annex B bitstreams; without the proviso on the checksum it is refuted."
  },
  {
   "property": "C57",
   "status": "proved",
   "theorems": [
    "C57_one_line",
    "C57_indented",
    "C57_same_words",
    "C57_rtp_one_line",
    "C57_rtp_indented_refuted"
   ],
   "note": "Refuted for the indentation of RTP packets."
  },
  {
   "property": "C58",
   "status": "proved",
   "theorems": [
    "C58_words_determine",
    "C58_cpb_size_scale_refuted",
    "C58_prefix_flag_refuted"
   ],
   "note": "Up to cpb_size_scale and additional_prefix_nal_unit_extension_flag, which are never printed (refuted theorems)."
  },
  {
   "property": "C59",
   "status": "proved",
   "theorems": [
    "C59_units",
    "C59_slices",
    "C59_svc_slices",
    "C59_resolution",
    "C59_profile",
    "C59_negative_offset_refuted"
   ],
   "note": "Signed elements printed with %u are listed modulo 2^32 (refuted theorem); reference list modification, weight tables and marking are left to C58."
  },
  {
   "property": "C60",
   "status": "proved",
   "theorems": [
    "C60_contents",
    "C60_rewritten"
   ],
   "note": "For subset SPSs with a multiview profile only the SPS part is stated; scaling matrices are excluded from the rewriting half, since the reported lists do not determine their syntax."
  },
  {
   "property": "C61",
   "status": "proved",
   "theorems": [
    "C61_dump_all",
    "C61_one_line",
    "C61_dump_length",
    "C61_contents",
    "C61_defined",
    "C61_eight_refuted"
   ],
   "note": "The bytes printed with --add-contents are stated for Annex B input. Length fields of 8 bytes can abort the process (refuted theorem). File access and getopt are not modelled."
  },
  {
   "property": "C62",
   "status": "proved",
   "theorems": [
    "C62_last_counts",
    "C62_accepted",
    "C62_stopped",
    "C62_ranges",
    "C62_implied",
    "C62_empty_number_refuted",
    "C62_minus_one_refuted"
   ],
   "note": "An empty number is taken for 0, and the documented value -1 is refused (refuted theorems)."
  },
  {
   "property": "C63",
   "status": "proved",
   "theorems": [
    "C63_more_sets",
    "C63_rejected",
    "C63_same_sets",
    "C63_stream",
    "C63_self_contained",
    "C63_stream_same",
    "C63_unresolved_refuted"
   ],
   "note": "Without the proviso on slice headers it is refuted."
  },
  {
   "property": "C64",
   "status": "proved",
   "theorems": [
    "C64_own",
    "C64_own_dump",
    "C64_state_dump",
    "C64_state_dump_refuted",
    "C64_options_refuted"
   ],
   "note": "With a state, the options given are not honoured: C64_state_dump_refuted, C64_options_refuted."
  },
  {
   "property": "C65",
   "status": "proved",
   "theorems": [
    "C65_safe",
    "C65_sound",
    "C65_complete",
    "C65_in_unit",
    "C65_same"
   ],
   "note": "Soundness and completeness leave out payloads (C60) and MVC subset SPS, which the library does not parse further. Prediction weight tables: fewer than 2^32-1 reference indices."
  },
  {
   "property": "C66",
   "status": "proved",
   "theorems": [
    "C66_table",
    "C66_bounded",
    "C66_get"
   ],
   "note": "Histories include calls on single payloads and calls elsewhere in the process."
  },
  {
   "property": "C67",
   "status": "proved",
   "theorems": [
    "C67_rate",
    "C67_error",
    "C67_exact",
    "C67_monotone",
    "C67_quotient",
    "C67_nearest",
    "C67_nearest_refuted",
    "C67_untimed"
   ],
   "note": "Floating point is Coq's SpecFloat (IEEE 754, round to nearest even); assumes the C++ float and double are binary32 and binary64. Ranges: every accepted VUI. C67_nearest_refuted gives a pair that is rounded twice to a neighbouring float."
  },
  {
   "property": "C68",
   "status": "proved",
   "theorems": [
    "C68_read",
    "C68_tool",
    "C68_in_place",
    "C68_refused",
    "C68_avcc_only",
    "C68_defined",
    "C68_empty_refuted"
   ],
   "note": "The disk is a function from names to contents; a read may be short, a name may not open, a size may be unknown. Writing always succeeds once the file is open; fprintf errors are not modelled. C68_defined has the provisos of C61_defined."
  },
  {
   "property": "C69",
   "status": "proved",
   "theorems": [
    "C69_safe",
    "C69_sequence",
    "C69_structures",
    "C69_parsed",
    "C69_depth_refuted",
    "C69_rate_refuted",
    "C69_fuzz"
   ],
   "note": "Entries of the state are never null pointers in the model. The condition on the default reference counts is needed because the model follows the loops that count to them by their number of iterations; without it the C++ loop counter wraps."
  },
  {
   "property": "C70",
   "status": "proved",
   "theorems": [
    "C70_reads",
    "C70_script",
    "C70_pictures",
    "C70_same_size_cut_refuted",
    "C70_change_missed_refuted"
   ],
   "note": "The names of the files are C79; the messages are not modelled."
  },
  {
   "property": "C71",
   "status": "proved",
   "theorems": [
    "C71_row",
    "C71_headers",
    "C71_status",
    "C71_zero",
    "C71_status_alone_refuted"
   ],
   "note": "The row for one file, without its name (C80). The tool's messages are an argument; timeouts and a tool that cannot be started are not modelled."
  },
  {
   "property": "C72",
   "status": "proved",
   "theorems": [
    "C72_reads",
    "C72_outcomes",
    "C72_endless",
    "C72_steps",
    "C72_rows",
    "C72_text",
    "C72_marking",
    "C72_sliding",
    "C72_list",
    "C72_current_lost_refuted",
    "C72_unmark_long_refuted",
    "C72_index_reused_refuted",
    "C72_wrap_refuted",
    "C72_none_kept_refuted",
    "C72_hang_refuted",
    "C72_slice_type_refuted",
    "C72_named_twice_refuted",
    "C72_list_wrap_refuted"
   ],
   "note": "Frames only: the specification of the standard's processes (SpecDpb.v) has no fields and no gaps in frame_num; B pictures are C76, fields C77. Nine defects are recorded as refuted."
  },
  {
   "property": "C73",
   "status": "proved",
   "theorems": [
    "C73_read",
    "C73_any",
    "C73_scripts",
    "C73_command",
    "C73_refused",
    "C73_defined",
    "C73_quiet_refuted",
    "C73_operand_refuted",
    "C73_messages_refuted"
   ],
   "note": "getopt_long is the C library's; the model follows the glibc manual, without POSIXLY_CORRECT. Three defects are recorded as refuted."
  },
  {
   "property": "C74",
   "status": "proved",
   "theorems": [
    "C74_cycle",
    "C74_id",
    "C74_formula",
    "C74_standard",
    "C74_exists"
   ],
   "note": "std::log2 is the C library's and is an argument; its accuracy is a hypothesis, shown to be satisfiable."
  },
  {
   "property": "C75",
   "status": "proved",
   "theorems": [
    "C75_seeds",
    "C75_code",
    "C75_determined",
    "C75_declared",
    "C75_sps_seed_refuted",
    "C75_two_buffers_refuted",
    "C75_notation_refuted"
   ],
   "note": "The template around the code and the file names are C78; the messages are not modelled. Two wrong seeds and the notation are recorded as refuted."
  },
  {
   "property": "C76",
   "status": "proved",
   "theorems": [
    "C76_as_p",
    "C76_shown_before",
    "C76_shown_after_refuted"
   ],
   "note": "List 0 of B frames only (the script has no list 1). The wrong first entry is recorded as refuted, for all such pictures."
  },
  {
   "property": "C77",
   "status": "proved",
   "theorems": [
    "C77_window",
    "C77_fields_refuted"
   ],
   "note": "Buffer column only, without memory management operations and long-term frames. The two fields of a frame being two entries is recorded as refuted, for all streams of field pairs numbered from 0."
  },
  {
   "property": "C78",
   "status": "proved",
   "theorems": [
    "C78_files",
    "C78_determined",
    "C78_overwrites_refuted",
    "C78_percent_refuted",
    "C78_stdin_refuted"
   ],
   "note": "Opening and creating files is assumed to succeed; the debug messages and argparse are not modelled. Three defects are recorded as refuted."
  },
  {
   "property": "C79",
   "status": "proved",
   "theorems": [
    "C79_names",
    "C79_directory",
    "C79_apart",
    "C79_order",
    "C79_nothing",
    "C79_extension",
    "C79_piece_alone_refuted"
   ],
   "note": "Paths are strings as given; opening a file is assumed to succeed, links and case-insensitive file systems are not modelled. That a piece can be read alone is refuted."
  },
  {
   "property": "C80",
   "status": "proved",
   "theorems": [
    "C80_table",
    "C80_directory",
    "C80_same_name_refuted"
   ],
   "note": "Every input can be read and names are ASCII; timeouts, a tool that cannot be started and the progress messages are not modelled."
  },
  {
   "property": "C81",
   "status": "proved",
   "theorems": [
    "C81_summary",
    "C81_silent",
    "C81_count"
   ],
   "note": "Every input can be read; timeouts and a tool that cannot be started are not modelled. The messages of the tool are an argument."
  },
  {
   "property": "C82",
   "status": "proved",
   "theorems": [
    "C82_again"
   ],
   "note": "The second run gets the bytes of the piece; that some pieces cannot be read alone, so that it fails, is C79_piece_alone_refuted."
  }
 ]
}