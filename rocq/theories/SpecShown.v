(** Specification: what the dumps show of a value.  The erased members are the ones the
    library never prints: cpb_size_scale of the HRD parameters and
    additional_prefix_nal_unit_extension_flag of a prefix NAL unit. *)
From Coq Require Import NArith ZArith List Bool.
From Verif Require Import TypesSps TypesPps TypesNal TypesExt TypesSlice TypesSliceHeader
  TypesSvcSlice TypesNalUnit.
Open Scope N_scope.

Definition shown_hrd (v : hrd) : hrd := mkhrd (cpb_cnt_minus1 v) (bit_rate_scale v) 0
  (sched_sel v) (initial_cpb_removal_delay_length_minus1 v) (cpb_removal_delay_length_minus1 v)
  (dpb_output_delay_length_minus1 v) (time_offset_length v).
Definition shown_vui (v : vui) : vui := mkvui (aspect_ratio_info_present_flag v)
  (aspect_ratio_idc v) (sar_width v) (sar_height v) (overscan_info_present_flag v)
  (overscan_appropriate_flag v) (video_signal_type_present_flag v) (video_format v)
  (video_full_range_flag v) (colour_description_present_flag v) (colour_primaries v)
  (transfer_characteristics v) (matrix_coefficients v) (chroma_loc_info_present_flag v)
  (chroma_sample_loc_type_top_field v) (chroma_sample_loc_type_bottom_field v)
  (timing_info_present_flag v) (num_units_in_tick v) (time_scale v) (fixed_frame_rate_flag v)
  (nal_hrd_parameters_present_flag v) (option_map shown_hrd (nal_hrd_parameters v))
  (vcl_hrd_parameters_present_flag v) (option_map shown_hrd (vcl_hrd_parameters v))
  (low_delay_hrd_flag v) (pic_struct_present_flag v) (bitstream_restriction_flag v)
  (motion_vectors_over_pic_boundaries_flag v) (max_bytes_per_pic_denom v)
  (max_bits_per_mb_denom v) (log2_max_mv_length_horizontal v) (log2_max_mv_length_vertical v)
  (max_num_reorder_frames v) (max_dec_frame_buffering v).
Definition shown_sps (v : sps) : sps := mksps (profile_idc v) (constraint_set0_flag v)
  (constraint_set1_flag v) (constraint_set2_flag v) (constraint_set3_flag v)
  (constraint_set4_flag v) (constraint_set5_flag v) (reserved_zero_2bits v) (level_idc v)
  (seq_parameter_set_id v) (chroma_format_idc v) (separate_colour_plane_flag v)
  (bit_depth_luma_minus8 v) (bit_depth_chroma_minus8 v) (qpprime_y_zero_transform_bypass_flag v)
  (seq_scaling_matrix_present_flag v) (sps_scaling v) (log2_max_frame_num_minus4 v)
  (pic_order_cnt_type v) (log2_max_pic_order_cnt_lsb_minus4 v)
  (delta_pic_order_always_zero_flag v) (offset_for_non_ref_pic v)
  (offset_for_top_to_bottom_field v) (num_ref_frames_in_pic_order_cnt_cycle v)
  (offset_for_ref_frame v) (max_num_ref_frames v) (gaps_in_frame_num_value_allowed_flag v)
  (pic_width_in_mbs_minus1 v) (pic_height_in_map_units_minus1 v) (frame_mbs_only_flag v)
  (mb_adaptive_frame_field_flag v) (direct_8x8_inference_flag v) (frame_cropping_flag v)
  (frame_crop_left_offset v) (frame_crop_right_offset v) (frame_crop_top_offset v)
  (frame_crop_bottom_offset v) (vui_parameters_present_flag v)
  (option_map shown_vui (vui_parameters v)) (profile_type v).
Definition shown_subsps (v : subsps) : subsps := mksubsps (shown_sps (ss_sps v)) (ss_svc v)
  (ss_svc_vui_parameters_present_flag v) (ss_bit_equal_to_one v)
  (ss_mvc_vui_parameters_present_flag v) (ss_additional_extension2_flag v)
  (ss_additional_extension2_data_flag v).
Definition shown_prefsvc (v : prefsvc) : prefsvc := mkprefsvc (pf_nal_ref_idc v)
  (pf_use_ref_base_pic_flag v) (pf_idr_flag v) (pf_store_ref_base_pic_flag v) 0
  (pf_additional_prefix_nal_unit_extension_data_flag v).
Definition shown_prefix (v : prefix) : prefix := mkprefix (px_svc_extension_flag v)
  (px_nal_ref_idc v) (px_use_ref_base_pic_flag v) (px_idr_flag v)
  (option_map shown_prefsvc (px_svc v)).
Definition shown_payload (v : payload) : payload := mkpayload (pl_slice v)
  (option_map shown_sps (pl_sps v)) (pl_pps v) (option_map shown_prefix (pl_prefix v))
  (option_map shown_subsps (pl_subset_sps v)) (pl_slice_ext v).
