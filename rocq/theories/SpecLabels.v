(** Specification: what a dumped text says about a value.  The tables give, for every
    structure, the members that are in the bitstream and when; their names are those of the
    standard.  Signed members that the library prints with %u are listed modulo 2^32. *)
From Coq Require Import NArith ZArith List Bool String Ascii DecimalString.
From Verif Require Import SpecSyntax SpecVui TypesSps TypesPps SpecSps TypesNal TypesExt SpecExt TypesSlice
  TypesSliceHeader SpecSliceParts SpecSlice TypesSvcSlice SpecSvcSlice TypesNalUnit.
Import ListNotations.
Open Scope list_scope.
Open Scope Z_scope.

(** The number a word stands for. *)
Definition number (w : string) : option Z := option_map Z.of_int (NilEmpty.int_of_string w).
Inductive member := One (name : string) (v : Z) | Many (name : string) (vs : list Z).
(** "name: v", or "name { v v ... }" *)
Definition says (ws : list string) (m : member) : Prop :=
  match m with
  | One name v => exists before w after,
      ws = before ++ (name ++ ":")%string :: w :: after /\ number w = Some v
  | Many name vs => exists before l after,
      ws = before ++ name :: "{"%string :: l ++ "}"%string :: after /\
      map number l = map Some vs
  end.
Definition tells (ws : list string) (cm : bool * member) : Prop :=
  fst cm = true -> says ws (snd cm).

Definition hrd_members (v : hrd) : list (bool * member) := [
  (true, One "cpb_cnt_minus1" (Z.of_N (cpb_cnt_minus1 v)));
  (true, One "bit_rate_scale" (Z.of_N (bit_rate_scale v)));
  (true, Many "bit_rate_value_minus1" (map Z.of_N (map (fun x => fst (fst x)) (sched_sel v))));
  (true, Many "cpb_size_value_minus1" (map Z.of_N (map (fun x => snd (fst x)) (sched_sel v))));
  (true, Many "cbr_flag" (map Z.of_N (map snd (sched_sel v))));
  (true,
   One "initial_cpb_removal_delay_length_minus1" (Z.of_N (initial_cpb_removal_delay_length_minus1 v)));
  (true, One "cpb_removal_delay_length_minus1" (Z.of_N (cpb_removal_delay_length_minus1 v)));
  (true, One "dpb_output_delay_length_minus1" (Z.of_N (dpb_output_delay_length_minus1 v)));
  (true, One "time_offset_length" (Z.of_N (time_offset_length v)))].
Definition vui_members (v : vui) : list (bool * member) := [
  (true, One "aspect_ratio_info_present_flag" (Z.of_N (aspect_ratio_info_present_flag v)));
  (on (aspect_ratio_info_present_flag v), One "aspect_ratio_idc" (Z.of_N (aspect_ratio_idc v)));
  (on (aspect_ratio_info_present_flag v) && (aspect_ratio_idc v =? 255)%N,
   One "sar_width" (Z.of_N (sar_width v)));
  (on (aspect_ratio_info_present_flag v) && (aspect_ratio_idc v =? 255)%N,
   One "sar_height" (Z.of_N (sar_height v)));
  (true, One "overscan_info_present_flag" (Z.of_N (overscan_info_present_flag v)));
  (on (overscan_info_present_flag v),
   One "overscan_appropriate_flag" (Z.of_N (overscan_appropriate_flag v)));
  (true, One "video_signal_type_present_flag" (Z.of_N (video_signal_type_present_flag v)));
  (on (video_signal_type_present_flag v), One "video_format" (Z.of_N (video_format v)));
  (on (video_signal_type_present_flag v),
   One "video_full_range_flag" (Z.of_N (video_full_range_flag v)));
  (on (video_signal_type_present_flag v),
   One "colour_description_present_flag" (Z.of_N (colour_description_present_flag v)));
  (on (video_signal_type_present_flag v) && on (colour_description_present_flag v),
   One "colour_primaries" (Z.of_N (colour_primaries v)));
  (on (video_signal_type_present_flag v) && on (colour_description_present_flag v),
   One "transfer_characteristics" (Z.of_N (transfer_characteristics v)));
  (on (video_signal_type_present_flag v) && on (colour_description_present_flag v),
   One "matrix_coefficients" (Z.of_N (matrix_coefficients v)));
  (true, One "chroma_loc_info_present_flag" (Z.of_N (chroma_loc_info_present_flag v)));
  (on (chroma_loc_info_present_flag v),
   One "chroma_sample_loc_type_top_field" (Z.of_N (chroma_sample_loc_type_top_field v)));
  (on (chroma_loc_info_present_flag v),
   One "chroma_sample_loc_type_bottom_field" (Z.of_N (chroma_sample_loc_type_bottom_field v)));
  (true, One "timing_info_present_flag" (Z.of_N (timing_info_present_flag v)));
  (on (timing_info_present_flag v), One "num_units_in_tick" (Z.of_N (num_units_in_tick v)));
  (on (timing_info_present_flag v), One "time_scale" (Z.of_N (time_scale v)));
  (on (timing_info_present_flag v),
   One "fixed_frame_rate_flag" (Z.of_N (fixed_frame_rate_flag v)));
  (true, One "nal_hrd_parameters_present_flag" (Z.of_N (nal_hrd_parameters_present_flag v)));
  (true, One "vcl_hrd_parameters_present_flag" (Z.of_N (vcl_hrd_parameters_present_flag v)));
  (true, One "pic_struct_present_flag" (Z.of_N (pic_struct_present_flag v)));
  (true, One "bitstream_restriction_flag" (Z.of_N (bitstream_restriction_flag v)));
  (on (nal_hrd_parameters_present_flag v) || on (vcl_hrd_parameters_present_flag v),
   One "low_delay_hrd_flag" (Z.of_N (low_delay_hrd_flag v)));
  (on (bitstream_restriction_flag v),
   One "motion_vectors_over_pic_boundaries_flag" (Z.of_N (motion_vectors_over_pic_boundaries_flag v)));
  (on (bitstream_restriction_flag v),
   One "max_bytes_per_pic_denom" (Z.of_N (max_bytes_per_pic_denom v)));
  (on (bitstream_restriction_flag v),
   One "max_bits_per_mb_denom" (Z.of_N (max_bits_per_mb_denom v)));
  (on (bitstream_restriction_flag v),
   One "log2_max_mv_length_horizontal" (Z.of_N (log2_max_mv_length_horizontal v)));
  (on (bitstream_restriction_flag v),
   One "log2_max_mv_length_vertical" (Z.of_N (log2_max_mv_length_vertical v)));
  (on (bitstream_restriction_flag v),
   One "max_num_reorder_frames" (Z.of_N (max_num_reorder_frames v)));
  (on (bitstream_restriction_flag v),
   One "max_dec_frame_buffering" (Z.of_N (max_dec_frame_buffering v)))].
Definition sps_members (v : sps) : list (bool * member) := [
  (true, One "profile_idc" (Z.of_N (profile_idc v)));
  (true, One "constraint_set0_flag" (Z.of_N (constraint_set0_flag v)));
  (true, One "constraint_set1_flag" (Z.of_N (constraint_set1_flag v)));
  (true, One "constraint_set2_flag" (Z.of_N (constraint_set2_flag v)));
  (true, One "constraint_set3_flag" (Z.of_N (constraint_set3_flag v)));
  (true, One "constraint_set4_flag" (Z.of_N (constraint_set4_flag v)));
  (true, One "constraint_set5_flag" (Z.of_N (constraint_set5_flag v)));
  (true, One "reserved_zero_2bits" (Z.of_N (reserved_zero_2bits v)));
  (true, One "level_idc" (Z.of_N (level_idc v)));
  (true, One "seq_parameter_set_id" (Z.of_N (seq_parameter_set_id v)));
  (is_high (profile_idc v), One "chroma_format_idc" (Z.of_N (chroma_format_idc v)));
  (is_high (profile_idc v) && (chroma_format_idc v =? 3)%N,
   One "separate_colour_plane_flag" (Z.of_N (separate_colour_plane_flag v)));
  (is_high (profile_idc v), One "bit_depth_luma_minus8" (Z.of_N (bit_depth_luma_minus8 v)));
  (is_high (profile_idc v), One "bit_depth_chroma_minus8" (Z.of_N (bit_depth_chroma_minus8 v)));
  (is_high (profile_idc v),
   One "qpprime_y_zero_transform_bypass_flag" (Z.of_N (qpprime_y_zero_transform_bypass_flag v)));
  (is_high (profile_idc v),
   One "seq_scaling_matrix_present_flag" (Z.of_N (seq_scaling_matrix_present_flag v)));
  (is_high (profile_idc v),
   Many "seq_scaling_list_present_flag" (map Z.of_N (scaling_list_present_flag (sps_scaling v))));
  (is_high (profile_idc v), Many "ScalingList4x4" (map Z.of_N (ScalingList4x4 (sps_scaling v))));
  (is_high (profile_idc v),
   Many "UseDefaultScalingMatrix4x4Flag" (map Z.of_N (UseDefaultScalingMatrix4x4Flag (sps_scaling v))));
  (is_high (profile_idc v), Many "ScalingList8x8" (map Z.of_N (ScalingList8x8 (sps_scaling v))));
  (is_high (profile_idc v),
   Many "UseDefaultScalingMatrix8x8Flag" (map Z.of_N (UseDefaultScalingMatrix8x8Flag (sps_scaling v))));
  (is_high (profile_idc v), One "delta_scale" (delta_scale (sps_scaling v)));
  (true, One "log2_max_frame_num_minus4" (Z.of_N (log2_max_frame_num_minus4 v)));
  (true, One "pic_order_cnt_type" (Z.of_N (pic_order_cnt_type v)));
  ((pic_order_cnt_type v =? 0)%N,
   One "log2_max_pic_order_cnt_lsb_minus4" (Z.of_N (log2_max_pic_order_cnt_lsb_minus4 v)));
  ((pic_order_cnt_type v =? 1)%N,
   One "delta_pic_order_always_zero_flag" (Z.of_N (delta_pic_order_always_zero_flag v)));
  ((pic_order_cnt_type v =? 1)%N, One "offset_for_non_ref_pic" (offset_for_non_ref_pic v));
  ((pic_order_cnt_type v =? 1)%N,
   One "offset_for_top_to_bottom_field" (offset_for_top_to_bottom_field v));
  ((pic_order_cnt_type v =? 1)%N,
   One "num_ref_frames_in_pic_order_cnt_cycle" (Z.of_N (num_ref_frames_in_pic_order_cnt_cycle v)));
  ((pic_order_cnt_type v =? 1)%N, Many "offset_for_ref_frame" (offset_for_ref_frame v));
  (true, One "max_num_ref_frames" (Z.of_N (max_num_ref_frames v)));
  (true,
   One "gaps_in_frame_num_value_allowed_flag" (Z.of_N (gaps_in_frame_num_value_allowed_flag v)));
  (true, One "pic_width_in_mbs_minus1" (Z.of_N (pic_width_in_mbs_minus1 v)));
  (true, One "pic_height_in_map_units_minus1" (Z.of_N (pic_height_in_map_units_minus1 v)));
  (true, One "frame_mbs_only_flag" (Z.of_N (frame_mbs_only_flag v)));
  (negb (on (frame_mbs_only_flag v)),
   One "mb_adaptive_frame_field_flag" (Z.of_N (mb_adaptive_frame_field_flag v)));
  (true, One "direct_8x8_inference_flag" (Z.of_N (direct_8x8_inference_flag v)));
  (true, One "frame_cropping_flag" (Z.of_N (frame_cropping_flag v)));
  (on (frame_cropping_flag v), One "frame_crop_left_offset" (Z.of_N (frame_crop_left_offset v)));
  (on (frame_cropping_flag v),
   One "frame_crop_right_offset" (Z.of_N (frame_crop_right_offset v)));
  (on (frame_cropping_flag v), One "frame_crop_top_offset" (Z.of_N (frame_crop_top_offset v)));
  (on (frame_cropping_flag v),
   One "frame_crop_bottom_offset" (Z.of_N (frame_crop_bottom_offset v)));
  (true, One "vui_parameters_present_flag" (Z.of_N (vui_parameters_present_flag v)))].
Definition pps_members (v : pps) : list (bool * member) := [
  (true, One "pic_parameter_set_id" (Z.of_N (pps_pic_parameter_set_id v)));
  (true, One "seq_parameter_set_id" (Z.of_N (pps_seq_parameter_set_id v)));
  (true, One "entropy_coding_mode_flag" (Z.of_N (pps_entropy_coding_mode_flag v)));
  (true,
   One "bottom_field_pic_order_in_frame_present_flag" (Z.of_N (pps_bottom_field_pic_order_in_frame_present_flag v)));
  (true, One "num_slice_groups_minus1" (Z.of_N (pps_num_slice_groups_minus1 v)));
  ((0 <? pps_num_slice_groups_minus1 v)%N,
   One "slice_group_map_type" (Z.of_N (pps_slice_group_map_type v)));
  ((0 <? pps_num_slice_groups_minus1 v)%N && (pps_slice_group_map_type v =? 0)%N,
   Many "run_length_minus1" (map Z.of_N (pps_run_length_minus1 v)));
  ((0 <? pps_num_slice_groups_minus1 v)%N && (pps_slice_group_map_type v =? 2)%N,
   Many "top_left" (map Z.of_N (map fst (pps_rects v))));
  ((0 <? pps_num_slice_groups_minus1 v)%N && (pps_slice_group_map_type v =? 2)%N,
   Many "bottom_right" (map Z.of_N (map snd (pps_rects v))));
  (changing_groups v,
   One "slice_group_change_direction_flag" (Z.of_N (pps_slice_group_change_direction_flag v)));
  (changing_groups v,
   One "slice_group_change_rate_minus1" (Z.of_N (pps_slice_group_change_rate_minus1 v)));
  ((0 <? pps_num_slice_groups_minus1 v)%N && (pps_slice_group_map_type v =? 6)%N,
   One "pic_size_in_map_units_minus1" (Z.of_N (pps_pic_size_in_map_units_minus1 v)));
  ((0 <? pps_num_slice_groups_minus1 v)%N && (pps_slice_group_map_type v =? 6)%N,
   Many "slice_group_id" (map Z.of_N (pps_slice_group_id v)));
  (true,
   One "num_ref_idx_l0_default_active_minus1" (Z.of_N (pps_num_ref_idx_l0_default_active_minus1 v)));
  (true,
   One "num_ref_idx_l1_default_active_minus1" (Z.of_N (pps_num_ref_idx_l1_default_active_minus1 v)));
  (true, One "weighted_pred_flag" (Z.of_N (pps_weighted_pred_flag v)));
  (true, One "weighted_bipred_idc" (Z.of_N (pps_weighted_bipred_idc v)));
  (true, One "pic_init_qp_minus26" (pps_pic_init_qp_minus26 v));
  (true, One "pic_init_qs_minus26" (pps_pic_init_qs_minus26 v));
  (true, One "chroma_qp_index_offset" (pps_chroma_qp_index_offset v));
  (true,
   One "deblocking_filter_control_present_flag" (Z.of_N (pps_deblocking_filter_control_present_flag v)));
  (true, One "constrained_intra_pred_flag" (Z.of_N (pps_constrained_intra_pred_flag v)));
  (true, One "redundant_pic_cnt_present_flag" (Z.of_N (pps_redundant_pic_cnt_present_flag v)));
  (true, One "transform_8x8_mode_flag" (Z.of_N (pps_transform_8x8_mode_flag v)));
  (true, One "pic_scaling_matrix_present_flag" (Z.of_N (pps_pic_scaling_matrix_present_flag v)));
  (true,
   Many "pic_scaling_list_present_flag" (map Z.of_N (scaling_list_present_flag (pps_scaling v))));
  (true, Many "ScalingList4x4" (map Z.of_N (ScalingList4x4 (pps_scaling v))));
  (true,
   Many "UseDefaultScalingMatrix4x4Flag" (map Z.of_N (UseDefaultScalingMatrix4x4Flag (pps_scaling v))));
  (true, Many "ScalingList8x8" (map Z.of_N (ScalingList8x8 (pps_scaling v))));
  (true,
   Many "UseDefaultScalingMatrix8x8Flag" (map Z.of_N (UseDefaultScalingMatrix8x8Flag (pps_scaling v))));
  (true, One "delta_scale" (delta_scale (pps_scaling v)));
  (true, One "second_chroma_qp_index_offset" (pps_second_chroma_qp_index_offset v))].
Definition spssvc_members (v : spssvc) : list (bool * member) := [
  (true,
   One "inter_layer_deblocking_filter_control_present_flag" (Z.of_N (sv_inter_layer_deblocking_filter_control_present_flag v)));
  (true,
   One "extended_spatial_scalability_idc" (Z.of_N (sv_extended_spatial_scalability_idc v)));
  ((sv_ChromaArrayType v =? 1)%N || (sv_ChromaArrayType v =? 2)%N,
   One "chroma_phase_x_plus1_flag" (Z.of_N (sv_chroma_phase_x_plus1_flag v)));
  ((sv_ChromaArrayType v =? 1)%N,
   One "chroma_phase_y_plus1" (Z.of_N (sv_chroma_phase_y_plus1 v)));
  ((sv_extended_spatial_scalability_idc v =? 1)%N && (0 <? sv_ChromaArrayType v)%N,
   One "seq_ref_layer_chroma_phase_x_plus1_flag" (Z.of_N (sv_seq_ref_layer_chroma_phase_x_plus1_flag v)));
  ((sv_extended_spatial_scalability_idc v =? 1)%N && (0 <? sv_ChromaArrayType v)%N,
   One "seq_ref_layer_chroma_phase_y_plus1" (Z.of_N (sv_seq_ref_layer_chroma_phase_y_plus1 v)));
  ((sv_extended_spatial_scalability_idc v =? 1)%N,
   One "seq_scaled_ref_layer_left_offset" (sv_seq_scaled_ref_layer_left_offset v mod 2 ^ 32));
  ((sv_extended_spatial_scalability_idc v =? 1)%N,
   One "seq_scaled_ref_layer_top_offset" (sv_seq_scaled_ref_layer_top_offset v mod 2 ^ 32));
  ((sv_extended_spatial_scalability_idc v =? 1)%N,
   One "seq_scaled_ref_layer_right_offset" (sv_seq_scaled_ref_layer_right_offset v mod 2 ^ 32));
  ((sv_extended_spatial_scalability_idc v =? 1)%N,
   One "seq_scaled_ref_layer_bottom_offset" (sv_seq_scaled_ref_layer_bottom_offset v mod 2 ^ 32));
  (true,
   One "seq_tcoeff_level_prediction_flag" (Z.of_N (sv_seq_tcoeff_level_prediction_flag v)));
  ((sv_seq_tcoeff_level_prediction_flag v =? 1)%N,
   One "adaptive_tcoeff_level_prediction_flag" (Z.of_N (sv_adaptive_tcoeff_level_prediction_flag v)));
  (true, One "slice_header_restriction_flag" (Z.of_N (sv_slice_header_restriction_flag v)))].
Definition nalh_members (v : nalh) : list (bool * member) := [
  (true, One "forbidden_zero_bit" (Z.of_N (forbidden_zero_bit v)));
  (true, One "nal_ref_idc" (Z.of_N (nal_ref_idc v)));
  (true, One "nal_unit_type" (Z.of_N (nal_unit_type v)))].
Definition svc_ext_members (v : svc_ext) : list (bool * member) := [
  (true, One "idr_flag" (Z.of_N (svc_idr_flag v)));
  (true, One "priority_id" (Z.of_N (svc_priority_id v)));
  (true, One "no_inter_layer_pred_flag" (Z.of_N (svc_no_inter_layer_pred_flag v)));
  (true, One "dependency_id" (Z.of_N (svc_dependency_id v)));
  (true, One "quality_id" (Z.of_N (svc_quality_id v)));
  (true, One "temporal_id" (Z.of_N (svc_temporal_id v)));
  (true, One "use_ref_base_pic_flag" (Z.of_N (svc_use_ref_base_pic_flag v)));
  (true, One "discardable_flag" (Z.of_N (svc_discardable_flag v)));
  (true, One "output_flag" (Z.of_N (svc_output_flag v)));
  (true, One "reserved_three_2bits" (Z.of_N (svc_reserved_three_2bits v)))].
Definition slice_members (nut : N) (s : sps) (p : pps) (v : slice) : list (bool * member) := [
  (true, One "first_mb_in_slice" (Z.of_N (first_mb_in_slice (s_lead v))));
  (true, One "slice_type" (Z.of_N (slice_type (s_lead v))));
  (true, One "pic_parameter_set_id" (Z.of_N (pic_parameter_set_id (s_lead v))));
  (on (separate_colour_plane_flag s),
   One "colour_plane_id" (Z.of_N (colour_plane_id (s_pic v))));
  (true, One "frame_num" (Z.of_N (frame_num (s_pic v))));
  (negb (on (frame_mbs_only_flag s)), One "field_pic_flag" (Z.of_N (field_pic_flag (s_pic v))));
  (negb (on (frame_mbs_only_flag s)) && on (field_pic_flag (s_pic v)),
   One "bottom_field_flag" (Z.of_N (bottom_field_flag (s_pic v))));
  ((nut =? 5)%N, One "idr_pic_id" (Z.of_N (s_idr_pic_id v)));
  ((pic_order_cnt_type s =? 0)%N,
   One "pic_order_cnt_lsb" (Z.of_N (pic_order_cnt_lsb (s_poc v))));
  ((pic_order_cnt_type s =? 0)%N && (on (pps_bottom_field_pic_order_in_frame_present_flag p) && negb (on (field_pic_flag (s_pic v)))),
   One "delta_pic_order_cnt_bottom" (delta_pic_order_cnt_bottom (s_poc v)));
  ((pic_order_cnt_type s =? 1)%N && negb (on (delta_pic_order_always_zero_flag s)),
   Many "delta_pic_order_cnt" (delta_pic_order_cnt (s_poc v)));
  (on (pps_redundant_pic_cnt_present_flag p),
   One "redundant_pic_cnt" (Z.of_N (s_redundant_pic_cnt v)));
  (B_slice (s_type v),
   One "direct_spatial_mv_pred_flag" (Z.of_N (direct_spatial_mv_pred_flag (s_refs v))));
  (uses_refs (s_type v),
   One "num_ref_idx_active_override_flag" (Z.of_N (num_ref_idx_active_override_flag (s_refs v))));
  (uses_refs (s_type v) && on (num_ref_idx_active_override_flag (s_refs v)),
   One "num_ref_idx_l0_active_minus1" (Z.of_N (num_ref_idx_l0_active_minus1 (s_refs v))));
  (uses_refs (s_type v) && on (num_ref_idx_active_override_flag (s_refs v)) && B_slice (s_type v),
   One "num_ref_idx_l1_active_minus1" (Z.of_N (num_ref_idx_l1_active_minus1 (s_refs v))));
  (on (pps_entropy_coding_mode_flag p) && negb (I_slice (s_type v)) && negb (SI_slice (s_type v)),
   One "cabac_init_idc" (Z.of_N (s_cabac_init_idc v)));
  (true, One "slice_qp_delta" (s_slice_qp_delta v));
  (SP_slice (s_type v), One "sp_for_switch_flag" (Z.of_N (sp_for_switch_flag (s_spqs v))));
  (SP_slice (s_type v) || SI_slice (s_type v), One "slice_qs_delta" (slice_qs_delta (s_spqs v)));
  (on (pps_deblocking_filter_control_present_flag p),
   One "disable_deblocking_filter_idc" (Z.of_N (disable_deblocking_filter_idc (s_dbk v))));
  (on (pps_deblocking_filter_control_present_flag p) && negb (disable_deblocking_filter_idc (s_dbk v) =? 1)%N,
   One "slice_alpha_c0_offset_div2" (slice_alpha_c0_offset_div2 (s_dbk v) mod 2 ^ 32));
  (on (pps_deblocking_filter_control_present_flag p) && negb (disable_deblocking_filter_idc (s_dbk v) =? 1)%N,
   One "slice_beta_offset_div2" (slice_beta_offset_div2 (s_dbk v) mod 2 ^ 32));
  (changing_groups p, One "slice_group_change_cycle" (Z.of_N (s_cycle v)))].
Definition svc1_members (c : ctx) (v : svc1) : list (bool * member) := [
  (true, One "first_mb_in_slice" (Z.of_N (first_mb_in_slice (v_lead v))));
  (true, One "slice_type" (Z.of_N (slice_type (v_lead v))));
  (true, One "pic_parameter_set_id" (Z.of_N (pic_parameter_set_id (v_lead v))));
  (on (separate_colour_plane_flag (c_sps c)),
   One "colour_plane_id" (Z.of_N (colour_plane_id (v_pic v))));
  (true, One "frame_num" (Z.of_N (frame_num (v_pic v))));
  (negb (on (frame_mbs_only_flag (c_sps c))),
   One "field_pic_flag" (Z.of_N (field_pic_flag (v_pic v))));
  (negb (on (frame_mbs_only_flag (c_sps c))) && on (field_pic_flag (v_pic v)),
   One "bottom_field_flag" (Z.of_N (bottom_field_flag (v_pic v))));
  (c_idr c, One "idr_pic_id" (Z.of_N (v_idr_pic_id v)));
  ((pic_order_cnt_type (c_sps c) =? 0)%N,
   One "pic_order_cnt_lsb" (Z.of_N (pic_order_cnt_lsb (v_poc v))));
  ((pic_order_cnt_type (c_sps c) =? 0)%N &&
    on (pps_bottom_field_pic_order_in_frame_present_flag (c_pps c)) && negb (on (field_pic_flag (v_pic v))),
   One "delta_pic_order_cnt_bottom" (delta_pic_order_cnt_bottom (v_poc v) mod 2 ^ 32));
  ((pic_order_cnt_type (c_sps c) =? 1)%N && negb (on (delta_pic_order_always_zero_flag (c_sps c))),
   Many "delta_pic_order_cnt" (delta_pic_order_cnt (v_poc v)));
  (on (pps_redundant_pic_cnt_present_flag (c_pps c)),
   One "redundant_pic_cnt" (Z.of_N (v_redundant_pic_cnt v)))].
Definition qz_members (c : ctx) (ty : N) (v : qz) : list (bool * member) := [
  (B_slice ty,
   One "direct_spatial_mv_pred_flag" (Z.of_N (direct_spatial_mv_pred_flag (z_refs v))));
  (svc_uses_refs ty,
   One "num_ref_idx_active_override_flag" (Z.of_N (num_ref_idx_active_override_flag (z_refs v))));
  (svc_uses_refs ty && on (num_ref_idx_active_override_flag (z_refs v)),
   One "num_ref_idx_l0_active_minus1" (Z.of_N (num_ref_idx_l0_active_minus1 (z_refs v))));
  (svc_uses_refs ty && on (num_ref_idx_active_override_flag (z_refs v)) && B_slice ty,
   One "num_ref_idx_l1_active_minus1" (Z.of_N (num_ref_idx_l1_active_minus1 (z_refs v))));
  (svc_weights c ty && c_inter_layer c,
   One "base_pred_weight_table_flag" (Z.of_N (z_base_pred_weight_table_flag v)));
  (c_ref c && negb (c_restricted c),
   One "store_ref_base_pic_flag" (Z.of_N (z_store_ref_base_pic_flag v)))].
Definition svc2_members (c : ctx) (ty : N) (v : svc2) : list (bool * member) := [
  (on (pps_entropy_coding_mode_flag (c_pps c)) && negb (I_slice ty),
   One "cabac_init_idc" (Z.of_N (v_cabac_init_idc v)));
  (true, One "slice_qp_delta" (v_slice_qp_delta v mod 2 ^ 32));
  (on (pps_deblocking_filter_control_present_flag (c_pps c)),
   One "disable_deblocking_filter_idc" (Z.of_N (disable_deblocking_filter_idc (v_dbk v))));
  (on (pps_deblocking_filter_control_present_flag (c_pps c)) && negb (disable_deblocking_filter_idc (v_dbk v) =? 1)%N,
   One "slice_alpha_c0_offset_div2" (slice_alpha_c0_offset_div2 (v_dbk v) mod 2 ^ 32));
  (on (pps_deblocking_filter_control_present_flag (c_pps c)) && negb (disable_deblocking_filter_idc (v_dbk v) =? 1)%N,
   One "slice_beta_offset_div2" (slice_beta_offset_div2 (v_dbk v) mod 2 ^ 32));
  (changing_groups (c_pps c), One "slice_group_change_cycle" (Z.of_N (v_cycle v)))].
Definition ilayer_members (c : ctx) (v : ilayer) : list (bool * member) := [
  (true, One "ref_layer_dq_id" (Z.of_N (il_ref_layer_dq_id v)));
  (on (sv_inter_layer_deblocking_filter_control_present_flag (c_svc c)),
   One "disable_inter_layer_deblocking_filter_idc" (Z.of_N (il_disable_inter_layer_deblocking_filter_idc v)));
  (on (sv_inter_layer_deblocking_filter_control_present_flag (c_svc c)) && negb (il_disable_inter_layer_deblocking_filter_idc v =? 1)%N,
   One "inter_layer_slice_alpha_c0_offset_div2" (il_inter_layer_slice_alpha_c0_offset_div2 v mod 2 ^ 32));
  (on (sv_inter_layer_deblocking_filter_control_present_flag (c_svc c)) && negb (il_disable_inter_layer_deblocking_filter_idc v =? 1)%N,
   One "inter_layer_slice_beta_offset_div2" (il_inter_layer_slice_beta_offset_div2 v mod 2 ^ 32));
  (true,
   One "constrained_intra_resampling_flag" (Z.of_N (il_constrained_intra_resampling_flag v)));
  ((sv_extended_spatial_scalability_idc (c_svc c) =? 2)%N && (0 <? chroma_array_type (c_sps c))%N,
   One "ref_layer_chroma_phase_x_plus1_flag" (Z.of_N (il_ref_layer_chroma_phase_x_plus1_flag v)));
  ((sv_extended_spatial_scalability_idc (c_svc c) =? 2)%N && (0 <? chroma_array_type (c_sps c))%N,
   One "ref_layer_chroma_phase_y_plus1" (Z.of_N (il_ref_layer_chroma_phase_y_plus1 v)));
  ((sv_extended_spatial_scalability_idc (c_svc c) =? 2)%N,
   One "scaled_ref_layer_left_offset" (il_scaled_ref_layer_left_offset v mod 2 ^ 32));
  ((sv_extended_spatial_scalability_idc (c_svc c) =? 2)%N,
   One "scaled_ref_layer_top_offset" (il_scaled_ref_layer_top_offset v mod 2 ^ 32));
  ((sv_extended_spatial_scalability_idc (c_svc c) =? 2)%N,
   One "scaled_ref_layer_right_offset" (il_scaled_ref_layer_right_offset v mod 2 ^ 32));
  ((sv_extended_spatial_scalability_idc (c_svc c) =? 2)%N,
   One "scaled_ref_layer_bottom_offset" (il_scaled_ref_layer_bottom_offset v mod 2 ^ 32))].
Definition modes_members (c : ctx) (v : modes) : list (bool * member) := [
  (true, One "slice_skip_flag" (Z.of_N (mo_slice_skip_flag v)));
  (on (mo_slice_skip_flag v),
   One "num_mbs_in_slice_minus1" (Z.of_N (mo_num_mbs_in_slice_minus1 v)));
  (negb (on (mo_slice_skip_flag v)),
   One "adaptive_base_mode_flag" (Z.of_N (mo_adaptive_base_mode_flag v)));
  (negb (on (mo_slice_skip_flag v)),
   One "adaptive_residual_prediction_flag" (Z.of_N (mo_adaptive_residual_prediction_flag v)));
  (negb (on (mo_slice_skip_flag v)) && negb (on (mo_adaptive_base_mode_flag v)),
   One "default_base_mode_flag" (Z.of_N (mo_default_base_mode_flag v)));
  (negb (on (mo_slice_skip_flag v)) && negb (on (mo_default_base_mode_flag v)),
   One "adaptive_motion_prediction_flag" (Z.of_N (mo_adaptive_motion_prediction_flag v)));
  (negb (on (mo_slice_skip_flag v)) && negb (on (mo_default_base_mode_flag v)) &&
    negb (on (mo_adaptive_motion_prediction_flag v)),
   One "default_motion_prediction_flag" (Z.of_N (mo_default_motion_prediction_flag v)));
  (negb (on (mo_slice_skip_flag v)) && negb (on (mo_adaptive_residual_prediction_flag v)),
   One "default_residual_prediction_flag" (Z.of_N (mo_default_residual_prediction_flag v)));
  (on (sv_adaptive_tcoeff_level_prediction_flag (c_svc c)),
   One "tcoeff_level_prediction_flag" (Z.of_N (mo_tcoeff_level_prediction_flag v)))].
Definition scan_members (v : N * N) : list (bool * member) := [
  (true, One "scan_idx_start" (Z.of_N (fst v)));
  (true, One "scan_idx_end" (Z.of_N (snd v)))].
Definition among {A} (f : A -> list (bool * member)) (o : option A) : list (bool * member) :=
  match o with Some a => f a | None => [] end.
Definition svc_members (c : ctx) (v : svc_slice) : list (bool * member) :=
  let ty := v_type (fst v) in
  svc1_members c (fst v) ++ among (qz_members c ty) (v_qz (fst v)) ++
  among (fun w => svc2_members c ty w ++ among (ilayer_members c) (v_ilayer w) ++
    among (modes_members c) (v_modes w) ++ among scan_members (v_scan w)) (snd v).

(** Structures with the ones inside. *)
Definition vui_all (v : vui) : list (bool * member) :=
  vui_members v ++ among hrd_members (nal_hrd_parameters v) ++
  among hrd_members (vcl_hrd_parameters v).
Definition sps_all (v : sps) : list (bool * member) :=
  sps_members v ++ among vui_all (vui_parameters v).
Definition subsps_all (v : subsps) : list (bool * member) :=
  sps_all (ss_sps v) ++ among spssvc_members (ss_svc v) ++ [
  (is_svc_profile (profile_idc (ss_sps v)),
   One "svc_vui_parameters_present_flag" (Z.of_N (ss_svc_vui_parameters_present_flag v)));
  (true, One "additional_extension2_flag" (Z.of_N (ss_additional_extension2_flag v)))].
Definition prefix_all (v : prefix) : list (bool * member) :=
  among (fun x => [(negb (pf_nal_ref_idc x =? 0)%N,
    One "store_ref_base_pic_flag" (Z.of_N (pf_store_ref_base_pic_flag x)))]) (px_svc v).
Definition header_all (v : nalh) : list (bool * member) :=
  nalh_members v ++ among svc_ext_members (nal_svc v) ++
  among (fun _ => [(true, One "svc_extension_flag" (Z.of_N (svc_extension_flag v)))]) (nal_svc v).
(** A NAL unit without slice headers. *)
Definition unit_all (h : nalh) (p : payload) : list (bool * member) :=
  header_all h ++ among sps_all (pl_sps p) ++ among pps_members (pl_pps p) ++
  among prefix_all (pl_prefix p) ++ among subsps_all (pl_subset_sps p).
