(** The parsed-state structs of the sequence parameter set parsers: plain data, shared by
    the model and the specification.  std::vector is a list, std::unique_ptr an option. *)
From Coq Require Import NArith ZArith List.
Import ListNotations.
Open Scope N_scope.

(** h264_hrd_parameters_parser.h:27-51 HrdParametersState.  The three vectors filled in
    lock-step by the only writer (bit_rate_value_minus1, cpb_size_value_minus1,
    cbr_flag) are one list of triples. *)
Record hrd := mkhrd {
  cpb_cnt_minus1 : N;
  bit_rate_scale : N;
  cpb_size_scale : N;
  sched_sel : list (N * N * N);
  initial_cpb_removal_delay_length_minus1 : N;
  cpb_removal_delay_length_minus1 : N;
  dpb_output_delay_length_minus1 : N;
  time_offset_length : N
}.

(** h264_vui_parameters_parser.h:77-129 VuiParametersState *)
Record vui := mkvui {
  aspect_ratio_info_present_flag : N;
  aspect_ratio_idc : N;
  sar_width : N;
  sar_height : N;
  overscan_info_present_flag : N;
  overscan_appropriate_flag : N;
  video_signal_type_present_flag : N;
  video_format : N;
  video_full_range_flag : N;
  colour_description_present_flag : N;
  colour_primaries : N;
  transfer_characteristics : N;
  matrix_coefficients : N;
  chroma_loc_info_present_flag : N;
  chroma_sample_loc_type_top_field : N;
  chroma_sample_loc_type_bottom_field : N;
  timing_info_present_flag : N;
  num_units_in_tick : N;
  time_scale : N;
  fixed_frame_rate_flag : N;
  nal_hrd_parameters_present_flag : N;
  nal_hrd_parameters : option hrd;
  vcl_hrd_parameters_present_flag : N;
  vcl_hrd_parameters : option hrd;
  low_delay_hrd_flag : N;
  pic_struct_present_flag : N;
  bitstream_restriction_flag : N;
  motion_vectors_over_pic_boundaries_flag : N;
  max_bytes_per_pic_denom : N;
  max_bits_per_mb_denom : N;
  log2_max_mv_length_horizontal : N;
  log2_max_mv_length_vertical : N;
  max_num_reorder_frames : N;
  max_dec_frame_buffering : N
}.

(** The members written by scaling_list() in SpsDataState (h264_sps_parser.h:93-100) and in
    PpsState (h264_pps_parser.h:92-99), with seq_/pic_scaling_list_present_flag. *)
Record scal := mkscal {
  scaling_list_present_flag : list N;
  ScalingList4x4 : list N;
  UseDefaultScalingMatrix4x4Flag : list N;
  ScalingList8x8 : list N;
  UseDefaultScalingMatrix8x8Flag : list N;
  delta_scale : Z
}.
(** The members' initial values. *)
Definition scal0 : scal := mkscal [] [] [] [] [] 0.

(** h264_common.h:89-108 ProfileType *)
Inductive profile := UNSPECIFIED | BASELINE | CONSTRAINED_BASELINE | MAIN | EXTENDED | HIGH
| PROGRESSIVE_HIGH | CONSTRAINED_HIGH | HIGH_10 | PROGRESSIVE_HIGH_10 | HIGH_10_INTRA
| HIGH_422 | HIGH_422_INTRA | HIGH_444 | HIGH_444_INTRA | HIGH_444_PRED
| HIGH_444_PRED_INTRA | CAVLC_444_INTRA.

(** h264_sps_parser.h:64-142 SpsDataState (and SpsState, which only holds it); the
    scaling list members are grouped in [sps_scaling]. *)
Record sps := mksps {
  profile_idc : N;
  constraint_set0_flag : N;
  constraint_set1_flag : N;
  constraint_set2_flag : N;
  constraint_set3_flag : N;
  constraint_set4_flag : N;
  constraint_set5_flag : N;
  reserved_zero_2bits : N;
  level_idc : N;
  seq_parameter_set_id : N;
  chroma_format_idc : N;
  separate_colour_plane_flag : N;
  bit_depth_luma_minus8 : N;
  bit_depth_chroma_minus8 : N;
  qpprime_y_zero_transform_bypass_flag : N;
  seq_scaling_matrix_present_flag : N;
  sps_scaling : scal;
  log2_max_frame_num_minus4 : N;
  pic_order_cnt_type : N;
  log2_max_pic_order_cnt_lsb_minus4 : N;
  delta_pic_order_always_zero_flag : N;
  offset_for_non_ref_pic : Z;
  offset_for_top_to_bottom_field : Z;
  num_ref_frames_in_pic_order_cnt_cycle : N;
  offset_for_ref_frame : list Z;
  max_num_ref_frames : N;
  gaps_in_frame_num_value_allowed_flag : N;
  pic_width_in_mbs_minus1 : N;
  pic_height_in_map_units_minus1 : N;
  frame_mbs_only_flag : N;
  mb_adaptive_frame_field_flag : N;
  direct_8x8_inference_flag : N;
  frame_cropping_flag : N;
  frame_crop_left_offset : N;
  frame_crop_right_offset : N;
  frame_crop_top_offset : N;
  frame_crop_bottom_offset : N;
  vui_parameters_present_flag : N;
  vui_parameters : option vui;
  profile_type : profile
}.
