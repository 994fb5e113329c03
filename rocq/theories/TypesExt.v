(** Parsed SPS extensions and prefix NAL units. *)
From Coq Require Import NArith ZArith.
From Verif Require Import TypesSps.
Open Scope N_scope.

(** include/h264_sps_extension_parser.h:32-52 *)
Record spsext := mkspsext {
  se_seq_parameter_set_id : N;
  se_aux_format_idc : N;
  se_bit_depth_aux_minus8 : N;
  se_alpha_incr_flag : N;
  se_alpha_opaque_value : N;
  se_alpha_transparent_value : N;
  se_additional_extension_flag : N
}.

(** include/h264_sps_svc_extension_parser.h:22-52 *)
Record spssvc := mkspssvc {
  sv_ChromaArrayType : N;
  sv_inter_layer_deblocking_filter_control_present_flag : N;
  sv_extended_spatial_scalability_idc : N;
  sv_chroma_phase_x_plus1_flag : N;
  sv_chroma_phase_y_plus1 : N;
  sv_seq_ref_layer_chroma_phase_x_plus1_flag : N;
  sv_seq_ref_layer_chroma_phase_y_plus1 : N;
  sv_seq_scaled_ref_layer_left_offset : Z;
  sv_seq_scaled_ref_layer_top_offset : Z;
  sv_seq_scaled_ref_layer_right_offset : Z;
  sv_seq_scaled_ref_layer_bottom_offset : Z;
  sv_seq_tcoeff_level_prediction_flag : N;
  sv_adaptive_tcoeff_level_prediction_flag : N;
  sv_slice_header_restriction_flag : N
}.

(** include/h264_subset_sps_parser.h:25-54 *)
Record subsps := mksubsps {
  ss_sps : sps;
  ss_svc : option spssvc;
  ss_svc_vui_parameters_present_flag : N;
  ss_bit_equal_to_one : N;
  ss_mvc_vui_parameters_present_flag : N;
  ss_additional_extension2_flag : N;
  ss_additional_extension2_data_flag : N
}.

(** include/h264_prefix_nal_unit_parser.h:24-47 *)
Record prefsvc := mkprefsvc {
  pf_nal_ref_idc : N;
  pf_use_ref_base_pic_flag : N;
  pf_idr_flag : N;
  pf_store_ref_base_pic_flag : N;
  pf_additional_prefix_nal_unit_extension_flag : N;
  pf_additional_prefix_nal_unit_extension_data_flag : N
}.
(** include/h264_prefix_nal_unit_parser.h:63-86 *)
Record prefix := mkprefix {
  px_svc_extension_flag : N;
  px_nal_ref_idc : N;
  px_use_ref_base_pic_flag : N;
  px_idr_flag : N;
  px_svc : option prefsvc
}.
