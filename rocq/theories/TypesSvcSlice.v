(** Parsed slice headers in scalable extension.  The C++ struct is flat; here fields that are
    parsed together are grouped. *)
From Coq Require Import NArith ZArith List.
From Verif Require Import TypesSlice TypesSliceHeader.
Open Scope N_scope.

(** include/h264_slice_header_in_scalable_extension_parser.h:97-112: the "input parameters"
    that [slin] does not have *)
Record svin := mksvin {
  in_no_inter_layer_pred_flag : N;
  in_quality_id : N;
  in_ChromaArrayType : N;
  in_slice_header_restriction_flag : N;
  in_use_ref_base_pic_flag : N;
  in_idr_flag : N;
  in_inter_layer_deblocking_filter_control_present_flag : N;
  in_extended_spatial_scalability_idc : N;
  in_adaptive_tcoeff_level_prediction_flag : N
}.
(** Lines 127-139: present in quality layer 0 *)
Record qzero := mkqzero {
  q_refs : refs;
  q_ref_pic_list_modification : option rplm;
  q_base_pred_weight_table_flag : N;
  q_pred_weight_table : option pwt;
  q_dec_ref_pic_marking : option drpm;
  q_store_ref_base_pic_flag : N
}.
(** Lines 147-157: inter-layer prediction *)
Record ilayer := mkilayer {
  il_ref_layer_dq_id : N;
  il_disable_inter_layer_deblocking_filter_idc : N;
  il_inter_layer_slice_alpha_c0_offset_div2 : Z;
  il_inter_layer_slice_beta_offset_div2 : Z;
  il_constrained_intra_resampling_flag : N;
  il_ref_layer_chroma_phase_x_plus1_flag : N;
  il_ref_layer_chroma_phase_y_plus1 : N;
  il_scaled_ref_layer_left_offset : Z;
  il_scaled_ref_layer_top_offset : Z;
  il_scaled_ref_layer_right_offset : Z;
  il_scaled_ref_layer_bottom_offset : Z
}.
(** Lines 158-166 *)
Record modes := mkmodes {
  mo_slice_skip_flag : N;
  mo_num_mbs_in_slice_minus1 : N;
  mo_adaptive_base_mode_flag : N;
  mo_default_base_mode_flag : N;
  mo_adaptive_motion_prediction_flag : N;
  mo_default_motion_prediction_flag : N;
  mo_adaptive_residual_prediction_flag : N;
  mo_default_residual_prediction_flag : N;
  mo_tcoeff_level_prediction_flag : N
}.
(** include/h264_slice_header_in_scalable_extension_parser.h:68-186 *)
Record svh := mksvh {
  vh_in : slin;
  vh_svin : svin;
  vh_lead : lead;
  vh_pic : picid;
  vh_idr_pic_id : N;
  vh_poc : poc;
  vh_redundant_pic_cnt : N;
  vh_qzero : qzero;
  vh_cabac_init_idc : N;
  vh_slice_qp_delta : Z;
  vh_dbk : dbk;
  vh_slice_group_change_cycle : N;
  vh_ilayer : ilayer;
  vh_modes : modes;
  vh_scan_idx_start : N;
  vh_scan_idx_end : N
}.
