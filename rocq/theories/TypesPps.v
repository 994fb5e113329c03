(** The parsed-state struct of the picture parameter set parser. *)
From Coq Require Import NArith ZArith List.
From Verif Require Import TypesSps.
Import ListNotations.
Open Scope N_scope.

(** h264_pps_parser.h:51-110 PpsState.  The vectors top_left and bottom_right, filled in lock-step
    by the only writer, are one list of pairs; the scaling list vectors, the list present
    flags and delta_scale are one [scal] as in the SPS. *)
Record pps := mkpps {
  pps_chroma_format_idc : N;
  pps_pic_parameter_set_id : N;
  pps_seq_parameter_set_id : N;
  pps_entropy_coding_mode_flag : N;
  pps_bottom_field_pic_order_in_frame_present_flag : N;
  pps_num_slice_groups_minus1 : N;
  pps_slice_group_map_type : N;
  pps_run_length_minus1 : list N;
  pps_rects : list (N * N);
  pps_slice_group_change_direction_flag : N;
  pps_slice_group_change_rate_minus1 : N;
  pps_pic_size_in_map_units_minus1 : N;
  pps_slice_group_id : list N;
  pps_num_ref_idx_l0_default_active_minus1 : N;
  pps_num_ref_idx_l1_default_active_minus1 : N;
  pps_weighted_pred_flag : N;
  pps_weighted_bipred_idc : N;
  pps_pic_init_qp_minus26 : Z;
  pps_pic_init_qs_minus26 : Z;
  pps_chroma_qp_index_offset : Z;
  pps_deblocking_filter_control_present_flag : N;
  pps_constrained_intra_pred_flag : N;
  pps_redundant_pic_cnt_present_flag : N;
  pps_transform_8x8_mode_flag : N;
  pps_pic_scaling_matrix_present_flag : N;
  pps_scaling : scal;
  pps_second_chroma_qp_index_offset : Z
}.
