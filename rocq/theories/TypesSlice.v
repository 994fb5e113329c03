(** Parsed parts of slice headers. *)
From Coq Require Import NArith ZArith List.
Open Scope N_scope.

(** include/h264_ref_pic_list_modification_parser.h:22-47 *)
Record rplm := mkrplm {
  rp_slice_type : N;
  rp_flag_l0 : N;
  rp_modification_of_pic_nums_idc : list N;
  rp_abs_diff_pic_num_minus1 : list N;
  rp_long_term_pic_num : list N;
  rp_flag_l1 : N
}.

(** include/h264_pred_weight_table_parser.h:31-65 *)
Record pwt := mkpwt {
  pw_chroma_array_type : N;
  pw_slice_type : N;
  pw_num_ref_idx_l0_active_minus1 : N;
  pw_num_ref_idx_l1_active_minus1 : N;
  pw_luma_log2_weight_denom : N;
  pw_chroma_log2_weight_denom : N;
  pw_luma_weight_l0_flag : list N;
  pw_luma_weight_l0 : list Z;
  pw_luma_offset_l0 : list Z;
  pw_chroma_weight_l0_flag : list N;
  pw_chroma_weight_l0 : list (list Z);
  pw_chroma_offset_l0 : list (list Z);
  pw_luma_weight_l1_flag : list N;
  pw_luma_weight_l1 : list Z;
  pw_luma_offset_l1 : list Z;
  pw_chroma_weight_l1_flag : list N;
  pw_chroma_weight_l1 : list (list Z);
  pw_chroma_offset_l1 : list (list Z)
}.

(** include/h264_dec_ref_pic_marking_parser.h:22-52 *)
Record drpm := mkdrpm {
  dr_IdrPicFlag : N;
  dr_no_output_of_prior_pics_flag : N;
  dr_long_term_reference_flag : N;
  dr_adaptive_ref_pic_marking_mode_flag : N;
  dr_memory_management_control_operation : list N;
  dr_difference_of_pic_nums_minus1 : list N;
  dr_long_term_pic_num : list N;
  dr_long_term_frame_idx : list N;
  dr_max_long_term_frame_idx_plus1 : list N
}.
