(** Parsed slice headers, and the parameter sets the parser remembers.  The C++ structs
    SliceHeaderState and SliceHeaderInScalableExtensionState are flat; here fields that are
    parsed together are grouped in small records. *)
From Coq Require Import NArith ZArith List.
From Verif Require Import TypesSps TypesPps TypesExt TypesSlice.
Import ListNotations.
Open Scope N_scope.

(** include/h264_bitstream_parser_state.h:20-49: std::map from id to parameter set. *)
Record pstate := mkst {
  st_sps : list (N * sps);
  st_pps : list (N * pps);
  st_subset_sps : list (N * subsps)
}.

Record lead := mklead {
  first_mb_in_slice : N;
  slice_type : N;
  pic_parameter_set_id : N
}.
Record picid := mkpicid {
  colour_plane_id : N;
  frame_num : N;
  field_pic_flag : N;
  bottom_field_flag : N
}.
Record poc := mkpoc {
  pic_order_cnt_lsb : N;
  delta_pic_order_cnt_bottom : Z;
  delta_pic_order_cnt : list Z
}.
Record refs := mkrefs {
  direct_spatial_mv_pred_flag : N;
  num_ref_idx_active_override_flag : N;
  num_ref_idx_l0_active_minus1 : N;
  num_ref_idx_l1_active_minus1 : N
}.
Record spqs := mkspqs {
  sp_for_switch_flag : N;
  slice_qs_delta : Z
}.
Record dbk := mkdbk {
  disable_deblocking_filter_idc : N;
  slice_alpha_c0_offset_div2 : Z;
  slice_beta_offset_div2 : Z
}.

(** include/h264_slice_header_parser.h:71-89: "input parameters", copied from the NAL unit
    header, the SPS and the PPS *)
Record slin := mkslin {
  in_nal_ref_idc : N;
  in_nal_unit_type : N;
  in_separate_colour_plane_flag : N;
  in_log2_max_frame_num_minus4 : N;
  in_frame_mbs_only_flag : N;
  in_pic_order_cnt_type : N;
  in_bottom_field_pic_order_in_frame_present_flag : N;
  in_delta_pic_order_always_zero_flag : N;
  in_redundant_pic_cnt_present_flag : N;
  in_weighted_pred_flag : N;
  in_weighted_bipred_idc : N;
  in_entropy_coding_mode_flag : N;
  in_deblocking_filter_control_present_flag : N;
  in_num_slice_groups_minus1 : N;
  in_slice_group_map_type : N;
  in_pic_width_in_mbs_minus1 : N;
  in_pic_height_in_map_units_minus1 : N;
  in_slice_group_change_rate_minus1 : N
}.

(** include/h264_slice_header_parser.h:58-140 SliceHeaderState *)
Record slh := mkslh {
  sh_in : slin;
  sh_lead : lead;
  sh_pic : picid;
  sh_idr_pic_id : N;
  sh_poc : poc;
  sh_redundant_pic_cnt : N;
  sh_refs : refs;
  sh_ref_pic_list_modification : rplm;
  sh_pred_weight_table : option pwt;
  sh_dec_ref_pic_marking : option drpm;
  sh_cabac_init_idc : N;
  sh_slice_qp_delta : Z;
  sh_spqs : spqs;
  sh_dbk : dbk;
  sh_slice_group_change_cycle : N
}.
