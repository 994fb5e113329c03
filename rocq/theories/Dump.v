(** Model of the fdump functions: what the library prints for a parsed value, from the calls
    to fprintf up to the text.

    A dump is a list of lines.  A line is what is printed between two calls of
    fdump_indent_level: [L d ws] stands for the words [ws] with one space between them, at
    indentation level [d] relative to the level the dump was called with.  The call of
    fdump_indent_level before the first line is the caller's.  [Bad k] marks a point where
    the C++ execution is undefined. *)
From Coq Require Import NArith ZArith List Bool String Ascii DecimalString HexadecimalString.
From Verif Require Import Base Parser TypesSps TypesPps Sps TypesNal TypesExt TypesSlice
  TypesSliceHeader SliceHeader TypesSvcSlice TypesNalUnit NalType Rtp.
Import ListNotations.
Open Scope N_scope.
Open Scope list_scope.

Inductive line := L (d : nat) (ws : list string) | Bad (k : ubkind).
Definition dump := list line.

(** printf conversions %u, %zu *)
Definition dec (n : N) : string := DecimalString.NilEmpty.string_of_uint (N.to_uint n).
(** %i, %d *)
Definition deci (z : Z) : string := DecimalString.NilEmpty.string_of_int (Z.to_int z).
(** %zx *)
Definition hexs (n : N) : string := HexadecimalString.NilEmpty.string_of_uint (N.to_hex_uint n).
(** [n] characters ch *)
Fixpoint chars (n : nat) (ch : ascii) : string :=
  match n with O => EmptyString | S k => String ch (chars k ch) end.
(** %0nzx *)
Definition padded (n : nat) (s : string) : string := (chars (n - String.length s) "0" ++ s)%string.
Definition hex8 (n : N) : string := ("0x" ++ padded 8 (hexs n))%string.

(** One line with a key and a value *)
Definition fld (key : string) (v : string) : dump := [L 0 [(key ++ ":")%string; v]].
Definition fu (key : string) (n : N) : dump := fld key (dec n).
Definition fi (key : string) (z : Z) : dump := fld key (deci z).
(** An int32_t printed with %u *)
Definition fiu (key : string) (z : Z) : dump := fu key (of_i32 z).
(** One line with a list in braces *)
Definition flist (key : string) (vs : list string) : dump := [L 0 (key :: "{"%string :: vs ++ ["}"%string])].
Definition fus (key : string) (l : list N) : dump := flist key (map dec l).
Definition fis (key : string) (l : list Z) : dump := flist key (map deci l).
(** A list of lists *)
Definition fiss (key : string) (l : list (list Z)) : dump :=
  flist key (flat_map (fun v => "{"%string :: map deci v ++ ["}"%string]) l).
(** if (c) ... *)
Definition when (c : bool) (d : dump) : dump := if c then d else [].
(** ptr->fdump(...) *)
Definition deref {A} (o : option A) (f : A -> dump) : dump :=
  match o with Some a => f a | None => [Bad NullDeref] end.
(** indent_level_incr ... indent_level_decr *)
Definition deeper (l : line) : line := match l with L d ws => L (S d) ws | Bad k => Bad k end.
Definition block (name : string) (body : dump) : dump :=
  L 0 [name; "{"%string] :: map deeper body ++ [L 0 ["}"%string]].
(** A dump that follows another one without a call of fdump_indent_level: its first word is
    printed directly behind the last word. *)
Fixpoint join_words (a b : list string) : list string :=
  match a with
  | [] => b
  | [x] => match b with [] => [x] | y :: t => (x ++ y)%string :: t end
  | x :: t => x :: join_words t b
  end.
Fixpoint glue (a b : dump) : dump :=
  match a with
  | [] => b
  | [L d ws] => match b with L _ ws' :: t => L d (join_words ws ws') :: t | _ => L d ws :: b end
  | x :: t => x :: glue t b
  end.

(** h264_common.h:158-171 ParsingOptions *)
Record popts := mkpo {
  add_offset : bool;
  add_length : bool;
  add_parsed_length : bool;
  add_checksum : bool;
  add_resolution : bool
}.

(** h264_hrd_parameters_parser.cc:115-165; cpb_size_scale is not printed *)
Definition dump_hrd (h : hrd) : dump := block "hrd_parameters" (
  fu "cpb_cnt_minus1" (cpb_cnt_minus1 h) ++
  fu "bit_rate_scale" (bit_rate_scale h) ++
  fus "bit_rate_value_minus1" (map (fun x => fst (fst x)) (sched_sel h)) ++
  fus "cpb_size_value_minus1" (map (fun x => snd (fst x)) (sched_sel h)) ++
  fus "cbr_flag" (map snd (sched_sel h)) ++
  fu "initial_cpb_removal_delay_length_minus1" (initial_cpb_removal_delay_length_minus1 h) ++
  fu "cpb_removal_delay_length_minus1" (cpb_removal_delay_length_minus1 h) ++
  fu "dpb_output_delay_length_minus1" (dpb_output_delay_length_minus1 h) ++
  fu "time_offset_length" (time_offset_length h)).

(** h264_vui_parameters_parser.cc:358-501; AR_EXTENDED_SAR is 255 *)
Definition dump_vui (v : vui) : dump := block "vui_parameters" (
  fu "aspect_ratio_info_present_flag" (aspect_ratio_info_present_flag v) ++
  when (tob (aspect_ratio_info_present_flag v)) (
    fu "aspect_ratio_idc" (aspect_ratio_idc v) ++
    when (aspect_ratio_idc v =? 255) (
      fu "sar_width" (sar_width v) ++
      fu "sar_height" (sar_height v))) ++
  fu "overscan_info_present_flag" (overscan_info_present_flag v) ++
  when (tob (overscan_info_present_flag v))
    (fu "overscan_appropriate_flag" (overscan_appropriate_flag v)) ++
  fu "video_signal_type_present_flag" (video_signal_type_present_flag v) ++
  when (tob (video_signal_type_present_flag v)) (
    fu "video_format" (video_format v) ++
    fu "video_full_range_flag" (video_full_range_flag v) ++
    fu "colour_description_present_flag" (colour_description_present_flag v) ++
    when (tob (colour_description_present_flag v)) (
      fu "colour_primaries" (colour_primaries v) ++
      fu "transfer_characteristics" (transfer_characteristics v) ++
      fu "matrix_coefficients" (matrix_coefficients v))) ++
  fu "chroma_loc_info_present_flag" (chroma_loc_info_present_flag v) ++
  when (tob (chroma_loc_info_present_flag v)) (
    fu "chroma_sample_loc_type_top_field" (chroma_sample_loc_type_top_field v) ++
    fu "chroma_sample_loc_type_bottom_field" (chroma_sample_loc_type_bottom_field v)) ++
  fu "timing_info_present_flag" (timing_info_present_flag v) ++
  when (tob (timing_info_present_flag v)) (
    fu "num_units_in_tick" (num_units_in_tick v) ++
    fu "time_scale" (time_scale v) ++
    fu "fixed_frame_rate_flag" (fixed_frame_rate_flag v)) ++
  fu "nal_hrd_parameters_present_flag" (nal_hrd_parameters_present_flag v) ++
  when (tob (nal_hrd_parameters_present_flag v)) (deref (nal_hrd_parameters v) dump_hrd) ++
  fu "vcl_hrd_parameters_present_flag" (vcl_hrd_parameters_present_flag v) ++
  when (tob (vcl_hrd_parameters_present_flag v)) (deref (vcl_hrd_parameters v) dump_hrd) ++
  when (tob (nal_hrd_parameters_present_flag v) || tob (vcl_hrd_parameters_present_flag v))
    (fu "low_delay_hrd_flag" (low_delay_hrd_flag v)) ++
  fu "pic_struct_present_flag" (pic_struct_present_flag v) ++
  fu "bitstream_restriction_flag" (bitstream_restriction_flag v) ++
  when (tob (bitstream_restriction_flag v)) (
    fu "motion_vectors_over_pic_boundaries_flag" (motion_vectors_over_pic_boundaries_flag v) ++
    fu "max_bytes_per_pic_denom" (max_bytes_per_pic_denom v) ++
    fu "max_bits_per_mb_denom" (max_bits_per_mb_denom v) ++
    fu "log2_max_mv_length_horizontal" (log2_max_mv_length_horizontal v) ++
    fu "log2_max_mv_length_vertical" (log2_max_mv_length_vertical v) ++
    fu "max_num_reorder_frames" (max_num_reorder_frames v) ++
    fu "max_dec_frame_buffering" (max_dec_frame_buffering v))).

(** h264_common.cc:146-206 profileTypeToString, as words *)
Definition profile_words (p : profile) : list string := (match p with
  | UNSPECIFIED => ["Unspecified"]
  | BASELINE => ["Baseline"]
  | CONSTRAINED_BASELINE => ["Constrained"; "Baseline"]
  | MAIN => ["Main"]
  | EXTENDED => ["Extended"]
  | HIGH => ["High"]
  | PROGRESSIVE_HIGH => ["Progressive"; "High"]
  | CONSTRAINED_HIGH => ["Constrained"; "High"]
  | HIGH_10 => ["High"; "10"]
  | PROGRESSIVE_HIGH_10 => ["Progressive"; "High"; "10"]
  | HIGH_10_INTRA => ["High"; "10"; "Intra"]
  | HIGH_422 => ["High"; "4:2:2"]
  | HIGH_422_INTRA => ["High"; "4:2:2"; "Intra"]
  | HIGH_444 => ["High"; "4:4:4"]
  | HIGH_444_INTRA => ["High"; "4:4:4"; "Intra"]
  | HIGH_444_PRED => ["High"; "4:4:4"; "Predictive"]
  | HIGH_444_PRED_INTRA => ["High"; "4:4:4"; "Predictive"; "Intra"]
  | CAVLC_444_INTRA => ["CAVLC"; "4:4:4"; "Intra"]
  end)%string.

(** The scaling list members, h264_sps_parser.cc:807-843 and h264_pps_parser.cc:503-539 *)
Definition dump_scal (flags : string) (s : scal) : dump :=
  fus flags (scaling_list_present_flag s) ++
  fus "ScalingList4x4" (ScalingList4x4 s) ++
  fus "UseDefaultScalingMatrix4x4Flag" (UseDefaultScalingMatrix4x4Flag s) ++
  fus "ScalingList8x8" (ScalingList8x8 s) ++
  fus "UseDefaultScalingMatrix8x8Flag" (UseDefaultScalingMatrix8x8Flag s) ++
  fi "delta_scale" (delta_scale s).

(** h264_sps_parser.cc:779-783, the profiles that print the chroma format *)
Definition prints_chroma (idc : N) : bool :=
  (idc =? 100) || (idc =? 110) || (idc =? 122) || (idc =? 244) || (idc =? 44) || (idc =? 83) ||
  (idc =? 86) || (idc =? 118) || (idc =? 128) || (idc =? 138) || (idc =? 139) || (idc =? 134) ||
  (idc =? 135).
(** h264_sps_parser.cc:933-944; the failing getResolution sets both to -1 *)
Definition dump_resolution (s : sps) : dump :=
  match getResolution s with
  | Ok (w, h) => fi "width" w ++ fi "height" h
  | UB k => [Bad k]
  | _ => fi "width" (-1) ++ fi "height" (-1)
  end.
(** h264_sps_parser.cc:739-949 *)
Definition dump_sps_data (o : popts) (s : sps) : dump := block "sps_data" (
  fu "profile_idc" (profile_idc s) ++
  fu "constraint_set0_flag" (constraint_set0_flag s) ++
  fu "constraint_set1_flag" (constraint_set1_flag s) ++
  fu "constraint_set2_flag" (constraint_set2_flag s) ++
  fu "constraint_set3_flag" (constraint_set3_flag s) ++
  fu "constraint_set4_flag" (constraint_set4_flag s) ++
  fu "constraint_set5_flag" (constraint_set5_flag s) ++
  fu "reserved_zero_2bits" (reserved_zero_2bits s) ++
  [L 0 ("profile:"%string :: profile_words (profile_type s))] ++
  fu "level_idc" (level_idc s) ++
  fu "seq_parameter_set_id" (seq_parameter_set_id s) ++
  when (prints_chroma (profile_idc s)) (
    fu "chroma_format_idc" (chroma_format_idc s) ++
    when (chroma_format_idc s =? 3)
      (fu "separate_colour_plane_flag" (separate_colour_plane_flag s)) ++
    fu "bit_depth_luma_minus8" (bit_depth_luma_minus8 s) ++
    fu "bit_depth_chroma_minus8" (bit_depth_chroma_minus8 s) ++
    fu "qpprime_y_zero_transform_bypass_flag" (qpprime_y_zero_transform_bypass_flag s) ++
    fu "seq_scaling_matrix_present_flag" (seq_scaling_matrix_present_flag s) ++
    dump_scal "seq_scaling_list_present_flag" (sps_scaling s)) ++
  fu "log2_max_frame_num_minus4" (log2_max_frame_num_minus4 s) ++
  fu "pic_order_cnt_type" (pic_order_cnt_type s) ++
  (if pic_order_cnt_type s =? 0 then
     fu "log2_max_pic_order_cnt_lsb_minus4" (log2_max_pic_order_cnt_lsb_minus4 s)
   else when (pic_order_cnt_type s =? 1) (
     fu "delta_pic_order_always_zero_flag" (delta_pic_order_always_zero_flag s) ++
     fi "offset_for_non_ref_pic" (offset_for_non_ref_pic s) ++
     fi "offset_for_top_to_bottom_field" (offset_for_top_to_bottom_field s) ++
     fu "num_ref_frames_in_pic_order_cnt_cycle" (num_ref_frames_in_pic_order_cnt_cycle s) ++
     fis "offset_for_ref_frame" (offset_for_ref_frame s))) ++
  fu "max_num_ref_frames" (max_num_ref_frames s) ++
  fu "gaps_in_frame_num_value_allowed_flag" (gaps_in_frame_num_value_allowed_flag s) ++
  fu "pic_width_in_mbs_minus1" (pic_width_in_mbs_minus1 s) ++
  fu "pic_height_in_map_units_minus1" (pic_height_in_map_units_minus1 s) ++
  fu "frame_mbs_only_flag" (frame_mbs_only_flag s) ++
  when (negb (tob (frame_mbs_only_flag s)))
    (fu "mb_adaptive_frame_field_flag" (mb_adaptive_frame_field_flag s)) ++
  fu "direct_8x8_inference_flag" (direct_8x8_inference_flag s) ++
  fu "frame_cropping_flag" (frame_cropping_flag s) ++
  when (tob (frame_cropping_flag s)) (
    fu "frame_crop_left_offset" (frame_crop_left_offset s) ++
    fu "frame_crop_right_offset" (frame_crop_right_offset s) ++
    fu "frame_crop_top_offset" (frame_crop_top_offset s) ++
    fu "frame_crop_bottom_offset" (frame_crop_bottom_offset s)) ++
  fu "vui_parameters_present_flag" (vui_parameters_present_flag s) ++
  when (tob (vui_parameters_present_flag s)) (deref (vui_parameters s) dump_vui) ++
  when (add_resolution o) (dump_resolution s)).
(** h264_sps_parser.cc:951-962; sps_data is never null in the model *)
Definition dump_sps (o : popts) (s : sps) : dump := block "sps" (dump_sps_data o s).

(** h264_pps_parser.cc:390-548 *)
Definition dump_pps (p : pps) : dump := block "pps" (
  fu "pic_parameter_set_id" (pps_pic_parameter_set_id p) ++
  fu "seq_parameter_set_id" (pps_seq_parameter_set_id p) ++
  fu "entropy_coding_mode_flag" (pps_entropy_coding_mode_flag p) ++
  fu "bottom_field_pic_order_in_frame_present_flag"
    (pps_bottom_field_pic_order_in_frame_present_flag p) ++
  fu "num_slice_groups_minus1" (pps_num_slice_groups_minus1 p) ++
  when (0 <? pps_num_slice_groups_minus1 p) (
    fu "slice_group_map_type" (pps_slice_group_map_type p) ++
    (if pps_slice_group_map_type p =? 0 then
       fus "run_length_minus1" (pps_run_length_minus1 p)
     else if pps_slice_group_map_type p =? 2 then
       fus "top_left" (map fst (pps_rects p)) ++
       fus "bottom_right" (map snd (pps_rects p))
     else if (pps_slice_group_map_type p =? 3) || (pps_slice_group_map_type p =? 4) ||
             (pps_slice_group_map_type p =? 5) then
       fu "slice_group_change_direction_flag" (pps_slice_group_change_direction_flag p) ++
       fu "slice_group_change_rate_minus1" (pps_slice_group_change_rate_minus1 p)
     else when (pps_slice_group_map_type p =? 6) (
       fu "pic_size_in_map_units_minus1" (pps_pic_size_in_map_units_minus1 p) ++
       fus "slice_group_id" (pps_slice_group_id p)))) ++
  fu "num_ref_idx_l0_default_active_minus1" (pps_num_ref_idx_l0_default_active_minus1 p) ++
  fu "num_ref_idx_l1_default_active_minus1" (pps_num_ref_idx_l1_default_active_minus1 p) ++
  fu "weighted_pred_flag" (pps_weighted_pred_flag p) ++
  fu "weighted_bipred_idc" (pps_weighted_bipred_idc p) ++
  fi "pic_init_qp_minus26" (pps_pic_init_qp_minus26 p) ++
  fi "pic_init_qs_minus26" (pps_pic_init_qs_minus26 p) ++
  fi "chroma_qp_index_offset" (pps_chroma_qp_index_offset p) ++
  fu "deblocking_filter_control_present_flag" (pps_deblocking_filter_control_present_flag p) ++
  fu "constrained_intra_pred_flag" (pps_constrained_intra_pred_flag p) ++
  fu "redundant_pic_cnt_present_flag" (pps_redundant_pic_cnt_present_flag p) ++
  fu "transform_8x8_mode_flag" (pps_transform_8x8_mode_flag p) ++
  fu "pic_scaling_matrix_present_flag" (pps_pic_scaling_matrix_present_flag p) ++
  dump_scal "pic_scaling_list_present_flag" (pps_scaling p) ++
  fi "second_chroma_qp_index_offset" (pps_second_chroma_qp_index_offset p)).

(** h264_sps_extension_parser.cc:124-155 *)
Definition dump_spsext (e : spsext) : dump := block "sps_extension" (
  fu "seq_parameter_set_id" (se_seq_parameter_set_id e) ++
  fu "aux_format_idc" (se_aux_format_idc e) ++
  when (negb (se_aux_format_idc e =? 0)) (
    fu "bit_depth_aux_minus8" (se_bit_depth_aux_minus8 e) ++
    fu "alpha_incr_flag" (se_alpha_incr_flag e) ++
    fu "alpha_opaque_value" (se_alpha_opaque_value e) ++
    fu "alpha_transparent_value" (se_alpha_transparent_value e)) ++
  fu "additional_extension_flag" (se_additional_extension_flag e)).

(** h264_sps_svc_extension_parser.cc:134-202; the offsets are int32_t, printed with %u *)
Definition dump_spssvc (e : spssvc) : dump := block "seq_parameter_set_svc_extension" (
  fu "inter_layer_deblocking_filter_control_present_flag"
    (sv_inter_layer_deblocking_filter_control_present_flag e) ++
  fu "extended_spatial_scalability_idc" (sv_extended_spatial_scalability_idc e) ++
  when ((sv_ChromaArrayType e =? 1) || (sv_ChromaArrayType e =? 2))
    (fu "chroma_phase_x_plus1_flag" (sv_chroma_phase_x_plus1_flag e)) ++
  when (sv_ChromaArrayType e =? 1) (fu "chroma_phase_y_plus1" (sv_chroma_phase_y_plus1 e)) ++
  when (sv_extended_spatial_scalability_idc e =? 1) (
    when (0 <? sv_ChromaArrayType e) (
      fu "seq_ref_layer_chroma_phase_x_plus1_flag"
        (sv_seq_ref_layer_chroma_phase_x_plus1_flag e) ++
      fu "seq_ref_layer_chroma_phase_y_plus1" (sv_seq_ref_layer_chroma_phase_y_plus1 e)) ++
    fiu "seq_scaled_ref_layer_left_offset" (sv_seq_scaled_ref_layer_left_offset e) ++
    fiu "seq_scaled_ref_layer_top_offset" (sv_seq_scaled_ref_layer_top_offset e) ++
    fiu "seq_scaled_ref_layer_right_offset" (sv_seq_scaled_ref_layer_right_offset e) ++
    fiu "seq_scaled_ref_layer_bottom_offset" (sv_seq_scaled_ref_layer_bottom_offset e)) ++
  fu "seq_tcoeff_level_prediction_flag" (sv_seq_tcoeff_level_prediction_flag e) ++
  when (sv_seq_tcoeff_level_prediction_flag e =? 1)
    (fu "adaptive_tcoeff_level_prediction_flag" (sv_adaptive_tcoeff_level_prediction_flag e)) ++
  fu "slice_header_restriction_flag" (sv_slice_header_restriction_flag e)).

(** h264_subset_sps_parser.cc:133-198 *)
Definition dump_subsps (o : popts) (v : subsps) : dump :=
  let idc := profile_idc (ss_sps v) in
  block "subset_sps" (
  dump_sps_data o (ss_sps v) ++
  (if (idc =? 83) || (idc =? 86) then
     deref (ss_svc v) dump_spssvc ++
     fu "svc_vui_parameters_present_flag" (ss_svc_vui_parameters_present_flag v)
   else if (idc =? 118) || (idc =? 128) || (idc =? 134) then
     fu "bit_equal_to_one" (ss_bit_equal_to_one v) ++
     fu "mvc_vui_parameters_present_flag" (ss_mvc_vui_parameters_present_flag v)
   else if (idc =? 138) || (idc =? 135) then
     fu "bit_equal_to_one" (ss_bit_equal_to_one v)
   else when (idc =? 139) (fu "bit_equal_to_one" (ss_bit_equal_to_one v))) ++
  fu "additional_extension2_flag" (ss_additional_extension2_flag v) ++
  when (ss_additional_extension2_flag v =? 1)
    (fu "additional_extension2_data_flag" (ss_additional_extension2_data_flag v))).

(** h264_prefix_nal_unit_parser.cc:142-163; additional_prefix_nal_unit_extension_flag is not
    printed *)
Definition dump_prefsvc (v : prefsvc) : dump := block "prefix_nal_unit_svc" (
  when (negb (pf_nal_ref_idc v =? 0)) (
    fu "store_ref_base_pic_flag" (pf_store_ref_base_pic_flag v) ++
    fu "additional_prefix_nal_unit_extension_data_flag"
      (pf_additional_prefix_nal_unit_extension_data_flag v))).
(** h264_prefix_nal_unit_parser.cc:165-180 *)
Definition dump_prefix (v : prefix) : dump := block "prefix_nal_unit_rbsp" (
  when (tob (px_svc_extension_flag v))
    (match px_svc v with Some x => dump_prefsvc x | None => [] end)).

(** h264_ref_pic_list_modification_parser.cc:140-183 *)
Definition nonempty {A} (l : list A) : bool := match l with [] => false | _ => true end.
Definition dump_rplm (v : rplm) : dump := block "ref_pic_list_modification" (
  fu "ref_pic_list_modification_flag_l0" (rp_flag_l0 v) ++
  fu "ref_pic_list_modification_flag_l1" (rp_flag_l1 v) ++
  when (nonempty (rp_modification_of_pic_nums_idc v))
    (fus "modification_of_pic_nums_idc" (rp_modification_of_pic_nums_idc v)) ++
  when (nonempty (rp_abs_diff_pic_num_minus1 v))
    (fus "abs_diff_pic_num_minus1" (rp_abs_diff_pic_num_minus1 v)) ++
  when (nonempty (rp_long_term_pic_num v))
    (fus "long_term_pic_num" (rp_long_term_pic_num v))).

(** h264_pred_weight_table_parser.cc:202-325 *)
Definition dump_pwt (v : pwt) : dump := block "pred_weight_table" (
  fu "luma_log2_weight_denom" (pw_luma_log2_weight_denom v) ++
  when (negb (pw_chroma_array_type v =? 0))
    (fu "chroma_log2_weight_denom" (pw_chroma_log2_weight_denom v)) ++
  fus "luma_weight_l0_flag" (pw_luma_weight_l0_flag v) ++
  fis "luma_weight_l0" (pw_luma_weight_l0 v) ++
  fis "luma_offset_l0" (pw_luma_offset_l0 v) ++
  when (negb (pw_chroma_array_type v =? 0)) (
    fus "chroma_weight_l0_flag" (pw_chroma_weight_l0_flag v) ++
    fiss "chroma_weight_l0" (pw_chroma_weight_l0 v) ++
    fiss "chroma_offset_l0" (pw_chroma_offset_l0 v)) ++
  when (is_B (pw_slice_type v)) (
    fus "luma_weight_l1_flag" (pw_luma_weight_l1_flag v) ++
    fis "luma_weight_l1" (pw_luma_weight_l1 v) ++
    fis "luma_offset_l1" (pw_luma_offset_l1 v) ++
    when (negb (pw_chroma_array_type v =? 0)) (
      fus "chroma_weight_l1_flag" (pw_chroma_weight_l1_flag v) ++
      fiss "chroma_weight_l1" (pw_chroma_weight_l1 v) ++
      fiss "chroma_offset_l1" (pw_chroma_offset_l1 v)))).

(** h264_dec_ref_pic_marking_parser.cc:127-186 *)
Definition dump_drpm (v : drpm) : dump := block "dec_ref_pic_marking" (
  if tob (dr_IdrPicFlag v) then
    fu "no_output_of_prior_pics_flag" (dr_no_output_of_prior_pics_flag v) ++
    fu "long_term_reference_flag" (dr_long_term_reference_flag v)
  else
    fu "adaptive_ref_pic_marking_mode_flag" (dr_adaptive_ref_pic_marking_mode_flag v) ++
    when (tob (dr_adaptive_ref_pic_marking_mode_flag v)) (
      fus "memory_management_control_operation" (dr_memory_management_control_operation v) ++
      fus "difference_of_pic_nums_minus1" (dr_difference_of_pic_nums_minus1 v) ++
      fus "long_term_pic_num" (dr_long_term_pic_num v) ++
      fus "long_term_frame_idx" (dr_long_term_frame_idx v) ++
      fus "max_long_term_frame_idx_plus1" (dr_max_long_term_frame_idx_plus1 v))).

(** h264_slice_header_parser.cc:561-714; slice_alpha_c0_offset_div2 and
    slice_beta_offset_div2 are int32_t, printed with %u.  ref_pic_list_modification is never
    null in the model. *)
Definition dump_slh (h : slh) : dump :=
  let ty := slice_type (sh_lead h) in
  let i := sh_in h in
  block "slice_header" (
  fu "first_mb_in_slice" (first_mb_in_slice (sh_lead h)) ++
  fu "slice_type" ty ++
  fu "pic_parameter_set_id" (pic_parameter_set_id (sh_lead h)) ++
  when (tob (in_separate_colour_plane_flag i)) (fu "colour_plane_id" (colour_plane_id (sh_pic h))) ++
  fu "frame_num" (frame_num (sh_pic h)) ++
  when (negb (tob (in_frame_mbs_only_flag i))) (
    fu "field_pic_flag" (field_pic_flag (sh_pic h)) ++
    when (tob (field_pic_flag (sh_pic h)))
      (fu "bottom_field_flag" (bottom_field_flag (sh_pic h)))) ++
  when (in_nal_unit_type i =? 5) (fu "idr_pic_id" (sh_idr_pic_id h)) ++
  when (in_pic_order_cnt_type i =? 0) (
    fu "pic_order_cnt_lsb" (pic_order_cnt_lsb (sh_poc h)) ++
    when (tob (in_bottom_field_pic_order_in_frame_present_flag i) &&
          negb (tob (field_pic_flag (sh_pic h))))
      (fi "delta_pic_order_cnt_bottom" (delta_pic_order_cnt_bottom (sh_poc h)))) ++
  when ((in_pic_order_cnt_type i =? 1) && negb (tob (in_delta_pic_order_always_zero_flag i)))
    (fis "delta_pic_order_cnt" (delta_pic_order_cnt (sh_poc h))) ++
  when (tob (in_redundant_pic_cnt_present_flag i))
    (fu "redundant_pic_cnt" (sh_redundant_pic_cnt h)) ++
  when (is_B ty) (fu "direct_spatial_mv_pred_flag" (direct_spatial_mv_pred_flag (sh_refs h))) ++
  when (is_P ty || is_SP ty || is_B ty) (
    fu "num_ref_idx_active_override_flag" (num_ref_idx_active_override_flag (sh_refs h)) ++
    when (tob (num_ref_idx_active_override_flag (sh_refs h))) (
      fu "num_ref_idx_l0_active_minus1" (num_ref_idx_l0_active_minus1 (sh_refs h)) ++
      when (is_B ty)
        (fu "num_ref_idx_l1_active_minus1" (num_ref_idx_l1_active_minus1 (sh_refs h))))) ++
  dump_rplm (sh_ref_pic_list_modification h) ++
  when ((tob (in_weighted_pred_flag i) && (is_P ty || is_SP ty)) ||
        ((in_weighted_bipred_idc i =? 1) && is_B ty))
    (deref (sh_pred_weight_table h) dump_pwt) ++
  when (negb (in_nal_ref_idc i =? 0)) (deref (sh_dec_ref_pic_marking h) dump_drpm) ++
  when (tob (in_entropy_coding_mode_flag i) && negb (is_I ty) && negb (is_SI ty))
    (fu "cabac_init_idc" (sh_cabac_init_idc h)) ++
  fi "slice_qp_delta" (sh_slice_qp_delta h) ++
  when (is_SP ty || is_SI ty) (
    when (is_SP ty) (fu "sp_for_switch_flag" (sp_for_switch_flag (sh_spqs h))) ++
    fi "slice_qs_delta" (slice_qs_delta (sh_spqs h))) ++
  when (tob (in_deblocking_filter_control_present_flag i)) (
    fu "disable_deblocking_filter_idc" (disable_deblocking_filter_idc (sh_dbk h)) ++
    when (negb (disable_deblocking_filter_idc (sh_dbk h) =? 1)) (
      fiu "slice_alpha_c0_offset_div2" (slice_alpha_c0_offset_div2 (sh_dbk h)) ++
      fiu "slice_beta_offset_div2" (slice_beta_offset_div2 (sh_dbk h)))) ++
  when ((0 <? in_num_slice_groups_minus1 i) && (3 <=? in_slice_group_map_type i) &&
        (in_slice_group_map_type i <=? 5))
    (fu "slice_group_change_cycle" (sh_slice_group_change_cycle h))).

(** h264_slice_layer_without_partitioning_rbsp_parser.cc:73-88; slice_header is never null in
    the model *)
Definition dump_slp (v : slp) : dump :=
  block "slice_layer_without_partitioning_rbsp" (dump_slh (sl_slice_header v)).

(** h264_common.cc:364-368 fdump_unimplemented *)
Definition dump_unimplemented (name : string) : dump :=
  [L 0 [name; "{"%string; "unimplemented"%string; "}"%string]].

(** h264_slice_header_in_scalable_extension_parser.cc:722-980.  Signed members printed with
    %u: delta_pic_order_cnt_bottom, slice_qp_delta and all offsets.  The SvcSliceType
    constants EP, EB and EI are those of P, B and I. *)
Definition dump_svh (h : svh) : dump :=
  let ty := slice_type (vh_lead h) in
  let i := vh_in h in
  let j := vh_svin h in
  let q := vh_qzero h in
  let r := q_refs q in
  let y := vh_ilayer h in
  let m := vh_modes h in
  block "slice_header_in_scalable_extension" (
  fu "first_mb_in_slice" (first_mb_in_slice (vh_lead h)) ++
  fu "slice_type" ty ++
  fu "pic_parameter_set_id" (pic_parameter_set_id (vh_lead h)) ++
  when (tob (in_separate_colour_plane_flag i)) (fu "colour_plane_id" (colour_plane_id (vh_pic h))) ++
  fu "frame_num" (frame_num (vh_pic h)) ++
  when (negb (tob (in_frame_mbs_only_flag i))) (
    fu "field_pic_flag" (field_pic_flag (vh_pic h)) ++
    when (tob (field_pic_flag (vh_pic h)))
      (fu "bottom_field_flag" (bottom_field_flag (vh_pic h)))) ++
  when (in_idr_flag j =? 1) (fu "idr_pic_id" (vh_idr_pic_id h)) ++
  when (in_pic_order_cnt_type i =? 0) (
    fu "pic_order_cnt_lsb" (pic_order_cnt_lsb (vh_poc h)) ++
    when (tob (in_bottom_field_pic_order_in_frame_present_flag i) &&
          negb (tob (field_pic_flag (vh_pic h))))
      (fiu "delta_pic_order_cnt_bottom" (delta_pic_order_cnt_bottom (vh_poc h)))) ++
  when ((in_pic_order_cnt_type i =? 1) && negb (tob (in_delta_pic_order_always_zero_flag i)))
    (fis "delta_pic_order_cnt" (delta_pic_order_cnt (vh_poc h))) ++
  when (tob (in_redundant_pic_cnt_present_flag i))
    (fu "redundant_pic_cnt" (vh_redundant_pic_cnt h)) ++
  when (in_quality_id j =? 0) (
    when (is_B ty) (fu "direct_spatial_mv_pred_flag" (direct_spatial_mv_pred_flag r)) ++
    when (is_P ty || is_B ty) (
      fu "num_ref_idx_active_override_flag" (num_ref_idx_active_override_flag r) ++
      when (tob (num_ref_idx_active_override_flag r)) (
        fu "num_ref_idx_l0_active_minus1" (num_ref_idx_l0_active_minus1 r) ++
        when (is_B ty) (fu "num_ref_idx_l1_active_minus1" (num_ref_idx_l1_active_minus1 r)))) ++
    deref (q_ref_pic_list_modification q) dump_rplm ++
    when ((tob (in_weighted_pred_flag i) && is_P ty) ||
          ((in_weighted_bipred_idc i =? 1) && is_B ty)) (
      when (negb (tob (in_no_inter_layer_pred_flag j)))
        (fu "base_pred_weight_table_flag" (q_base_pred_weight_table_flag q)) ++
      when (tob (in_no_inter_layer_pred_flag j) || negb (tob (q_base_pred_weight_table_flag q)))
        (deref (q_pred_weight_table q) dump_pwt)) ++
    when (negb (in_nal_ref_idc i =? 0)) (
      deref (q_dec_ref_pic_marking q) dump_drpm ++
      when (negb (tob (in_slice_header_restriction_flag j))) (
        fu "store_ref_base_pic_flag" (q_store_ref_base_pic_flag q) ++
        when ((tob (in_use_ref_base_pic_flag j) || tob (q_store_ref_base_pic_flag q)) &&
              negb (tob (in_idr_flag j)))
          (dump_unimplemented "dec_ref_base_pic_marking()")))) ++
  when (tob (in_entropy_coding_mode_flag i) && negb (is_I ty))
    (fu "cabac_init_idc" (vh_cabac_init_idc h)) ++
  fiu "slice_qp_delta" (vh_slice_qp_delta h) ++
  when (tob (in_deblocking_filter_control_present_flag i)) (
    fu "disable_deblocking_filter_idc" (disable_deblocking_filter_idc (vh_dbk h)) ++
    when (negb (disable_deblocking_filter_idc (vh_dbk h) =? 1)) (
      fiu "slice_alpha_c0_offset_div2" (slice_alpha_c0_offset_div2 (vh_dbk h)) ++
      fiu "slice_beta_offset_div2" (slice_beta_offset_div2 (vh_dbk h)))) ++
  when ((0 <? in_num_slice_groups_minus1 i) && (3 <=? in_slice_group_map_type i) &&
        (in_slice_group_map_type i <=? 5))
    (fu "slice_group_change_cycle" (vh_slice_group_change_cycle h)) ++
  when (negb (tob (in_no_inter_layer_pred_flag j)) && (in_quality_id j =? 0)) (
    fu "ref_layer_dq_id" (il_ref_layer_dq_id y) ++
    when (tob (in_inter_layer_deblocking_filter_control_present_flag j)) (
      fu "disable_inter_layer_deblocking_filter_idc"
        (il_disable_inter_layer_deblocking_filter_idc y) ++
      when (negb (il_disable_inter_layer_deblocking_filter_idc y =? 1)) (
        fiu "inter_layer_slice_alpha_c0_offset_div2"
          (il_inter_layer_slice_alpha_c0_offset_div2 y) ++
        fiu "inter_layer_slice_beta_offset_div2" (il_inter_layer_slice_beta_offset_div2 y))) ++
    fu "constrained_intra_resampling_flag" (il_constrained_intra_resampling_flag y) ++
    when (in_extended_spatial_scalability_idc j =? 2) (
      when (0 <? in_ChromaArrayType j) (
        fu "ref_layer_chroma_phase_x_plus1_flag" (il_ref_layer_chroma_phase_x_plus1_flag y) ++
        fu "ref_layer_chroma_phase_y_plus1" (il_ref_layer_chroma_phase_y_plus1 y)) ++
      fiu "scaled_ref_layer_left_offset" (il_scaled_ref_layer_left_offset y) ++
      fiu "scaled_ref_layer_top_offset" (il_scaled_ref_layer_top_offset y) ++
      fiu "scaled_ref_layer_right_offset" (il_scaled_ref_layer_right_offset y) ++
      fiu "scaled_ref_layer_bottom_offset" (il_scaled_ref_layer_bottom_offset y))) ++
  when (negb (tob (in_no_inter_layer_pred_flag j))) (
    fu "slice_skip_flag" (mo_slice_skip_flag m) ++
    (if tob (mo_slice_skip_flag m) then
       fu "num_mbs_in_slice_minus1" (mo_num_mbs_in_slice_minus1 m)
     else
       fu "adaptive_base_mode_flag" (mo_adaptive_base_mode_flag m) ++
       when (negb (tob (mo_adaptive_base_mode_flag m)))
         (fu "default_base_mode_flag" (mo_default_base_mode_flag m)) ++
       when (negb (tob (mo_default_base_mode_flag m))) (
         fu "adaptive_motion_prediction_flag" (mo_adaptive_motion_prediction_flag m) ++
         when (negb (tob (mo_adaptive_motion_prediction_flag m)))
           (fu "default_motion_prediction_flag" (mo_default_motion_prediction_flag m))) ++
       fu "adaptive_residual_prediction_flag" (mo_adaptive_residual_prediction_flag m) ++
       when (negb (tob (mo_adaptive_residual_prediction_flag m)))
         (fu "default_residual_prediction_flag" (mo_default_residual_prediction_flag m))) ++
    when (tob (in_adaptive_tcoeff_level_prediction_flag j))
      (fu "tcoeff_level_prediction_flag" (mo_tcoeff_level_prediction_flag m))) ++
  when (negb (tob (in_slice_header_restriction_flag j)) && negb (tob (mo_slice_skip_flag m))) (
    fu "scan_idx_start" (vh_scan_idx_start h) ++
    fu "scan_idx_end" (vh_scan_idx_end h))).

(** A line with nothing on it: fdump_indent_level, then a pointer that is null *)
Definition maybe {A} (o : option A) (f : A -> dump) : dump :=
  match o with Some a => f a | None => [L 0 []] end.

(** h264_slice_layer_extension_rbsp_parser.cc:90-119 *)
Definition dump_slext (v : slext) : dump := block "slice_layer_extension_rbsp" (
  if tob (sx_svc_extension_flag v) then maybe (sx_svc_slice_header v) dump_svh
  else if tob (sx_avc_3d_extension_flag v) then []
  else deref (sx_slice_header v) dump_slh).

(** h264_nal_unit_header_svc_extension_parser.cc:97-135 *)
Definition dump_svc_ext (e : svc_ext) : dump := block "nal_unit_header_svc_extension" (
  fu "idr_flag" (svc_idr_flag e) ++
  fu "priority_id" (svc_priority_id e) ++
  fu "no_inter_layer_pred_flag" (svc_no_inter_layer_pred_flag e) ++
  fu "dependency_id" (svc_dependency_id e) ++
  fu "quality_id" (svc_quality_id e) ++
  fu "temporal_id" (svc_temporal_id e) ++
  fu "use_ref_base_pic_flag" (svc_use_ref_base_pic_flag e) ++
  fu "discardable_flag" (svc_discardable_flag e) ++
  fu "output_flag" (svc_output_flag e) ++
  fu "reserved_three_2bits" (svc_reserved_three_2bits e)).
(** h264_nal_unit_header_parser.cc:117-148 *)
Definition dump_nalh (h : nalh) : dump :=
  let t := nal_unit_type h in
  block "nal_unit_header" (
  fu "forbidden_zero_bit" (forbidden_zero_bit h) ++
  fu "nal_ref_idc" (nal_ref_idc h) ++
  fu "nal_unit_type" t ++
  when ((t =? 14) || (t =? 20) || (t =? 21)) (
    if negb (t =? 21) then
      fu "svc_extension_flag" (svc_extension_flag h) ++
      match nal_svc h with
      | Some e => when (tob (svc_extension_flag h)) (dump_svc_ext e)
      | None => []
      end
    else fu "avc_3d_extension_flag" (avc_3d_extension_flag h))).

(** h264_nal_unit_payload_parser.cc:224-312: fdump_indent_level is called for every type *)
Definition dump_payload (o : popts) (nut : N) (p : payload) : dump := block "nal_unit_payload" (
  match nut with
  | 1 | 5 => maybe (pl_slice p) dump_slp
  | 7 => maybe (pl_sps p) (dump_sps o)
  | 8 => maybe (pl_pps p) dump_pps
  | 14 => maybe (pl_prefix p) dump_prefix
  | 15 => maybe (pl_subset_sps p) (dump_subsps o)
  | 20 => maybe (pl_slice_ext p) dump_slext
  | _ => [L 0 []]
  end).

(** The characters of a C string *)
Fixpoint text_of (l : list N) : string :=
  match l with [] => EmptyString | c :: t => String (ascii_of_N c) (text_of t) end.
(** h264_nal_unit_parser.cc:116-121: NaluChecksum::fdump into 64 bytes, then %s *)
Definition dump_checksum (c : list N) : dump :=
  match rbind (checksum_fdump c 0 (repeat 0 64)) c_string with
  | Ok s => fld "checksum" ("0x" ++ text_of s)
  | UB k => [Bad k]
  | _ => []
  end.
(** h264_nal_unit_parser.cc:92-135.  [off] and [len] are the members offset and length; the
    header and the payload are never null in the model. *)
Definition dump_nalu (o : popts) (off len : N) (u : nalu) : dump := block "nal_unit" (
  when (add_offset o) (fld "offset" (hex8 off)) ++
  when (add_length o) (fu "length" len) ++
  when (add_parsed_length o) (fld "parsed_length" (hex8 (nu_parsed_length u))) ++
  when (add_checksum o) (deref (nu_checksum u) dump_checksum) ++
  dump_nalh (nu_header u) ++
  dump_payload o (nal_unit_type (nu_header u)) (nu_payload u)).

(** h264_rtp_single_parser.cc:60-77 *)
Definition dump_rtp_single (o : popts) (v : rtp_single) : dump := block "rtp_single" (
  dump_nalh (rs_header v) ++
  dump_payload o (nal_unit_type (rs_header v)) (rs_payload v)).
(** h264_rtp_stapa_parser.cc:97-108: the three vectors are indexed by the size of the first *)
Fixpoint dump_aggregated (o : popts) (sizes : list N) (hs : list nalh) (ps : list payload) : dump :=
  match sizes with
  | [] => []
  | n :: sizes' =>
      fu "nal_unit_size" n ++
      match hs, ps with
      | h :: hs', p :: ps' =>
          dump_nalh h ++ dump_payload o (nal_unit_type h) p ++ dump_aggregated o sizes' hs' ps'
      | _, _ => [Bad OutOfBounds]
      end
  end.
(** h264_rtp_stapa_parser.cc:89-113 *)
Definition dump_rtp_stapa (o : popts) (v : rtp_stapa) : dump := block "rtp_stapa" (
  dump_nalh (ra_header v) ++
  dump_aggregated o (ra_nal_unit_sizes v) (ra_nal_unit_headers v) (ra_nal_unit_payloads v)).
(** h264_rtp_fua_parser.cc:78-107 *)
Definition dump_rtp_fua (o : popts) (v : rtp_fua) : dump := block "rtp_fua" (
  dump_nalh (rf_header v) ++
  fu "s_bit" (rf_s_bit v) ++
  fu "e_bit" (rf_e_bit v) ++
  fu "r_bit" (rf_r_bit v) ++
  fu "fu_type" (rf_fu_type v) ++
  when (rf_s_bit v =? 1) (deref (rf_payload v) (dump_payload o (rf_fu_type v)))).
(** h264_rtp_parser.cc:78-100: no fdump_indent_level before the second structure *)
Definition dump_rtp (o : popts) (v : rtp) : dump :=
  let t := nal_unit_type (rp_header v) in
  block "rtp" (
  let h := dump_nalh (rp_header v) in
  if t <=? 23 then glue h (deref (rp_single v) (dump_rtp_single o))
  else if t =? 24 then glue h (deref (rp_stapa v) (dump_rtp_stapa o))
  else if t =? 28 then glue h (deref (rp_fua v) (dump_rtp_fua o))
  else h).

(** The text. *)
Definition newline : ascii := ascii_of_N 10.
Definition space : ascii := ascii_of_N 32.
(** h264_common.cc:354-362 fdump_indent_level at depth [d] below [level]; level -1 stays -1
    (lines 346-352) *)
Definition indent (level : Z) (d : nat) : string :=
  if (level =? -1)%Z then String space EmptyString
  else String newline (chars (2 * (Z.to_nat level + d)) space).
(** The lines after the first one *)
Fixpoint render_rest (level : Z) (ls : dump) : res string :=
  match ls with
  | [] => Ok EmptyString
  | L d ws :: t =>
      rbind (render_rest level t) (fun s =>
      Ok (indent level d ++ String.concat " " ws ++ s)%string)
  | Bad k :: _ => UB k
  end.
(** fdump(outfp, level): what is printed *)
Definition render (level : Z) (ls : dump) : res string :=
  match ls with
  | [] => Ok EmptyString
  | L _ ws :: t => rbind (render_rest level t) (fun s => Ok (String.concat " " ws ++ s)%string)
  | Bad k :: _ => UB k
  end.

(** h264_bitstream_parser.cc:274-281 BitstreamState::fdump; [o] is the member
    parsing_options_, not the argument *)
Fixpoint fdump_bitstream (level : Z) (o : popts) (us : list (nalu * N * N)) : res string :=
  match us with
  | [] => Ok EmptyString
  | (u, off, len) :: t =>
      rbind (render level (dump_nalu o off len u)) (fun a =>
      rbind (fdump_bitstream level o t) (fun b =>
      Ok (a ++ String newline b)%string))
  end.
