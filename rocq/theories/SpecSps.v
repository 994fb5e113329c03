(** Specification: seq_parameter_set_data() (H.264 7.3.2.1.1), its ranges (7.4.2.1.1), the
    cropped frame size (7-13 .. 7-22) and the profiles of Annex A. *)
From Coq Require Import NArith ZArith List Bool.
From Verif Require Import SpecBits TypesSps SpecVui SpecScaling.
Import ListNotations.
Open Scope N_scope.

(** profile_idc values whose SPS has the chroma format fields. *)
Definition high_profiles : list N :=
  [100; 110; 122; 244; 44; 83; 86; 118; 128; 138; 139; 134; 135].
Definition is_high (p : N) : bool := existsb (N.eqb p) high_profiles.

(** Table 6-1 and equations 7-19 .. 7-22, for 4:0:0, 4:2:0, 4:2:2, 4:4:4 and for 4:4:4 with
    separately coded planes (ChromaArrayType 0). *)
Definition crop_unit_x (cfi sep : N) : N :=
  if on sep then 1 else match cfi with 1 => 2 | 2 => 2 | _ => 1 end.
Definition crop_unit_y (cfi sep fmo : N) : N :=
  (if on sep then 1 else match cfi with 1 => 2 | _ => 1 end) * (2 - fmo).
(** Coded size in luma samples. *)
Definition coded_width (s : sps) : N := 16 * (pic_width_in_mbs_minus1 s + 1).
Definition coded_height (s : sps) : N :=
  16 * ((2 - frame_mbs_only_flag s) * (pic_height_in_map_units_minus1 s + 1)).
Definition crop_width (s : sps) : N :=
  crop_unit_x (chroma_format_idc s) (separate_colour_plane_flag s) *
  (frame_crop_left_offset s + frame_crop_right_offset s).
Definition crop_height (s : sps) : N :=
  crop_unit_y (chroma_format_idc s) (separate_colour_plane_flag s) (frame_mbs_only_flag s) *
  (frame_crop_top_offset s + frame_crop_bottom_offset s).

(** Annex A: profile from profile_idc and the constraint flags. *)
Definition annex_a (s : sps) : profile :=
  match profile_idc s with
  | 66 => if on (constraint_set1_flag s) then CONSTRAINED_BASELINE else BASELINE
  | 77 => MAIN
  | 88 => EXTENDED
  | 100 => if on (constraint_set4_flag s) then PROGRESSIVE_HIGH
           else if on (constraint_set5_flag s) then CONSTRAINED_HIGH else HIGH
  | 110 => if on (constraint_set3_flag s) then HIGH_10_INTRA
           else if on (constraint_set4_flag s) then PROGRESSIVE_HIGH_10 else HIGH_10
  | 122 => if on (constraint_set3_flag s) then HIGH_422_INTRA else HIGH_422
  | 144 => if on (constraint_set3_flag s) then HIGH_444_INTRA else HIGH_444
  | 244 => if on (constraint_set3_flag s) then HIGH_444_PRED_INTRA else HIGH_444_PRED
  | 44 => CAVLC_444_INTRA
  | _ => UNSPECIFIED
  end.

Definition enc_sps (s : sps) (ls : list slist) : list bool :=
  u_bits 8 (profile_idc s) ++
  u_bits 1 (constraint_set0_flag s) ++
  u_bits 1 (constraint_set1_flag s) ++
  u_bits 1 (constraint_set2_flag s) ++
  u_bits 1 (constraint_set3_flag s) ++
  u_bits 1 (constraint_set4_flag s) ++
  u_bits 1 (constraint_set5_flag s) ++
  u_bits 2 (reserved_zero_2bits s) ++
  u_bits 8 (level_idc s) ++
  ue_bits (seq_parameter_set_id s) ++
  (if is_high (profile_idc s) then
     ue_bits (chroma_format_idc s) ++
     (if chroma_format_idc s =? 3 then u_bits 1 (separate_colour_plane_flag s) else []) ++
     ue_bits (bit_depth_luma_minus8 s) ++
     ue_bits (bit_depth_chroma_minus8 s) ++
     u_bits 1 (qpprime_y_zero_transform_bypass_flag s) ++
     u_bits 1 (seq_scaling_matrix_present_flag s) ++
     enc_slists ls
   else []) ++
  ue_bits (log2_max_frame_num_minus4 s) ++
  ue_bits (pic_order_cnt_type s) ++
  (if pic_order_cnt_type s =? 0 then ue_bits (log2_max_pic_order_cnt_lsb_minus4 s)
   else []) ++
  (if pic_order_cnt_type s =? 1 then
     u_bits 1 (delta_pic_order_always_zero_flag s) ++
     se_bits (offset_for_non_ref_pic s) ++
     se_bits (offset_for_top_to_bottom_field s) ++
     ue_bits (num_ref_frames_in_pic_order_cnt_cycle s) ++
     flat_map se_bits (offset_for_ref_frame s)
   else []) ++
  ue_bits (max_num_ref_frames s) ++
  u_bits 1 (gaps_in_frame_num_value_allowed_flag s) ++
  ue_bits (pic_width_in_mbs_minus1 s) ++
  ue_bits (pic_height_in_map_units_minus1 s) ++
  u_bits 1 (frame_mbs_only_flag s) ++
  (if negb (on (frame_mbs_only_flag s)) then u_bits 1 (mb_adaptive_frame_field_flag s)
   else []) ++
  u_bits 1 (direct_8x8_inference_flag s) ++
  u_bits 1 (frame_cropping_flag s) ++
  (if on (frame_cropping_flag s) then
     ue_bits (frame_crop_left_offset s) ++
     ue_bits (frame_crop_right_offset s) ++
     ue_bits (frame_crop_top_offset s) ++
     ue_bits (frame_crop_bottom_offset s)
   else []) ++
  u_bits 1 (vui_parameters_present_flag s) ++
  enc_opt enc_vui (vui_parameters s).

(** Ranges; [ls] is the scaling matrix syntax, empty when there is none.  The limits 1055
    on the size and 16880 on the crop offsets are this implementation's, the other ones
    the standard's. *)
Definition valid_sps (s : sps) (ls : list slist) : Prop :=
  is_u 8 (profile_idc s) /\
  is_u 1 (constraint_set0_flag s) /\
  is_u 1 (constraint_set1_flag s) /\
  is_u 1 (constraint_set2_flag s) /\
  is_u 1 (constraint_set3_flag s) /\
  is_u 1 (constraint_set4_flag s) /\
  is_u 1 (constraint_set5_flag s) /\
  is_u 2 (reserved_zero_2bits s) /\
  is_u 8 (level_idc s) /\
  seq_parameter_set_id s <= 31 /\
  (if is_high (profile_idc s) then
     chroma_format_idc s <= 3 /\
     (if chroma_format_idc s =? 3 then is_u 1 (separate_colour_plane_flag s)
      else separate_colour_plane_flag s = 0) /\
     bit_depth_luma_minus8 s <= 6 /\
     bit_depth_chroma_minus8 s <= 6 /\
     is_u 1 (qpprime_y_zero_transform_bypass_flag s) /\
     is_u 1 (seq_scaling_matrix_present_flag s) /\
     N.of_nat (length ls) = (if on (seq_scaling_matrix_present_flag s)
                             then (if chroma_format_idc s =? 3 then 12 else 8) else 0) /\
     slists_ok 0 ls
   else chroma_format_idc s = 1 /\ separate_colour_plane_flag s = 0 /\
        bit_depth_luma_minus8 s = 0 /\ bit_depth_chroma_minus8 s = 0 /\
        qpprime_y_zero_transform_bypass_flag s = 0 /\
        seq_scaling_matrix_present_flag s = 0 /\ ls = []) /\
  sps_scaling s = store_all 0 ls scal0 /\
  log2_max_frame_num_minus4 s <= 12 /\
  pic_order_cnt_type s <= 2 /\
  (if pic_order_cnt_type s =? 0 then log2_max_pic_order_cnt_lsb_minus4 s <= 12
   else log2_max_pic_order_cnt_lsb_minus4 s = 0) /\
  (if pic_order_cnt_type s =? 1 then
     is_u 1 (delta_pic_order_always_zero_flag s) /\
     is_se (offset_for_non_ref_pic s) /\
     is_se (offset_for_top_to_bottom_field s) /\
     num_ref_frames_in_pic_order_cnt_cycle s <= 255 /\
     N.of_nat (length (offset_for_ref_frame s)) = num_ref_frames_in_pic_order_cnt_cycle s /\
     Forall is_se (offset_for_ref_frame s)
   else delta_pic_order_always_zero_flag s = 0 /\ offset_for_non_ref_pic s = 0%Z /\
        offset_for_top_to_bottom_field s = 0%Z /\
        num_ref_frames_in_pic_order_cnt_cycle s = 0 /\ offset_for_ref_frame s = []) /\
  max_num_ref_frames s <= 16 /\
  is_u 1 (gaps_in_frame_num_value_allowed_flag s) /\
  pic_width_in_mbs_minus1 s <= 1055 /\
  pic_height_in_map_units_minus1 s <= 1055 /\
  is_u 1 (frame_mbs_only_flag s) /\
  (if negb (on (frame_mbs_only_flag s)) then is_u 1 (mb_adaptive_frame_field_flag s)
   else mb_adaptive_frame_field_flag s = 0) /\
  is_u 1 (direct_8x8_inference_flag s) /\
  is_u 1 (frame_cropping_flag s) /\
  (if on (frame_cropping_flag s) then
     frame_crop_left_offset s <= 16880 /\ frame_crop_right_offset s <= 16880 /\
     frame_crop_top_offset s <= 16880 /\ frame_crop_bottom_offset s <= 16880 /\
     crop_width s < coded_width s /\ crop_height s < coded_height s
   else frame_crop_left_offset s = 0 /\ frame_crop_right_offset s = 0 /\
        frame_crop_top_offset s = 0 /\ frame_crop_bottom_offset s = 0) /\
  is_u 1 (vui_parameters_present_flag s) /\
  valid_opt (on (vui_parameters_present_flag s)) valid_vui (vui_parameters s) /\
  profile_type s = annex_a s.
