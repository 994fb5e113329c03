(** Specification: syntax of hrd_parameters() (H.264 E.1.2) and vui_parameters() (E.1.1).
    [enc_*] is the bit string the syntax tables prescribe for a value; [valid_*] are the
    ranges of E.2.1 / E.2.2, with absent elements holding their initial value. *)
From Coq Require Import NArith ZArith List Bool.
From Verif Require Import SpecBits TypesSps.
Import ListNotations.
Open Scope N_scope.

(** A flag is set. *)
Definition on (x : N) : bool := negb (x =? 0).
(** Ranges of the descriptors u(n), ue(v) (0..2^32-2) and se(v). *)
Definition is_u (n x : N) : Prop := x < 2 ^ n.
Definition is_ue (x : N) : Prop := x < 2 ^ 32 - 1.
Definition is_se (z : Z) : Prop := (Z.abs z <= 2 ^ 31 - 1)%Z.
(** Code of an optional structure. *)
Definition enc_opt {A} (enc : A -> list bool) (o : option A) : list bool :=
  match o with Some v => enc v | None => [] end.

Definition enc_sched (s : N * N * N) : list bool :=
  let '(br, cs, cbr) := s in ue_bits br ++ ue_bits cs ++ u_bits 1 cbr.
Definition valid_sched (s : N * N * N) : Prop :=
  let '(br, cs, cbr) := s in is_ue br /\ is_ue cs /\ is_u 1 cbr.

Definition enc_hrd (h : hrd) : list bool :=
  ue_bits (cpb_cnt_minus1 h) ++
  u_bits 4 (bit_rate_scale h) ++
  u_bits 4 (cpb_size_scale h) ++
  flat_map enc_sched (sched_sel h) ++
  u_bits 5 (initial_cpb_removal_delay_length_minus1 h) ++
  u_bits 5 (cpb_removal_delay_length_minus1 h) ++
  u_bits 5 (dpb_output_delay_length_minus1 h) ++
  u_bits 5 (time_offset_length h).

Definition valid_hrd (h : hrd) : Prop :=
  cpb_cnt_minus1 h <= 31 /\
  is_u 4 (bit_rate_scale h) /\
  is_u 4 (cpb_size_scale h) /\
  N.of_nat (length (sched_sel h)) = cpb_cnt_minus1 h + 1 /\
  Forall valid_sched (sched_sel h) /\
  is_u 5 (initial_cpb_removal_delay_length_minus1 h) /\
  is_u 5 (cpb_removal_delay_length_minus1 h) /\
  is_u 5 (dpb_output_delay_length_minus1 h) /\
  is_u 5 (time_offset_length h).

Definition enc_vui (v : vui) : list bool :=
  u_bits 1 (aspect_ratio_info_present_flag v) ++
  (if on (aspect_ratio_info_present_flag v) then
     u_bits 8 (aspect_ratio_idc v) ++
     (if aspect_ratio_idc v =? 255 then
        u_bits 16 (sar_width v) ++ u_bits 16 (sar_height v) else [])
   else []) ++
  u_bits 1 (overscan_info_present_flag v) ++
  (if on (overscan_info_present_flag v) then u_bits 1 (overscan_appropriate_flag v)
   else []) ++
  u_bits 1 (video_signal_type_present_flag v) ++
  (if on (video_signal_type_present_flag v) then
     u_bits 3 (video_format v) ++ u_bits 1 (video_full_range_flag v) ++
     u_bits 1 (colour_description_present_flag v) ++
     (if on (colour_description_present_flag v) then
        u_bits 8 (colour_primaries v) ++ u_bits 8 (transfer_characteristics v) ++
        u_bits 8 (matrix_coefficients v) else [])
   else []) ++
  u_bits 1 (chroma_loc_info_present_flag v) ++
  (if on (chroma_loc_info_present_flag v) then
     ue_bits (chroma_sample_loc_type_top_field v) ++
     ue_bits (chroma_sample_loc_type_bottom_field v) else []) ++
  u_bits 1 (timing_info_present_flag v) ++
  (if on (timing_info_present_flag v) then
     u_bits 32 (num_units_in_tick v) ++ u_bits 32 (time_scale v) ++
     u_bits 1 (fixed_frame_rate_flag v) else []) ++
  u_bits 1 (nal_hrd_parameters_present_flag v) ++
  enc_opt enc_hrd (nal_hrd_parameters v) ++
  u_bits 1 (vcl_hrd_parameters_present_flag v) ++
  enc_opt enc_hrd (vcl_hrd_parameters v) ++
  (if on (nal_hrd_parameters_present_flag v) || on (vcl_hrd_parameters_present_flag v)
   then u_bits 1 (low_delay_hrd_flag v) else []) ++
  u_bits 1 (pic_struct_present_flag v) ++
  u_bits 1 (bitstream_restriction_flag v) ++
  (if on (bitstream_restriction_flag v) then
     u_bits 1 (motion_vectors_over_pic_boundaries_flag v) ++
     ue_bits (max_bytes_per_pic_denom v) ++
     ue_bits (max_bits_per_mb_denom v) ++
     ue_bits (log2_max_mv_length_horizontal v) ++
     ue_bits (log2_max_mv_length_vertical v) ++
     ue_bits (max_num_reorder_frames v) ++
     ue_bits (max_dec_frame_buffering v) else []).

Definition valid_opt {A} (present : bool) (valid : A -> Prop) (o : option A) : Prop :=
  if present then (match o with Some v => valid v | None => False end) else o = None.

Definition valid_vui (v : vui) : Prop :=
  is_u 1 (aspect_ratio_info_present_flag v) /\
  (if on (aspect_ratio_info_present_flag v) then
     is_u 8 (aspect_ratio_idc v) /\
     (if aspect_ratio_idc v =? 255 then is_u 16 (sar_width v) /\ is_u 16 (sar_height v)
      else sar_width v = 0 /\ sar_height v = 0)
   else aspect_ratio_idc v = 0 /\ sar_width v = 0 /\ sar_height v = 0) /\
  is_u 1 (overscan_info_present_flag v) /\
  (if on (overscan_info_present_flag v) then is_u 1 (overscan_appropriate_flag v)
   else overscan_appropriate_flag v = 0) /\
  is_u 1 (video_signal_type_present_flag v) /\
  (if on (video_signal_type_present_flag v) then
     is_u 3 (video_format v) /\ is_u 1 (video_full_range_flag v) /\
     is_u 1 (colour_description_present_flag v) /\
     (if on (colour_description_present_flag v) then
        is_u 8 (colour_primaries v) /\ is_u 8 (transfer_characteristics v) /\
        is_u 8 (matrix_coefficients v)
      else colour_primaries v = 0 /\ transfer_characteristics v = 0 /\
           matrix_coefficients v = 0)
   else video_format v = 0 /\ video_full_range_flag v = 0 /\
        colour_description_present_flag v = 0 /\
        colour_primaries v = 0 /\ transfer_characteristics v = 0 /\
        matrix_coefficients v = 0) /\
  is_u 1 (chroma_loc_info_present_flag v) /\
  (if on (chroma_loc_info_present_flag v) then
     chroma_sample_loc_type_top_field v <= 5 /\
     chroma_sample_loc_type_bottom_field v <= 5
   else chroma_sample_loc_type_top_field v = 0 /\
        chroma_sample_loc_type_bottom_field v = 0) /\
  is_u 1 (timing_info_present_flag v) /\
  (if on (timing_info_present_flag v) then
     0 < num_units_in_tick v < 2 ^ 32 /\ 0 < time_scale v < 2 ^ 32 /\
     is_u 1 (fixed_frame_rate_flag v)
   else num_units_in_tick v = 0 /\ time_scale v = 0 /\ fixed_frame_rate_flag v = 0) /\
  is_u 1 (nal_hrd_parameters_present_flag v) /\
  valid_opt (on (nal_hrd_parameters_present_flag v)) valid_hrd (nal_hrd_parameters v) /\
  is_u 1 (vcl_hrd_parameters_present_flag v) /\
  valid_opt (on (vcl_hrd_parameters_present_flag v)) valid_hrd (vcl_hrd_parameters v) /\
  (if on (nal_hrd_parameters_present_flag v) || on (vcl_hrd_parameters_present_flag v)
   then is_u 1 (low_delay_hrd_flag v) else low_delay_hrd_flag v = 0) /\
  is_u 1 (pic_struct_present_flag v) /\
  is_u 1 (bitstream_restriction_flag v) /\
  (if on (bitstream_restriction_flag v) then
     is_u 1 (motion_vectors_over_pic_boundaries_flag v) /\
     max_bytes_per_pic_denom v <= 16 /\
     max_bits_per_mb_denom v <= 16 /\
     log2_max_mv_length_horizontal v <= 16 /\
     log2_max_mv_length_vertical v <= 16 /\
     max_num_reorder_frames v <= 16 /\
     max_dec_frame_buffering v <= 16
   else motion_vectors_over_pic_boundaries_flag v = 0 /\
        max_bytes_per_pic_denom v = 0 /\ max_bits_per_mb_denom v = 0 /\
        log2_max_mv_length_horizontal v = 0 /\ log2_max_mv_length_vertical v = 0 /\
        max_num_reorder_frames v = 0 /\ max_dec_frame_buffering v = 0).
