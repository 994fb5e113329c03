(** Specification: seq_parameter_set_extension_rbsp() (H.264 7.3.2.1.2),
    seq_parameter_set_svc_extension() (G.7.3.2.1.4), subset_seq_parameter_set_rbsp()
    (7.3.2.1.3) and prefix_nal_unit_svc() (G.7.3.2.12.1). *)
From Coq Require Import NArith ZArith List Bool.
From Verif Require Import SpecBits TypesSps TypesExt SpecVui SpecScaling SpecSps.
Import ListNotations.
Open Scope N_scope.

Definition enc_spsext (e : spsext) : list bool :=
  ue_bits (se_seq_parameter_set_id e) ++
  ue_bits (se_aux_format_idc e) ++
  (if negb (se_aux_format_idc e =? 0)
   then ue_bits (se_bit_depth_aux_minus8 e) ++
        u_bits 1 (se_alpha_incr_flag e) ++
        u_bits (se_bit_depth_aux_minus8 e + 9) (se_alpha_opaque_value e) ++
        u_bits (se_bit_depth_aux_minus8 e + 9) (se_alpha_transparent_value e)
   else []) ++
  u_bits 1 (se_additional_extension_flag e).
Definition valid_spsext (e : spsext) : Prop :=
  se_seq_parameter_set_id e <= 31 /\
  is_ue (se_aux_format_idc e) /\
  (if negb (se_aux_format_idc e =? 0)
   then se_bit_depth_aux_minus8 e <= 4 /\ is_u 1 (se_alpha_incr_flag e) /\
        is_u (se_bit_depth_aux_minus8 e + 9) (se_alpha_opaque_value e) /\
        is_u (se_bit_depth_aux_minus8 e + 9) (se_alpha_transparent_value e)
   else se_bit_depth_aux_minus8 e = 0 /\ se_alpha_incr_flag e = 0 /\
        se_alpha_opaque_value e = 0 /\ se_alpha_transparent_value e = 0) /\
  is_u 1 (se_additional_extension_flag e).

(** [cat] is ChromaArrayType. *)
Definition enc_spssvc (e : spssvc) : list bool :=
  let cat := sv_ChromaArrayType e in
  u_bits 1 (sv_inter_layer_deblocking_filter_control_present_flag e) ++
  u_bits 2 (sv_extended_spatial_scalability_idc e) ++
  (if (cat =? 1) || (cat =? 2) then u_bits 1 (sv_chroma_phase_x_plus1_flag e) else []) ++
  (if cat =? 1 then u_bits 2 (sv_chroma_phase_y_plus1 e) else []) ++
  (if sv_extended_spatial_scalability_idc e =? 1
   then (if 0 <? cat
         then u_bits 1 (sv_seq_ref_layer_chroma_phase_x_plus1_flag e) ++
              u_bits 2 (sv_seq_ref_layer_chroma_phase_y_plus1 e)
         else []) ++
        se_bits (sv_seq_scaled_ref_layer_left_offset e) ++
        se_bits (sv_seq_scaled_ref_layer_top_offset e) ++
        se_bits (sv_seq_scaled_ref_layer_right_offset e) ++
        se_bits (sv_seq_scaled_ref_layer_bottom_offset e)
   else []) ++
  u_bits 1 (sv_seq_tcoeff_level_prediction_flag e) ++
  (if sv_seq_tcoeff_level_prediction_flag e =? 1
   then u_bits 1 (sv_adaptive_tcoeff_level_prediction_flag e) else []) ++
  u_bits 1 (sv_slice_header_restriction_flag e).
Definition valid_spssvc (cat : N) (e : spssvc) : Prop :=
  sv_ChromaArrayType e = cat /\
  is_u 1 (sv_inter_layer_deblocking_filter_control_present_flag e) /\
  is_u 2 (sv_extended_spatial_scalability_idc e) /\
  (if (cat =? 1) || (cat =? 2) then is_u 1 (sv_chroma_phase_x_plus1_flag e)
   else sv_chroma_phase_x_plus1_flag e = 0) /\
  (if cat =? 1 then is_u 2 (sv_chroma_phase_y_plus1 e) else sv_chroma_phase_y_plus1 e = 0) /\
  (if sv_extended_spatial_scalability_idc e =? 1
   then (if 0 <? cat
         then is_u 1 (sv_seq_ref_layer_chroma_phase_x_plus1_flag e) /\
              is_u 2 (sv_seq_ref_layer_chroma_phase_y_plus1 e)
         else sv_seq_ref_layer_chroma_phase_x_plus1_flag e = 0 /\
              sv_seq_ref_layer_chroma_phase_y_plus1 e = 0) /\
        is_se (sv_seq_scaled_ref_layer_left_offset e) /\
        is_se (sv_seq_scaled_ref_layer_top_offset e) /\
        is_se (sv_seq_scaled_ref_layer_right_offset e) /\
        is_se (sv_seq_scaled_ref_layer_bottom_offset e)
   else sv_seq_ref_layer_chroma_phase_x_plus1_flag e = 0 /\
        sv_seq_ref_layer_chroma_phase_y_plus1 e = 0 /\
        sv_seq_scaled_ref_layer_left_offset e = 0%Z /\
        sv_seq_scaled_ref_layer_top_offset e = 0%Z /\
        sv_seq_scaled_ref_layer_right_offset e = 0%Z /\
        sv_seq_scaled_ref_layer_bottom_offset e = 0%Z) /\
  is_u 1 (sv_seq_tcoeff_level_prediction_flag e) /\
  (if sv_seq_tcoeff_level_prediction_flag e =? 1
   then is_u 1 (sv_adaptive_tcoeff_level_prediction_flag e)
   else sv_adaptive_tcoeff_level_prediction_flag e = 0) /\
  is_u 1 (sv_slice_header_restriction_flag e).

(** ChromaArrayType of an SPS (7.4.2.1.1). *)
Definition chroma_array_type (s : sps) : N :=
  if separate_colour_plane_flag s =? 0 then chroma_format_idc s else 0.
Definition is_svc_profile (p : N) : bool := (p =? 83) || (p =? 86).
(** Profiles whose subset SPS has an MVC, MVCD or 3D-AVC extension. *)
Definition is_mv_profile (p : N) : bool :=
  existsb (N.eqb p) [118; 128; 134; 138; 135; 139].

(** Subset SPS of any profile without an MVC, MVCD or 3D-AVC extension and without
    svc_vui_parameters_extension() (present if svc_vui_parameters_present_flag is 1).[ls]: the scaling matrix syntax of the SPS data.
    [ds]: the additional_extension2_data_flags. *)
Definition enc_subsps (v : subsps) (ls : list slist) (ds : list bool) : list bool :=
  enc_sps (ss_sps v) ls ++
  match ss_svc v with
  | Some e => enc_spssvc e ++ u_bits 1 (ss_svc_vui_parameters_present_flag v)
  | None => []
  end ++
  u_bits 1 (ss_additional_extension2_flag v) ++ ds.
Definition last_flag (ds : list bool) : N := N.b2n (last ds false).
Definition valid_subsps (v : subsps) (ls : list slist) (ds : list bool) : Prop :=
  valid_sps (ss_sps v) ls /\ is_mv_profile (profile_idc (ss_sps v)) = false /\
  (if is_svc_profile (profile_idc (ss_sps v))
   then exists e, ss_svc v = Some e /\ valid_spssvc (chroma_array_type (ss_sps v)) e
   else ss_svc v = None) /\
  (if is_svc_profile (profile_idc (ss_sps v))
   then is_u 1 (ss_svc_vui_parameters_present_flag v)
   else ss_svc_vui_parameters_present_flag v = 0) /\
  ss_bit_equal_to_one v = 0 /\ ss_mvc_vui_parameters_present_flag v = 0 /\
  is_u 1 (ss_additional_extension2_flag v) /\
  (ss_additional_extension2_flag v = 0 -> ds = []) /\
  ss_additional_extension2_data_flag v = last_flag ds.

(** prefix_nal_unit_svc() without dec_ref_base_pic_marking(); [ds]: the
    additional_prefix_nal_unit_extension_data_flags. *)
Definition enc_prefsvc (v : prefsvc) (ds : list bool) : list bool :=
  (if negb (pf_nal_ref_idc v =? 0)
   then u_bits 1 (pf_store_ref_base_pic_flag v) ++
        u_bits 1 (pf_additional_prefix_nal_unit_extension_flag v)
   else []) ++ ds.
(** dec_ref_base_pic_marking() is present. *)
Definition has_base_marking (use store idr : N) : bool := (on use || on store) && negb (on idr).
Definition valid_prefsvc (ref use idr : N) (v : prefsvc) (ds : list bool) : Prop :=
  pf_nal_ref_idc v = ref /\ pf_use_ref_base_pic_flag v = use /\ pf_idr_flag v = idr /\
  (if negb (ref =? 0)
   then is_u 1 (pf_store_ref_base_pic_flag v) /\
        has_base_marking use (pf_store_ref_base_pic_flag v) idr = false /\
        is_u 1 (pf_additional_prefix_nal_unit_extension_flag v) /\
        (pf_additional_prefix_nal_unit_extension_flag v = 0 -> ds = [])
   else pf_store_ref_base_pic_flag v = 0 /\
        pf_additional_prefix_nal_unit_extension_flag v = 0) /\
  pf_additional_prefix_nal_unit_extension_data_flag v = last_flag ds.
