(** Specification: slice_header_in_scalable_extension() (H.264 Annex F). *)
From Coq Require Import NArith ZArith List Bool.
From Verif Require Import SpecBits TypesSps TypesPps SpecVui SpecScaling SpecSps SpecPps SpecExt
  TypesNal TypesExt TypesSlice SpecSliceParts TypesSliceHeader SpecSlice TypesSvcSlice.
Import ListNotations.
Open Scope N_scope.

(** What the header depends on: the NAL unit header [n] with its SVC extension [e], the PPS
    [p] and the subset SPS it names, i.e. SPS data [s] and SVC extension [x]. *)
Record ctx := mkctx {
  c_nal : nalh;
  c_ext : svc_ext;
  c_pps : pps;
  c_sps : sps;
  c_svc : spssvc
}.
Definition c_ref (c : ctx) : bool := negb (nal_ref_idc (c_nal c) =? 0).
Definition c_idr (c : ctx) : bool := on (svc_idr_flag (c_ext c)).
Definition c_base_layer_quality (c : ctx) : bool := svc_quality_id (c_ext c) =? 0.
Definition c_inter_layer (c : ctx) : bool := negb (on (svc_no_inter_layer_pred_flag (c_ext c))).
Definition c_restricted (c : ctx) : bool := on (sv_slice_header_restriction_flag (c_svc c)).

(** Slice types EP, EB and EI are P, B and I; SP and SI types do not occur in this header but
    the parser accepts them, reading no reference counts. *)
Definition svc_uses_refs (ty : N) : bool := P_slice ty || B_slice ty.
Definition enc_svc_refs (ty : N) (v : refs) : list bool :=
  (if B_slice ty then u_bits 1 (direct_spatial_mv_pred_flag v) else []) ++
  (if svc_uses_refs ty
   then u_bits 1 (num_ref_idx_active_override_flag v) ++
        (if on (num_ref_idx_active_override_flag v)
         then ue_bits (num_ref_idx_l0_active_minus1 v) ++
              (if B_slice ty then ue_bits (num_ref_idx_l1_active_minus1 v) else [])
         else [])
   else []).
(** [d0], [d1]: the numbers when they are not in the header. *)
Definition valid_svc_refs (d0 d1 ty : N) (v : refs) : Prop :=
  (if B_slice ty then is_u 1 (direct_spatial_mv_pred_flag v)
   else direct_spatial_mv_pred_flag v = 0) /\
  (if svc_uses_refs ty
   then is_u 1 (num_ref_idx_active_override_flag v) /\
        (if on (num_ref_idx_active_override_flag v)
         then num_ref_idx_l0_active_minus1 v <= 31 /\
              (if B_slice ty then num_ref_idx_l1_active_minus1 v <= 31
               else num_ref_idx_l1_active_minus1 v = 0)
         else num_ref_idx_l0_active_minus1 v = d0 /\ num_ref_idx_l1_active_minus1 v = d1)
   else num_ref_idx_active_override_flag v = 0 /\ num_ref_idx_l0_active_minus1 v = 0 /\
        num_ref_idx_l1_active_minus1 v = 0).

(** The part that only quality layer 0 has. *)
Record qz := mkqz {
  z_refs : refs;
  z_rpl0 : option (list rpl_cmd);
  z_rpl1 : option (list rpl_cmd);
  z_base_pred_weight_table_flag : N;
  z_table : option table;
  z_marking : option marking;
  z_store_ref_base_pic_flag : N
}.
Definition svc_weights (c : ctx) (ty : N) : bool :=
  (on (pps_weighted_pred_flag (c_pps c)) && P_slice ty) ||
  ((pps_weighted_bipred_idc (c_pps c) =? 1) && B_slice ty).
Definition enc_qz (c : ctx) (ty : N) (v : qz) : list bool :=
  enc_svc_refs ty (z_refs v) ++
  enc_rplm ty (z_rpl0 v) (z_rpl1 v) ++
  (if svc_weights c ty && c_inter_layer c then u_bits 1 (z_base_pred_weight_table_flag v) else []) ++
  enc_opt (enc_table (chroma_array_type (c_sps c)) ty) (z_table v) ++
  enc_opt enc_marking (z_marking v) ++
  (if c_ref c && negb (c_restricted c) then u_bits 1 (z_store_ref_base_pic_flag v) else []).
Definition valid_qz (d0 d1 : N) (c : ctx) (ty : N) (v : qz) : Prop :=
  valid_svc_refs d0 d1 ty (z_refs v) /\
  valid_rplm ty (z_rpl0 v) (z_rpl1 v) /\
  (if svc_weights c ty && c_inter_layer c then is_u 1 (z_base_pred_weight_table_flag v)
   else z_base_pred_weight_table_flag v = 0) /\
  opt_ok (svc_weights c ty && negb (on (z_base_pred_weight_table_flag v)))
    (valid_table (chroma_array_type (c_sps c)) ty (num_ref_idx_l0_active_minus1 (z_refs v))
       (num_ref_idx_l1_active_minus1 (z_refs v))) (z_table v) /\
  opt_ok (c_ref c) (valid_marking (svc_idr_flag (c_ext c))) (z_marking v) /\
  (if c_ref c && negb (c_restricted c) then is_u 1 (z_store_ref_base_pic_flag v)
   else z_store_ref_base_pic_flag v = 0).
(** dec_ref_base_pic_marking() follows. *)
Definition has_base_marking (c : ctx) (v : qz) : bool :=
  c_ref c && negb (c_restricted c) &&
  (on (svc_use_ref_base_pic_flag (c_ext c)) || on (z_store_ref_base_pic_flag v)) &&
  negb (c_idr c).

Definition enc_ilayer (c : ctx) (v : ilayer) : list bool :=
  let deblock := on (sv_inter_layer_deblocking_filter_control_present_flag (c_svc c)) in
  let idc := il_disable_inter_layer_deblocking_filter_idc v in
  ue_bits (il_ref_layer_dq_id v) ++
  (if deblock
   then ue_bits idc ++
        (if negb (idc =? 1)
         then se_bits (il_inter_layer_slice_alpha_c0_offset_div2 v) ++
              se_bits (il_inter_layer_slice_beta_offset_div2 v)
         else [])
   else []) ++
  u_bits 1 (il_constrained_intra_resampling_flag v) ++
  (if sv_extended_spatial_scalability_idc (c_svc c) =? 2
   then (if 0 <? chroma_array_type (c_sps c)
         then u_bits 1 (il_ref_layer_chroma_phase_x_plus1_flag v) ++
              u_bits 2 (il_ref_layer_chroma_phase_y_plus1 v)
         else []) ++
        se_bits (il_scaled_ref_layer_left_offset v) ++
        se_bits (il_scaled_ref_layer_top_offset v) ++
        se_bits (il_scaled_ref_layer_right_offset v) ++
        se_bits (il_scaled_ref_layer_bottom_offset v)
   else []).
Definition valid_ilayer (c : ctx) (v : ilayer) : Prop :=
  let deblock := on (sv_inter_layer_deblocking_filter_control_present_flag (c_svc c)) in
  let idc := il_disable_inter_layer_deblocking_filter_idc v in
  is_ue (il_ref_layer_dq_id v) /\
  (if deblock
   then is_ue idc /\
        (if negb (idc =? 1)
         then is_se (il_inter_layer_slice_alpha_c0_offset_div2 v) /\
              is_se (il_inter_layer_slice_beta_offset_div2 v)
         else il_inter_layer_slice_alpha_c0_offset_div2 v = 0%Z /\
              il_inter_layer_slice_beta_offset_div2 v = 0%Z)
   else idc = 0 /\ il_inter_layer_slice_alpha_c0_offset_div2 v = 0%Z /\
        il_inter_layer_slice_beta_offset_div2 v = 0%Z) /\
  is_u 1 (il_constrained_intra_resampling_flag v) /\
  (if sv_extended_spatial_scalability_idc (c_svc c) =? 2
   then (if 0 <? chroma_array_type (c_sps c)
         then is_u 1 (il_ref_layer_chroma_phase_x_plus1_flag v) /\
              is_u 2 (il_ref_layer_chroma_phase_y_plus1 v)
         else il_ref_layer_chroma_phase_x_plus1_flag v = 0 /\
              il_ref_layer_chroma_phase_y_plus1 v = 0) /\
        is_se (il_scaled_ref_layer_left_offset v) /\
        is_se (il_scaled_ref_layer_top_offset v) /\
        is_se (il_scaled_ref_layer_right_offset v) /\
        is_se (il_scaled_ref_layer_bottom_offset v)
   else il_ref_layer_chroma_phase_x_plus1_flag v = 0 /\
        il_ref_layer_chroma_phase_y_plus1 v = 0 /\
        il_scaled_ref_layer_left_offset v = 0%Z /\ il_scaled_ref_layer_top_offset v = 0%Z /\
        il_scaled_ref_layer_right_offset v = 0%Z /\ il_scaled_ref_layer_bottom_offset v = 0%Z).

Definition enc_modes (c : ctx) (v : modes) : list bool :=
  u_bits 1 (mo_slice_skip_flag v) ++
  (if on (mo_slice_skip_flag v) then ue_bits (mo_num_mbs_in_slice_minus1 v)
   else
     u_bits 1 (mo_adaptive_base_mode_flag v) ++
     (if negb (on (mo_adaptive_base_mode_flag v)) then u_bits 1 (mo_default_base_mode_flag v)
      else []) ++
     (if negb (on (mo_default_base_mode_flag v))
      then u_bits 1 (mo_adaptive_motion_prediction_flag v) ++
           (if negb (on (mo_adaptive_motion_prediction_flag v))
            then u_bits 1 (mo_default_motion_prediction_flag v) else [])
      else []) ++
     u_bits 1 (mo_adaptive_residual_prediction_flag v) ++
     (if negb (on (mo_adaptive_residual_prediction_flag v))
      then u_bits 1 (mo_default_residual_prediction_flag v) else [])) ++
  (if on (sv_adaptive_tcoeff_level_prediction_flag (c_svc c))
   then u_bits 1 (mo_tcoeff_level_prediction_flag v) else []).
Definition valid_modes (c : ctx) (v : modes) : Prop :=
  is_u 1 (mo_slice_skip_flag v) /\
  (if on (mo_slice_skip_flag v)
   then is_ue (mo_num_mbs_in_slice_minus1 v) /\
        mo_adaptive_base_mode_flag v = 0 /\ mo_default_base_mode_flag v = 0 /\
        mo_adaptive_motion_prediction_flag v = 0 /\ mo_default_motion_prediction_flag v = 0 /\
        mo_adaptive_residual_prediction_flag v = 0 /\ mo_default_residual_prediction_flag v = 0
   else
     mo_num_mbs_in_slice_minus1 v = 0 /\
     is_u 1 (mo_adaptive_base_mode_flag v) /\
     (if negb (on (mo_adaptive_base_mode_flag v)) then is_u 1 (mo_default_base_mode_flag v)
      else mo_default_base_mode_flag v = 0) /\
     (if negb (on (mo_default_base_mode_flag v))
      then is_u 1 (mo_adaptive_motion_prediction_flag v) /\
           (if negb (on (mo_adaptive_motion_prediction_flag v))
            then is_u 1 (mo_default_motion_prediction_flag v)
            else mo_default_motion_prediction_flag v = 0)
      else mo_adaptive_motion_prediction_flag v = 0 /\ mo_default_motion_prediction_flag v = 0) /\
     is_u 1 (mo_adaptive_residual_prediction_flag v) /\
     (if negb (on (mo_adaptive_residual_prediction_flag v))
      then is_u 1 (mo_default_residual_prediction_flag v)
      else mo_default_residual_prediction_flag v = 0)) /\
  (if on (sv_adaptive_tcoeff_level_prediction_flag (c_svc c))
   then is_u 1 (mo_tcoeff_level_prediction_flag v) else mo_tcoeff_level_prediction_flag v = 0).

(** The header: the part up to dec_ref_base_pic_marking(), and the part after it. *)
Record svc1 := mksvc1 {
  v_lead : lead;
  v_pic : picid;
  v_idr_pic_id : N;
  v_poc : poc;
  v_redundant_pic_cnt : N;
  v_qz : option qz
}.
Record svc2 := mksvc2 {
  v_cabac_init_idc : N;
  v_slice_qp_delta : Z;
  v_dbk : dbk;
  v_cycle : N;
  v_ilayer : option ilayer;
  v_modes : option modes;
  v_scan : option (N * N)
}.
Definition v_type (v : svc1) : N := slice_type (v_lead v).
Definition enc_svc1 (c : ctx) (v : svc1) : list bool :=
  enc_lead (v_lead v) ++
  enc_picid (c_sps c) (v_pic v) ++
  (if c_idr c then ue_bits (v_idr_pic_id v) else []) ++
  enc_poc (c_sps c) (c_pps c) (field_pic_flag (v_pic v)) (v_poc v) ++
  (if on (pps_redundant_pic_cnt_present_flag (c_pps c)) then ue_bits (v_redundant_pic_cnt v)
   else []) ++
  enc_opt (enc_qz c (v_type v)) (v_qz v).
Definition valid_svc1 (d0 d1 : N) (c : ctx) (v : svc1) : Prop :=
  valid_lead (v_lead v) /\
  valid_picid (c_sps c) (v_pic v) /\
  (if c_idr c then v_idr_pic_id v <= 65535 else v_idr_pic_id v = 0) /\
  valid_poc (c_sps c) (c_pps c) (field_pic_flag (v_pic v)) (v_poc v) /\
  (if on (pps_redundant_pic_cnt_present_flag (c_pps c)) then v_redundant_pic_cnt v <= 127
   else v_redundant_pic_cnt v = 0) /\
  opt_ok (c_base_layer_quality c) (valid_qz d0 d1 c (v_type v)) (v_qz v).
Definition base_marking (c : ctx) (v : svc1) : bool :=
  match v_qz v with Some z => has_base_marking c z | None => false end.

Definition enc_scan (p : N * N) : list bool := u_bits 4 (fst p) ++ u_bits 4 (snd p).
Definition skipped (v : svc2) : bool :=
  match v_modes v with Some m => on (mo_slice_skip_flag m) | None => false end.
Definition enc_svc2 (c : ctx) (ty : N) (v : svc2) : list bool :=
  (if on (pps_entropy_coding_mode_flag (c_pps c)) && negb (I_slice ty)
   then ue_bits (v_cabac_init_idc v) else []) ++
  se_bits (v_slice_qp_delta v) ++
  enc_dbk (c_pps c) (v_dbk v) ++
  enc_cycle (c_sps c) (c_pps c) (v_cycle v) ++
  enc_opt (enc_ilayer c) (v_ilayer v) ++
  enc_opt (enc_modes c) (v_modes v) ++
  enc_opt enc_scan (v_scan v).
Definition valid_svc2 (c : ctx) (ty : N) (v : svc2) : Prop :=
  (if on (pps_entropy_coding_mode_flag (c_pps c)) && negb (I_slice ty)
   then v_cabac_init_idc v <= 2 else v_cabac_init_idc v = 0) /\
  is_se (v_slice_qp_delta v) /\
  valid_dbk 6 (c_pps c) (v_dbk v) /\
  valid_cycle (c_sps c) (c_pps c) (v_cycle v) /\
  opt_ok (c_inter_layer c && c_base_layer_quality c) (valid_ilayer c) (v_ilayer v) /\
  opt_ok (c_inter_layer c) (valid_modes c) (v_modes v) /\
  opt_ok (negb (c_restricted c) && negb (skipped v)) (fun p => is_u 4 (fst p) /\ is_u 4 (snd p))
    (v_scan v).

(** The syntax this implementation has: a header without dec_ref_base_pic_marking(), or the
    first part of one with it. *)
Definition svc_slice := (svc1 * option svc2)%type.
Definition enc_svc_slice (c : ctx) (v : svc_slice) : list bool :=
  enc_svc1 c (fst v) ++ enc_opt (enc_svc2 c (v_type (fst v))) (snd v).
Definition valid_svc_slice (d0 d1 : N) (c : ctx) (v : svc_slice) : Prop :=
  valid_svc1 d0 d1 c (fst v) /\
  opt_ok (negb (base_marking c (fst v))) (valid_svc2 c (v_type (fst v))) (snd v).

(** What is reported. *)
Definition qzero_of (c : ctx) (ty : N) (v : option qz) : qzero :=
  match v with
  | Some z =>
      {| q_refs := z_refs z;
         q_ref_pic_list_modification := Some (rplm_of ty (z_rpl0 z) (z_rpl1 z));
         q_base_pred_weight_table_flag := z_base_pred_weight_table_flag z;
         q_pred_weight_table :=
           option_map (table_of (chroma_array_type (c_sps c)) ty
             (num_ref_idx_l0_active_minus1 (z_refs z)) (num_ref_idx_l1_active_minus1 (z_refs z)))
             (z_table z);
         q_dec_ref_pic_marking := option_map (drpm_of (svc_idr_flag (c_ext c))) (z_marking z);
         q_store_ref_base_pic_flag := z_store_ref_base_pic_flag z |}
  | None => mkqzero (mkrefs 0 0 0 0) None 0 None None 0
  end.
Definition when (b : bool) (n : N) : N := if b then n else 0.
Definition svc_inputs_of (c : ctx) : slin :=
  let s := c_sps c in let p := c_pps c in
  {| in_nal_ref_idc := nal_ref_idc (c_nal c);
     in_nal_unit_type := nal_unit_type (c_nal c);
     in_separate_colour_plane_flag := separate_colour_plane_flag s;
     in_log2_max_frame_num_minus4 := log2_max_frame_num_minus4 s;
     in_frame_mbs_only_flag := frame_mbs_only_flag s;
     in_pic_order_cnt_type := pic_order_cnt_type s;
     in_bottom_field_pic_order_in_frame_present_flag :=
       pps_bottom_field_pic_order_in_frame_present_flag p;
     in_delta_pic_order_always_zero_flag := delta_pic_order_always_zero_flag s;
     in_redundant_pic_cnt_present_flag := pps_redundant_pic_cnt_present_flag p;
     in_weighted_pred_flag := when (c_base_layer_quality c) (pps_weighted_pred_flag p);
     in_weighted_bipred_idc := when (c_base_layer_quality c) (pps_weighted_bipred_idc p);
     in_entropy_coding_mode_flag := pps_entropy_coding_mode_flag p;
     in_deblocking_filter_control_present_flag := pps_deblocking_filter_control_present_flag p;
     in_num_slice_groups_minus1 := pps_num_slice_groups_minus1 p;
     in_slice_group_map_type := pps_slice_group_map_type p;
     in_pic_width_in_mbs_minus1 := when (changing_groups p) (pic_width_in_mbs_minus1 s);
     in_pic_height_in_map_units_minus1 :=
       when (changing_groups p) (pic_height_in_map_units_minus1 s);
     in_slice_group_change_rate_minus1 :=
       when (changing_groups p) (pps_slice_group_change_rate_minus1 p) |}.
Definition present {A} (o : option A) : bool := match o with Some _ => true | None => false end.
Definition svc_inputs2_of (c : ctx) (v : svc1) : svin :=
  let x := c_svc c in
  let layer0 := c_inter_layer c && c_base_layer_quality c in
  {| in_no_inter_layer_pred_flag := svc_no_inter_layer_pred_flag (c_ext c);
     in_quality_id := svc_quality_id (c_ext c);
     in_ChromaArrayType :=
       when (match v_qz v with Some z => present (z_table z) | None => false end ||
             (layer0 && (sv_extended_spatial_scalability_idc x =? 2)))
         (chroma_array_type (c_sps c));
     in_slice_header_restriction_flag := sv_slice_header_restriction_flag x;
     in_use_ref_base_pic_flag :=
       when (c_base_layer_quality c && c_ref c && negb (c_restricted c))
         (svc_use_ref_base_pic_flag (c_ext c));
     in_idr_flag := svc_idr_flag (c_ext c);
     in_inter_layer_deblocking_filter_control_present_flag :=
       when layer0 (sv_inter_layer_deblocking_filter_control_present_flag x);
     in_extended_spatial_scalability_idc := when layer0 (sv_extended_spatial_scalability_idc x);
     in_adaptive_tcoeff_level_prediction_flag :=
       when (c_inter_layer c) (sv_adaptive_tcoeff_level_prediction_flag x) |}.
Definition or_else {A} (o : option A) (d : A) : A := match o with Some a => a | None => d end.
Definition svh_of (c : ctx) (v : svc_slice) : option svh :=
  option_map (fun w =>
    {| vh_in := svc_inputs_of c;
       vh_svin := svc_inputs2_of c (fst v);
       vh_lead := v_lead (fst v);
       vh_pic := v_pic (fst v);
       vh_idr_pic_id := v_idr_pic_id (fst v);
       vh_poc := v_poc (fst v);
       vh_redundant_pic_cnt := v_redundant_pic_cnt (fst v);
       vh_qzero := qzero_of c (v_type (fst v)) (v_qz (fst v));
       vh_cabac_init_idc := v_cabac_init_idc w;
       vh_slice_qp_delta := v_slice_qp_delta w;
       vh_dbk := v_dbk w;
       vh_slice_group_change_cycle := v_cycle w;
       vh_ilayer := or_else (v_ilayer w) (mkilayer 0 0 0 0 0 0 0 0 0 0 0);
       vh_modes := or_else (v_modes w) (mkmodes 0 0 0 0 0 0 0 0 0);
       vh_scan_idx_start := fst (or_else (v_scan w) (0, 0));
       vh_scan_idx_end := snd (or_else (v_scan w) (0, 0)) |}) (snd v).

(** The context of a header that names PPS [id]: the SPS is a subset SPS, with an SVC
    extension, and the NAL unit header has one too. *)
Definition svc_active (h : nalh) (st : pstate) (id : N) : option ctx :=
  match lookup id (st_pps st) with
  | Some p =>
      match lookup (pps_seq_parameter_set_id p) (st_subset_sps st) with
      | Some ss =>
          match ss_svc ss, nal_svc h with
          | Some x, Some e => Some (mkctx h e p (ss_sps ss) x)
          | _, _ => None
          end
      | None => None
      end
  | None => None
  end.
