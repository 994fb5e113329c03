(** Specification: pic_parameter_set_rbsp() (H.264 7.3.2.2) and its ranges. *)
From Coq Require Import NArith ZArith List Bool.
From Verif Require Import SpecBits SpecRbsp TypesSps TypesPps SpecVui SpecScaling.
Import ListNotations.
Open Scope N_scope.

(** slice_group_id is u(v) with Ceil(Log2(num_slice_groups_minus1 + 1)) bits: the least
    number of bits that can hold num_slice_groups_minus1. *)
Definition slice_group_id_bits (n : N) : N := N.size n.

Definition enc_rect (r : N * N) : list bool := ue_bits (fst r) ++ ue_bits (snd r).

Definition enc_slice_groups (p : pps) : list bool :=
  let n := pps_num_slice_groups_minus1 p in
  let mt := pps_slice_group_map_type p in
  if n =? 0 then [] else
  ue_bits mt ++
  match mt with
  | 0 => flat_map ue_bits (pps_run_length_minus1 p)
  | 2 => flat_map enc_rect (pps_rects p)
  | 3 | 4 | 5 => u_bits 1 (pps_slice_group_change_direction_flag p) ++
                 ue_bits (pps_slice_group_change_rate_minus1 p)
  | 6 => ue_bits (pps_pic_size_in_map_units_minus1 p) ++
         flat_map (u_bits (slice_group_id_bits n)) (pps_slice_group_id p)
  | _ => []
  end.

(** [ext] is the scaling matrix syntax of the part after redundant_pic_cnt_present_flag,
    None if the PPS ends there. *)
Definition enc_pps_ext (p : pps) (ls : list slist) : list bool :=
  u_bits 1 (pps_transform_8x8_mode_flag p) ++
  u_bits 1 (pps_pic_scaling_matrix_present_flag p) ++
  enc_slists ls ++
  se_bits (pps_second_chroma_qp_index_offset p).
Definition enc_pps_main (p : pps) : list bool :=
  ue_bits (pps_pic_parameter_set_id p) ++
  ue_bits (pps_seq_parameter_set_id p) ++
  u_bits 1 (pps_entropy_coding_mode_flag p) ++
  u_bits 1 (pps_bottom_field_pic_order_in_frame_present_flag p) ++
  ue_bits (pps_num_slice_groups_minus1 p) ++
  enc_slice_groups p ++
  ue_bits (pps_num_ref_idx_l0_default_active_minus1 p) ++
  ue_bits (pps_num_ref_idx_l1_default_active_minus1 p) ++
  u_bits 1 (pps_weighted_pred_flag p) ++
  u_bits 2 (pps_weighted_bipred_idc p) ++
  se_bits (pps_pic_init_qp_minus26 p) ++
  se_bits (pps_pic_init_qs_minus26 p) ++
  se_bits (pps_chroma_qp_index_offset p) ++
  u_bits 1 (pps_deblocking_filter_control_present_flag p) ++
  u_bits 1 (pps_constrained_intra_pred_flag p) ++
  u_bits 1 (pps_redundant_pic_cnt_present_flag p).
Definition enc_pps (p : pps) (ext : option (list slist)) : list bool :=
  enc_pps_main p ++ match ext with Some ls => enc_pps_ext p ls | None => [] end.

(** Fields of absent slice group syntax are 0 / empty. *)
Definition valid_slice_groups (p : pps) : Prop :=
  let n := pps_num_slice_groups_minus1 p in
  let mt := pps_slice_group_map_type p in
  let used := negb (n =? 0) in
  mt <= 6 /\ (n = 0 -> mt = 0) /\
  (if used && (mt =? 0)
   then N.of_nat (length (pps_run_length_minus1 p)) = n + 1 /\
        Forall is_ue (pps_run_length_minus1 p)
   else pps_run_length_minus1 p = []) /\
  (if used && (mt =? 2)
   then N.of_nat (length (pps_rects p)) = n /\
        Forall (fun r => is_ue (fst r) /\ is_ue (snd r)) (pps_rects p)
   else pps_rects p = []) /\
  (if used && (3 <=? mt) && (mt <=? 5)
   then is_u 1 (pps_slice_group_change_direction_flag p) /\
        is_ue (pps_slice_group_change_rate_minus1 p)
   else pps_slice_group_change_direction_flag p = 0 /\
        pps_slice_group_change_rate_minus1 p = 0) /\
  (if used && (mt =? 6)
   then pps_pic_size_in_map_units_minus1 p < 139264 /\
        N.of_nat (length (pps_slice_group_id p)) = pps_pic_size_in_map_units_minus1 p + 1 /\
        Forall (is_u (slice_group_id_bits n)) (pps_slice_group_id p)
   else pps_pic_size_in_map_units_minus1 p = 0 /\ pps_slice_group_id p = []).

(** [cfi] is the chroma_format_idc the caller supplies.  The values of the QP fields,
    weighted_bipred_idc and slice_group_id are only bounded by their descriptors. *)
Definition valid_pps (cfi : N) (p : pps) (ext : option (list slist)) : Prop :=
  pps_chroma_format_idc p = cfi /\
  pps_pic_parameter_set_id p <= 255 /\
  pps_seq_parameter_set_id p <= 31 /\
  is_u 1 (pps_entropy_coding_mode_flag p) /\
  is_u 1 (pps_bottom_field_pic_order_in_frame_present_flag p) /\
  pps_num_slice_groups_minus1 p <= 7 /\
  valid_slice_groups p /\
  pps_num_ref_idx_l0_default_active_minus1 p <= 31 /\
  pps_num_ref_idx_l1_default_active_minus1 p <= 31 /\
  is_u 1 (pps_weighted_pred_flag p) /\
  is_u 2 (pps_weighted_bipred_idc p) /\
  is_se (pps_pic_init_qp_minus26 p) /\
  is_se (pps_pic_init_qs_minus26 p) /\
  is_se (pps_chroma_qp_index_offset p) /\
  is_u 1 (pps_deblocking_filter_control_present_flag p) /\
  is_u 1 (pps_constrained_intra_pred_flag p) /\
  is_u 1 (pps_redundant_pic_cnt_present_flag p) /\
  match ext with
  | Some ls =>
      is_u 1 (pps_transform_8x8_mode_flag p) /\
      is_u 1 (pps_pic_scaling_matrix_present_flag p) /\
      N.of_nat (length ls) =
        (if on (pps_pic_scaling_matrix_present_flag p)
         then 6 + (if cfi =? 3 then 6 else 2) * pps_transform_8x8_mode_flag p else 0) /\
      slists_ok 0 ls /\
      pps_scaling p = store_all 0 ls scal0 /\
      is_se (pps_second_chroma_qp_index_offset p)
  | None =>
      pps_transform_8x8_mode_flag p = 0 /\ pps_pic_scaling_matrix_present_flag p = 0 /\
      pps_scaling p = scal0 /\ pps_second_chroma_qp_index_offset p = 0%Z
  end.

(** The bits left are exactly rbsp_trailing_bits() (or nothing). *)
Definition at_end (l : list bool) : Prop :=
  l = [] \/ exists k, (k <= 7)%nat /\ l = stop_bits k.
