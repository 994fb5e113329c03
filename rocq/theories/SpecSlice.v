(** Specification: slice_header() (H.264 7.3.3) and its ranges (7.4.3). *)
From Coq Require Import NArith ZArith List Bool.
From Verif Require Import SpecBits TypesSps TypesPps SpecVui SpecScaling SpecSps SpecPps SpecExt
  TypesSlice SpecSliceParts TypesSliceHeader.
Import ListNotations.
Open Scope N_scope.

(** Table 7-6: slice_type modulo 5. *)
Definition P_slice (ty : N) : bool := ty mod 5 =? 0.
Definition B_slice (ty : N) : bool := ty mod 5 =? 1.
Definition I_slice (ty : N) : bool := ty mod 5 =? 2.
Definition SP_slice (ty : N) : bool := ty mod 5 =? 3.
Definition SI_slice (ty : N) : bool := ty mod 5 =? 4.

Definition enc_lead (l : lead) : list bool :=
  ue_bits (first_mb_in_slice l) ++ ue_bits (slice_type l) ++ ue_bits (pic_parameter_set_id l).
(** 139264 is the implementation's limit on the number of macroblocks. *)
Definition valid_lead (l : lead) : Prop :=
  first_mb_in_slice l < 139264 /\ slice_type l <= 9 /\ pic_parameter_set_id l <= 255.

Definition enc_picid (s : sps) (v : picid) : list bool :=
  (if on (separate_colour_plane_flag s) then u_bits 2 (colour_plane_id v) else []) ++
  u_bits (log2_max_frame_num_minus4 s + 4) (frame_num v) ++
  (if negb (on (frame_mbs_only_flag s))
   then u_bits 1 (field_pic_flag v) ++
        (if on (field_pic_flag v) then u_bits 1 (bottom_field_flag v) else [])
   else []).
Definition valid_picid (s : sps) (v : picid) : Prop :=
  (if on (separate_colour_plane_flag s) then is_u 2 (colour_plane_id v)
   else colour_plane_id v = 0) /\
  is_u (log2_max_frame_num_minus4 s + 4) (frame_num v) /\
  (if negb (on (frame_mbs_only_flag s))
   then is_u 1 (field_pic_flag v) /\
        (if on (field_pic_flag v) then is_u 1 (bottom_field_flag v) else bottom_field_flag v = 0)
   else field_pic_flag v = 0 /\ bottom_field_flag v = 0).

(** [field]: field_pic_flag *)
Definition two_deltas (p : pps) (field : N) : bool :=
  on (pps_bottom_field_pic_order_in_frame_present_flag p) && negb (on field).
Definition enc_poc (s : sps) (p : pps) (field : N) (v : poc) : list bool :=
  (if pic_order_cnt_type s =? 0
   then u_bits (log2_max_pic_order_cnt_lsb_minus4 s + 4) (pic_order_cnt_lsb v) ++
        (if two_deltas p field then se_bits (delta_pic_order_cnt_bottom v) else [])
   else []) ++
  (if (pic_order_cnt_type s =? 1) && negb (on (delta_pic_order_always_zero_flag s))
   then flat_map se_bits (delta_pic_order_cnt v) else []).
Definition valid_poc (s : sps) (p : pps) (field : N) (v : poc) : Prop :=
  (if pic_order_cnt_type s =? 0
   then is_u (log2_max_pic_order_cnt_lsb_minus4 s + 4) (pic_order_cnt_lsb v) /\
        (if two_deltas p field then is_se (delta_pic_order_cnt_bottom v)
         else delta_pic_order_cnt_bottom v = 0%Z)
   else pic_order_cnt_lsb v = 0 /\ delta_pic_order_cnt_bottom v = 0%Z) /\
  (if (pic_order_cnt_type s =? 1) && negb (on (delta_pic_order_always_zero_flag s))
   then length (delta_pic_order_cnt v) = (if two_deltas p field then 2 else 1)%nat /\
        Forall is_se (delta_pic_order_cnt v)
   else delta_pic_order_cnt v = []).

(** Slices of type P, SP and B use references; when not overridden, the numbers are those
    of the PPS ([d0], [d1]). *)
Definition uses_refs (ty : N) : bool := P_slice ty || SP_slice ty || B_slice ty.
Definition enc_refs (ty : N) (v : refs) : list bool :=
  (if B_slice ty then u_bits 1 (direct_spatial_mv_pred_flag v) else []) ++
  (if uses_refs ty
   then u_bits 1 (num_ref_idx_active_override_flag v) ++
        (if on (num_ref_idx_active_override_flag v)
         then ue_bits (num_ref_idx_l0_active_minus1 v) ++
              (if B_slice ty then ue_bits (num_ref_idx_l1_active_minus1 v) else [])
         else [])
   else []).
Definition valid_refs (d0 d1 ty : N) (v : refs) : Prop :=
  (if B_slice ty then is_u 1 (direct_spatial_mv_pred_flag v)
   else direct_spatial_mv_pred_flag v = 0) /\
  (if uses_refs ty
   then is_u 1 (num_ref_idx_active_override_flag v) /\
        (if on (num_ref_idx_active_override_flag v)
         then num_ref_idx_l0_active_minus1 v <= 31 /\
              (if B_slice ty then num_ref_idx_l1_active_minus1 v <= 31
               else num_ref_idx_l1_active_minus1 v = 0)
         else num_ref_idx_l0_active_minus1 v = d0 /\ num_ref_idx_l1_active_minus1 v = d1)
   else num_ref_idx_active_override_flag v = 0 /\ num_ref_idx_l0_active_minus1 v = 0 /\
        num_ref_idx_l1_active_minus1 v = 0).

(** Explicit weights: P and SP slices with weighted_pred_flag, B slices with
    weighted_bipred_idc 1.  A table is (luma denom, chroma denom, list 0, list 1). *)
Definition table := (N * N * list weights * list weights)%type.
Definition weighted (p : pps) (ty : N) : bool :=
  (on (pps_weighted_pred_flag p) && (P_slice ty || SP_slice ty)) ||
  ((pps_weighted_bipred_idc p =? 1) && B_slice ty).
Definition enc_table (cat ty : N) (t : table) : list bool :=
  let '(ld, cd, w0, w1) := t in enc_pwt cat ty ld cd w0 w1.
Definition valid_table (cat ty n0 n1 : N) (t : table) : Prop :=
  let '(ld, cd, w0, w1) := t in valid_pwt cat ty n0 n1 ld cd w0 w1.
Definition table_of (cat ty n0 n1 : N) (t : table) : pwt :=
  let '(ld, cd, w0, w1) := t in pwt_of cat ty n0 n1 ld cd w0 w1.

Definition enc_spqs (ty : N) (v : spqs) : list bool :=
  if SP_slice ty || SI_slice ty
  then (if SP_slice ty then u_bits 1 (sp_for_switch_flag v) else []) ++ se_bits (slice_qs_delta v)
  else [].
Definition valid_spqs (ty : N) (v : spqs) : Prop :=
  if SP_slice ty || SI_slice ty
  then (if SP_slice ty then is_u 1 (sp_for_switch_flag v) else sp_for_switch_flag v = 0) /\
       is_se (slice_qs_delta v)
  else sp_for_switch_flag v = 0 /\ slice_qs_delta v = 0%Z.

Definition enc_dbk (p : pps) (v : dbk) : list bool :=
  if on (pps_deblocking_filter_control_present_flag p)
  then ue_bits (disable_deblocking_filter_idc v) ++
       (if negb (disable_deblocking_filter_idc v =? 1)
        then se_bits (slice_alpha_c0_offset_div2 v) ++ se_bits (slice_beta_offset_div2 v)
        else [])
  else [].
Definition valid_dbk (idc_max : N) (p : pps) (v : dbk) : Prop :=
  if on (pps_deblocking_filter_control_present_flag p)
  then disable_deblocking_filter_idc v <= idc_max /\
       (if negb (disable_deblocking_filter_idc v =? 1)
        then is_se (slice_alpha_c0_offset_div2 v) /\ is_se (slice_beta_offset_div2 v)
        else slice_alpha_c0_offset_div2 v = 0%Z /\ slice_beta_offset_div2 v = 0%Z)
  else disable_deblocking_filter_idc v = 0 /\ slice_alpha_c0_offset_div2 v = 0%Z /\
       slice_beta_offset_div2 v = 0%Z.

(** slice_group_change_cycle has Ceil(Log2(PicSizeInMapUnits / SliceGroupChangeRate + 1))
    bits (7-35): those needed for the numbers up to Ceil(PicSizeInMapUnits /
    SliceGroupChangeRate). *)
Definition changing_groups (p : pps) : bool :=
  negb (pps_num_slice_groups_minus1 p =? 0) &&
  existsb (N.eqb (pps_slice_group_map_type p)) [3; 4; 5].
Definition cycle_bits (s : sps) (p : pps) : N :=
  let size := (pic_width_in_mbs_minus1 s + 1) * (pic_height_in_map_units_minus1 s + 1) in
  let rate := pps_slice_group_change_rate_minus1 p + 1 in
  N.size ((size + rate - 1) / rate).
Definition enc_cycle (s : sps) (p : pps) (c : N) : list bool :=
  if changing_groups p then u_bits (cycle_bits s p) c else [].
Definition valid_cycle (s : sps) (p : pps) (c : N) : Prop :=
  if changing_groups p then is_u (cycle_bits s p) c else c = 0.

(** A slice header: its syntax elements (absent ones 0 / None). *)
Record slice := mkslice {
  s_lead : lead;
  s_pic : picid;
  s_idr_pic_id : N;
  s_poc : poc;
  s_redundant_pic_cnt : N;
  s_refs : refs;
  s_rpl0 : option (list rpl_cmd);
  s_rpl1 : option (list rpl_cmd);
  s_table : option table;
  s_marking : option marking;
  s_cabac_init_idc : N;
  s_slice_qp_delta : Z;
  s_spqs : spqs;
  s_dbk : dbk;
  s_cycle : N
}.
Definition s_type (v : slice) : N := slice_type (s_lead v).
Definition opt_ok {A} (c : bool) (ok : A -> Prop) (o : option A) : Prop :=
  if c then exists x, o = Some x /\ ok x else o = None.

(** [ref], [nut]: nal_ref_idc and nal_unit_type; nut 5 is an IDR picture. *)
Definition idr_flag_of (nut : N) : N := if nut =? 5 then 1 else 0.
Definition enc_slice (ref nut : N) (s : sps) (p : pps) (v : slice) : list bool :=
  enc_lead (s_lead v) ++
  enc_picid s (s_pic v) ++
  (if nut =? 5 then ue_bits (s_idr_pic_id v) else []) ++
  enc_poc s p (field_pic_flag (s_pic v)) (s_poc v) ++
  (if on (pps_redundant_pic_cnt_present_flag p) then ue_bits (s_redundant_pic_cnt v) else []) ++
  enc_refs (s_type v) (s_refs v) ++
  enc_rplm (s_type v) (s_rpl0 v) (s_rpl1 v) ++
  enc_opt (enc_table (chroma_array_type s) (s_type v)) (s_table v) ++
  enc_opt enc_marking (s_marking v) ++
  (if on (pps_entropy_coding_mode_flag p) && negb (I_slice (s_type v)) && negb (SI_slice (s_type v))
   then ue_bits (s_cabac_init_idc v) else []) ++
  se_bits (s_slice_qp_delta v) ++
  enc_spqs (s_type v) (s_spqs v) ++
  enc_dbk p (s_dbk v) ++
  enc_cycle s p (s_cycle v).
Definition valid_slice (ref nut : N) (s : sps) (p : pps) (v : slice) : Prop :=
  valid_lead (s_lead v) /\
  valid_picid s (s_pic v) /\
  (if nut =? 5 then s_idr_pic_id v <= 65535 else s_idr_pic_id v = 0) /\
  valid_poc s p (field_pic_flag (s_pic v)) (s_poc v) /\
  (if on (pps_redundant_pic_cnt_present_flag p) then s_redundant_pic_cnt v <= 127
   else s_redundant_pic_cnt v = 0) /\
  valid_refs (pps_num_ref_idx_l0_default_active_minus1 p)
    (pps_num_ref_idx_l1_default_active_minus1 p) (s_type v) (s_refs v) /\
  valid_rplm (s_type v) (s_rpl0 v) (s_rpl1 v) /\
  opt_ok (weighted p (s_type v))
    (valid_table (chroma_array_type s) (s_type v) (num_ref_idx_l0_active_minus1 (s_refs v))
       (num_ref_idx_l1_active_minus1 (s_refs v))) (s_table v) /\
  opt_ok (negb (ref =? 0)) (valid_marking (idr_flag_of nut)) (s_marking v) /\
  (if on (pps_entropy_coding_mode_flag p) && negb (I_slice (s_type v)) && negb (SI_slice (s_type v))
   then s_cabac_init_idc v <= 2 else s_cabac_init_idc v = 0) /\
  (Z.abs (s_slice_qp_delta v) <= 51 + 6 * Z.of_N (bit_depth_luma_minus8 s))%Z /\
  valid_spqs (s_type v) (s_spqs v) /\
  valid_dbk 2 p (s_dbk v) /\
  valid_cycle s p (s_cycle v).

(** What the parser reports for it. *)
Definition inputs_of (ref nut : N) (s : sps) (p : pps) : slin :=
  let c := changing_groups p in
  {| in_nal_ref_idc := ref;
     in_nal_unit_type := nut;
     in_separate_colour_plane_flag := separate_colour_plane_flag s;
     in_log2_max_frame_num_minus4 := log2_max_frame_num_minus4 s;
     in_frame_mbs_only_flag := frame_mbs_only_flag s;
     in_pic_order_cnt_type := pic_order_cnt_type s;
     in_bottom_field_pic_order_in_frame_present_flag :=
       pps_bottom_field_pic_order_in_frame_present_flag p;
     in_delta_pic_order_always_zero_flag := delta_pic_order_always_zero_flag s;
     in_redundant_pic_cnt_present_flag := pps_redundant_pic_cnt_present_flag p;
     in_weighted_pred_flag := pps_weighted_pred_flag p;
     in_weighted_bipred_idc := pps_weighted_bipred_idc p;
     in_entropy_coding_mode_flag := pps_entropy_coding_mode_flag p;
     in_deblocking_filter_control_present_flag := pps_deblocking_filter_control_present_flag p;
     in_num_slice_groups_minus1 := pps_num_slice_groups_minus1 p;
     in_slice_group_map_type := pps_slice_group_map_type p;
     in_pic_width_in_mbs_minus1 := if c then pic_width_in_mbs_minus1 s else 0;
     in_pic_height_in_map_units_minus1 := if c then pic_height_in_map_units_minus1 s else 0;
     in_slice_group_change_rate_minus1 := if c then pps_slice_group_change_rate_minus1 p else 0 |}.
Definition slh_of (ref nut : N) (s : sps) (p : pps) (v : slice) : slh :=
  {| sh_in := inputs_of ref nut s p;
     sh_lead := s_lead v;
     sh_pic := s_pic v;
     sh_idr_pic_id := s_idr_pic_id v;
     sh_poc := s_poc v;
     sh_redundant_pic_cnt := s_redundant_pic_cnt v;
     sh_refs := s_refs v;
     sh_ref_pic_list_modification := rplm_of (s_type v) (s_rpl0 v) (s_rpl1 v);
     sh_pred_weight_table :=
       option_map (table_of (chroma_array_type s) (s_type v)
         (num_ref_idx_l0_active_minus1 (s_refs v)) (num_ref_idx_l1_active_minus1 (s_refs v)))
         (s_table v);
     sh_dec_ref_pic_marking := option_map (drpm_of (idr_flag_of nut)) (s_marking v);
     sh_cabac_init_idc := s_cabac_init_idc v;
     sh_slice_qp_delta := s_slice_qp_delta v;
     sh_spqs := s_spqs v;
     sh_dbk := s_dbk v;
     sh_slice_group_change_cycle := s_cycle v |}.

(** The parameter sets a slice that names PPS [id] refers to. *)
Definition lookup {A} (id : N) (m : list (N * A)) : option A :=
  option_map snd (find (fun kv => fst kv =? id) m).
Definition active (st : pstate) (id : N) : option (sps * pps) :=
  match lookup id (st_pps st) with
  | Some p => match lookup (pps_seq_parameter_set_id p) (st_sps st) with
              | Some s => Some (s, p)
              | None => None
              end
  | None => None
  end.
(** Every remembered parameter set is one a parser can have returned. *)
Definition ok_sps (s : sps) : Prop := exists ls, valid_sps s ls.
Definition ok_pps (p : pps) : Prop := exists ext, valid_pps 1 p ext.
Definition ok_subset (v : TypesExt.subsps) : Prop :=
  ok_sps (TypesExt.ss_sps v) /\
  forall e, TypesExt.ss_svc v = Some e -> valid_spssvc (chroma_array_type (TypesExt.ss_sps v)) e.
Definition ok_state (st : pstate) : Prop :=
  (forall id s, lookup id (st_sps st) = Some s -> ok_sps s) /\
  (forall id p, lookup id (st_pps st) = Some p -> ok_pps p) /\
  (forall id v, lookup id (st_subset_sps st) = Some v -> ok_subset v).
