(** Model of the parser of slice headers in scalable extension. *)
From Coq Require Import NArith ZArith List Bool.
From Verif Require Import Base BitBuffer Parser Vui TypesSps Sps TypesPps Pps TypesNal NalHeader
  TypesExt TypesSlice SliceParts TypesSliceHeader SliceHeader TypesSvcSlice.
Import ListNotations.
Open Scope N_scope.
Open Scope m_scope.

(** All line numbers: h264_slice_header_in_scalable_extension_parser.cc.
    Lines 285-345.  EP is slice_type 0 or 5, EB 1 or 6, EI 2 or 7 (include/h264_common.h:113-120). *)
Definition svc_refs (ty : N) : P refs :=
  ds <- cond (is_B ty) (ReadBits 1) 0 ;;
  ' (ov, l0, l1) <- cond (is_P ty || is_B ty)
    (ov <- ReadBits 1 ;;
     ' (l0, l1) <- cond (tob ov)
       (l0 <- ue_max 31 ;; l1 <- cond (is_B ty) (ue_max 31) 0 ;; sret (l0, l1)) (0, 0) ;;
     sret (ov, l0, l1)) (0, 0, 0) ;;
  sret (mkrefs ds ov l0 l1).

Definition svc_weighted (p : pps) (ty : N) : bool :=
  (tob (pps_weighted_pred_flag p) && is_P ty) || ((pps_weighted_bipred_idc p =? 1) && is_B ty).
Definition no_refs : refs := mkrefs 0 0 0 0.
Definition no_qzero : qzero := mkqzero no_refs None 0 None None 0.

(** Lines 285-413; [None]: lines 405-411, report_unimplemented and nullptr *)
Definition svc_qzero (ref ty : N) (s : sps) (p : pps) (x : spssvc) (e : svc_ext)
  : P (option qzero) :=
  rf <- svc_refs ty ;;
  rl <- ParseRefPicListModification ty ;;
  ' (bf, pw) <- cond (svc_weighted p ty)
    (bf <- cond (negb (tob (svc_no_inter_layer_pred_flag e))) (ReadBits 1) 0 ;;
     pw <- cond (tob (svc_no_inter_layer_pred_flag e) || negb (tob bf))
       (some_of (ParsePredWeightTable
          (getChromaArrayType (chroma_format_idc s) (separate_colour_plane_flag s)) ty
          (num_ref_idx_l0_active_minus1 rf) (num_ref_idx_l1_active_minus1 rf))) None ;;
     sret (bf, pw)) (0, None) ;;
  if negb (ref =? 0) then
    dm <- ParseDecRefPicMarking (svc_idr_flag e) ;;
    if negb (tob (sv_slice_header_restriction_flag x)) then
      sr <- ReadBits 1 ;;
      if (tob (svc_use_ref_base_pic_flag e) || tob sr) && negb (tob (svc_idr_flag e))
      then sret None
      else sret (Some (mkqzero rf (Some rl) bf pw (Some dm) sr))
    else sret (Some (mkqzero rf (Some rl) bf pw (Some dm) 0))
  else sret (Some (mkqzero rf (Some rl) bf pw None 0)).

(** Lines 500-573 *)
Definition svc_ilayer (s : sps) (x : spssvc) : P ilayer :=
  dq <- ReadExponentialGolomb ;;
  ' (di, a, b) <- cond (tob (sv_inter_layer_deblocking_filter_control_present_flag x))
    (di <- ReadExponentialGolomb ;;
     ' (a, b) <- cond (negb (di =? 1))
       (a <- ReadSignedExponentialGolomb ;; b <- ReadSignedExponentialGolomb ;; sret (a, b))
       (0%Z, 0%Z) ;;
     sret (di, a, b)) (0, 0%Z, 0%Z) ;;
  cr <- ReadBits 1 ;;
  ' (px, py, l, t, r, bo) <- cond (sv_extended_spatial_scalability_idc x =? 2)
    (' (px, py) <-
       cond (0 <? getChromaArrayType (chroma_format_idc s) (separate_colour_plane_flag s))
         (px <- ReadBits 1 ;; py <- ReadBits 2 ;; sret (px, py)) (0, 0) ;;
     l <- ReadSignedExponentialGolomb ;;
     t <- ReadSignedExponentialGolomb ;;
     r <- ReadSignedExponentialGolomb ;;
     bo <- ReadSignedExponentialGolomb ;;
     sret (px, py, l, t, r, bo)) (0, 0, 0%Z, 0%Z, 0%Z, 0%Z) ;;
  sret (mkilayer dq di a b cr px py l t r bo).
Definition no_ilayer : ilayer := mkilayer 0 0 0 0 0 0 0 0 0 0 0.

(** Lines 577-632 *)
Definition svc_modes (x : spssvc) : P modes :=
  sk <- ReadBits 1 ;;
  ' (nm, ab, db, am, dm, ar, dr) <-
    (if tob sk then nm <- ReadExponentialGolomb ;; sret (nm, 0, 0, 0, 0, 0, 0)
     else
       ab <- ReadBits 1 ;;
       db <- cond (negb (tob ab)) (ReadBits 1) 0 ;;
       ' (am, dm) <- cond (negb (tob db))
         (am <- ReadBits 1 ;; dm <- cond (negb (tob am)) (ReadBits 1) 0 ;; sret (am, dm)) (0, 0) ;;
       ar <- ReadBits 1 ;;
       dr <- cond (negb (tob ar)) (ReadBits 1) 0 ;;
       sret (0, ab, db, am, dm, ar, dr)) ;;
  tc <- cond (tob (sv_adaptive_tcoeff_level_prediction_flag x)) (ReadBits 1) 0 ;;
  sret (mkmodes sk nm ab db am dm ar dr tc).
Definition no_modes : modes := mkmodes 0 0 0 0 0 0 0 0 0.

(** The assignments of input parameters; [q]: the quality layer 0 part as parsed *)
Definition svc_inputs (h : nalh) (s : sps) (p : pps) (e : svc_ext) : slin :=
  let q0 := svc_quality_id e =? 0 in
  mkslin (nal_ref_idc h) (nal_unit_type h) (separate_colour_plane_flag s)
    (log2_max_frame_num_minus4 s) (frame_mbs_only_flag s) (pic_order_cnt_type s)
    (pps_bottom_field_pic_order_in_frame_present_flag p)
    (delta_pic_order_always_zero_flag s) (pps_redundant_pic_cnt_present_flag p)
    (if q0 then pps_weighted_pred_flag p else 0) (if q0 then pps_weighted_bipred_idc p else 0)
    (pps_entropy_coding_mode_flag p)
    (pps_deblocking_filter_control_present_flag p) (pps_num_slice_groups_minus1 p)
    (pps_slice_group_map_type p)
    (if has_cycle p then pic_width_in_mbs_minus1 s else 0)
    (if has_cycle p then pic_height_in_map_units_minus1 s else 0)
    (if has_cycle p then pps_slice_group_change_rate_minus1 p else 0).
Definition svc_inputs2 (h : nalh) (s : sps) (x : spssvc) (e : svc_ext) (q : qzero) : svin :=
  let q0 := svc_quality_id e =? 0 in
  let pred := negb (tob (svc_no_inter_layer_pred_flag e)) in
  mksvin (svc_no_inter_layer_pred_flag e) (svc_quality_id e)
    (if match q_pred_weight_table q with Some _ => true | None => false end ||
        (pred && q0 && (sv_extended_spatial_scalability_idc x =? 2))
     then getChromaArrayType (chroma_format_idc s) (separate_colour_plane_flag s) else 0)
    (sv_slice_header_restriction_flag x)
    (if q0 && negb (nal_ref_idc h =? 0) && negb (tob (sv_slice_header_restriction_flag x))
     then svc_use_ref_base_pic_flag e else 0)
    (svc_idr_flag e)
    (if pred && q0 then sv_inter_layer_deblocking_filter_control_present_flag x else 0)
    (if pred && q0 then sv_extended_spatial_scalability_idc x else 0)
    (if pred then sv_adaptive_tcoeff_level_prediction_flag x else 0).

(** Lines 416-647 *)
Definition svc_rest (h : nalh) (s : sps) (p : pps) (x : spssvc) (e : svc_ext) (ld : lead)
  (pic : picid) (idr : N) (po : poc) (red : N) (q : qzero) : P svh :=
  let pred := negb (tob (svc_no_inter_layer_pred_flag e)) in
  cb <- cond (tob (pps_entropy_coding_mode_flag p) && negb (is_I (slice_type ld))) (ue_max 2) 0 ;;
  qp <- ReadSignedExponentialGolomb ;;
  db <- slice_dbk 6 p ;;
  cy <- slice_cycle s p ;;
  il <- cond (pred && (svc_quality_id e =? 0)) (svc_ilayer s x) no_ilayer ;;
  mo <- cond pred (svc_modes x) no_modes ;;
  ' (ss, se) <- cond (negb (tob (sv_slice_header_restriction_flag x)) &&
                      negb (tob (mo_slice_skip_flag mo)))
    (ss <- ReadBits 4 ;; se <- ReadBits 4 ;; sret (ss, se)) (0, 0) ;;
  sret (mksvh (svc_inputs h s p e) (svc_inputs2 h s x e q) ld pic idr po red q cb qp db cy il mo
          ss se).

(** Lines 46-648 ParseSliceHeaderInScalableExtension *)
Definition ParseSliceHeaderInScalableExtension (h : nalh) (st : pstate) : P (option svh) :=
  ld <- slice_lead ;;
  p <- found (mfind (pic_parameter_set_id ld) (st_pps st)) ;;
  ss <- found (mfind (pps_seq_parameter_set_id p) (st_subset_sps st)) ;;
  let s := ss_sps ss in
  x <- found (ss_svc ss) ;;
  pic <- slice_pic (separate_colour_plane_flag s =? 1) s ;;
  e <- found (nal_svc h) ;;
  idr <- cond (tob (svc_idr_flag e)) (ue_max 65535) 0 ;;
  po <- slice_poc s p (field_pic_flag pic) ;;
  red <- cond (tob (pps_redundant_pic_cnt_present_flag p)) (ue_max 127) 0 ;;
  o <- cond (svc_quality_id e =? 0) (svc_qzero (nal_ref_idc h) (slice_type ld) s p x e)
         (Some no_qzero) ;;
  match o with
  | None => sret None
  | Some q => v <- svc_rest h s p x e ld pic idr po red q ;; sret (Some v)
  end.
