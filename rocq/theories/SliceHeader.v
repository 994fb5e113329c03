(** Model of the slice header parser. *)
From Coq Require Import NArith ZArith List Bool.
From Verif Require Import Base BitBuffer Parser Vui TypesSps Sps TypesPps Pps TypesSlice SliceParts
  TypesSliceHeader.
Import ListNotations.
Open Scope N_scope.
Open Scope m_scope.

(** std::map: lookup and operator[] assignment. *)
Fixpoint mfind {A} (k : N) (m : list (N * A)) : option A :=
  match m with
  | [] => None
  | (i, v) :: t => if i =? k then Some v else mfind k t
  end.
Fixpoint minsert {A} (k : N) (v : A) (m : list (N * A)) : list (N * A) :=
  match m with
  | [] => [(k, v)]
  | (i, w) :: t => if i =? k then (k, v) :: t else (i, w) :: minsert k v t
  end.
(** if (m.find(k) == m.end()) return nullptr *)
Definition found {A} (o : option A) : P A :=
  match o with Some v => sret v | None => sfail end.

(** include/h264_common.h:71-86: slice_type t or t + 5 *)
Definition is_type (t slice_type : N) : bool := (slice_type =? t) || (slice_type =? t + 5).
Definition is_P := is_type 0.
Definition is_B := is_type 1.
Definition is_I := is_type 2.
Definition is_SP := is_type 3.
Definition is_SI := is_type 4.

(** h264_slice_header_parser.cc:57-103,
    h264_slice_header_in_scalable_extension_parser.cc:63-108 *)
Definition slice_lead : P lead :=
  fm <- ue_max (kMaxMbPicSize - 1) ;;
  ty <- ue_max 9 ;;
  id <- ue_max 255 ;;
  sret (mklead fm ty id).

(** h264_slice_header_parser.cc:129-158, ..._in_scalable_extension_parser.cc:150-178.
    [sep]: the condition on separate_colour_plane_flag *)
Definition slice_pic (sep : bool) (s : sps) : P picid :=
  cp <- cond sep (ReadBits 2) 0 ;;
  fn <- ReadBits (u32 (log2_max_frame_num_minus4 s + 4)) ;;
  ' (fp, bf) <- cond (negb (tob (frame_mbs_only_flag s)))
    (fp <- ReadBits 1 ;; bf <- cond (tob fp) (ReadBits 1) 0 ;; sret (fp, bf)) (0, 0) ;;
  sret (mkpicid cp fn fp bf).

(** h264_slice_header_parser.cc:181-224, ..._in_scalable_extension_parser.cc:221-261 *)
Definition slice_poc (s : sps) (p : pps) (fp : N) : P poc :=
  let bottom := tob (pps_bottom_field_pic_order_in_frame_present_flag p) && negb (tob fp) in
  ' (lsb, db) <- cond (pic_order_cnt_type s =? 0)
    (lsb <- ReadBits (u32 (log2_max_pic_order_cnt_lsb_minus4 s + 4)) ;;
     db <- cond bottom ReadSignedExponentialGolomb 0%Z ;;
     sret (lsb, db)) (0, 0%Z) ;;
  d <- cond ((pic_order_cnt_type s =? 1) && negb (tob (delta_pic_order_always_zero_flag s)))
    (d0 <- ReadSignedExponentialGolomb ;;
     d1 <- pushed bottom ReadSignedExponentialGolomb ;;
     sret (d0 :: d1)) [] ;;
  sret (mkpoc lsb db d).

(** h264_slice_header_parser.cc:247-319 *)
Definition slice_refs (p : pps) (ty : N) : P refs :=
  ds <- cond (is_B ty) (ReadBits 1) 0 ;;
  ' (ov, l0, l1) <- cond (is_P ty || is_SP ty || is_B ty)
    (ov <- ReadBits 1 ;;
     ' (l0, l1) <-
       (if tob ov then
          l0 <- ue_max 31 ;; l1 <- cond (is_B ty) (ue_max 31) 0 ;; sret (l0, l1)
        else sret (pps_num_ref_idx_l0_default_active_minus1 p,
                   pps_num_ref_idx_l1_default_active_minus1 p)) ;;
     sret (ov, l0, l1)) (0, 0, 0) ;;
  sret (mkrefs ds ov l0 l1).

(** h264_slice_header_parser.cc:402-420 *)
Definition slice_qp (s : sps) : P Z :=
  q <- ReadSignedExponentialGolomb ;;
  m <- sres (chk_i32 (6 * to_i32 (bit_depth_luma_minus8 s))) ;;
  lo <- sres (chk_i32 (-51 - m)) ;;
  guard (negb (q <? lo)%Z) ;;;
  hi <- sres (chk_i32 (51 + m)) ;;
  guard (negb (hi <? q)%Z) ;;;
  sret q.

(** h264_slice_header_parser.cc:422-439 *)
Definition slice_spqs (ty : N) : P spqs :=
  cond (is_SP ty || is_SI ty)
    (sw <- cond (is_SP ty) (ReadBits 1) 0 ;;
     qs <- ReadSignedExponentialGolomb ;;
     sret (mkspqs sw qs)) (mkspqs 0 0).

(** h264_slice_header_parser.cc:441-477, ..._in_scalable_extension_parser.cc:442-476.
    [idc_max]: 2, resp. 6 *)
Definition slice_dbk (idc_max : N) (p : pps) : P dbk :=
  cond (tob (pps_deblocking_filter_control_present_flag p))
    (idc <- ue_max idc_max ;;
     ' (a, b) <- cond (negb (idc =? 1))
       (a <- ReadSignedExponentialGolomb ;; b <- ReadSignedExponentialGolomb ;; sret (a, b))
       (0%Z, 0%Z) ;;
     sret (mkdbk idc a b)) (mkdbk 0 0 0).

(** h264_slice_header_parser.cc:521-558, ..._in_scalable_extension_parser.cc:668-719
    getSliceGroupChangeCycleLen: ceil(log2(size / rate + 1)) in double.  For 32-bit operands
    size / rate + 1 is either a power of two, computed exactly, or differs from the powers of
    two by a relative 2^-34 at least, far more than the rounding errors; so the integer
    formula below is what the C++ computes.  rate = 0 would convert an infinity. *)
Definition getSliceGroupChangeCycleLen (w h r : N) : res N :=
  let size := u32 (u32 (w + 1) * u32 (h + 1)) in
  let rate := u32 (r + 1) in
  if rate =? 0 then UB BadCast else Ok (N.log2_up ((size + rate + (rate - 1)) / rate)).
(** h264_slice_header_parser.cc:481-483, ..._in_scalable_extension_parser.cc:480-482 *)
Definition has_cycle (p : pps) : bool :=
  (0 <? pps_num_slice_groups_minus1 p) && (3 <=? pps_slice_group_map_type p) &&
  (pps_slice_group_map_type p <=? 5).
(** h264_slice_header_parser.cc:479-500, ..._in_scalable_extension_parser.cc:478-496 *)
Definition slice_cycle (s : sps) (p : pps) : P N :=
  cond (has_cycle p)
    (len <- sres (getSliceGroupChangeCycleLen (pic_width_in_mbs_minus1 s)
                    (pic_height_in_map_units_minus1 s) (pps_slice_group_change_rate_minus1 p)) ;;
     ReadBits len) 0.

(** The assignments of input parameters in h264_slice_header_parser.cc:54-55, 129, 139, 146,
    181-184, 206, 226, 345-346, 379, 441, 479-480, 485-489 *)
Definition slice_inputs (ref nut : N) (s : sps) (p : pps) : slin :=
  mkslin ref nut (separate_colour_plane_flag s) (log2_max_frame_num_minus4 s)
    (frame_mbs_only_flag s) (pic_order_cnt_type s)
    (pps_bottom_field_pic_order_in_frame_present_flag p)
    (delta_pic_order_always_zero_flag s) (pps_redundant_pic_cnt_present_flag p)
    (pps_weighted_pred_flag p) (pps_weighted_bipred_idc p) (pps_entropy_coding_mode_flag p)
    (pps_deblocking_filter_control_present_flag p) (pps_num_slice_groups_minus1 p)
    (pps_slice_group_map_type p)
    (if has_cycle p then pic_width_in_mbs_minus1 s else 0)
    (if has_cycle p then pic_height_in_map_units_minus1 s else 0)
    (if has_cycle p then pps_slice_group_change_rate_minus1 p else 0).

(** h264_slice_header_parser.cc:336-502: from ref_pic_list_modification() to the end *)
Definition slice_rest (ref nut : N) (s : sps) (p : pps) (ld : lead) (pic : picid) (idr : N)
  (po : poc) (red : N) (rf : refs) : P slh :=
  let ty := slice_type ld in
  rl <- ParseRefPicListModification ty ;;
  pw <- cond ((tob (pps_weighted_pred_flag p) && (is_P ty || is_SP ty)) ||
              ((pps_weighted_bipred_idc p =? 1) && is_B ty))
    (some_of (ParsePredWeightTable
       (getChromaArrayType (chroma_format_idc s) (separate_colour_plane_flag s)) ty
       (num_ref_idx_l0_active_minus1 rf) (num_ref_idx_l1_active_minus1 rf))) None ;;
  dm <- cond (negb (ref =? 0))
    (some_of (ParseDecRefPicMarking (if nut =? 5 then 1 else 0))) None ;;
  cb <- cond (tob (pps_entropy_coding_mode_flag p) && negb (is_I ty) && negb (is_SI ty))
    (ue_max 2) 0 ;;
  qp <- slice_qp s ;;
  sq <- slice_spqs ty ;;
  db <- slice_dbk 2 p ;;
  cy <- slice_cycle s p ;;
  sret (mkslh (slice_inputs ref nut s p) ld pic idr po red rf rl pw dm cb qp sq db cy).

(** h264_slice_header_parser.cc:42-503 ParseSliceHeader.  [Ok None]: line 326,
    report_unimplemented called once and nullptr returned. *)
Definition ParseSliceHeader (ref nut : N) (st : pstate) : P (option slh) :=
  ld <- slice_lead ;;
  p <- found (mfind (pic_parameter_set_id ld) (st_pps st)) ;;
  s <- found (mfind (pps_seq_parameter_set_id p) (st_sps st)) ;;
  pic <- slice_pic (tob (separate_colour_plane_flag s)) s ;;
  idr <- cond (nut =? 5) (ue_max 65535) 0 ;;
  po <- slice_poc s p (field_pic_flag pic) ;;
  red <- cond (tob (pps_redundant_pic_cnt_present_flag p)) (ue_max 127) 0 ;;
  rf <- slice_refs p (slice_type ld) ;;
  if (nut =? 20) || (nut =? 21) then sret None
  else h <- slice_rest ref nut s p ld pic idr po red rf ;; sret (Some h).
