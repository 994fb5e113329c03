(** Model of the sequence parameter set parser. *)
From Coq Require Import NArith ZArith List Bool.
From Verif Require Import Base BitBuffer Rbsp Parser TypesSps Vui ScalingList.
Import ListNotations.
Open Scope N_scope.
Open Scope m_scope.

(** h264_common.h:189-193 *)
Definition kMaxMbWidth : N := 1055.
Definition kMaxMbHeight : N := 1055.
Definition kMaxWidth : N := kMaxMbWidth * 16.
Definition kMaxHeight : N := kMaxMbHeight * 16.
Definition kMaxMbPicSize : N := 139264.

(** h264_sps_parser.cc:497-553 GetProfileType *)
Definition GetProfileType (profile_idc cs1 cs3 cs4 cs5 : N) : profile :=
  if profile_idc =? 66 then if cs1 =? 1 then CONSTRAINED_BASELINE else BASELINE
  else if profile_idc =? 77 then MAIN
  else if profile_idc =? 88 then EXTENDED
  else if profile_idc =? 100 then
    if cs4 =? 1 then PROGRESSIVE_HIGH else if cs5 =? 1 then CONSTRAINED_HIGH else HIGH
  else if profile_idc =? 110 then
    if cs3 =? 1 then HIGH_10_INTRA else if cs4 =? 1 then PROGRESSIVE_HIGH_10 else HIGH_10
  else if profile_idc =? 122 then if cs3 =? 1 then HIGH_422_INTRA else HIGH_422
  else if profile_idc =? 144 then if cs3 =? 1 then HIGH_444_INTRA else HIGH_444
  else if profile_idc =? 244 then if cs3 =? 1 then HIGH_444_PRED_INTRA else HIGH_444_PRED
  else if profile_idc =? 44 then CAVLC_444_INTRA
  else UNSPECIFIED.

(** h264_sps_parser.cc:555-569 getChromaArrayType *)
Definition getChromaArrayType (chroma_format_idc separate : N) : N :=
  if separate =? 0 then chroma_format_idc else 0.
(** h264_sps_parser.cc:571-590 getSubWidthC *)
Definition getSubWidthC (cfi sep : N) : Z :=
  if (cfi =? 0) && (sep =? 0) then -1
  else if (cfi =? 1) && (sep =? 0) then 2
  else if (cfi =? 2) && (sep =? 0) then 2
  else if (cfi =? 3) && (sep =? 0) then 1
  else if (cfi =? 3) && (sep =? 1) then -1
  else -1.
(** h264_sps_parser.cc:592-611 getSubHeightC *)
Definition getSubHeightC (cfi sep : N) : Z :=
  if (cfi =? 0) && (sep =? 0) then -1
  else if (cfi =? 1) && (sep =? 0) then 2
  else if (cfi =? 2) && (sep =? 0) then 1
  else if (cfi =? 3) && (sep =? 0) then 1
  else if (cfi =? 3) && (sep =? 1) then -1
  else -1.
(** h264_sps_parser.cc:613-619 getCropUnitX *)
Definition getCropUnitX (cfi sep : N) : Z :=
  if getChromaArrayType cfi sep =? 0 then 1 else getSubWidthC cfi sep.
(** h264_sps_parser.cc:621-625 getCropUnitY: int arithmetic *)
Definition getCropUnitY (cfi sep frame_mbs_only : N) : res Z :=
  let SubHeightC := if getChromaArrayType cfi sep =? 0 then 1%Z else getSubHeightC cfi sep in
  rbind (chk_i32 (2 - to_i32 frame_mbs_only)) (fun f => chk_i32 (SubHeightC * f)).

(** h264_sps_parser.cc:107-113: profiles whose SPS carries the chroma format *)
Definition has_chroma_info (p : N) : bool :=
  (p =? 100) || (p =? 110) || (p =? 122) || (p =? 244) || (p =? 44) || (p =? 83) ||
  (p =? 86) || (p =? 118) || (p =? 128) || (p =? 138) || (p =? 139) || (p =? 134) ||
  (p =? 135).

(** h264_sps_parser.cc:114-205: the high profile fields *)
Definition ParseSpsHigh : P (N * N * N * N * N * N * scal) :=
  cfi <- ue_max 3 ;;
  sep <- cond (cfi =? 3) (ReadBits 1) 0 ;;
  bdl <- ue_max 6 ;;
  bdc <- ue_max 6 ;;
  qpp <- ReadBits 1 ;;
  ssm <- ReadBits 1 ;;
  sc <- cond (tob ssm) (scaling_loop (if negb (cfi =? 3) then 8%nat else 12%nat) 0 scal0)
          scal0 ;;
  sret (cfi, sep, bdl, bdc, qpp, ssm, sc).

(** h264_sps_parser.cc:263-310: pic_order_cnt_type == 1 fields *)
Definition ParseSpsPoc1 : P (N * Z * Z * N * list Z) :=
  dpoaz <- ReadBits 1 ;;
  ofnrp <- ReadSignedExponentialGolomb ;;
  ofttb <- ReadSignedExponentialGolomb ;;
  nrf <- ue_max 255 ;;
  ofrf <- rep (N.to_nat nrf) ReadSignedExponentialGolomb ;;
  sret (dpoaz, ofnrp, ofttb, nrf, ofrf).

(** h264_sps_parser.cc:387-478: frame cropping, with the uint32_t size check *)
Definition ParseSpsCrop (cfi sep w h fmo : N) : P (N * N * N * N) :=
  l <- ue_max kMaxWidth ;;
  r <- ue_max kMaxWidth ;;
  t <- ue_max kMaxHeight ;;
  bo <- ue_max kMaxHeight ;;
  let PicWidthInSamplesL := u32 (16 * u32 (w + 1)) in
  let FrameHeightInSamplesL := u32 (u32 (16 * sub32 2 fmo) * u32 (h + 1)) in
  let cropped_width := u32 (of_i32 (getCropUnitX cfi sep) * u32 (l + r)) in
  cuy <- sres (getCropUnitY cfi sep fmo) ;;
  let cropped_height := u32 (of_i32 cuy * u32 (t + bo)) in
  guard (negb ((PicWidthInSamplesL <=? cropped_width)
               || (FrameHeightInSamplesL <=? cropped_height))) ;;;
  sret (l, r, t, bo).

(** h264_sps_parser.cc:32-495 ParseSpsData(BitBuffer* ) *)
Definition ParseSpsData : P sps :=
  pidc <- ReadBits 8 ;;
  cs0 <- ReadBits 1 ;;
  cs1 <- ReadBits 1 ;;
  cs2 <- ReadBits 1 ;;
  cs3 <- ReadBits 1 ;;
  cs4 <- ReadBits 1 ;;
  cs5 <- ReadBits 1 ;;
  rz <- ReadBits 2 ;;
  let ptype := GetProfileType pidc cs1 cs3 cs4 cs5 in
  lidc <- ReadBits 8 ;;
  id <- ue_max 31 ;;
  ' (cfi, sep, bdl, bdc, qpp, ssm, sc) <-
    cond (has_chroma_info pidc) ParseSpsHigh (1, 0, 0, 0, 0, 0, scal0) ;;
  lmfn <- ue_max 12 ;;
  poct <- ue_max 2 ;;
  lmpl <- cond (poct =? 0) (ue_max 12) 0 ;;
  ' (dpoaz, ofnrp, ofttb, nrf, ofrf) <-
    cond (poct =? 1) ParseSpsPoc1 (0, 0%Z, 0%Z, 0, []) ;;
  mnrf <- ue_max 16 ;;
  gaps <- ReadBits 1 ;;
  w <- ue_max kMaxMbWidth ;;
  h <- ue_max kMaxMbHeight ;;
  fmo <- ReadBits 1 ;;
  mba <- cond (negb (tob fmo)) (ReadBits 1) 0 ;;
  d8 <- ReadBits 1 ;;
  fcf <- ReadBits 1 ;;
  ' (l, r, t, bo) <- cond (tob fcf) (ParseSpsCrop cfi sep w h fmo) (0, 0, 0, 0) ;;
  vpf <- ReadBits 1 ;;
  vp <- cond (tob vpf) (some_of ParseVuiParameters) None ;;
  sret (mksps pidc cs0 cs1 cs2 cs3 cs4 cs5 rz lidc id cfi sep bdl bdc qpp ssm sc
          lmfn poct lmpl dpoaz ofnrp ofttb nrf ofrf mnrf gaps w h fmo mba d8 fcf
          l r t bo vpf vp ptype).

(** A call whose result the C++ ignores. *)
Definition ignored {A} (p : P A) : P unit := attempt p ;;; sret tt.

(** h264_sps_parser.cc:716-732 ParseSps(BitBuffer* ) *)
Definition ParseSps : P sps :=
  s <- ParseSpsData ;; ignored rbsp_trailing_bits ;;; sret s.

(** h264_sps_parser.cc:627-660 getResolution with non-null pointers.  [Ok (w, h)] is
    return value 0; [Null] is -1 (both outputs set to -1).  All arithmetic is int, except
    the two sums in uint32_t. *)
Definition getResolution (s : sps) : res (Z * Z) :=
  let cux := getCropUnitX (chroma_format_idc s) (separate_colour_plane_flag s) in
  rbind (getCropUnitY (chroma_format_idc s) (separate_colour_plane_flag s)
           (frame_mbs_only_flag s)) (fun cuy =>
  rbind (chk_i32 (2 - to_i32 (frame_mbs_only_flag s))) (fun f =>
  rbind (chk_i32 (f * to_i32 (u32 (pic_height_in_map_units_minus1 s + 1))))
    (fun FrameHeightInMbs =>
  let width := to_i32 (u32 (16 * u32 (pic_width_in_mbs_minus1 s + 1))) in
  rbind (chk_i32 (16 * FrameHeightInMbs)) (fun height =>
  rbind (chk_i32 (cux * to_i32 (frame_crop_left_offset s))) (fun a =>
  rbind (chk_i32 (cux * to_i32 (frame_crop_right_offset s))) (fun b =>
  rbind (chk_i32 (a + b)) (fun ab =>
  rbind (chk_i32 (width - ab)) (fun width' =>
  rbind (chk_i32 (cuy * to_i32 (frame_crop_top_offset s))) (fun c =>
  rbind (chk_i32 (cuy * to_i32 (frame_crop_bottom_offset s))) (fun d =>
  rbind (chk_i32 (c + d)) (fun cd =>
  rbind (chk_i32 (height - cd)) (fun height' =>
  if (width' <=? 0) || (height' <=? 0) then Null else Ok (width', height')))))))))))))%Z.
