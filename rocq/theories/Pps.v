(** Model of the picture parameter set parser. *)
From Coq Require Import NArith ZArith List Bool.
From Verif Require Import Base BitBuffer Rbsp Parser TypesSps TypesPps ScalingList Sps.
Import ListNotations.
Open Scope N_scope.
Open Scope m_scope.

(** h264_pps_parser.cc:334-343 getSliceGroupIdLen: ceil(log2(n + 1)), computed in double by
    the C++ (exact for these arguments, at most 8). *)
Definition getSliceGroupIdLen (num_slice_groups_minus1 : N) : N :=
  N.log2_up (num_slice_groups_minus1 + 1).

(** more_rbsp_data as a condition inside a parser: it restores the position. *)
Definition more_data : P bool := fun b => (more_rbsp_data b, b).

(** h264_pps_parser.cc:106-205: the slice group fields *)
Definition ParseSliceGroups (n : N)
  : P (N * list N * list (N * N) * N * N * N * list N) :=
  mt <- ue_max 6 ;;
  if mt =? 0 then
    runs <- rep (N.to_nat (n + 1)) ReadExponentialGolomb ;;
    sret (mt, runs, [], 0, 0, 0, [])
  else if mt =? 2 then
    rects <- rep (N.to_nat n)
      (tl <- ReadExponentialGolomb ;; br <- ReadExponentialGolomb ;; sret (tl, br)) ;;
    sret (mt, [], rects, 0, 0, 0, [])
  else if (mt =? 3) || (mt =? 4) || (mt =? 5) then
    dir <- ReadBits 1 ;;
    rate <- ReadExponentialGolomb ;;
    guard (negb (rate =? 4294967295)) ;;;
    sret (mt, [], [], dir, rate, 0, [])
  else if mt =? 6 then
    size <- ue_max (kMaxMbPicSize - 1) ;;
    ids <- rep (N.to_nat (size + 1)) (ReadBits (getSliceGroupIdLen n)) ;;
    sret (mt, [], [], 0, 0, size, ids)
  else sret (mt, [], [], 0, 0, 0, []).

(** h264_pps_parser.cc:289-327: the fields after redundant_pic_cnt_present_flag *)
Definition ParsePpsExt (chroma_format_idc : N) : P (N * N * scal * Z) :=
  t8 <- ReadBits 1 ;;
  psm <- ReadBits 1 ;;
  sc <- cond (tob psm)
    (scaling_loop (N.to_nat (6 + (if negb (chroma_format_idc =? 3) then 2 else 6) * t8)) 0
       scal0) scal0 ;;
  second <- ReadSignedExponentialGolomb ;;
  sret (t8, psm, sc, second).

(** h264_pps_parser.cc:31-332 ParsePps(BitBuffer*, chroma_format_idc) *)
Definition ParsePps (chroma_format_idc : N) : P pps :=
  id <- ue_max 255 ;;
  sid <- ue_max 31 ;;
  entropy <- ReadBits 1 ;;
  bottom <- ReadBits 1 ;;
  n <- ue_max 7 ;;
  ' (mt, runs, rects, dir, rate, size, ids) <-
    cond (0 <? n) (ParseSliceGroups n) (0, [], [], 0, 0, 0, []) ;;
  l0 <- ue_max 31 ;;
  l1 <- ue_max 31 ;;
  wp <- ReadBits 1 ;;
  wb <- ReadBits 2 ;;
  qp <- ReadSignedExponentialGolomb ;;
  qs <- ReadSignedExponentialGolomb ;;
  cqp <- ReadSignedExponentialGolomb ;;
  dbf <- ReadBits 1 ;;
  cip <- ReadBits 1 ;;
  rpc <- ReadBits 1 ;;
  more <- more_data ;;
  ' (t8, psm, sc, second) <- cond more (ParsePpsExt chroma_format_idc) (0, 0, scal0, 0%Z) ;;
  ignored rbsp_trailing_bits ;;;
  sret (mkpps chroma_format_idc id sid entropy bottom n mt runs rects dir rate size ids
          l0 l1 wp wb qp qs cqp dbf cip rpc t8 psm sc second).
