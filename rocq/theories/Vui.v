(** Model of the HRD and VUI parameter parsers. *)
From Coq Require Import NArith ZArith List Bool.
From Verif Require Import Base BitBuffer Parser TypesSps.
Import ListNotations.
Open Scope N_scope.
Open Scope m_scope.

(** h264_hrd_parameters_parser.cc:31-112 ParseHrdParameters(BitBuffer* ) *)
Definition ParseHrdParameters : P hrd :=
  cnt <- ue_max 31 ;;
  brs <- ReadBits 4 ;;
  css <- ReadBits 4 ;;
  sched <- rep (N.to_nat (cnt + 1))
    (br <- ReadExponentialGolomb ;; cs <- ReadExponentialGolomb ;;
     cbr <- ReadBits 1 ;; sret (br, cs, cbr)) ;;
  icrd <- ReadBits 5 ;;
  crd <- ReadBits 5 ;;
  dod <- ReadBits 5 ;;
  tol <- ReadBits 5 ;;
  sret (mkhrd cnt brs css sched icrd crd dod tol).

(** [hrd = ParseHrdParameters(...); if (hrd == nullptr) return nullptr;] *)
Definition some_of {A} (p : P A) : P (option A) := x <- p ;; sret (Some x).

(** h264_vui_parameters_parser.cc:31-347 ParseVuiParameters(BitBuffer* ).
    AR_EXTENDED_SAR is 255. *)
Definition ParseVuiParameters : P vui :=
  aspect_flag <- ReadBits 1 ;;
  ' (idc, sarw, sarh) <- cond (tob aspect_flag)
    (idc <- ReadBits 8 ;;
     ' (w, h) <- cond (idc =? 255) (w <- ReadBits 16 ;; h <- ReadBits 16 ;; sret (w, h))
                      (0, 0) ;;
     sret (idc, w, h)) (0, 0, 0) ;;
  overscan_flag <- ReadBits 1 ;;
  overscan_app <- cond (tob overscan_flag) (ReadBits 1) 0 ;;
  signal_flag <- ReadBits 1 ;;
  ' (vf, fr, cdf, cp, tc, mc) <- cond (tob signal_flag)
    (vf <- ReadBits 3 ;;
     fr <- ReadBits 1 ;;
     cdf <- ReadBits 1 ;;
     ' (cp, tc, mc) <- cond (tob cdf)
       (cp <- ReadBits 8 ;; tc <- ReadBits 8 ;; mc <- ReadBits 8 ;; sret (cp, tc, mc))
       (0, 0, 0) ;;
     sret (vf, fr, cdf, cp, tc, mc)) (0, 0, 0, 0, 0, 0) ;;
  chroma_loc_flag <- ReadBits 1 ;;
  ' (top, bottom) <- cond (tob chroma_loc_flag)
    (top <- ue_max 5 ;; bottom <- ue_max 5 ;; sret (top, bottom)) (0, 0) ;;
  timing_flag <- ReadBits 1 ;;
  ' (units, scale, fixed) <- cond (tob timing_flag)
    (units <- ReadBits 32 ;;
     guard (negb (units <? 1)) ;;;
     scale <- ReadBits 32 ;;
     guard (negb (scale <? 1)) ;;;
     fixed <- ReadBits 1 ;;
     sret (units, scale, fixed)) (0, 0, 0) ;;
  nal_hrd_flag <- ReadBits 1 ;;
  nal_hrd <- cond (tob nal_hrd_flag) (some_of ParseHrdParameters) None ;;
  vcl_hrd_flag <- ReadBits 1 ;;
  vcl_hrd <- cond (tob vcl_hrd_flag) (some_of ParseHrdParameters) None ;;
  low_delay <- cond (tob nal_hrd_flag || tob vcl_hrd_flag) (ReadBits 1) 0 ;;
  pic_struct <- ReadBits 1 ;;
  restriction_flag <- ReadBits 1 ;;
  ' (mvo, mbpp, mbpm, mvh, mvv, reorder, buffering) <- cond (tob restriction_flag)
    (mvo <- ReadBits 1 ;;
     mbpp <- ue_max 16 ;;
     mbpm <- ue_max 16 ;;
     mvh <- ue_max 16 ;;
     mvv <- ue_max 16 ;;
     reorder <- ue_max 16 ;;
     buffering <- ue_max 16 ;;
     sret (mvo, mbpp, mbpm, mvh, mvv, reorder, buffering)) (0, 0, 0, 0, 0, 0, 0) ;;
  sret (mkvui aspect_flag idc sarw sarh overscan_flag overscan_app signal_flag vf fr cdf
          cp tc mc chroma_loc_flag top bottom timing_flag units scale fixed
          nal_hrd_flag nal_hrd vcl_hrd_flag vcl_hrd low_delay pic_struct
          restriction_flag mvo mbpp mbpm mvh mvv reorder buffering).
