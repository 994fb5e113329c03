(** Model of the SPS extension, subset SPS and prefix NAL unit parsers. *)
From Coq Require Import NArith ZArith List Bool.
From Verif Require Import Base BitBuffer Rbsp Parser TypesSps Vui Sps Pps TypesExt.
Import ListNotations.
Open Scope N_scope.
Open Scope m_scope.

(** h264_sps_extension_parser.cc:43-116: the fields *)
Definition ParseSpsExtensionData : P spsext :=
  id <- ue_max 31 ;;
  aux <- ReadExponentialGolomb ;;
  ' (depth, incr, opaque, transparent) <-
    cond (negb (aux =? 0))
      (depth <- ue_max 4 ;;
       incr <- ReadBits 1 ;;
       opaque <- ReadBits (depth + 9) ;;
       transparent <- ReadBits (depth + 9) ;;
       sret (depth, incr, opaque, transparent)) (0, 0, 0, 0) ;;
  add <- ReadBits 1 ;;
  sret (mkspsext id aux depth incr opaque transparent add).
(** h264_sps_extension_parser.cc:38-121 ParseSpsExtension *)
Definition ParseSpsExtension : P spsext :=
  e <- ParseSpsExtensionData ;; ignored rbsp_trailing_bits ;;; sret e.

(** h264_sps_svc_extension_parser.cc:30-131 ParseSpsSvcExtension *)
Definition ParseSpsSvcExtension (cat : N) : P spssvc :=
  ildf <- ReadBits 1 ;;
  ess <- ReadBits 2 ;;
  cx <- cond ((cat =? 1) || (cat =? 2)) (ReadBits 1) 0 ;;
  cy <- cond (cat =? 1) (ReadBits 2) 0 ;;
  ' (rx, ry, l, t, r, bo) <-
    cond (ess =? 1)
      (' (rx, ry) <- cond (0 <? cat)
         (rx <- ReadBits 1 ;; ry <- ReadBits 2 ;; sret (rx, ry)) (0, 0) ;;
       l <- ReadSignedExponentialGolomb ;;
       t <- ReadSignedExponentialGolomb ;;
       r <- ReadSignedExponentialGolomb ;;
       bo <- ReadSignedExponentialGolomb ;;
       sret (rx, ry, l, t, r, bo)) (0, 0, 0%Z, 0%Z, 0%Z, 0%Z) ;;
  tc <- ReadBits 1 ;;
  ad <- cond (tc =? 1) (ReadBits 1) 0 ;;
  shr <- ReadBits 1 ;;
  sret (mkspssvc cat ildf ess cx cy rx ry l t r bo tc ad shr).

(** while (more_rbsp_data(bit_buffer)) { ReadBits(1, x) }, keeping the last x.  Each round
    reads one bit, so the fuel (one more than the bits left) suffices. *)
Fixpoint drain_fuel (fuel : nat) (x : N) : P N :=
  match fuel with
  | O => fun b => (NoFuel, b)
  | S k => more <- more_data ;; if more then y <- ReadBits 1 ;; drain_fuel k y else sret x
  end.
Definition drain (x : N) : P N :=
  fun b => drain_fuel (S (N.to_nat (RemainingBitCount b))) x b.

(** h264_subset_sps_parser.cc:52-110: the part that depends on profile_idc.  The MVC, MVCD
    and 3D-AVC extensions and the VUI extensions are TODOs in the C++: nothing is read for
    them. *)
Definition ParseSubsetExt (s : sps) : P (option spssvc * N * N * N) :=
  let p := profile_idc s in
  if (p =? 83) || (p =? 86) then
    svc <- ParseSpsSvcExtension
             (getChromaArrayType (chroma_format_idc s) (separate_colour_plane_flag s)) ;;
    vui <- ReadBits 1 ;;
    sret (Some svc, vui, 0, 0)
  else if (p =? 118) || (p =? 128) || (p =? 134) then
    one <- ReadBits 1 ;; vui <- ReadBits 1 ;; sret (None, 0, one, vui)
  else if (p =? 138) || (p =? 135) then one <- ReadBits 1 ;; sret (None, 0, one, 0)
  else if p =? 139 then one <- ReadBits 1 ;; sret (None, 0, one, 0)
  else sret (None, 0, 0, 0).
(** h264_subset_sps_parser.cc:38-130 ParseSubsetSps *)
Definition ParseSubsetSps : P subsps :=
  s <- ParseSpsData ;;
  ' (svc, vui, one, mvui) <- ParseSubsetExt s ;;
  add <- ReadBits 1 ;;
  data <- cond (add =? 1) (drain 0) 0 ;;
  ignored rbsp_trailing_bits ;;;
  sret (mksubsps s svc vui one mvui add data).

(** h264_prefix_nal_unit_parser.cc:35-97 ParsePrefixNalUnitSvc.  [Ok None]: line 60,
    report_unimplemented called once and nullptr returned. *)
Definition ParsePrefixNalUnitSvc (ref use idr : N) : P (option prefsvc) :=
  if negb (ref =? 0) then
    store <- ReadBits 1 ;;
    if (tob use || tob store) && negb (tob idr) then sret None
    else
      add <- ReadBits 1 ;;
      data <- (if add =? 1 then x <- drain 0 ;; ignored rbsp_trailing_bits ;;; sret x
               else
                 more <- more_data ;;
                 cond more (x <- drain 0 ;; ignored rbsp_trailing_bits ;;; sret x) 0) ;;
      sret (Some (mkprefsvc ref use idr store add data))
  else sret (Some (mkprefsvc ref use idr 0 0 0)).
(** h264_prefix_nal_unit_parser.cc:111-139 ParsePrefixNalUnitRbsp *)
Definition ParsePrefixNalUnitRbsp (svcf ref use idr : N) : P (option prefix) :=
  if svcf =? 1 then
    r <- ParsePrefixNalUnitSvc ref use idr ;;
    sret (match r with
          | Some v => Some (mkprefix svcf ref use idr (Some v))
          | None => None
          end)
  else sret (Some (mkprefix svcf ref use idr None)).
