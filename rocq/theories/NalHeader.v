(** Model of the NAL unit header parser. *)
From Coq Require Import NArith ZArith List Bool.
From Verif Require Import Base BitBuffer Parser TypesNal.
Import ListNotations.
Open Scope N_scope.
Open Scope m_scope.

(** h264_nal_unit_header_svc_extension_parser.cc:33-94 ParseNalUnitHeaderSvcExtension *)
Definition ParseNalUnitHeaderSvcExtension : P svc_ext :=
  idr <- ReadBits 1 ;;
  prio <- ReadBits 6 ;;
  nil <- ReadBits 1 ;;
  dep <- ReadBits 3 ;;
  qual <- ReadBits 4 ;;
  temp <- ReadBits 3 ;;
  use <- ReadBits 1 ;;
  disc <- ReadBits 1 ;;
  out <- ReadBits 1 ;;
  res <- ReadBits 2 ;;
  sret (mksvc idr prio nil dep qual temp use disc out res).

(** h264_nal_unit_header_parser.cc:44-114 ParseNalUnitHeader.  [Ok None] stands for
    "report_unimplemented called once, nullptr returned" (lines 97-110); [Null] is nullptr
    without such a report. *)
Definition ParseNalUnitHeader : P (option nalh) :=
  f <- ReadBits 1 ;;
  r <- ReadBits 2 ;;
  t <- ReadBits 5 ;;
  if (t =? 14) || (t =? 20) || (t =? 21) then
    svc <- cond (negb (t =? 21)) (ReadBits 1) 0 ;;
    avc <- cond (t =? 21) (ReadBits 1) 0 ;;
    if tob svc then
      e <- ParseNalUnitHeaderSvcExtension ;;
      sret (Some (mknalh f r t svc avc (Some e)))
    else if tob avc then sret None
    else sret None
  else sret (Some (mknalh f r t 0 0 None)).

(** h264_nal_unit_header_parser.cc:32-42 GetNalUnitType: [Some t] is true with naluType = t,
    [None] is false (possibly with an unimplemented report).  The bytes are not
    unescaped. *)
Definition GetNalUnitType (asserts : bool) (data : list N) : res (option N) :=
  match fst (ParseNalUnitHeader (mkbb data 0 0 asserts)) with
  | Ok (Some h) => Ok (Some (nal_unit_type h))
  | Ok None | Null => Ok None
  | UB k => UB k
  | Abort => Abort
  | NoFuel => NoFuel
  end.
