(** Model of the RTP packet parsers (RFC 6184). *)
From Coq Require Import NArith ZArith List Bool.
From Verif Require Import Base BitBuffer Parser TypesNal NalHeader TypesNalUnit NalUnit.
Import ListNotations.
Open Scope N_scope.
Open Scope m_scope.

(** include/h264_rtp_single_parser.h:22-40 *)
Record rtp_single := mkrtp_single {
  rs_header : nalh;
  rs_payload : payload
}.
(** include/h264_rtp_stapa_parser.h:22-47 *)
Record rtp_stapa := mkrtp_stapa {
  ra_header : nalh;
  ra_nal_unit_sizes : list N;
  ra_nal_unit_headers : list nalh;
  ra_nal_unit_payloads : list payload
}.
(** include/h264_rtp_fua_parser.h:21-50; the payload pointer is null unless s_bit is set *)
Record rtp_fua := mkrtp_fua {
  rf_nal_ref_idc : N;
  rf_header : nalh;
  rf_s_bit : N;
  rf_e_bit : N;
  rf_r_bit : N;
  rf_fu_type : N;
  rf_payload : option payload
}.
(** include/h264_rtp_parser.h:23-42; at most one of the pointers is not null *)
Record rtp := mkrtp {
  rp_header : nalh;
  rp_single : option rtp_single;
  rp_stapa : option rtp_stapa;
  rp_fua : option rtp_fua
}.

(** h264_rtp_single_parser.cc:32-57 ParseRtpSingle *)
Definition ParseRtpSingle : M rtp_single :=
  h <- nal_header ;;
  p <- ParseNalUnitPayload h ;;
  sret (mkrtp_single h p).

(** h264_rtp_stapa_parser.cc:50-83: the loop, with the three vectors reversed.  Every round
    reads at least the 16 bits of the size. *)
Fixpoint stapa_loop (fuel : nat) (ss : list N) (hs : list nalh) (ps : list payload)
  : M (list N * list nalh * list payload) := fun '(b, w) =>
  if 0 <? RemainingBitCount b then
    match fuel with
    | O => (NoFuel, (b, w))
    | S f =>
      (size <- onbuf (ReadBits 16) ;;
       onbuf (fun b => guard (negb (RemainingBitCount b <? size * 8)) b) ;;;
       h <- nal_header ;;
       p <- ParseNalUnitPayload h ;;
       stapa_loop f (size :: ss) (h :: hs) (p :: ps)) (b, w)
    end
  else (Ok (rev ss, rev hs, rev ps), (b, w)).
(** h264_rtp_stapa_parser.cc:34-86 ParseRtpStapA *)
Definition ParseRtpStapA : M rtp_stapa :=
  h <- nal_header ;;
  ' (ss, hs, ps) <- (fun '(b, w) => stapa_loop (S (length (bb_bytes b))) [] [] [] (b, w)) ;;
  sret (mkrtp_stapa h ss hs ps).

(** h264_rtp_fua_parser.cc:32-75 ParseRtpFuA *)
Definition ParseRtpFuA (ref : N) : M rtp_fua :=
  h <- nal_header ;;
  s <- onbuf (ReadBits 1) ;;
  e <- onbuf (ReadBits 1) ;;
  r <- onbuf (ReadBits 1) ;;
  t <- onbuf (ReadBits 5) ;;
  if s =? 0 then sret (mkrtp_fua ref h s e r t None)
  else p <- ParseNalUnitPayloadType ref t ;; sret (mkrtp_fua ref h s e r t (Some p)).

(** h264_rtp_parser.cc:32-75 ParseRtp.  The result of Seek(0, 0) is ignored. *)
Definition ParseRtp : M rtp :=
  h <- nal_header ;;
  onbuf (fun b => (Ok tt, snd (Seek 0 0 b))) ;;;
  let t := nal_unit_type h in
  if t <=? 23 then p <- ParseRtpSingle ;; sret (mkrtp h (Some p) None None)
  else if t =? 24 then p <- ParseRtpStapA ;; sret (mkrtp h None (Some p) None)
  else if t =? 28 then p <- ParseRtpFuA (nal_ref_idc h) ;; sret (mkrtp h None None (Some p))
  else sret (mkrtp h None None None).
(** h264_rtp_parser.cc:24-30 ParseRtp(data, length, ...) *)
Definition ParseRtpBytes (asserts : bool) : list N -> N -> world -> res rtp * world :=
  unescaping asserts ParseRtp.
