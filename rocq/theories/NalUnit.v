(** Model of the NAL unit payload, NAL unit and bitstream parsers. *)
From Coq Require Import NArith ZArith List Bool.
From Verif Require Import Base BitBuffer Parser Rbsp Framing TypesSps TypesPps Vui Sps Pps TypesNal
  NalHeader TypesExt Ext TypesSliceHeader SliceHeader TypesSvcSlice SvcSlice TypesNalUnit.
Import ListNotations.
Open Scope N_scope.
Open Scope m_scope.

(** A function of the bit buffer and of what is carried along. *)
Definition M (A : Type) := bb * world -> res A * (bb * world).

(** h264_common.cc:375-383 report_unimplemented *)
Definition report (w : world) : world := mkw (w_st w) (u32 (w_unimplemented w + 1)).
(** x = Parse...(bit_buffer, ...), where a null result is stored like any other. *)
Definition stored {A} (p : P A) : M (option A) := fun '(b, w) =>
  match p b with
  | (Ok a, b') => (Ok (Some a), (b', w))
  | (Null, b') => (Ok None, (b', w))
  | (UB k, b') => (UB k, (b', w))
  | (Abort, b') => (Abort, (b', w))
  | (NoFuel, b') => (NoFuel, (b', w))
  end.
(** The same for a parser that can report unimplemented syntax. *)
Definition storedu {A} (p : pstate -> P (option A)) : M (option A) := fun '(b, w) =>
  match p (w_st w) b with
  | (Ok (Some a), b') => (Ok (Some a), (b', w))
  | (Ok None, b') => (Ok None, (b', report w))
  | (Null, b') => (Ok None, (b', w))
  | (UB k, b') => (UB k, (b', w))
  | (Abort, b') => (Abort, (b', w))
  | (NoFuel, b') => (NoFuel, (b', w))
  end.
(** if (x == nullptr) return nullptr *)
Definition nonnull {A} (o : option A) : M A := match o with Some a => sret a | None => sfail end.
Definition change (f : pstate -> pstate) : M unit :=
  fun '(b, w) => (Ok tt, (b, mkw (f (w_st w)) (w_unimplemented w))).
(** bit reads etc. that fail the caller *)
Definition onbuf {A} (p : P A) : M A := fun '(b, w) => let '(r, b') := p b in (r, (b', w)).

(** h264_slice_layer_without_partitioning_rbsp_parser.cc:40-70
    ParseSliceLayerWithoutPartitioningRbsp; [Ok None] as in [ParseSliceHeader] *)
Definition ParseSliceLayerWithoutPartitioningRbsp (ref nut : N) (st : pstate) : P (option slp) :=
  h <- ParseSliceHeader ref nut st ;;
  sret (match h with Some h => Some (mkslp ref nut h) | None => None end).

(** h264_slice_layer_extension_rbsp_parser.cc:39-87 ParseSliceLayerExtensionRbsp *)
Definition ParseSliceLayerExtensionRbsp (h : nalh) : M (option slext) :=
  let x := mkslext (svc_extension_flag h) (avc_3d_extension_flag h) (nal_ref_idc h)
             (nal_unit_type h) in
  if tob (svc_extension_flag h) then
    v <- storedu (ParseSliceHeaderInScalableExtension h) ;; sret (Some (x None v))
  else if tob (avc_3d_extension_flag h) then sret (Some (x None None))
  else
    v <- storedu (ParseSliceHeader (nal_ref_idc h) (nal_unit_type h)) ;;
    sret (match v with Some v => Some (x (Some v) None) | None => None end).

(** bitstream_parser_state->sps[id] = sps etc. *)
Definition add_sps (s : sps) (st : pstate) : pstate :=
  mkst (minsert (seq_parameter_set_id s) s (st_sps st)) (st_pps st) (st_subset_sps st).
Definition add_pps (p : pps) (st : pstate) : pstate :=
  mkst (st_sps st) (minsert (pps_pic_parameter_set_id p) p (st_pps st)) (st_subset_sps st).
Definition add_subset_sps (s : subsps) (st : pstate) : pstate :=
  mkst (st_sps st) (st_pps st)
    (minsert (seq_parameter_set_id (ss_sps s)) s (st_subset_sps st)).

(** h264_nal_unit_payload_parser.cc:56-199 ParseNalUnitPayload; never null *)
Definition ParseNalUnitPayload (h : nalh) : M payload :=
  let t := nal_unit_type h in
  if (t =? 1) || (t =? 5) then
    s <- storedu (ParseSliceLayerWithoutPartitioningRbsp (nal_ref_idc h) t) ;;
    sret (mkpayload s None None None None None)
  else if t =? 7 then
    s <- stored ParseSps ;;
    (match s with Some s => change (add_sps s) | None => sret tt end) ;;;
    sret (mkpayload None s None None None None)
  else if t =? 8 then
    p <- stored (ParsePps 1) ;;
    (match p with Some p => change (add_pps p) | None => sret tt end) ;;;
    sret (mkpayload None None p None None None)
  else if t =? 14 then
    (* lines 136-148 *)
    if tob (svc_extension_flag h) then
      match nal_svc h with
      | Some e =>
          p <- storedu (fun _ => ParsePrefixNalUnitRbsp (svc_extension_flag h) (nal_ref_idc h)
                                   (svc_use_ref_base_pic_flag e) (svc_idr_flag e)) ;;
          sret (mkpayload None None None p None None)
      | None => sret (mkpayload None None None None None None)
      end
    else sret (mkpayload None None None None None None)
  else if t =? 15 then
    s <- stored ParseSubsetSps ;;
    (match s with Some s => change (add_subset_sps s) | None => sret tt end) ;;;
    sret (mkpayload None None None None s None)
  else if t =? 20 then
    x <- ParseSliceLayerExtensionRbsp h ;; sret (mkpayload None None None None None x)
  else sret (mkpayload None None None None None None).

(** h264_nal_unit_payload_parser.cc:42-54: the overload with nal_ref_idc and nal_unit_type *)
Definition ParseNalUnitPayloadType (ref nut : N) : M payload :=
  ParseNalUnitPayload (mknalh 0 ref nut 0 0 None).

Definition some {A} (o : option A) : bool := match o with Some _ => true | None => false end.
(** h264_nal_unit_payload_parser.cc:201-221 IsPayloadParsed *)
Definition IsPayloadParsed (p : payload) (nut : N) : bool :=
  if nut =? 7 then some (pl_sps p)
  else if nut =? 8 then some (pl_pps p)
  else if nut =? 15 then some (pl_subset_sps p)
  else if nut =? 14 then some (pl_prefix p)
  else if (nut =? 1) || (nut =? 5) then some (pl_slice p)
  else if nut =? 20 then some (pl_slice_ext p)
  else true.

(** ParseNalUnitHeader as called by its users: null, with or without a report, makes them
    return null. *)
Definition nal_header : M nalh := h <- storedu (fun _ => ParseNalUnitHeader) ;; nonnull h.

(** h264_nal_unit_parser.cc:52-89 ParseNalUnit on a bit buffer; [ck] is
    parsing_options.add_checksum, the only option read. *)
Definition ParseNalUnit (ck : bool) : M nalu :=
  c <- (if ck then c <- onbuf GetNaluChecksum ;; sret (Some c) else sret None) ;;
  h <- nal_header ;;
  p <- ParseNalUnitPayload h ;;
  fun '(b, w) => (Ok (mknalu h p (get_current_offset b) c), (b, w)).

(** The byte-level entry points all start the same way, e.g. h264_nal_unit_parser.cc:46-49:
    UnescapeRbsp(data, length), a BitBuffer over the result, and the parser. *)
Definition with_buffer {A} (asserts : bool) (m : M A) (bytes : list N) (w : world)
  : res A * world :=
  match bb_new asserts bytes with
  | Ok b => let '(r, (_, w')) := m (b, w) in (r, w')
  | UB k => (UB k, w)
  | Null | Abort => (Abort, w)
  | NoFuel => (NoFuel, w)
  end.
Definition unescaping {A} (asserts : bool) (m : M A) (data : list N) (len : N) (w : world)
  : res A * world :=
  match UnescapeRbsp data len with
  | Ok bytes => with_buffer asserts m bytes w
  | UB k => (UB k, w)
  | Null | Abort => (Abort, w)
  | NoFuel => (NoFuel, w)
  end.
(** h264_nal_unit_parser.cc:40-50 ParseNalUnit(data, length, ...) *)
Definition ParseNalUnitBytes (asserts ck : bool) : list N -> N -> world -> res nalu * world :=
  unescaping asserts (ParseNalUnit ck).
(** h264_nal_unit_parser.cc:29-37 ParseNalUnitUnescaped; the buffer is exactly [data] *)
Definition ParseNalUnitUnescaped (asserts ck : bool) : list N -> world -> res nalu * world :=
  with_buffer asserts (ParseNalUnit ck).
(** &data[i] *)
Definition at_offset (data : list N) (i : N) : list N := skipn (N.to_nat i) data.

(** h264_bitstream_parser.cc:145-163: the loop of ParseBitstream.  An entry is a unit with
    its offset and length fields. *)
Fixpoint bitstream_loop (asserts ck : bool) (data : list N) (ix : list nalu_index) (w : world)
  : res (list (nalu * N * N)) * world :=
  match ix with
  | [] => (Ok [], w)
  | x :: t =>
      match ParseNalUnitBytes asserts ck (at_offset data (ni_payload x)) (ni_size x) w with
      | (Ok u, w') =>
          match bitstream_loop asserts ck data t w' with
          | (Ok l, w'') => (Ok ((u, ni_payload x, ni_size x) :: l), w'')
          | r => r
          end
      | (Null, w') => bitstream_loop asserts ck data t w'
      | (UB k, w') => (UB k, w')
      | (Abort, w') => (Abort, w')
      | (NoFuel, w') => (NoFuel, w')
      end
  end.
(** h264_bitstream_parser.cc:127-165 ParseBitstream *)
Definition ParseBitstream (asserts ck : bool) (data : list N) (len : N) (w : world)
  : res (list (nalu * N * N)) * world :=
  match FindNaluIndices data len with
  | Ok ix => bitstream_loop asserts ck data ix w
  | UB k => (UB k, w)
  | Null | Abort => (Abort, w)
  | NoFuel => (NoFuel, w)
  end.
(** h264_bitstream_parser.cc:193-249 ParseBitstreamNALULength *)
Definition ParseBitstreamNALULength (asserts ck : bool) (data : list N) (len nlb : N) (w : world)
  : res (list (nalu * N * N)) * world :=
  nalu_length_loop (fun i n => ParseNalUnitBytes asserts ck (at_offset data i) n)
    (length data) data len nlb 0 [] w.

(** include/h264_bitstream_parser_state.h:20-49: a new state; h264_common.cc:389-391
    reset_unimplemented_count *)
Definition new_state : pstate := mkst [] [] [].
Definition reset_unimplemented_count (w : world) : world := mkw (w_st w) 0.
