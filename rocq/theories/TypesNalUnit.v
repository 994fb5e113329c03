(** Parsed NAL units, and what the parser carries from one to the next. *)
From Coq Require Import NArith ZArith List.
From Verif Require Import TypesSps TypesPps TypesNal TypesExt TypesSlice TypesSliceHeader TypesSvcSlice.
Import ListNotations.
Open Scope N_scope.

(** include/h264_slice_layer_without_partitioning_rbsp_parser.h:24-51 *)
Record slp := mkslp {
  sl_nal_ref_idc : N;
  sl_nal_unit_type : N;
  sl_slice_header : slh
}.
(** include/h264_slice_layer_extension_rbsp_parser.h:26-60.  The headers are pointers that
    may be null. *)
Record slext := mkslext {
  sx_svc_extension_flag : N;
  sx_avc_3d_extension_flag : N;
  sx_nal_ref_idc : N;
  sx_nal_unit_type : N;
  sx_slice_header : option slh;
  sx_svc_slice_header : option svh
}.
(** include/h264_nal_unit_payload_parser.h:29-63: pointers, null unless parsed. *)
Record payload := mkpayload {
  pl_slice : option slp;
  pl_sps : option sps;
  pl_pps : option pps;
  pl_prefix : option prefix;
  pl_subset_sps : option subsps;
  pl_slice_ext : option slext
}.
(** include/h264_nal_unit_parser.h:24-51 NalUnitState, except offset and length, which
    nobody but the bitstream parser sets.  The checksum is null unless asked for. *)
Record nalu := mknalu {
  nu_header : nalh;
  nu_payload : payload;
  nu_parsed_length : N;
  nu_checksum : option (list N)
}.
(** H264BitstreamParserState, and the global counter unimplemented_count
    (h264_common.cc:372), a uint32_t. *)
Record world := mkw {
  w_st : pstate;
  w_unimplemented : N
}.
