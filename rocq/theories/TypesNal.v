(** Parsed NAL unit headers and their extensions. *)
From Coq Require Import NArith.
Open Scope N_scope.

(** include/h264_nal_unit_header_svc_extension_parser.h:19-45 *)
Record svc_ext := mksvc {
  svc_idr_flag : N;
  svc_priority_id : N;
  svc_no_inter_layer_pred_flag : N;
  svc_dependency_id : N;
  svc_quality_id : N;
  svc_temporal_id : N;
  svc_use_ref_base_pic_flag : N;
  svc_discardable_flag : N;
  svc_output_flag : N;
  svc_reserved_three_2bits : N
}.

(** include/h264_nal_unit_header_parser.h:21-42 *)
Record nalh := mknalh {
  forbidden_zero_bit : N;
  nal_ref_idc : N;
  nal_unit_type : N;
  svc_extension_flag : N;
  avc_3d_extension_flag : N;
  nal_svc : option svc_ext
}.
