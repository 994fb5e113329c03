(** Specification: nal_unit_header syntax (H.264 7.3.1) and
    nal_unit_header_svc_extension() (G.7.3.1.1). *)
From Coq Require Import NArith ZArith List Bool.
From Verif Require Import SpecBits SpecVui TypesNal.
Import ListNotations.
Open Scope N_scope.

Definition enc_svc_ext (e : svc_ext) : list bool :=
  u_bits 1 (svc_idr_flag e) ++ u_bits 6 (svc_priority_id e) ++
  u_bits 1 (svc_no_inter_layer_pred_flag e) ++ u_bits 3 (svc_dependency_id e) ++
  u_bits 4 (svc_quality_id e) ++ u_bits 3 (svc_temporal_id e) ++
  u_bits 1 (svc_use_ref_base_pic_flag e) ++ u_bits 1 (svc_discardable_flag e) ++
  u_bits 1 (svc_output_flag e) ++ u_bits 2 (svc_reserved_three_2bits e).
Definition valid_svc_ext (e : svc_ext) : Prop :=
  is_u 1 (svc_idr_flag e) /\ is_u 6 (svc_priority_id e) /\
  is_u 1 (svc_no_inter_layer_pred_flag e) /\ is_u 3 (svc_dependency_id e) /\
  is_u 4 (svc_quality_id e) /\ is_u 3 (svc_temporal_id e) /\
  is_u 1 (svc_use_ref_base_pic_flag e) /\ is_u 1 (svc_discardable_flag e) /\
  is_u 1 (svc_output_flag e) /\ is_u 2 (svc_reserved_three_2bits e).

(** The first byte. *)
Definition enc_nal_byte (f r t : N) : list bool := u_bits 1 f ++ u_bits 2 r ++ u_bits 5 t.

(** A header with no extension, or with the SVC extension. *)
Definition enc_nalh (h : nalh) : list bool :=
  enc_nal_byte (forbidden_zero_bit h) (nal_ref_idc h) (nal_unit_type h) ++
  match nal_svc h with
  | Some e => [true] ++ enc_svc_ext e
  | None => []
  end.
Definition valid_nalh (h : nalh) : Prop :=
  is_u 1 (forbidden_zero_bit h) /\ is_u 2 (nal_ref_idc h) /\ is_u 5 (nal_unit_type h) /\
  avc_3d_extension_flag h = 0 /\
  match nal_svc h with
  | Some e => (nal_unit_type h = 14 \/ nal_unit_type h = 20) /\
              svc_extension_flag h = 1 /\ valid_svc_ext e
  | None => nal_unit_type h <> 14 /\ nal_unit_type h <> 20 /\ nal_unit_type h <> 21 /\
            svc_extension_flag h = 0
  end.
(** What announces an MVC extension (types 14 and 20 with svc_extension_flag 0, type 21 with
    avc_3d_extension_flag 0) or a 3D-AVC extension (type 21 with flag 1). *)
Definition announces_other_ext (c : list bool) : Prop :=
  exists f r t x, is_u 1 f /\ is_u 2 r /\ c = enc_nal_byte f r t ++ [x] /\
  ((t = 14 /\ x = false) \/ (t = 20 /\ x = false) \/ t = 21).
