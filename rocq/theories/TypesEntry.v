(** The parsers of single syntax structures that take bytes: what each is called with and what
    it returns. *)
From Coq Require Import NArith List.
From Verif Require Import TypesSps TypesPps TypesNal TypesExt TypesSlice TypesSliceHeader TypesSvcSlice TypesNalUnit.
Open Scope N_scope.

(** Each constructor is a static member function of the header of that name under /repo/include,
    the overload with [const uint8_t* data, size_t length]. *)
Inductive structure : Type -> Type :=
| HrdParameters : structure hrd
| VuiParameters : structure vui
| SpsData : structure sps
| Sps : structure sps
| Pps (chroma_format_idc : N) : structure pps
| SpsExtension : structure spsext
| SpsSvcExtension (ChromaArrayType : N) : structure spssvc
| SubsetSps : structure subsps
| NalUnitHeader : structure nalh
| NalUnitHeaderSvcExtension : structure svc_ext
| PrefixNalUnitSvc (nal_ref_idc use_ref_base_pic_flag idr_flag : N) : structure prefsvc
| PrefixNalUnitRbsp (svc_extension_flag nal_ref_idc use_ref_base_pic_flag idr_flag : N) : structure prefix
| RefPicListModification (slice_type : N) : structure rplm
| PredWeightTable (chroma_array_type slice_type num_ref_idx_l0_active_minus1
    num_ref_idx_l1_active_minus1 : N) : structure pwt
| DecRefPicMarking (IdrPicFlag : N) : structure drpm
| SliceHeader (nal_ref_idc nal_unit_type : N) : structure slh
| SliceLayerWithoutPartitioning (nal_ref_idc nal_unit_type : N) : structure slp
| SliceHeaderInScalableExtension (h : nalh) : structure svh
| SliceLayerExtension (h : nalh) : structure slext
| NalUnitPayload (h : nalh) : structure payload.
