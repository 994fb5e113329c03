(** The parsers of single syntax structures called on bytes.  In each of the files below, the
    overload with [data] and [length] is UnescapeRbsp(data, length), a BitBuffer over the result,
    and the overload for bit buffers with the remaining arguments. *)
From Coq Require Import NArith List.
From Verif Require Import Base Parser TypesSps TypesPps Sps Pps Vui TypesNal NalHeader TypesExt Ext
  TypesSlice SliceParts TypesSliceHeader SliceHeader TypesSvcSlice SvcSlice TypesNalUnit NalUnit TypesEntry.
Import ListNotations.
Open Scope N_scope.

(** if a parser that can report unimplemented syntax returns null, so does the caller *)
Definition maybe {A} (p : pstate -> P (option A)) : M A := x <- storedu p ;; nonnull x.

Definition on_bits {A} (e : structure A) : M A :=
  match e in structure A return M A with
  (* h264_hrd_parameters_parser.cc:22-29 *)
  | HrdParameters => onbuf ParseHrdParameters
  (* h264_vui_parameters_parser.cc:22-29 *)
  | VuiParameters => onbuf ParseVuiParameters
  (* h264_sps_parser.cc:24-30 *)
  | SpsData => onbuf ParseSpsData
  (* h264_sps_parser.cc:708-714 *)
  | Sps => onbuf ParseSps
  (* h264_pps_parser.cc:23-29 *)
  | Pps cfi => onbuf (ParsePps cfi)
  (* h264_sps_extension_parser.cc:29-36 *)
  | SpsExtension => onbuf ParseSpsExtension
  (* h264_sps_svc_extension_parser.cc:21-28 *)
  | SpsSvcExtension cat => onbuf (ParseSpsSvcExtension cat)
  (* h264_subset_sps_parser.cc:29-36 *)
  | SubsetSps => onbuf ParseSubsetSps
  (* h264_nal_unit_header_parser.cc:22-30 *)
  | NalUnitHeader => maybe (fun _ => ParseNalUnitHeader)
  (* h264_nal_unit_header_svc_extension_parser.cc:21-31 *)
  | NalUnitHeaderSvcExtension => onbuf ParseNalUnitHeaderSvcExtension
  (* h264_prefix_nal_unit_parser.cc:24-33 *)
  | PrefixNalUnitSvc ref use idr => maybe (fun _ => ParsePrefixNalUnitSvc ref use idr)
  (* h264_prefix_nal_unit_parser.cc:99-109 *)
  | PrefixNalUnitRbsp f ref use idr => maybe (fun _ => ParsePrefixNalUnitRbsp f ref use idr)
  (* h264_ref_pic_list_modification_parser.cc:22-30 *)
  | RefPicListModification st => onbuf (ParseRefPicListModification st)
  (* h264_pred_weight_table_parser.cc:22-33 *)
  | PredWeightTable cat st n0 n1 => onbuf (ParsePredWeightTable cat st n0 n1)
  (* h264_dec_ref_pic_marking_parser.cc:22-29 *)
  | DecRefPicMarking idr => onbuf (ParseDecRefPicMarking idr)
  (* h264_slice_header_parser.cc:30-40 *)
  | SliceHeader ref nut => maybe (ParseSliceHeader ref nut)
  (* h264_slice_layer_without_partitioning_rbsp_parser.cc:26-38 *)
  | SliceLayerWithoutPartitioning ref nut => maybe (ParseSliceLayerWithoutPartitioningRbsp ref nut)
  (* h264_slice_header_in_scalable_extension_parser.cc:33-44 *)
  | SliceHeaderInScalableExtension h => maybe (ParseSliceHeaderInScalableExtension h)
  (* h264_slice_layer_extension_rbsp_parser.cc:27-37 *)
  | SliceLayerExtension h => x <- ParseSliceLayerExtensionRbsp h ;; nonnull x
  (* h264_nal_unit_payload_parser.cc:28-39 *)
  | NalUnitPayload h => ParseNalUnitPayload h
  end.

Definition ParseBytes {A} (asserts : bool) (e : structure A) : list N -> N -> world -> res A * world :=
  unescaping asserts (on_bits e).
