(** The project's own unit tests (/repo/test), run on the model: evidence that the model
    computes what the code computes on the inputs its authors chose.  Each [Example] gives
    the bytes of one test to the byte-level entry point the test calls and compares every
    value the test compares.  These are tests of the model, not proofs of properties. *)
From Coq Require Import NArith ZArith List Bool String.
From Verif Require Import Base BitBuffer Parser Rbsp Framing TypesSps TypesPps Vui ScalingList Sps
  Pps TypesNal NalHeader TypesExt Ext TypesSlice SliceParts TypesSliceHeader SliceHeader
  TypesSvcSlice SvcSlice TypesNalUnit NalUnit Rtp NalType Framerate.
Import ListNotations.
Open Scope N_scope.

(** Parse...(data, length, ...): unescape and parse. *)
Definition bytesu {A} (p : P (option A)) (data : list N) (len : N) : res A :=
  match fst (unescaping true (storedu (fun _ => p)) data len (mkw new_state 0)) with
  | Ok (Some a) => Ok a
  | Ok None => Null
  | Null => Null | UB k => UB k | Abort => Abort | NoFuel => NoFuel
  end.
Definition bytes {A} (p : P A) : list N -> N -> res A :=
  bytesu (sbind p (fun a => sret (Some a))).
Definition vals {A} (r : res A) (f : A -> list (list Z)) : option (list (list Z)) :=
  match r with Ok a => Some (f a) | _ => None end.
Definition isNull {A} (r : res A) : bool := match r with Null => true | _ => false end.
Definition n (x : N) : list Z := [Z.of_N x].
Definition z (x : Z) : list Z := [x].
Definition size {A} (l : list A) : list Z := [Z.of_nat (List.length l)].
Definition ptr {A} (o : option A) (f : A -> list Z) : list Z :=
  match o with Some a => f a | None => [] end.
Definition isnull {A} (o : option A) : list Z := match o with Some _ => [0%Z] | None => [1%Z] end.
Definition notnull : list Z := [0%Z].
Definition profile_eq_dec (a b : profile) : {a = b} + {a <> b}.
Proof. decide equality. Defined.
Definition prof (a b : profile) : list Z := if profile_eq_dec a b then [1%Z] else [0%Z].

(** /repo/test/h264_bitstream_parser_unittest.cc *)
Example tv_bitstream_TestSampleBitstream601 : let tv_buffer := [0; 0; 0; 1; 103; 66; 192; 22; 166;
  17; 5; 7; 233; 178; 0; 0; 3; 0; 2; 0; 0; 3; 0; 100; 30; 44; 92; 35; 0; 0; 0; 1; 104; 200; 66; 2;
  50; 200; 0; 0; 0; 1; 101; 136; 130; 6; 120; 140; 80; 0; 28; 171; 142; 0; 2; 251; 49; 192; 0; 95;
  102; 251; 239; 190; 0; 0; 0; 1; 65; 154; 28; 12; 240; 9; 108] in
  vals (fst (ParseBitstream true true tv_buffer 75 (mkw (mkst [] [] []) 0))) (fun v => [
    size v;
    ptr (nth_error v 0) (fun x1 => n (forbidden_zero_bit (nu_header (fst (fst x1)))));
    ptr (nth_error v 0) (fun x2 => n (nal_ref_idc (nu_header (fst (fst x2)))));
    ptr (nth_error v 0) (fun x3 => n (nal_unit_type (nu_header (fst (fst x3)))));
    ptr (nth_error v 0) (fun x4 => ptr (nu_checksum (fst (fst x4))) (fun x5 => map Z.of_N x5));
    ptr (nth_error v 1) (fun x6 => n (forbidden_zero_bit (nu_header (fst (fst x6)))));
    ptr (nth_error v 1) (fun x7 => n (nal_ref_idc (nu_header (fst (fst x7)))));
    ptr (nth_error v 1) (fun x8 => n (nal_unit_type (nu_header (fst (fst x8)))));
    ptr (nth_error v 1) (fun x9 => ptr (nu_checksum (fst (fst x9))) (fun x10 => map Z.of_N x10));
    ptr (nth_error v 2) (fun x11 => n (forbidden_zero_bit (nu_header (fst (fst x11)))));
    ptr (nth_error v 2) (fun x12 => n (nal_ref_idc (nu_header (fst (fst x12)))));
    ptr (nth_error v 2) (fun x13 => n (nal_unit_type (nu_header (fst (fst x13)))));
    ptr (nth_error v 2) (fun x14 => ptr (nu_checksum (fst (fst x14))) (fun x15 => map Z.of_N x15));
    ptr (nth_error v 3) (fun x16 => n (forbidden_zero_bit (nu_header (fst (fst x16)))));
    ptr (nth_error v 3) (fun x17 => n (nal_ref_idc (nu_header (fst (fst x17)))));
    ptr (nth_error v 3) (fun x18 => n (nal_unit_type (nu_header (fst (fst x18)))));
        ptr (nth_error v 3) (fun x19 => ptr (nu_checksum (fst (fst x19))) (fun x20 => map Z.of_N
      x20))])
    = Some ([[4]; [0]; [3]; [7]; [172; 113; 28; 180]; [0]; [3]; [8]; [100; 111; 189; 253]; [0];
    [3]; [5]; [18; 39; 7; 61]; [0]; [2]; [1]; [206; 92; 119; 242]]%Z).
Proof. vm_compute. reflexivity. Qed.
Example tv_bitstream_TestSampleBitstream601Alt : let tv_buffer := [0; 0; 0; 1; 103; 66; 192; 22;
  166; 17; 5; 7; 233; 178; 0; 0; 3; 0; 2; 0; 0; 3; 0; 100; 30; 44; 92; 35; 0; 0; 0; 1; 104; 200;
  66; 2; 50; 200; 0; 0; 0; 1; 101; 136; 130; 6; 120; 140; 80; 0; 28; 171; 142; 0; 2; 251; 49; 192;
  0; 95; 102; 251; 239; 190; 0; 0; 0; 1; 65; 154; 28; 12; 240; 9; 108] in
  vals (fst (ParseBitstream true true tv_buffer 75 (mkw (mkst [] [] []) 0))) (fun v => [
    size v;
    ptr (nth_error v 0) (fun x21 => n (snd (fst x21)));
    ptr (nth_error v 0) (fun x22 => n (snd x22));
    ptr (nth_error v 0) (fun x23 => n (nu_parsed_length (fst (fst x23))));
    ptr (nth_error v 0) (fun x24 => ptr (nu_checksum (fst (fst x24))) (fun x25 => map Z.of_N x25));
    ptr (nth_error v 1) (fun x26 => n (snd (fst x26)));
    ptr (nth_error v 1) (fun x27 => n (snd x27));
    ptr (nth_error v 1) (fun x28 => n (nu_parsed_length (fst (fst x28))));
    ptr (nth_error v 1) (fun x29 => ptr (nu_checksum (fst (fst x29))) (fun x30 => map Z.of_N x30));
    ptr (nth_error v 2) (fun x31 => n (snd (fst x31)));
    ptr (nth_error v 2) (fun x32 => n (snd x32));
    ptr (nth_error v 2) (fun x33 => n (nu_parsed_length (fst (fst x33))));
    ptr (nth_error v 2) (fun x34 => ptr (nu_checksum (fst (fst x34))) (fun x35 => map Z.of_N x35));
    ptr (nth_error v 3) (fun x36 => n (snd (fst x36)));
    ptr (nth_error v 3) (fun x37 => n (snd x37));
    ptr (nth_error v 3) (fun x38 => n (nu_parsed_length (fst (fst x38))));
        ptr (nth_error v 3) (fun x39 => ptr (nu_checksum (fst (fst x39))) (fun x40 => map Z.of_N
      x40))])
    = Some ([[4]; [4]; [24]; [22]; [172; 113; 28; 180]; [32]; [6]; [6]; [100; 111; 189; 253];
    [42]; [22]; [5]; [18; 39; 7; 61]; [68]; [7]; [5]; [206; 92; 119; 242]]%Z).
Proof. vm_compute. reflexivity. Qed.
Example tv_bitstream_TestZeroLengthBitstream : let tv_buffer := [0] in
  vals (fst (ParseBitstream true true tv_buffer 0 (mkw (mkst [] [] []) 0))) (fun v => [
    size v])
  = Some ([[0]]%Z).
Proof. vm_compute. reflexivity. Qed.
Example tv_bitstream_TestTruncatedBitstream : let tv_buffer := [0; 0] in
  vals (fst (ParseBitstream true true tv_buffer 2 (mkw (mkst [] [] []) 0))) (fun v => [
    size v])
  = Some ([[0]]%Z).
Proof. vm_compute. reflexivity. Qed.
Example tv_bitstream_TestMaliciousNaluLength : let tv_buffer := [255; 255; 255; 255; 103; 66] in
  vals (fst (ParseBitstreamNALULength true true tv_buffer 6 4 (mkw (mkst [] [] []) 0))) (fun v => [
    size v])
  = Some ([[0]]%Z).
Proof. vm_compute. reflexivity. Qed.
Example tv_bitstream_TestZeroNaluLength : let tv_buffer := [0; 0; 0; 0; 103; 66] in
  vals (fst (ParseBitstreamNALULength true true tv_buffer 6 4 (mkw (mkst [] [] []) 0))) (fun v => [
    size v])
  = Some ([[0]]%Z).
Proof. vm_compute. reflexivity. Qed.

(** /repo/test/h264_dec_ref_pic_marking_parser_unittest.cc *)
Example tv_dec_ref_pic_marking_TestSampleDecRefPicMarking601IDR : let tv_buffer := [0] in
  vals (bytes (ParseDecRefPicMarking 1) tv_buffer 1) (fun v => [
    n (dr_no_output_of_prior_pics_flag v);
    n (dr_long_term_reference_flag v)])
  = Some ([[0]; [0]]%Z).
Proof. vm_compute. reflexivity. Qed.
Example tv_dec_ref_pic_marking_TestSampleDecRefPicMarking601NonIDR : let tv_buffer := [0] in
  vals (bytes (ParseDecRefPicMarking 0) tv_buffer 1) (fun v => [
    n (dr_adaptive_ref_pic_marking_mode_flag v)])
  = Some ([[0]]%Z).
Proof. vm_compute. reflexivity. Qed.

(** /repo/test/h264_hrd_parameters_parser_unittest.cc *)
Example tv_hrd_parameters_TestSampleHrdParameters601IDR : let tv_buffer := [154; 128; 0; 76; 75;
  64; 0; 38; 37; 175; 214; 184; 30; 48; 98; 36] in
  vals (bytes ParseHrdParameters tv_buffer 16) (fun v => [
    n (cpb_cnt_minus1 v);
    n (bit_rate_scale v);
    n (cpb_size_scale v);
    map (fun y => Z.of_N (fst (fst y))) (sched_sel v);
    map (fun y => Z.of_N (snd (fst y))) (sched_sel v);
    map (fun y => Z.of_N (snd y)) (sched_sel v);
    n (initial_cpb_removal_delay_length_minus1 v);
    n (cpb_removal_delay_length_minus1 v);
    n (dpb_output_delay_length_minus1 v);
    n (time_offset_length v)])
  = Some ([[0]; [3]; [5]; [78124]; [78124]; [0]; [31]; [21]; [21]; [24]]%Z).
Proof. vm_compute. reflexivity. Qed.

(** /repo/test/h264_nal_unit_header_svc_extension_parser_unittest.cc *)
Example tv_nal_unit_header_svc_extension_TestNalUnitHeaderSvcExtension01 : let tv_buffer := [255;
  255; 255] in
  vals (bytes ParseNalUnitHeaderSvcExtension tv_buffer 3) (fun v => [
    n (svc_idr_flag v);
    n (svc_priority_id v);
    n (svc_no_inter_layer_pred_flag v);
    n (svc_dependency_id v);
    n (svc_quality_id v);
    n (svc_temporal_id v);
    n (svc_use_ref_base_pic_flag v);
    n (svc_discardable_flag v);
    n (svc_output_flag v);
    n (svc_reserved_three_2bits v)])
  = Some ([[1]; [63]; [1]; [7]; [15]; [7]; [1]; [1]; [1]; [3]]%Z).
Proof. vm_compute. reflexivity. Qed.
Example tv_nal_unit_header_svc_extension_TestNalUnitHeaderSvcExtensionForeman : let tv_buffer :=
  [129; 0; 46] in
  vals (bytes ParseNalUnitHeaderSvcExtension tv_buffer 3) (fun v => [
    n (svc_idr_flag v);
    n (svc_priority_id v);
    n (svc_no_inter_layer_pred_flag v);
    n (svc_dependency_id v);
    n (svc_quality_id v);
    n (svc_temporal_id v);
    n (svc_use_ref_base_pic_flag v);
    n (svc_discardable_flag v);
    n (svc_output_flag v);
    n (svc_reserved_three_2bits v)])
  = Some ([[1]; [0]; [1]; [0]; [0]; [0]; [1]; [0]; [1]; [3]]%Z).
Proof. vm_compute. reflexivity. Qed.

(** /repo/test/h264_nal_unit_parser_unittest.cc *)
Example tv_nal_unit_TestSampleNalUnit : let tv_buffer := [103] in
  vals (fst (ParseNalUnitBytes true true tv_buffer 1 (mkw (mkst [] [] []) 0))) (fun v => [
    n (nu_parsed_length v);
    ptr (nu_checksum v) (fun x41 => map Z.of_N x41);
    n (forbidden_zero_bit (nu_header v));
    n (nal_ref_idc (nu_header v));
    n (nal_unit_type (nu_header v));
    notnull])
  = Some ([[1]; [152; 255; 255; 255]; [0]; [3]; [7]; [0]]%Z).
Proof. vm_compute. reflexivity. Qed.
Example tv_nal_unit_TestEmptyNalUnit : let tv_buffer := [0] in
  isNull (fst (ParseNalUnitBytes true false tv_buffer 0 (mkw (mkst [] [] []) 0))) = true.
Proof. vm_compute. reflexivity. Qed.
Example tv_nal_unit_TestSvcExtensionHeader : let tv_buffer := [116; 192; 16; 7; 180] in
  vals (bytesu ParseNalUnitHeader tv_buffer 5) (fun v => [
    n (forbidden_zero_bit v);
    n (nal_ref_idc v);
    n (nal_unit_type v);
    n (svc_extension_flag v);
    isnull (nal_svc v)])
  = Some ([[0]; [3]; [20]; [1]; [0]]%Z).
Proof. vm_compute. reflexivity. Qed.
Example tv_nal_unit_TestMvcExtensionHeaderIsRefused : let tv_buffer := [116; 2; 0; 69; 180] in
  isNull (bytesu ParseNalUnitHeader tv_buffer 5) = true.
Proof. vm_compute. reflexivity. Qed.
Example tv_nal_unit_Test3davcExtensionHeaderIsRefused : let tv_buffer := [85; 129; 195; 181; 95] in
  isNull (bytesu ParseNalUnitHeader tv_buffer 5) = true.
Proof. vm_compute. reflexivity. Qed.

(** /repo/test/h264_pps_parser_unittest.cc *)
Example tv_pps_TestSamplePPS601 : let tv_buffer := [200; 66; 2; 50; 200] in
  vals (bytes (ParsePps 1) tv_buffer 5) (fun v => [
    n (pps_pic_parameter_set_id v);
    n (pps_seq_parameter_set_id v);
    n (pps_entropy_coding_mode_flag v);
    n (pps_bottom_field_pic_order_in_frame_present_flag v);
    n (pps_num_slice_groups_minus1 v);
    n (pps_num_ref_idx_l0_default_active_minus1 v);
    n (pps_num_ref_idx_l1_default_active_minus1 v);
    n (pps_weighted_pred_flag v);
    n (pps_weighted_bipred_idc v);
    z (pps_pic_init_qp_minus26 v);
    z (pps_pic_init_qs_minus26 v);
    z (pps_chroma_qp_index_offset v);
    n (pps_deblocking_filter_control_present_flag v);
    n (pps_constrained_intra_pred_flag v);
    n (pps_redundant_pic_cnt_present_flag v)])
  = Some ([[0]; [0]; [0]; [0]; [0]; [15]; [0]; [0]; [0]; [-8]; [0]; [-2]; [1]; [0]; [0]]%Z).
Proof. vm_compute. reflexivity. Qed.
Example tv_pps_TestSamplePPS2012 : let tv_buffer := [232; 67; 130; 146; 200; 176] in
  vals (bytes (ParsePps 1) tv_buffer 6) (fun v => [
    n (pps_pic_parameter_set_id v);
    n (pps_seq_parameter_set_id v);
    n (pps_entropy_coding_mode_flag v);
    n (pps_bottom_field_pic_order_in_frame_present_flag v);
    n (pps_num_slice_groups_minus1 v);
    n (pps_num_ref_idx_l0_default_active_minus1 v);
    n (pps_num_ref_idx_l1_default_active_minus1 v);
    n (pps_weighted_pred_flag v);
    n (pps_weighted_bipred_idc v);
    z (pps_pic_init_qp_minus26 v);
    z (pps_pic_init_qs_minus26 v);
    z (pps_chroma_qp_index_offset v);
    n (pps_deblocking_filter_control_present_flag v);
    n (pps_constrained_intra_pred_flag v);
    n (pps_redundant_pic_cnt_present_flag v);
    n (pps_transform_8x8_mode_flag v);
    n (pps_pic_scaling_matrix_present_flag v);
    z (pps_second_chroma_qp_index_offset v)])
    = Some ([[0]; [0]; [1]; [0]; [0]; [15]; [0]; [1]; [2]; [10]; [0]; [-2]; [1]; [0]; [0]; [1];
    [0]; [-2]]%Z).
Proof. vm_compute. reflexivity. Qed.
Example tv_pps_TestSliceGroupMapType0 : let tv_buffer := [199; 12; 133; 69; 148; 163; 136] in
  vals (bytes (ParsePps 1) tv_buffer 7) (fun v => [
    n (pps_pic_parameter_set_id v);
    n (pps_seq_parameter_set_id v);
    n (pps_entropy_coding_mode_flag v);
    n (pps_num_slice_groups_minus1 v);
    n (pps_slice_group_map_type v);
    size (pps_run_length_minus1 v);
    ptr (nth_error (pps_run_length_minus1 v) 0) (fun x42 => n x42);
    ptr (nth_error (pps_run_length_minus1 v) 1) (fun x43 => n x43);
    ptr (nth_error (pps_run_length_minus1 v) 2) (fun x44 => n x44);
    n (pps_num_ref_idx_l0_default_active_minus1 v);
    n (pps_num_ref_idx_l1_default_active_minus1 v);
    n (pps_weighted_pred_flag v);
    n (pps_weighted_bipred_idc v);
    z (pps_pic_init_qp_minus26 v);
    z (pps_pic_init_qs_minus26 v);
    z (pps_chroma_qp_index_offset v);
    n (pps_deblocking_filter_control_present_flag v);
    n (pps_constrained_intra_pred_flag v);
    n (pps_redundant_pic_cnt_present_flag v)])
    = Some ([[0]; [0]; [0]; [2]; [0]; [3]; [24]; [20]; [10]; [4]; [4]; [0]; [0]; [0]; [0]; [0];
    [0]; [0]; [0]]%Z).
Proof. vm_compute. reflexivity. Qed.
Example tv_pps_TestSliceGroupMapType6 : let tv_buffer := [17; 14; 112; 49; 136; 106; 204; 67; 86;
  98; 26; 179; 16; 213; 152; 134; 172; 196; 53; 102; 33; 171; 49; 13; 89; 136; 106; 204; 67; 86;
  98; 26; 179; 16; 213; 152; 134; 172; 196; 53; 102; 9; 28; 64] in
  vals (bytes (ParsePps 1) tv_buffer 44) (fun v => [
    n (pps_pic_parameter_set_id v);
    n (pps_num_slice_groups_minus1 v);
    n (pps_slice_group_map_type v);
    n (pps_pic_size_in_map_units_minus1 v);
    size (pps_slice_group_id v);
    n (pps_weighted_pred_flag v);
    n (pps_weighted_bipred_idc v);
    n (pps_deblocking_filter_control_present_flag v);
    n (pps_redundant_pic_cnt_present_flag v)])
  = Some ([[7]; [6]; [6]; [98]; [99]; [0]; [0]; [0]; [0]]%Z).
Proof. vm_compute. reflexivity. Qed.
Example tv_pps_TestTruncatedPps : let tv_buffer := [8] in
  isNull (bytes (ParsePps 1) tv_buffer 1) = true.
Proof. vm_compute. reflexivity. Qed.
Example tv_pps_TestZeroLengthPps : let tv_buffer := [0] in
  isNull (bytes (ParsePps 1) tv_buffer 0) = true.
Proof. vm_compute. reflexivity. Qed.

(** /repo/test/h264_pred_weight_table_parser_unittest.cc *)
Example tv_pred_weight_table_TestSamplePredWeightTable1 : let tv_buffer := [108] in
  vals (bytes (ParsePredWeightTable 1 5 0 0) tv_buffer 1) (fun v => [
    n (pw_luma_log2_weight_denom v);
    n (pw_chroma_log2_weight_denom v);
    size (pw_luma_weight_l0_flag v);
    map Z.of_N (pw_luma_weight_l0_flag v);
    size (pw_luma_weight_l0 v);
    size (pw_luma_offset_l0 v);
    size (pw_chroma_weight_l0_flag v);
    map Z.of_N (pw_chroma_weight_l0_flag v);
    size (pw_chroma_weight_l0 v);
    size (pw_chroma_offset_l0 v);
    size (pw_luma_weight_l1_flag v);
    size (pw_luma_weight_l1 v);
    size (pw_luma_offset_l1 v);
    size (pw_chroma_weight_l1_flag v);
    size (pw_chroma_weight_l1 v);
    size (pw_chroma_offset_l1 v)])
  = Some ([[2]; [2]; [1]; [0]; [0]; [0]; [1]; [0]; [0]; [0]; [0]; [0]; [0]; [0]; [0]; [0]]%Z).
Proof. vm_compute. reflexivity. Qed.
Example tv_pred_weight_table_TestSamplePredWeightTable2 : let tv_buffer := [145; 109; 109; 106;
  116; 105; 109; 27; 74; 201; 148; 192; 0; 0; 0; 175; 255; 34; 153; 174; 198; 88; 66; 137; 53;
  134; 64; 35] in
  vals (bytes (ParsePredWeightTable 1 5 12 0) tv_buffer 28) (fun v => [
    n (pw_luma_log2_weight_denom v);
    n (pw_chroma_log2_weight_denom v);
    map Z.of_N (pw_luma_weight_l0_flag v);
    (pw_luma_weight_l0 v);
    (pw_luma_offset_l0 v);
    map Z.of_N (pw_chroma_weight_l0_flag v);
    List.concat (pw_chroma_offset_l0 v);
    List.concat (pw_chroma_weight_l0 v);
    size (pw_luma_weight_l1_flag v);
    size (pw_luma_weight_l1 v);
    size (pw_luma_offset_l1 v);
    size (pw_chroma_weight_l1_flag v);
    size (pw_chroma_weight_l1 v);
    size (pw_chroma_offset_l1 v)])
    = Some ([[0]; [3]; [0; 1; 0; 0; 1; 0; 1; 0; 1; 0; 0; 0; 0]; [-1; -1; -1; 2]; [1; 2; 6; 0]; [1;
    1; 1; 1; 1; 1; 1; 0; 1; 0; 0; 0; 0]; [-1; 0; 1; -3; -2; -1; 0; 1; -2; 369091667; 1; 0; 8; 1;
    0; -12]; [-1; 1; 0; 0; -6; 0; -6; 1; 0; 3; 0; 0; -1; 0; 1; 0]; [0]; [0]; [0]; [0]; [0];
    [0]]%Z).
Proof. vm_compute. reflexivity. Qed.

(** /repo/test/h264_prefix_nal_unit_parser_unittest.cc *)
Example tv_prefix_nal_unit_TestPrefixNalUnitParser01 : let tv_buffer := [32] in
  vals (bytesu (ParsePrefixNalUnitRbsp 1 2 1 1) tv_buffer 1) (fun v => [
    isnull (px_svc v);
    ptr (px_svc v) (fun x45 => n (pf_store_ref_base_pic_flag x45));
    ptr (px_svc v) (fun x46 => n (pf_additional_prefix_nal_unit_extension_flag x46));
    ptr (px_svc v) (fun x47 => n (pf_additional_prefix_nal_unit_extension_data_flag x47))])
  = Some ([[0]; [0]; [0]; [0]]%Z).
Proof. vm_compute. reflexivity. Qed.
Example tv_prefix_nal_unit_TestSampleNalUnit01 : let tv_buffer := [110; 192; 128; 15] in
  vals (fst (ParseNalUnitBytes true true tv_buffer 4 (mkw (mkst [] [] []) 0))) (fun v => [
    n (nu_parsed_length v);
    notnull;
    n (forbidden_zero_bit (nu_header v));
    n (nal_ref_idc (nu_header v));
    n (nal_unit_type (nu_header v));
    n (svc_extension_flag (nu_header v));
    n (avc_3d_extension_flag (nu_header v));
    isnull (nal_svc (nu_header v));
    ptr (nal_svc (nu_header v)) (fun x48 => n (svc_idr_flag x48));
    ptr (nal_svc (nu_header v)) (fun x49 => n (svc_priority_id x49));
    ptr (nal_svc (nu_header v)) (fun x50 => n (svc_no_inter_layer_pred_flag x50));
    ptr (nal_svc (nu_header v)) (fun x51 => n (svc_dependency_id x51));
    ptr (nal_svc (nu_header v)) (fun x52 => n (svc_quality_id x52));
    ptr (nal_svc (nu_header v)) (fun x53 => n (svc_temporal_id x53));
    ptr (nal_svc (nu_header v)) (fun x54 => n (svc_use_ref_base_pic_flag x54));
    ptr (nal_svc (nu_header v)) (fun x55 => n (svc_discardable_flag x55));
    ptr (nal_svc (nu_header v)) (fun x56 => n (svc_output_flag x56));
    ptr (nal_svc (nu_header v)) (fun x57 => n (svc_reserved_three_2bits x57));
    notnull;
    isnull (pl_prefix (nu_payload v))])
    = Some ([[4]; [0]; [0]; [3]; [14]; [1]; [0]; [0]; [1]; [0]; [1]; [0]; [0]; [0]; [0]; [1]; [1];
    [3]; [0]; [1]]%Z).
Proof. vm_compute. reflexivity. Qed.
Example tv_prefix_nal_unit_TestSampleNalUnit01Fixed : let tv_buffer := [110; 192; 128; 15; 255] in
  vals (fst (ParseNalUnitBytes true true tv_buffer 5 (mkw (mkst [] [] []) 0))) (fun v => [
    n (nu_parsed_length v);
    notnull;
    n (forbidden_zero_bit (nu_header v));
    n (nal_ref_idc (nu_header v));
    n (nal_unit_type (nu_header v));
    n (svc_extension_flag (nu_header v));
    n (avc_3d_extension_flag (nu_header v));
    isnull (nal_svc (nu_header v));
    ptr (nal_svc (nu_header v)) (fun x58 => n (svc_idr_flag x58));
    ptr (nal_svc (nu_header v)) (fun x59 => n (svc_priority_id x59));
    ptr (nal_svc (nu_header v)) (fun x60 => n (svc_no_inter_layer_pred_flag x60));
    ptr (nal_svc (nu_header v)) (fun x61 => n (svc_dependency_id x61));
    ptr (nal_svc (nu_header v)) (fun x62 => n (svc_quality_id x62));
    ptr (nal_svc (nu_header v)) (fun x63 => n (svc_temporal_id x63));
    ptr (nal_svc (nu_header v)) (fun x64 => n (svc_use_ref_base_pic_flag x64));
    ptr (nal_svc (nu_header v)) (fun x65 => n (svc_discardable_flag x65));
    ptr (nal_svc (nu_header v)) (fun x66 => n (svc_output_flag x66));
    ptr (nal_svc (nu_header v)) (fun x67 => n (svc_reserved_three_2bits x67));
    notnull;
    isnull (pl_prefix (nu_payload v));
    ptr (pl_prefix (nu_payload v)) (fun x68 => isnull (px_svc x68));
        ptr (pl_prefix (nu_payload v)) (fun x69 => ptr (px_svc x69) (fun x70 => n (pf_nal_ref_idc
      x70)));
        ptr (pl_prefix (nu_payload v)) (fun x71 => ptr (px_svc x71) (fun x72 => n
      (pf_use_ref_base_pic_flag x72)));
    ptr (pl_prefix (nu_payload v)) (fun x73 => ptr (px_svc x73) (fun x74 => n (pf_idr_flag x74)));
        ptr (pl_prefix (nu_payload v)) (fun x75 => ptr (px_svc x75) (fun x76 => n
      (pf_store_ref_base_pic_flag x76)));
        ptr (pl_prefix (nu_payload v)) (fun x77 => ptr (px_svc x77) (fun x78 => n
      (pf_additional_prefix_nal_unit_extension_flag x78)));
        ptr (pl_prefix (nu_payload v)) (fun x79 => ptr (px_svc x79) (fun x80 => n
      (pf_additional_prefix_nal_unit_extension_data_flag x80)))])
    = Some ([[5]; [0]; [0]; [3]; [14]; [1]; [0]; [0]; [1]; [0]; [1]; [0]; [0]; [0]; [0]; [1]; [1];
    [3]; [0]; [0]; [0]; [3]; [0]; [1]; [1]; [1]; [1]]%Z).
Proof. vm_compute. reflexivity. Qed.

(** /repo/test/h264_ref_pic_list_modification_parser_unittest.cc *)
Example tv_ref_pic_list_modification_TestSampleRefPicListModification601NonIDR : let tv_buffer :=
  [0] in
  vals (bytes (ParseRefPicListModification 5) tv_buffer 1) (fun v => [
    n (rp_flag_l0 v)])
  = Some ([[0]]%Z).
Proof. vm_compute. reflexivity. Qed.

(** /repo/test/h264_rtp_fua_parser_unittest.cc *)
Example tv_rtp_fua_TestSampleStart : let tv_buffer := [124; 133; 136; 130; 6; 120; 140; 80; 0] in
    vals (fst (unescaping true (ParseRtpFuA 3) tv_buffer 9 (mkw (mkst [(0, (mksps 0 0 0 0 0 0 0 0
    0 0 1 0 0 0 0 0 scal0 1 2 0 0 0 0 0 [] 0 0 0 0 1 0 0 0 0 0 0 0 0 None UNSPECIFIED))] [(0,
    (mkpps 0 0 0 0 0 0 0 [] [] 0 0 0 [] 0 0 0 0 0 0 0 1 0 0 0 0 scal0 0))] []) 0))) (fun v => [
    n (forbidden_zero_bit (rf_header v));
    n (nal_ref_idc (rf_header v));
    n (nal_unit_type (rf_header v));
    n (rf_s_bit v);
    n (rf_e_bit v);
    n (rf_r_bit v);
    n (rf_fu_type v);
    ptr (rf_payload v) (fun x81 => ptr (pl_slice x81) (fun x82 => notnull));
        ptr (rf_payload v) (fun x83 => ptr (pl_slice x83) (fun x84 => n (first_mb_in_slice
      (sh_lead (sl_slice_header x84)))));
        ptr (rf_payload v) (fun x85 => ptr (pl_slice x85) (fun x86 => n (slice_type (sh_lead
      (sl_slice_header x86)))))])
  = Some ([[0]; [3]; [28]; [1]; [0]; [0]; [5]; [0]; [0]; [7]]%Z).
Proof. vm_compute. reflexivity. Qed.
Example tv_rtp_fua_TestSampleMiddle : let tv_buffer := [124; 5; 28; 171; 142; 0; 2; 251; 49; 192]
  in
  vals (fst (unescaping true (ParseRtpFuA 3) tv_buffer 10 (mkw (mkst [] [] []) 0))) (fun v => [
    n (forbidden_zero_bit (rf_header v));
    n (nal_ref_idc (rf_header v));
    n (nal_unit_type (rf_header v));
    n (rf_s_bit v);
    n (rf_e_bit v);
    n (rf_r_bit v);
    n (rf_fu_type v)])
  = Some ([[0]; [3]; [28]; [0]; [0]; [0]; [5]]%Z).
Proof. vm_compute. reflexivity. Qed.
Example tv_rtp_fua_TestSampleEnd : let tv_buffer := [124; 69; 0; 95; 102; 251; 239; 190] in
  vals (fst (unescaping true (ParseRtpFuA 3) tv_buffer 8 (mkw (mkst [] [] []) 0))) (fun v => [
    n (forbidden_zero_bit (rf_header v));
    n (nal_ref_idc (rf_header v));
    n (nal_unit_type (rf_header v));
    n (rf_s_bit v);
    n (rf_e_bit v);
    n (rf_r_bit v);
    n (rf_fu_type v)])
  = Some ([[0]; [3]; [28]; [0]; [1]; [0]; [5]]%Z).
Proof. vm_compute. reflexivity. Qed.

(** /repo/test/h264_rtp_parser_unittest.cc *)
Example tv_rtp_TestSampleSingle : let tv_buffer := [103; 66; 192; 22; 166; 17; 5; 7; 233; 178; 0;
  0; 3; 0; 2; 0; 0; 3; 0; 100; 30; 44; 92; 35] in
  vals (fst (ParseRtpBytes true tv_buffer 24 (mkw (mkst [] [] []) 0))) (fun v => [
    n (forbidden_zero_bit (rp_header v));
    n (nal_ref_idc (rp_header v));
    n (nal_unit_type (rp_header v));
    ptr (rp_single v) (fun x87 => ptr (pl_sps (rs_payload x87)) (fun x88 => n (profile_idc x88)));
        ptr (rp_single v) (fun x89 => ptr (pl_sps (rs_payload x89)) (fun x90 => n
      (pic_width_in_mbs_minus1 x90)));
        ptr (rp_single v) (fun x91 => ptr (pl_sps (rs_payload x91)) (fun x92 => n
      (pic_height_in_map_units_minus1 x92)))])
  = Some ([[0]; [3]; [7]; [66]; [19]; [14]]%Z).
Proof. vm_compute. reflexivity. Qed.

(** /repo/test/h264_rtp_single_parser_unittest.cc *)
Example tv_rtp_single_TestSampleSps : let tv_buffer := [103; 66; 192; 22; 166; 17; 5; 7; 233; 178;
  0; 0; 3; 0; 2; 0; 0; 3; 0; 100; 30; 44; 92; 35] in
  vals (fst (unescaping true ParseRtpSingle tv_buffer 24 (mkw (mkst [] [] []) 0))) (fun v => [
    n (forbidden_zero_bit (rs_header v));
    n (nal_ref_idc (rs_header v));
    n (nal_unit_type (rs_header v))])
  = Some ([[0]; [3]; [7]]%Z).
Proof. vm_compute. reflexivity. Qed.

(** /repo/test/h264_rtp_stapa_parser_unittest.cc *)
Example tv_rtp_stapa_TestSampleAUD : let tv_buffer := [120; 0; 24; 103; 66; 192; 22; 166; 17; 5;
  7; 233; 178; 0; 0; 3; 0; 2; 0; 0; 3; 0; 100; 30; 44; 92; 35; 0; 5; 104; 200; 66; 2; 50; 200] in
  vals (fst (unescaping true ParseRtpStapA tv_buffer 35 (mkw (mkst [] [] []) 0))) (fun v => [
    n (forbidden_zero_bit (ra_header v));
    n (nal_ref_idc (ra_header v));
    n (nal_unit_type (ra_header v));
    size (ra_nal_unit_sizes v);
    size (ra_nal_unit_headers v);
    size (ra_nal_unit_payloads v);
    ptr (nth_error (ra_nal_unit_headers v) 0) (fun x93 => n (nal_unit_type x93));
    ptr (nth_error (ra_nal_unit_headers v) 1) (fun x94 => n (nal_unit_type x94))])
  = Some ([[0]; [3]; [24]; [2]; [2]; [2]; [7]; [8]]%Z).
Proof. vm_compute. reflexivity. Qed.

(** /repo/test/h264_slice_header_in_scalable_extension_parser_unittest.cc *)
Example tv_slice_header_in_scalable_extension_TestSampleBitstream01 : let tv_buffer := [0; 0; 0;
  1; 103; 66; 0; 10; 166; 130; 196; 228; 0; 0; 0; 1; 104; 206; 7; 114; 0; 0; 0; 1; 111; 83; 0; 11;
  172; 77; 2; 193; 44; 129; 32; 0; 0; 0; 1; 104; 83; 129; 220; 128; 0; 0; 0; 1; 101; 184; 17; 126;
  32; 226; 248; 8; 62; 239; 192; 8; 76; 24; 183; 84; 190; 62; 30; 206; 78; 75; 60; 79; 0; 0; 0; 1;
  116; 192; 144; 15; 180; 4; 95; 192; 196; 66; 0; 4; 224; 207; 192; 248; 0; 26; 100; 5; 99; 251;
  19; 159; 252; 177; 191; 199; 133; 62; 107; 77; 6; 217; 223; 32; 149; 254; 178; 180; 237; 33;
  244; 224; 93; 79; 36; 111; 122; 105; 253; 64; 18; 174; 66; 113; 210; 202; 147; 54; 172; 24; 189;
  79] in
  vals (fst (ParseBitstream true true tv_buffer 140 (mkw (mkst [] [] []) 0))) (fun v => [
    size v;
    ptr (nth_error v 0) (fun x95 => n (forbidden_zero_bit (nu_header (fst (fst x95)))));
    ptr (nth_error v 0) (fun x96 => n (nal_ref_idc (nu_header (fst (fst x96)))));
    ptr (nth_error v 0) (fun x97 => n (nal_unit_type (nu_header (fst (fst x97)))));
    ptr (nth_error v 1) (fun x98 => n (forbidden_zero_bit (nu_header (fst (fst x98)))));
    ptr (nth_error v 1) (fun x99 => n (nal_ref_idc (nu_header (fst (fst x99)))));
    ptr (nth_error v 1) (fun x100 => n (nal_unit_type (nu_header (fst (fst x100)))));
    ptr (nth_error v 2) (fun x101 => n (forbidden_zero_bit (nu_header (fst (fst x101)))));
    ptr (nth_error v 2) (fun x102 => n (nal_ref_idc (nu_header (fst (fst x102)))));
    ptr (nth_error v 2) (fun x103 => n (nal_unit_type (nu_header (fst (fst x103)))));
    ptr (nth_error v 3) (fun x104 => n (forbidden_zero_bit (nu_header (fst (fst x104)))));
    ptr (nth_error v 3) (fun x105 => n (nal_ref_idc (nu_header (fst (fst x105)))));
    ptr (nth_error v 3) (fun x106 => n (nal_unit_type (nu_header (fst (fst x106)))));
    ptr (nth_error v 4) (fun x107 => n (forbidden_zero_bit (nu_header (fst (fst x107)))));
    ptr (nth_error v 4) (fun x108 => n (nal_ref_idc (nu_header (fst (fst x108)))));
    ptr (nth_error v 4) (fun x109 => n (nal_unit_type (nu_header (fst (fst x109)))));
    ptr (nth_error v 5) (fun x110 => n (forbidden_zero_bit (nu_header (fst (fst x110)))));
    ptr (nth_error v 5) (fun x111 => n (nal_ref_idc (nu_header (fst (fst x111)))));
    ptr (nth_error v 5) (fun x112 => n (nal_unit_type (nu_header (fst (fst x112)))));
    ptr (nth_error v 5) (fun x113 => notnull);
    ptr (nth_error v 5) (fun x114 => n (svc_extension_flag (nu_header (fst (fst x114)))));
    ptr (nth_error v 5) (fun x115 => n (avc_3d_extension_flag (nu_header (fst (fst x115)))));
    ptr (nth_error v 5) (fun x116 => isnull (nal_svc (nu_header (fst (fst x116)))));
        ptr (nth_error v 5) (fun x117 => ptr (nal_svc (nu_header (fst (fst x117)))) (fun x118 => n
      (svc_idr_flag x118)));
        ptr (nth_error v 5) (fun x119 => ptr (nal_svc (nu_header (fst (fst x119)))) (fun x120 => n
      (svc_priority_id x120)));
        ptr (nth_error v 5) (fun x121 => ptr (nal_svc (nu_header (fst (fst x121)))) (fun x122 => n
      (svc_no_inter_layer_pred_flag x122)));
        ptr (nth_error v 5) (fun x123 => ptr (nal_svc (nu_header (fst (fst x123)))) (fun x124 => n
      (svc_dependency_id x124)));
        ptr (nth_error v 5) (fun x125 => ptr (nal_svc (nu_header (fst (fst x125)))) (fun x126 => n
      (svc_quality_id x126)));
        ptr (nth_error v 5) (fun x127 => ptr (nal_svc (nu_header (fst (fst x127)))) (fun x128 => n
      (svc_temporal_id x128)));
        ptr (nth_error v 5) (fun x129 => ptr (nal_svc (nu_header (fst (fst x129)))) (fun x130 => n
      (svc_use_ref_base_pic_flag x130)));
        ptr (nth_error v 5) (fun x131 => ptr (nal_svc (nu_header (fst (fst x131)))) (fun x132 => n
      (svc_discardable_flag x132)));
        ptr (nth_error v 5) (fun x133 => ptr (nal_svc (nu_header (fst (fst x133)))) (fun x134 => n
      (svc_output_flag x134)));
        ptr (nth_error v 5) (fun x135 => ptr (nal_svc (nu_header (fst (fst x135)))) (fun x136 => n
      (svc_reserved_three_2bits x136)));
    ptr (nth_error v 5) (fun x137 => notnull);
    ptr (nth_error v 5) (fun x138 => isnull (pl_slice_ext (nu_payload (fst (fst x138)))));
        ptr (nth_error v 5) (fun x139 => ptr (pl_slice_ext (nu_payload (fst (fst x139)))) (fun
      x140 => isnull (sx_svc_slice_header x140)));
        ptr (nth_error v 5) (fun x141 => ptr (pl_slice_ext (nu_payload (fst (fst x141)))) (fun
      x142 => ptr (sx_svc_slice_header x142) (fun x143 => n (first_mb_in_slice (vh_lead x143)))));
        ptr (nth_error v 5) (fun x144 => ptr (pl_slice_ext (nu_payload (fst (fst x144)))) (fun
      x145 => ptr (sx_svc_slice_header x145) (fun x146 => n (slice_type (vh_lead x146)))));
        ptr (nth_error v 5) (fun x147 => ptr (pl_slice_ext (nu_payload (fst (fst x147)))) (fun
      x148 => ptr (sx_svc_slice_header x148) (fun x149 => n (pic_parameter_set_id (vh_lead
      x149)))));
        ptr (nth_error v 5) (fun x150 => ptr (pl_slice_ext (nu_payload (fst (fst x150)))) (fun
      x151 => ptr (sx_svc_slice_header x151) (fun x152 => n (colour_plane_id (vh_pic x152)))));
        ptr (nth_error v 5) (fun x153 => ptr (pl_slice_ext (nu_payload (fst (fst x153)))) (fun
      x154 => ptr (sx_svc_slice_header x154) (fun x155 => n (frame_num (vh_pic x155)))));
        ptr (nth_error v 5) (fun x156 => ptr (pl_slice_ext (nu_payload (fst (fst x156)))) (fun
      x157 => ptr (sx_svc_slice_header x157) (fun x158 => n (field_pic_flag (vh_pic x158)))));
        ptr (nth_error v 5) (fun x159 => ptr (pl_slice_ext (nu_payload (fst (fst x159)))) (fun
      x160 => ptr (sx_svc_slice_header x160) (fun x161 => n (bottom_field_flag (vh_pic x161)))));
        ptr (nth_error v 5) (fun x162 => ptr (pl_slice_ext (nu_payload (fst (fst x162)))) (fun
      x163 => ptr (sx_svc_slice_header x163) (fun x164 => n (vh_idr_pic_id x164))));
        ptr (nth_error v 5) (fun x165 => ptr (pl_slice_ext (nu_payload (fst (fst x165)))) (fun
      x166 => ptr (sx_svc_slice_header x166) (fun x167 => n (pic_order_cnt_lsb (vh_poc x167)))));
        ptr (nth_error v 5) (fun x168 => ptr (pl_slice_ext (nu_payload (fst (fst x168)))) (fun
      x169 => ptr (sx_svc_slice_header x169) (fun x170 => z (delta_pic_order_cnt_bottom (vh_poc
      x170)))));
        ptr (nth_error v 5) (fun x171 => ptr (pl_slice_ext (nu_payload (fst (fst x171)))) (fun
      x172 => ptr (sx_svc_slice_header x172) (fun x173 => size (delta_pic_order_cnt (vh_poc
      x173)))));
        ptr (nth_error v 5) (fun x174 => ptr (pl_slice_ext (nu_payload (fst (fst x174)))) (fun
      x175 => ptr (sx_svc_slice_header x175) (fun x176 => n (direct_spatial_mv_pred_flag (q_refs
      (vh_qzero x176))))));
        ptr (nth_error v 5) (fun x177 => ptr (pl_slice_ext (nu_payload (fst (fst x177)))) (fun
      x178 => ptr (sx_svc_slice_header x178) (fun x179 => n (num_ref_idx_active_override_flag
      (q_refs (vh_qzero x179))))));
        ptr (nth_error v 5) (fun x180 => ptr (pl_slice_ext (nu_payload (fst (fst x180)))) (fun
      x181 => ptr (sx_svc_slice_header x181) (fun x182 => n (num_ref_idx_l0_active_minus1 (q_refs
      (vh_qzero x182))))));
        ptr (nth_error v 5) (fun x183 => ptr (pl_slice_ext (nu_payload (fst (fst x183)))) (fun
      x184 => ptr (sx_svc_slice_header x184) (fun x185 => n (num_ref_idx_l1_active_minus1 (q_refs
      (vh_qzero x185))))));
        ptr (nth_error v 5) (fun x186 => ptr (pl_slice_ext (nu_payload (fst (fst x186)))) (fun
      x187 => ptr (sx_svc_slice_header x187) (fun x188 => isnull (q_ref_pic_list_modification
      (vh_qzero x188)))));
        ptr (nth_error v 5) (fun x189 => ptr (pl_slice_ext (nu_payload (fst (fst x189)))) (fun
      x190 => ptr (sx_svc_slice_header x190) (fun x191 => ptr (q_ref_pic_list_modification
      (vh_qzero x191)) (fun x192 => n (rp_slice_type x192)))));
        ptr (nth_error v 5) (fun x193 => ptr (pl_slice_ext (nu_payload (fst (fst x193)))) (fun
      x194 => ptr (sx_svc_slice_header x194) (fun x195 => ptr (q_ref_pic_list_modification
      (vh_qzero x195)) (fun x196 => n (rp_flag_l0 x196)))));
        ptr (nth_error v 5) (fun x197 => ptr (pl_slice_ext (nu_payload (fst (fst x197)))) (fun
      x198 => ptr (sx_svc_slice_header x198) (fun x199 => ptr (q_ref_pic_list_modification
      (vh_qzero x199)) (fun x200 => size (rp_modification_of_pic_nums_idc x200)))));
        ptr (nth_error v 5) (fun x201 => ptr (pl_slice_ext (nu_payload (fst (fst x201)))) (fun
      x202 => ptr (sx_svc_slice_header x202) (fun x203 => ptr (q_ref_pic_list_modification
      (vh_qzero x203)) (fun x204 => size (rp_abs_diff_pic_num_minus1 x204)))));
        ptr (nth_error v 5) (fun x205 => ptr (pl_slice_ext (nu_payload (fst (fst x205)))) (fun
      x206 => ptr (sx_svc_slice_header x206) (fun x207 => ptr (q_ref_pic_list_modification
      (vh_qzero x207)) (fun x208 => size (rp_long_term_pic_num x208)))));
        ptr (nth_error v 5) (fun x209 => ptr (pl_slice_ext (nu_payload (fst (fst x209)))) (fun
      x210 => ptr (sx_svc_slice_header x210) (fun x211 => ptr (q_ref_pic_list_modification
      (vh_qzero x211)) (fun x212 => n (rp_flag_l1 x212)))));
        ptr (nth_error v 5) (fun x213 => ptr (pl_slice_ext (nu_payload (fst (fst x213)))) (fun
      x214 => ptr (sx_svc_slice_header x214) (fun x215 => n (q_base_pred_weight_table_flag
      (vh_qzero x215)))));
        ptr (nth_error v 5) (fun x216 => ptr (pl_slice_ext (nu_payload (fst (fst x216)))) (fun
      x217 => ptr (sx_svc_slice_header x217) (fun x218 => isnull (q_pred_weight_table (vh_qzero
      x218)))));
        ptr (nth_error v 5) (fun x219 => ptr (pl_slice_ext (nu_payload (fst (fst x219)))) (fun
      x220 => ptr (sx_svc_slice_header x220) (fun x221 => isnull (q_dec_ref_pic_marking (vh_qzero
      x221)))));
        ptr (nth_error v 5) (fun x222 => ptr (pl_slice_ext (nu_payload (fst (fst x222)))) (fun
      x223 => ptr (sx_svc_slice_header x223) (fun x224 => ptr (q_dec_ref_pic_marking (vh_qzero
      x224)) (fun x225 => n (dr_IdrPicFlag x225)))));
        ptr (nth_error v 5) (fun x226 => ptr (pl_slice_ext (nu_payload (fst (fst x226)))) (fun
      x227 => ptr (sx_svc_slice_header x227) (fun x228 => ptr (q_dec_ref_pic_marking (vh_qzero
      x228)) (fun x229 => n (dr_no_output_of_prior_pics_flag x229)))));
        ptr (nth_error v 5) (fun x230 => ptr (pl_slice_ext (nu_payload (fst (fst x230)))) (fun
      x231 => ptr (sx_svc_slice_header x231) (fun x232 => ptr (q_dec_ref_pic_marking (vh_qzero
      x232)) (fun x233 => n (dr_long_term_reference_flag x233)))));
        ptr (nth_error v 5) (fun x234 => ptr (pl_slice_ext (nu_payload (fst (fst x234)))) (fun
      x235 => ptr (sx_svc_slice_header x235) (fun x236 => ptr (q_dec_ref_pic_marking (vh_qzero
      x236)) (fun x237 => n (dr_adaptive_ref_pic_marking_mode_flag x237)))));
        ptr (nth_error v 5) (fun x238 => ptr (pl_slice_ext (nu_payload (fst (fst x238)))) (fun
      x239 => ptr (sx_svc_slice_header x239) (fun x240 => ptr (q_dec_ref_pic_marking (vh_qzero
      x240)) (fun x241 => size (dr_memory_management_control_operation x241)))));
        ptr (nth_error v 5) (fun x242 => ptr (pl_slice_ext (nu_payload (fst (fst x242)))) (fun
      x243 => ptr (sx_svc_slice_header x243) (fun x244 => ptr (q_dec_ref_pic_marking (vh_qzero
      x244)) (fun x245 => size (dr_difference_of_pic_nums_minus1 x245)))));
        ptr (nth_error v 5) (fun x246 => ptr (pl_slice_ext (nu_payload (fst (fst x246)))) (fun
      x247 => ptr (sx_svc_slice_header x247) (fun x248 => ptr (q_dec_ref_pic_marking (vh_qzero
      x248)) (fun x249 => size (dr_long_term_pic_num x249)))));
        ptr (nth_error v 5) (fun x250 => ptr (pl_slice_ext (nu_payload (fst (fst x250)))) (fun
      x251 => ptr (sx_svc_slice_header x251) (fun x252 => ptr (q_dec_ref_pic_marking (vh_qzero
      x252)) (fun x253 => size (dr_long_term_frame_idx x253)))));
        ptr (nth_error v 5) (fun x254 => ptr (pl_slice_ext (nu_payload (fst (fst x254)))) (fun
      x255 => ptr (sx_svc_slice_header x255) (fun x256 => ptr (q_dec_ref_pic_marking (vh_qzero
      x256)) (fun x257 => size (dr_max_long_term_frame_idx_plus1 x257)))));
        ptr (nth_error v 5) (fun x258 => ptr (pl_slice_ext (nu_payload (fst (fst x258)))) (fun
      x259 => ptr (sx_svc_slice_header x259) (fun x260 => n (q_store_ref_base_pic_flag (vh_qzero
      x260)))));
        ptr (nth_error v 5) (fun x261 => ptr (pl_slice_ext (nu_payload (fst (fst x261)))) (fun
      x262 => ptr (sx_svc_slice_header x262) (fun x263 => n (vh_cabac_init_idc x263))));
        ptr (nth_error v 5) (fun x264 => ptr (pl_slice_ext (nu_payload (fst (fst x264)))) (fun
      x265 => ptr (sx_svc_slice_header x265) (fun x266 => z (vh_slice_qp_delta x266))));
        ptr (nth_error v 5) (fun x267 => ptr (pl_slice_ext (nu_payload (fst (fst x267)))) (fun
      x268 => ptr (sx_svc_slice_header x268) (fun x269 => n (disable_deblocking_filter_idc (vh_dbk
      x269)))));
        ptr (nth_error v 5) (fun x270 => ptr (pl_slice_ext (nu_payload (fst (fst x270)))) (fun
      x271 => ptr (sx_svc_slice_header x271) (fun x272 => z (slice_alpha_c0_offset_div2 (vh_dbk
      x272)))));
        ptr (nth_error v 5) (fun x273 => ptr (pl_slice_ext (nu_payload (fst (fst x273)))) (fun
      x274 => ptr (sx_svc_slice_header x274) (fun x275 => z (slice_beta_offset_div2 (vh_dbk
      x275)))));
        ptr (nth_error v 5) (fun x276 => ptr (pl_slice_ext (nu_payload (fst (fst x276)))) (fun
      x277 => ptr (sx_svc_slice_header x277) (fun x278 => n (vh_slice_group_change_cycle x278))));
        ptr (nth_error v 5) (fun x279 => ptr (pl_slice_ext (nu_payload (fst (fst x279)))) (fun
      x280 => ptr (sx_svc_slice_header x280) (fun x281 => n (il_ref_layer_dq_id (vh_ilayer
      x281)))));
        ptr (nth_error v 5) (fun x282 => ptr (pl_slice_ext (nu_payload (fst (fst x282)))) (fun
      x283 => ptr (sx_svc_slice_header x283) (fun x284 => n
      (il_disable_inter_layer_deblocking_filter_idc (vh_ilayer x284)))));
        ptr (nth_error v 5) (fun x285 => ptr (pl_slice_ext (nu_payload (fst (fst x285)))) (fun
      x286 => ptr (sx_svc_slice_header x286) (fun x287 => z
      (il_inter_layer_slice_alpha_c0_offset_div2 (vh_ilayer x287)))));
        ptr (nth_error v 5) (fun x288 => ptr (pl_slice_ext (nu_payload (fst (fst x288)))) (fun
      x289 => ptr (sx_svc_slice_header x289) (fun x290 => z (il_inter_layer_slice_beta_offset_div2
      (vh_ilayer x290)))));
        ptr (nth_error v 5) (fun x291 => ptr (pl_slice_ext (nu_payload (fst (fst x291)))) (fun
      x292 => ptr (sx_svc_slice_header x292) (fun x293 => n (il_constrained_intra_resampling_flag
      (vh_ilayer x293)))));
        ptr (nth_error v 5) (fun x294 => ptr (pl_slice_ext (nu_payload (fst (fst x294)))) (fun
      x295 => ptr (sx_svc_slice_header x295) (fun x296 => n (mo_slice_skip_flag (vh_modes
      x296)))));
        ptr (nth_error v 5) (fun x297 => ptr (pl_slice_ext (nu_payload (fst (fst x297)))) (fun
      x298 => ptr (sx_svc_slice_header x298) (fun x299 => n (mo_num_mbs_in_slice_minus1 (vh_modes
      x299)))));
        ptr (nth_error v 5) (fun x300 => ptr (pl_slice_ext (nu_payload (fst (fst x300)))) (fun
      x301 => ptr (sx_svc_slice_header x301) (fun x302 => n (mo_adaptive_base_mode_flag (vh_modes
      x302)))));
        ptr (nth_error v 5) (fun x303 => ptr (pl_slice_ext (nu_payload (fst (fst x303)))) (fun
      x304 => ptr (sx_svc_slice_header x304) (fun x305 => n (mo_default_base_mode_flag (vh_modes
      x305)))));
        ptr (nth_error v 5) (fun x306 => ptr (pl_slice_ext (nu_payload (fst (fst x306)))) (fun
      x307 => ptr (sx_svc_slice_header x307) (fun x308 => n (mo_adaptive_residual_prediction_flag
      (vh_modes x308)))));
        ptr (nth_error v 5) (fun x309 => ptr (pl_slice_ext (nu_payload (fst (fst x309)))) (fun
      x310 => ptr (sx_svc_slice_header x310) (fun x311 => n (mo_default_residual_prediction_flag
      (vh_modes x311)))));
        ptr (nth_error v 5) (fun x312 => ptr (pl_slice_ext (nu_payload (fst (fst x312)))) (fun
      x313 => ptr (sx_svc_slice_header x313) (fun x314 => n (vh_scan_idx_start x314))));
        ptr (nth_error v 5) (fun x315 => ptr (pl_slice_ext (nu_payload (fst (fst x315)))) (fun
      x316 => ptr (sx_svc_slice_header x316) (fun x317 => n (vh_scan_idx_end x317))))])
    = Some ([[6]; [0]; [3]; [7]; [0]; [3]; [8]; [0]; [3]; [15]; [0]; [3]; [8]; [0]; [3]; [5]; [0];
    [3]; [20]; [0]; [1]; [0]; [0]; [1]; [0]; [1]; [1]; [0]; [0]; [0]; [1]; [1]; [3]; [0]; [0];
    [0]; [0]; [2]; [1]; [0]; [0]; [0]; [0]; [1]; [0]; [0]; [0]; [0]; [0]; [0]; [0]; [0]; [2]; [0];
    [0]; [0]; [0]; [0]; [0]; [1]; [0]; [1]; [0]; [0]; [0]; [0]; [0]; [0]; [0]; [0]; [0]; [0]; [0];
    [2]; [0]; [0]; [0]; [0]; [0]; [0]; [0]; [0]; [0]; [0]; [0]; [0]; [0]; [0]; [0]; [0]]%Z).
Proof. vm_compute. reflexivity. Qed.
Example tv_slice_header_in_scalable_extension_TestSubsetSpsIdValueSpace : let tv_buffer := [0; 0;
  0; 1; 103; 66; 224; 12; 154; 220; 40; 63; 32; 0; 0; 0; 1; 111; 83; 192; 30; 75; 13; 101; 130;
  128; 246; 27; 124; 32; 0; 0; 0; 1; 104; 107; 224; 41; 168; 0; 0; 0; 1; 20; 128; 32; 79; 216; 4;
  27; 146; 64; 137; 195; 255; 22; 185; 213; 45; 64; 146; 64; 180; 71; 69; 49; 204; 153; 181; 83;
  116; 197; 229; 105; 57; 232; 190; 108; 103; 240; 234; 2; 51; 178; 65; 87; 96; 181; 102; 71; 130;
  13; 67; 180; 80; 180; 190; 230; 101; 141; 5; 169; 157; 84; 246; 131; 23] in
  vals (fst (ParseBitstream true true tv_buffer 107 (mkw (mkst [] [] []) 0))) (fun v => [
    size v;
    ptr (nth_error v 3) (fun x318 => n (nal_unit_type (nu_header (fst (fst x318)))));
    ptr (nth_error v 3) (fun x319 => isnull (pl_slice_ext (nu_payload (fst (fst x319)))));
        ptr (nth_error v 3) (fun x320 => ptr (pl_slice_ext (nu_payload (fst (fst x320)))) (fun
      x321 => isnull (sx_svc_slice_header x321)));
        ptr (nth_error v 3) (fun x322 => ptr (pl_slice_ext (nu_payload (fst (fst x322)))) (fun
      x323 => ptr (sx_svc_slice_header x323) (fun x324 => n (first_mb_in_slice (vh_lead x324)))));
        ptr (nth_error v 3) (fun x325 => ptr (pl_slice_ext (nu_payload (fst (fst x325)))) (fun
      x326 => ptr (sx_svc_slice_header x326) (fun x327 => n (slice_type (vh_lead x327)))));
        ptr (nth_error v 3) (fun x328 => ptr (pl_slice_ext (nu_payload (fst (fst x328)))) (fun
      x329 => ptr (sx_svc_slice_header x329) (fun x330 => n (pic_parameter_set_id (vh_lead
      x330)))));
        ptr (nth_error v 3) (fun x331 => ptr (pl_slice_ext (nu_payload (fst (fst x331)))) (fun
      x332 => ptr (sx_svc_slice_header x332) (fun x333 => n (frame_num (vh_pic x333)))));
        ptr (nth_error v 3) (fun x334 => ptr (pl_slice_ext (nu_payload (fst (fst x334)))) (fun
      x335 => ptr (sx_svc_slice_header x335) (fun x336 => n (pic_order_cnt_lsb (vh_poc x336)))))])
  = Some ([[4]; [20]; [0]; [0]; [0]; [0]; [2]; [1]; [1]]%Z).
Proof. vm_compute. reflexivity. Qed.
Example tv_slice_header_in_scalable_extension_TestDisableDeblockingFilterIdcRange : let tv_buffer
  := [0; 0; 0; 1; 39; 66; 224; 13; 149; 150; 23; 31; 229; 208; 0; 0; 0; 1; 47; 83; 128; 40; 75;
  10; 203; 5; 193; 239; 19; 165; 8; 0; 0; 0; 1; 40; 74; 224; 71; 32; 0; 0; 0; 1; 20; 128; 16; 103;
  208; 15; 114; 76; 65; 131; 47; 172; 63; 11; 94; 25; 76; 124; 63; 37; 133; 112; 84; 69; 129; 112;
  14; 67; 211; 200; 39; 190; 200; 43; 128; 169; 140; 215; 4; 179; 32; 102; 96; 142; 206; 16; 101;
  145; 183; 251; 206; 22; 97; 73; 176; 197; 169; 205; 123; 233; 9; 223; 104; 153; 135; 223; 123;
  120; 197; 244; 187; 198] in
  vals (fst (ParseBitstream true true tv_buffer 116 (mkw (mkst [] [] []) 0))) (fun v => [
    size v;
    ptr (nth_error v 3) (fun x337 => n (nal_unit_type (nu_header (fst (fst x337)))));
    ptr (nth_error v 3) (fun x338 => isnull (pl_slice_ext (nu_payload (fst (fst x338)))));
        ptr (nth_error v 3) (fun x339 => ptr (pl_slice_ext (nu_payload (fst (fst x339)))) (fun
      x340 => isnull (sx_svc_slice_header x340)));
        ptr (nth_error v 3) (fun x341 => ptr (pl_slice_ext (nu_payload (fst (fst x341)))) (fun
      x342 => ptr (sx_svc_slice_header x342) (fun x343 => n (disable_deblocking_filter_idc (vh_dbk
      x343)))));
        ptr (nth_error v 3) (fun x344 => ptr (pl_slice_ext (nu_payload (fst (fst x344)))) (fun
      x345 => ptr (sx_svc_slice_header x345) (fun x346 => n (first_mb_in_slice (vh_lead x346)))));
        ptr (nth_error v 3) (fun x347 => ptr (pl_slice_ext (nu_payload (fst (fst x347)))) (fun
      x348 => ptr (sx_svc_slice_header x348) (fun x349 => n (slice_type (vh_lead x349)))));
        ptr (nth_error v 3) (fun x350 => ptr (pl_slice_ext (nu_payload (fst (fst x350)))) (fun
      x351 => ptr (sx_svc_slice_header x351) (fun x352 => n (pic_parameter_set_id (vh_lead
      x352)))));
        ptr (nth_error v 3) (fun x353 => ptr (pl_slice_ext (nu_payload (fst (fst x353)))) (fun
      x354 => ptr (sx_svc_slice_header x354) (fun x355 => n (frame_num (vh_pic x355)))));
        ptr (nth_error v 3) (fun x356 => ptr (pl_slice_ext (nu_payload (fst (fst x356)))) (fun
      x357 => ptr (sx_svc_slice_header x357) (fun x358 => n (in_quality_id (vh_svin x358)))));
        ptr (nth_error v 3) (fun x359 => ptr (pl_slice_ext (nu_payload (fst (fst x359)))) (fun
      x360 => ptr (sx_svc_slice_header x360) (fun x361 => z (vh_slice_qp_delta x361))))])
  = Some ([[4]; [20]; [0]; [0]; [3]; [0]; [0]; [1]; [1]; [0]; [3]]%Z).
Proof. vm_compute. reflexivity. Qed.

(** /repo/test/h264_slice_header_parser_unittest.cc *)
Example tv_slice_header_TestSampleSliceIDR601 : let tv_buffer := [136; 130; 6; 120; 140; 80; 0;
  28; 171; 142; 0; 2; 251; 49; 192; 0; 95; 102; 251; 239; 190] in
    vals (bytesu (ParseSliceHeader 3 5 (mkst [(0, (mksps 0 0 0 0 0 0 0 0 0 0 1 0 0 0 0 0 scal0 1 2
    0 0 0 0 0 [] 0 0 0 0 1 0 0 0 0 0 0 0 0 None UNSPECIFIED))] [(0, (mkpps 0 0 0 0 0 0 0 [] [] 0 0
    0 [] 0 0 0 0 0 0 0 1 0 0 0 0 scal0 0))] [])) tv_buffer 21) (fun v => [
    n (first_mb_in_slice (sh_lead v));
    n (slice_type (sh_lead v));
    n (pic_parameter_set_id (sh_lead v));
    n (frame_num (sh_pic v));
    n (field_pic_flag (sh_pic v));
    n (bottom_field_flag (sh_pic v));
    n (sh_idr_pic_id v);
    n (pic_order_cnt_lsb (sh_poc v));
    z (delta_pic_order_cnt_bottom (sh_poc v));
    size (delta_pic_order_cnt (sh_poc v));
    n (sh_redundant_pic_cnt v);
    n (direct_spatial_mv_pred_flag (sh_refs v));
    n (num_ref_idx_active_override_flag (sh_refs v));
    n (num_ref_idx_l0_active_minus1 (sh_refs v));
    n (num_ref_idx_l1_active_minus1 (sh_refs v));
    notnull;
    n (rp_flag_l0 (sh_ref_pic_list_modification v));
    n (rp_flag_l1 (sh_ref_pic_list_modification v));
    size (rp_modification_of_pic_nums_idc (sh_ref_pic_list_modification v));
    size (rp_abs_diff_pic_num_minus1 (sh_ref_pic_list_modification v));
    size (rp_long_term_pic_num (sh_ref_pic_list_modification v));
    isnull (sh_pred_weight_table v);
    isnull (sh_dec_ref_pic_marking v);
    ptr (sh_dec_ref_pic_marking v) (fun x362 => n (dr_no_output_of_prior_pics_flag x362));
    ptr (sh_dec_ref_pic_marking v) (fun x363 => n (dr_long_term_reference_flag x363));
    ptr (sh_dec_ref_pic_marking v) (fun x364 => n (dr_adaptive_ref_pic_marking_mode_flag x364));
        ptr (sh_dec_ref_pic_marking v) (fun x365 => size (dr_memory_management_control_operation
      x365));
    ptr (sh_dec_ref_pic_marking v) (fun x366 => size (dr_difference_of_pic_nums_minus1 x366));
    ptr (sh_dec_ref_pic_marking v) (fun x367 => size (dr_long_term_pic_num x367));
    ptr (sh_dec_ref_pic_marking v) (fun x368 => size (dr_long_term_frame_idx x368));
    ptr (sh_dec_ref_pic_marking v) (fun x369 => size (dr_max_long_term_frame_idx_plus1 x369));
    n (sh_cabac_init_idc v);
    n (sp_for_switch_flag (sh_spqs v));
    z (sh_slice_qp_delta v);
    z (slice_qs_delta (sh_spqs v));
    n (disable_deblocking_filter_idc (sh_dbk v));
    z (slice_alpha_c0_offset_div2 (sh_dbk v));
    z (slice_beta_offset_div2 (sh_dbk v));
    n (sh_slice_group_change_cycle v)])
    = Some ([[0]; [7]; [0]; [0]; [0]; [0]; [0]; [0]; [0]; [0]; [0]; [0]; [0]; [0]; [0]; [0]; [0];
    [0]; [0]; [0]; [0]; [1]; [0]; [0]; [0]; [0]; [0]; [0]; [0]; [0]; [0]; [0]; [0]; [-12]; [0];
    [0]; [0]; [0]; [0]]%Z).
Proof. vm_compute. reflexivity. Qed.
Example tv_slice_header_TestSampleSliceNonIDR601 : let tv_buffer := [154; 28; 12; 240; 9; 108] in
    vals (bytesu (ParseSliceHeader 2 1 (mkst [(0, (mksps 0 0 0 0 0 0 0 0 0 0 1 0 0 0 0 0 scal0 1 2
    0 0 0 0 0 [] 0 0 0 0 1 0 0 0 0 0 0 0 0 None UNSPECIFIED))] [(0, (mkpps 0 0 0 0 0 0 0 [] [] 0 0
    0 [] 0 0 0 0 0 0 0 1 0 0 0 0 scal0 0))] [])) tv_buffer 6) (fun v => [
    n (first_mb_in_slice (sh_lead v));
    n (slice_type (sh_lead v));
    n (pic_parameter_set_id (sh_lead v));
    n (frame_num (sh_pic v));
    n (field_pic_flag (sh_pic v));
    n (bottom_field_flag (sh_pic v));
    n (sh_idr_pic_id v);
    n (pic_order_cnt_lsb (sh_poc v));
    z (delta_pic_order_cnt_bottom (sh_poc v));
    size (delta_pic_order_cnt (sh_poc v));
    n (sh_redundant_pic_cnt v);
    n (direct_spatial_mv_pred_flag (sh_refs v));
    n (num_ref_idx_active_override_flag (sh_refs v));
    n (num_ref_idx_l0_active_minus1 (sh_refs v));
    n (num_ref_idx_l1_active_minus1 (sh_refs v));
    notnull;
    n (rp_flag_l0 (sh_ref_pic_list_modification v));
    n (rp_flag_l1 (sh_ref_pic_list_modification v));
    size (rp_modification_of_pic_nums_idc (sh_ref_pic_list_modification v));
    size (rp_abs_diff_pic_num_minus1 (sh_ref_pic_list_modification v));
    size (rp_long_term_pic_num (sh_ref_pic_list_modification v));
    isnull (sh_pred_weight_table v);
    isnull (sh_dec_ref_pic_marking v);
    ptr (sh_dec_ref_pic_marking v) (fun x370 => n (dr_no_output_of_prior_pics_flag x370));
    ptr (sh_dec_ref_pic_marking v) (fun x371 => n (dr_long_term_reference_flag x371));
    ptr (sh_dec_ref_pic_marking v) (fun x372 => n (dr_adaptive_ref_pic_marking_mode_flag x372));
        ptr (sh_dec_ref_pic_marking v) (fun x373 => size (dr_memory_management_control_operation
      x373));
    ptr (sh_dec_ref_pic_marking v) (fun x374 => size (dr_difference_of_pic_nums_minus1 x374));
    ptr (sh_dec_ref_pic_marking v) (fun x375 => size (dr_long_term_pic_num x375));
    ptr (sh_dec_ref_pic_marking v) (fun x376 => size (dr_long_term_frame_idx x376));
    ptr (sh_dec_ref_pic_marking v) (fun x377 => size (dr_max_long_term_frame_idx_plus1 x377));
    n (sh_cabac_init_idc v);
    n (sp_for_switch_flag (sh_spqs v));
    z (sh_slice_qp_delta v);
    z (slice_qs_delta (sh_spqs v));
    n (disable_deblocking_filter_idc (sh_dbk v));
    z (slice_alpha_c0_offset_div2 (sh_dbk v));
    z (slice_beta_offset_div2 (sh_dbk v));
    n (sh_slice_group_change_cycle v)])
    = Some ([[0]; [5]; [0]; [1]; [0]; [0]; [0]; [0]; [0]; [0]; [0]; [0]; [1]; [0]; [0]; [0]; [0];
    [0]; [0]; [0]; [0]; [1]; [0]; [0]; [0]; [0]; [0]; [0]; [0]; [0]; [0]; [0]; [0]; [-12]; [0];
    [0]; [0]; [0]; [0]]%Z).
Proof. vm_compute. reflexivity. Qed.
Example tv_slice_header_TestDeltaPicOrderCntBothEntries : let tv_buffer := [226; 244; 175; 255;
  240; 24; 14; 248; 30; 209; 10; 255; 10; 116; 167; 102; 211; 26; 54; 128; 113; 110; 172; 16] in
    vals (bytesu (ParseSliceHeader 2 1 (mkst [(0, (mksps 0 0 0 0 0 0 0 0 0 0 1 0 0 0 0 0 scal0 0 1
    0 0 0 0 0 [] 0 0 11 3 0 0 0 0 0 0 0 0 0 None UNSPECIFIED))] [(0, (mkpps 0 0 0 1 1 0 0 [] [] 0
    0 0 [] 4 0 0 0 0 0 0 0 0 0 0 0 scal0 0))] [])) tv_buffer 24) (fun v => [
    n (first_mb_in_slice (sh_lead v));
    n (slice_type (sh_lead v));
    n (pic_parameter_set_id (sh_lead v));
    n (frame_num (sh_pic v));
    n (field_pic_flag (sh_pic v));
    n (in_bottom_field_pic_order_in_frame_present_flag (sh_in v));
    size (delta_pic_order_cnt (sh_poc v));
    ptr (nth_error (delta_pic_order_cnt (sh_poc v)) 0) (fun x378 => z x378);
    ptr (nth_error (delta_pic_order_cnt (sh_poc v)) 1) (fun x379 => z x379);
    n (num_ref_idx_active_override_flag (sh_refs v));
    n (num_ref_idx_l0_active_minus1 (sh_refs v));
    notnull;
    n (rp_flag_l0 (sh_ref_pic_list_modification v));
    n (rp_flag_l1 (sh_ref_pic_list_modification v));
    isnull (sh_dec_ref_pic_marking v);
    ptr (sh_dec_ref_pic_marking v) (fun x380 => n (dr_adaptive_ref_pic_marking_mode_flag x380));
        ptr (sh_dec_ref_pic_marking v) (fun x381 => size (dr_memory_management_control_operation
      x381));
        ptr (sh_dec_ref_pic_marking v) (fun x382 => ptr (nth_error
      (dr_memory_management_control_operation x382) 0) (fun x383 => n x383));
        ptr (sh_dec_ref_pic_marking v) (fun x384 => ptr (nth_error
      (dr_memory_management_control_operation x384) 1) (fun x385 => n x385));
    ptr (sh_dec_ref_pic_marking v) (fun x386 => size (dr_max_long_term_frame_idx_plus1 x386));
        ptr (sh_dec_ref_pic_marking v) (fun x387 => ptr (nth_error
      (dr_max_long_term_frame_idx_plus1 x387) 0) (fun x388 => n x388));
    n (sh_cabac_init_idc v);
    z (sh_slice_qp_delta v)])
    = Some ([[0]; [0]; [0]; [1]; [0]; [1]; [2]; [0]; [0]; [1]; [0]; [0]; [0]; [0]; [0]; [1]; [2];
    [4]; [0]; [1]; [2]; [0]; [0]]%Z).
Proof. vm_compute. reflexivity. Qed.

(** /repo/test/h264_slice_layer_extension_rbsp_parser_unittest.cc *)
Example tv_slice_layer_extension_rbsp_TestSampleSlice01 : let tv_buffer := [180; 4; 95; 192; 196;
  66; 0; 4; 224; 207; 192; 248; 0; 26; 100; 5; 99; 251; 19; 159; 252; 177; 191; 199; 133; 62; 107;
  77; 6; 217; 223; 32; 149; 254; 178; 180; 237; 33; 244; 224] in
    vals (fst (unescaping true (ParseSliceLayerExtensionRbsp (mknalh 0 3 20 1 0 (Some (mksvc 1 0 1
    1 0 0 0 1 1 3)))) tv_buffer 40 (mkw (mkst [(0, (mksps 66 0 0 0 0 0 0 0 0 0 1 0 0 0 0 0 scal0 1
    2 0 0 0 0 0 [] 0 0 10 8 1 0 0 0 0 0 0 0 0 None UNSPECIFIED))] [(0, (mkpps 0 0 0 0 0 0 0 [] []
    0 0 0 [] 0 0 0 0 0 0 0 1 0 0 0 0 scal0 0)); (1, (mkpps 0 1 0 0 0 0 0 [] [] 0 0 0 [] 0 0 0 0 0
    0 0 1 0 0 0 0 scal0 0))] [(0, (mksubsps (mksps 83 0 0 0 0 0 0 0 0 0 1 0 0 0 0 0 scal0 1 2 0 0
    0 0 0 [] 0 0 21 17 1 0 0 0 0 0 0 0 0 None UNSPECIFIED) (Some (mkspssvc 0 1 0 0 0 0 0 0 0 0 0 0
    0 1)) 0 0 0 0 0))]) 0))) (fun v => [
    isnull v;
    ptr v (fun x389 => isnull (sx_svc_slice_header x389));
        ptr v (fun x390 => ptr (sx_svc_slice_header x390) (fun x391 => n (first_mb_in_slice
      (vh_lead x391))));
    ptr v (fun x392 => ptr (sx_svc_slice_header x392) (fun x393 => n (slice_type (vh_lead x393))));
        ptr v (fun x394 => ptr (sx_svc_slice_header x394) (fun x395 => n (pic_parameter_set_id
      (vh_lead x395))));
        ptr v (fun x396 => ptr (sx_svc_slice_header x396) (fun x397 => n (colour_plane_id (vh_pic
      x397))));
    ptr v (fun x398 => ptr (sx_svc_slice_header x398) (fun x399 => n (frame_num (vh_pic x399))));
        ptr v (fun x400 => ptr (sx_svc_slice_header x400) (fun x401 => n (field_pic_flag (vh_pic
      x401))));
        ptr v (fun x402 => ptr (sx_svc_slice_header x402) (fun x403 => n (bottom_field_flag
      (vh_pic x403))));
    ptr v (fun x404 => ptr (sx_svc_slice_header x404) (fun x405 => n (vh_idr_pic_id x405)));
        ptr v (fun x406 => ptr (sx_svc_slice_header x406) (fun x407 => n (pic_order_cnt_lsb
      (vh_poc x407))));
        ptr v (fun x408 => ptr (sx_svc_slice_header x408) (fun x409 => z
      (delta_pic_order_cnt_bottom (vh_poc x409))));
        ptr v (fun x410 => ptr (sx_svc_slice_header x410) (fun x411 => size (delta_pic_order_cnt
      (vh_poc x411))));
        ptr v (fun x412 => ptr (sx_svc_slice_header x412) (fun x413 => n
      (direct_spatial_mv_pred_flag (q_refs (vh_qzero x413)))));
        ptr v (fun x414 => ptr (sx_svc_slice_header x414) (fun x415 => n
      (num_ref_idx_active_override_flag (q_refs (vh_qzero x415)))));
        ptr v (fun x416 => ptr (sx_svc_slice_header x416) (fun x417 => n
      (num_ref_idx_l0_active_minus1 (q_refs (vh_qzero x417)))));
        ptr v (fun x418 => ptr (sx_svc_slice_header x418) (fun x419 => n
      (num_ref_idx_l1_active_minus1 (q_refs (vh_qzero x419)))));
        ptr v (fun x420 => ptr (sx_svc_slice_header x420) (fun x421 => isnull
      (q_ref_pic_list_modification (vh_qzero x421))));
        ptr v (fun x422 => ptr (sx_svc_slice_header x422) (fun x423 => ptr
      (q_ref_pic_list_modification (vh_qzero x423)) (fun x424 => n (rp_slice_type x424))));
        ptr v (fun x425 => ptr (sx_svc_slice_header x425) (fun x426 => ptr
      (q_ref_pic_list_modification (vh_qzero x426)) (fun x427 => n (rp_flag_l0 x427))));
        ptr v (fun x428 => ptr (sx_svc_slice_header x428) (fun x429 => ptr
      (q_ref_pic_list_modification (vh_qzero x429)) (fun x430 => size
      (rp_modification_of_pic_nums_idc x430))));
        ptr v (fun x431 => ptr (sx_svc_slice_header x431) (fun x432 => ptr
      (q_ref_pic_list_modification (vh_qzero x432)) (fun x433 => size (rp_abs_diff_pic_num_minus1
      x433))));
        ptr v (fun x434 => ptr (sx_svc_slice_header x434) (fun x435 => ptr
      (q_ref_pic_list_modification (vh_qzero x435)) (fun x436 => size (rp_long_term_pic_num
      x436))));
        ptr v (fun x437 => ptr (sx_svc_slice_header x437) (fun x438 => ptr
      (q_ref_pic_list_modification (vh_qzero x438)) (fun x439 => n (rp_flag_l1 x439))));
        ptr v (fun x440 => ptr (sx_svc_slice_header x440) (fun x441 => n
      (q_base_pred_weight_table_flag (vh_qzero x441))));
        ptr v (fun x442 => ptr (sx_svc_slice_header x442) (fun x443 => isnull (q_pred_weight_table
      (vh_qzero x443))));
        ptr v (fun x444 => ptr (sx_svc_slice_header x444) (fun x445 => isnull
      (q_dec_ref_pic_marking (vh_qzero x445))));
        ptr v (fun x446 => ptr (sx_svc_slice_header x446) (fun x447 => ptr (q_dec_ref_pic_marking
      (vh_qzero x447)) (fun x448 => n (dr_IdrPicFlag x448))));
        ptr v (fun x449 => ptr (sx_svc_slice_header x449) (fun x450 => ptr (q_dec_ref_pic_marking
      (vh_qzero x450)) (fun x451 => n (dr_no_output_of_prior_pics_flag x451))));
        ptr v (fun x452 => ptr (sx_svc_slice_header x452) (fun x453 => ptr (q_dec_ref_pic_marking
      (vh_qzero x453)) (fun x454 => n (dr_long_term_reference_flag x454))));
        ptr v (fun x455 => ptr (sx_svc_slice_header x455) (fun x456 => ptr (q_dec_ref_pic_marking
      (vh_qzero x456)) (fun x457 => n (dr_adaptive_ref_pic_marking_mode_flag x457))));
        ptr v (fun x458 => ptr (sx_svc_slice_header x458) (fun x459 => ptr (q_dec_ref_pic_marking
      (vh_qzero x459)) (fun x460 => size (dr_memory_management_control_operation x460))));
        ptr v (fun x461 => ptr (sx_svc_slice_header x461) (fun x462 => ptr (q_dec_ref_pic_marking
      (vh_qzero x462)) (fun x463 => size (dr_difference_of_pic_nums_minus1 x463))));
        ptr v (fun x464 => ptr (sx_svc_slice_header x464) (fun x465 => ptr (q_dec_ref_pic_marking
      (vh_qzero x465)) (fun x466 => size (dr_long_term_pic_num x466))));
        ptr v (fun x467 => ptr (sx_svc_slice_header x467) (fun x468 => ptr (q_dec_ref_pic_marking
      (vh_qzero x468)) (fun x469 => size (dr_long_term_frame_idx x469))));
        ptr v (fun x470 => ptr (sx_svc_slice_header x470) (fun x471 => ptr (q_dec_ref_pic_marking
      (vh_qzero x471)) (fun x472 => size (dr_max_long_term_frame_idx_plus1 x472))));
        ptr v (fun x473 => ptr (sx_svc_slice_header x473) (fun x474 => n
      (q_store_ref_base_pic_flag (vh_qzero x474))));
    ptr v (fun x475 => ptr (sx_svc_slice_header x475) (fun x476 => n (vh_cabac_init_idc x476)));
    ptr v (fun x477 => ptr (sx_svc_slice_header x477) (fun x478 => z (vh_slice_qp_delta x478)));
        ptr v (fun x479 => ptr (sx_svc_slice_header x479) (fun x480 => n
      (disable_deblocking_filter_idc (vh_dbk x480))));
        ptr v (fun x481 => ptr (sx_svc_slice_header x481) (fun x482 => z
      (slice_alpha_c0_offset_div2 (vh_dbk x482))));
        ptr v (fun x483 => ptr (sx_svc_slice_header x483) (fun x484 => z (slice_beta_offset_div2
      (vh_dbk x484))));
        ptr v (fun x485 => ptr (sx_svc_slice_header x485) (fun x486 => n
      (vh_slice_group_change_cycle x486)));
        ptr v (fun x487 => ptr (sx_svc_slice_header x487) (fun x488 => n (il_ref_layer_dq_id
      (vh_ilayer x488))));
        ptr v (fun x489 => ptr (sx_svc_slice_header x489) (fun x490 => n
      (il_disable_inter_layer_deblocking_filter_idc (vh_ilayer x490))));
        ptr v (fun x491 => ptr (sx_svc_slice_header x491) (fun x492 => z
      (il_inter_layer_slice_alpha_c0_offset_div2 (vh_ilayer x492))));
        ptr v (fun x493 => ptr (sx_svc_slice_header x493) (fun x494 => z
      (il_inter_layer_slice_beta_offset_div2 (vh_ilayer x494))));
        ptr v (fun x495 => ptr (sx_svc_slice_header x495) (fun x496 => n
      (il_constrained_intra_resampling_flag (vh_ilayer x496))));
        ptr v (fun x497 => ptr (sx_svc_slice_header x497) (fun x498 => n (mo_slice_skip_flag
      (vh_modes x498))));
        ptr v (fun x499 => ptr (sx_svc_slice_header x499) (fun x500 => n
      (mo_num_mbs_in_slice_minus1 (vh_modes x500))));
        ptr v (fun x501 => ptr (sx_svc_slice_header x501) (fun x502 => n
      (mo_adaptive_base_mode_flag (vh_modes x502))));
        ptr v (fun x503 => ptr (sx_svc_slice_header x503) (fun x504 => n
      (mo_default_base_mode_flag (vh_modes x504))));
        ptr v (fun x505 => ptr (sx_svc_slice_header x505) (fun x506 => n
      (mo_adaptive_residual_prediction_flag (vh_modes x506))));
        ptr v (fun x507 => ptr (sx_svc_slice_header x507) (fun x508 => n
      (mo_default_residual_prediction_flag (vh_modes x508))));
    ptr v (fun x509 => ptr (sx_svc_slice_header x509) (fun x510 => n (vh_scan_idx_start x510)));
    ptr v (fun x511 => ptr (sx_svc_slice_header x511) (fun x512 => n (vh_scan_idx_end x512)))])
    = Some ([[0]; [0]; [0]; [2]; [1]; [0]; [0]; [0]; [0]; [1]; [0]; [0]; [0]; [0]; [0]; [0]; [0];
    [0]; [2]; [0]; [0]; [0]; [0]; [0]; [0]; [1]; [0]; [1]; [0]; [0]; [0]; [0]; [0]; [0]; [0]; [0];
    [0]; [0]; [0]; [2]; [0]; [0]; [0]; [0]; [0]; [0]; [0]; [0]; [0]; [0]; [0]; [0]; [0]; [0]; [0];
    [0]]%Z).
Proof. vm_compute. reflexivity. Qed.

(** /repo/test/h264_slice_layer_without_partitioning_rbsp_parser_unittest.cc *)
Example tv_slice_layer_without_partitioning_rbsp_TestSampleSliceIDR601 : let tv_buffer := [136;
  130; 6; 120; 140; 80; 0; 28; 171; 142; 0; 2; 251; 49; 192; 0; 95; 102; 251; 239; 190] in
    vals (bytesu (ParseSliceLayerWithoutPartitioningRbsp 3 5 (mkst [(0, (mksps 0 0 0 0 0 0 0 0 0 0
    1 0 0 0 0 0 scal0 1 2 0 0 0 0 0 [] 0 0 0 0 1 0 0 0 0 0 0 0 0 None UNSPECIFIED))] [(0, (mkpps 0
    0 0 0 0 0 0 [] [] 0 0 0 [] 0 0 0 0 0 0 0 1 0 0 0 0 scal0 0))] [])) tv_buffer 21) (fun v => [
    n (first_mb_in_slice (sh_lead (sl_slice_header v)));
    n (slice_type (sh_lead (sl_slice_header v)));
    n (pic_parameter_set_id (sh_lead (sl_slice_header v)));
    n (frame_num (sh_pic (sl_slice_header v)));
    n (field_pic_flag (sh_pic (sl_slice_header v)));
    n (bottom_field_flag (sh_pic (sl_slice_header v)));
    n (sh_idr_pic_id (sl_slice_header v));
    n (pic_order_cnt_lsb (sh_poc (sl_slice_header v)));
    z (delta_pic_order_cnt_bottom (sh_poc (sl_slice_header v)));
    size (delta_pic_order_cnt (sh_poc (sl_slice_header v)));
    n (sh_redundant_pic_cnt (sl_slice_header v));
    n (direct_spatial_mv_pred_flag (sh_refs (sl_slice_header v)));
    n (num_ref_idx_active_override_flag (sh_refs (sl_slice_header v)));
    n (num_ref_idx_l0_active_minus1 (sh_refs (sl_slice_header v)));
    n (num_ref_idx_l1_active_minus1 (sh_refs (sl_slice_header v)));
    notnull;
    n (rp_flag_l0 (sh_ref_pic_list_modification (sl_slice_header v)));
    n (rp_flag_l1 (sh_ref_pic_list_modification (sl_slice_header v)));
    size (rp_modification_of_pic_nums_idc (sh_ref_pic_list_modification (sl_slice_header v)));
    size (rp_abs_diff_pic_num_minus1 (sh_ref_pic_list_modification (sl_slice_header v)));
    size (rp_long_term_pic_num (sh_ref_pic_list_modification (sl_slice_header v)));
    isnull (sh_pred_weight_table (sl_slice_header v));
    isnull (sh_dec_ref_pic_marking (sl_slice_header v));
        ptr (sh_dec_ref_pic_marking (sl_slice_header v)) (fun x513 => n
      (dr_no_output_of_prior_pics_flag x513));
        ptr (sh_dec_ref_pic_marking (sl_slice_header v)) (fun x514 => n
      (dr_long_term_reference_flag x514));
        ptr (sh_dec_ref_pic_marking (sl_slice_header v)) (fun x515 => n
      (dr_adaptive_ref_pic_marking_mode_flag x515));
        ptr (sh_dec_ref_pic_marking (sl_slice_header v)) (fun x516 => size
      (dr_memory_management_control_operation x516));
        ptr (sh_dec_ref_pic_marking (sl_slice_header v)) (fun x517 => size
      (dr_difference_of_pic_nums_minus1 x517));
        ptr (sh_dec_ref_pic_marking (sl_slice_header v)) (fun x518 => size (dr_long_term_pic_num
      x518));
        ptr (sh_dec_ref_pic_marking (sl_slice_header v)) (fun x519 => size (dr_long_term_frame_idx
      x519));
        ptr (sh_dec_ref_pic_marking (sl_slice_header v)) (fun x520 => size
      (dr_max_long_term_frame_idx_plus1 x520));
    n (sh_cabac_init_idc (sl_slice_header v));
    n (sp_for_switch_flag (sh_spqs (sl_slice_header v)));
    z (sh_slice_qp_delta (sl_slice_header v));
    z (slice_qs_delta (sh_spqs (sl_slice_header v)));
    n (disable_deblocking_filter_idc (sh_dbk (sl_slice_header v)));
    z (slice_alpha_c0_offset_div2 (sh_dbk (sl_slice_header v)));
    z (slice_beta_offset_div2 (sh_dbk (sl_slice_header v)));
    n (sh_slice_group_change_cycle (sl_slice_header v))])
    = Some ([[0]; [7]; [0]; [0]; [0]; [0]; [0]; [0]; [0]; [0]; [0]; [0]; [0]; [0]; [0]; [0]; [0];
    [0]; [0]; [0]; [0]; [1]; [0]; [0]; [0]; [0]; [0]; [0]; [0]; [0]; [0]; [0]; [0]; [-12]; [0];
    [0]; [0]; [0]; [0]]%Z).
Proof. vm_compute. reflexivity. Qed.
Example tv_slice_layer_without_partitioning_rbsp_TestSampleSliceNonIDR601 : let tv_buffer := [154;
  28; 12; 240; 9; 108] in
    vals (bytesu (ParseSliceLayerWithoutPartitioningRbsp 2 1 (mkst [(0, (mksps 0 0 0 0 0 0 0 0 0 0
    1 0 0 0 0 0 scal0 1 2 0 0 0 0 0 [] 0 0 0 0 1 0 0 0 0 0 0 0 0 None UNSPECIFIED))] [(0, (mkpps 0
    0 0 0 0 0 0 [] [] 0 0 0 [] 0 0 0 0 0 0 0 1 0 0 0 0 scal0 0))] [])) tv_buffer 6) (fun v => [
    n (first_mb_in_slice (sh_lead (sl_slice_header v)));
    n (slice_type (sh_lead (sl_slice_header v)));
    n (pic_parameter_set_id (sh_lead (sl_slice_header v)));
    n (frame_num (sh_pic (sl_slice_header v)));
    n (field_pic_flag (sh_pic (sl_slice_header v)));
    n (bottom_field_flag (sh_pic (sl_slice_header v)));
    n (sh_idr_pic_id (sl_slice_header v));
    n (pic_order_cnt_lsb (sh_poc (sl_slice_header v)));
    z (delta_pic_order_cnt_bottom (sh_poc (sl_slice_header v)));
    size (delta_pic_order_cnt (sh_poc (sl_slice_header v)));
    n (sh_redundant_pic_cnt (sl_slice_header v));
    n (direct_spatial_mv_pred_flag (sh_refs (sl_slice_header v)));
    n (num_ref_idx_active_override_flag (sh_refs (sl_slice_header v)));
    n (num_ref_idx_l0_active_minus1 (sh_refs (sl_slice_header v)));
    n (num_ref_idx_l1_active_minus1 (sh_refs (sl_slice_header v)));
    notnull;
    n (rp_flag_l0 (sh_ref_pic_list_modification (sl_slice_header v)));
    n (rp_flag_l1 (sh_ref_pic_list_modification (sl_slice_header v)));
    size (rp_modification_of_pic_nums_idc (sh_ref_pic_list_modification (sl_slice_header v)));
    size (rp_abs_diff_pic_num_minus1 (sh_ref_pic_list_modification (sl_slice_header v)));
    size (rp_long_term_pic_num (sh_ref_pic_list_modification (sl_slice_header v)));
    isnull (sh_pred_weight_table (sl_slice_header v));
    isnull (sh_dec_ref_pic_marking (sl_slice_header v));
        ptr (sh_dec_ref_pic_marking (sl_slice_header v)) (fun x521 => n
      (dr_no_output_of_prior_pics_flag x521));
        ptr (sh_dec_ref_pic_marking (sl_slice_header v)) (fun x522 => n
      (dr_long_term_reference_flag x522));
        ptr (sh_dec_ref_pic_marking (sl_slice_header v)) (fun x523 => n
      (dr_adaptive_ref_pic_marking_mode_flag x523));
        ptr (sh_dec_ref_pic_marking (sl_slice_header v)) (fun x524 => size
      (dr_memory_management_control_operation x524));
        ptr (sh_dec_ref_pic_marking (sl_slice_header v)) (fun x525 => size
      (dr_difference_of_pic_nums_minus1 x525));
        ptr (sh_dec_ref_pic_marking (sl_slice_header v)) (fun x526 => size (dr_long_term_pic_num
      x526));
        ptr (sh_dec_ref_pic_marking (sl_slice_header v)) (fun x527 => size (dr_long_term_frame_idx
      x527));
        ptr (sh_dec_ref_pic_marking (sl_slice_header v)) (fun x528 => size
      (dr_max_long_term_frame_idx_plus1 x528));
    n (sh_cabac_init_idc (sl_slice_header v));
    n (sp_for_switch_flag (sh_spqs (sl_slice_header v)));
    z (sh_slice_qp_delta (sl_slice_header v));
    z (slice_qs_delta (sh_spqs (sl_slice_header v)));
    n (disable_deblocking_filter_idc (sh_dbk (sl_slice_header v)));
    z (slice_alpha_c0_offset_div2 (sh_dbk (sl_slice_header v)));
    z (slice_beta_offset_div2 (sh_dbk (sl_slice_header v)));
    n (sh_slice_group_change_cycle (sl_slice_header v))])
    = Some ([[0]; [5]; [0]; [1]; [0]; [0]; [0]; [0]; [0]; [0]; [0]; [0]; [1]; [0]; [0]; [0]; [0];
    [0]; [0]; [0]; [0]; [1]; [0]; [0]; [0]; [0]; [0]; [0]; [0]; [0]; [0]; [0]; [0]; [-12]; [0];
    [0]; [0]; [0]; [0]]%Z).
Proof. vm_compute. reflexivity. Qed.

(** /repo/test/h264_sps_extension_parser_unittest.cc *)
Example tv_sps_extension_TestSample01 : let tv_buffer := [162; 60; 60; 60; 0] in
  vals (bytes ParseSpsExtension tv_buffer 5) (fun v => [
    n (se_seq_parameter_set_id v);
    n (se_aux_format_idc v);
    n (se_bit_depth_aux_minus8 v);
    n (se_alpha_incr_flag v);
    n (se_alpha_opaque_value v);
    n (se_alpha_transparent_value v);
    n (se_additional_extension_flag v)])
  = Some ([[0]; [1]; [3]; [0]; [3855]; [240]; [0]]%Z).
Proof. vm_compute. reflexivity. Qed.

(** /repo/test/h264_sps_parser_unittest.cc *)
Example tv_sps_TestSampleSPS601 : let tv_buffer := [66; 192; 22; 166; 17; 5; 7; 233; 178; 0; 0; 3;
  0; 2; 0; 0; 3; 0; 100; 30; 44; 92; 35; 0] in
  vals (bytes ParseSps tv_buffer 24) (fun v => [
    notnull;
    n (profile_idc v);
    n (constraint_set0_flag v);
    n (constraint_set1_flag v);
    n (constraint_set2_flag v);
    n (constraint_set3_flag v);
    n (constraint_set4_flag v);
    n (constraint_set5_flag v);
    n (reserved_zero_2bits v);
    n (level_idc v);
    n (seq_parameter_set_id v);
    n (chroma_format_idc v);
    n (log2_max_frame_num_minus4 v);
    n (pic_order_cnt_type v);
    n (max_num_ref_frames v);
    n (gaps_in_frame_num_value_allowed_flag v);
    n (pic_width_in_mbs_minus1 v);
    n (pic_height_in_map_units_minus1 v);
    n (frame_mbs_only_flag v);
    n (direct_8x8_inference_flag v);
    n (frame_cropping_flag v);
    n (vui_parameters_present_flag v);
    isnull (vui_parameters v);
    ptr (vui_parameters v) (fun x529 => n (aspect_ratio_info_present_flag x529));
    ptr (vui_parameters v) (fun x530 => n (overscan_info_present_flag x530));
    ptr (vui_parameters v) (fun x531 => n (video_signal_type_present_flag x531));
    ptr (vui_parameters v) (fun x532 => n (video_format x532));
    ptr (vui_parameters v) (fun x533 => n (video_full_range_flag x533));
    ptr (vui_parameters v) (fun x534 => n (colour_description_present_flag x534));
    ptr (vui_parameters v) (fun x535 => n (chroma_loc_info_present_flag x535));
    ptr (vui_parameters v) (fun x536 => n (timing_info_present_flag x536));
    ptr (vui_parameters v) (fun x537 => n (num_units_in_tick x537));
    ptr (vui_parameters v) (fun x538 => n (time_scale x538));
    ptr (vui_parameters v) (fun x539 => n (fixed_frame_rate_flag x539));
    ptr (vui_parameters v) (fun x540 => n (nal_hrd_parameters_present_flag x540));
    ptr (vui_parameters v) (fun x541 => n (vcl_hrd_parameters_present_flag x541));
    ptr (vui_parameters v) (fun x542 => n (pic_struct_present_flag x542));
    ptr (vui_parameters v) (fun x543 => n (bitstream_restriction_flag x543));
    ptr (vui_parameters v) (fun x544 => n (motion_vectors_over_pic_boundaries_flag x544));
    ptr (vui_parameters v) (fun x545 => n (max_bytes_per_pic_denom x545));
    ptr (vui_parameters v) (fun x546 => n (max_bits_per_mb_denom x546));
    ptr (vui_parameters v) (fun x547 => n (log2_max_mv_length_horizontal x547));
    ptr (vui_parameters v) (fun x548 => n (log2_max_mv_length_vertical x548));
    ptr (vui_parameters v) (fun x549 => n (max_num_reorder_frames x549));
    ptr (vui_parameters v) (fun x550 => n (max_dec_frame_buffering x550))])
    = Some ([[0]; [66]; [1]; [1]; [0]; [0]; [0]; [0]; [0]; [22]; [0]; [1]; [1]; [2]; [16]; [0];
    [19]; [14]; [1]; [1]; [0]; [1]; [0]; [0]; [0]; [1]; [5]; [1]; [0]; [0]; [1]; [1]; [50]; [0];
    [0]; [0]; [0]; [1]; [1]; [0]; [0]; [10]; [10]; [0]; [16]]%Z).
Proof. vm_compute. reflexivity. Qed.
Example tv_sps_TestSampleSPS2012 : let tv_buffer := [100; 0; 51; 172; 114; 132; 64; 120; 2; 39;
  229; 192; 68; 0; 0; 3; 0; 4; 0; 0; 3; 0; 240; 60; 96; 198; 17; 128] in
  vals (bytes ParseSps tv_buffer 28) (fun v => [
    notnull;
    n (profile_idc v);
    n (constraint_set0_flag v);
    n (constraint_set1_flag v);
    n (constraint_set2_flag v);
    n (constraint_set3_flag v);
    n (constraint_set4_flag v);
    n (constraint_set5_flag v);
    n (reserved_zero_2bits v);
    n (level_idc v);
    n (seq_parameter_set_id v);
    n (chroma_format_idc v);
    n (bit_depth_luma_minus8 v);
    n (bit_depth_chroma_minus8 v);
    n (qpprime_y_zero_transform_bypass_flag v);
    n (seq_scaling_matrix_present_flag v);
    n (log2_max_frame_num_minus4 v);
    n (pic_order_cnt_type v);
    n (log2_max_pic_order_cnt_lsb_minus4 v);
    n (max_num_ref_frames v);
    n (gaps_in_frame_num_value_allowed_flag v);
    n (pic_width_in_mbs_minus1 v);
    n (pic_height_in_map_units_minus1 v);
    n (frame_mbs_only_flag v);
    n (direct_8x8_inference_flag v);
    n (frame_cropping_flag v);
    n (frame_crop_left_offset v);
    n (frame_crop_right_offset v);
    n (frame_crop_top_offset v);
    n (frame_crop_bottom_offset v);
    n (vui_parameters_present_flag v);
    isnull (vui_parameters v);
    ptr (vui_parameters v) (fun x551 => n (aspect_ratio_info_present_flag x551));
    ptr (vui_parameters v) (fun x552 => n (aspect_ratio_idc x552));
    ptr (vui_parameters v) (fun x553 => n (overscan_info_present_flag x553));
    ptr (vui_parameters v) (fun x554 => n (video_signal_type_present_flag x554));
    ptr (vui_parameters v) (fun x555 => n (chroma_loc_info_present_flag x555));
    ptr (vui_parameters v) (fun x556 => n (timing_info_present_flag x556));
    ptr (vui_parameters v) (fun x557 => n (num_units_in_tick x557));
    ptr (vui_parameters v) (fun x558 => n (time_scale x558));
    ptr (vui_parameters v) (fun x559 => n (fixed_frame_rate_flag x559));
    ptr (vui_parameters v) (fun x560 => n (nal_hrd_parameters_present_flag x560));
    ptr (vui_parameters v) (fun x561 => n (vcl_hrd_parameters_present_flag x561));
    ptr (vui_parameters v) (fun x562 => n (pic_struct_present_flag x562));
    ptr (vui_parameters v) (fun x563 => n (bitstream_restriction_flag x563));
    ptr (vui_parameters v) (fun x564 => n (motion_vectors_over_pic_boundaries_flag x564));
    ptr (vui_parameters v) (fun x565 => n (max_bytes_per_pic_denom x565));
    ptr (vui_parameters v) (fun x566 => n (max_bits_per_mb_denom x566));
    ptr (vui_parameters v) (fun x567 => n (log2_max_mv_length_horizontal x567));
    ptr (vui_parameters v) (fun x568 => n (log2_max_mv_length_vertical x568));
    ptr (vui_parameters v) (fun x569 => n (max_num_reorder_frames x569));
    ptr (vui_parameters v) (fun x570 => n (max_dec_frame_buffering x570))])
    = Some ([[0]; [100]; [0]; [0]; [0]; [0]; [0]; [0]; [0]; [51]; [0]; [1]; [0]; [0]; [0]; [0];
    [2]; [0]; [4]; [16]; [0]; [119]; [67]; [1]; [1]; [1]; [0]; [0]; [0]; [4]; [1]; [0]; [1]; [1];
    [0]; [0]; [0]; [1]; [1]; [60]; [0]; [0]; [0]; [0]; [1]; [1]; [0]; [0]; [11]; [11]; [2];
    [16]]%Z).
Proof. vm_compute. reflexivity. Qed.
Example tv_sps_TestBaselineProfileWithCropping : let tv_buffer := [66; 192; 13; 217; 1; 65; 255;
  150; 108; 128; 0; 0; 3; 0; 128; 0; 0; 25; 7; 138; 21; 36; 0] in
  vals (bytes ParseSps tv_buffer 23) (fun v => [
    notnull;
    n (profile_idc v);
    prof (profile_type v) CONSTRAINED_BASELINE;
    n (level_idc v);
    n (chroma_format_idc v);
    n (log2_max_frame_num_minus4 v);
    n (pic_order_cnt_type v);
    n (max_num_ref_frames v);
    n (gaps_in_frame_num_value_allowed_flag v);
    n (pic_width_in_mbs_minus1 v);
    n (pic_height_in_map_units_minus1 v);
    n (frame_mbs_only_flag v);
    n (direct_8x8_inference_flag v);
    n (frame_cropping_flag v);
    n (frame_crop_left_offset v);
    n (frame_crop_right_offset v);
    n (frame_crop_top_offset v);
    n (frame_crop_bottom_offset v);
    n (vui_parameters_present_flag v);
    match getResolution v with Ok (w, h) => [w; h] | _ => [] end])
    = Some ([[0]; [66]; [1]; [13]; [1]; [0]; [2]; [3]; [0]; [19]; [14]; [1]; [1]; [1]; [0]; [0];
    [0]; [4]; [1]; [320; 232]]%Z).
Proof. vm_compute. reflexivity. Qed.
Example tv_sps_TestPaffSps : let tv_buffer := [77; 64; 30; 141; 65; 41; 12; 48; 22; 143; 36] in
  vals (bytes ParseSps tv_buffer 11) (fun v => [
    notnull;
    n (profile_idc v);
    n (constraint_set0_flag v);
    n (constraint_set1_flag v);
    n (constraint_set2_flag v);
    n (constraint_set3_flag v);
    n (constraint_set4_flag v);
    n (constraint_set5_flag v);
    n (reserved_zero_2bits v);
    n (level_idc v);
    n (seq_parameter_set_id v);
    n (chroma_format_idc v);
    n (log2_max_frame_num_minus4 v);
    n (pic_order_cnt_type v);
    n (delta_pic_order_always_zero_flag v);
    z (offset_for_non_ref_pic v);
    z (offset_for_top_to_bottom_field v);
    n (num_ref_frames_in_pic_order_cnt_cycle v);
    size (offset_for_ref_frame v);
    ptr (nth_error (offset_for_ref_frame v) 0) (fun x571 => z x571);
    n (max_num_ref_frames v);
    n (gaps_in_frame_num_value_allowed_flag v);
    n (pic_width_in_mbs_minus1 v);
    n (pic_height_in_map_units_minus1 v);
    n (frame_mbs_only_flag v);
    n (mb_adaptive_frame_field_flag v);
    n (direct_8x8_inference_flag v);
    n (frame_cropping_flag v);
    n (vui_parameters_present_flag v);
    match getResolution v with Ok (w, h) => [w; h] | _ => [] end])
    = Some ([[0]; [77]; [0]; [1]; [0]; [0]; [0]; [0]; [0]; [30]; [0]; [1]; [12]; [1]; [0]; [-4];
    [1]; [1]; [1]; [6]; [5]; [0]; [44]; [14]; [0]; [0]; [1]; [0]; [0]; [720; 480]]%Z).
Proof. vm_compute. reflexivity. Qed.
Example tv_sps_TestInterlacedSpsFrameHeight : let tv_buffer := [100; 0; 30; 172; 217; 64; 176;
  123; 96; 34; 0; 0; 3; 0; 2; 0; 0; 3; 0; 120; 62; 40; 83; 44] in
  vals (bytes ParseSps tv_buffer 24) (fun v => [
    notnull;
    n (profile_idc v);
    n (chroma_format_idc v);
    n (pic_width_in_mbs_minus1 v);
    n (pic_height_in_map_units_minus1 v);
    n (frame_mbs_only_flag v);
    n (mb_adaptive_frame_field_flag v);
    n (frame_cropping_flag v);
    match getResolution v with Ok (w, h) => [w; h] | _ => [] end])
  = Some ([[0]; [100]; [1]; [43]; [14]; [0]; [1]; [0]; [704; 480]]%Z).
Proof. vm_compute. reflexivity. Qed.
Example tv_sps_TestScalingListDeltaScaleOverflow : let tv_buffer := [100; 0; 30; 173; 128; 0; 0;
  0; 255; 255; 255; 28; 128] in
  isNull (bytes ParseSps tv_buffer 13) = true.
Proof. vm_compute. reflexivity. Qed.
Example tv_sps_TestScalingListDeltaScaleOutOfRange : let tv_buffer := [100; 0; 30; 173; 128; 64;
  32] in
  isNull (bytes ParseSps tv_buffer 7) = true.
Proof. vm_compute. reflexivity. Qed.
Example tv_sps_TestScalingListValidDeltaScale : let tv_buffer := [100; 0; 30; 173; 132; 64; 116;
  5; 129; 236; 128] in
  vals (bytes ParseSps tv_buffer 11) (fun v => [
    notnull;
    n (seq_scaling_matrix_present_flag v);
    ptr (nth_error (scaling_list_present_flag (sps_scaling v)) 0) (fun x572 => n x572);
    z (delta_scale (sps_scaling v));
    ptr (nth_error (UseDefaultScalingMatrix4x4Flag (sps_scaling v)) 0) (fun x573 => n x573);
    match getResolution v with Ok (w, h) => [w; h] | _ => [] end])
  = Some ([[0]; [1]; [1]; [-8]; [1]; [704; 480]]%Z).
Proof. vm_compute. reflexivity. Qed.
Example tv_sps_TestExcessiveFrameCropping : let tv_buffer := [66; 0; 30; 221; 208; 50; 244] in
  isNull (bytes ParseSps tv_buffer 7) = true.
Proof. vm_compute. reflexivity. Qed.
Example tv_sps_TestTruncatedSps : let tv_buffer := [66] in
  isNull (bytes ParseSps tv_buffer 1) = true.
Proof. vm_compute. reflexivity. Qed.
Example tv_sps_TestZeroLengthSps : let tv_buffer := [0] in
  isNull (bytes ParseSps tv_buffer 0) = true.
Proof. vm_compute. reflexivity. Qed.

(** /repo/test/h264_sps_svc_extension_parser_unittest.cc *)
Example tv_sps_svc_extension_TestSampleSpsSvcExtension01 : let tv_buffer := [255] in
  vals (bytes (ParseSpsSvcExtension 0) tv_buffer 1) (fun v => [
    n (sv_inter_layer_deblocking_filter_control_present_flag v);
    n (sv_extended_spatial_scalability_idc v);
    n (sv_seq_tcoeff_level_prediction_flag v);
    n (sv_slice_header_restriction_flag v)])
  = Some ([[1]; [3]; [1]; [1]]%Z).
Proof. vm_compute. reflexivity. Qed.
Example tv_sps_svc_extension_TestSampleSpsSvcExtension02 : let tv_buffer := [255; 255] in
  vals (bytes (ParseSpsSvcExtension 1) tv_buffer 2) (fun v => [
    n (sv_inter_layer_deblocking_filter_control_present_flag v);
    n (sv_extended_spatial_scalability_idc v);
    n (sv_chroma_phase_x_plus1_flag v);
    n (sv_chroma_phase_y_plus1 v);
    z (sv_seq_scaled_ref_layer_left_offset v);
    z (sv_seq_scaled_ref_layer_top_offset v);
    z (sv_seq_scaled_ref_layer_right_offset v);
    z (sv_seq_scaled_ref_layer_bottom_offset v);
    n (sv_seq_tcoeff_level_prediction_flag v);
    n (sv_slice_header_restriction_flag v)])
  = Some ([[1]; [3]; [1]; [3]; [0]; [0]; [0]; [0]; [1]; [1]]%Z).
Proof. vm_compute. reflexivity. Qed.
Example tv_sps_svc_extension_TestSampleSpsSvcExtension03 : let tv_buffer := [129; 32] in
  vals (bytes (ParseSpsSvcExtension 1) tv_buffer 2) (fun v => [
    n (sv_inter_layer_deblocking_filter_control_present_flag v);
    n (sv_extended_spatial_scalability_idc v);
    n (sv_chroma_phase_x_plus1_flag v);
    n (sv_chroma_phase_y_plus1 v);
    n (sv_seq_tcoeff_level_prediction_flag v);
    n (sv_slice_header_restriction_flag v)])
  = Some ([[1]; [0]; [0]; [0]; [0]; [1]]%Z).
Proof. vm_compute. reflexivity. Qed.

(** /repo/test/h264_subset_sps_parser_unittest.cc *)
Example tv_subset_sps_TestSample01 : let tv_buffer := [83; 0; 11; 172; 77; 2; 193; 44; 129; 32] in
  vals (bytes ParseSubsetSps tv_buffer 10) (fun v => [
    notnull;
    n (profile_idc (ss_sps v));
    n (constraint_set0_flag (ss_sps v));
    n (constraint_set1_flag (ss_sps v));
    n (constraint_set2_flag (ss_sps v));
    n (constraint_set3_flag (ss_sps v));
    n (constraint_set4_flag (ss_sps v));
    n (constraint_set5_flag (ss_sps v));
    n (reserved_zero_2bits (ss_sps v));
    n (level_idc (ss_sps v));
    n (seq_parameter_set_id (ss_sps v));
    n (log2_max_frame_num_minus4 (ss_sps v));
    n (pic_order_cnt_type (ss_sps v));
    n (max_num_ref_frames (ss_sps v));
    n (gaps_in_frame_num_value_allowed_flag (ss_sps v));
    n (pic_width_in_mbs_minus1 (ss_sps v));
    n (pic_height_in_map_units_minus1 (ss_sps v));
    n (frame_mbs_only_flag (ss_sps v));
    n (direct_8x8_inference_flag (ss_sps v));
    n (frame_cropping_flag (ss_sps v));
    n (vui_parameters_present_flag (ss_sps v))])
    = Some ([[0]; [83]; [0]; [0]; [0]; [0]; [0]; [0]; [0]; [11]; [0]; [1]; [2]; [1]; [0]; [21];
    [17]; [1]; [1]; [0]; [0]]%Z).
Proof. vm_compute. reflexivity. Qed.

(** /repo/test/h264_vui_parameters_parser_unittest.cc *)
Example tv_vui_parameters_TestSampleVuiParameters601 : let tv_buffer := [54; 64; 0; 0; 0; 64; 0;
  0; 12; 131; 197; 139; 132; 96] in
  vals (bytes ParseVuiParameters tv_buffer 14) (fun v => [
    n (aspect_ratio_info_present_flag v);
    n (overscan_info_present_flag v);
    n (video_signal_type_present_flag v);
    n (video_format v);
    n (video_full_range_flag v);
    n (colour_description_present_flag v);
    n (chroma_loc_info_present_flag v);
    n (timing_info_present_flag v);
    n (num_units_in_tick v);
    n (time_scale v);
    n (fixed_frame_rate_flag v);
    n (nal_hrd_parameters_present_flag v);
    n (vcl_hrd_parameters_present_flag v);
    n (pic_struct_present_flag v);
    n (bitstream_restriction_flag v);
    n (motion_vectors_over_pic_boundaries_flag v);
    n (max_bytes_per_pic_denom v);
    n (max_bits_per_mb_denom v);
    n (log2_max_mv_length_horizontal v);
    n (log2_max_mv_length_vertical v);
    n (max_num_reorder_frames v);
    n (max_dec_frame_buffering v)])
    = Some ([[0]; [0]; [1]; [5]; [1]; [0]; [0]; [1]; [1]; [50]; [0]; [0]; [0]; [0]; [1]; [1]; [0];
    [0]; [10]; [10]; [0]; [16]]%Z).
Proof. vm_compute. reflexivity. Qed.
Example tv_vui_parameters_TestSampleVuiParameters601vui : let tv_buffer := [55; 6; 6; 6; 64; 0; 0;
  0; 64; 0; 0; 12; 131; 197; 139; 132; 96; 0] in
  vals (bytes ParseVuiParameters tv_buffer 18) (fun v => [
    n (aspect_ratio_info_present_flag v);
    n (overscan_info_present_flag v);
    n (video_signal_type_present_flag v);
    n (video_format v);
    n (video_full_range_flag v);
    n (colour_description_present_flag v);
    n (colour_primaries v);
    n (transfer_characteristics v);
    n (matrix_coefficients v);
    n (chroma_loc_info_present_flag v);
    n (timing_info_present_flag v);
    n (num_units_in_tick v);
    n (time_scale v);
    n (fixed_frame_rate_flag v);
    n (nal_hrd_parameters_present_flag v);
    n (vcl_hrd_parameters_present_flag v);
    n (pic_struct_present_flag v);
    n (bitstream_restriction_flag v);
    n (motion_vectors_over_pic_boundaries_flag v);
    n (max_bytes_per_pic_denom v);
    n (max_bits_per_mb_denom v);
    n (log2_max_mv_length_horizontal v);
    n (log2_max_mv_length_vertical v);
    n (max_num_reorder_frames v);
    n (max_dec_frame_buffering v)])
    = Some ([[0]; [0]; [1]; [5]; [1]; [1]; [6]; [6]; [6]; [0]; [1]; [1]; [50]; [0]; [0]; [0]; [0];
    [1]; [1]; [0]; [0]; [10]; [10]; [0]; [16]]%Z).
Proof. vm_compute. reflexivity. Qed.
Example tv_vui_parameters_TestSampleVuiParameters709 : let tv_buffer := [55; 1; 1; 1; 64; 0; 0; 0;
  64; 0; 0; 12; 131; 197; 139; 132; 96; 0] in
  vals (bytes ParseVuiParameters tv_buffer 18) (fun v => [
    n (aspect_ratio_info_present_flag v);
    n (overscan_info_present_flag v);
    n (video_signal_type_present_flag v);
    n (video_format v);
    n (video_full_range_flag v);
    n (colour_description_present_flag v);
    n (colour_primaries v);
    n (transfer_characteristics v);
    n (matrix_coefficients v);
    n (chroma_loc_info_present_flag v);
    n (timing_info_present_flag v);
    n (num_units_in_tick v);
    n (time_scale v);
    n (fixed_frame_rate_flag v);
    n (nal_hrd_parameters_present_flag v);
    n (vcl_hrd_parameters_present_flag v);
    n (pic_struct_present_flag v);
    n (bitstream_restriction_flag v);
    n (motion_vectors_over_pic_boundaries_flag v);
    n (max_bytes_per_pic_denom v);
    n (max_bits_per_mb_denom v);
    n (log2_max_mv_length_horizontal v);
    n (log2_max_mv_length_vertical v);
    n (max_num_reorder_frames v);
    n (max_dec_frame_buffering v)])
    = Some ([[0]; [0]; [1]; [5]; [1]; [1]; [1]; [1]; [1]; [0]; [1]; [1]; [50]; [0]; [0]; [0]; [0];
    [1]; [1]; [0]; [0]; [10]; [10]; [0]; [16]]%Z).
Proof. vm_compute. reflexivity. Qed.
Example tv_vui_parameters_TestSampleVuiParameters709vui : let tv_buffer := [55; 1; 1; 1; 64; 0; 0;
  0; 64; 0; 0; 12; 131; 197; 139; 132; 96; 0] in
  vals (bytes ParseVuiParameters tv_buffer 18) (fun v => [
    n (aspect_ratio_info_present_flag v);
    n (overscan_info_present_flag v);
    n (video_signal_type_present_flag v);
    n (video_format v);
    n (video_full_range_flag v);
    n (colour_description_present_flag v);
    n (colour_primaries v);
    n (transfer_characteristics v);
    n (matrix_coefficients v);
    n (chroma_loc_info_present_flag v);
    n (timing_info_present_flag v);
    n (num_units_in_tick v);
    n (time_scale v);
    n (fixed_frame_rate_flag v);
    n (nal_hrd_parameters_present_flag v);
    n (vcl_hrd_parameters_present_flag v);
    n (pic_struct_present_flag v);
    n (bitstream_restriction_flag v);
    n (motion_vectors_over_pic_boundaries_flag v);
    n (max_bytes_per_pic_denom v);
    n (max_bits_per_mb_denom v);
    n (log2_max_mv_length_horizontal v);
    n (log2_max_mv_length_vertical v);
    n (max_num_reorder_frames v);
    n (max_dec_frame_buffering v)])
    = Some ([[0]; [0]; [1]; [5]; [1]; [1]; [1]; [1]; [1]; [0]; [1]; [1]; [50]; [0]; [0]; [0]; [0];
    [1]; [1]; [0]; [0]; [10]; [10]; [0]; [16]]%Z).
Proof. vm_compute. reflexivity. Qed.
Example tv_vui_parameters_TestSampleVuiParametersSmallMaxDecFrameBuffering : let tv_buffer := [55;
  5; 6; 5; 64; 57; 204; 102; 206; 230; 178; 128; 35; 104; 80; 154; 128] in
  vals (bytes ParseVuiParameters tv_buffer 17) (fun v => [
    n (aspect_ratio_info_present_flag v);
    n (overscan_info_present_flag v);
    n (video_signal_type_present_flag v);
    n (video_format v);
    n (video_full_range_flag v);
    n (colour_description_present_flag v);
    n (colour_primaries v);
    n (transfer_characteristics v);
    n (matrix_coefficients v);
    n (chroma_loc_info_present_flag v);
    n (timing_info_present_flag v);
    n (num_units_in_tick v);
    n (time_scale v);
    n (fixed_frame_rate_flag v);
    n (nal_hrd_parameters_present_flag v);
    n (vcl_hrd_parameters_present_flag v);
    n (pic_struct_present_flag v);
    n (bitstream_restriction_flag v);
    n (motion_vectors_over_pic_boundaries_flag v);
    n (max_bytes_per_pic_denom v);
    n (max_bits_per_mb_denom v);
    n (log2_max_mv_length_horizontal v);
    n (log2_max_mv_length_vertical v);
    n (max_num_reorder_frames v);
    n (max_dec_frame_buffering v)])
    = Some ([[0]; [0]; [1]; [5]; [1]; [1]; [5]; [6]; [5]; [0]; [1]; [15151515]; [1000000000]; [1];
    [0]; [0]; [0]; [1]; [1]; [2]; [1]; [9]; [8]; [0]; [1]]%Z).
Proof. vm_compute. reflexivity. Qed.
Example tv_vui_parameters_TestZeroNumUnitsInTick : let tv_buffer := [8; 0; 0; 0; 0; 0; 7; 83; 0;
  0] in
  isNull (bytes ParseVuiParameters tv_buffer 10) = true.
Proof. vm_compute. reflexivity. Qed.
Example tv_vui_parameters_TestZeroTimeScale : let tv_buffer := [8; 0; 0; 31; 72; 0; 0; 0; 0; 0] in
  isNull (bytes ParseVuiParameters tv_buffer 10) = true.
Proof. vm_compute. reflexivity. Qed.
Example tv_vui_parameters_TestValidTimingInfo : let tv_buffer := [8; 0; 0; 31; 72; 0; 7; 83; 0; 0]
  in
  vals (bytes ParseVuiParameters tv_buffer 10) (fun v => [
    n (timing_info_present_flag v);
    n (num_units_in_tick v);
    n (time_scale v)])
  = Some ([[1]; [1001]; [60000]]%Z).
Proof. vm_compute. reflexivity. Qed.
(** Tests of more than one call, and of other functions *)
Definition sps601 : list N :=
  [103; 66; 192; 22; 166; 17; 5; 7; 233; 178; 0; 0; 3; 0; 2; 0; 0; 3; 0; 100; 30; 44; 92; 35].
Definition pps601 : list N := [104; 200; 66; 2; 50; 200].
Definition idr601 : list N := [101; 136; 130; 6; 120; 140; 80; 0; 28; 171; 142; 0; 2; 251; 49; 192;
  0; 95; 102; 251; 239; 190].
Definition w0 : world := mkw new_state 0.

(** h264_nal_unit_parser_unittest.cc TestSampleNalUnit, the rest *)
Example tv_nal_unit_TestSampleNalUnit_payload :
  vals (fst (ParseNalUnitBytes true true [103] 1 w0)) (fun v =>
    [ptr (nu_checksum v) (fun c => match GetPrintableChecksum c with
                                   | Ok s => map Z.of_N s | _ => [] end);
     z (Z.b2z (IsPayloadParsed (nu_payload v) (nal_unit_type (nu_header v))));
     z (Z.b2z (IsPayloadParsed (nu_payload v) 6))])
  = Some [[57; 56; 102; 102; 102; 102; 102; 102] (* 98ffffff *); [0]; [1]]%Z.
Proof. vm_compute. reflexivity. Qed.

(** h264_rtp_parser_unittest.cc TestSampleSingle, the parser state *)
Example tv_rtp_TestSampleSingle_state :
  ptr (mfind 0 (st_sps (w_st (snd (ParseRtpBytes true sps601 24 w0))))) (fun s =>
    n (profile_idc s) ++ n (pic_width_in_mbs_minus1 s) ++ n (pic_height_in_map_units_minus1 s))
  = [66; 19; 14]%Z.
Proof. vm_compute. reflexivity. Qed.

(** h264_rtp_parser_unittest.cc TestSampleApAndFu: the second packet uses what the first
    one left *)
Definition stapa601 : list N := 120 :: 0 :: 24 :: sps601 ++ 0 :: 5 :: pps601.
Example tv_rtp_TestSampleApAndFu :
  let '(r1, w1) := ParseRtpBytes true stapa601 35 w0 in
  let '(r2, w2) := ParseRtpBytes true [124; 133; 136; 130; 6; 120; 140; 80; 0] 9 w1 in
  vals r1 (fun v =>
    [n (forbidden_zero_bit (rp_header v)); n (nal_ref_idc (rp_header v));
     n (nal_unit_type (rp_header v));
     ptr (rp_stapa v) (fun a => size (ra_nal_unit_sizes a));
     ptr (rp_stapa v) (fun a => size (ra_nal_unit_headers a));
     ptr (rp_stapa v) (fun a => size (ra_nal_unit_payloads a));
     ptr (rp_stapa v) (fun a => map (fun h => Z.of_N (nal_unit_type h)) (ra_nal_unit_headers a))])
  = Some [[0]; [3]; [24]; [2]; [2]; [2]; [7; 8]]%Z /\
  vals r2 (fun v =>
    [n (forbidden_zero_bit (rp_header v)); n (nal_ref_idc (rp_header v));
     n (nal_unit_type (rp_header v));
     ptr (rp_fua v) (fun f => n (rf_s_bit f) ++ n (rf_e_bit f) ++ n (rf_r_bit f)
                              ++ n (rf_fu_type f));
     ptr (rp_fua v) (fun f => ptr (rf_payload f) (fun p => ptr (pl_slice p) (fun s =>
       n (first_mb_in_slice (sh_lead (sl_slice_header s))) ++
       n (slice_type (sh_lead (sl_slice_header s))))))])
  = Some [[0]; [3]; [28]; [1; 0; 0; 5]; [0; 7]]%Z.
Proof. vm_compute. split; reflexivity. Qed.

(** h264_rtp_single_parser_unittest.cc TestMultipleRtpPackets *)
Example tv_rtp_single_TestMultipleRtpPackets :
  let '(r1, w1) := unescaping true ParseRtpSingle sps601 24 w0 in
  let '(r2, w2) := unescaping true ParseRtpSingle pps601 6 w1 in
  let '(r3, w3) := unescaping true ParseRtpSingle idr601 22 w2 in
  let hdr v := n (forbidden_zero_bit (rs_header v)) ++ n (nal_ref_idc (rs_header v))
               ++ n (nal_unit_type (rs_header v)) in
  let dims s := n (profile_idc s) ++ n (pic_width_in_mbs_minus1 s)
                ++ n (pic_height_in_map_units_minus1 s) in
  vals r1 (fun v => [hdr v; ptr (pl_sps (rs_payload v)) dims;
    ptr (pl_sps (rs_payload v)) (fun s =>
      ptr (mfind (seq_parameter_set_id s) (st_sps (w_st w1))) dims)])
  = Some [[0; 3; 7]; [66; 19; 14]; [66; 19; 14]]%Z /\
  vals r2 (fun v => [hdr v; ptr (pl_pps (rs_payload v)) (fun p => z (pps_pic_init_qp_minus26 p));
    ptr (pl_pps (rs_payload v)) (fun p =>
      ptr (mfind (pps_pic_parameter_set_id p) (st_pps (w_st w2))) (fun q =>
        z (pps_pic_init_qp_minus26 q)))])
  = Some [[0; 3; 8]; [-8]; [-8]]%Z /\
  vals r3 (fun v => [hdr v;
    ptr (pl_slice (rs_payload v)) (fun s => z (sh_slice_qp_delta (sl_slice_header s)));
    ptr (pl_slice (rs_payload v)) (fun s =>
      ptr (mfind (pic_parameter_set_id (sh_lead (sl_slice_header s))) (st_pps (w_st w3)))
        (fun q => z (pps_pic_init_qp_minus26 q)))])
  = Some [[0; 3; 5]; [-12]; [-8]]%Z.
Proof. vm_compute. repeat split; reflexivity. Qed.

(** h264_slice_header_in_scalable_extension_parser_unittest.cc TestSubsetSpsIdValueSpace, the
    parser state *)
Example tv_svc_TestSubsetSpsIdValueSpace_state :
    let st := w_st (snd (ParseBitstream true true [0; 0; 0; 1; 103; 66; 224; 12; 154; 220; 40; 63;
    32; 0; 0; 0; 1; 111; 83; 192; 30; 75; 13; 101; 130; 128; 246; 27; 124; 32; 0; 0; 0; 1; 104;
    107; 224; 41; 168; 0; 0; 0; 1; 20; 128; 32; 79; 216; 4; 27; 146; 64; 137; 195; 255; 22; 185;
    213; 45; 64; 146; 64; 180; 71; 69; 49; 204; 153; 181; 83; 116; 197; 229; 105; 57; 232; 190;
    108; 103; 240; 234; 2; 51; 178; 65; 87; 96; 181; 102; 71; 130; 13; 67; 180; 80; 180; 190; 230;
    101; 141; 5; 169; 157; 84; 246; 131; 23] 107 w0)) in
  [size (st_sps st); size (st_subset_sps st); isnull (mfind 1 (st_sps st));
   isnull (mfind 1 (st_subset_sps st))] = [[1]; [1]; [1]; [0]]%Z.
Proof. vm_compute. reflexivity. Qed.

(** h264_slice_header_in_scalable_extension_parser_unittest.cc TestSliceGroupChangeCycleLen;
    the loop over rates compares two functions that are one in the model *)
Example tv_svc_TestSliceGroupChangeCycleLen :
  map (fun '(w, h, r) => getSliceGroupChangeCycleLen w h r)
    [(0, 0, 1); (0, 0, 9); (2, 0, 1); (0, 0, 0); (10, 8, 0); (10, 8, 1)]
  = [Ok 1; Ok 1; Ok 2; Ok 1; Ok 7; Ok 6].
Proof. vm_compute. reflexivity. Qed.

(** h264_sps_parser_unittest.cc TestGetResolutionRejectsEmptyPicture *)
Example tv_sps_TestGetResolutionRejectsEmptyPicture :
    getResolution (mksps 0 0 0 0 0 0 0 0 0 0 1 0 0 0 0 0 scal0 0 0 0 0 0 0 0 [] 0 0 0 0 1 0 0 1
    100 0 0 0 0 None UNSPECIFIED) = Null.
Proof. vm_compute. reflexivity. Qed.

(** h264_common_unittest.cc *)
Example tv_common_TestIsNalUnitTypeReserved :
  map IsNalUnitTypeReserved [16; 23; 24] = [true; true; false].
Proof. vm_compute. reflexivity. Qed.
Example tv_common_TestIsNalUnitTypeUnspecified :
  map IsNalUnitTypeUnspecified [24; 31; 16] = [true; true; false].
Proof. vm_compute. reflexivity. Qed.
Example tv_common_MoreRbspData :
  map (fun '(d, i, j) => match bb_new true d with
                         | Ok b => more_rbsp_data (snd (Seek i j b)) | _ => Null end)
    [([0; 0], 2, 0);
     ([232; 67; 130; 146; 200; 176], 4, 4);
     ([232; 67; 130; 146; 200; 128], 5, 0);
     ([232; 67; 130; 146; 200; 136], 5, 0);
     ([232; 67; 130; 146; 200; 192], 5, 1);
     ([232; 67; 130; 146; 200; 64], 5, 1);
     ([232; 67; 130; 146; 200; 0], 5, 1);
     ([232; 67; 130; 146; 200; 72], 5, 1);
     ([232; 67; 130; 146; 200; 24], 5, 4);
     ([232; 67; 130; 146; 200; 8], 5, 4);
     ([232; 67; 130; 146; 200; 0], 5, 4);
     ([232; 67; 130; 146; 200; 2], 5, 4);
     ([232; 67; 130; 146; 200; 1], 5, 7);
     ([232; 67; 130; 146; 200; 0], 5, 7)]
  = [Ok false; Ok true; Ok false; Ok true; Ok false; Ok false; Ok true; Ok true; Ok false;
     Ok false; Ok true; Ok true; Ok false; Ok true].
Proof. vm_compute. reflexivity. Qed.
Example tv_common_TestUnimplementedCount :
  let w := reset_unimplemented_count w0 in
  [w_unimplemented w; w_unimplemented (report w); w_unimplemented (report (report w));
   w_unimplemented (reset_unimplemented_count (report (report w)))] = [0; 1; 2; 0].
Proof. vm_compute. reflexivity. Qed.
Example tv_common_TestReadSignedExponentialGolomb :
  map (fun d => match bb_new true d with
                | Ok b => fst (ReadSignedExponentialGolomb b) | _ => Null end)
    [[128]; [64]; [96]; [32]; [0; 0; 0; 1; 0; 0; 0; 0]; [0; 0; 0; 1; 255; 255; 255; 252];
     [0; 0; 0; 1; 255; 255; 255; 254]]
  = [Ok 0; Ok 1; Ok (-1); Ok 2; Ok 1073741824; Ok 2147483647; Ok (-2147483647)]%Z.
Proof. vm_compute. reflexivity. Qed.
Example tv_common_TestPeekAndReadZeroBits :
  match bb_new true [171] with
  | Ok b => let b' := snd (ReadBits 8 b) in
      ([PeekBits 0 b; PeekBits64 0 b; fst (ReadBits 0 b); fst (ReadBits 8 b)],
       RemainingBitCount b', [PeekBits 0 b'; PeekBits64 0 b'; fst (ReadBits 0 b')])
  | _ => ([], 0, [])
  end = ([Null; Null; Null; Ok 171], 0, [Null; Null; Null]).
Proof. vm_compute. reflexivity. Qed.
Example tv_common_TestUnalignedBitBuffer :
  match bb_new true [222; 173; 190; 239; 18; 52] with
  | Ok b => vals (fst (GetNaluChecksum (snd (ReadBits 1 b)))) (fun c => [size c])
  | _ => None
  end = Some [[4]]%Z.
Proof. vm_compute. reflexivity. Qed.
Example tv_common_TestPrintableChecksum :
  match bb_new true [222; 173; 190; 239; 18; 52] with
  | Ok b => vals (rbind (fst (GetNaluChecksum b)) GetPrintableChecksum) (fun s =>
              [map Z.of_N s])
  | _ => None
  end = Some [[48; 102; 49; 101; 52; 49; 49; 48]]%Z (* 0f1e4110 *).
Proof. vm_compute. reflexivity. Qed.
Example tv_common_TestAlignedBitBuffer :
  match bb_new true [222; 173; 190; 239; 18; 52] with
  | Ok b => let '(c, b') := GetNaluChecksum b in
            (vals c (fun c => [size c]), RemainingBitCount b')
  | _ => (None, 0)
  end = (Some [[4]]%Z, 48).
Proof. vm_compute. reflexivity. Qed.

(** EXPECT_NEAR(29.97003, getFramerate(), 0.00001) of TestValidTimingInfo: the result is
    15712927 / 2^19, and both sides times 100000 * 2^19. *)
Example tv_vui_parameters_TestValidTimingInfo_rate :
  match bytes ParseVuiParameters [8; 0; 0; 31; 72; 0; 7; 83; 0; 0] 10 with
  | Ok v => match getFramerate v with
            | SpecFloat.S754_finite false m (-19) => (Z.abs (2997003 * 2 ^ 19 - Zpos m * 100000) <=? 2 ^ 19)%Z
            | _ => false
            end
  | _ => false
  end = true.
Proof. vm_compute. reflexivity. Qed.
