(** The fuzz targets of fuzz/*.cc: each runs one or more parsers on the data it is given, with
    no state, with a new parser state or with one it fills by hand. *)
From Coq Require Import NArith ZArith List String.
From Verif Require Import Base BitBuffer Rbsp Parser ScalingList TypesSps TypesPps Sps TypesNal TypesExt
  TypesSliceHeader TypesNalUnit NalUnit Rtp TypesEntry Entry.
Import ListNotations.
Open Scope N_scope.

(** The parsed structures are dropped, and null is as good as any. *)
Definition done {A} (r : res A) : res unit :=
  match r with Ok _ | Null => Ok tt | UB k => UB k | Abort => Abort | NoFuel => NoFuel end.
(** One block of a target.  The count is the process-wide one of unimplemented syntax. *)
Definition block := bool -> list N -> N -> res unit * N.
Definition with_state {A} (st : pstate) (f : bool -> list N -> N -> world -> res A * world) : block :=
  fun a data c => let '(r, w) := f a data (N.of_nat (List.length data)) (mkw st c) in (done r, w_unimplemented w).
Definition parsing {A} (st : pstate) (e : structure A) : block := with_state st (fun a => ParseBytes a e).
Fixpoint blocks (l : list block) (a : bool) (data : list N) (c : N) : res unit * N :=
  match l with
  | [] => (Ok tt, c)
  | b :: t => match b a data c with
              | (Ok _, c') => blocks t a data c'
              | other => other
              end
  end.

(** A SpsDataState and a PpsState as made by make_unique and make_shared, with the assigned
    members; profile_type, which has no initialiser, is not read by these parsers. *)
Definition mock_sps (profile log2 poc width height mbs : N) : sps :=
  mksps profile 0 0 0 0 0 0 0 0 0 1 0 0 0 0 0 scal0 log2 poc 0 0 0%Z 0%Z 0 [] 0 0 width height mbs
    0 0 0 0 0 0 0 0 None UNSPECIFIED.
Definition mock_pps (id entropy bottom l0 deblocking : N) : pps :=
  mkpps 0 id 0 entropy bottom 0 0 [] [] 0 0 0 [] l0 0 0 0 0%Z 0%Z 0%Z deblocking 0 0 0 0 scal0 0%Z.

(** h264_rtp_fua_parser_fuzzer.cc:27-47, h264_slice_header_parser_fuzzer.cc:33-53 and 62-82,
    h264_slice_layer_without_partitioning_rbsp_parser_fuzzer.cc:33-53 and 64-84,
    h264_slice_header_in_scalable_extension_parser_fuzzer.cc:24-44 *)
Definition small_state : pstate :=
  mkst [(0, mock_sps 0 1 2 0 0 1)] [(0, mock_pps 0 0 0 0 1)] [].
(** h264_slice_header_parser_fuzzer.cc:91-113 *)
Definition field_state : pstate :=
  mkst [(0, mock_sps 0 0 1 11 3 0)] [(0, mock_pps 0 1 1 4 0)] [].
(** h264_slice_layer_extension_rbsp_parser_fuzzer.cc:26-79 *)
Definition layer_state : pstate :=
  mkst [(0, mock_sps 66 1 2 10 8 1)] [(0, mock_pps 0 0 0 0 1); (1, mock_pps 1 0 0 0 1)]
    [(0, mksubsps (mock_sps 83 1 2 21 17 1) (Some (mkspssvc 0 1 0 0 0 0 0 0%Z 0%Z 0%Z 0%Z 0 0 1)) 0 0 0 0 0)].

(** h264_common__unescape_rbsp_fuzzer.cc:31-40 *)
Definition unescape_block : block := fun a data c =>
  (match UnescapeRbsp data (N.of_nat (List.length data)) with
   | Ok [] => Ok tt
   | Ok bytes => match bb_new a bytes with
                 | Ok b => done (fst (ReadBits 1 b))
                 | r => done r
                 end
   | r => done r
   end, c).
(** h264_common__unescape_rbsp_fuzzer.cc:45-59.  byte_aligned and get_current_offset
    ([Rbsp.byte_aligned], [Rbsp.get_current_offset]) have no effect. *)
Definition raw_block : block := fun a data c =>
  (match bb_new a data with
   | Ok b => done (fst ((match data with
                         | x :: _ => if 0 <? x mod 17 then ignored (ReadBits (x mod 17)) else sret tt
                         | [] => sret tt
                         end ;;;
                         (fun b1 => (done (more_rbsp_data b1), b1)) ;;;
                         rbsp_trailing_bits) b))
   | r => done r
   end, c).

Open Scope string_scope.
Definition targets : list (string * list block) := [
  (* h264_bitstream_parser_fuzzer.cc:26-34 *)
  ("bitstream_parser", [with_state new_state (fun a => ParseBitstream a true)]);
  (* h264_common__unescape_rbsp_fuzzer.cc:27-62 *)
  ("common__unescape_rbsp", [unescape_block; raw_block]);
  (* h264_common_fuzzer.cc:15-27 *)
  ("common", []);
  (* h264_dec_ref_pic_marking_parser_fuzzer.cc:25-34 *)
  ("dec_ref_pic_marking_parser",
   [parsing new_state (DecRefPicMarking 1); parsing new_state (DecRefPicMarking 0)]);
  (* h264_hrd_parameters_parser_fuzzer.cc:25-28 *)
  ("hrd_parameters_parser", [parsing new_state HrdParameters]);
  (* h264_nal_unit_header_parser_fuzzer.cc:14-17 *)
  ("nal_unit_header_parser", [parsing new_state NalUnitHeader]);
  (* h264_nal_unit_header_svc_extension_parser_fuzzer.cc:24-28 *)
  ("nal_unit_header_svc_extension_parser", [parsing new_state NalUnitHeaderSvcExtension]);
  (* h264_nal_unit_parser_fuzzer.cc:27-34 *)
  ("nal_unit_parser", [with_state new_state (fun a => ParseNalUnitBytes a true)]);
  (* h264_pps_parser_fuzzer.cc:25-28 *)
  ("pps_parser", [parsing new_state (Pps 1)]);
  (* h264_pred_weight_table_parser_fuzzer.cc:25-42; SliceType::P_ALL is 5 *)
  ("pred_weight_table_parser",
   [parsing new_state (PredWeightTable 1 5 0 0); parsing new_state (PredWeightTable 1 5 12 0)]);
  (* h264_prefix_nal_unit_parser_fuzzer.cc:26-43 *)
  ("prefix_nal_unit_parser",
   [parsing new_state (PrefixNalUnitRbsp 1 2 1 1); with_state new_state (fun a => ParseNalUnitBytes a true)]);
  (* h264_ref_pic_list_modification_parser_fuzzer.cc:25-30 *)
  ("ref_pic_list_modification_parser", [parsing new_state (RefPicListModification 5)]);
  (* h264_rtp_fua_parser_fuzzer.cc:25-51 *)
  ("rtp_fua_parser", [with_state small_state (fun a => unescaping a (ParseRtpFuA 3))]);
  (* h264_rtp_parser_fuzzer.cc:25-29 *)
  ("rtp_parser", [with_state new_state ParseRtpBytes]);
  (* h264_rtp_single_parser_fuzzer.cc:26-30 *)
  ("rtp_single_parser", [with_state new_state (fun a => unescaping a ParseRtpSingle)]);
  (* h264_rtp_stapa_parser_fuzzer.cc:25-29 *)
  ("rtp_stapa_parser", [with_state new_state (fun a => unescaping a ParseRtpStapA)]);
  (* h264_slice_header_in_scalable_extension_parser_fuzzer.cc:22-51 *)
  ("slice_header_in_scalable_extension_parser",
   [parsing small_state (SliceHeaderInScalableExtension (mknalh 0 3 5 0 0 None))]);
  (* h264_slice_header_parser_fuzzer.cc:31-59, 60-88 and 89-119 *)
  ("slice_header_parser",
   [parsing small_state (SliceHeader 3 5); parsing small_state (SliceHeader 2 1);
    parsing field_state (SliceHeader 2 1)]);
  (* h264_slice_layer_extension_rbsp_parser_fuzzer.cc:24-102 *)
  ("slice_layer_extension_rbsp_parser",
   [parsing layer_state (SliceLayerExtension (mknalh 0 3 20 1 0 (Some (mksvc 1 0 1 1 0 0 0 1 1 3))))]);
  (* h264_slice_layer_without_partitioning_rbsp_parser_fuzzer.cc:31-61 and 62-92 *)
  ("slice_layer_without_partitioning_rbsp_parser",
   [parsing small_state (SliceLayerWithoutPartitioning 3 5);
    parsing small_state (SliceLayerWithoutPartitioning 2 1)]);
  (* h264_sps_extension_parser_fuzzer.cc:26-29 *)
  ("sps_extension_parser", [parsing new_state SpsExtension]);
  (* h264_sps_parser_fuzzer.cc:25-27 *)
  ("sps_parser", [parsing new_state Sps]);
  (* h264_sps_svc_extension_parser_fuzzer.cc:25-34 *)
  ("sps_svc_extension_parser", [parsing new_state (SpsSvcExtension 0); parsing new_state (SpsSvcExtension 1)]);
  (* h264_subset_sps_parser_fuzzer.cc:26-29 *)
  ("subset_sps_parser", [parsing new_state SubsetSps]);
  (* h264_vui_parameters_parser_fuzzer.cc:25-28 *)
  ("vui_parameters_parser", [parsing new_state VuiParameters])].
Close Scope string_scope.
(** LLVMFuzzerTestOneInput(data, size), in a process where [c] unimplemented structures were met *)
Definition test_one_input (t : list block) (a : bool) (data : list N) (c : N) : res unit :=
  fst (blocks t a data c).
