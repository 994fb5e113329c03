(** The result of parsing a whole stream with its options, the overloads that keep the parameter
    sets themselves, and the accessors of the parser state. *)
From Coq Require Import NArith ZArith List String.
From Verif Require Import Base TypesSps TypesPps TypesExt TypesSliceHeader SliceHeader TypesNalUnit NalUnit Dump.
Import ListNotations.
Open Scope N_scope.

(** include/h264_common.h:158-170: the ParsingOptions of the default constructor *)
Definition default_options : popts := mkpo true true true true true.

(** include/h264_bitstream_parser.h BitstreamState: nal_units and parsing_options_ *)
Record bitstream := mkbs { bs_units : list (nalu * N * N); bs_options : popts }.

(** The two ways in which NAL units follow each other in a stream. *)
Inductive form := StartCodes | Lengths (nalu_length_bytes : N).

(** h264_bitstream_parser.cc:127-165 and 192-248: the overloads with a H264BitstreamParserState.
    parsing_options_ keeps its default value. *)
Definition ParseStream (asserts : bool) (f : form) (o : popts) (data : list N) (len : N) (w : world)
  : res bitstream * world :=
  let '(r, w') := match f with
    | StartCodes => ParseBitstream asserts (add_checksum o) data len w
    | Lengths n => ParseBitstreamNALULength asserts (add_checksum o) data len n w
    end in
  (rbind r (fun us => Ok (mkbs us default_options)), w').

(** h264_bitstream_parser.cc:166-185 and 250-270: the overloads without.  [w] is there for the
    count of unimplemented structures, which is process-wide. *)
Definition ParseStreamOwn (asserts : bool) (f : form) (o : popts) (data : list N) (len : N) (w : world)
  : res bitstream * world :=
  let '(r, w') := ParseStream asserts f o data len (mkw new_state (w_unimplemented w)) in
  (rbind r (fun s => Ok (mkbs (bs_units s) o)), mkw (w_st w) (w_unimplemented w')).

(** h264_bitstream_parser.cc:274-281 BitstreamState::fdump; the argument is not used. *)
Definition fdump_stream (level : Z) (parsing_options : popts) (s : bitstream) : res string :=
  fdump_bitstream level (bs_options s) (bs_units s).

(** h264_bitstream_parser_state.cc:32-60 *)
Definition GetSps (st : pstate) (sps_id : N) : option sps := mfind sps_id (st_sps st).
Definition GetPps (st : pstate) (pps_id : N) : option pps := mfind pps_id (st_pps st).
Definition GetSubsetSps (st : pstate) (subset_sps_id : N) : option subsps :=
  mfind subset_sps_id (st_subset_sps st).
