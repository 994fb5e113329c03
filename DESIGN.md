# Design: a Rocq model of h264nal

## Approach

The C++ library is modelled as total, computable Gallina functions in
`rocq/theories`.  One definition per C++ function, each with a comment citing the
file and lines it models.  Specifications (bit strings, Exp-Golomb codes, the
standard's syntax tables as encoders, emulation prevention, Annex B framing) live in
separate `Spec*.v` files that do not use the model's helpers.

Conventions of the model:

- Bytes, words and sizes are `N` with the C++ wrap-around written explicitly
  (`mod 2^32`, `mod 2^64`); signed values are `Z`, and signed overflow is undefined.
- Every parsing function returns an outcome: `Ok v` (the C++ function returned true /
  a non-null pointer), `Null` (false / nullptr), `UB` (undefined behaviour:
  out-of-bounds access, shift by the type width, signed overflow, null dereference),
  `Abort` (failed assert in a build with asserts) or `NoFuel` (loop bound of the model
  exhausted).  `UB`, `Abort` and `NoFuel` are what the safety theorems exclude.
- The buffer position after a *failed* parse is part of the model, because some
  callers ignore failures and go on reading.
- `assert` is build dependent.  The buffer record carries a flag saying whether asserts
  are compiled in: with NDEBUG the expression inside `RTC_CHECK` is not evaluated.
- Sizes: buffers are assumed smaller than 2^61 bytes (so that a bit count fits in 64
  bits), and at most 2^32-1 bytes when asserts are compiled in (the constructor
  asserts it).

## Trusted base

- Coq 8.16.1's kernel (`vm_compute` included).
- The reading of the C++ source into Gallina: the definitions in the model files below.
- The small specification files `Spec*.v`.
- `Print Assumptions` is run for every property theorem at the end of its `Props*.v` file.
  Every one of them answers "Closed under the global context": no axiom is used, neither of
  ours nor of the standard library.
- `coqchk -o` on the whole development lists the axioms declared in the standard library modules
  that happen to be loaded (`Coq.ssr.ssrunder.*`, through Lia and friends). No theorem uses them.
- Not covered by any theorem: the compiler, the C++ library (`std::vector`, `std::map`,
  `std::unique_ptr`, `printf`), memory exhaustion, file and terminal I/O.

## Files

| model | C++ source | specification | proofs | property theorems |
|---|---|---|---|---|
| Base.v | outcomes, integer types | | | |
| BitBuffer.v | rtc_common.cc 1-306 | SpecBits, SpecReader | BitsLemmas, BitBufferProofs, ReaderProofs | PropsReader (C01-C07) |
| Writer.v | rtc_common.cc 308-415 | SpecWriter | WriterProofs, 2, 3 | PropsWriter (C08-C10) |
| Rbsp.v | h264_common.cc (UnescapeRbsp, more_rbsp_data, rbsp_trailing_bits, checksum) | SpecRbsp | RbspProofs, ChecksumProofs | PropsRbsp (C11-C15) |
| Framing.v | h264_bitstream_parser.cc (index search, length fields) | SpecFraming | FramingProofs, 2, 3 | PropsFraming (C16-C21) |
| NalHeader.v | h264_nal_unit_header_parser.cc, ..._svc_extension_parser.cc | SpecNalHeader | NalHeaderProofs | PropsNal (C22) |
| TypesSps.v, Vui.v, ScalingList.v, Sps.v | h264_hrd_parameters_parser.cc, h264_vui_parameters_parser.cc, h264_sps_parser.cc | SpecVui, SpecScaling, SpecSps | VuiProofs, ScalingProofs, SpsProofs | PropsSps (C24-C28, C49) |
| TypesPps.v, Pps.v | h264_pps_parser.cc | SpecPps | PpsProofs | PropsPps (C29) |
| TypesExt.v, Ext.v | h264_sps_extension_parser.cc, h264_sps_svc_extension_parser.cc, h264_subset_sps_parser.cc, h264_prefix_nal_unit_parser.cc | SpecExt | ExtProofs | PropsExt (C30) |
| TypesSlice.v, SliceParts.v | h264_ref_pic_list_modification_parser.cc, h264_pred_weight_table_parser.cc, h264_dec_ref_pic_marking_parser.cc | SpecSliceParts | SlicePartsProofs | PropsSliceParts (C31-C33) |
| TypesSliceHeader.v, SliceHeader.v | h264_slice_header_parser.cc, h264_slice_layer_without_partitioning_rbsp_parser.cc | SpecSlice | SliceProofs | PropsSlice (C34, C35) |
| TypesSvcSlice.v, SvcSlice.v | h264_slice_header_in_scalable_extension_parser.cc, h264_slice_layer_extension_rbsp_parser.cc | SpecSvcSlice | SvcSliceProofs | PropsSvcSlice (C36) |
| TypesNalUnit.v, NalUnit.v | h264_nal_unit_payload_parser.cc, h264_nal_unit_parser.cc, h264_bitstream_parser.cc, h264_bitstream_parser_state | SpecNalUnit, SpecMux | NalUnitProofs, 2, 3, CodecProofs, MuxProofs, LocalProofs | PropsNalUnit, PropsNalUnit2 (C23, C37-C43), PropsMux (C51, C52), PropsLocal (C53) |
| Rtp.v | h264_rtp_parser.cc, h264_rtp_single_parser.cc, h264_rtp_stapa_parser.cc, h264_rtp_fua_parser.cc | | RtpProofs | PropsRtp (C45-C47) |
| NalType.v, Tool.v | h264_common.cc (classification), NaluChecksum, tools/h264nal.cc | SpecTool | ToolProofs | PropsTool (C44, C48, C50, C54, C55) |
| Dump.v | the `fdump` functions of all structures, h264_common.cc (indentation), profileTypeToString | SpecDump (words, lines, layout), SpecShown (what is never printed), SpecLabels (names and presence of the syntax elements) | DumpProofs, 2 to 8 | PropsDump (C56-C59) |
| (NalUnit.v) | soundness of whole units | SpecConform | ConformProofs | PropsConform (C60) |
| ToolText.v | options and output of the tool | SpecToolText | ToolTextProofs | PropsToolText (C61, C62) |
| (NalUnit.v) | dependence on the parser state | SpecReuse | ReuseProofs | PropsReuse (C63) |
| TypesEntry.v, Entry.v | the parsers of single structures, called on bytes | SpecEntry | EntryProofs | PropsEntry (C65) |
| Overloads.v | streams with their options, h264_bitstream_parser_state.cc | SpecState | StateProofs | PropsOverloads (C64, C66) |
| Framerate.v | `VuiParametersState::getFramerate` | SpecFramerate | FloatProofs | PropsFramerate (C67) |
| Files.v | h264_utils.cc, the files of tools/h264nal.cc `main` | SpecFiles | PropsFiles | PropsFiles (C68) |
| Fuzz.v | the 25 targets of fuzz/*.cc | SpecCallers | CallerProofs | PropsCallers (C69) |
| PyText.v, Split.v | tools/h264nal-split.py; the parts of Python's re and str it uses | SpecSplit | PyTextProofs, SplitProofs, SplitProofs2 | PropsSplit (C70) |
| PyText2.v, Conformance.v | tools/h264nal-conformance.py, one row of its table | SpecConformance | ConfProofs, ConfProofs2 to ConfProofs8 | PropsConformance (C71) |
| Cmdline.v | tools/h264nal.cc:164-379 (getopt_long, debug level) | SpecCmdline | CmdlineProofs | PropsCmdline (C73) |
| Lengths.v | `getSliceGroupIdLen` and `getSliceGroupChangeCycleLen` in double arithmetic | SpecLengths | LengthsProofs, LengthsProofs2 | PropsLengths (C74) |
| Converter.v | fuzz/converter.py:114-204 (parse_input) | SpecConverter | ConverterProofs, 2, 3, 4 | PropsConverter (C75) |
| ConverterFiles.v | fuzz/converter.py:20-47, 52-95, 249-250 (the template, the files) | SpecConverterFiles | ConverterProofs5 | PropsConverterFiles (C78) |
| SplitFiles.v | tools/h264nal-split.py:134-154 (file names) | SpecSplitFiles | in PropsSplitFiles | PropsSplitFiles (C79) |
| Split.v, a second run | tools/h264nal-split.py:98-154, 182-228 on a piece | SpecSplit | in PropsSplitTwice | PropsSplitTwice (C82) |
| ConfTable.v | tools/h264nal-conformance.py:21-32, 202-226, 264-285, 300-303 (the table); the parts of Python's csv and os.path it uses | SpecConfTable | in PropsConfTable | PropsConfTable (C80) |
| ConfSummary.v | tools/h264nal-conformance.py:272-279, 287-297 (the last line) | SpecConfSummary | in PropsConfSummary | PropsConfSummary (C81) |
| Dpb.v | tools/h264nal-dpb_parse.py | SpecDpb, SpecDpbText | DpbProofs, DpbProofs2 to DpbProofs8 | PropsDpb (C72) |
| Dpb.v | tools/h264nal-dpb_parse.py:172-183, 305-311 (B pictures) | SpecDpbB | DpbProofs9 | PropsDpbB (C76) |
| Dpb.v | tools/h264nal-dpb_parse.py:298-299, 395-412 (sliding window, fields) | SpecDpbFields | DpbProofs10 | PropsDpbF (C77) |

`TestVectors.v` runs the project's own unit tests on the model: 84 `Example`s for the 81 tests
that are compiled in the 23 files of /repo/test (1112 assertion macros; two more tests there are
inside `#if 0`). A script translated 1020 of the assertions from the C++ text, with the bytes and
the expected values of the test. The remaining ones were transcribed by hand, and were not counted
one by one; "not null" checks are partly implied by the comparison of the fields behind them.
Known to be left out: the comparison of
two functions over many rates in `TestSliceGroupChangeCycleLen` (one function in the model), and
`TestTruncatedNalUnit`, which asserts nothing. The file supports the claim that the model computes
what the code computes on these inputs; it proves no property.

`MediaVectors.v` runs the model on a file of the project (media/601.264) and compares the units
and slice headers with ffmpeg's trace of it (media/601.264.bsf). In a scratch run, every value of
the traces of 601, 601vui, 709 and 709vui, and of the first 8000 bytes of foreman.svc, that the
model's dump also has was the same (1831 values).
The tables in /repo/conformance were made by h264nal-conformance.py. In a scratch run
the counts and header status of all 572 rows were related as C71 says, and a transcription of the
writer of ConfTable.v gave the 9 files from their fields, byte for byte.

## What is not modelled

- Error messages (`FPRINT_ERRORS`) and failures while writing an open file.
- In the tool: messages to stderr (the usage text among them). getopt_long belongs to the C
  library; Cmdline.v follows the manual of glibc, without POSIXLY_CORRECT. The disk is a function from names
  to contents (Files.v); the version number is a parameter.
- That `float` and `double` are IEEE binary32 and binary64 is assumed for `getFramerate` (C67).
- Null pointers inside a parser state. The code stores none, but the members are public. (C69 is
  about the other states a caller can make.)
- In the scripts: Python itself. PyText.v gives the meaning of the regular expressions and string
  methods that occur, for ASCII text without carriage returns, which is what the tool prints. The
  command line and messages are left out (but for the last line of h264nal-conformance.py, C81). So are timeouts and
  failures to start the tool. What the tool writes to stderr is an argument of the model of
  h264nal-conformance.py.
- Memory exhaustion (`std::bad_alloc`), except that reserving more than `max_size()` is an
  `Abort`.
- Payloads the library itself does not parse (SEI, data partitions, slice data): the model
  skips them as the code does.

## Simplifications

- The C++ slice header structs are flat; the model groups their fields in records. Every
  field is present once.
- `std::map` is an association list with find and insert-or-replace.
- The global counter of unimplemented syntax is part of the `world` that is passed along.
- Loops over the buffer carry fuel; running out is the outcome `NoFuel`, which the safety
  theorems (C23 and those of each parser) exclude.
- `getSliceGroupIdLen` and `getSliceGroupChangeCycleLen` use `ceil(log2(x))` in double
  arithmetic. The parsers of the model use an integer function. C74 proves that both give the
  same for all 32-bit numbers, for every `log2` that is exact for powers of two and off by
  2^-40 at most. That `std::log2` is such a function is an assumption about the C library.
- A member that the C++ leaves unset holds its initial value in the model. `offset` and
  `length` of a NAL unit parsed directly (not through a bitstream) are uninitialised in the
  C++ and are not part of the modelled unit; they are paired with it by the bitstream parsers.
- SPS/PPS soundness theorems quantify existentially over the scaling-list syntax, because the
  stored lists do not determine it (all 4x4 lists share one vector).
- `noexcept`/`unique_ptr` plumbing is left out. The overloads that take bytes are the function
  `ParseBytes` of Entry.v, with one constructor of `structure` for each.
- A dump is modelled as a list of lines, each a list of words, which is then printed with one
  blank between words. A line starts where the code calls `fdump_indent_level`. Indentation
  levels are -1 (everything on one line) or at least 0; other negative levels are not modelled.
- `SpecLabels.v` was produced by a script from lists of names; the names and conditions are the
  standard's. It leaves out ref_pic_list_modification(), pred_weight_table() and
  dec_ref_pic_marking(); C58 covers them.

## Findings

Statements that the code violates are proved as theorems ending in `_refuted`, each with a
concrete witness.

Bit reader and writer
- With NDEBUG a failed Exp-Golomb read does not restore the position: the `Seek` is inside an
  assert macro (`C05_failed_golomb_restores_ndebug_refuted`).
- `ReadNonSymmetric(1)` always fails, a failure at the last bit does not restore the position,
  2^31 values shift by the type width (`C07_ns_one_refuted`, `C07_ns_failure_restores_refuted`);
  likewise for the writer (`C10_write_ns_one_refuted`).
- `WriteBits` with 0 or more than 64 bits is undefined behaviour.
- Builds with asserts abort for buffers above 4 GiB.

RBSP and framing
- `more_rbsp_data` is true when zero bytes follow the trailing bits
  (`C13_more_data_trailing_zeros_refuted`).
- The checksum accumulator wraps above 16 GiB (C15 is stated up to 2^34 bytes).
- A start code in the last three bytes is not found (`C17_final_start_code_missed_refuted`); a
  final zero byte of a unit is taken for part of the next start code
  (`C18_final_zero_byte_refuted`).
- At 4 GiB the explicit framing loop does not advance (`C19_framing_4gib_refuted`).
- With length fields of 8 bytes or more the bound check of `ParseBitstreamNALULength` wraps
  (`C20_length_prefixed_wrap_refuted`), which ends the process
  (`C23_wide_length_field_abort_refuted`).
- `nal_unit->length` is set to the size of the length field (`C21_recorded_length_refuted`).

Parameter sets
- A failed `scaling_list()` is ignored (`C28_bad_delta_accepted_refuted`); all 4x4 lists
  overwrite one vector and the 8x8 default flags go to the 4x4 vector
  (`C28_lists_overwritten_refuted`).
- PPS: several ranges unchecked (`C29_unchecked_ranges_refuted`),
  `second_chroma_qp_index_offset` not inferred (`C29_second_offset_not_inferred_refuted`),
  `chroma_format_idc` fixed to 1 by the payload parser.
- Prefix NAL units: extension data lost or invented (`C30_prefix_ref0_data_lost_refuted`,
  `C30_prefix_unannounced_data_refuted`). MVC extensions of a subset SPS are skipped
  (`C30_mvc_extension_not_decoded_refuted`). `svc_vui_parameters_extension()` is not parsed,
  so C30 is stated for flag 0.
- The limits 1055 (macroblocks) and 16880 (cropping) are the implementation's own.
  `reserved_zero_2bits`, `forbidden_zero_bit` and `aux_format_idc` are not checked.

Slices
- SVC slice header: counts inferred from the PPS are not applied
  (`C36_inferred_counts_refuted`), `scan_idx_end` defaults to 0 where the standard infers 15,
  slice types 3, 4, 8, 9 are accepted, `slice_qp_delta` is unchecked.
- An SVC slice whose header is rejected is still reported as parsed
  (`C43_svc_slice_rejected_refuted`).
- `slice_group_change_cycle` has no upper bound check.

RTP and tool
- STAP-A continues where the payload parser stopped, not at the next unit
  (`C46_emulation_prevention_refuted`, `C46_pps_not_last_refuted`, `C46_delimiter_refuted`,
  `C46_slice_refuted`). FU-A loses SVC headers (`C47_svc_refuted`).
- `IsNalUnitTypeUnspecified(0)` is false (`C48_type_0_refuted`).
- Exit status: dropped units go unnoticed in length-prefixed mode
  (`C44_dropped_unnoticed_refuted`); the counter wraps (`C44_counter_wraps_refuted`).
- Length dump: `C50_length_prefixed_refuted`, `C50_single_unit_refuted`,
  `C50_bitrate_overflow_refuted`; contents dump: `C54_length_prefixed_refuted`.
- Command line: the usage text offers `-q`, which is refused (`C73_quiet_refuted`). A file named
  without `-i` is ignored (`C73_operand_refuted`). The messages of `-dd` go to the standard output,
  in front of the dump (`C73_messages_refuted`).
- Fuzz inputs: the converter looks for the end of a buffer in a line `};` without indentation,
  which the tests do not have, so a buffer without a begin marker goes on to the next marker. One
  seed of the SPS target gets two bytes from the picture sizes in a comment
  (`C75_sps_seed_refuted`), and one seed of the RTP target is two packets in a row
  (`C75_two_buffers_refuted`). Byte values with capital letters or one digit would be left out
  (`C75_notation_refuted`); no test has one.
- Files of the converter: a test whose name does not contain `unittest` is overwritten if the output
  directory is its own (`C78_overwrites_refuted`). With an output directory that ends with `%` the
  target is written and no seed (`C78_percent_refuted`); `-` for the standard input always fails
  (`C78_stdin_refuted`). In a scratch run the model gave, from the tests, 21 of the 23 targets in /repo/fuzz that
  claim to be generated, byte for byte. The other two
  (`h264_slice_header_in_scalable_extension_parser_fuzzer.cc`,
  `h264_slice_layer_extension_rbsp_parser_fuzzer.cc`) have no rule in fuzz/Makefile and are not what
  the converter makes of their tests now.
- Options: an empty number counts as 0 (`C62_empty_number_refuted`); the usage text offers -1 for
  `--nalu-length-bytes`, which is refused (`C62_minus_one_refuted`). With length fields of 8 bytes
  a file of 9 bytes makes the process abort (`C61_eight_refuted`).
- Files: an empty file is refused, an empty standard input is accepted (`C68_empty_refuted`).
  `--avcc-file` without `--infile` reads nothing, succeeds, and empties the output file
  (`C68_avcc_only`).
- The frame rate is rounded to double and then to float; for large fields this gives a neighbour
  of the nearest float (`C67_nearest_refuted`).

Dumps
- Dumping with the checksum option a unit that was parsed without it dereferences a null
  pointer (`C56_checksum_refuted`).
- `RtpState::fdump` does not call `fdump_indent_level` before the packet's own structure, which is
  printed directly behind the closing brace of the header (`C57_rtp_indented_refuted`).
- `cpb_size_scale` and `additional_prefix_nal_unit_extension_flag` are not printed
  (`C58_cpb_size_scale_refuted`, `C58_prefix_flag_refuted`).
- `slice_alpha_c0_offset_div2` and `slice_beta_offset_div2` are signed and printed with %u
  (`C59_negative_offset_refuted`). So are, in the SVC slice header, `delta_pic_order_cnt_bottom`,
  `slice_qp_delta`, the inter-layer offsets and the scaled reference layer offsets, and the
  `seq_scaled_ref_layer` offsets of the SVC extension of an SPS; `SpecLabels.v` lists them
  modulo 2^32.
- `BitstreamState::fdump` ignores its options argument and uses the member `parsing_options_`,
  which the overloads with a parser state leave at the default: options are not honoured
  (`C64_options_refuted`), and a stream parsed without checksums cannot be dumped
  (`C64_state_dump_refuted`).
- A payload that was not parsed is printed as a blank line.

Hand-made parser states
- The members of the parser state are public. A stored SPS with `bit_depth_luma_minus8` of
  357913933 makes the range check of `slice_qp_delta` overflow an int
  (`C69_depth_refuted`); a stored PPS with `slice_group_change_rate_minus1` 0xffffffff makes
  the change cycle length divide by zero (`C69_rate_refuted`). No parser produces such a set, and
  no other member can do harm (`C69_safe`).

The scripts
- h264nal-split.py looks for the picture size with `width: (\d+)` and `height: (\d+)`. A dump with
  an Extended_SAR has `sar_width:` and `sar_height:` before the resolution, and these match first.
  A stream with one picture size is then cut (`C70_same_size_cut_refuted`), and a change of the
  size is missed (`C70_change_missed_refuted`). h264nal-conformance.py asks for a word boundary
  before `width` and does not have this defect (`C71_row`).
- h264nal-split.py numbers its files with at least two digits. From 100 files on, a list sorted by
  name (`cat in.*.264`) is not in the order of the pieces any more (`C79_order`).
- The files that h264nal-split.py writes need not be readable on their own. The cut is before a
  sequence parameter set; a picture parameter set that later slices use stays in the earlier file, and
  the tool then rejects the slices (`C79_piece_alone_refuted`).
- The exit status of the tool, and so the first status column of h264nal-conformance.py, is 0 for
  a scalable slice without a slice header (`C71_status_alone_refuted`). The second status column
  shows it, and there is no other case (`C71_zero`).
- The first two columns of the table, directory and file name, are the same for files with the same
  name in different directories of the same name (`C80_same_name_refuted`). A comment in the script
  says that the whole path is left out on purpose.
- For profiles other than 44, 100, 110, 122 and 244, h264nal-conformance.py calls level_idc 9
  "0.9". `names_level` in SpecConformance.v says the same, so C71 does not judge whether that is
  right for the profiles of annexes G and H.
- h264nal-dpb_parse.py does not follow the marking process of the standard (8.2.5) in these cases:
  - A reference picture with memory management operations is not added to the buffer, unless one
    of them makes it a long-term frame (`C72_current_lost_refuted`).
  - Operation 2 is ignored (`C72_unmark_long_refuted`).
  - Operation 3 leaves an older frame with the same index in the buffer
    (`C72_index_reused_refuted`).
  - Operations 1 and 3 do not find a frame from before frame_num has wrapped
    (`C72_wrap_refuted`).
  - With max_num_ref_frames 0 the current picture is dropped (`C72_none_kept_refuted`).
- Its loop for the sliding window does not end when there are more long-term frames than
  max_num_ref_frames (`C72_endless`). With the first three defects this happens on a stream that
  keeps all limits (`C72_hang_refuted`).
- Its reference lists (8.2.4) are wrong in these cases:
  - Slice types 5 to 9 are printed as "?5" to "?9" and get no list (`C72_slice_type_refuted`).
  - A frame that is named twice is moved, not repeated (`C72_named_twice_refuted`).
  - Frames are sorted by frame_num also when it has wrapped (`C72_list_wrap_refuted`).
- It uses the last sequence parameter set of the file for all pictures (`C72_reads`), and the last
  picture parameter set before a picture, not the one that the slice names (`shows` in
  DpbProofs4.v).
- It counts the two fields of a frame as two pictures, and max_num_ref_frames counts frames. In
  every stream of pairs of reference fields the table soon lacks frames that are references
  (`C77_fields_refuted`).
- It sorts list 0 of B pictures by frame_num and not by picture order count. The first entry is
  wrong for every B picture without commands for which the short-term frame decoded last is shown
  later and another one earlier (`C76_shown_after_refuted`), which is the usual use of B pictures.

## Tests against wrong programs

`seeded/LOG.jsonl` has one line per attempt. Each attempt edits one model definition in a
scratch copy the way a realistic bug would, rebuilds, admits every lemma and theorem whose
proof breaks, and goes on until everything compiles. `Print Assumptions` then tells which
property theorems depend on an admitted statement. If the property whose English statement
the bug violates has no such theorem, the theorem is too weak and is tightened. A statement
that no longer compiles, or an example that no longer computes, also counts as a failure.

A broken proof script is not a refutation of the statement. W04, for example, is an edit that
leaves the program's behaviour as it was, and only the script broke. Whether the statement itself is
false for the edited model was judged case by case from the edit, not checked by Coq.

## Plan per property

- **C01 Bit reads return the exact big-endian bits.** Spec.v gives bits of bytes MSB-first and their value; theorem: PeekBits/ReadBits of the BitBuffer model equals value of firstn n of the remaining bits, new position = old + n. By slicing lemmas on byte bits and induction on the whole-byte loop.
- **C02 Impossible reads fail without moving and without touching memory outside the buffer.** Outcome type has an explicit UB constructor for an out-of-range byte fetch or bad shift; theorem over arbitrary operation lists: no UB, and failing operations leave the buffer unchanged.
- **C03 Reader position is always a valid position.** Invariant over operation lists (fold) plus Seek(GetCurrentOffset) lemma.
- **C04 Unsigned Exp-Golomb decoding matches the standard.** iff theorem between the read succeeding and the remaining bits starting with ue codeword of the Spec.
- **C05 A failed Exp-Golomb read leaves the position where it was.** Build mode is a field of the buffer model; theorem for asserts on, `_refuted` witness for NDEBUG.
- **C06 Signed Exp-Golomb decoding matches the standard.** iff theorem with the se map of the Spec; int32 arithmetic modelled with explicit overflow outcome.
- **C07 Non-symmetric (truncated binary) reads decode the ns(n) code.** Spec ns code; iff theorem on 2<=n<2^31; refuted witnesses for n=1, n=2^31 and missing restore.
- **C08 Writing bits changes exactly those bits.** Writer model over the byte list with explicit UB; theorem on the whole bit string before/after.
- **C09 What is written is what is read.** Induction over lists of write operations.
- **C10 Exp-Golomb writers emit the standard codeword.** Corollary of C08 with Spec codewords.
- **C11 Unescaping inverts the standard's emulation prevention.** Spec escape function; induction on zero-run state.
- **C12 Unescaping removes only emulation-prevention bytes.** Relation `strips` in Spec; functional induction.
- **C13 more_rbsp_data agrees with the standard.** Spec definition of more data (position of last 1 bit); theorem + refuted witness for trailing zero bytes.
- **C14 rbsp_trailing_bits accepts exactly a stop bit and zero alignment.** iff theorem.
- **C15 The NALU checksum is a position-neutral one's-complement sum.** Spec: words of the remaining bits, one's complement sum mod 2^32-1; model with uint64 wrap.
- **C16 Annex B splitting is sound.** Model the scan loop with index arithmetic on bytes; invariant on the accumulated list.
- **C17 Annex B splitting is complete.** Same invariant, plus 'no start code strictly between'.
- **C18 Annex B multiplex/split round trip.** From C16/C17 and uniqueness of positions, or direct induction over the unit list.
- **C19 Explicit framing (4-byte length) round trip and bounds.** Invariant + induction over units.
- **C20 Length-prefixed bitstream parsing stays in bounds.** Model with size_t wrap; theorem for size<8; refuted witness for 8.
- **C21 Length-prefixed bitstream parsing visits exactly the framed units.** Induction over units.
- **C22 NAL unit header decoding.** Encoder spec + iff.
- **C23 No input crashes the parser.** Compositional 'safe' predicate on the parser monad: outcome is never UB/Abort/OutOfFuel and the buffer invariant is kept; closed under bind; proved for each parser, and for bitstream loops.
- **C24 SPS decoding inverts the standard's SPS syntax.** Independent encoder enc_sps over the standard's syntax; parse(enc s ++ rest) = s, and converse by inversion of the monadic parser.
- **C25 Accepted SPS fields are within the standard's ranges.** From the converse direction of C24.
- **C26 Resolution of accepted SPS.** Arithmetic from C25 ranges.
- **C27 VUI and HRD decoding invert the standard's syntax.** Same technique as C24.
- **C28 Scaling list decoding.** Spec recursion from 7.3.2.1.1.1; iff.
- **C29 PPS decoding inverts the standard's PPS syntax.** Same technique as C24; more_rbsp_data handled with C13.
- **C30 SPS extension, subset SPS, SVC extension and prefix NAL decoding.** Same technique as C24.
- **C31 Reference picture list modification decoding.** Induction over command lists; termination by remaining bits.
- **C32 Prediction weight table decoding.** Same technique.
- **C33 Decoded reference picture marking decoding.** Same technique.
- **C34 Slice header decoding inverts the standard's syntax.** Same technique, state maps as functions/assoc lists.
- **C35 Slices are only parsed against known parameter sets.** By inversion of the parser.
- **C36 Slice header in scalable extension.** Same technique as C34.
- **C37 Parameter set history: last successfully parsed wins.** Fold over NAL units against a last-writer-wins specification of the event list.
- **C38 Only parameter set NAL units change the parser state.** By inversion on the dispatch.
- **C39 Parsing a bitstream is parsing its NAL units in order.** Fold characterisation.
- **C40 A bad NAL unit does not affect its neighbours.** From C38/C39.
- **C41 Checksum option does not influence parsing.** From C15 position neutrality.
- **C42 parsed_length never exceeds the unescaped unit.** From the reader invariant and strict progress of the header parser.
- **C43 Payload status reported by IsPayloadParsed.** By cases on the dispatch; refuted witness for the SVC slice.
- **C44 Tool exit status.** Model of the exit-status computation; theorem over all buffers.
- **C45 RTP single NAL unit packets parse like NAL units.** By unfolding; Seek(0,0) restores the start.
- **C46 RTP STAP-A aggregation.** Loop invariant; refuted witness for resynchronisation.
- **C47 RTP FU-A fragments.** By unfolding.
- **C48 NAL unit type classification.** Exhaustive decision over uint32 by comparison lemmas.
- **C49 Profile identification.** Decision table equality.
- **C50 Frame accounting of the length dump.** Fold invariant.
- **C51 Whole NAL units are read back.** Encoder of a whole unit (header, payload, trailing bits, emulation prevention) in SpecMux.v; compose the completeness theorems of the payload parsers with C11.
- **C52 Whole streams are read back.** Induction over a list of units, the parser state threaded; C18/C21 for the framing.
- **C53 Parsers look only ahead.** A relation between two buffers with the same remaining bits; closed under the parser combinators.
- **C54 Contents dump.** Loop of the tool over offsets; slice equality.
- **C55 Printable checksum.** Model of the snprintf loop on a byte array with explicit bounds.
- **C56 Every parse result can be dumped.** Dump as a list of lines with explicit undefined behaviour; a predicate for well-formed line lists, closed under the dump combinators; the soundness theorems of the parsers give what the dumps rely on.
- **C57 Layout of dumps.** The same predicate tracks the brace depth; an independent reader of the text (SpecDump) checks it.
- **C58 Dumps determine the values.** Word lists are read back from the front: each field name delimits the next value, the parsers' validity facts fix what is not printed.
- **C59 Dumps name every element.** Tables of names and presence conditions (SpecLabels); every entry is located in the dump.
- **C60 Accepted units encode what is reported.** Soundness theorems of the payload parsers, composed through the dispatch and the buffer positions; then back through the completeness theorems of C51.
- **C61 Text of the tool.** Lines and fields of the concatenated output; the words of a unit's dump come from C58.
- **C62 Options.** Induction on the option list, with the last option of each kind; strtol against a grammar of decimal numbers.
- **C63 Dependence on the state.** Case analysis of the payload parser; induction on the sequence of units.
- **C64 Stream objects.** The forms of C63 for both framings, then C56's existence of each unit's dump.
- **C65 Single structures.** One soundness and one completeness lemma over the type of structures, by the theorems of each parser; emulation prevention as in C51.
- **C66 State as a table.** An invariant closed under the three insertions holds along every history; counting by NoDup and inclusion.
- **C67 Frame rate.** The grid of numbers with p bits: rounding by SpecFloat gives the nearest one; the quotient cannot lie too near the middle of two floats when num_units_in_tick is small, so two roundings are one.
- **C68 Files.** Induction on the chunks of the standard input; case analysis of what a name stands for.
- **C69 States made by callers.** The lemmas of C23 again, with an invariant that asks for less; each fuzz target is a list of calls on such states.
- **C70 Splitting.** A regular expression that starts with a literal can match a rendered dump only at the start of a word; so the first match is in the first line with that label, which the structure of the dump gives. For the cuts: start codes are at least three bytes apart, so cutting before one changes neither the codes before it nor those after it.
- **C71 The table.** In one-line mode a line of the output is the words of a dump joined by blanks. A pattern that starts with a label can only match where a word ends with that label, so the matches are those in the structure of the dump, which a count over all dump functions gives. The columns follow by folding over the units.
- **C72 The picture buffer.** Reading as for C70. Marking: a simulation between the buffer of the script and the reference frames of SpecDpb.v, one lemma per operation; for the sliding window the invariant is that the short-term frames have consecutive numbers modulo MaxFrameNum and end with the last one. Lists: a weakly sorted and a strictly sorted permutation of the same frames are equal; moving a frame in the whole list and then cutting it is the insertion of the standard in the cut list.
- **C73 The command line.** A grammar of well-written argument lists (SpecCmdline.v) and the loop over the arguments agree: one direction by induction on the derivation, the other on the length of the list. A look-up in the table is exact or by a unique beginning, because the names are distinct. The debug level is compared with a count after the last --quiet.
- **C74 Lengths in floating point.** The sum S/R + 1 is a power of two or a relative 2^-33 away from all of them. Rounding to 53 bits is monotonic, so the double stays on the same side with half of that distance; Bernoulli's inequality turns the distance into one of the logarithm that is larger than its error.
- **C75 The converter.** One induction over the lines with the open block of each mode split off; searches from the left are compared with relations that ask for the first occurrence.
- **C76 B pictures.** The list is that of a P picture (proof of C72); under an order that agrees with the decoding order the two initial lists are the same sorted permutation, otherwise the first entries are compared.
- **C77 The sliding window.** If all entries are short-term, the loop of the window keeps the last entries; by induction over the pictures. Fields: the buffers of the standard and of the table after n pairs in closed form, and a frame_num that only one of them has.
- **C78 Files of the converter.** Names by relations as for C75 (last part of a path, replaced occurrences, a name in a directory), each shown to determine the name; the template is substituted by computation with the inserted texts as variables.
- **C79 Names of the pieces.** The extension of a path is a relation with one solution; two texts with a last dot are compared from the right, so number, extension and rest of a name can be read back from it.
- **C80 The table.** The reader of the specification is run on the text of the writer, field by field. The loop of normpath is compared with a walk over the names of the path.
- **C81 The last line.** By C44 and C71 a status is 0 exactly if nothing is reported, and a header status exactly if no header is lost; then by induction over the inputs.
- **C82 Splitting again.** The units of a piece are units of the file, moved (induction over the cuts); the numbers read for a unit depend only on its bytes, not on the parser state; and by C70 sets in one piece have the same numbers.
