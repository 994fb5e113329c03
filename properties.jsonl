{"id": "C01", "title": "Bit reads return the exact big-endian bits", "statement": "If at least n bits remain (1<=n<=32, or 1<=n<=64 for the 64-bit overload), ReadBits(n) succeeds, returns the unsigned big-endian value of exactly the next n bits of the buffer, and advances the position by exactly n bits; PeekBits(n) returns the same value and does not move.", "quantifier": "every byte buffer, every bit position in it, every n", "why_tests_cant": "values depend on every alignment, width and byte content; tests sample a few", "anchors": ["src/rtc_common.cc: BitBuffer::PeekBits, BitBuffer::ReadBits, LowestBits, HighestBits"]}
{"id": "C02", "title": "Impossible reads fail without moving and without touching memory outside the buffer", "statement": "ReadBits/PeekBits with n=0, n larger than the output type, or n larger than the number of remaining bits return false and leave the position unchanged; no read, peek, consume or seek in any order ever reads a byte outside the buffer.", "quantifier": "every buffer, every sequence of reader operations with any arguments", "why_tests_cant": "an out-of-bounds access needs one bad history; tests run a handful", "anchors": ["src/rtc_common.cc: BitBuffer::PeekBits, ReadBits, ConsumeBits, ConsumeBytes, Seek"]}
{"id": "C03", "title": "Reader position is always a valid position", "statement": "After any sequence of public BitBuffer operations the reported offset lies in the buffer (byte offset <= size, bit offset <= 7, and bit offset 0 at the end), Seek to a reported offset always succeeds and restores exactly the same future reads, and RemainingBitCount is total bits minus position.", "quantifier": "every buffer, every operation history", "why_tests_cant": "histories are unbounded", "anchors": ["src/rtc_common.cc: GetCurrentOffset, Seek, RemainingBitCount, ConsumeBits, ConsumeBytes"]}
{"id": "C04", "title": "Unsigned Exp-Golomb decoding matches the standard", "statement": "ReadExponentialGolomb succeeds with value v exactly when the remaining bits start with the ue(v) codeword of v (k zeros, then the k+1 bits of v+1), consumes exactly that codeword, and can return every v in 0..2^32-2.", "quantifier": "every buffer, every position, every v", "why_tests_cant": "2^32 codewords times all alignments", "anchors": ["src/rtc_common.cc: BitBuffer::ReadExponentialGolomb"]}
{"id": "C05", "title": "A failed Exp-Golomb read leaves the position where it was", "statement": "When ReadExponentialGolomb or ReadSignedExponentialGolomb returns false the position is the one before the call. (Holds when asserts are compiled in; the restoring Seek sits inside an assert-based macro and disappears under NDEBUG.)", "quantifier": "every buffer and position, both build modes", "why_tests_cant": "requires all truncated/oversized prefixes and both build modes", "anchors": ["src/rtc_common.cc: ReadExponentialGolomb, RTC_CHECK"]}
{"id": "C06", "title": "Signed Exp-Golomb decoding matches the standard", "statement": "ReadSignedExponentialGolomb returns exactly the se(v) value of the codeword ((-1)^(k+1) ceil(k/2)), always within [-(2^31-1), 2^31-1], with no signed overflow on any input.", "quantifier": "every buffer and position", "why_tests_cant": "2^32 codewords", "anchors": ["src/rtc_common.cc: ReadSignedExponentialGolomb"]}
{"id": "C07", "title": "Non-symmetric (truncated binary) reads decode the ns(n) code", "statement": "For 2<=num_values<2^31, ReadNonSymmetric returns a value below num_values and inverts the standard truncated binary code; num_values=1 always fails, num_values=2^31 shifts by the type width, and failing on the last bit does not restore the position.", "quantifier": "every buffer, position and num_values", "why_tests_cant": "all n and values; edge widths are untested", "anchors": ["src/rtc_common.cc: ReadNonSymmetric, CountBits"]}
{"id": "C08", "title": "Writing bits changes exactly those bits", "statement": "WriteBits(v,n) with 1<=n<=64 and n bits of room stores the low n bits of v big-endian at the current position, leaves every other bit of the buffer untouched, advances by n and never touches a byte outside the buffer; with too little room it returns false and changes nothing.", "quantifier": "every buffer content, position, v and n", "why_tests_cant": "all alignments and neighbouring bits", "anchors": ["src/rtc_common.cc: BitBufferWriter::WriteBits, WritePartialByte, HighestByte"]}
{"id": "C09", "title": "What is written is what is read", "statement": "For every sequence of writer calls (bits, ue, se, ns) that succeed, seeking back and performing the corresponding reads returns the written values in order and ends at the same position.", "quantifier": "every sequence of write operations and values, every starting position", "why_tests_cant": "sequences are unbounded", "anchors": ["src/rtc_common.cc: BitBufferWriter::*, BitBuffer::Read*"]}
{"id": "C10", "title": "Exp-Golomb writers emit the standard codeword", "statement": "WriteExponentialGolomb(v) writes exactly the ue(v) codeword for v<=2^32-2 and refuses 2^32-1 without side effects; WriteSignedExponentialGolomb writes the se(v) codeword and refuses INT32_MIN.", "quantifier": "every v, buffer and position", "why_tests_cant": "2^32 values", "anchors": ["src/rtc_common.cc: WriteExponentialGolomb, WriteSignedExponentialGolomb"]}
{"id": "C11", "title": "Unescaping inverts the standard's emulation prevention", "statement": "For every RBSP byte string x, UnescapeRbsp(Escape(x)) = x, where Escape inserts 03 after every 00 00 that precedes a byte <=03 (or the end).", "quantifier": "every byte string", "why_tests_cant": "unbounded strings with overlapping zero runs", "anchors": ["src/h264_common.cc: UnescapeRbsp"]}
{"id": "C12", "title": "Unescaping removes only emulation-prevention bytes", "statement": "The output of UnescapeRbsp is the input with exactly the 03 bytes of non-overlapping left-to-right 00 00 03 triples removed: no longer than the input, identical if the input has no 00 00 03, never reading outside the input.", "quantifier": "every byte string", "why_tests_cant": "unbounded strings", "anchors": ["src/h264_common.cc: UnescapeRbsp"]}
{"id": "C13", "title": "more_rbsp_data agrees with the standard", "statement": "At any position of a well-formed RBSP (data, stop bit, zero alignment, no trailing zero bytes) more_rbsp_data is true iff there are data bits left before the rbsp_trailing_bits; it never moves the position. It disagrees when cabac_zero_words / trailing zero bytes follow.", "quantifier": "every RBSP and position", "why_tests_cant": "all alignments and contents", "anchors": ["src/h264_common.cc: more_rbsp_data"]}
{"id": "C14", "title": "rbsp_trailing_bits accepts exactly a stop bit and zero alignment", "statement": "rbsp_trailing_bits returns true iff the remaining bits of the current byte (or the next whole byte) are 1 followed by zeros, and then the position is byte aligned.", "quantifier": "every buffer and position", "why_tests_cant": "all alignments and contents", "anchors": ["src/h264_common.cc: rbsp_trailing_bits, byte_aligned"]}
{"id": "C15", "title": "The NALU checksum is a position-neutral one's-complement sum", "statement": "GetNaluChecksum terminates on every buffer and position, leaves the position unchanged, and equals the complement of the end-around-carry 32-bit sum of the big-endian words of the remaining bytes (zero padded), independent of word order.", "quantifier": "every buffer and every starting position, aligned or not", "why_tests_cant": "termination for all alignments, all contents", "anchors": ["src/h264_common.cc: NaluChecksum::GetNaluChecksum"]}
{"id": "C16", "title": "Annex B splitting is sound", "statement": "Every index returned by FindNaluIndices lies inside the buffer, indices are in increasing order and do not overlap, the three bytes before each payload are 00 00 01, start_offset is at that code or at one preceding zero byte, and each payload extends to the next start_offset or to the end of the buffer.", "quantifier": "every byte buffer", "why_tests_cant": "the skip-by-3 scan must be right on every content", "anchors": ["src/h264_bitstream_parser.cc: FindNaluIndices"]}
{"id": "C17", "title": "Annex B splitting is complete", "statement": "Every 00 00 01 in the buffer that is followed by at least one byte is reported exactly once; a start code in the last three bytes is not reported.", "quantifier": "every byte buffer", "why_tests_cant": "Boyer-Moore style skipping must miss nothing on any content", "anchors": ["src/h264_bitstream_parser.cc: FindNaluIndices"]}
{"id": "C18", "title": "Annex B multiplex/split round trip", "statement": "Concatenating any list of non-empty escaped NAL units (no 00 00 00/01/02 inside, not ending in 00), each prefixed with 00 00 01 or 00 00 00 01, and splitting with FindNaluIndices yields back exactly those NAL units.", "quantifier": "every list of NAL units, every choice of 3/4-byte start codes", "why_tests_cant": "unbounded lists", "anchors": ["src/h264_bitstream_parser.cc: FindNaluIndices"]}
{"id": "C19", "title": "Explicit framing (4-byte length) round trip and bounds", "statement": "For buffers below 4 GiB FindNaluIndicesExplicitFraming terminates, never reads outside, and reports exactly the complete units the buffer starts with (contiguous, ordered, in bounds); any concatenation of length-prefixed units is split back into those units. At 4 GiB a size field of 0xFFFFFFFC makes it loop forever.", "quantifier": "every byte buffer / every list of units", "why_tests_cant": "unbounded", "anchors": ["src/h264_bitstream_parser.cc: FindNaluIndicesExplicitFraming"]}
{"id": "C20", "title": "Length-prefixed bitstream parsing stays in bounds", "statement": "ParseBitstreamNALULength never reads outside the buffer and terminates, for every buffer and every length-field size below 8 bytes: the NAL unit parser is called exactly on the complete non-empty units the buffer starts with. For length fields of 8 bytes or more the bound check wraps and the NAL unit parser can be handed a length beyond the buffer (which ends the process).", "quantifier": "every buffer, every nalu_length_bytes", "why_tests_cant": "wrap-around needs specific 64-bit lengths", "anchors": ["src/h264_bitstream_parser.cc: ParseBitstreamNALULength, read_nalu_length"]}
{"id": "C21", "title": "Length-prefixed bitstream parsing visits exactly the framed units", "statement": "For a well-formed concatenation of non-empty length-prefixed NAL units the parser hands each unit, in order, to the NAL unit parser and records its true offset; the recorded length is the size of the length field, not of the unit.", "quantifier": "every list of units and length-field size 1..7", "why_tests_cant": "unbounded", "anchors": ["src/h264_bitstream_parser.cc: ParseBitstreamNALULength"]}
{"id": "C22", "title": "NAL unit header decoding", "statement": "For every header the parser returns exactly the standard's fields: forbidden_zero_bit, nal_ref_idc, nal_unit_type, and for types 14/20 with svc_extension_flag the 23-bit SVC extension; it consumes 8 or 32 bits; MVC and 3D-AVC extensions yield no header and count one unimplemented structure.", "quantifier": "every buffer and position", "why_tests_cant": "all header values and truncations", "anchors": ["src/h264_nal_unit_header_parser.cc: ParseNalUnitHeader", "src/h264_nal_unit_header_svc_extension_parser.cc: ParseNalUnitHeaderSvcExtension"]}
{"id": "C23", "title": "No input crashes the parser", "statement": "For every byte string, parser state reachable from the empty one and options, parsing a NAL unit, an Annex B bitstream, a length-prefixed bitstream (length size < 8) or an RTP packet terminates, performs no out-of-bounds access, no undefined shift or signed overflow, dereferences no null pointer and triggers no assertion.", "quantifier": "every byte string, every history of previously parsed NAL units", "why_tests_cant": "memory safety is a claim over all inputs and histories", "anchors": ["src/h264_nal_unit_parser.cc: ParseNalUnit", "src/h264_nal_unit_payload_parser.cc: ParseNalUnitPayload", "src/*_parser.cc"]}
{"id": "C24", "title": "SPS decoding inverts the standard's SPS syntax", "statement": "For every valid seq_parameter_set_data value, parsing its standard bit encoding followed by anything returns exactly that value and consumes exactly its bits; conversely every accepted SPS is the decoding of its bits.", "quantifier": "every SPS value, every following data", "why_tests_cant": "product of dozens of fields and conditional branches", "anchors": ["src/h264_sps_parser.cc: ParseSpsData, ParseSps, scaling_list"]}
{"id": "C25", "title": "Accepted SPS fields are within the standard's ranges", "statement": "Every SPS returned by the parser (and so every SPS stored in the parser state) satisfies the range limits the standard gives for its fields.", "quantifier": "every byte string", "why_tests_cant": "all inputs", "anchors": ["src/h264_sps_parser.cc: ParseSpsData", "include/h264_sps_parser.h"]}
{"id": "C26", "title": "Resolution of accepted SPS", "statement": "For every accepted SPS getResolution either returns the standard's cropped frame size in luma samples, computed without overflow, with 1<=width,height<=the coded size, or reports failure exactly when cropping leaves nothing.", "quantifier": "every accepted SPS", "why_tests_cant": "crop/format combinations", "anchors": ["src/h264_sps_parser.cc: getResolution, getCropUnitX, getCropUnitY, getChromaArrayType, getSubWidthC, getSubHeightC"]}
{"id": "C27", "title": "VUI and HRD decoding invert the standard's syntax", "statement": "For every valid vui_parameters / hrd_parameters value, parsing the standard encoding returns the value and consumes exactly its bits; accepted values satisfy the range limits.", "quantifier": "every VUI/HRD value", "why_tests_cant": "conditional fields and up to 32 CPB entries", "anchors": ["src/h264_vui_parameters_parser.cc: ParseVuiParameters", "src/h264_hrd_parameters_parser.cc: ParseHrdParameters"]}
{"id": "C28", "title": "Scaling list decoding", "statement": "The scaling_list routine computes the standard's scaling list from the delta_scale sequence (fallback flag, repetition after next_scale 0), reads at most sizeOfScalingList deltas, and rejects deltas outside -128..127.", "quantifier": "every bit string", "why_tests_cant": "64-step data-dependent loop", "anchors": ["src/h264_sps_parser.cc: scaling_list", "src/h264_pps_parser.cc: scaling_list"]}
{"id": "C29", "title": "PPS decoding inverts the standard's PPS syntax", "statement": "For every valid pic_parameter_set value (all slice group map types, with or without the High-profile extension), parsing the standard encoding followed by rbsp_trailing_bits returns that value; accepted PPS fields are within range.", "quantifier": "every PPS value", "why_tests_cant": "variable-length slice group tables and more_rbsp_data dependent extension", "anchors": ["src/h264_pps_parser.cc: ParsePps, getSliceGroupIdLen, scaling_list"]}
{"id": "C30", "title": "SPS extension, subset SPS, SVC extension and prefix NAL decoding", "statement": "The parsers for seq_parameter_set_extension, subset SPS with SVC extension and prefix NAL units invert the standard's syntax on every valid value.", "quantifier": "every value", "why_tests_cant": "all branches", "anchors": ["src/h264_sps_extension_parser.cc", "src/h264_subset_sps_parser.cc", "src/h264_sps_svc_extension_parser.cc", "src/h264_prefix_nal_unit_parser.cc"]}
{"id": "C31", "title": "Reference picture list modification decoding", "statement": "ParseRefPicListModification decodes every command list terminated by 3 and terminates on every input.", "quantifier": "every command list, every bit string", "why_tests_cant": "unbounded lists", "anchors": ["src/h264_ref_pic_list_modification_parser.cc"]}
{"id": "C32", "title": "Prediction weight table decoding", "statement": "ParsePredWeightTable decodes every table for every number of active references and chroma array type, and its per-entry flag/weight vectors have consistent lengths.", "quantifier": "every table", "why_tests_cant": "up to 64 entries with optional fields", "anchors": ["src/h264_pred_weight_table_parser.cc"]}
{"id": "C33", "title": "Decoded reference picture marking decoding", "statement": "ParseDecRefPicMarking decodes every MMCO list terminated by 0 and terminates on every input.", "quantifier": "every list, every bit string", "why_tests_cant": "unbounded lists", "anchors": ["src/h264_dec_ref_pic_marking_parser.cc"]}
{"id": "C34", "title": "Slice header decoding inverts the standard's syntax", "statement": "Given an active PPS/SPS in the parser state, parsing the standard encoding of any valid slice header returns its fields, with conditional fields present exactly when the active parameter sets say so, and consumes exactly its bits.", "quantifier": "every PPS/SPS state and slice header value", "why_tests_cant": "cross product of parameter set flags and slice types", "anchors": ["src/h264_slice_header_parser.cc: ParseSliceHeader"]}
{"id": "C35", "title": "Slices are only parsed against known parameter sets", "statement": "A slice header parse succeeds only if the PPS it names and the SPS that PPS names are in the parser state; the flags recorded in the slice header are those of that PPS and SPS.", "quantifier": "every input and parser state", "why_tests_cant": "all histories", "anchors": ["src/h264_slice_header_parser.cc", "src/h264_bitstream_parser_state.cc"]}
{"id": "C36", "title": "Slice header in scalable extension", "statement": "The SVC slice header parser inverts the standard's syntax given the PPS and the subset SPS (never the plain SPS) it refers to, for headers whose numbers of references are in the header, 0 in the PPS or not used; exactly the headers with dec_ref_base_pic_marking() are reported as unimplemented. Headers that rely on non-zero numbers inferred from the PPS are misread (a defect).", "quantifier": "every parser state and header value", "why_tests_cant": "cross product of flags", "anchors": ["src/h264_slice_header_in_scalable_extension_parser.cc"]}
{"id": "C37", "title": "Parameter set history: last successfully parsed wins", "statement": "After any sequence of NAL units, looking up an SPS/PPS/subset SPS id in the parser state yields the last successfully parsed parameter set of that kind and id, and nothing if there was none.", "quantifier": "every sequence of NAL units", "why_tests_cant": "unbounded histories", "anchors": ["src/h264_nal_unit_payload_parser.cc: ParseNalUnitPayload", "src/h264_bitstream_parser_state.cc"]}
{"id": "C38", "title": "Only parameter set NAL units change the parser state", "statement": "Parsing a NAL unit whose type is not 7, 8 or 15, or whose payload is rejected, leaves the parser state unchanged; a parameter set of one kind never changes the other kinds.", "quantifier": "every NAL unit and state", "why_tests_cant": "all inputs", "anchors": ["src/h264_nal_unit_payload_parser.cc"]}
{"id": "C39", "title": "Parsing a bitstream is parsing its NAL units in order", "statement": "ParseBitstream returns one entry per start-code delimited unit whose header parses, in stream order, with its true offset and length, and each entry equals what ParseNalUnit returns on those bytes with the state left by the preceding units.", "quantifier": "every byte buffer and initial state", "why_tests_cant": "unbounded streams", "anchors": ["src/h264_bitstream_parser.cc: ParseBitstream"]}
{"id": "C40", "title": "A bad NAL unit does not affect its neighbours", "statement": "Replacing a unit whose parse is rejected by any other rejected unit (or dropping it) does not change the results for the other units of the bitstream.", "quantifier": "every bitstream", "why_tests_cant": "all histories", "anchors": ["src/h264_bitstream_parser.cc: ParseBitstream", "src/h264_nal_unit_payload_parser.cc"]}
{"id": "C41", "title": "Checksum option does not influence parsing", "statement": "Parsing with add_checksum on or off yields the same NAL unit apart from the checksum field, and the same parser state.", "quantifier": "every input and state", "why_tests_cant": "all inputs", "anchors": ["src/h264_nal_unit_parser.cc: ParseNalUnit", "src/h264_common.cc: GetNaluChecksum"]}
{"id": "C42", "title": "parsed_length never exceeds the unescaped unit", "statement": "The parsed_length of a NAL unit is between 1 and the number of unescaped bytes of the unit (and so at most the unit length).", "quantifier": "every input", "why_tests_cant": "all inputs", "anchors": ["src/h264_nal_unit_parser.cc", "src/h264_common.cc: get_current_offset"]}
{"id": "C43", "title": "Payload status reported by IsPayloadParsed", "statement": "IsPayloadParsed is false exactly when the unit's type has a parser and that parser rejected the payload; the exception is an SVC coded slice extension, whose rejected slice header is still reported as parsed.", "quantifier": "every input", "why_tests_cant": "all inputs and histories", "anchors": ["src/h264_nal_unit_payload_parser.cc: IsPayloadParsed", "src/h264_slice_layer_extension_rbsp_parser.cc"]}
{"id": "C44", "title": "Tool exit status", "statement": "The h264nal tool exits 2 iff unimplemented syntax was met (the number of reports modulo 2^32 is non-zero), else 1 iff some unit was dropped or unparsed (Annex B; in length-prefixed mode, iff a returned unit is unparsed), else 0.", "quantifier": "every input file", "why_tests_cant": "all inputs; counter wrap", "anchors": ["tools/h264nal.cc: main", "src/h264_common.cc: report_unimplemented"]}
{"id": "C45", "title": "RTP single NAL unit packets parse like NAL units", "statement": "ParseRtp on a packet of type 1..23 yields the same header, payload and parser state as ParseNalUnit on the same bytes.", "quantifier": "every packet and state", "why_tests_cant": "all inputs", "anchors": ["src/h264_rtp_parser.cc", "src/h264_rtp_single_parser.cc"]}
{"id": "C46", "title": "RTP STAP-A aggregation", "statement": "ParseRtpStapA terminates, every reported nal_unit_size fits the packet, the three reported vectors have equal length; for units whose payload parser consumes them exactly the units are recovered; in general the parser resumes where the payload parser stopped rather than at the next unit.", "quantifier": "every packet and state", "why_tests_cant": "all inputs", "anchors": ["src/h264_rtp_stapa_parser.cc"]}
{"id": "C47", "title": "RTP FU-A fragments", "statement": "ParseRtpFuA reports the FU indicator and header bits of every packet; parses the payload of start fragments as a unit of fu_type and touches no parser state for other fragments.", "quantifier": "every packet and state", "why_tests_cant": "all inputs", "anchors": ["src/h264_rtp_fua_parser.cc"]}
{"id": "C48", "title": "NAL unit type classification", "statement": "IsSliceSegment, IsNalUnitTypeReserved and IsNalUnitTypeUnspecified agree with Table 7-1 for every 32-bit value (except that type 0, Unspecified, is not recognised as such), are mutually exclusive, and are false above 31; NalUnitTypeToString gives distinct names to distinct named types.", "quantifier": "every uint32 value", "why_tests_cant": "2^32 values", "anchors": ["src/h264_common.cc: IsSliceSegment, IsNalUnitTypeReserved, IsNalUnitTypeUnspecified"]}
{"id": "C49", "title": "Profile identification", "statement": "getProfileType returns, for every profile_idc and constraint flags, the profile the standard's Annex A assigns.", "quantifier": "every profile_idc and flag combination", "why_tests_cant": "2^14 combinations", "anchors": ["src/h264_sps_parser.cc: GetProfileType"]}
{"id": "C50", "title": "Frame accounting of the length dump", "statement": "In --dump-length mode (Annex B) one row is printed for every NAL unit with its type and length, the per-frame byte totals sum to the total length of the slice NAL units, and a frame row is emitted for every maximal group of slices starting at first_mb_in_slice 0.", "quantifier": "every parsed bitstream", "why_tests_cant": "unbounded streams", "anchors": ["tools/h264nal.cc: main"]}
{"id": "C51", "title": "Whole NAL units are read back", "statement": "For every SPS, PPS (chroma_format_idc 1), subset SPS, slice, prefix NAL unit, SVC slice or unparsed-type unit that is valid for the parameter sets the parser holds, written with header, trailing bits and emulation prevention, ParseNalUnit returns exactly its header and content, remembers exactly its parameter set, reports nothing unimplemented and, for parameter sets, reports parsed_length equal to the size without emulation prevention.", "quantifier": "every header, content, slice data, prior history, debug and release builds, with and without checksum", "why_tests_cant": "unbounded set of values and histories", "anchors": ["src/h264_nal_unit_parser.cc: ParseNalUnit", "src/h264_nal_unit_payload_parser.cc: ParseNalUnitPayload"]}
{"id": "C52", "title": "Whole streams are read back", "statement": "A sequence of NAL units, each valid for the parameter sets sent before it, written in Annex B form with any mix of 3- and 4-byte start codes or with 1- to 7-byte length fields, is returned by ParseBitstream / ParseBitstreamNALULength unit by unit: same number, headers, contents and offsets (and lengths, in Annex B), with nothing dropped or reported unimplemented.", "quantifier": "every such stream of any length, every prior history", "why_tests_cant": "unbounded sequences whose validity depends on earlier units", "anchors": ["src/h264_bitstream_parser.cc: ParseBitstream, ParseBitstreamNALULength", "src/h264_nal_unit_parser.cc: ParseNalUnit"]}
{"id": "C53", "title": "Parsers look only ahead", "statement": "What a syntax parser (HRD, VUI, SPS, PPS, SPS extension, subset SPS, NAL unit header, prefix NAL unit, slice header and its parts, SVC slice header, NAL unit payload) returns, what it leaves unread and what it does to the parser state depend only on the bits from the current position on and on the position within the byte, not on the bytes before it or on the absolute offset.", "quantifier": "every pair of reachable buffers with the same bits ahead, every parser state", "why_tests_cant": "relates two arbitrary buffers; infinitely many prefixes", "anchors": ["src/h264_sps_parser.cc: ParseSps", "src/h264_slice_header_parser.cc: ParseSliceHeader", "src/h264_nal_unit_payload_parser.cc: ParseNalUnitPayload", "src/rtc_common.cc: BitBuffer"]}
{"id": "C54", "title": "Contents dump", "statement": "With --add-contents the tool prints exactly the bytes of each returned NAL unit as they stand in the file (Annex B), and never reads outside the file, whatever offset and length a unit records.", "quantifier": "every file below 2^61 bytes, every recorded offset and length", "why_tests_cant": "all files and all offset/length pairs", "anchors": ["tools/h264nal.cc: main", "src/h264_bitstream_parser.cc: ParseBitstream"]}
{"id": "C55", "title": "Printable checksum", "statement": "GetPrintableChecksum gives two lower case hexadecimal digits per checksum byte, most significant first, distinct for distinct checksums, eight characters for the checksum of a NAL unit; fdump never writes outside a non-empty buffer.", "quantifier": "every checksum up to 32 bytes; every buffer size for fdump", "why_tests_cant": "2^32 checksums, all buffer sizes", "anchors": ["src/h264_common.cc: NaluChecksum::fdump, NaluChecksum::GetPrintableChecksum"]}
{"id": "C56", "title": "Every parse result can be dumped", "statement": "Dumping a NAL unit, an RTP packet or a whole bitstream state that came out of the parsers never runs into undefined behaviour, with any dump options and indentation level, provided the checksum is only asked for if it was computed; the dump of a bitstream is the dumps of its units, in order, each followed by a newline.", "quantifier": "every sequence of earlier parser calls, every input, every option set, every offset and length", "why_tests_cant": "all parse results; null members depend on the input", "anchors": ["src/h264_nal_unit_parser.cc: NalUnitState::fdump", "src/h264_rtp_parser.cc: RtpState::fdump", "src/h264_bitstream_parser.cc: BitstreamState::fdump"]}
{"id": "C57", "title": "Layout of dumps", "statement": "At level -1 a NAL unit or RTP packet is dumped on one line. At level n the dump of a NAL unit is indented by two blanks for every level and every open brace, and its braces are balanced. The level changes nothing but white space.", "quantifier": "every parsed unit, every level, every option set", "why_tests_cant": "all texts", "anchors": ["src/h264_common.cc: fdump_indent_level, indent_level_incr, indent_level_decr", "src/h264_nal_unit_parser.cc: NalUnitState::fdump"]}
{"id": "C58", "title": "Dumps determine the values", "statement": "If two parsed NAL units have dumps with the same words (at whatever levels) then they have the same header and the same payload, up to two members that are never printed, and the same offset, length, parsed length and checksum where the options ask for them. The units are parsed with the same parameter sets, or neither is a slice.", "quantifier": "every pair of inputs after every pair of histories", "why_tests_cant": "all pairs of units", "anchors": ["src/h264_nal_unit_parser.cc: NalUnitState::fdump", "src/h264_sps_parser.cc: SpsState::fdump", "src/h264_pps_parser.cc: PpsState::fdump", "src/h264_slice_header_parser.cc: SliceHeaderState::fdump"]}
{"id": "C59", "title": "Dumps name every syntax element", "statement": "Every syntax element that is present in a parsed NAL unit header, SPS, VUI, HRD, PPS, subset SPS, slice header or SVC slice header is printed under its name in the standard with its value (some signed ones modulo 2^32); an SPS shows the name of its profile; with add_resolution the width and height printed are the cropped picture size.", "quantifier": "every parsed unit, every level, every option set", "why_tests_cant": "presence depends on combinations of other elements", "anchors": ["src/h264_sps_parser.cc: SpsState::fdump", "src/h264_pps_parser.cc: PpsState::fdump", "src/h264_slice_header_parser.cc: SliceHeaderState::fdump", "src/h264_slice_header_in_scalable_extension_parser.cc: fdump"]}
{"id": "C60", "title": "An accepted NAL unit is the encoding of what is reported for it", "statement": "Whenever a NAL unit is accepted, its bits after removal of emulation prevention are the encoding of the reported header followed by bits that start with the standard's syntax for each reported part (SPS, PPS, subset SPS, slice header, prefix data, SVC slice header, the latter ones relative to the parameter sets held), and the reported parsed length reaches the end of that syntax. Unless it uses scaling matrices or non-conforming leftovers, what was reported can be written again as a conforming unit, which is read as the same header and payload.", "quantifier": "every call history, every unit, every accepted result", "why_tests_cant": "soundness quantifies over all accepted bit strings, not over those a test encoder produces", "anchors": ["src/h264_nal_unit_parser.cc: H264NalUnitParser::ParseNalUnit", "src/h264_nal_unit_payload_parser.cc: ParseNalUnitPayload"]}
{"id": "C61", "title": "What the command line tool prints", "statement": "With --dump-all the output is one text per reported NAL unit, in order, each followed by a newline: the dump of the unit with the options given and, with --add-contents, the bytes of the unit as two hexadecimal digits each; in one-line mode every unit is exactly one line. With --dump-length the output is a header line with the seven column names and one line per row, whose comma-separated fields are the row's values. The tool ends with status 0, 1, 2 or 255 on every input file and option list with a length field below 8 bytes (with --dump-length, for files below 2 GiB whose bit rate fits 63 bits).", "quantifier": "every file, every option list, every kind of build", "why_tests_cant": "the set of option combinations times file contents is not enumerable", "anchors": ["tools/h264nal.cc: main", "tools/h264nal.cc: parse_args"]}
{"id": "C62", "title": "Options of the tool", "statement": "For every list of options that getopt delivers, a run is accepted exactly when no option is rejected and an input file is named; then every setting is that of the last option that concerns it, or the default; numbers are decimal, non-negative and fit an int; contents imply offset and length, dump-length implies length. Refused lists end with status 255, except that --version ends with 0.", "quantifier": "every list of options", "why_tests_cant": "the option lists are unbounded and the number syntax is that of strtol", "anchors": ["tools/h264nal.cc: parse_args"]}
{"id": "C63", "title": "Results depend on earlier calls only through the parameter sets held", "statement": "Whether a unit is rejected does not depend on earlier calls. Two states that hold the same parameter sets under the same ids give the same results, for units and for whole streams. A stream in which every slice header was read gives the same results when more parameter sets are held at its start; in particular a stream that carries its own parameter sets gives the same results after any calls.", "quantifier": "every pair of call histories, every unit, every stream in Annex B or length-prefixed form with length fields of up to 7 bytes", "why_tests_cant": "quantifies over pairs of histories", "anchors": ["src/h264_nal_unit_parser.cc: H264NalUnitParser::ParseNalUnit", "src/h264_bitstream_parser.cc: H264BitstreamParser::ParseBitstream, ParseBitstreamNALULength", "include/h264_bitstream_parser_state.h: H264BitstreamParserState"]}
{"id": "C64", "title": "Streams without a caller's state, and the options of a dump", "statement": "Parsing a stream without a parser state gives the units that an empty state gives, with the options passed, never crashes and leaves every other state as it was. Its dump always exists and is the sequence of its units' dumps under those options, whatever options the dump is given. A stream parsed with a state is dumped under the default options instead, which is a null dereference if it has a unit and checksums were not asked for.", "quantifier": "every byte string, option set, indentation level and call history; Annex B, or length fields of up to 7 bytes", "why_tests_cant": "quantifies over all streams, option sets and levels; a test sees one text", "anchors": ["src/h264_bitstream_parser.cc: ParseBitstream, ParseBitstreamNALULength (both overloads), BitstreamState::fdump", "include/h264_common.h: ParsingOptions"]}
{"id": "C65", "title": "Parsers of single structures called on bytes", "statement": "Each of the 20 ways to parse a single syntax structure (parameter sets and their parts, NAL unit headers, slice headers and their parts, slice layers, payloads) from bytes gives a value or null and leaves the held parameter sets as they were (payloads excepted). A value is what the bytes, freed of emulation prevention, code in the standard's syntax, and bytes that code a value are read as that value. A parameter set or slice that is read inside a NAL unit is what its own parser reads from the unit's payload.", "quantifier": "every structure, arguments, byte string and call history; soundness and completeness without payloads (C60), MVC subset SPS", "why_tests_cant": "quantifies over all byte strings and all values of 20 structures", "anchors": ["src/*_parser.cc: the overloads taking data and length", "src/h264_nal_unit_parser.cc: H264NalUnitParser::ParseNalUnit"]}
{"id": "C66", "title": "The parser state is a bounded table keyed by id", "statement": "After any calls, a parser state holds at most one SPS, PPS and subset SPS under each id, each carries the id it is held under, ids are at most 31, 255 and 31, so that at most 32, 256 and 32 sets are held however long the input was. GetSps, GetPps and GetSubsetSps find exactly the set that is held with the id asked for, and null for every other number.", "quantifier": "every call history and every id", "why_tests_cant": "an invariant of unboundedly long histories", "anchors": ["src/h264_bitstream_parser_state.cc: GetSps, GetPps, GetSubsetSps", "src/h264_nal_unit_payload_parser.cc: H264NalUnitPayloadParser::ParseNalUnitPayload"]}
{"id": "C67", "title": "The frame rate is the rounded quotient", "statement": "For accepted VUI parameters with timing information, getFramerate() is a positive normal float: the float nearest to the double that is nearest to time_scale / (2 * num_units_in_tick), ties to even. Its relative error is below 1/(2^24 - 1), it is exact when the quotient is a float, it depends on the quotient only and grows with it, and it is the float nearest to the quotient when num_units_in_tick is below 2^29. Without timing information it is not a number. Refuted: it is the nearest float for all accepted VUI parameters (the quotient is rounded twice).", "quantifier": "every accepted VUI parameters structure, that is, all pairs of nonzero 32-bit fields", "why_tests_cant": "2^64 pairs; the double rounding that gives a neighbouring float needs rare pairs above 2^29", "anchors": ["src/h264_vui_parameters_parser.cc: VuiParametersState::getFramerate"]}
{"id": "C68", "title": "Files the tool reads and writes", "statement": "The tool reads the whole standard input for the name -, of any length, or the whole file of the given name. It refuses, with status 255 and without output to stdout or any file, names that do not open, files whose size is not known, empty files, and files it cannot read to the end. Otherwise the text described in C61 goes to the standard output, or replaces the content of the output file, and no other file changes; if that file cannot be opened, nothing is written and the status is 255. With only a configuration box file no input is read and the output file is emptied. --version prints the version line and nothing else. The output file may be the input file. Every run ends with status 0, 1, 2 or 255. Refuted: no input bytes are treated alike from the standard input (accepted) and from a file (refused).", "quantifier": "every content of the disk and of the standard input, write permissions and option list; for the status, buffers within C61's limits", "why_tests_cant": "quantifies over all file contents, short reads and permissions", "anchors": ["src/h264_utils.cc: H264Utils::ReadFile", "tools/h264nal.cc: main"]}
{"id": "C69", "title": "Parser states filled by the caller do no harm unless two numbers are extreme, and no fuzz target can fail", "statement": "H264BitstreamParserState has public members, so a caller (as the tests and the fuzz targets do) can store parameter sets that no parser produced. For every such state in which each stored SPS has a bit_depth_luma_minus8 for which 51 + 6*(int)bit_depth_luma_minus8 and -51 - 6*(int)bit_depth_luma_minus8 fit an int, and each stored PPS with slice group map types 3 to 5 has a slice_group_change_rate_minus1 other than 0xffffffff, and default reference counts other than 0xffffffff, every byte-level parser ends with a result or null and leaves a state of the same kind, for any number of calls, whatever the other members hold and under whatever ids the sets are stored. The states that parsing makes are of this kind. With one step beyond either bound, a four-byte slice makes the parser overflow a signed int or divide by zero. All 25 targets in fuzz/ return normally for all data.", "quantifier": "all parser states with non-null entries meeting the condition, all sequences of calls, all byte strings below 2^61 bytes (below 2^32 when asserts are compiled in)", "why_tests_cant": "The tests and fuzz targets use three hand-made states; the claim is about every value of about seventy members of each stored set, and every input.", "anchors": ["include/h264_bitstream_parser_state.h:19-47", "src/h264_slice_header_parser.cc:402-497", "fuzz/h264_slice_header_parser_fuzzer.cc:21-121", "fuzz/h264_common__unescape_rbsp_fuzzer.cc:27-62"]}
{"id": "C70", "title": "h264nal-split.py cuts a file exactly where the numbers it reads change, and loses nothing", "statement": "For every input file, from the tool's output the script h264nal-split.py recovers the offset, length and type of each accepted NAL unit, in order, and for each sequence parameter set two numbers. Those are the width and height of the cropped picture, unless the set carries an Extended_SAR, when they are sar_width and sar_height. The script fails exactly if the tool exits with a non-zero status. Otherwise either all parameter sets have the same numbers and nothing is written, or at least two files are: their concatenation is the input, their NAL units in order are those of the input, neighbouring parameter sets are in the same file if their numbers are equal and in consecutive files if not, and every file but the first begins with the start code of a parameter set. So without Extended_SAR files are cut exactly where the picture size changes. With it, a stream with one picture size can be cut and a change of size can be missed.", "quantifier": "all input files below 2^61 bytes (2^32 with asserts), all NAL unit contents, any number of units and of changes", "why_tests_cant": "The script matches regular expressions against free text produced by another program; whether a pattern can match an earlier field depends on every optional field that may precede it in any dump, and losslessness must hold for every placement of start codes and zero bytes.", "anchors": ["tools/h264nal-split.py:23-131", "tools/h264nal-split.py:134-232", "tools/h264nal.cc", "src/h264_sps_parser.cc", "src/h264_vui_parameters_parser.cc"]}
{"id": "C71", "title": "h264nal-conformance.py reports what the library found", "statement": "For every input file and whatever the tool writes to stderr, the row that h264nal-conformance.py makes has: the number of accepted NAL units; the number of units of types 1, 5 and 20; the number of those whose slice header was parsed; and, for the sequence parameter sets (types 7 and 15) in order and each value once, the cropped picture size, the name of the profile and of the level (1b where the standard says so). The slice header status is 0 exactly if every slice unit has a header, and otherwise gives the two numbers, the first never larger. The other status names the reason for a non-zero exit and lists the messages, each once with its count; it is 0 exactly if there are no messages, nothing was rejected and nothing was unimplemented. With that status every header of a unit of type 1 or 5 was parsed, but that of a scalable extension may be missing, which only the other column shows.", "quantifier": "all input files below 2^61 bytes (2^32 with asserts), all NAL unit contents, any list of messages", "why_tests_cant": "The counts and columns come from searching free text for labels; that no other field of any dump contains a matching word, and that none is missed, depends on every optional field of every payload.", "anchors": ["tools/h264nal-conformance.py:72-226", "tools/h264nal.cc", "src/h264_sps_parser.cc", "src/h264_nal_unit_parser.cc"]}
{"id": "C72", "title": "h264nal-dpb_parse.py: what its table of reference frames says, and where it is wrong", "statement": "For every input file the script either stops because the tool failed or because there is no sequence parameter set, or prints one row per slice unit (type 1 or 5) with first macroblock 0, in order, with that slice's frame_num, type and nal_ref_idc, or never ends; no other error is possible. A row starts with the buffer the row before left (empty for an IDR picture), and carries the number of IDR pictures since the first picture, the distance to the last IDR picture and that slice's marking operations. The text is a line of column names and one line per row, each with eleven comma-separated fields that give these values. The sliding-window loop is endless exactly if there are more long-term frames than max_num_ref_frames. If the stream has no memory management operations, no gaps in frame_num and 1 <= max_num_ref_frames < MaxFrameNum, the buffers are those of the marking process of the standard, also when frame_num wraps; with operations they are if the last one marks the current frame, operation 3 uses free indices, operations 2 and 5 do not occur and frame_num has not wrapped. The list column of a picture of slice type 0 is the list 0 of the standard if frame_num has not wrapped and no frame is named twice. Outside these conditions the table is wrong, and the script can hang on a stream that keeps all limits.", "quantifier": "all input files below 2^61 bytes (2^32 with asserts); streams of frames of any length; all lists of marking operations and list modification commands that meet the stated conditions", "why_tests_cant": "A test compares a few streams with a decoder; the claim is about every order of marking operations, every wrap of frame_num and every length of stream, and about termination.", "anchors": ["tools/h264nal-dpb_parse.py:18-480", "src/h264_slice_header_parser.cc", "src/h264_dec_ref_pic_marking_parser.cc", "src/h264_ref_pic_list_modification_parser.cc"]}
{"id": "C73", "title": "How the tool reads its command line", "statement": "For every list of arguments: if it is written by the conventions of getopt_long with the option names of the usage text (long names in full or shortened to the beginning of exactly one name, values after = or in the next argument, short options d, i, o, h in groups, operands between options, -- to end the options), the tool sees exactly the written options in that order; any other list is refused with status 255, with nothing read or written, unless --version came before. Every sequence of options can be written, for any file names. The command lines of the three scripts give the options their models start from. The run is the one described for the options (C61, C62, C68), with four lines of messages in front of the standard output exactly if -d occurs twice or more after the last --quiet. The tool ends with status 0, 1, 2 or 255. Against the usage text, -q is refused; a file named without -i is ignored silently if another one is given; and the messages go into the same stream as the dump.", "quantifier": "all lists of argument strings (with fewer than 2^31 options), all file names, all file systems and inputs within the limits of C68", "why_tests_cant": "There is no test of the command line at all, and the claim is about every way of writing every sequence of options.", "anchors": ["tools/h264nal.cc:83-137", "tools/h264nal.cc:164-349", "tools/h264nal.cc:355-379", "tools/h264nal-split.py:23-40", "tools/h264nal-conformance.py:79-86", "tools/h264nal-dpb_parse.py:19-21"]}
{"id": "C74", "title": "Lengths computed with floating-point logarithms are Ceil(Log2()) exactly", "statement": "The number of bits of slice_group_change_cycle and of slice_group_id is computed in double arithmetic with std::log2 and std::ceil. For every logarithm that is exact for powers of two and off by at most 2^-40 otherwise, all roundings included, the number is the exact Ceil(Log2()) of the rational number in formula 7-21 of the standard, and the length the parsers of the model use. The conversion to an integer is undefined exactly if the change rate wraps to 0. Such a logarithm exists.", "quantifier": "all 32-bit picture widths, heights, change rates and numbers of slice groups; all logarithm functions of that accuracy", "why_tests_cant": "A rounding error shows only next to a power of two, for single ones of 2^96 combinations, and depends on the C library.", "anchors": ["src/h264_slice_header_parser.cc:521-558", "src/h264_slice_header_in_scalable_extension_parser.cc:668-719", "src/h264_pps_parser.cc:334-343"]}
{"id": "C75", "title": "What the converter makes of a unit test", "statement": "fuzz/converter.py accepts every list of lines. It writes one seed per data marker: the byte literals (0x and two small hexadecimal digits), from the left, in the text from the marker to the next data or begin marker or a line that is just a closing bracket. If the block holds one buffer in that notation and 0x occurs nowhere else in it, the seed is the buffer. The fuzz target has the include lines without the test framework's, and the code between begin and end markers with every call argument pair 'name, arraysize(name)' replaced by 'data, size'; blocks with the same words are kept once, the first one. Two seeds of the existing tests are not the buffer.", "quantifier": "all lists of ASCII lines", "why_tests_cant": "The script has no tests; the claim is about every text.", "anchors": ["fuzz/converter.py:49", "fuzz/converter.py:114-204", "test/h264_sps_parser_unittest.cc:91-180", "test/h264_rtp_parser_unittest.cc:57-111"]}
{"id": "C76", "title": "Reference lists of B pictures in the table of h264nal-dpb_parse.py", "statement": "The list column of a picture of slice type 1 is the list 0 that a P picture with the same frame_num, number of entries and commands would have (if frame_num has not wrapped since its reference frames and no frame is named twice). It is therefore list 0 of the standard for B pictures if the short-term reference frames precede the picture in output order and are output in the order of decoding. It is wrong, in the first entry, for every such picture without commands if the short-term frame that was decoded last follows it in output order and another one precedes it.", "quantifier": "all input files below 2^61 bytes (2^32 with asserts), all B pictures, all picture order counts", "why_tests_cant": "The script has no tests; the claim is about every stream and every output order.", "anchors": ["tools/h264nal-dpb_parse.py:172-183", "tools/h264nal-dpb_parse.py:185-232", "tools/h264nal-dpb_parse.py:305-311"]}
{"id": "C77", "title": "Sliding window in the table of h264nal-dpb_parse.py, for any frame_num and for fields", "statement": "If no picture carries memory management operations or starts a long-term frame, the script ends and the buffer column lists after each picture the last max_num_ref_frames reference pictures since the last IDR picture, in decoding order, whatever their frame_num (gaps and repetitions included) and whether they are frames or fields. So fields are counted as frames: for every stream of n pairs of reference fields (top first, frame_num 0 to n-1) with max_num_ref_frames at least 2 and 2n > max_num_ref_frames + 1, the column lacks after the last picture a frame that the sliding window of the standard keeps.", "quantifier": "all input files below 2^61 bytes (2^32 with asserts) that the tool accepts, all numbers of pictures", "why_tests_cant": "The script has no tests; the claim is about streams of every length and every numbering.", "anchors": ["tools/h264nal-dpb_parse.py:284-299", "tools/h264nal-dpb_parse.py:395-412"]}
{"id": "C78", "title": "Files written by the converter of the fuzz targets", "statement": "For an input file other than '-', with no percent sign in its name or the output directory, fuzz/converter.py writes one fuzz target in the output directory, named as the input with 'unittest' replaced by 'fuzzer', whose text is the fixed frame with the input's name, the include lines and the code of the test inserted unchanged, and one file per data block with exactly the bytes of its seed, numbered from 00 in corpus/<name without .cc>; no two files have the same path. A test whose name lacks 'unittest' is overwritten when the output directory is its own. When the output directory's name ends with a percent sign the target is written, no seed is, and the script fails. Reading from the standard input always fails.", "quantifier": "all input paths, output directories and contents of the test (ASCII)", "why_tests_cant": "The script has no tests; the claim is about all names and contents.", "anchors": ["fuzz/converter.py:22-47", "fuzz/converter.py:52-95", "fuzz/converter.py:245-255"]}
{"id": "C79", "title": "Files written by h264nal-split.py", "statement": "When h264nal-split.py cuts an input, it writes piece number n (from 1, in order, with exactly the bytes of the piece) to the path of the input with '.' and n in decimal, at least two digits, inserted before the extension. The extension begins with the last dot of the file name; dots at the start of the name do not count, nor do dots in directories. All the paths differ from each other and from the input, they are in the directory of the input, and pieces of different inputs never share a path. The names of the first 99 pieces sort, by bytes, in the order of the pieces; the name of piece 100 sorts before that of piece 11. A piece need not be readable on its own: when a picture parameter set is in an earlier piece, the script fails on the piece. If the tool fails or nothing is cut, nothing is written.", "quantifier": "all input paths and input files, any number of pieces", "why_tests_cant": "The script has no tests; that names cannot collide is a claim about all pairs of paths, including hidden files, names without an extension and names that look numbered already.", "anchors": ["tools/h264nal-split.py:134-154"]}
{"id": "C80", "title": "Table written by h264nal-conformance.py", "statement": "The text that h264nal-conformance.py writes is a comma-separated table (RFC 4180) which, read back, gives the ten titles and then one record for each input that is not a directory, in the order of the command line. A record has the name of the directory that contains the file (after following '.', '..' and repeated slashes from the working directory; empty for the root), the file name, and the columns of C71 unchanged, whatever commas, quotes or line ends are in the names and in the tool's messages. The first two columns do not tell all inputs apart.", "quantifier": "all lists of input paths, file contents below 2^61 bytes (2^32 with asserts), messages of the tool and absolute working directories", "why_tests_cant": "The script has no tests; that no name or message can break the columns is a claim about all strings, and the directory name about all paths.", "anchors": ["tools/h264nal-conformance.py:21-32", "tools/h264nal-conformance.py:202-226", "tools/h264nal-conformance.py:264-285", "tools/h264nal-conformance.py:300-303"]}
{"id": "C81", "title": "Last line printed by h264nal-conformance.py", "statement": "The line that h264nal-conformance.py prints at the end has three numbers: the inputs that are not directories; those of them about which the tool reports something, that is, a message, unimplemented syntax or a rejected NAL unit; and those about which it reports nothing although a slice NAL unit was kept without its slice header. So a file counted in neither of the last two has every slice header. In a file of the third kind every slice without a header is in a scalable extension (NAL unit type 20 with svc_extension_flag).", "quantifier": "all lists of inputs, file contents below 2^61 bytes (2^32 with asserts) and one-line messages of the tool whose summary is not '0'", "why_tests_cant": "The script has no tests; which files count as clean depends on every way the tool can reject or skip a NAL unit.", "anchors": ["tools/h264nal-conformance.py:264-297", "tools/h264nal-conformance.py:187-199"]}
{"id": "C82", "title": "h264nal-split.py does not split its own pieces", "statement": "When h264nal-split.py has cut a file into pieces, running it again on any of the pieces, under any name, never cuts the piece further: it finds nothing to split if the tool ends with status 0 for the piece, and fails without writing anything otherwise.", "quantifier": "all file contents below 2^61 bytes (2^32 with asserts) that the script splits, all of the pieces, all names for the second run", "why_tests_cant": "The script has no tests; the second run starts with an empty parser state and at other offsets, so the sizes read and the start codes found have to be compared for every file and every piece.", "anchors": ["tools/h264nal-split.py:98-154", "tools/h264nal-split.py:182-228"]}
