(** Model of the command line tool (tools/h264nal.cc): its options, and the text it writes to
    the output file.  Not modelled: the debug output (-d), the messages on stderr. *)
From Coq Require Import NArith ZArith List Bool String Ascii.
From Verif Require Import Base TypesNal TypesNalUnit NalUnit NalType Tool Rtp Dump.
Import ListNotations.
Open Scope N_scope.

(** tools/h264nal.cc:48-63 arg_options *)
Record args := mkargs {
  arg_dump_length : bool;
  arg_one_line : bool;
  arg_offset : bool;
  arg_length : bool;
  arg_parsed_length : bool;
  arg_checksum : bool;
  arg_resolution : bool;
  arg_contents : bool;
  arg_nalu_length_bytes : Z;
  arg_frames_per_second : Z;
  arg_avcc_file : option string;
  arg_infile : option string;
  arg_outfile : option string
}.
(** Lines 66-81 DEFAULT_OPTIONS *)
Definition DEFAULT_OPTIONS : args :=
  mkargs false true false false false false false false (-1) 30 None None None.

(** strtol(s, &end, 10) with a 64-bit long: the value, the rest of the string at [end], and
    whether errno is set.  Without digits the value is 0, [end] is the start of the string and
    errno stays (ISO C 7.22.1.4; POSIX would allow EINVAL, glibc does not set it). *)
Definition is_space (c : ascii) : bool :=
  let n := N_of_ascii c in ((9 <=? n) && (n <=? 13)) || (n =? 32).
Definition is_digit (c : ascii) : bool := let n := N_of_ascii c in (48 <=? n) && (n <=? 57).
Fixpoint skip_space (s : string) : string :=
  match s with
  | String c t => if is_space c then skip_space t else s
  | EmptyString => EmptyString
  end.
(** The digits a string starts with: their value after [acc], and the rest. *)
Fixpoint scan_digits (s : string) (acc : Z) : Z * string :=
  match s with
  | String c t =>
      if is_digit c then scan_digits t (10 * acc + Z.of_N (N_of_ascii c - 48))%Z else (acc, s)
  | EmptyString => (acc, EmptyString)
  end.
Definition LONG_MAX : Z := (2 ^ 63 - 1)%Z.
Definition LONG_MIN : Z := (- 2 ^ 63)%Z.
(** The digits [d] after the sign *)
Definition strtol_digits (neg : bool) (d s : string) : Z * string * bool :=
  match d with
  | String c _ =>
      if is_digit c then
        let '(v, rest) := scan_digits d 0%Z in
        let v := if neg then (- v)%Z else v in
        if (LONG_MAX <? v)%Z then (LONG_MAX, rest, true)
        else if (v <? LONG_MIN)%Z then (LONG_MIN, rest, true)
        else (v, rest, false)
      else (0%Z, s, false)
  | EmptyString => (0%Z, s, false)
  end.
Definition strtol (s : string) : Z * string * bool :=
  let t := skip_space s in
  match t with
  | String c d => if Ascii.eqb c "-" then strtol_digits true d s
                  else if Ascii.eqb c "+" then strtol_digits false d s
                  else strtol_digits false t s
  | EmptyString => strtol_digits false t s
  end.
(** Lines 304-324: the value of --nalu-length-bytes and --frames-per-second *)
Definition INT_MAX : Z := (2 ^ 31 - 1)%Z.
Definition int_arg (s : string) : option Z :=
  let '(v, rest, errno) := strtol s in
  if errno || negb (String.eqb rest EmptyString) || (v <? 0)%Z || (INT_MAX <? v)%Z then None
  else Some v.

(** What getopt_long hands over, lines 174-203; -d and --quiet are left out. *)
Inductive opt :=
| DumpAll | DumpLength
| OneLine (b : bool) | AddOffset (b : bool) | AddLength (b : bool) | AddParsedLength (b : bool)
| AddChecksum (b : bool) | AddResolution (b : bool) | AddContents (b : bool)
| AvccFile (s : string) | NaluLengthBytes (s : string) | FramesPerSecond (s : string)
| Infile (s : string) | Outfile (s : string)
| Version | Help | Unsupported.
(** Either the options, or the program ends with a status; exit(-1) is status 255. *)
Inductive parsed := Go (a : args) | Stop (status : N).
(** Lines 207-339, the switch *)
Definition set_option (a : args) (o : opt) : parsed :=
  let '(mkargs dl ol ao al ap ac ar ax nlb fps av inf outf) := a in
  match o with
  | DumpAll => Go (mkargs false ol ao al ap ac ar ax nlb fps av inf outf)
  | DumpLength => Go (mkargs true ol ao al ap ac ar ax nlb fps av inf outf)
  | OneLine b => Go (mkargs dl b ao al ap ac ar ax nlb fps av inf outf)
  | AddOffset b => Go (mkargs dl ol b al ap ac ar ax nlb fps av inf outf)
  | AddLength b => Go (mkargs dl ol ao b ap ac ar ax nlb fps av inf outf)
  | AddParsedLength b => Go (mkargs dl ol ao al b ac ar ax nlb fps av inf outf)
  | AddChecksum b => Go (mkargs dl ol ao al ap b ar ax nlb fps av inf outf)
  | AddResolution b => Go (mkargs dl ol ao al ap ac b ax nlb fps av inf outf)
  | AddContents b => Go (mkargs dl ol ao al ap ac ar b nlb fps av inf outf)
  | AvccFile s => Go (mkargs dl ol ao al ap ac ar ax nlb fps (Some s) inf outf)
  | NaluLengthBytes s =>
      match int_arg s with
      | Some n => Go (mkargs dl ol ao al ap ac ar ax n fps av inf outf)
      | None => Stop 255
      end
  | FramesPerSecond s =>
      match int_arg s with
      | Some n => Go (mkargs dl ol ao al ap ac ar ax nlb n av inf outf)
      | None => Stop 255
      end
  | Infile s => Go (mkargs dl ol ao al ap ac ar ax nlb fps av (Some s) outf)
  | Outfile s => Go (mkargs dl ol ao al ap ac ar ax nlb fps av inf (Some s))
  | Version => Stop 0
  | Help => Stop 255
  | Unsupported => Stop 255
  end.
(** Lines 206-340, the loop *)
Fixpoint set_options (os : list opt) (a : args) : parsed :=
  match os with
  | [] => Go a
  | o :: t => match set_option a o with Go a' => set_options t a' | Stop n => Stop n end
  end.
(** Lines 164-349 parse_args, and lines 358-362 *)
Definition parse_args (os : list opt) : parsed :=
  match set_options os DEFAULT_OPTIONS with
  | Stop n => Stop n
  | Go a => match arg_infile a, arg_avcc_file a with
            | None, None => Stop 255
            | _, _ => Go a
            end
  end.

(** Lines 381-398: the options for the library *)
Definition parsing_options (a : args) : popts :=
  mkpo (arg_offset a || arg_contents a)
       (arg_length a || arg_contents a || arg_dump_length a)
       (arg_parsed_length a) (arg_checksum a) (arg_resolution a).
Definition tool_options (a : args) : options :=
  mkopt (arg_dump_length a) (arg_checksum a) (arg_nalu_length_bytes a) (arg_frames_per_second a).
(** Line 473 *)
Definition indent_level (a : args) : Z := if arg_one_line a then (-1)%Z else 0%Z.

(** Lines 499-506: the loop of --add-contents *)
Fixpoint contents_text (fuel : nat) (buffer : list N) (off len i : N) : res string :=
  if (i <? len) && (u64 (off + i) <? N.of_nat (List.length buffer)) then
    match fuel with
    | O => NoFuel
    | S f =>
        match nth_error buffer (N.to_nat (u64 (off + i))) with
        | Some c =>
            rbind (contents_text f buffer off len (u64 (i + 1))) (fun t =>
            Ok (" " ++ padded 2 (hexs c) ++ (if (u64 (i + 1) mod 16 =? 0)%N then " " else "") ++ t)%string)
        | None => UB OutOfBounds
        end
    end
  else Ok EmptyString.
(** Lines 495-511: one unit in dump_all mode *)
Definition unit_text (a : args) (buffer : list N) (e : nalu * N * N) : res string :=
  let '(u, off, len) := e in
  rbind (render (indent_level a) (dump_nalu (parsing_options a) off len u)) (fun t =>
  rbind (if arg_contents a
         then rbind (contents_text (S (List.length buffer)) buffer off len 0) (fun c =>
              Ok (" contents {" ++ c ++ " }")%string)
         else Ok EmptyString) (fun c =>
  Ok (t ++ c ++ String newline EmptyString)%string)).
Fixpoint units_text (a : args) (buffer : list N) (us : list (nalu * N * N)) : res string :=
  match us with
  | [] => Ok EmptyString
  | e :: t => rbind (unit_text a buffer e) (fun x => rbind (units_text a buffer t) (fun y => Ok (x ++ y)%string))
  end.
(** Lines 534-535, 542-544 and 553-554: the lines of dump_length mode; opt_value is at 351-353 *)
Definition row_text (r : row) : string :=
  match r with
  | NalRow nal frame ty name len fmb =>
      (deci nal ++ "," ++ deci frame ++ "," ++ deci (to_int ty) ++ "," ++ name ++ "," ++ deci len ++ ",,"
       ++ match fmb with Some v => deci v | None => EmptyString end)%string
  | FrameRow frame last bitrate =>
      ("," ++ deci frame ++ "," ++ deci last ++ ",frame,," ++ deci bitrate ++ ",")%string
  end.
Definition csv_header : string :=
  "nal_num,frame_num,nal_unit_type,nal_unit_type_str,nal_length_bytes,bitrate_bps,first_mb_in_slice".
Fixpoint rows_text (rs : list row) : string :=
  match rs with
  | [] => EmptyString
  | r :: t => (row_text r ++ String newline (rows_text t))%string
  end.
(** Lines 482-557 *)
Definition output (a : args) (buffer : list N) (us : list (nalu * N * N)) : res string :=
  if arg_dump_length a then
    rbind (dump_length (arg_frames_per_second a) us) (fun rs =>
    Ok (csv_header ++ String newline (rows_text rs))%string)
  else units_text a buffer us.
(** Lines 432-606: what is written for the bytes of the input file, and the exit status. *)
Definition run (asserts : bool) (a : args) (buffer : list N) : res (string * N) :=
  let o := tool_options a in
  match tool_parse asserts o buffer with
  | (Ok us, w) =>
      rbind (output a buffer us) (fun s =>
      rbind (unparsed_nal_units o buffer us) (fun n =>
      Ok (s, exit_status n (w_unimplemented w))))
  | (Null, _) => UB NullDeref
  | (UB k, _) => UB k
  | (Abort, _) => Abort
  | (NoFuel, _) => NoFuel
  end.
(** main, lines 355-606, with a file system in which [read] gives the bytes of a file that can
    be read (line 437); the output file can be written.  Without an input file nothing is
    written (lines 482, 569-571).  What --version and the
    usage message print is left out. *)
Definition main (asserts : bool) (read : string -> option (list N)) (os : list opt) : res (string * N) :=
  match parse_args os with
  | Stop n => Ok (EmptyString, n)
  | Go a =>
      match arg_infile a with
      | None => Ok (EmptyString, 0)
      | Some f => match read f with
                  | None => Ok (EmptyString, 255)
                  | Some buffer => run asserts a buffer
                  end
      end
  end.
