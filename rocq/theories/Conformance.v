(** Model of tools/h264nal-conformance.py: it runs the tool on a file and makes one row of a
    table from what the tool prints. *)
From Coq Require Import NArith ZArith List Bool String Ascii.
From Verif Require Import Base Dump ToolText PyText PyText2.
Import ListNotations.
Open Scope N_scope.

(** Lines 78-89 run_h264nal: the options *)
Definition conf_options (input : string) : list opt := [Infile input; OneLine true; AddResolution true].

(** Lines 105-119 summarize_errors *)
Definition summarize_errors (stderr : string) : string :=
  let messages := filter (fun s => negb (String.eqb s "")) (map strip (splitlines stderr)) in
  match messages with
  | [] => "0"
  | _ => String.concat "; " (map (fun mc =>
           if snd mc =? 1 then fst mc else (fst mc ++ " (x" ++ dec (snd mc) ++ ")")%string) (counter messages))
  end.
(** Lines 96-102 run_h264nal: the status *)
Definition run_status (returncode : N) (stderr : string) : string :=
  let status := summarize_errors stderr in
  if negb (returncode =? 0) then
    let rc := if returncode =? 1 then "h264nal: invalid bitstream"%string
              else if returncode =? 2 then "h264nal: unimplemented syntax"%string
              else ("h264nal exited with " ++ dec returncode)%string in
    if String.eqb status "0" then rc else (rc ++ "; " ++ status)%string
  else status.

(** Lines 122-124 get_int_field *)
Definition get_int_field (text name : string) : option Z :=
  search_b (after (name ++ ": ") signed) false text.
(** Lines 127-136 format_level *)
Definition format_level (profile_idc level_idc constraint_set3_flag : option Z) : option string :=
  match level_idc with
  | None => None
  | Some l =>
      let number := (deci (l / 10) ++ "." ++ deci (l mod 10))%string in
      let high := match profile_idc with
                  | Some p => existsb (Z.eqb p) [44; 100; 110; 122; 244]%Z
                  | None => false
                  end in
      Some (if high then if (l =? 9)%Z then "1b"%string else number
            else if (l =? 11)%Z && match constraint_set3_flag with Some c => (c =? 1)%Z | None => false end then "1b"%string
            else number)
  end.
(** Lines 171-173 add_unique *)
Definition add_unique (values : list string) (value : option string) : list string :=
  match value with
  | Some v => if existsb (String.eqb v) values then values else (values ++ [v])%list
  | None => values
  end.
(** Lines 139-168 parse_sps_lines *)
Definition sps_line (acc : list string * list string * list string) (line : string) : list string * list string * list string :=
  let '(resolutions, profiles, levels) := acc in
  if negb (str_in "sps_data {" line) then acc
  else
    let profile_idc := get_int_field line "profile_idc" in
    let level_idc := get_int_field line "level_idc" in
    let constraint_set3_flag := get_int_field line "constraint_set3_flag" in
    let width := get_int_field line "width" in
    let height := get_int_field line "height" in
    let profile := option_map strip (search_b (after "profile: " (lazy_some " level_idc:")) false line) in
    (match width, height with
     | Some w, Some h => add_unique resolutions (Some (deci w ++ "x" ++ deci h)%string)
     | _, _ => resolutions
     end,
     add_unique profiles profile,
     add_unique levels (format_level profile_idc level_idc constraint_set3_flag)).
Definition parse_sps_lines (stdout : string) : list string * list string * list string :=
  fold_left sps_line (splitlines stdout) ([], [], []).
(** Lines 176-179 count_slice_nalus *)
Definition first_of (l : list (option nat)) : option nat :=
  fold_right (fun o r => match o with Some n => Some n | None => r end) None l.
Definition slice_nalu_at (w : bool) (s : string) : option nat :=
  if w then None
  else option_map (Nat.add 15) (after "nal_unit_type: " (fun t => first_of [word_lit "1" t; word_lit "5" t; word_lit "20" t]) s).
Definition count_slice_nalus (stdout : string) : N := N.of_nat (findall slice_nalu_at 0 false stdout).
(** Lines 182-184 count_slice_headers *)
Definition count_slice_headers (stdout : string) : N :=
  N.of_nat (str_count "slice_header {" stdout) + N.of_nat (str_count "slice_header_in_scalable_extension {" stdout).
(** Lines 187-199 get_slice_header_status *)
Definition get_slice_header_status (slice_nalus slice_headers : N) : string :=
  if slice_headers =? slice_nalus then "0"
  else ("unparsed slice headers: " ++ dec slice_headers ++ "/" ++ dec slice_nalus)%string.

(** Lines 202-226 analyze_file, without the name of the file *)
Record csv_row := mkcsv {
  r_resolution : string;
  r_profile : string;
  r_level : string;
  r_nalus : N;
  r_slice_nalus : N;
  r_slice_headers : N;
  r_status : string;
  r_header_status : string
}.
Definition analyze (stdout : string) (returncode : N) (stderr : string) : csv_row :=
  let '(resolutions, profiles, levels) := parse_sps_lines stdout in
  let slice_nalus := count_slice_nalus stdout in
  let slice_headers := count_slice_headers stdout in
  mkcsv (String.concat ";" resolutions) (String.concat ";" profiles) (String.concat ";" levels)
    (N.of_nat (str_count "nal_unit {" stdout)) slice_nalus slice_headers
    (run_status returncode stderr) (get_slice_header_status slice_nalus slice_headers).
(** The row for a file with these bytes; the tool's messages are an argument. *)
Definition conformance (asserts : bool) (input : string) (data : list N) (stderr : string) : res csv_row :=
  match parse_args (conf_options input) with
  | Go a => rbind (run asserts a data) (fun r => Ok (analyze (fst r) (snd r) stderr))
  | _ => Abort
  end.
