(** Model of tools/h264nal-conformance.py:21-32, 202-226, 264-285, 300-303: the table.  Every input can be
    read; the messages are not modelled. *)
From Coq Require Import NArith List Bool String Ascii.
From Verif Require Import Base Dump ToolText PyText PyText2 Conformance Converter ConverterFiles SplitFiles.
Import ListNotations.
Open Scope list_scope.
Open Scope string_scope.

(** str.split("/") *)
Fixpoint split_slash (s : string) : list string :=
  match s with
  | EmptyString => [""]
  | String c t =>
      if Ascii.eqb c "/" then "" :: split_slash t
      else match split_slash t with h :: r => String c h :: r | [] => [String c ""] end
  end.
(** os.path.normpath: the loop over the components; [new] is reversed *)
Fixpoint norm_comps (absolute : bool) (new comps : list string) : list string :=
  match comps with
  | [] => rev new
  | c :: t =>
      if (c =? "") || (c =? ".") then norm_comps absolute new t
      else if negb (c =? "..") || (negb absolute && match new with [] => true | _ => false end)
              || match new with h :: _ => h =? ".." | [] => false end
      then norm_comps absolute (c :: new) t
      else norm_comps absolute (match new with _ :: r => r | [] => [] end) t
  end.
Definition normpath (p : string) : string :=
  if p =? "" then "." else
  let slashes := if prefix "//" p && negb (prefix "///" p) then "//" else if prefix "/" p then "/" else "" in
  let q := slashes ++ String.concat "/" (norm_comps (prefix "/" p) [] (split_slash p)) in
  if q =? "" then "." else q.
(** os.path.abspath *)
Definition abspath (cwd p : string) : string := normpath (if prefix "/" p then p else path_join cwd p).
(** os.path.dirname *)
Fixpoint rstrip_slash (s : string) : string :=
  match s with
  | EmptyString => EmptyString
  | String c t =>
      match rstrip_slash t with
      | EmptyString => if Ascii.eqb c "/" then EmptyString else String c EmptyString
      | r => String c r
      end
  end.
Definition dirname (p : string) : string :=
  let head := taken (String.length p - String.length (basename p)) p in
  if every (Ascii.eqb "/") head then head else rstrip_slash head.

(** Lines 209-226: a row, with the name of the file *)
Definition columns (cwd input : string) (r : csv_row) : list string :=
  [basename (dirname (abspath cwd input)); basename input; r_resolution r; r_profile r; r_level r;
   dec (r_nalus r); dec (r_slice_nalus r); dec (r_slice_headers r); r_status r; r_header_status r].
(** Lines 21-32 *)
Definition csv_fields : list string :=
  ["input_dir"; "input_file"; "resolution"; "profile"; "level"; "number_of_nalus"; "number_of_slice_nalus";
   "number_of_slice_header_nalus"; "h264nal_status"; "slice_header_status"].

(** The csv module, dialect excel, for rows of at least two fields *)
Definition csv_special (c : ascii) : bool :=
  Ascii.eqb c "," || Ascii.eqb c """" || Ascii.eqb c "010" || Ascii.eqb c "013".
Fixpoint double_quotes (s : string) : string :=
  match s with
  | EmptyString => EmptyString
  | String c t => if Ascii.eqb c """" then String c (String c (double_quotes t)) else String c (double_quotes t)
  end.
Definition csv_field (s : string) : string :=
  if every (fun c => negb (csv_special c)) s then s else """" ++ double_quotes s ++ """".
Definition crlf : string := String "013" (String "010" "").
Definition csv_line (fields : list string) : string := String.concat "," (map csv_field fields) ++ crlf.
(** Lines 300-303 write_csv *)
Definition write_csv (rows : list (list string)) : string := String.concat "" (map csv_line (csv_fields :: rows)).

(** Lines 264-285 main: the rows; directories are left out *)
Fixpoint table_rows (asserts : bool) (cwd : string) (content : string -> list N) (messages : string -> string) (infiles : list string)
  : res (list (list string)) :=
  match infiles with
  | [] => Ok []
  | i :: t =>
      rbind (conformance asserts i (content i) (messages i)) (fun r =>
      rbind (table_rows asserts cwd content messages t) (fun rows => Ok (columns cwd i r :: rows)))
  end.
Definition conformance_table (asserts : bool) (cwd : string) (isdir : string -> bool) (content : string -> list N) (messages : string -> string)
  (inputs : list string) : res string :=
  rbind (table_rows asserts cwd content messages (filter (fun i => negb (isdir i)) inputs)) (fun rows => Ok (write_csv rows)).
