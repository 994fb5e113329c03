(** Model of fuzz/converter.py, which makes a fuzz target and its first inputs (seeds) from a
    unit test: parse_input, lines 114-204.  The lines are those of readlines, with their line
    feeds.  The template around the code and the file names are in
    ConverterFiles.v; the messages are not modelled. *)
From Coq Require Import NArith List Bool String Ascii.
From Verif Require Import Base PyText.
Import ListNotations.
Open Scope list_scope.
Open Scope string_scope.

Definition lf : ascii := ascii_of_N 10.
(** What str.strip and \s take as white space, within ASCII *)
Definition white (c : ascii) : bool := let n := N_of_ascii c in ((9 <=? n) && (n <=? 13) || (28 <=? n) && (n <=? 32))%N.
Fixpoint every (f : ascii -> bool) (s : string) : bool :=
  match s with String c t => f c && every f t | EmptyString => true end.
(** sub in s *)
Fixpoint within (sub s : string) : bool :=
  prefix sub s || match s with String _ t => within sub t | EmptyString => false end.
Definition data_mark : string := "fuzzer::conv: data".
Definition begin_mark : string := "fuzzer::conv: begin".
Definition end_mark : string := "fuzzer::conv: end".
Definition close_line : string := "};" ++ String lf "".

(** Lines 120-149, the loop over the lines *)
Record reading := mkreading { rd_includes : list string; rd_data : list (list string); rd_code : list (list string);
  rd_data_mode : bool; rd_code_mode : bool }.
(** l[-1].append(x); IndexError on an empty list *)
Fixpoint add_last (l : list (list string)) (x : string) : res (list (list string)) :=
  match l with
  | [] => Abort
  | [b] => Ok [(b ++ [x])%list]
  | b :: t => rbind (add_last t x) (fun r => Ok (b :: r))
  end.
(** Lines 146-149 *)
Definition keep_line (line : string) (r : reading) : res reading :=
  rbind (if rd_data_mode r then add_last (rd_data r) line else Ok (rd_data r)) (fun d =>
  rbind (if rd_code_mode r then add_last (rd_code r) line else Ok (rd_code r)) (fun c =>
  Ok (mkreading (rd_includes r) d c (rd_data_mode r) (rd_code_mode r)))).
Definition read_line (line : string) (r : reading) : res reading :=
  if every white line then Ok r
  else if prefix "#include " line then
    keep_line line (mkreading (rd_includes r ++ [line])%list (rd_data r) (rd_code r) (rd_data_mode r) (rd_code_mode r))
  else if within data_mark line then Ok (mkreading (rd_includes r) (rd_data r ++ [[]])%list (rd_code r) true (rd_code_mode r))
  else if line =? close_line then
    keep_line line (mkreading (rd_includes r) (rd_data r) (rd_code r) false (rd_code_mode r))
  else if within begin_mark line then Ok (mkreading (rd_includes r) (rd_data r) (rd_code r ++ [[]])%list false true)
  else if within end_mark line then Ok (mkreading (rd_includes r) (rd_data r) (rd_code r) (rd_data_mode r) false)
  else keep_line line r.
Fixpoint read_lines (lines : list string) (r : reading) : res reading :=
  match lines with [] => Ok r | l :: t => rbind (read_line l r) (read_lines t) end.

(** ''.join *)
Definition join (l : list string) : string := String.concat "" l.
(** Lines 151-157 *)
Definition kept_includes (l : list string) : string :=
  join (filter (fun x => negb (within "gmock" x || within "gtest" x)) l).

(** Lines 49, 159-165: re.findall(r'0x[0-9a-f][0-9a-f]') and bytes.fromhex.  [skip]: that many
    characters still belong to the last match. *)
Definition literal_at (s : string) : option N :=
  match s with
  | String z (String x (String a (String b _))) =>
      if (Ascii.eqb z "0" && Ascii.eqb x "x" && digit16 a && digit16 b)%bool then Some (int_of 16 (String a (String b ""))) else None
  | _ => None
  end.
Fixpoint find_bytes (skip : nat) (s : string) : list N :=
  match s with
  | EmptyString => []
  | String _ t =>
      match skip with
      | S k => find_bytes k t
      | O => match literal_at s with Some b => b :: find_bytes 3 t | None => find_bytes 0 t end
      end
  end.

(** Lines 180-188: re.sub(r'\b(\w+),\s*arraysize\(\1\)', 'data, size').  The length of a match at
    the start of [s]; the name is a whole word because a comma follows. *)
Definition call_at (s : string) : option nat :=
  let name := leading word_char s in
  let rest := dropped (String.length name) s in
  match name, rest with
  | String _ _, String "," rest' =>
      let sp := leading white rest' in
      let tail := "arraysize(" ++ name ++ ")" in
      if prefix tail (dropped (String.length sp) rest')
      then Some (String.length name + 1 + String.length sp + String.length tail)%nat else None
  | _, _ => None
  end.
(** [w]: the character before is in \w *)
Fixpoint sub_calls (skip : nat) (w : bool) (s : string) : string :=
  match s with
  | EmptyString => EmptyString
  | String c t =>
      match skip with
      | S k => sub_calls k (word_char c) t
      | O =>
          match (if w then None else call_at s) with
          | Some n => "data, size" ++ sub_calls (n - 1) (word_char c) t
          | None => String c (sub_calls 0 (word_char c) t)
          end
      end
  end.
(** Line 191: re.sub(r'\s+', ' ', code).strip().  [w]: the character before is white space *)
Fixpoint squeeze (w : bool) (s : string) : string :=
  match s with
  | EmptyString => EmptyString
  | String c t => if white c then (if w then squeeze true t else String " " (squeeze true t)) else String c (squeeze false t)
  end.
Fixpoint lstrip (f : ascii -> bool) (s : string) : string :=
  match s with String c t => if f c then lstrip f t else s | EmptyString => EmptyString end.
Fixpoint rstrip (f : ascii -> bool) (s : string) : string :=
  match s with
  | EmptyString => EmptyString
  | String c t => match rstrip f t with EmptyString => if f c then EmptyString else String c EmptyString | r => String c r end
  end.
Definition strip (f : ascii -> bool) (s : string) : string := rstrip f (lstrip f s).
Definition key_of (code : string) : string := strip white (squeeze false code).
(** Lines 177-195: blocks with a new key *)
Fixpoint unique (seen : list string) (codes : list string) : list string :=
  match codes with
  | [] => []
  | c :: t => if existsb (String.eqb (key_of c)) seen then unique seen t else c :: unique (key_of c :: seen) t
  end.

(** Lines 114-204.  The output: the include lines, the seeds and the code *)
Record converted := mkconverted { cv_include : string; cv_data : list (list N); cv_blocks : list string; cv_code : string }.
Definition frame (code : string) : string := "  {" ++ String lf (code ++ "  }" ++ String lf "").
Definition parse_input (lines : list string) : res converted :=
  rbind (read_lines lines (mkreading [] [] [] false false)) (fun r =>
  let blocks := unique [] (map (fun b => sub_calls 0 false (join b)) (rd_code r)) in
  Ok (mkconverted (kept_includes (rd_includes r)) (map (fun b => find_bytes 0 (join b)) (rd_data r)) blocks
        (strip (Ascii.eqb lf) (join (map frame blocks))))).
