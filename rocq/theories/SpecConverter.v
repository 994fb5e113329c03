(** Specification for fuzz/converter.py: the blocks that the markers in a unit test enclose, the
    byte literals in a text, and the calls whose buffer is replaced. *)
From Coq Require Import NArith List String Ascii.
Import ListNotations.
Open Scope list_scope.
Open Scope string_scope.

(** ** Lines *)
Fixpoint chars_of (s : string) : list ascii := match s with String c t => c :: chars_of t | EmptyString => [] end.
Definition blank_char (c : ascii) : Prop := In (N_of_ascii c) [9; 10; 11; 12; 13; 28; 29; 30; 31; 32]%N.
Definition blank (s : string) : Prop := Forall blank_char (chars_of s).
Definition holds (sub s : string) : Prop := exists a b, s = a ++ sub ++ b.
Definition include (s : string) : Prop := exists b, s = "#include " ++ b.
Definition closing : string := "};" ++ String (ascii_of_N 10) "".
Inductive kind := Blank | DataMark | Closing | BeginMark | EndMark | Text.
Definition kind_is (line : string) (k : kind) : Prop :=
  match k with
  | Blank => blank line
  | DataMark => ~ include line /\ holds "fuzzer::conv: data" line
  | Closing => line = closing
  | BeginMark => ~ include line /\ ~ holds "fuzzer::conv: data" line /\ holds "fuzzer::conv: begin" line
  | EndMark => ~ include line /\ ~ holds "fuzzer::conv: data" line /\ ~ holds "fuzzer::conv: begin" line /\ holds "fuzzer::conv: end" line
  | Text => ~ blank line /\ line <> closing /\
      (include line \/ ~ holds "fuzzer::conv: data" line /\ ~ holds "fuzzer::conv: begin" line /\ ~ holds "fuzzer::conv: end" line)
  end.
(** The lines up to the first of certain kinds, and those of certain kinds *)
Fixpoint up_to (stop : kind -> bool) (l : list (kind * string)) : list (kind * string) :=
  match l with [] => [] | (k, x) :: t => if stop k then [] else (k, x) :: up_to stop t end.
Definition of_kind (want : kind -> bool) (l : list (kind * string)) : list string := map snd (filter (fun p => want (fst p)) l).
(** A data block is the text after a data marker, up to the next data or begin marker or a line
    with nothing but the closing bracket. *)
Fixpoint data_blocks (l : list (kind * string)) : list (list string) :=
  match l with
  | [] => []
  | (DataMark, _) :: t =>
      of_kind (fun k => match k with Text => true | _ => false end)
        (up_to (fun k => match k with DataMark | BeginMark | Closing => true | _ => false end) t) :: data_blocks t
  | _ :: t => data_blocks t
  end.
(** A code block is what is between a begin marker and the next end or begin marker. *)
Fixpoint code_blocks (l : list (kind * string)) : list (list string) :=
  match l with
  | [] => []
  | (BeginMark, _) :: t =>
      of_kind (fun k => match k with Text | Closing => true | _ => false end)
        (up_to (fun k => match k with BeginMark | EndMark => true | _ => false end) t) :: code_blocks t
  | _ :: t => code_blocks t
  end.
Definition text_of_lines (l : list string) : string := String.concat "" l.

(** ** Bytes *)
Definition hex_char (n : N) : ascii := nth (N.to_nat n) (chars_of "0123456789abcdef") "?"%char.
Definition literal (d : N) : string := "0x" ++ String (hex_char (d / 16)) (String (hex_char (d mod 16)) "").
(** The literals in a text, from the left *)
Inductive seed_of : string -> list N -> Prop :=
| seed_none : forall s, (forall a d r, (d < 256)%N -> s <> a ++ literal d ++ r) -> seed_of s []
| seed_next : forall a d r ds, (d < 256)%N ->
    (forall a' d' r', (d' < 256)%N -> a ++ literal d ++ r = a' ++ literal d' ++ r' -> (String.length a <= String.length a')%nat) ->
    seed_of r ds -> seed_of (a ++ literal d ++ r) (d :: ds).
(** Literals with text between them *)
Fixpoint declared (l : list (string * N)) (last : string) : string :=
  match l with [] => last | (gap, d) :: t => gap ++ literal d ++ declared t last end.

(** ** Calls *)
Definition word_charP (c : ascii) : Prop :=
  let n := N_of_ascii c in (48 <= n <= 57 \/ 65 <= n <= 90 \/ 97 <= n <= 122 \/ n = 95)%N.
Definition word (s : string) : Prop := s <> "" /\ Forall word_charP (chars_of s).
Definition call (name gap : string) : string := name ++ "," ++ gap ++ "arraysize(" ++ name ++ ")".
Definition is_call (name gap : string) : Prop := word name /\ blank gap.
(** A word can start after [a] (there is nothing before). *)
Definition at_start (a : string) : Prop := forall b c, a = b ++ String c "" -> ~ word_charP c.
(** All calls, from the left, with [data, size] instead *)
Inductive renamed : string -> string -> Prop :=
| renamed_none : forall s, (forall a n g r, is_call n g -> at_start a -> s <> a ++ call n g ++ r) -> renamed s s
| renamed_next : forall a n g r r', is_call n g -> at_start a ->
    (forall a' n' g' r', is_call n' g' -> at_start a' -> a ++ call n g ++ r = a' ++ call n' g' ++ r' -> (String.length a <= String.length a')%nat) ->
    renamed r r' -> renamed (a ++ call n g ++ r) (a ++ "data, size" ++ r').

(** ** Different blocks *)
Definition starts_blank (s : string) : Prop := match s with EmptyString => True | String c _ => blank_char c end.
Inductive words_of : string -> list string -> Prop :=
| words_end : forall s, blank s -> words_of s []
| words_cons : forall g w r ws, blank g -> w <> "" -> Forall (fun c => ~ blank_char c) (chars_of w) -> starts_blank r ->
    words_of r ws -> words_of (g ++ w ++ r) (w :: ws).
(** Blocks with the words of an earlier one are left out. *)
Inductive kept : list (list string) -> list string -> list string -> Prop :=
| kept_nil : forall seen, kept seen [] []
| kept_old : forall seen c ws t r, words_of c ws -> In ws seen -> kept seen t r -> kept seen (c :: t) r
| kept_new : forall seen c ws t r, words_of c ws -> ~ In ws seen -> kept (ws :: seen) t r -> kept seen (c :: t) (c :: r).
(** The code: each block in brackets *)
Definition bracketed (code : string) : string := "  {" ++ String (ascii_of_N 10) (code ++ "  }" ++ String (ascii_of_N 10) "").
(** The elements with a property, in order *)
Inductive chosen {A} (P : A -> Prop) : list A -> list A -> Prop :=
| chosen_nil : chosen P [] []
| chosen_in : forall x l r, P x -> chosen P l r -> chosen P (x :: l) (x :: r)
| chosen_out : forall x l r, ~ P x -> chosen P l r -> chosen P (x :: l) r.
Definition wanted_include (s : string) : Prop := include s /\ ~ holds "gmock" s /\ ~ holds "gtest" s.
