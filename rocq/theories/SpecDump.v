(** Specification: how a dumped text is read.  Nothing here refers to the model. *)
From Coq Require Import NArith ZArith List Bool String Ascii.
Import ListNotations.
Open Scope list_scope.

Definition is_newline (c : ascii) : bool := Ascii.eqb c (ascii_of_N 10).
Definition is_blank (c : ascii) : bool := Ascii.eqb c (ascii_of_N 32).
Definition is_white (c : ascii) : bool := is_newline c || is_blank c.

(** The pieces between separators; there is one more than there are separators. *)
Fixpoint pieces (sep : ascii -> bool) (s : string) : list string :=
  match s with
  | EmptyString => [EmptyString]
  | String c t =>
      if sep c then EmptyString :: pieces sep t
      else match pieces sep t with
           | p :: ps => String c p :: ps
           | [] => [String c EmptyString]
           end
  end.
Definition nonblank (s : string) : bool := match s with EmptyString => false | _ => true end.
(** The words of a text, and its lines. *)
Definition words (s : string) : list string := filter nonblank (pieces is_white s).
Definition text_lines (s : string) : list string := pieces is_newline s.

(** Number of blanks a line starts with. *)
Fixpoint indentation (s : string) : nat :=
  match s with
  | String c t => if is_blank c then S (indentation t) else O
  | EmptyString => O
  end.
Definition count (w : string) (l : list string) : nat := List.length (filter (String.eqb w) l).
Definition opens : list string -> nat := count "{".
Definition closes : list string -> nat := count "}".
Definition starts_closing (l : list string) : bool :=
  match l with w :: _ => String.eqb w "}" | [] => false end.

(** Lines, with [o] braces open before them: each is indented by two blanks for every open
    brace and every one of [level]; a line that starts with a closing brace by those that
    remain.  At the end no brace is open. *)
Fixpoint laid_out (level o : nat) (ls : list string) : Prop :=
  match ls with
  | [] => o = O
  | l :: t =>
      let ws := words l in
      let k := if starts_closing ws then 1 else 0 in
      (k <= o)%nat /\ (closes ws <= o + opens ws)%nat /\
      indentation l = (2 * (level + (o - k)))%nat /\
      laid_out level (o + opens ws - closes ws) t
  end.
(** A whole text: what comes before its first line is not part of it. *)
Definition indented (level : nat) (s : string) : Prop :=
  match text_lines s with
  | l :: t => starts_closing (words l) = false /\ indentation l = O /\
      (closes (words l) <= opens (words l))%nat /\
      laid_out level (opens (words l) - closes (words l)) t
  | [] => False
  end.
(** On one line. *)
Fixpoint one_line (s : string) : Prop :=
  match s with
  | EmptyString => True
  | String c t => is_newline c = false /\ one_line t
  end.

Example words_ex : words (" a: 1" ++ String (ascii_of_N 10) "  b { 2 }  ")%string =
  ["a:"; "1"; "b"; "{"; "2"; "}"]%string.
Proof. reflexivity. Qed.
