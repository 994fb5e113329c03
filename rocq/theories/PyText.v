(** The functions of Python that the scripts in tools/*.py apply to the output of the tool: the
    module re for the expressions that occur, and methods of str.  The text is ASCII. *)
From Coq Require Import NArith ZArith List Bool String Ascii.
Import ListNotations.
Open Scope list_scope.

Definition digit10 (c : ascii) : bool := let n := N_of_ascii c in ((48 <=? n) && (n <=? 57))%N.
(** [0-9a-f] *)
Definition digit16 (c : ascii) : bool := digit10 c || let n := N_of_ascii c in ((97 <=? n) && (n <=? 102))%N.
(** \w *)
Definition word_char (c : ascii) : bool :=
  digit10 c || let n := N_of_ascii c in
  ((97 <=? n) && (n <=? 122) || (65 <=? n) && (n <=? 90) || (n =? 95))%N.
(** The longest start of a string with characters of a class, and what is left *)
Fixpoint leading (f : ascii -> bool) (s : string) : string :=
  match s with
  | String c t => if f c then String c (leading f t) else EmptyString
  | EmptyString => EmptyString
  end.
Fixpoint dropped (n : nat) (s : string) : string :=
  match n, s with S k, String _ t => dropped k t | _, _ => s end.

(** ** Expressions: each matches at the start of a string *)
(** a group of one or more characters of a class, like (\d+) *)
Definition several (f : ascii -> bool) (s : string) : option string :=
  match leading f s with EmptyString => None | d => Some d end.
(** literal characters before an expression *)
Definition after {A} (lit : string) (m : string -> option A) (s : string) : option A :=
  if prefix lit s then m (dropped (String.length lit) s) else None.
(** re.search: the first position with a match *)
Fixpoint search {A} (m : string -> option A) (s : string) : option A :=
  match m s with
  | Some a => Some a
  | None => match s with EmptyString => None | String _ t => search m t end
  end.
(** re.search with \b in front: [w] says whether the character before [s] is in \w.  The
    expressions start with a character in \w. *)
Fixpoint search_b {A} (m : string -> option A) (w : bool) (s : string) : option A :=
  match (if w then None else m s) with
  | Some a => Some a
  | None => match s with EmptyString => None | String c t => search_b m (word_char c) t end
  end.

(** int(s) and int(s, 16) of digits *)
Definition int_of (base : N) (s : string) : N :=
  let fix go (s : string) (acc : N) : N :=
    match s with
    | EmptyString => acc
    | String c t => go t (base * acc + (if digit10 c then N_of_ascii c - 48 else N_of_ascii c - 87))%N
    end in
  go s 0%N.

(** re.split(r"^" + sep, s, flags=re.MULTILINE) for literal [sep].  [bol]: at the start of a line;
    [skip]: that many characters still belong to the last match. *)
Definition onto (c : ascii) (l : list string) : list string :=
  match l with p :: ps => String c p :: ps | [] => [String c EmptyString] end.
Fixpoint split_bol (sep : string) (skip : nat) (bol : bool) (s : string) : list string :=
  match s with
  | EmptyString => [EmptyString]
  | String c t =>
      match skip with
      | S k => split_bol sep k false t
      | O => if bol && prefix sep s then EmptyString :: split_bol sep (String.length sep - 1) false t
             else onto c (split_bol sep 0 (Ascii.eqb c (ascii_of_N 10)) t)
      end
  end.
