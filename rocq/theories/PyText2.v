(** More of Python's re and str, as tools/h264nal-conformance.py uses them.  The text is ASCII. *)
From Coq Require Import NArith ZArith List Bool String Ascii.
From Verif Require Import PyText.
Import ListNotations.
Open Scope list_scope.

(** re.findall: how many matches, from left to right, that do not overlap.  [m w s] is the length
    of the match at the start of [s], where [w] says whether the character before [s] is in \w.
    [skip]: that many characters still belong to the last match. *)
Fixpoint findall (m : bool -> string -> option nat) (skip : nat) (w : bool) (s : string) : nat :=
  match s with
  | EmptyString => O
  | String c t =>
      match skip with
      | S k => findall m k (word_char c) t
      | O => match m w s with
             | Some (S k) => S (findall m k (word_char c) t)
             | _ => findall m O (word_char c) t
             end
      end
  end.
(** s.count(sub), sub not empty *)
Definition str_count (sub s : string) : nat :=
  findall (fun _ s => if prefix sub s then Some (String.length sub) else None) 0 false s.
(** sub in s *)
Fixpoint str_in (sub s : string) : bool :=
  prefix sub s || match s with EmptyString => false | String _ t => str_in sub t end.
(** \b behind a character of \w *)
Definition boundary (s : string) : bool :=
  match s with EmptyString => true | String c _ => negb (word_char c) end.
(** literal characters, then \b *)
Definition word_lit (lit s : string) : option nat :=
  if prefix lit s && boundary (dropped (String.length lit) s) then Some (String.length lit) else None.
(** (-?\d+), and int of it *)
Definition signed (s : string) : option Z :=
  match s with
  | String c t =>
      if Ascii.eqb c "-" then option_map (fun d => (- Z.of_N (int_of 10 d))%Z) (several digit10 t)
      else option_map (fun d => Z.of_N (int_of 10 d)) (several digit10 s)
  | EmptyString => None
  end.
(** (.+?) before literal characters *)
Fixpoint lazy_any (lit s : string) : option string :=
  if prefix lit s then Some EmptyString
  else match s with
       | EmptyString => None
       | String c t => if Ascii.eqb c (ascii_of_N 10) then None else option_map (String c) (lazy_any lit t)
       end.
Definition lazy_some (lit s : string) : option string :=
  match s with
  | EmptyString => None
  | String c t => if Ascii.eqb c (ascii_of_N 10) then None else option_map (String c) (lazy_any lit t)
  end.
(** s.splitlines(): the ends of lines in ASCII *)
Definition line_end (c : ascii) : bool :=
  let n := N_of_ascii c in ((10 <=? n) && (n <=? 13) || (28 <=? n) && (n <=? 30))%N.
Fixpoint splitlines (s : string) : list string :=
  match s with
  | EmptyString => []
  | String c t =>
      if line_end c then
        EmptyString :: match t with
                       | String d t' =>
                           if (N_of_ascii c =? 13)%N && (N_of_ascii d =? 10)%N then splitlines t' else splitlines t
                       | EmptyString => []
                       end
      else match splitlines t with
           | [] => [String c EmptyString]
           | l :: ls => String c l :: ls
           end
  end.
(** s.strip() *)
Definition py_space (c : ascii) : bool :=
  let n := N_of_ascii c in ((9 <=? n) && (n <=? 13) || (28 <=? n) && (n <=? 32))%N.
Fixpoint lstrip (s : string) : string :=
  match s with
  | String c t => if py_space c then lstrip t else s
  | EmptyString => EmptyString
  end.
Fixpoint rstrip (s : string) : string :=
  match s with
  | String c t => match rstrip t with
                  | EmptyString => if py_space c then EmptyString else String c EmptyString
                  | r => String c r
                  end
  | EmptyString => EmptyString
  end.
Definition strip (s : string) : string := lstrip (rstrip s).
(** collections.Counter of a list: the keys in the order of their first occurrence *)
Fixpoint counter_add (x : string) (c : list (string * N)) : list (string * N) :=
  match c with
  | [] => [(x, 1%N)]
  | (y, n) :: t => if String.eqb x y then (y, n + 1)%N :: t else (y, n) :: counter_add x t
  end.
Definition counter (l : list string) : list (string * N) := fold_left (fun c x => counter_add x c) l [].

Example findall_ex : findall (fun w s => if w then None else word_lit "ab" s) 0 false "ab xab ab1 ab" = 2%nat.
Proof. reflexivity. Qed.
Example str_count_ex : str_count "aa" "aaaaa" = 2%nat.
Proof. reflexivity. Qed.
Example splitlines_ex : splitlines (String (ascii_of_N 97) (String (ascii_of_N 13) (String (ascii_of_N 10)
  (String (ascii_of_N 10) "b")))) = ["a"; ""; "b"]%string.
Proof. reflexivity. Qed.
Example strip_ex : strip "  a b " = "a b"%string.
Proof. reflexivity. Qed.
Example counter_ex : counter ["b"; "a"; "b"]%string = [("b", 2); ("a", 1)]%string%N.
Proof. reflexivity. Qed.
