(** Specification: the bytes a name stands for as input. *)
From Coq Require Import NArith List String.
From Verif Require Import Files.
Import ListNotations.
Open Scope string_scope.

(** "-" is the standard input; a file counts if it can be read to its end and is not empty. *)
Definition input (d : disk) (stdin : list N) (f : string) (data : list N) : Prop :=
  f = "-" /\ data = stdin \/
  f <> "-" /\ data <> [] /\ exists n, d f = Bytes data n /\ (List.length data <= n)%nat.
(** Where the text goes *)
Definition to_stdout (out : option string) : Prop := out = None \/ out = Some "-".
(** The files are as before, except that [f] holds the characters of [s]. *)
Definition replaced (d : disk) (f : string) (s : string) (d' : disk) : Prop :=
  d' f = Bytes (map Ascii.N_of_ascii (list_ascii_of_string s)) (String.length s) /\
  forall g, g <> f -> d' g = d g.
