(** Specification for the names of the files of tools/h264nal-split.py. *)
From Coq Require Import NArith List String Ascii.
From Verif Require Import SpecConverter SpecConverterFiles.
Import ListNotations.
Open Scope list_scope.
Open Scope string_scope.

Definition only_dots (s : string) : Prop := Forall (eq "."%char) (chars_of s).
(** [e] is the extension of the file name [name] and [a] the rest: the extension begins with the
    last dot; dots at the start of a name do not begin an extension. *)
Definition name_parts (name a e : string) : Prop :=
  name = a ++ e /\
  ((exists x, e = "." ++ x /\ ~ holds "." x /\ ~ only_dots a) \/
   (e = "" /\ forall b x, name = b ++ "." ++ x -> only_dots b)).
(** The same for a path: the directory goes with the rest. *)
Definition path_parts (path base ext : string) : Prop :=
  exists dir name a, path = dir ++ name /\ last_part path name /\ name_parts name a ext /\ base = dir ++ a.
(** The order of the bytes, in which a shell lists names *)
Definition before (a b : string) : Prop :=
  (exists p c d x y, a = p ++ String c x /\ b = p ++ String d y /\ (N_of_ascii c < N_of_ascii d)%N) \/
  (exists c x, b = a ++ String c x).
