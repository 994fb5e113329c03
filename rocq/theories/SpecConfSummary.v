(** Specification for the last line of tools/h264nal-conformance.py. *)
From Coq Require Import NArith List.
Import ListNotations.

(** [n] elements of the list have the property, the others do not. *)
Inductive counted {A} (P : A -> Prop) : list A -> N -> Prop :=
| counted_none : counted P [] 0
| counted_yes : forall x l n, P x -> counted P l n -> counted P (x :: l) (n + 1)
| counted_no : forall x l n, ~ P x -> counted P l n -> counted P (x :: l) n.
