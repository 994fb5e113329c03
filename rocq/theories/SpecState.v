(** Specification: what a store of parameter sets is. *)
From Coq Require Import NArith List.
Import ListNotations.
Open Scope N_scope.

(** Entries are held under the identifiers they carry, which are at most [top], one for each. *)
Definition table {A} (id : A -> N) (top : N) (l : list (N * A)) : Prop :=
  NoDup (map fst l) /\ forall k x, In (k, x) l -> id x = k /\ k <= top.
