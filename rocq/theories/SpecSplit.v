(** What splitting a file at changes of the picture size means, independent of the script. *)
From Coq Require Import NArith ZArith List Bool.
Import ListNotations.
Open Scope N_scope.

(** The number of the file, from 0, with byte [o] of the concatenation. *)
Fixpoint file_of (files : list (list N)) (o : N) : nat :=
  match files with
  | [] => O
  | f :: t => let n := N.of_nat (length f) in if o <? n then O else S (file_of t (o - n))
  end.
(** Sequence parameter sets are given as the offset of the unit and its picture size. *)
Definition size := (N * N)%type.
Definition step (a b : size) : nat := if (fst a =? fst b) && (snd a =? snd b) then O else 1%nat.
(** Neighbours are in the same file if their sizes are the same, otherwise in files next to
    each other. *)
Definition cut_at_changes (sets : list (N * size)) (files : list (list N)) : Prop :=
  forall pre o1 s1 o2 s2 post, sets = pre ++ (o1, s1) :: (o2, s2) :: post ->
  file_of files o2 = (file_of files o1 + step s1 s2)%nat.
(** All sets have the same size. *)
Definition no_change (sets : list (N * size)) : Prop :=
  forall o1 s1 o2 s2, In (o1, s1) sets -> In (o2, s2) sets -> s1 = s2.
(** Every file but the first starts with the start code of a set. *)
Definition starts_with_set (sets : list (N * size)) (files : list (list N)) : Prop :=
  forall before f after, files = before ++ f :: after -> before <> [] ->
  exists code rest o s, f = code ++ rest /\ (code = [0; 0; 1] \/ code = [0; 0; 0; 1]) /\ rest <> [] /\
    In (o, s) sets /\ o = N.of_nat (length (concat before)) + N.of_nat (length code).

Example file_of_ex : map (file_of [[1; 2]; [3]; [4; 5]]) [0; 1; 2; 3; 4] = [0; 0; 1; 2; 2]%nat.
Proof. reflexivity. Qed.
