(** What the columns of the table mean, independent of the script. *)
From Coq Require Import NArith ZArith List Bool String Ascii DecimalString.
Import ListNotations.
Open Scope N_scope.

Definition decimal (n : N) : string := NilEmpty.string_of_uint (N.to_uint n).
(** The values of a list, each at its first occurrence *)
Fixpoint unique (l : list string) : list string :=
  match l with
  | [] => []
  | x :: t => x :: filter (fun y => negb (String.eqb x y)) (unique t)
  end.
(** How often *)
Definition times (x : string) (l : list string) : N := N.of_nat (count_occ string_dec l x).

(** H.264 A.3.1 and A.3.2: level 1b is level_idc 9 in the High profiles, and otherwise level_idc 11
    with constraint_set3_flag. *)
Definition high_profile (profile_idc : N) : Prop := In profile_idc [100; 110; 122; 244; 44].
Definition level_1b (profile_idc level_idc constraint_set3_flag : N) : Prop :=
  high_profile profile_idc /\ level_idc = 9 \/
  ~ high_profile profile_idc /\ level_idc = 11 /\ constraint_set3_flag = 1.
(** [s] is the number of a level *)
Definition names_level (profile_idc level_idc constraint_set3_flag : N) (s : string) : Prop :=
  level_1b profile_idc level_idc constraint_set3_flag /\ s = "1b"%string \/
  ~ level_1b profile_idc level_idc constraint_set3_flag /\
  s = (decimal (level_idc / 10) ++ "." ++ decimal (level_idc mod 10))%string.

Example unique_ex : unique ["a"; "b"; "a"; "c"; "b"]%string = ["a"; "b"; "c"]%string.
Proof. reflexivity. Qed.
Example level_ex : names_level 66 30 0 "3.0" /\ names_level 100 9 0 "1b" /\ names_level 77 11 1 "1b" /\ names_level 100 11 1 "1.1".
Proof.
  repeat split; try (left; split; [|reflexivity]); try (right; split; [|reflexivity]).
  - intros [[H _]|[_ [H _]]]; discriminate + (cbn in H; intuition discriminate).
  - left. split; [left; reflexivity|reflexivity].
  - right. split; [intros H; cbn in H; intuition discriminate|split; reflexivity].
  - intros [[_ H]|[H _]]; [discriminate|apply H; left; reflexivity].
Qed.

(** ** Messages *)
(** A message on one line: printable ASCII, without spaces at the ends *)
Definition printed (c : ascii) : Prop := (32 <= N_of_ascii c <= 126)%N.
Fixpoint chars (s : string) : list ascii := match s with EmptyString => [] | String c t => c :: chars t end.
Definition message (m : string) : Prop :=
  m <> ""%string /\ Forall printed (chars m) /\ forall x, m <> (" " ++ x)%string /\ m <> (x ++ " ")%string.
(** Messages, each ended by a newline *)
Definition message_lines (l : list string) : string :=
  String.concat "" (map (fun m => m ++ String (ascii_of_N 10) "")%string l).
(** Every message once, with its number if it came more often *)
Definition summary_of (l : list string) : string :=
  String.concat "; " (map (fun m => if times m l =? 1 then m else (m ++ " (x" ++ decimal (times m l) ++ ")")%string) (unique l)).
Example summary_ex : summary_of ["bad"; "no SPS"; "bad"]%string = "bad (x2); no SPS"%string.
Proof. reflexivity. Qed.
