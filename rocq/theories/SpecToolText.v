(** Specification: how the output of the tool is read, and what its options mean.  Nothing here
    refers to the model of the tool, except for the type of the rows. *)
From Coq Require Import NArith ZArith List Bool String Ascii HexadecimalString.
From Verif Require Import Tool SpecDump SpecLabels.
Import ListNotations.
Open Scope list_scope.

(** ** Bytes in hexadecimal *)
Definition hex_number (w : string) : option N :=
  option_map N.of_hex_uint (HexadecimalString.NilEmpty.uint_of_string w).
Definition shows_byte (w : string) (b : N) : Prop :=
  String.length w = 2%nat /\ hex_number w = Some b.

(** ** Comma separated values *)
Definition is_comma (c : ascii) : bool := Ascii.eqb c ",".
Definition fields (l : string) : list string := pieces is_comma l.
Inductive cell := Num (z : Z) | Text (s : string) | Blank.
Definition in_cell (s : string) (c : cell) : Prop :=
  match c with
  | Num z => s <> EmptyString /\ number s = Some z
  | Text t => s = t
  | Blank => s = EmptyString
  end.
Definition columns : list string :=
  ["nal_num"; "frame_num"; "nal_unit_type"; "nal_unit_type_str"; "nal_length_bytes"; "bitrate_bps";
   "first_mb_in_slice"]%string.
Definition cells (r : row) : list cell :=
  match r with
  | NalRow nal frame ty name len fmb =>
      [Num nal; Num frame; Num (Z.of_N ty); Text name; Num len; Blank;
       match fmb with Some v => Num v | None => Blank end]
  | FrameRow frame last bitrate =>
      [Blank; Num frame; Num last; Text "frame"; Blank; Num bitrate; Blank]
  end.

(** ** Numbers on the command line *)
Definition white (c : ascii) : Prop := In (N_of_ascii c) [9; 10; 11; 12; 13; 32]%N.
Fixpoint each (P : ascii -> Prop) (s : string) : Prop :=
  match s with EmptyString => True | String c t => P c /\ each P t end.
Definition digit_value (c : ascii) (d : Z) : Prop := (Z.of_N (N_of_ascii c) = 48 + d /\ 0 <= d <= 9)%Z.
(** [value ds v n]: the digits [ds] after digits of value [v] give [n]. *)
Inductive value : string -> Z -> Z -> Prop :=
| value_end : forall v, value EmptyString v v
| value_digit : forall c d t v n, digit_value c d -> value t (10 * v + d)%Z n -> value (String c t) v n.
(** White space, a sign if wanted, and at least one decimal digit. *)
Definition denotes (s : string) (n : Z) : Prop :=
  exists ws sign ds v, s = (ws ++ sign ++ ds)%string /\ each white ws /\ ds <> EmptyString /\ value ds 0 v /\
    ((sign = EmptyString \/ sign = "+"%string) /\ n = v \/ sign = "-"%string /\ n = (- v)%Z).

(** ** The last option about something counts *)
Fixpoint last_of {O A} (about : O -> option A) (os : list O) (d : A) : A :=
  match os with
  | [] => d
  | o :: t => last_of about t (match about o with Some x => x | None => d end)
  end.

Example denotes_ex : denotes " +042" 42.
Proof.
  exists " "%string, "+"%string, "042"%string, 42%Z. split; [reflexivity|].
  split; [repeat constructor; cbn; tauto|]. split; [discriminate|]. split; [|tauto].
  apply value_digit with (d := 0%Z); [split; [reflexivity|split; discriminate]|].
  apply value_digit with (d := 4%Z); [split; [reflexivity|split; discriminate]|].
  apply value_digit with (d := 2%Z); [split; [reflexivity|split; discriminate]|]. constructor.
Qed.
