(** Specification: the rational number a binary number stands for, and rounding to the nearest. *)
From Coq Require Import NArith ZArith QArith Qabs.
From Verif Require Import TypesSps.
Open Scope Q_scope.

(** m * 2^e *)
Definition dyadic (m e : Z) : Q := inject_Z m * (2 # 1) ^ e.
(** A mantissa of exactly [p] bits *)
Definition normal (p m : Z) : Prop := (2 ^ (p - 1) <= m < 2 ^ p)%Z.
(** m * 2^e is nearest to x among the numbers with p bits; of two, the one with even mantissa. *)
Definition nearest (p : Z) (x : Q) (m e : Z) : Prop :=
  normal p m /\
  forall m' e', normal p m' ->
    Qabs (x - dyadic m e) <= Qabs (x - dyadic m' e') /\
    (Qabs (x - dyadic m e) == Qabs (x - dyadic m' e') -> dyadic m e == dyadic m' e' \/ Z.even m = true).
(** Frames per second, equation D-2 of the standard with nuit_field_based_flag 1 *)
Definition frame_rate (v : vui) : Q :=
  inject_Z (Z.of_N (time_scale v)) / (2 * inject_Z (Z.of_N (num_units_in_tick v))).
