(** Specification: what a computed logarithm has to satisfy, and Ceil(Log2(x)) for rational x. *)
From Coq Require Import ZArith QArith SpecFloat.
From Verif Require Import SpecFramerate.
Open Scope Q_scope.

(** The number a floating-point number stands for *)
Definition value (x : spec_float) : option Q :=
  match x with
  | S754_zero _ => Some 0
  | S754_finite s m e => Some (dyadic (if s then Zneg m else Zpos m) e)
  | _ => None
  end.
(** log2 is exact for powers of two, and otherwise off by 2^-40 at most.  That y >= log2 x - d is
    said as y >= p/q - d for all p, q with 2^p <= x^q. *)
Definition slack : Q := (2 # 1) ^ (-40).
Record accurate (log2 : spec_float -> spec_float) : Prop := {
  log2_power : forall m e k, dyadic (Zpos m) e == (2 # 1) ^ k ->
    exists y, value (log2 (S754_finite false m e)) = Some y /\ y == inject_Z k;
  log2_near : forall m e, let x := dyadic (Zpos m) e in
    1 <= x -> exists y, value (log2 (S754_finite false m e)) = Some y /\
    (forall p q, (2 # 1) ^ p <= x ^ Zpos q -> p # q <= y + slack) /\
    (forall p q, x ^ Zpos q <= (2 # 1) ^ p -> y <= (p # q) + slack);
  log2_infinity : log2 (S754_infinity false) = S754_infinity false;
  log2_nan : log2 S754_nan = S754_nan }.
(** n = Ceil(Log2(x)) *)
Definition ceil_log2 (x : Q) (n : Z) : Prop := (2 # 1) ^ (n - 1) < x <= (2 # 1) ^ n.
