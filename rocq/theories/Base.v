(** Outcomes of the modelled C++ functions, and fixed-width arithmetic. *)
From Coq Require Import NArith ZArith List Bool.
Import ListNotations.
Open Scope N_scope.

(** Why a C++ execution has no defined meaning. *)
Inductive ubkind := OutOfBounds | BadShift | SignedOverflow | NullDeref | Uninit | BadCast.

(** What a C++ call did.  [Ok v]: returned true / a non-null pointer with result v.
    [Null]: returned false / nullptr.  [UB]: undefined behaviour.  [Abort]: an
    assert() failed (only in builds with asserts).  [NoFuel]: the model's own loop
    bound was exhausted (no C++ counterpart; excluded by theorems). *)
Inductive res (A : Type) :=
| Ok (a : A) | Null | UB (k : ubkind) | Abort | NoFuel.
Arguments Ok {A} a.
Arguments Null {A}.
Arguments UB {A} k.
Arguments Abort {A}.
Arguments NoFuel {A}.

Definition rbind {A B} (r : res A) (f : A -> res B) : res B :=
  match r with
  | Ok a => f a | Null => Null | UB k => UB k | Abort => Abort | NoFuel => NoFuel
  end.

(** Sequencing over a state that survives failures. *)
Definition sbind {S A B} (p : S -> res A * S) (f : A -> S -> res B * S)
  : S -> res B * S :=
  fun s => match p s with
           | (Ok a, s') => f a s'
           | (Null, s') => (Null, s')
           | (UB k, s') => (UB k, s')
           | (Abort, s') => (Abort, s')
           | (NoFuel, s') => (NoFuel, s')
           end.
Definition sret {S A} (a : A) : S -> res A * S := fun s => (Ok a, s).
Definition sfail {S A} : S -> res A * S := fun s => (Null, s).
(** Lift a pure outcome. *)
Definition sres {S A} (r : res A) : S -> res A * S := fun s => (r, s).

Declare Scope m_scope.
Delimit Scope m_scope with m.
Notation "x <- p ;; q" := (sbind p (fun x => q))
  (at level 61, p at next level, right associativity) : m_scope.
Notation "' x <- p ;; q" := (sbind p (fun x => q))
  (at level 61, x pattern, p at next level, right associativity) : m_scope.
Notation "p ;;; q" := (sbind p (fun _ => q))
  (at level 61, right associativity) : m_scope.

(** Width constants and wrap-around. *)
Definition u8 (x : N) : N := x mod 2 ^ 8.
Definition u16 (x : N) : N := x mod 2 ^ 16.
Definition u32 (x : N) : N := x mod 2 ^ 32.
Definition u64 (x : N) : N := x mod 2 ^ 64.
(** size_t / uint64_t subtraction. *)
Definition sub64 (a b : N) : N := (a + (2 ^ 64 - b mod 2 ^ 64)) mod 2 ^ 64.
Definition sub32 (a b : N) : N := (a + (2 ^ 32 - b mod 2 ^ 32)) mod 2 ^ 32.

(** static_cast<int32_t> of a uint32_t (two's complement). *)
Definition to_i32 (x : N) : Z :=
  if x <? 2 ^ 31 then Z.of_N x else (Z.of_N x - 2 ^ 32)%Z.
(** static_cast<uint32_t> of an int32_t. *)
Definition of_i32 (z : Z) : N := Z.to_N (z mod 2 ^ 32)%Z.
(** Signed 32-bit results: overflow is undefined. *)
Definition chk_i32 (z : Z) : res Z :=
  if ((- 2 ^ 31 <=? z) && (z <? 2 ^ 31))%Z then Ok z else UB SignedOverflow.

(** assert(cond): evaluated only when asserts are compiled in. *)
Definition dcheck {A} (asserts cond : bool) (k : res A) : res A :=
  if asserts && negb cond then Abort else k.
