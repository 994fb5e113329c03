(** Vocabulary for the syntax parsers: every parser is a function of the bit buffer
    state, in the outcome monad of Base.v.  A read that fails makes the enclosing
    parser return nullptr, leaving the buffer where the failed read left it. *)
From Coq Require Import NArith ZArith List Bool.
From Verif Require Import Base BitBuffer.
Import ListNotations.
Open Scope N_scope.

Definition P (A : Type) := bb -> res A * bb.

(** [if (flag)] on a uint32_t. *)
Definition tob (x : N) : bool := negb (x =? 0).

(** [if (!ok) { return nullptr; }] *)
Definition guard (ok : bool) : P unit := if ok then sret tt else sfail.

(** [if (c) { ...p... }], where [d] is what the fields set by p hold otherwise (their
    initial values in the C++ struct). *)
Definition cond {A} (c : bool) (p : P A) (d : A) : P A := if c then p else sret d.

(** [for (i = 0; i < n; i++) { v.push_back(p) }] *)
Fixpoint rep {A} (n : nat) (p : P A) : P (list A) :=
  match n with
  | O => sret []
  | S k => (v <- p ;; l <- rep k p ;; sret (v :: l))%m
  end.

(** The same with a loop body that depends on the counter. *)
Fixpoint repi {A} (n : nat) (i : N) (p : N -> P A) : P (list A) :=
  match n with
  | O => sret []
  | S k => (v <- p i ;; l <- repi k (i + 1) p ;; sret (v :: l))%m
  end.

(** bit_buffer->ReadExponentialGolomb(x); if (x > max) return nullptr *)
Definition ue_max (m : N) : P N :=
  (x <- ReadExponentialGolomb ;; guard (x <=? m) ;;; sret x)%m.
(** bit_buffer->ReadSignedExponentialGolomb(x); if (x < lo || x > hi) return nullptr *)
Definition se_rng (lo hi : Z) : P Z :=
  (x <- ReadSignedExponentialGolomb ;; guard ((lo <=? x) && (x <=? hi))%Z ;;; sret x)%m.
