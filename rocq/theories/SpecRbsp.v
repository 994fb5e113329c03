(** Specification of RBSP escaping, trailing bits and the checksum. *)
From Coq Require Import Arith NArith List Bool.
From Verif Require Import SpecBits.
Import ListNotations.
Open Scope N_scope.

(** Escaping, Rec. ITU-T H.264 section 7.4.1: after two zero bytes, a byte 0..3 (or the
    end of the data) is preceded by an emulation prevention byte 03.  [z] counts the
    zero bytes just emitted. *)
Fixpoint escape_from (z : nat) (l : list N) : list N :=
  match l with
  | [] => if (2 <=? z)%nat then [3] else []
  | x :: t =>
      if (2 <=? z)%nat && (x <=? 3)
      then 3 :: x :: escape_from (if x =? 0 then 1 else 0) t
      else x :: escape_from (if x =? 0 then S z else 0) t
  end.
Definition escape (l : list N) : list N := escape_from 0 l.

(** Removing the 03 of every 00 00 03, scanning left to right. *)
Inductive strips : list N -> list N -> Prop :=
| strips_nil : strips [] []
| strips_epb : forall t u, strips t u -> strips (0 :: 0 :: 3 :: t) (0 :: 0 :: u)
| strips_byte : forall x t u,
    (forall t', x :: t <> 0 :: 0 :: 3 :: t') -> strips t u -> strips (x :: t) (x :: u).

(** [l] contains the byte string [p]. *)
Definition contains (p l : list N) : Prop := exists a b, l = a ++ p ++ b.

(** A conforming NAL unit payload: no 00 00 00, 00 00 01, 00 00 02, and 00 00 03 only
    before a byte 0..3 or at the end; and it does not end in 00 00. *)
Definition conforming (l : list N) : Prop :=
  (forall a x b, l = a ++ 0 :: 0 :: x :: b -> 3 <= x) /\
  (forall a x b, l = a ++ 0 :: 0 :: 3 :: x :: b -> x <= 3) /\
  (forall a, l <> a ++ [0; 0]).

(** A run of bits that is exactly rbsp_trailing_bits(): 1 and up to seven zeros. *)
Definition stop_bits (k : nat) : list bool := true :: repeat false k.
(** The RBSP of a syntax structure: its bits and the trailing bits up to a byte boundary. *)
Definition rbsp (l : list bool) : list bool := l ++ stop_bits (7 - length l mod 8).

(** Whole bytes at the front of a bit string (an incomplete last byte is dropped). *)
Fixpoint octets (l : list bool) : list N :=
  match l with
  | a :: b :: c :: d :: e :: f :: g :: h :: t => bval [a; b; c; d; e; f; g; h] :: octets t
  | _ => []
  end.
Definition be32 (a b c d : N) : N := 2 ^ 24 * a + 2 ^ 16 * b + 2 ^ 8 * c + d.
(** Big-endian 32-bit words of a byte string, the last one zero padded. *)
Fixpoint words32 (l : list N) : list N :=
  match l with
  | a :: b :: c :: d :: t => be32 a b c d :: words32 t
  | [a; b; c] => [be32 a b c 0]
  | [a; b] => [be32 a b 0 0]
  | [a] => [be32 a 0 0 0]
  | [] => []
  end.
(** One's-complement (end-around carry) 32-bit addition. *)
Definition oc_add (a b : N) : N := if a + b <? 2 ^ 32 then a + b else a + b - 2 ^ 32 + 1.
Definition oc_sum (l : list N) : N := fold_left oc_add l 0.
Definition bytes_of_u32 (v : N) : list N :=
  [v / 2 ^ 24; v / 2 ^ 16 mod 256; v / 2 ^ 8 mod 256; v mod 256].
