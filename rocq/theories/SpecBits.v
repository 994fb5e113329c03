(** Specification of bit strings, independent of the model.
    A byte buffer is read as the string of its bits, most significant bit of each
    byte first; numbers are big-endian; ue(v)/se(v) are the Exp-Golomb codes of
    Rec. ITU-T H.264 section 9.1. *)
From Coq Require Import NArith ZArith List Bool.
Import ListNotations.
Open Scope N_scope.

(** The eight bits of a byte, most significant first. *)
Definition byte_bits (b : N) : list bool :=
  map (N.testbit b) [7; 6; 5; 4; 3; 2; 1; 0].

(** All bits of a byte string. *)
Definition bits_of (bs : list N) : list bool := flat_map byte_bits bs.

(** Unsigned big-endian value of a bit string. *)
Fixpoint bval (l : list bool) : N :=
  match l with
  | [] => 0
  | b :: t => (if b then 2 ^ N.of_nat (length t) else 0) + bval t
  end.

(** The [n] low bits of [v], most significant first: the u(n) code of [v]. *)
Fixpoint nbits (n : nat) (v : N) : list bool :=
  match n with
  | O => []
  | S k => N.testbit v (N.of_nat k) :: nbits k v
  end.

(** u(n) with an [N] width. *)
Definition u_bits (n v : N) : list bool := nbits (N.to_nat n) v.

(** ue(v), section 9.1: leading zeros, then v+1 in binary. *)
Definition ue_bits (v : N) : list bool :=
  let k := N.to_nat (N.log2 (v + 1)) in
  repeat false k ++ nbits (S k) (v + 1).

(** se(v), section 9.1.1: positive v has codeNum 2v-1, others -2v. *)
Definition se_code (v : Z) : N :=
  if (0 <? v)%Z then Z.to_N (2 * v - 1) else Z.to_N (- 2 * v).
Definition se_bits (v : Z) : list bool := ue_bits (se_code v).

(** A byte string really is one. *)
Definition bytes_ok (bs : list N) : Prop := Forall (fun b => b < 256) bs.

(** ns(n): the truncated binary code of [v] in 0..n-1.  With w bits needed for n and
    m = 2^w - n unused long codewords, the first m values take w-1 bits. *)
Definition ns_width (n : N) : N := N.log2 n + 1.
Definition ns_short (n : N) : N := 2 ^ ns_width n - n.
Definition ns_bits (n v : N) : list bool :=
  if v <? ns_short n then u_bits (ns_width n - 1) v
  else u_bits (ns_width n) (v + ns_short n).
