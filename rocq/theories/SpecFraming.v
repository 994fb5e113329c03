(** Specification of NAL unit framing, independent of the model. *)
From Coq Require Import NArith List Bool.
From Verif Require Import Base.
Import ListNotations.
Open Scope N_scope.

(** The bytes [l[a], ..., l[a+n-1]]. *)
Definition slice (a n : N) (l : list N) : list N := firstn (N.to_nat n) (skipn (N.to_nat a) l).

(** A start code 00 00 01 at offset [p], followed by at least one byte. *)
Definition start_code_at (l : list N) (p : N) : Prop :=
  exists a x b, l = a ++ [0; 0; 1] ++ x :: b /\ N.of_nat (length a) = p.
(** The byte before offset [p] exists and is zero. *)
Definition zero_before (l : list N) (p : N) : Prop :=
  exists a b, l = a ++ 0 :: b /\ N.of_nat (length a) + 1 = p.

(** Byte strings with Annex B start codes: (4-byte code?, NAL unit). *)
Definition code (long : bool) : list N := if long then [0; 0; 0; 1] else [0; 0; 1].
Definition annexb (us : list (bool * list N)) : list N :=
  flat_map (fun u => code (fst u) ++ snd u) us.
(** A NAL unit as the standard requires it: non-empty, no 00 00 00 or 00 00 01 inside,
    last byte not zero. *)
Definition nal_bytes (u : list N) : Prop :=
  u <> [] /\ (forall a x b, u = a ++ 0 :: 0 :: x :: b -> 1 < x) /\
  (forall a, u <> a ++ [0]).

(** Big-endian length fields. *)
Fixpoint be_bytes (n : nat) (v : N) : list N :=
  match n with
  | O => []
  | S k => v / 2 ^ (8 * N.of_nat k) mod 256 :: be_bytes k v
  end.
Definition framed (n : nat) (us : list (list N)) : list N :=
  flat_map (fun u => be_bytes n (N.of_nat (length u)) ++ u) us.
(** No complete unit starts here: too short for the length field, or the field asks for
    more than there is, or (when [nz]) for nothing. *)
Definition stuck (n : nat) (nz : bool) (t : list N) : Prop :=
  (length t < n)%nat \/
  exists v b, t = be_bytes n v ++ b /\ v < 2 ^ (8 * N.of_nat n) /\
    (N.of_nat (length b) < v \/ nz = true /\ v = 0).
(** Offset and size of every unit of [framed n us] when it starts at [o]. *)
Fixpoint unit_places (n : nat) (o : N) (us : list (list N)) : list (N * N) :=
  match us with
  | [] => []
  | u :: t => (o + N.of_nat n, N.of_nat (length u)) ::
              unit_places n (o + N.of_nat n + N.of_nat (length u)) t
  end.
(** Hand every unit to [parse] in order; keep what it returned. *)
Fixpoint visit_all {A S} (parse : N -> N -> S -> res A * S) (tag : N)
  (places : list (N * N)) (s : S) : res (list (A * N * N)) * S :=
  match places with
  | [] => (Ok [], s)
  | (i, n) :: t =>
      match parse i n s with
      | (Ok a, s') =>
          match visit_all parse tag t s' with
          | (Ok l, s'') => (Ok ((a, i, tag) :: l), s'')
          | r => r
          end
      | (Null, s') => visit_all parse tag t s'
      | (UB k, s') => (UB k, s') | (Abort, s') => (Abort, s') | (NoFuel, s') => (NoFuel, s')
      end
  end.
