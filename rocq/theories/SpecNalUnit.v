(** Specification vocabulary for NAL units, bitstreams and histories; independent of the
    model. *)
From Coq Require Import NArith List Bool.
From Verif Require Import SpecBits Base SpecFraming.
Import ListNotations.
Open Scope N_scope.

(** Inputs: a byte string that an object can hold; 4 GiB or less in debug builds, where a
    BitBuffer asserts that its size fits 32 bits. *)
Definition fits (asserts : bool) (bytes : list N) : Prop :=
  bytes_ok bytes /\ N.of_nat (length bytes) < 2 ^ 61 /\
  (asserts = true -> N.of_nat (length bytes) < 2 ^ 32).

(** nal_unit_type of a NAL unit given by its bytes. *)
Definition type_of (u : list N) : N := hd 0 u mod 32.

(** Which NAL unit headers are read (bytes after removal of emulation prevention): one byte;
    or four bytes for types 14 and 20 with svc_extension_flag set. *)
Definition header_read (r : list N) : Prop :=
  r <> [] /\ type_of r <> 21 /\
  (type_of r = 14 \/ type_of r = 20 -> (4 <= length r)%nat /\ 128 <= nth 1 r 0).
(** Which announce the MVC or 3D-AVC extension. *)
Definition header_other_ext (r : list N) : Prop :=
  (2 <= length r)%nat /\
  (type_of r = 21 \/ (type_of r = 14 \/ type_of r = 20) /\ nth 1 r 0 < 128).

(** Parse units in order: [parse] gets the bytes of a unit and what the previous calls left.
    A result is kept with the offset and the length of its unit; a rejected unit leaves no
    result. *)
Inductive runs {A S} (parse : list N -> S -> res A * S)
  : list (N * list N) -> S -> list (A * N * N) -> S -> Prop :=
| runs_nil : forall s, runs parse [] s [] s
| runs_kept : forall o u t s a s' l s'', parse u s = (Ok a, s') -> runs parse t s' l s'' ->
    runs parse ((o, u) :: t) s ((a, o, N.of_nat (length u)) :: l) s''
| runs_dropped : forall o u t s s' l s'', parse u s = (Null, s') -> runs parse t s' l s'' ->
    runs parse ((o, u) :: t) s l s''.

(** Where the units of [annexb us] start, when it starts at offset [o]. *)
Fixpoint annexb_units (o : N) (us : list (bool * list N)) : list (N * list N) :=
  match us with
  | [] => []
  | (long, u) :: t =>
      let p := o + (if long then 4 else 3) in
      (p, u) :: annexb_units (p + N.of_nat (length u)) t
  end.

(** The same for [framed n us]. *)
Fixpoint framed_units (n : nat) (o : N) (us : list (list N)) : list (N * list N) :=
  match us with
  | [] => []
  | u :: t => (o + N.of_nat n, u) :: framed_units n (o + N.of_nat n + N.of_nat (length u)) t
  end.

(** The last element with a property. *)
Fixpoint last_such {A} (f : A -> bool) (l : list A) : option A :=
  match l with
  | [] => None
  | x :: t => match last_such f t with
              | Some y => Some y
              | None => if f x then Some x else None
              end
  end.
(** The non-null pointers among the results. *)
Definition somes {A B} (f : A -> option B) (l : list A) : list B :=
  flat_map (fun a => match f a with Some b => [b] | None => [] end) l.
Definition or_else {A} (a b : option A) : option A := match a with Some _ => a | None => b end.
