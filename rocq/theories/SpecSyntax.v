(** What it means for a parser to decode a syntax structure. *)
From Coq Require Import NArith ZArith List Bool.
From Verif Require Import SpecBits Base BitBuffer SpecReader.
Import ListNotations.
Open Scope N_scope.

(** [b'] is the buffer [b] after exactly the bits [c] in front of it have been read. *)
Definition consumed (b : bb) (c : list bool) (b' : bb) : Prop :=
  bb_rem b = c ++ bb_rem b' /\
  bb_bytes b' = bb_bytes b /\ bb_asserts b' = bb_asserts b /\ bb_bit b' < 8 /\
  bb_pos b' = (bb_pos b + length c)%nat.

(** [p] decodes the values [ok], whose bits are [enc]: on any buffer it never crashes, it
    accepts exactly when the bits ahead start with the encoding of such a value, it then
    returns that value and has read exactly those bits. *)
Definition decodes {A} (p : bb -> res A * bb) (ok : A -> Prop) (enc : A -> list bool) : Prop :=
  forall b, reachable b ->
  (forall v rest, ok v -> bb_rem b = enc v ++ rest ->
     exists b', p b = (Ok v, b') /\ consumed b (enc v) b' /\ bb_rem b' = rest) /\
  (forall v b', p b = (Ok v, b') -> ok v /\ consumed b (enc v) b') /\
  ((exists v b', p b = (Ok v, b')) \/ (exists b', p b = (Null, b'))).

(** No outcome but a value or nullptr, and the buffer stays within its bytes. *)
Definition never_crashes {A} (p : bb -> res A * bb) : Prop :=
  forall b, reachable b -> exists r b', p b = (r, b') /\
    (r = Null \/ exists v, r = Ok v) /\
    bb_bytes b' = bb_bytes b /\ (bb_pos b <= bb_pos b' <= bb_pos b + length (bb_rem b))%nat.

(** The same for a parser that reports a value [val e] computed from the syntax [e] it has
    read. *)
Definition decodes_as {A E} (p : bb -> res A * bb) (ok : E -> Prop) (enc : E -> list bool)
  (val : E -> A) : Prop :=
  forall b, reachable b ->
  (forall e rest, ok e -> bb_rem b = enc e ++ rest ->
     exists b', p b = (Ok (val e), b') /\ consumed b (enc e) b' /\ bb_rem b' = rest) /\
  (forall v b', p b = (Ok v, b') -> exists e, ok e /\ v = val e /\ consumed b (enc e) b') /\
  ((exists v b', p b = (Ok v, b')) \/ (exists b', p b = (Null, b'))).
