(** What a BitBuffer looks like from outside: its position, the bits in front of it,
    and the states a program can bring it into. *)
From Coq Require Import NArith ZArith List Bool.
From Verif Require Import SpecBits Base BitBuffer.
Import ListNotations.
Open Scope N_scope.

(** Position in bits; GetCurrentOffset reports (bb_byte, bb_bit). *)
Definition bb_pos (b : bb) : nat := N.to_nat (8 * bb_byte b + bb_bit b).
(** The bits not yet read. *)
Definition bb_rem (b : bb) : list bool := skipn (bb_pos b) (bits_of (bb_bytes b)).

(** The public operations of a BitBuffer with their arguments. *)
Inductive reader_op :=
| OReadUInt8 | OReadUInt16 | OReadUInt32
| OReadBits (n : N) | OReadBits64 (n : N) | OPeekBits (n : N) | OPeekBits64 (n : N)
| OConsumeBytes (n : N) | OConsumeBits (n : N)
| OReadNonSymmetric (n : N) | OReadUe | OReadSe
| OSeek (byte bit : N).

(** Arguments lie in their C++ types: size_t, or uint32_t for ReadNonSymmetric. *)
Definition op_ok (o : reader_op) : Prop :=
  match o with
  | OReadBits n | OReadBits64 n | OPeekBits n | OPeekBits64 n
  | OConsumeBytes n | OConsumeBits n => n < 2 ^ 64
  | OReadNonSymmetric n => n < 2 ^ 32
  | OSeek y t => y < 2 ^ 64 /\ t < 2 ^ 64
  | _ => True
  end.

Definition as_z {A S} (f : A -> Z) (r : res A * S) : res Z * S :=
  match r with
  | (Ok a, s) => (Ok (f a), s) | (Null, s) => (Null, s) | (UB k, s) => (UB k, s)
  | (Abort, s) => (Abort, s) | (NoFuel, s) => (NoFuel, s)
  end.
Definition unit_z (_ : unit) : Z := 0%Z.

Definition run_op (o : reader_op) (b : bb) : res Z * bb :=
  match o with
  | OReadUInt8 => as_z Z.of_N (ReadUInt8 b)
  | OReadUInt16 => as_z Z.of_N (ReadUInt16 b)
  | OReadUInt32 => as_z Z.of_N (ReadUInt32 b)
  | OReadBits n => as_z Z.of_N (ReadBits n b)
  | OReadBits64 n => as_z Z.of_N (ReadBits64 n b)
  | OPeekBits n => as_z Z.of_N (PeekBits n b, b)
  | OPeekBits64 n => as_z Z.of_N (PeekBits64 n b, b)
  | OConsumeBytes n => as_z unit_z (ConsumeBytes n b)
  | OConsumeBits n => as_z unit_z (ConsumeBits n b)
  | OReadNonSymmetric n => as_z Z.of_N (ReadNonSymmetric n b)
  | OReadUe => as_z Z.of_N (ReadExponentialGolomb b)
  | OReadSe => as_z (fun z => z) (ReadSignedExponentialGolomb b)
  | OSeek y t => as_z unit_z (Seek y t b)
  end.

(** The buffers a program can hold: constructed over some bytes (an object has fewer
    than 2^61 bytes), then any operations, whatever they returned. *)
Inductive reachable : bb -> Prop :=
| reach_new : forall asserts bytes b,
    bytes_ok bytes -> N.of_nat (length bytes) < 2 ^ 61 ->
    bb_new asserts bytes = Ok b -> reachable b
| reach_op : forall b o r b',
    reachable b -> op_ok o -> run_op o b = (r, b') -> reachable b'.

(** Any sequence of operations, results ignored. *)
Definition run_ops (l : list reader_op) (b : bb) : bb :=
  fold_left (fun b o => snd (run_op o b)) l b.
