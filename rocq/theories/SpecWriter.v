(** What writing bits at a position means, and the writer operations. *)
From Coq Require Import NArith ZArith List Bool.
From Verif Require Import SpecBits Base BitBuffer Writer SpecReader.
Import ListNotations.
Open Scope N_scope.

(** [s] with the bits at p, p+1, ... replaced by [l]. *)
Definition patch (p : nat) (l s : list bool) : list bool :=
  firstn p s ++ l ++ skipn (p + length l) s.

(** [b'] is [b] after overwriting the next bits by [l]: everything else is unchanged
    and the position is just behind them. *)
Definition wrote (b : bb) (l : list bool) (b' : bb) : Prop :=
  bits_of (bb_bytes b') = patch (bb_pos b) l (bits_of (bb_bytes b)) /\
  length (bb_bytes b') = length (bb_bytes b) /\
  bb_pos b' = (bb_pos b + length l)%nat /\ bb_bit b' < 8 /\
  bb_asserts b' = bb_asserts b /\ bytes_ok (bb_bytes b').

(** Writer operations. *)
Inductive writer_op :=
| WBits (v n : N) | WUInt8 (v : N) | WUInt16 (v : N) | WUInt32 (v : N)
| WUe (v : N) | WSe (v : Z) | WNs (v n : N).

Definition run_wop (o : writer_op) : bb -> res unit * bb :=
  match o with
  | WBits v n => WriteBits v n
  | WUInt8 v => WriteUInt8 v
  | WUInt16 v => WriteUInt16 v
  | WUInt32 v => WriteUInt32 v
  | WUe v => WriteExponentialGolomb v
  | WSe v => WriteSignedExponentialGolomb v
  | WNs v n => WriteNonSymmetric v n
  end.

(** Arguments in their C++ types. *)
Definition wop_typed (o : writer_op) : Prop :=
  match o with
  | WBits v n => v < 2 ^ 64 /\ n < 2 ^ 64
  | WUInt8 v => v < 2 ^ 8 | WUInt16 v => v < 2 ^ 16 | WUInt32 v => v < 2 ^ 32
  | WUe v => v < 2 ^ 32
  | WSe v => (- 2 ^ 31 <= v < 2 ^ 31)%Z
  | WNs v n => v < 2 ^ 32 /\ n < 2 ^ 32
  end.

(** Arguments for which the operation is meaningful. *)
Definition wop_ok (o : writer_op) : Prop :=
  wop_typed o /\
  match o with
  | WBits v n => 1 <= n <= 64
  | WUe v => v <= 2 ^ 32 - 2
  | WSe v => (- (2 ^ 31 - 1) <= v)%Z
  | WNs v n => 2 <= n < 2 ^ 31 /\ v < n
  | _ => True
  end.

(** The codeword each operation stands for. *)
Definition wop_code (o : writer_op) : list bool :=
  match o with
  | WBits v n => u_bits n v
  | WUInt8 v => u_bits 8 v | WUInt16 v => u_bits 16 v | WUInt32 v => u_bits 32 v
  | WUe v => ue_bits v
  | WSe v => se_bits v
  | WNs v n => ns_bits n v
  end.

(** The corresponding read and the value it should give. *)
Definition wop_read (o : writer_op) : reader_op :=
  match o with
  | WBits v n => if n <=? 32 then OReadBits n else OReadBits64 n
  | WUInt8 _ => OReadUInt8 | WUInt16 _ => OReadUInt16 | WUInt32 _ => OReadUInt32
  | WUe _ => OReadUe | WSe _ => OReadSe | WNs _ n => OReadNonSymmetric n
  end.
Definition wop_value (o : writer_op) : Z :=
  match o with
  | WBits v n => Z.of_N (v mod 2 ^ n)
  | WUInt8 v | WUInt16 v | WUInt32 v | WUe v | WNs v _ => Z.of_N v
  | WSe v => v
  end.

(** Run a list of writes, all of which must return true. *)
Fixpoint run_wops (l : list writer_op) (b : bb) : option bb :=
  match l with
  | [] => Some b
  | o :: t => match run_wop o b with (Ok _, b') => run_wops t b' | _ => None end
  end.
(** Run a list of reads, all of which must return true. *)
Fixpoint run_reads (l : list reader_op) (b : bb) : option (list Z * bb) :=
  match l with
  | [] => Some ([], b)
  | o :: t =>
      match run_op o b with
      | (Ok v, b') => match run_reads t b' with
                      | Some (vs, b'') => Some (v :: vs, b'')
                      | None => None
                      end
      | _ => None
      end
  end.

(** Writers a program can hold: constructed, then any reads, seeks and writes. *)
Inductive wreachable : bb -> Prop :=
| wreach_new : forall asserts bytes b,
    bytes_ok bytes -> N.of_nat (length bytes) < 2 ^ 61 ->
    bb_new asserts bytes = Ok b -> wreachable b
| wreach_op : forall b o r b',
    wreachable b -> op_ok o -> run_op o b = (r, b') -> wreachable b'
| wreach_wop : forall b o r b',
    wreachable b -> wop_typed o -> run_wop o b = (r, b') -> wreachable b'.
