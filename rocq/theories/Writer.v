(** Model of h264nal::BitBufferWriter (src/rtc_common.cc:308-415).  The writer is a
    [bb] whose bytes change; writable_bytes_ and bytes_ are the same array. *)
From Coq Require Import NArith ZArith List Bool.
From Verif Require Import Base BitBuffer.
Import ListNotations.
Open Scope N_scope.
Open Scope m_scope.

(** *p = v at index i of the array; outside it is undefined. *)
Fixpoint update (bytes : list N) (i : nat) (v : N) : list N :=
  match bytes, i with
  | [], _ => []
  | _ :: t, O => v :: t
  | x :: t, S j => x :: update t j v
  end.
Definition store (bytes : list N) (i v : N) : res (list N) :=
  if i <? N.of_nat (length bytes) then Ok (update bytes (N.to_nat i) v)
  else UB OutOfBounds.

(** rtc_common.cc:48 HighestByte *)
Definition HighestByte (val : N) : N := u8 (N.shiftr val 56).

(** rtc_common.cc:53-68 WritePartialByte.  [target & ~mask] on ints. *)
Definition WritePartialByte (asserts : bool) (source source_bit_count target target_bit_offset : N)
  : res N :=
  dcheck asserts (target_bit_offset <? 8)
  (dcheck asserts (source_bit_count <? 9)
  (dcheck asserts (source_bit_count <=? sub64 8 target_bit_offset)
    (let shift := sub64 8 source_bit_count in
     if 24 <=? shift then UB BadShift
     else if 32 <=? target_bit_offset then UB BadShift
     else
       let mask := u8 (N.shiftr (u8 (N.shiftl 255 shift)) target_bit_offset) in
       Ok (u8 (N.lor (N.ldiff target mask) (N.shiftr source target_bit_offset)))))).

(** rtc_common.cc:352-356: whole bytes; 360-362: last partial byte. *)
Fixpoint Write_loop (fuel : nat) (asserts : bool) (bytes : list N) (idx val bit_count : N)
  : res (list N) :=
  if 8 <=? bit_count then
    match fuel with
    | O => NoFuel
    | S f => rbind (store bytes idx (HighestByte val)) (fun bytes' =>
             Write_loop f asserts bytes' (idx + 1) (u64 (N.shiftl val 8)) (bit_count - 8))
    end
  else if 0 <? bit_count then
    rbind (fetch bytes idx) (fun t =>
    rbind (WritePartialByte asserts (HighestByte val) bit_count t 0) (fun v =>
    store bytes idx v))
  else Ok bytes.

(** rtc_common.cc:323-366 WriteBits *)
Definition WriteBits (val bit_count : N) (b : bb) : res unit * bb :=
  if RemainingBitCount b <? bit_count then (Null, b)
  else
    let shift := sub64 64 bit_count in
    if 64 <=? shift then (UB BadShift, b)
    else
      let val := u64 (N.shiftl val shift) in
      let remaining_bits_in_current_byte := sub64 8 (bb_bit b) in
      let bits_in_first_byte := N.min bit_count remaining_bits_in_current_byte in
      match
        rbind (fetch (bb_bytes b) (bb_byte b)) (fun t =>
        rbind (WritePartialByte (bb_asserts b) (HighestByte val) bits_in_first_byte t (bb_bit b))
          (fun v =>
        rbind (store (bb_bytes b) (bb_byte b) v) (fun bytes1 =>
        if bit_count <=? remaining_bits_in_current_byte then Ok bytes1
        else
          Write_loop 8 (bb_asserts b) bytes1 (bb_byte b + 1)
            (u64 (N.shiftl val bits_in_first_byte)) (bit_count - bits_in_first_byte))))
      with
      | Ok bytes' =>
          ConsumeBits bit_count (mkbb bytes' (bb_byte b) (bb_bit b) (bb_asserts b))
      | Null => (Null, b)
      | UB k => (UB k, b)
      | Abort => (Abort, b)
      | NoFuel => (NoFuel, b)
      end.

(** rtc_common.cc:311-321 *)
Definition WriteUInt8 (val : N) := WriteBits val 8.
Definition WriteUInt16 (val : N) := WriteBits val 16.
Definition WriteUInt32 (val : N) := WriteBits val 32.

(** rtc_common.cc:368-377 WriteNonSymmetric *)
Definition WriteNonSymmetric (val num_values : N) (b : bb) : res unit * bb :=
  (count_bits <- sres (dcheck (bb_asserts b) (val <? num_values)
                      (dcheck (bb_asserts b) (num_values <=? 2 ^ 31)
                         (CountBits num_values))) ;;
   num_min_bits_values <- sres (if 32 <=? count_bits then UB BadShift
                                else Ok (sub32 (u32 (N.shiftl 1 count_bits)) num_values)) ;;
   if val <? num_min_bits_values then WriteBits val (sub64 count_bits 1)
   else WriteBits (u32 (val + num_min_bits_values)) count_bits) b.

(** rtc_common.cc:379-387 SizeNonSymmetricBits *)
Definition SizeNonSymmetricBits (asserts : bool) (val num_values : N) : res N :=
  dcheck asserts (val <? num_values)
  (dcheck asserts (num_values <=? 2 ^ 31)
    (rbind (CountBits num_values) (fun count_bits =>
       if 32 <=? count_bits then UB BadShift
       else
         let num_min_bits_values := sub32 (u32 (N.shiftl 1 count_bits)) num_values in
         Ok (if val <? num_min_bits_values then sub64 count_bits 1 else count_bits)))).

(** rtc_common.cc:389-401 WriteExponentialGolomb *)
Definition WriteExponentialGolomb (val : N) (b : bb) : res unit * bb :=
  if val =? 2 ^ 32 - 1 then (Null, b)
  else
    let val_to_encode := u64 (val + 1) in
    (c <- sres (CountBits val_to_encode) ;;
     WriteBits val_to_encode (sub64 (u64 (c * 2)) 1)) b.

(** rtc_common.cc:403-415 WriteSignedExponentialGolomb *)
Definition WriteSignedExponentialGolomb (val : Z) (b : bb) : res unit * bb :=
  if (val =? 0)%Z then WriteExponentialGolomb 0 b
  else if (0 <? val)%Z then
    let signed_val := of_i32 val in
    WriteExponentialGolomb (sub32 (u32 (signed_val * 2)) 1) b
  else if (val =? - 2 ^ 31)%Z then (Null, b)
  else
    (m <- sres (chk_i32 (- val)%Z) ;;
     WriteExponentialGolomb (u32 (of_i32 m * 2))) b.
