(** Model of h264nal::BitBuffer (src/rtc_common.cc, include/rtc_common.h). *)
From Coq Require Import NArith ZArith List Bool.
From Verif Require Import Base.
Import ListNotations.
Open Scope N_scope.
Open Scope m_scope.

(** include/rtc_common.h BitBuffer members: bytes_ with byte_count_ (the list),
    byte_offset_, bit_offset_.  [bb_asserts] records whether the library was built
    with assert() enabled (RTC_CHECK/RTC_DCHECK, rtc_common.cc:23-28). *)
Record bb := mkbb {
  bb_bytes : list N;
  bb_byte : N;
  bb_bit : N;
  bb_asserts : bool
}.

(** byte_count_ *)
Definition bb_count (b : bb) : N := N.of_nat (length (bb_bytes b)).

(** rtc_common.cc:80-84 BitBuffer::BitBuffer *)
Definition bb_new (asserts : bool) (bytes : list N) : res bb :=
  dcheck asserts (N.of_nat (length bytes) <=? 2 ^ 32 - 1)
    (Ok (mkbb bytes 0 0 asserts)).

(** bytes_[i]: a fetch outside the buffer is undefined. *)
Definition fetch (bytes : list N) (i : N) : res N :=
  match nth_error bytes (N.to_nat i) with
  | Some v => Ok v
  | None => UB OutOfBounds
  end.

(** rtc_common.cc:31-34 LowestBits.  [1 << bit_count] is an int shift. *)
Definition LowestBits (asserts : bool) (byte bit_count : N) : res N :=
  dcheck asserts (bit_count <=? 8)
    (if 31 <=? bit_count then UB BadShift
     else Ok (u8 (N.land byte (N.shiftl 1 bit_count - 1)))).

(** rtc_common.cc:38-45 HighestBits *)
Definition HighestBits (asserts : bool) (byte bit_count : N) : res N :=
  dcheck asserts (bit_count <=? 8)
    (let shift := u8 (u8 (8 + (2 ^ 8 - u8 bit_count))) in
     if 24 <=? shift then UB BadShift
     else let mask := u8 (N.shiftl 255 shift) in
          Ok (u8 (N.shiftr (N.land byte mask) shift))).

(** rtc_common.cc:71-78 CountBits: number of significant bits. The loop
    [while (val != 0) { bit_count++; val >>= 1; }] on a uint64_t. *)
Fixpoint CountBits_loop (fuel : nat) (val : N) (bit_count : N) : res N :=
  if val =? 0 then Ok bit_count
  else match fuel with
       | O => NoFuel
       | S f => CountBits_loop f (N.shiftr val 1) (bit_count + 1)
       end.
Definition CountBits (val : N) : res N := CountBits_loop 64 val 0.

(** rtc_common.cc:86-88 RemainingBitCount *)
Definition RemainingBitCount (b : bb) : N :=
  sub64 (u64 (sub64 (bb_count b) (bb_byte b) * 8)) (bb_bit b).

(** rtc_common.cc:143-146 / 179-182 and 149-153 / 185-189: the whole-byte loop of
    PeekBits and its tail.  [w] is the width of the result type (32 or 64). *)
Fixpoint Peek_loop (fuel : nat) (w : N) (a : bool) (bytes : list N)
    (idx n bits : N) : res N :=
  if 8 <=? n then
    match fuel with
    | O => NoFuel
    | S f => rbind (fetch bytes idx) (fun v =>
               Peek_loop f w a bytes (idx + 1) (n - 8)
                 ((N.lor (N.shiftl bits 8) v) mod 2 ^ w))
    end
  else if 0 <? n then
    let bits1 := N.shiftl bits n mod 2 ^ w in
    rbind (fetch bytes idx) (fun v =>
    rbind (HighestBits a v n) (fun h => Ok (N.lor bits1 h)))
  else Ok bits.

(** rtc_common.cc:114-155 (w = 32) and 157-191 (w = 64) PeekBits *)
Definition PeekBitsW (w : N) (bit_count : N) (b : bb) : res N :=
  if (bit_count =? 0) || (w <? bit_count) then Null
  else if RemainingBitCount b <? bit_count then Null
  else
    let remaining_bits_in_current_byte := sub64 8 (bb_bit b) in
    rbind (fetch (bb_bytes b) (bb_byte b)) (fun first =>
    rbind (LowestBits (bb_asserts b) first remaining_bits_in_current_byte)
      (fun bits =>
    if bit_count <? remaining_bits_in_current_byte then
      HighestBits (bb_asserts b) (u8 bits) (u64 (bb_bit b + bit_count))
    else
      Peek_loop 8 w (bb_asserts b) (bb_bytes b) (bb_byte b + 1)
        (bit_count - remaining_bits_in_current_byte) bits)).

Definition PeekBits : N -> bb -> res N := PeekBitsW 32.
Definition PeekBits64 : N -> bb -> res N := PeekBitsW 64.

(** rtc_common.cc:206-214 ConsumeBits *)
Definition ConsumeBits (bit_count : N) (b : bb) : res unit * bb :=
  if RemainingBitCount b <? bit_count then (Null, b)
  else
    let t := u64 (bb_bit b + bit_count) in
    (Ok tt, mkbb (bb_bytes b) (u64 (bb_byte b + t / 8)) (t mod 8) (bb_asserts b)).

(** rtc_common.cc:201-204 ConsumeBytes; SIZE_MAX is 2^64-1 *)
Definition ConsumeBytes (byte_count : N) (b : bb) : res unit * bb :=
  if (2 ^ 64 - 1) / 8 <? byte_count then (Null, b)
  else ConsumeBits (u64 (byte_count * 8)) b.

(** rtc_common.cc:193-199 ReadBits (both overloads) *)
Definition ReadBitsW (w : N) (bit_count : N) : bb -> res N * bb :=
  fun b => match PeekBitsW w bit_count b with
           | Ok v => match ConsumeBits bit_count b with
                     | (Ok _, b') => (Ok v, b')
                     | (Null, b') => (Null, b')
                     | (UB k, b') => (UB k, b')
                     | (Abort, b') => (Abort, b')
                     | (NoFuel, b') => (NoFuel, b')
                     end
           | r => (r, b)
           end.
Definition ReadBits : N -> bb -> res N * bb := ReadBitsW 32.
Definition ReadBits64 : N -> bb -> res N * bb := ReadBitsW 64.

(** rtc_common.cc:90-98 ReadUInt8 *)
Definition ReadUInt8 : bb -> res N * bb :=
  v <- ReadBits 8 ;;
  fun b => (dcheck (bb_asserts b) (v <=? 255) (Ok (u8 v)), b).
(** rtc_common.cc:100-108 ReadUInt16 *)
Definition ReadUInt16 : bb -> res N * bb :=
  v <- ReadBits 16 ;;
  fun b => (dcheck (bb_asserts b) (v <=? 65535) (Ok (u16 v)), b).
(** rtc_common.cc:110-112 ReadUInt32 *)
Definition ReadUInt32 : bb -> res N * bb := ReadBits 32.

(** rtc_common.cc:290-296 GetCurrentOffset (with non-null out parameters) *)
Definition GetCurrentOffset (b : bb) : N * N := (bb_byte b, bb_bit b).

(** rtc_common.cc:298-306 Seek *)
Definition Seek (byte_offset bit_offset : N) (b : bb) : res unit * bb :=
  if (bb_count b <? byte_offset) || (7 <? bit_offset)
     || ((byte_offset =? bb_count b) && (0 <? bit_offset))
  then (Null, b)
  else (Ok tt, mkbb (bb_bytes b) byte_offset bit_offset (bb_asserts b)).

(** rtc_common.cc:248-251: count leading zero bits. *)
Fixpoint ueg_zeros (fuel : nat) (zero_bit_count : N) (b : bb) : res N * bb :=
  match PeekBits 1 b with
  | Ok v => if v =? 0 then
              match fuel with
              | O => (NoFuel, b)
              | S f => ueg_zeros f (zero_bit_count + 1) (snd (ConsumeBits 1 b))
              end
            else (Ok zero_bit_count, b)
  | Null => (Ok zero_bit_count, b)
  | UB k => (UB k, b)
  | Abort => (Abort, b)
  | NoFuel => (NoFuel, b)
  end.

(** rtc_common.cc:261: RTC_CHECK(Seek(...)), that is assert(Seek(...)).  With asserts
    compiled out the Seek is not evaluated at all. *)
Definition check_seek (byte_offset bit_offset : N) (b : bb) : res unit * bb :=
  if bb_asserts b then
    match Seek byte_offset bit_offset b with
    | (Ok _, b') => (Ok tt, b')
    | (Null, b') => (Abort, b')
    | (r, b') => (r, b')
    end
  else (Ok tt, b).

(** rtc_common.cc:239-266 ReadExponentialGolomb *)
Definition ReadExponentialGolomb : bb -> res N * bb :=
  fun b0 =>
    (zero_bit_count <- ueg_zeros (8 * length (bb_bytes b0)) 0 ;;
     (fun b =>
        (* rtc_common.cc:254 RTC_DCHECK(!PeekBits(1, peeked_bit) || peeked_bit == 1) *)
        match (if bb_asserts b then
                 match PeekBits 1 b with
                 | Ok v => if v =? 1 then Ok tt else Abort
                 | Null => Ok tt
                 | UB k => UB k | Abort => Abort | NoFuel => NoFuel
                 end
               else Ok tt) with
        | Ok _ =>
          let value_bit_count := zero_bit_count + 1 in
          if 32 <? value_bit_count then
            (check_seek (bb_byte b0) (bb_bit b0) ;;; sfail) b
          else
            match ReadBits value_bit_count b with
            | (Ok v, b') => (Ok (sub32 v 1), b')
            | (Null, b') => (check_seek (bb_byte b0) (bb_bit b0) ;;; sfail) b'
            | (r, b') => (r, b')
            end
        | Null => (Null, b)
        | UB k => (UB k, b) | Abort => (Abort, b) | NoFuel => (NoFuel, b)
        end)) b0.

(** rtc_common.cc:282-286: codeNum to signed value. *)
Definition se_of_code (u : N) : res Z :=
  if N.land u 1 =? 0 then chk_i32 (- to_i32 (u / 2))%Z
  else Ok (to_i32 (u32 (u + 1) / 2)).

(** rtc_common.cc:268-288 ReadSignedExponentialGolomb *)
Definition ReadSignedExponentialGolomb : bb -> res Z * bb :=
  u <- ReadExponentialGolomb ;; sres (se_of_code u).

(** rtc_common.cc:216-237 ReadNonSymmetric.  [uint32_t{1} << count_bits] is undefined
    for count_bits >= 32; count_bits - 1 is a size_t subtraction. *)
Definition ReadNonSymmetric (num_values : N) : bb -> res N * bb :=
  fun b =>
    (count_bits <- sres (dcheck (bb_asserts b)
                           ((0 <? num_values) && (num_values <=? 2 ^ 31))
                           (CountBits num_values)) ;;
     num_min_bits_values <- sres (if 32 <=? count_bits then UB BadShift
                                  else Ok (sub32 (u32 (N.shiftl 1 count_bits)) num_values)) ;;
     val <- ReadBits (sub64 count_bits 1) ;;
     if val <? num_min_bits_values then sret val
     else
       extra_bit <- ReadBits 1 ;;
       sret (sub32 (u32 (u32 (N.shiftl val 1) + extra_bit)) num_min_bits_values)) b.
