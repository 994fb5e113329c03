(** Model of the RBSP helpers of src/h264_common.cc. *)
From Coq Require Import NArith ZArith List Bool.
From Verif Require Import Base BitBuffer.
Import ListNotations.
Open Scope N_scope.
Open Scope m_scope.

(** h264_common.cc:229-245: the loop of UnescapeRbsp.  [data] is the memory the pointer
    addresses, [length] the size argument; [out] is kept reversed. *)
Fixpoint Unescape_loop (fuel : nat) (data : list N) (len i : N) (out : list N)
  : res (list N) :=
  if i <? len then
    match fuel with
    | O => NoFuel
    | S f =>
      (* data[i], data[i+1], data[i+2] are evaluated left to right with && *)
      let triple :=
        if 3 <=? len - i then
          rbind (fetch data i) (fun a =>
          if a =? 0 then
            rbind (fetch data (i + 1)) (fun b =>
            if b =? 0 then
              rbind (fetch data (i + 2)) (fun c => Ok (c =? 3))
            else Ok false)
          else Ok false)
        else Ok false in
      rbind triple (fun t =>
      if t then
        rbind (fetch data i) (fun a =>
        rbind (fetch data (i + 1)) (fun b =>
        Unescape_loop f data len (i + 3) (b :: a :: out)))
      else
        rbind (fetch data i) (fun a =>
        Unescape_loop f data len (i + 1) (a :: out)))
    end
  else Ok (rev out).

(** h264_common.cc:225-247 UnescapeRbsp.  out.reserve(length) throws length_error above
    max_size() (2^63-1 for uint8_t); every caller is noexcept, so that ends the process.
    Running out of memory below that is not modelled. *)
Definition UnescapeRbsp (data : list N) (len : N) : res (list N) :=
  if 2 ^ 63 - 1 <? len then Abort
  else Unescape_loop (length data) data len 0 [].

(** h264_common.cc:250-259 byte_aligned *)
Definition byte_aligned (b : bb) : bool := bb_bit b =? 0.

(** h264_common.cc:261-266 get_current_offset *)
Definition get_current_offset (b : bb) : N :=
  u64 (bb_byte b + (if bb_bit b =? 0 then 0 else 1)).

(** h264_common.cc:268-320 more_rbsp_data.  [Ok true]/[Ok false] is the returned value. *)
Definition more_rbsp_data (b : bb) : res bool :=
  let remaining_bitcount := RemainingBitCount b in
  if remaining_bitcount =? 0 then Ok false
  else if 8 <? remaining_bitcount then Ok true
  else match PeekBits remaining_bitcount b with
       | Ok remaining_bits =>
           let shift := sub64 remaining_bitcount 1 in
           if 31 <=? shift then UB BadShift
           else Ok (negb (remaining_bits =? N.shiftl 1 shift))
       | Null => Ok false
       | UB k => UB k | Abort => Abort | NoFuel => NoFuel
       end.

(** h264_common.cc:333-341: alignment zero bits. *)
Fixpoint trailing_loop (fuel : nat) (b : bb) : res unit * bb :=
  if byte_aligned b then (Ok tt, b)
  else match fuel with
       | O => (NoFuel, b)
       | S f => (bits_tmp <- ReadBits 1 ;;
                 if bits_tmp =? 0 then trailing_loop f else sfail) b
       end.

(** h264_common.cc:322-343 rbsp_trailing_bits *)
Definition rbsp_trailing_bits : bb -> res unit * bb :=
  bits_tmp <- ReadBits 1 ;;
  if bits_tmp =? 1 then trailing_loop 8 else sfail.

(** h264_common.cc:412-414 *)
Fixpoint sum32_loop (fuel : nat) (sum : N) (b : bb) : res N * bb :=
  match ReadUInt32 b with
  | (Ok val, b') =>
      match fuel with
      | O => (NoFuel, b)
      | S f => sum32_loop f (u64 (sum + val)) b'
      end
  | (Null, b') => (Ok sum, b')
  | (r, b') => (match r with UB k => UB k | Abort => Abort | _ => NoFuel end, b')
  end.

(** h264_common.cc:427-433: at most 3 bytes; returns (i, val). *)
Fixpoint tail8_loop (fuel : nat) (i val : N) (b : bb) : res (N * N) * bb :=
  if (8 <=? RemainingBitCount b) && (i <? 4) then
    match fuel with
    | O => (NoFuel, b)
    | S f =>
      match ReadUInt8 b with
      | (Ok val8, b') =>
          tail8_loop f (i + 1) (N.lor val (u32 (N.shiftl val8 (8 * (3 - i))))) b'
      | (Null, b') => (Ok (i, val), b')
      | (r, b') => (match r with UB k => UB k | Abort => Abort | _ => NoFuel end, b')
      end
    end
  else (Ok (i, val), b).

(** h264_common.cc:394-456 GetNaluChecksum.  The result is the stored 4-byte checksum
    (network order).  The uint32_t store through a char array is taken as defined. *)
Definition GetNaluChecksum (b0 : bb) : res (list N) * bb :=
  (sum <- sum32_loop (S (length (bb_bytes b0))) 0 ;;
   '(i, val) <- tail8_loop 5 0 0 ;;
   let sum := if 0 <? i then u64 (sum + val) else sum in
   let sum := u64 (N.shiftr sum 32 + N.land sum (2 ^ 32 - 1)) in
   let sum := u64 (sum + N.shiftr sum 32) in
   let answer := u32 (2 ^ 64 - 1 - sum) in
   (fun b => (Ok [N.shiftr answer 24; u8 (N.shiftr answer 16); u8 (N.shiftr answer 8); u8 answer],
              snd (Seek (bb_byte b0) (bb_bit b0) b)))) b0.
