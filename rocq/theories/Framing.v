(** Model of the NAL unit framing of src/h264_bitstream_parser.cc. *)
From Coq Require Import NArith ZArith List Bool.
From Verif Require Import Base BitBuffer.
Import ListNotations.
Open Scope N_scope.

(** include/h264_bitstream_parser.h:67-74 NaluIndex *)
Record nalu_index := mkidx { ni_start : N; ni_payload : N; ni_size : N }.

(** it->payload_size = e - it->payload_start_offset, for the last entry if there is one.
    The vector is kept reversed, so the last entry is the head. *)
Definition set_last_size (e : N) (acc : list nalu_index) : list nalu_index :=
  match acc with
  | [] => []
  | x :: t => mkidx (ni_start x) (ni_payload x) (sub64 e (ni_payload x)) :: t
  end.

(** h264_bitstream_parser.cc:63-83: the scan of FindNaluIndices. *)
Fixpoint find_loop (fuel : nat) (data : list N) (end_ i : N) (acc : list nalu_index)
  : res (list nalu_index) :=
  if i <? end_ then
    match fuel with
    | O => NoFuel
    | S f =>
      rbind (fetch data (i + 2)) (fun c =>
      if 1 <? c then find_loop f data end_ (i + 3) acc
      else
        rbind (if c =? 1
               then rbind (fetch data (i + 1)) (fun b =>
                    if b =? 0 then rbind (fetch data i) (fun a => Ok (a =? 0)) else Ok false)
               else Ok false) (fun hit =>
        if hit : bool then
          rbind (if 0 <? i then rbind (fetch data (i - 1)) (fun p => Ok (p =? 0)) else Ok false)
            (fun z =>
             let start := if z : bool then i - 1 else i in
             find_loop f data end_ (i + 3) (mkidx start (i + 3) 0 :: set_last_size start acc))
        else find_loop f data end_ (i + 1) acc))
    end
  else Ok acc.

(** h264_bitstream_parser.cc:50-91 FindNaluIndices.  [data] is the memory addressed by the
    pointer, [len] the size argument. *)
Definition FindNaluIndices (data : list N) (len : N) : res (list nalu_index) :=
  if len <? 3 then Ok []
  else rbind (find_loop (length data) data (len - 3) 0 [])
         (fun acc => Ok (rev (set_last_size len acc))).

(** h264_bitstream_parser.cc:100-116: the loop of FindNaluIndicesExplicitFraming. *)
Fixpoint framing_loop (fuel : nat) (data : list N) (len i : N) (acc : list nalu_index)
  : res (list nalu_index) :=
  if i <? len then
    match fuel with
    | O => NoFuel
    | S f =>
      if len <? u64 (i + 4) then Ok (rev acc)
      else
        (* memcpy of 4 bytes, then ntohl *)
        rbind (fetch data i) (fun a =>
        rbind (fetch data (i + 1)) (fun b =>
        rbind (fetch data (i + 2)) (fun c =>
        rbind (fetch data (i + 3)) (fun d =>
        let size := N.shiftl a 24 + N.shiftl b 16 + N.shiftl c 8 + d in
        if sub64 (sub64 len i) 4 <? size then Ok (rev acc)
        else framing_loop f data len (u64 (i + u32 (4 + size))) (mkidx i (i + 4) size :: acc)))))
    end
  else Ok (rev acc).
(** h264_bitstream_parser.cc:94-119 FindNaluIndicesExplicitFraming *)
Definition FindNaluIndicesExplicitFraming (data : list N) (len : N) : res (list nalu_index) :=
  framing_loop (length data) data len 0 [].

(** h264_bitstream_parser.cc:36-39: the loop of read_nalu_length. *)
Fixpoint nalu_length_bytes_loop (n : nat) (data : list N) (i v : N) : res N :=
  match n with
  | O => Ok v
  | S n' => rbind (fetch data i) (fun x =>
            nalu_length_bytes_loop n' data (i + 1) (u64 (N.shiftl v 8 + x)))
  end.
(** h264_bitstream_parser.cc:31-41 read_nalu_length, with the pointer [data + off]. *)
Definition read_nalu_length (data : list N) (off data_length nlb : N) : res N :=
  if data_length <? nlb then Null
  else nalu_length_bytes_loop (N.to_nat nlb) data off 0.

(** h264_bitstream_parser.cc:210-246: the loop of ParseBitstreamNALULength.
    [parse i n] stands for ParseNalUnit(&data[i], n, ...); its result is paired with the
    recorded offset and the recorded length (line 241 stores nalu_length_bytes). *)
Fixpoint nalu_length_loop {A S} (parse : N -> N -> S -> res A * S) (fuel : nat)
  (data : list N) (len nlb i : N) (acc : list (A * N * N)) (s : S)
  : res (list (A * N * N)) * S :=
  if i <? len then
    match fuel with
    | O => (NoFuel, s)
    | S f =>
      let visit i n :=
        match parse i n s with
        | (Ok a, s') => nalu_length_loop parse f data len nlb (u64 (i + n)) ((a, i, nlb) :: acc) s'
        | (Null, s') => nalu_length_loop parse f data len nlb (u64 (i + n)) acc s'
        | (UB k, s') => (UB k, s')
        | (Abort, s') => (Abort, s')
        | (NoFuel, s') => (NoFuel, s')
        end in
      if 0 <? nlb then
        match read_nalu_length data i (sub64 len i) nlb with
        | Ok n =>
            let i := u64 (i + nlb) in
            if (n =? 0) || (len <? u64 (i + n)) then (Ok (rev acc), s)
            else visit i n
        | Null => (Ok (rev acc), s)
        | UB k => (UB k, s)
        | Abort => (Abort, s)
        | NoFuel => (NoFuel, s)
        end
      else visit i len
    end
  else (Ok (rev acc), s).
