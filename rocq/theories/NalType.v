(** Model of the NAL unit type helpers and of the checksum printing in h264_common.cc. *)
From Coq Require Import NArith ZArith List Bool String Ascii.
From Verif Require Import Base.
Import ListNotations.
Open Scope N_scope.

(** h264_common.cc:22-95 NalUnitTypeToString (enum values: include/h264_common.h:19-58) *)
Definition NalUnitTypeToString (t : N) : string :=
  match t with
  | 0 => "unspecified"
  | 1 => "coded_slice_of_non_idr_picture"
  | 2 => "coded_slice_data_partition_a"
  | 3 => "coded_slice_data_partition_b"
  | 4 => "coded_slice_data_partition_c"
  | 5 => "coded_slice_of_idr_picture"
  | 6 => "sei"
  | 7 => "sps"
  | 8 => "pps"
  | 9 => "aud"
  | 10 => "eoseq"
  | 11 => "eostream"
  | 12 => "filler_data"
  | 13 => "sps_extension"
  | 14 => "prefix"
  | 15 => "subset_sps"
  | 16 => "rsv16"
  | 17 => "rsv17"
  | 18 => "rsv18"
  | 19 => "coded_slice_of_auxiliary_coded_picture"
  | 20 => "coded_slice_extension"
  | 21 => "rsv21"
  | 22 => "rsv22"
  | 23 => "rsv23"
  | 24 => "unspec24"
  | 25 => "unspec25"
  | 26 => "unspec26"
  | 27 => "unspec27"
  | 28 => "unspec28"
  | 29 => "unspec29"
  | 30 => "unspec30"
  | 31 => "unspec31"
  | _ => "unknown"
  end%string.

(** h264_common.cc:97-110 IsSliceSegment *)
Definition IsSliceSegment (t : N) : bool :=
  match t with 1 | 2 | 3 | 4 | 5 | 19 | 20 => true | _ => false end.
(** h264_common.cc:112-126 IsNalUnitTypeReserved *)
Definition IsNalUnitTypeReserved (t : N) : bool :=
  match t with 16 | 17 | 18 | 21 | 22 | 23 => true | _ => false end.
(** h264_common.cc:128-143 IsNalUnitTypeUnspecified *)
Definition IsNalUnitTypeUnspecified (t : N) : bool :=
  match t with 24 | 25 | 26 | 27 | 28 | 29 | 30 | 31 => true | _ => false end.

(** * NaluChecksum *)
(** output[i] = c for a char array *)
Fixpoint put (l : list N) (i : nat) (c : N) : res (list N) :=
  match l, i with
  | [], _ => UB OutOfBounds
  | _ :: t, O => Ok (c :: t)
  | x :: t, S i => rbind (put t i c) (fun t => Ok (x :: t))
  end.
(** A hexadecimal digit as printed by %02x *)
Definition hex (d : N) : N := if d <? 10 then 48 + d else 87 + d.
(** snprintf(output + oi, room, "%02x", c) for c < 256: writes at most room - 1 characters
    and a NUL, and returns 2 whatever was written. *)
Definition snprintf_02x (output : list N) (oi : nat) (room : nat) (c : N) : res (list N) :=
  match room with
  | O => Ok output
  | 1%nat => put output oi 0
  | 2%nat => rbind (put output oi (hex (c / 16))) (fun o => put o (S oi) 0)
  | _ => rbind (put output oi (hex (c / 16))) (fun o =>
         rbind (put o (S oi) (hex (c mod 16))) (fun o => put o (S (S oi)) 0))
  end.
(** h264_common.cc:458-470 NaluChecksum::fdump(output, output_len); [output] is the array,
    [output_len] is taken to be its size, and the bytes are checksum[i], ...,
    checksum[length - 1].  A non-positive output_len is left out (it makes line 464 write
    before the array). *)
Fixpoint checksum_fdump (bytes : list N) (oi : nat) (output : list N) : res (list N) :=
  match bytes with
  | [] => Ok output
  | c :: t =>
      let n := List.length output in
      if (n <=? oi + 2)%nat then put output (n - 1) 0
      else rbind (snprintf_02x output oi (n - oi) c) (checksum_fdump t (oi + 2))
  end.
(** std::string(buffer): up to the first NUL *)
Fixpoint c_string (l : list N) : res (list N) :=
  match l with
  | [] => UB OutOfBounds
  | c :: t => if c =? 0 then Ok [] else rbind (c_string t) (fun s => Ok (c :: s))
  end.
(** h264_common.cc:472-487 GetPrintableChecksum; kMaxLength is 32 *)
Definition GetPrintableChecksum (bytes : list N) : res (list N) :=
  rbind (checksum_fdump bytes 0 (repeat 0 (32 * 2 + 1))) c_string.
