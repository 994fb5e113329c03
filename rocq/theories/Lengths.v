(** Model of the two lengths that the code computes with std::log2 and std::ceil in double
    arithmetic.  Pps.v and SliceHeader.v use integer formulas instead; PropsLengths.v shows that
    they give the same.  Floating point as in Framerate.v; std::log2 belongs to the C library and
    is an argument. *)
From Coq Require Import NArith ZArith Bool SpecFloat.
From Verif Require Import Base Framerate.
Open Scope Z_scope.

(** std::ceil, as the integer it gives *)
Definition ceil_of (x : spec_float) : option Z :=
  match x with
  | S754_zero _ => Some 0
  | S754_finite s m e =>
      let v := cond_Zopp s (Zpos m) in
      Some (if 0 <=? e then v * 2 ^ e else - ((- v) / 2 ^ (- e)))
  | _ => None
  end.
(** Conversion of that double to uint32_t; undefined if the value does not fit. *)
Definition ceil_u32 (x : spec_float) : res N :=
  match ceil_of x with
  | Some z => if (0 <=? z) && (z <? 2 ^ 32) then Ok (Z.to_N z) else UB BadCast
  | None => UB BadCast
  end.
Definition dadd := SFadd dprec demax.
Definition dmul := SFmul dprec demax.
Definition ddiv := SFdiv dprec demax.
(** h264_slice_header_parser.cc:521-558, ..._in_scalable_extension_parser.cc:668-719 *)
Definition cycle_len_double (log2 : spec_float -> spec_float) (w h r : N) : res N :=
  let size := u32 (u32 (w + 1) * u32 (h + 1)) in
  let rate := u32 (r + 1) in
  ceil_u32 (log2 (dadd (ddiv (dmul (double_of 1) (double_of size)) (double_of rate)) (double_of 1))).
(** h264_pps_parser.cc:334-343 *)
Definition id_len_double (log2 : spec_float -> spec_float) (n : N) : res N :=
  ceil_u32 (log2 (dadd (dmul (double_of 1) (double_of n)) (double_of 1))).
