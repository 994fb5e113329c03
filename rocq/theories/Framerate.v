(** Model of the frame rate of the VUI.  Floating point is Coq's specification of IEEE 754
    (SpecFloat): double has 53 bits of precision, float has 24, rounding is to nearest even. *)
From Coq Require Import NArith ZArith SpecFloat.
From Verif Require Import TypesSps.
Open Scope Z_scope.

Definition dprec := 53. Definition demax := 1024.
Definition fprec := 24. Definition femax := 128.
(** The usual arithmetic conversion of a uint32_t to double *)
Definition double_of (n : N) : spec_float := binary_normalize dprec demax (Z.of_N n) 0 false.
(** static_cast<float> of a double *)
Definition float_of (x : spec_float) : spec_float :=
  match x with
  | S754_finite s m e => binary_normalize fprec femax (cond_Zopp s (Zpos m)) e s
  | _ => x
  end.
(** h264_vui_parameters_parser.cc:349-355 getFramerate *)
Definition getFramerate (v : vui) : spec_float :=
  float_of (SFdiv dprec demax (double_of (time_scale v))
    (SFmul dprec demax (double_of 2) (double_of (num_units_in_tick v)))).
