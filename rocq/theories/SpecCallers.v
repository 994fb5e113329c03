(** Specification: parser states a caller fills by hand, and which of them can do no harm. *)
From Coq Require Import NArith ZArith List Bool.
From Verif Require Import TypesSps TypesPps TypesExt TypesSliceHeader SpecSlice.
Open Scope N_scope.

(** 51 plus six times the int with the bits of [bit_depth_luma_minus8] fits an int, and so does
    its negation. *)
Definition depth_harmless (s : sps) : Prop :=
  bit_depth_luma_minus8 s <= 357913932 \/
  2 ^ 32 - 357913941 <= bit_depth_luma_minus8 s < 2 ^ 32.
(** The slice group change rate is not 0 modulo 2^32 where it divides. *)
Definition rate_harmless (p : pps) : Prop :=
  0 < pps_num_slice_groups_minus1 p -> 3 <= pps_slice_group_map_type p <= 5 ->
  pps_slice_group_change_rate_minus1 p < 2 ^ 32 - 1.
(** The loops of the prediction weight table count to these numbers. *)
Definition counts_harmless (p : pps) : Prop :=
  pps_num_ref_idx_l0_default_active_minus1 p < 2 ^ 32 - 1 /\
  pps_num_ref_idx_l1_default_active_minus1 p < 2 ^ 32 - 1.
Definition harmless (st : pstate) : Prop :=
  (forall id s, lookup id (st_sps st) = Some s -> depth_harmless s) /\
  (forall id p, lookup id (st_pps st) = Some p -> rate_harmless p /\ counts_harmless p).
