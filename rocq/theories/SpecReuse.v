(** Parser states compared: what is found in one is found in the other. *)
From Coq Require Import NArith List Bool.
From Verif Require Import TypesSps TypesPps TypesNal TypesExt TypesSliceHeader SpecSlice TypesSvcSlice
  TypesNalUnit.
Import ListNotations.
Open Scope N_scope.

Definition part_of {A} (m1 m2 : list (N * A)) : Prop :=
  forall id x, lookup id m1 = Some x -> lookup id m2 = Some x.
(** Every parameter set held in [st1] is held in [st2] under the same id. *)
Definition below (st1 st2 : pstate) : Prop :=
  part_of (st_sps st1) (st_sps st2) /\ part_of (st_pps st1) (st_pps st2) /\
  part_of (st_subset_sps st1) (st_subset_sps st2).

(** They hold the same parameter sets. *)
Definition same_sets (st1 st2 : pstate) : Prop := below st1 st2 /\ below st2 st1.

(** If the unit is a slice, its header was read; so the parameter sets it refers to were held. *)
Definition resolved (x : nalu) : Prop :=
  let t := nal_unit_type (nu_header x) in
  let p := nu_payload x in
  (t = 1 \/ t = 5 -> pl_slice p <> None) /\
  (t = 20 -> exists e, pl_slice_ext p = Some e /\ sx_svc_slice_header e <> None).
