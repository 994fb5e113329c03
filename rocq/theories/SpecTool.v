(** Specification vocabulary for the tool: Table 7-1, and frames of a list of NAL units.
    Independent of the tool model. *)
From Coq Require Import NArith ZArith List Bool.
From Verif Require Import TypesNal TypesSliceHeader TypesNalUnit.
Import ListNotations.
Open Scope N_scope.

(** Table 7-1 of the standard, 2012 edition: what the content of a NAL unit is. *)
Inductive nal_class := Slice | NonVcl | Reserved | Unspecified.
Definition table_7_1 : list nal_class :=
  [ Unspecified;                                   (* 0 *)
    Slice; Slice; Slice; Slice; Slice;             (* 1 to 5 *)
    NonVcl; NonVcl; NonVcl; NonVcl; NonVcl;        (* 6 to 10 *)
    NonVcl; NonVcl; NonVcl; NonVcl; NonVcl;        (* 11 to 15 *)
    Reserved; Reserved; Reserved;                  (* 16 to 18 *)
    Slice; Slice;                                  (* 19, 20 *)
    Reserved; Reserved; Reserved;                  (* 21 to 23 *)
    Unspecified; Unspecified; Unspecified; Unspecified;
    Unspecified; Unspecified; Unspecified; Unspecified ]. (* 24 to 31 *)
Definition class_of (t : N) : option nal_class := nth_error table_7_1 (N.to_nat t).

(** A parsed unit with its offset and length. *)
Definition entry : Type := nalu * N * N.
Definition e_type (e : entry) : N := nal_unit_type (nu_header (fst (fst e))).
Definition e_length (e : entry) : N := snd e.
Definition is_slice (e : entry) : bool :=
  match class_of (e_type e) with Some Slice => true | _ => false end.
(** first_mb_in_slice, if the slice header is there *)
Definition e_first_mb (e : entry) : option N :=
  match pl_slice (nu_payload (fst (fst e))) with
  | Some s => Some (first_mb_in_slice (sh_lead (sl_slice_header s)))
  | None => None
  end.
(** A slice that starts a frame: the one with the first macroblock; and, for want of better
    knowledge, one without a slice header. *)
Definition starts_frame (e : entry) : bool :=
  is_slice e && match e_first_mb e with Some n => n =? 0 | None => true end.

(** A frame: a slice, and what follows it up to the next start of a frame. *)
Definition frame (f : list entry) : Prop :=
  exists e r, f = e :: r /\ is_slice e = true /\ Forall (fun e => starts_frame e = false) r.
(** Units cut into frames: no slices before the first frame, which need not begin with the
    first macroblock; the other frames do. *)
Definition cut (before : list entry) (fs : list (list entry)) (us : list entry) : Prop :=
  us = before ++ concat fs /\ Forall (fun e => is_slice e = false) before /\ Forall frame fs /\
  Forall (fun f => exists e r, f = e :: r /\ starts_frame e = true) (tl fs).
(** Bytes in the slices of a list of units, and the type of the last slice. *)
Fixpoint slice_bytes (us : list entry) : N :=
  match us with
  | [] => 0
  | e :: t => (if is_slice e then e_length e else 0) + slice_bytes t
  end.
Fixpoint last_slice_type (us : list entry) (d : N) : N :=
  match us with
  | [] => d
  | e :: t => last_slice_type t (if is_slice e then e_type e else d)
  end.
