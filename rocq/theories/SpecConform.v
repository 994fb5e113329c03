(** Specification: what the bits of a NAL unit are when its payload was understood.  Independent
    of the parsers. *)
From Coq Require Import NArith List Bool.
From Verif Require Import SpecBits SpecVui SpecScaling TypesSps TypesPps SpecSps SpecPps TypesNal
  SpecNalHeader TypesExt SpecExt TypesSlice TypesSliceHeader SpecSlice SliceHeader TypesSvcSlice
  SpecSvcSlice PropsSlice PropsSvcSlice TypesNalUnit.
Import ListNotations.
Open Scope N_scope.

(** [n] bytes, from the header on, reach to the end of the syntax [c] or beyond; the last of
    them holds its end. *)
Definition covers (h : nalh) (c : list bool) (n : N) : Prop :=
  N.of_nat (length (enc_nalh h ++ c)) <= 8 * n.
Definition ends_in (h : nalh) (c : list bool) (n : N) : Prop :=
  n = (N.of_nat (length (enc_nalh h ++ c)) + 7) / 8.

(** prefix_nal_unit_svc() as it is read: data bits may follow without having been announced. *)
Definition prefsvc_read (ref use idr : N) (v : prefsvc) (ds : list bool) : Prop :=
  pf_nal_ref_idc v = ref /\ pf_use_ref_base_pic_flag v = use /\ pf_idr_flag v = idr /\
  pf_additional_prefix_nal_unit_extension_data_flag v = last_flag ds /\
  if ref =? 0 then v = mkprefsvc 0 use idr 0 0 0 /\ ds = []
  else is_u 1 (pf_store_ref_base_pic_flag v) /\
       SpecExt.has_base_marking use (pf_store_ref_base_pic_flag v) idr = false /\
       is_u 1 (pf_additional_prefix_nal_unit_extension_flag v).

(** [contains st h p bits n]: to a reader that holds the parameter sets [st], [bits] behind the
    header [h] start with the syntax of each part of [p], which was read up to byte [n]. *)
Record contains (st : pstate) (h : nalh) (p : payload) (bits : list bool) (n : N) : Prop := {
  has_sps : forall s, pl_sps p = Some s -> nal_unit_type h = 7 /\
    exists ls rest, valid_sps s ls /\ bits = enc_sps s ls ++ rest /\ covers h (enc_sps s ls) n;
  (* without the optional second part only if there is nothing but a stop bit left *)
  has_pps : forall v, pl_pps p = Some v -> nal_unit_type h = 8 /\
    exists ext rest, valid_pps 1 v ext /\ bits = enc_pps v ext ++ rest /\ covers h (enc_pps v ext) n /\
      (ext = None -> at_end rest);
  has_subset_sps : forall v, pl_subset_sps p = Some v -> nal_unit_type h = 15 /\
    (exists ls rest, valid_sps (ss_sps v) ls /\ bits = enc_sps (ss_sps v) ls ++ rest) /\
    (is_mv_profile (profile_idc (ss_sps v)) = false ->
     exists ls ds rest, valid_subsps v ls ds /\ bits = enc_subsps v ls ds ++ rest /\
       covers h (enc_subsps v ls ds) n);
  has_slice : forall x, pl_slice p = Some x -> (nal_unit_type h = 1 \/ nal_unit_type h = 5) /\
    x = mkslp (nal_ref_idc h) (nal_unit_type h) (sl_slice_header x) /\
    exists v rest, valid_in (nal_ref_idc h) (nal_unit_type h) st v /\
      reported_in (nal_ref_idc h) (nal_unit_type h) st v = Some (sl_slice_header x) /\
      bits = enc_in (nal_ref_idc h) (nal_unit_type h) st v ++ rest /\
      ends_in h (enc_in (nal_ref_idc h) (nal_unit_type h) st v) n;
  has_prefix : forall x, pl_prefix p = Some x -> nal_unit_type h = 14 /\
    exists e v ds rest, nal_svc h = Some e /\
      x = mkprefix 1 (nal_ref_idc h) (svc_use_ref_base_pic_flag e) (svc_idr_flag e) (Some v) /\
      prefsvc_read (nal_ref_idc h) (svc_use_ref_base_pic_flag e) (svc_idr_flag e) v ds /\
      bits = enc_prefsvc v ds ++ rest /\ covers h (enc_prefsvc v ds) n;
  has_svc_slice : forall x y, pl_slice_ext p = Some x -> sx_svc_slice_header x = Some y ->
    nal_unit_type h = 20 /\ x = mkslext 1 0 (nal_ref_idc h) 20 None (Some y) /\
    exists v rest, svc_valid_in zero zero h st v /\ svc_reported_in h st v = Some y /\
      bits = svc_enc_in h st v ++ rest /\ ends_in h (svc_enc_in h st v) n
}.

(** What an encoder that follows the standard writes again: everything was understood, there are
    no scaling matrices, no unannounced prefix data, no VUI behind the SVC extension and no
    extension for other profiles than the scalable ones. *)
Record rewritable (h : nalh) (p : payload) : Prop := {
  rw_sps : forall s, pl_sps p = Some s -> seq_scaling_matrix_present_flag s = 0;
  rw_pps : forall v, pl_pps p = Some v -> pps_pic_scaling_matrix_present_flag v = 0;
  rw_subset : forall v, pl_subset_sps p = Some v -> seq_scaling_matrix_present_flag (ss_sps v) = 0 /\
    is_mv_profile (profile_idc (ss_sps v)) = false /\ ss_svc_vui_parameters_present_flag v = 0;
  rw_prefix : forall x v, pl_prefix p = Some x -> px_svc x = Some v ->
    pf_additional_prefix_nal_unit_extension_flag v = 0 ->
    pf_additional_prefix_nal_unit_extension_data_flag v = 0;
  rw_svc : forall x, pl_slice_ext p = Some x -> sx_svc_slice_header x <> None
}.
