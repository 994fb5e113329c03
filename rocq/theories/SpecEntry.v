(** Specification: which bits are the coding of a single syntax structure.  Independent of the
    parsers. *)
From Coq Require Import NArith List Bool.
From Verif Require Import SpecBits SpecRbsp SpecVui SpecScaling TypesSps TypesPps SpecSps SpecPps TypesNal
  SpecNalHeader TypesExt SpecExt TypesSlice SpecSliceParts TypesSliceHeader SpecSlice SliceHeader TypesSvcSlice
  SpecSvcSlice PropsSlice PropsSvcSlice TypesNalUnit SpecConform TypesEntry.
Import ListNotations.
Open Scope N_scope.

(** Scaling lists that are read whatever they are, or those the code is able to read. *)
Definition lists_ok (strict : bool) (ls : list slist) : Prop := strict = true -> Forall slist_readable ls.
(** Nothing but the stop bit and the alignment after it. *)
Definition only_stop (rest : list bool) : Prop := exists k, (k <= 7)%nat /\ rest = stop_bits k.

(** [coding strict e st v c rest]: for a reader that holds the parameter sets [st], [c] codes the
    structure [e] with the value [v]; [rest] are the bits behind.  Everything read satisfies it
    with [strict] false; everything that satisfies it with [strict] true is read.  They differ in
    the scaling lists, in what follows extension data, and in that prefix NAL units are read with
    data that was not announced. *)
Definition coding (strict : bool) {A} (e : structure A) (st : pstate)
  : A -> list bool -> list bool -> Prop :=
  match e in structure A return A -> list bool -> list bool -> Prop with
  | HrdParameters => fun v c _ => valid_hrd v /\ c = enc_hrd v
  | VuiParameters => fun v c _ => valid_vui v /\ c = enc_vui v
  | SpsData | Sps => fun v c _ => exists ls, valid_sps v ls /\ lists_ok strict ls /\ c = enc_sps v ls
  | Pps cfi => fun v c rest => exists ext, valid_pps cfi v ext /\ c = enc_pps v ext /\
      match ext with
      | None => at_end rest
      | Some ls => lists_ok strict ls /\ ~ at_end (enc_pps_ext v ls ++ rest)
      end
  | SpsExtension => fun v c _ => valid_spsext v /\ c = enc_spsext v
  | SpsSvcExtension cat => fun v c _ => valid_spssvc cat v /\ c = enc_spssvc v
  | SubsetSps => fun v c rest => exists ls ds, valid_subsps v ls ds /\ lists_ok strict ls /\
      c = enc_subsps v ls ds /\ (ss_additional_extension2_flag v = 1 -> at_end rest) /\
      (strict = true -> only_stop rest)
  | NalUnitHeader => fun v c _ => valid_nalh v /\ c = enc_nalh v
  | NalUnitHeaderSvcExtension => fun v c _ => valid_svc_ext v /\ c = enc_svc_ext v
  | PrefixNalUnitSvc ref use idr => fun v c rest => exists ds,
      prefsvc_read ref use idr v ds /\ c = enc_prefsvc v ds /\ (ref <> 0 -> at_end rest) /\
      (strict = true -> valid_prefsvc ref use idr v ds /\ only_stop rest)
  | PrefixNalUnitRbsp f ref use idr => fun x c rest =>
      if f =? 1 then exists v ds, x = mkprefix 1 ref use idr (Some v) /\
        prefsvc_read ref use idr v ds /\ c = enc_prefsvc v ds /\ (ref <> 0 -> at_end rest) /\
        (strict = true -> valid_prefsvc ref use idr v ds /\ only_stop rest)
      else x = mkprefix f ref use idr None /\ c = []
  | RefPicListModification ty => fun v c _ => exists cs0 cs1,
      valid_rplm ty cs0 cs1 /\ v = rplm_of ty cs0 cs1 /\ c = enc_rplm ty cs0 cs1
  | PredWeightTable cat ty n0 n1 => fun v c _ => exists ld cd w0 w1,
      valid_pwt cat ty n0 n1 ld cd w0 w1 /\ v = pwt_of cat ty n0 n1 ld cd w0 w1 /\
      c = enc_pwt cat ty ld cd w0 w1
  | DecRefPicMarking idr => fun v c _ => exists m,
      valid_marking idr m /\ v = drpm_of idr m /\ c = enc_marking m
  | SliceHeader ref nut => fun x c _ => (nut =? 20) || (nut =? 21) = false /\ exists v,
      valid_in ref nut st v /\ reported_in ref nut st v = Some x /\ c = enc_in ref nut st v
  | SliceLayerWithoutPartitioning ref nut => fun x c _ => (nut =? 20) || (nut =? 21) = false /\
      exists v y, valid_in ref nut st v /\ reported_in ref nut st v = Some y /\
      x = mkslp ref nut y /\ c = enc_in ref nut st v
  | SliceHeaderInScalableExtension h => fun x c _ => exists v,
      svc_valid_in zero zero h st v /\ svc_reported_in h st v = Some x /\ c = svc_enc_in h st v
  | SliceLayerExtension h => fun x c _ =>
      svc_extension_flag h <> 0 /\ exists v y, svc_valid_in zero zero h st v /\
      svc_reported_in h st v = Some y /\ c = svc_enc_in h st v /\
      x = mkslext (svc_extension_flag h) (avc_3d_extension_flag h) (nal_ref_idc h)
            (nal_unit_type h) None (Some y)
  | NalUnitPayload _ => fun _ _ _ => False
  end.

(** What is understood: no subset SPS for the multi-view profiles, and a slice layer extension
    with its header in scalable extension.  NAL unit payloads: C60. *)
Definition understood {A} (e : structure A) : A -> Prop :=
  match e in structure A return A -> Prop with
  | SubsetSps => fun v => is_mv_profile (profile_idc (ss_sps v)) = false
  | SliceLayerExtension _ => fun v => sx_svc_slice_header v <> None
  | NalUnitPayload _ => fun _ => False
  | _ => fun _ => True
  end.
(** The loops over reference indices end: their counters are 32 bits wide. *)
Definition bounded {A} (e : structure A) : Prop :=
  match e with PredWeightTable _ _ n0 n1 => n0 < 2 ^ 32 - 1 /\ n1 < 2 ^ 32 - 1 | _ => True end.
(** The only structure whose parser stores parameter sets. *)
Definition is_payload {A} (e : structure A) : bool := match e with NalUnitPayload _ => true | _ => false end.
