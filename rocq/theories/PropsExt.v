(** Property C30: SPS extension, subset SPS, prefix NAL units. *)
From Coq Require Import NArith ZArith List Bool Lia ZifyBool ZifyNat ZifyN.
From Verif Require Import SpecBits Base BitBuffer SpecReader BitsLemmas BitBufferProofs ReaderProofs
  Rbsp SpecRbsp RbspProofs Parser SpecSyntax ParserProofs TypesSps Vui SpecVui VuiProofs
  ScalingList SpecScaling ScalingProofs Sps SpecSps SpsProofs PropsSps
  Pps SpecPps PpsProofs PropsPps TypesExt Ext SpecExt ExtProofs.
Import ListNotations.
Open Scope N_scope.
Ltac Zify.zify_post_hook ::= Z.div_mod_to_equations.

(** C30: the SPS extension; any data may follow. *)
Theorem C30_sps_extension_exact : decodes ParseSpsExtensionData valid_spsext enc_spsext.
Proof. apply decodes_of; [apply ParseSpsExtensionData_good|apply spsext_sound|apply spsext_complete]. Qed.
Theorem C30_sps_extension_rbsp : forall b, reachable b ->
  forall v, (exists b', ParseSpsExtension b = (Ok v, b')) <->
            (exists b', ParseSpsExtensionData b = (Ok v, b')).
Proof.
  intros b R v. apply reachable_wf in R. split.
  - intros (b' & H).
    destruct (trailing_inv _ ParseSpsExtensionData _ _ _ ParseSpsExtensionData_good R H)
      as (b1 & m & H1 & _). eauto.
  - intros (b' & H).
    destruct (trailing_intro _ ParseSpsExtensionData _ _ _ ParseSpsExtensionData_good R H)
      as (m & _ & H1). eauto.
Qed.
(** The SVC extension of the SPS, for every ChromaArrayType. *)
Theorem C30_sps_svc_extension_exact : forall cat,
  decodes (ParseSpsSvcExtension cat) (valid_spssvc cat) enc_spssvc.
Proof.
  intros. apply decodes_of; [apply spssvc_good|apply spssvc_sound|apply spssvc_complete].
Qed.
(** The subset SPS of every profile without an MVC, MVCD or 3D-AVC extension. *)
Theorem C30_subset_sps_round_trip : forall v ls ds k b, reachable b ->
  valid_subsps v ls ds -> ss_svc_vui_parameters_present_flag v = 0 ->
  Forall slist_std ls -> (k <= 7)%nat ->
  bb_rem b = enc_subsps v ls ds ++ stop_bits k ->
  exists b', ParseSubsetSps b = (Ok v, b').
Proof.
  intros v ls ds k b R V _ F K E. apply reachable_wf in R.
  assert (G : gives ParseSubsetSps (enc_subsps v ls ds) (stop_bits k) v); [apply ParseSubsetSps_complete; auto|eauto].
  eapply Forall_impl; [|exact F]. intros [] Hs; cbn in *; auto.
Qed.
Theorem C30_subset_sps_accepts_only_encodings : forall v b b', reachable b ->
  ParseSubsetSps b = (Ok v, b') -> is_mv_profile (profile_idc (ss_sps v)) = false ->
  exists ls ds b1, valid_subsps v ls ds /\ consumed b (enc_subsps v ls ds) b1 /\
  (ss_additional_extension2_flag v = 1 -> at_end (bb_rem b1)) /\ (bb_pos b1 <= bb_pos b')%nat.
Proof.
  intros v b b' R H M. apply reachable_wf in R.
  destruct (ParseSubsetSps_sound b v b' R H M) as (ls & ds & b1 & V & Rd & Ae & m & _ & ->).
  exists ls, ds, b1. split; [auto|]. split; [apply reads_consumed; auto|]. split; [auto|].
  rewrite bb_adv_pos. lia.
Qed.
(** Prefix NAL units with no dec_ref_base_pic_marking(), and no extension data after a
    header with nal_ref_idc 0. *)
Theorem C30_prefix_round_trip : forall ref use idr v ds k b, reachable b ->
  valid_prefsvc ref use idr v ds -> (ref = 0 -> ds = []) -> (k <= 7)%nat ->
  bb_rem b = enc_prefsvc v ds ++ stop_bits k ->
  exists b', ParsePrefixNalUnitRbsp 1 ref use idr b =
    (Ok (Some (mkprefix 1 ref use idr (Some v))), b').
Proof.
  intros ref use idr v ds k b R V Z K E. apply reachable_wf in R.
  destruct (prefsvc_complete ref use idr v ds k V K Z b R E) as (m & _ & H).
  exists (bb_adv b m). unfold ParsePrefixNalUnitRbsp. change (1 =? 1) with true. cbv iota.
  unfold sbind. rewrite H. reflexivity.
Qed.
(** With dec_ref_base_pic_marking() the unit is reported as unimplemented, once. *)
Theorem C30_prefix_unimplemented : forall ref use idr store b rest, reachable b ->
  ref <> 0 -> is_u 1 store -> has_base_marking use store idr = true ->
  bb_rem b = u_bits 1 store ++ rest ->
  exists b', ParsePrefixNalUnitRbsp 1 ref use idr b = (Ok None, b').
Proof.
  intros ref use idr store b rest R Nr U Hb E. apply reachable_wf in R.
  pose proof (prefsvc_unimpl ref use idr store Nr U Hb b rest R E) as H.
  eexists. unfold ParsePrefixNalUnitRbsp. change (1 =? 1) with true. cbv iota.
  unfold sbind. rewrite H. reflexivity.
Qed.
(** Accepted units: the fields are those of the bits. *)
Theorem C30_prefix_accepts_only_encodings : forall svcf ref use idr b v b', reachable b ->
  ParsePrefixNalUnitRbsp svcf ref use idr b = (Ok (Some v), b') ->
  px_svc_extension_flag v = svcf /\ px_nal_ref_idc v = ref /\
  px_use_ref_base_pic_flag v = use /\ px_idr_flag v = idr /\
  if svcf =? 1
  then exists p ds b1, px_svc v = Some p /\ consumed b (enc_prefsvc p ds) b1 /\
    pf_additional_prefix_nal_unit_extension_data_flag p = last_flag ds /\
    (if negb (ref =? 0)
     then is_u 1 (pf_store_ref_base_pic_flag p) /\
          has_base_marking use (pf_store_ref_base_pic_flag p) idr = false /\
          is_u 1 (pf_additional_prefix_nal_unit_extension_flag p) /\ at_end (bb_rem b1)
     else pf_store_ref_base_pic_flag p = 0 /\
          pf_additional_prefix_nal_unit_extension_flag p = 0 /\ ds = [])
  else px_svc v = None /\ b' = b.
Proof.
  intros svcf ref use idr b v b' R H. apply reachable_wf in R.
  unfold ParsePrefixNalUnitRbsp in H. destruct (svcf =? 1).
  - apply sbind_inv in H. destruct H as ([p|] & b1 & Q & H);
      apply sret_inv in H; destruct H as [E ->]; [injection E as ->|discriminate].
    cbn [px_svc_extension_flag px_nal_ref_idc px_use_ref_base_pic_flag px_idr_flag px_svc].
    destruct (prefsvc_sound ref use idr b p b1 R Q)
      as (ds & b2 & Rd & _ & E1 & E2 & E3 & E4 & X).
    repeat (split; [reflexivity|]). exists p, ds, b2.
    split; [reflexivity|]. split; [apply reads_consumed; auto|]. split; [auto|].
    destruct (negb (ref =? 0)); intuition.
  - apply sret_inv in H. destruct H as [E ->]. injection E as ->.
    repeat split; reflexivity.
Qed.
Theorem C30_safe : never_crashes ParseSpsExtension /\ never_crashes ParseSubsetSps /\
  forall f ref use idr, never_crashes (ParsePrefixNalUnitRbsp f ref use idr).
Proof. split; [|split; [|intros]]; apply never_crashes_of; auto with good. Qed.

(** Examples. *)
Definition ex_spsext : spsext := mkspsext 7 1 4 1 8191 5 0.
Example C30_ex_spsext : valid_spsext ex_spsext /\
  fst (ParseSpsExtension (fresh (rbsp (enc_spsext ex_spsext)))) = Ok ex_spsext.
Proof. split; [valid_tac|vm_compute; reflexivity]. Qed.
Definition ex_spssvc : spssvc := mkspssvc 1 1 1 1 2 0 3 (-5) 7 0 1000 1 1 0.
Definition ex_svc_sps : sps :=
  mksps 83 0 0 0 0 0 0 0 30 3 1 0 0 0 0 0 scal0 0 2 0 0 0 0 0 [] 1 0 21 17 1 0 0 0 0 0 0 0 0
    None UNSPECIFIED.
Definition ex_subsps : subsps := mksubsps ex_svc_sps (Some ex_spssvc) 0 0 0 1 1.
Example C30_ex_subsps : valid_subsps ex_subsps [] [false; true] /\
  fst (ParseSubsetSps (fresh (rbsp (enc_subsps ex_subsps [] [false; true])))) = Ok ex_subsps.
Proof.
  split; [|vm_compute; reflexivity].
  split; [valid_tac|]. split; [reflexivity|]. split; [exists ex_spssvc; split; [reflexivity|valid_tac]|].
  valid_tac.
Qed.
Definition ex_prefsvc : prefsvc := mkprefsvc 2 0 0 0 1 1.
Example C30_ex_prefix : valid_prefsvc 2 0 0 ex_prefsvc [false; false; true] /\
  fst (ParsePrefixNalUnitRbsp 1 2 0 0 (fresh (rbsp (enc_prefsvc ex_prefsvc [false; false; true]))))
  = Ok (Some (mkprefix 1 2 0 0 (Some ex_prefsvc))) /\
  has_base_marking 1 0 0 = true.
Proof. split; [valid_tac|split; vm_compute; reflexivity]. Qed.

(** Deviations.  The standard's extension data flags of a prefix NAL unit with nal_ref_idc 0
    are not read: the fields of a unit carrying the flag 1 come out as 0. *)
Theorem C30_prefix_ref0_data_lost_refuted : exists b v b', reachable b /\
  bb_rem b = enc_prefsvc (mkprefsvc 0 0 0 0 0 1) [true] ++ stop_bits 6 /\
  valid_prefsvc 0 0 0 (mkprefsvc 0 0 0 0 0 1) [true] /\
  ParsePrefixNalUnitRbsp 1 0 0 0 b = (Ok (Some (mkprefix 1 0 0 0 (Some v))), b') /\
  pf_additional_prefix_nal_unit_extension_data_flag v = 0.
Proof.
  exists (fresh ([true] ++ stop_bits 6)). eexists. eexists.
  split; [apply fresh_reachable; [reflexivity|repeat constructor]|].
  split; [vm_compute; reflexivity|]. split; [valid_tac|].
  split; [vm_compute; reflexivity|reflexivity].
Qed.
(** Extension data after additional_prefix_nal_unit_extension_flag = 0, which the syntax
    does not allow, is accepted. *)
Theorem C30_prefix_unannounced_data_refuted : exists b v b', reachable b /\
  ParsePrefixNalUnitRbsp 1 1 0 0 b = (Ok (Some (mkprefix 1 1 0 0 (Some v))), b') /\
  pf_additional_prefix_nal_unit_extension_flag v = 0 /\
  pf_additional_prefix_nal_unit_extension_data_flag v = 1.
Proof.
  exists (fresh ([false; false; true] ++ stop_bits 4)). eexists. eexists.
  split; [apply fresh_reachable; [reflexivity|repeat constructor]|].
  split; [vm_compute; reflexivity|split; reflexivity].
Qed.
(** An MVC subset SPS: the MVC extension is skipped without reading it, so the first bit of
    num_views_minus1 is taken for mvc_vui_parameters_present_flag, which is 0 here. *)
Definition ex_mvc_sps : sps :=
  mksps 118 0 0 0 0 0 0 0 30 3 1 0 0 0 0 0 scal0 0 2 0 0 0 0 0 [] 1 0 21 17 1 0 0 0 0 0 0 0 0
    None UNSPECIFIED.
Definition ex_mvc_bits : list bool :=
  enc_sps ex_mvc_sps [] ++ [true] ++
  (** num_views_minus1, view_id, num_level_values_signalled_minus1, level_idc, ... *)
  ue_bits 0 ++ ue_bits 0 ++ ue_bits 0 ++ u_bits 8 40 ++ ue_bits 0 ++ u_bits 3 0 ++
  ue_bits 0 ++ ue_bits 0 ++ ue_bits 0 ++
  (** mvc_vui_parameters_present_flag, additional_extension2_flag *)
  [false] ++ [false].
Theorem C30_mvc_extension_not_decoded_refuted : exists b v b', reachable b /\
  b = fresh (rbsp ex_mvc_bits) /\ valid_sps ex_mvc_sps [] /\
  ParseSubsetSps b = (Ok v, b') /\ ss_mvc_vui_parameters_present_flag v = 1 /\
  ss_additional_extension2_flag v = 1.
Proof.
  eexists. eexists. eexists. split; [|split; [reflexivity|split; [valid_tac|]]].
  - apply fresh_reachable; [reflexivity|]. vm_compute. repeat constructor.
  - split; [vm_compute; reflexivity|split; reflexivity].
Qed.

Print Assumptions C30_sps_extension_exact.
Print Assumptions C30_sps_extension_rbsp.
Print Assumptions C30_sps_svc_extension_exact.
Print Assumptions C30_subset_sps_round_trip.
Print Assumptions C30_subset_sps_accepts_only_encodings.
Print Assumptions C30_prefix_round_trip.
Print Assumptions C30_prefix_unimplemented.
Print Assumptions C30_prefix_accepts_only_encodings.
Print Assumptions C30_safe.
Print Assumptions C30_prefix_ref0_data_lost_refuted.
Print Assumptions C30_prefix_unannounced_data_refuted.
Print Assumptions C30_mvc_extension_not_decoded_refuted.
