(** SPS extension, subset SPS and prefix NAL unit parsers: safety, soundness, completeness. *)
From Coq Require Import NArith ZArith List Bool Lia ZifyBool ZifyNat ZifyN.
From Verif Require Import SpecBits Base BitBuffer SpecReader BitsLemmas BitBufferProofs
  Rbsp SpecRbsp RbspProofs Parser ParserProofs TypesSps Vui SpecVui VuiProofs
  ScalingList SpecScaling ScalingProofs Sps SpecSps SpsProofs Pps SpecPps PpsProofs
  TypesExt Ext SpecExt NalHeaderProofs.
Import ListNotations.
Open Scope N_scope.
Ltac Zify.zify_post_hook ::= Z.div_mod_to_equations.

Ltac red_spsext := cbn [
  se_seq_parameter_set_id se_aux_format_idc se_bit_depth_aux_minus8
   se_alpha_incr_flag se_alpha_opaque_value se_alpha_transparent_value
   se_additional_extension_flag].
Tactic Notation "red_spsext" "in" hyp(H) := cbn [
  se_seq_parameter_set_id se_aux_format_idc se_bit_depth_aux_minus8
   se_alpha_incr_flag se_alpha_opaque_value se_alpha_transparent_value
   se_additional_extension_flag] in H.
Ltac red_spssvc := cbn [
  sv_ChromaArrayType sv_inter_layer_deblocking_filter_control_present_flag
   sv_extended_spatial_scalability_idc sv_chroma_phase_x_plus1_flag
   sv_chroma_phase_y_plus1 sv_seq_ref_layer_chroma_phase_x_plus1_flag
   sv_seq_ref_layer_chroma_phase_y_plus1 sv_seq_scaled_ref_layer_left_offset
   sv_seq_scaled_ref_layer_top_offset sv_seq_scaled_ref_layer_right_offset
   sv_seq_scaled_ref_layer_bottom_offset sv_seq_tcoeff_level_prediction_flag
   sv_adaptive_tcoeff_level_prediction_flag sv_slice_header_restriction_flag].
Tactic Notation "red_spssvc" "in" hyp(H) := cbn [
  sv_ChromaArrayType sv_inter_layer_deblocking_filter_control_present_flag
   sv_extended_spatial_scalability_idc sv_chroma_phase_x_plus1_flag
   sv_chroma_phase_y_plus1 sv_seq_ref_layer_chroma_phase_x_plus1_flag
   sv_seq_ref_layer_chroma_phase_y_plus1 sv_seq_scaled_ref_layer_left_offset
   sv_seq_scaled_ref_layer_top_offset sv_seq_scaled_ref_layer_right_offset
   sv_seq_scaled_ref_layer_bottom_offset sv_seq_tcoeff_level_prediction_flag
   sv_adaptive_tcoeff_level_prediction_flag sv_slice_header_restriction_flag] in H.
Ltac red_subsps := cbn [
  ss_sps ss_svc ss_svc_vui_parameters_present_flag ss_bit_equal_to_one
   ss_mvc_vui_parameters_present_flag ss_additional_extension2_flag
   ss_additional_extension2_data_flag].
Tactic Notation "red_subsps" "in" hyp(H) := cbn [
  ss_sps ss_svc ss_svc_vui_parameters_present_flag ss_bit_equal_to_one
   ss_mvc_vui_parameters_present_flag ss_additional_extension2_flag
   ss_additional_extension2_data_flag] in H.
Ltac red_prefsvc := cbn [
  pf_nal_ref_idc pf_use_ref_base_pic_flag pf_idr_flag pf_store_ref_base_pic_flag
   pf_additional_prefix_nal_unit_extension_flag
   pf_additional_prefix_nal_unit_extension_data_flag].
Tactic Notation "red_prefsvc" "in" hyp(H) := cbn [
  pf_nal_ref_idc pf_use_ref_base_pic_flag pf_idr_flag pf_store_ref_base_pic_flag
   pf_additional_prefix_nal_unit_extension_flag
   pf_additional_prefix_nal_unit_extension_data_flag] in H.
Ltac red_prefix := cbn [
  px_svc_extension_flag px_nal_ref_idc px_use_ref_base_pic_flag px_idr_flag
   px_svc].
Tactic Notation "red_prefix" "in" hyp(H) := cbn [
  px_svc_extension_flag px_nal_ref_idc px_use_ref_base_pic_flag px_idr_flag
   px_svc] in H.

(** ** SPS extension *)
Lemma ParseSpsExtensionData_good : good ParseSpsExtensionData.
Proof. unfold ParseSpsExtensionData. good_tac. Qed.
#[export] Hint Resolve ParseSpsExtensionData_good : good.
Lemma ParseSpsExtension_good : good ParseSpsExtension.
Proof. unfold ParseSpsExtension. good_tac. Qed.
#[export] Hint Resolve ParseSpsExtension_good : good.
Lemma spsext_sound : sound ParseSpsExtensionData valid_spsext enc_spsext.
Proof.
  intros b v b' W H. unfold ParseSpsExtensionData in H. inv. conj.
  unfold valid_spsext, enc_spsext. red_spsext. fin.
Qed.
Lemma spsext_complete : complete ParseSpsExtensionData valid_spsext enc_spsext.
Proof.
  intros v V. destruct v. unfold valid_spsext in V. red_spsext in V. conj.
  unfold enc_spsext, ParseSpsExtensionData. red_spsext. walk.
Qed.

(** ** SVC extension of the SPS *)
Lemma spssvc_good : forall cat, good (ParseSpsSvcExtension cat).
Proof. intros. unfold ParseSpsSvcExtension. good_tac. Qed.
#[export] Hint Resolve spssvc_good : good.
Lemma spssvc_sound : forall cat, sound (ParseSpsSvcExtension cat) (valid_spssvc cat) enc_spssvc.
Proof.
  intros cat b v b' W H. unfold ParseSpsSvcExtension in H. inv. conj.
  unfold valid_spssvc, enc_spssvc. cbv zeta. red_spssvc. fin.
Qed.
Lemma spssvc_complete : forall cat, complete (ParseSpsSvcExtension cat) (valid_spssvc cat) enc_spssvc.
Proof.
  intros cat v V. destruct v. unfold valid_spssvc in V. red_spssvc in V. conj. subst.
  unfold enc_spssvc, ParseSpsSvcExtension. cbv zeta. red_spssvc. walk.
Qed.
#[export] Hint Resolve spssvc_sound : snd.
#[export] Hint Resolve spssvc_complete : prs.

(** ** Reading up to the trailing bits *)
Lemma drain_fuel_spec : forall n x b, bb_wf b -> (length (bb_rem b) < n)%nat ->
  exists ds b', drain_fuel n x b = (Ok (match ds with [] => x | _ => last_flag ds end), b') /\
  reads b ds b' /\ at_end (bb_rem b') /\
  (forall d1 d2, ds = d1 ++ d2 -> d2 <> [] -> ~ at_end (d2 ++ bb_rem b')).
Proof.
  induction n as [|n IH]; intros x b W L; [lia|]. cbn [drain_fuel]. unfold sbind at 1.
  rewrite more_data_spec by auto. destruct (ended (bb_rem b)) eqn:E; cbn [negb].
  - exists [], b. split; [reflexivity|]. split; [apply reads_refl; auto|].
    split; [apply ended_iff; auto|]. intros d1 [|] Hd Hn; [congruence|destruct d1; discriminate].
  - destruct (bb_rem b) as [|x0 t] eqn:Eb; [discriminate|].
    assert (R : reads b [x0] (bb_adv b 1) /\ bb_rem (bb_adv b 1) = t).
    { apply (reads_split b [x0] t W). rewrite Eb. reflexivity. }
    destruct R as [R Et].
    assert (Hr : ReadBits 1 b = (Ok (N.b2n x0), bb_adv b 1)).
    { rewrite ReadBits_spec by auto. unfold rd_ok. rewrite Eb.
      replace (negb _) with true by (cbn [length]; lia).
      change (N.to_nat 1) with 1%nat. cbn [firstn]. destruct x0; reflexivity. }
    unfold sbind at 1. rewrite Hr.
    destruct (IH (N.b2n x0) (bb_adv b 1)) as (ds & b' & Hd & Rd & Ae & Suf).
    { eapply reads_wf; eauto. }
    { rewrite Et. cbn [length] in L. lia. }
    exists (x0 :: ds), b'. split; [|split; [|split]].
    + rewrite Hd. do 2 f_equal. unfold last_flag. destruct ds; reflexivity.
    + exact (reads_app _ _ _ [x0] ds R Rd).
    + exact Ae.
    + intros [|y d1] d2 Hs Hn.
      * cbn [app] in Hs. subst d2. cbn [app].
        destruct Rd as (_ & Ed & _). rewrite <- Ed, Et. intro A.
        apply ended_iff in A. congruence.
      * cbn [app] in Hs. injection Hs as _ Hs. apply (Suf d1); auto.
Qed.
Lemma drain_spec : forall x b, bb_wf b ->
  exists ds b', drain x b = (Ok (match ds with [] => x | _ => last_flag ds end), b') /\
  reads b ds b' /\ at_end (bb_rem b') /\
  (forall d1 d2, ds = d1 ++ d2 -> d2 <> [] -> ~ at_end (d2 ++ bb_rem b')).
Proof.
  intros x b W. unfold drain. apply drain_fuel_spec; auto.
  rewrite RemainingBitCount_spec by auto. lia.
Qed.
Lemma drain_good : forall x, good (drain x).
Proof.
  intros x b W. destruct (drain_spec x b W) as (ds & b' & -> & (_ & E & Eb) & _).
  exists (length ds). split; [|exact Eb]. rewrite E, app_length. lia.
Qed.
#[export] Hint Resolve drain_good : good.
Lemma last_flag_nil : forall ds, match ds with [] => 0 | _ => last_flag ds end = last_flag ds.
Proof. intros [|]; reflexivity. Qed.
Lemma drain_complete : forall ds rest b, bb_wf b -> bb_rem b = ds ++ rest -> at_end rest ->
  (forall d1 d2, ds = d1 ++ d2 -> d2 <> [] -> ~ at_end (d2 ++ rest)) ->
  drain 0 b = (Ok (last_flag ds), bb_adv b (length ds)).
Proof.
  intros ds rest b W E Ae Suf.
  destruct (drain_spec 0 b W) as (ds' & b' & -> & (_ & E' & ->) & Ae' & Suf').
  rewrite last_flag_nil. rewrite E in E'.
  remember (bb_rem (bb_adv b (length ds'))) as r eqn:Hr. clear Hr.
  assert (X : ds' = ds).
  { destruct (Nat.lt_trichotomy (length ds) (length ds')) as [L|[L|L]].
    - exfalso. assert (Hd : ds' = ds ++ skipn (length ds) ds').
      { rewrite <- (firstn_skipn (length ds) ds') at 1. f_equal.
        apply (f_equal (firstn (length ds))) in E'.
        rewrite !firstn_app, firstn_all, Nat.sub_diag, firstn_O, app_nil_r in E'.
        replace (length ds - length ds')%nat with 0%nat in E' by lia.
        rewrite firstn_O, app_nil_r in E'. auto. }
      apply (Suf' _ _ Hd).
      + intro Z. apply (f_equal (@length bool)) in Z. rewrite skipn_length in Z. cbn in Z. lia.
      + rewrite Hd in E'. rewrite <- app_assoc in E'. apply app_inv_head in E'.
        rewrite <- E'. exact Ae.
    - apply (f_equal (firstn (length ds))) in E'. rewrite L in E' at 2.
      rewrite !firstn_app, !firstn_all, !Nat.sub_diag, !firstn_O, !app_nil_r in E'. auto.
    - exfalso. assert (Hd : ds = ds' ++ skipn (length ds') ds).
      { rewrite <- (firstn_skipn (length ds') ds) at 1. f_equal.
        apply (f_equal (firstn (length ds'))) in E'.
        rewrite !firstn_app, (firstn_all ds'), Nat.sub_diag, firstn_O, app_nil_r in E'.
        replace (length ds' - length ds)%nat with 0%nat in E' by lia.
        rewrite firstn_O, app_nil_r in E'. auto. }
      apply (Suf _ _ Hd).
      + intro Z. apply (f_equal (@length bool)) in Z. rewrite skipn_length in Z. cbn in Z. lia.
      + rewrite Hd in E'. rewrite <- app_assoc in E'. apply app_inv_head in E'.
        rewrite E'. exact Ae'. }
  subst. reflexivity.
Qed.
Lemma drain_stop : forall ds k b, bb_wf b -> bb_rem b = ds ++ stop_bits k -> (k <= 7)%nat ->
  drain 0 b = (Ok (last_flag ds), bb_adv b (length ds)).
Proof.
  intros ds k b W E K. apply drain_complete with (stop_bits k); auto.
  - right. eauto.
  - intros d1 d2 _ N A. apply ended_iff in A. rewrite not_ended_app in A; auto. discriminate.
Qed.

(** ** Subset SPS *)
Lemma ParseSubsetExt_good : forall s, good (ParseSubsetExt s).
Proof. intros. unfold ParseSubsetExt. good_tac. Qed.
#[export] Hint Resolve ParseSubsetExt_good : good.
Lemma ParseSubsetSps_good : good ParseSubsetSps.
Proof. unfold ParseSubsetSps. good_tac. Qed.
#[export] Hint Resolve ParseSubsetSps_good : good.

Lemma cat_eq : forall s, getChromaArrayType (chroma_format_idc s) (separate_colour_plane_flag s)
  = chroma_array_type s.
Proof. reflexivity. Qed.

Definition subset_ext_ok (s : sps) (e : option spssvc) (vui : N) : Prop :=
  if is_svc_profile (profile_idc s)
  then (exists x, e = Some x /\ valid_spssvc (chroma_array_type s) x) /\ is_u 1 vui
  else e = None /\ vui = 0.
Definition enc_subset_ext (e : option spssvc) (vui : N) : list bool :=
  match e with Some x => enc_spssvc x ++ u_bits 1 vui | None => [] end.
Lemma subset_ext_sound : forall s b svc vui one mvui b', bb_wf b ->
  is_mv_profile (profile_idc s) = false ->
  ParseSubsetExt s b = (Ok (svc, vui, one, mvui), b') ->
  subset_ext_ok s svc vui /\ one = 0 /\ mvui = 0 /\ reads b (enc_subset_ext svc vui) b'.
Proof.
  intros s b svc vui one mvui b' W M H. unfold ParseSubsetExt in H. cbv zeta in H.
  rewrite cat_eq in H. unfold is_mv_profile in M. cbn [existsb] in M.
  unfold subset_ext_ok, is_svc_profile.
  destruct ((profile_idc s =? 83) || (profile_idc s =? 86)).
  - inv. pairinv. cbn [enc_subset_ext]. fin. eauto.
  - replace ((profile_idc s =? 118) || (profile_idc s =? 128) || (profile_idc s =? 134))
      with false in H by lia.
    replace ((profile_idc s =? 138) || (profile_idc s =? 135)) with false in H by lia.
    replace (profile_idc s =? 139) with false in H by lia.
    inv. pairinv. cbn [enc_subset_ext]. fin.
Qed.
Lemma subset_ext_complete : forall s svc vui, is_mv_profile (profile_idc s) = false ->
  subset_ext_ok s svc vui ->
  parses (ParseSubsetExt s) (enc_subset_ext svc vui) (svc, vui, 0, 0).
Proof.
  intros s svc vui M V. unfold ParseSubsetExt. cbv zeta. rewrite cat_eq.
  unfold is_mv_profile in M. cbn [existsb] in M. unfold subset_ext_ok, is_svc_profile in V.
  destruct ((profile_idc s =? 83) || (profile_idc s =? 86)).
  - destruct V as [(x & -> & V) U]. cbn [enc_subset_ext].
    eapply parses_bind; [apply (spssvc_complete (chroma_array_type s)); exact V|]. walk.
  - replace ((profile_idc s =? 118) || (profile_idc s =? 128) || (profile_idc s =? 134))
      with false by lia.
    replace ((profile_idc s =? 138) || (profile_idc s =? 135)) with false by lia.
    replace (profile_idc s =? 139) with false by lia.
    destruct V as [-> ->]. cbn [enc_subset_ext]. walk.
Qed.

Lemma ParseSubsetSps_sound : forall b v b', bb_wf b -> ParseSubsetSps b = (Ok v, b') ->
  is_mv_profile (profile_idc (ss_sps v)) = false ->
  exists ls ds b1, valid_subsps v ls ds /\ reads b (enc_subsps v ls ds) b1 /\
  (ss_additional_extension2_flag v = 1 -> at_end (bb_rem b1)) /\
  exists m, (m <= length (bb_rem b1))%nat /\ b' = bb_adv b1 m.
Proof.
  intros b v b' W H M. unfold ParseSubsetSps in H.
  apply sbind_inv in H. destruct H as (s & b1 & Q1 & H).
  destruct (ParseSpsData_sound b s b1 W Q1) as (ls & Vs & R1).
  pose proof (reads_wf _ _ _ R1) as W1.
  apply sbind_inv in H. destruct H as ([[[svc vui] one] mvui] & b2 & Q2 & H).
  cbn beta iota in H.
  apply sbind_inv in H. destruct H as (add & b3 & Q3 & H).
  apply sbind_inv in H. destruct H as (data & b4 & Q4 & H).
  apply sbind_inv in H. destruct H as (u & b5 & Q5 & H).
  apply sret_inv in H. destruct H as [-> ->]. cbn [ss_sps] in M.
  apply subset_ext_sound in Q2; [|auto|auto]. destruct Q2 as (V2 & -> & -> & R2).
  pose proof (reads_wf _ _ _ R2) as W2. rd. rename H1 into W3, H0 into U3.
  assert (D : exists ds, data = last_flag ds /\ reads b3 ds b4 /\ (add = 0 -> ds = []) /\
    (add = 1 -> at_end (bb_rem b4))).
  { destruct (add =? 1) eqn:Ea; cbn [cond] in Q4.
    - destruct (drain_spec 0 b3 W3) as (ds & b4' & Hd & Rd & Ae & _).
      rewrite Hd in Q4. inversion Q4; subst. exists ds. rewrite last_flag_nil.
      split; [auto|]. split; [auto|]. split; [lia|auto].
    - inv1. exists []. split; [reflexivity|]. split; [apply reads_refl; auto|].
      split; [auto|lia]. }
  destruct D as (ds & -> & R4 & D0 & D1). pose proof (reads_wf _ _ _ R4) as W4.
  destruct (ignored_ok _ rbsp_trailing_bits b4 rbsp_trailing_bits_good W4) as (m & Lm & Hm).
  rewrite Hm in Q5. inversion Q5; subst.
  exists ls, ds, b4. unfold valid_subsps, enc_subsps. red_subsps.
  split; [|split; [|split; [auto|eauto]]].
  - unfold subset_ext_ok in V2. destruct (is_svc_profile (profile_idc s)); conj; fin.
  - eapply reads_app; [exact R1|]. eapply reads_app; [exact R2|].
    eapply reads_app; [exact Q3|exact R4].
Qed.

(** A step whose result depends on everything that is left. *)
Lemma gives_bind_rest : forall A B (p : P A) (f : A -> P B) c1 c2 rest a v,
  (forall b, bb_wf b -> bb_rem b = c1 ++ c2 ++ rest -> p b = (Ok a, bb_adv b (length c1))) ->
  gives (f a) c2 rest v -> gives (sbind p f) (c1 ++ c2) rest v.
Proof.
  intros A B p f c1 c2 rest a v H1 H2 b W E. rewrite <- app_assoc in E.
  destruct (reads_split b c1 _ W E) as [R Er].
  specialize (H2 _ (reads_wf _ _ _ R) Er).
  unfold sbind. rewrite (H1 b W E), H2, bb_adv_adv, app_length. reflexivity.
Qed.
Lemma ParseSubsetSps_complete : forall v ls ds k, valid_subsps v ls ds ->
  Forall slist_readable ls -> (k <= 7)%nat ->
  gives ParseSubsetSps (enc_subsps v ls ds) (stop_bits k) v.
Proof.
  intros v ls ds k V F K. destruct v as [s svc vui one mvui add data].
  unfold valid_subsps in V. red_subsps in V.
  destruct V as (Vs & M & Ve & Vv & -> & -> & Ua & D0 & ->).
  unfold enc_subsps, ParseSubsetSps. red_subsps.
  eapply gives_bind; [apply ParseSpsData_complete; eauto|].
  eapply gives_bind; [apply (subset_ext_complete s svc vui M)|cbn beta iota].
  { unfold subset_ext_ok. destruct (is_svc_profile (profile_idc s)); auto. }
  eapply gives_bind; [walk|]. rewrite <- (app_nil_r ds) at 1.
  eapply gives_bind_rest with (a := last_flag ds); [|apply gives_end].
  intros b W E. cbn [app] in E. destruct (add =? 1) eqn:Ea; cbn [cond].
  - eapply drain_stop; eauto.
  - unfold is_u in Ua. rewrite D0 by lia. cbn. rewrite adv0; auto.
Qed.

(** ** Prefix NAL unit *)
Lemma prefsvc_good : forall ref use idr, good (ParsePrefixNalUnitSvc ref use idr).
Proof. intros. unfold ParsePrefixNalUnitSvc. good_tac. Qed.
#[export] Hint Resolve prefsvc_good : good.
Lemma prefix_good : forall f ref use idr, good (ParsePrefixNalUnitRbsp f ref use idr).
Proof. intros. unfold ParsePrefixNalUnitRbsp. good_tac. Qed.
#[export] Hint Resolve prefix_good : good.

(** Accepted prefix NAL units: data flags are read even when the extension flag is 0, and
    not at all when nal_ref_idc is 0. *)
Lemma prefsvc_sound : forall ref use idr b v b', bb_wf b ->
  ParsePrefixNalUnitSvc ref use idr b = (Ok (Some v), b') ->
  exists ds b1, reads b (enc_prefsvc v ds) b1 /\
  (exists m, (m <= length (bb_rem b1))%nat /\ b' = bb_adv b1 m) /\
  pf_nal_ref_idc v = ref /\ pf_use_ref_base_pic_flag v = use /\ pf_idr_flag v = idr /\
  pf_additional_prefix_nal_unit_extension_data_flag v = last_flag ds /\
  (if negb (ref =? 0)
   then is_u 1 (pf_store_ref_base_pic_flag v) /\
        has_base_marking use (pf_store_ref_base_pic_flag v) idr = false /\
        is_u 1 (pf_additional_prefix_nal_unit_extension_flag v) /\ at_end (bb_rem b1)
   else pf_store_ref_base_pic_flag v = 0 /\
        pf_additional_prefix_nal_unit_extension_flag v = 0 /\ ds = [] /\ b' = b).
Proof.
  intros ref use idr b v b' W H. unfold ParsePrefixNalUnitSvc in H.
  destruct (ref =? 0) eqn:Er; cbn [negb] in *.
  - inv. pairinv. exists [], b. unfold enc_prefsvc. red_prefsvc. rewrite Er. cbn [negb app].
    split; [apply reads_refl; auto|]. split; [|change (last_flag []) with 0; fin].
    exists 0%nat. split; [lia|rewrite adv0; auto].
  - apply sbind_inv in H. destruct H as (store & b1 & Q1 & H). rd.
    rename H1 into U1, H2 into W1.
    destruct ((tob use || tob store) && negb (tob idr)) eqn:Eu; [inv; discriminate|].
    apply sbind_inv in H. destruct H as (add & b2 & Q2 & H). rd.
    rename H2 into U2, H3 into W2.
    apply sbind_inv in H. destruct H as (data & b3 & Q3 & H).
    apply sret_inv in H. destruct H as [E ->]. injection E as ->.
    assert (D : exists ds b4, data = last_flag ds /\ reads b2 ds b4 /\ at_end (bb_rem b4) /\
      exists m, (m <= length (bb_rem b4))%nat /\ b3 = bb_adv b4 m).
    { assert (Dr : forall bb3, (x <- drain 0 ;; ignored rbsp_trailing_bits ;;; sret x)%m b2 =
        (Ok data, bb3) -> exists ds b4, data = last_flag ds /\ reads b2 ds b4 /\
        at_end (bb_rem b4) /\ exists m, (m <= length (bb_rem b4))%nat /\ bb3 = bb_adv b4 m).
      { intros bb3 Q. destruct (trailing_inv _ (drain 0) _ _ _ (drain_good 0) W2 Q)
          as (b4 & m & Qd & Lm & ->).
        destruct (drain_spec 0 b2 W2) as (ds & b4' & Hd & Rd & Ae & _).
        rewrite Hd in Qd. inversion Qd; subst. rewrite last_flag_nil. eauto 8. }
      destruct (add =? 1).
      - apply Dr. exact Q3.
      - apply sbind_inv in Q3. destruct Q3 as (more & b4 & Qm & Q3).
        apply more_data_inv in Qm; [|auto]. destruct Qm as [-> ->].
        destruct (ended (bb_rem b2)) eqn:Ee; cbn [negb cond] in Q3.
        + apply sret_inv in Q3. destruct Q3 as [-> ->]. exists [], b2.
          split; [reflexivity|]. split; [apply reads_refl; auto|].
          split; [apply ended_iff; auto|]. exists 0%nat. split; [lia|rewrite adv0; auto].
        + apply Dr. exact Q3. }
    destruct D as (ds & b4 & -> & R4 & Ae & Hm).
    exists ds, b4. unfold enc_prefsvc. red_prefsvc. rewrite Er. cbn [negb].
    split; [|split; [exact Hm|]].
    + rewrite <- app_assoc. eapply reads_app; [exact Q1|]. eapply reads_app; [exact Q2|exact R4].
    + unfold has_base_marking. change on with tob. fin.
Qed.
Lemma prefsvc_complete : forall ref use idr v ds k, valid_prefsvc ref use idr v ds ->
  (k <= 7)%nat -> (ref = 0 -> ds = []) ->
  yields (ParsePrefixNalUnitSvc ref use idr) (enc_prefsvc v ds) (stop_bits k) (Some v).
Proof.
  intros ref use idr v ds k V K Z. destruct v as [r u i store add data].
  unfold valid_prefsvc in V. red_prefsvc in V. destruct V as (-> & -> & -> & V & ->).
  unfold enc_prefsvc, ParsePrefixNalUnitSvc. red_prefsvc.
  destruct (ref =? 0) eqn:Er; cbn [negb] in *.
  - destruct V as [-> ->]. rewrite Z by lia. apply yields_of_parses. apply parses_ret.
  - destruct V as (U1 & Hb & U2 & D0). rewrite <- app_assoc.
    eapply yields_bind; [walk|]. unfold has_base_marking in Hb. change on with tob in Hb.
    rewrite Hb. eapply yields_bind; [walk|].
    assert (Dr : forall b, bb_wf b -> bb_rem b = ds ++ stop_bits k -> exists m,
      (m <= length (bb_rem b))%nat /\
      (x <- drain 0 ;; ignored rbsp_trailing_bits ;;; sret x)%m b = (Ok (last_flag ds), bb_adv b m)).
    { intros b W E. pose proof (drain_stop ds k b W E K) as Hd.
      destruct (trailing_intro _ (drain 0) b _ _ (drain_good 0) W Hd) as (m & Lm & Hm).
      exists (length ds + m)%nat. rewrite Hm. split; [|rewrite bb_adv_adv; reflexivity].
      rewrite bb_adv_rem, skipn_length in Lm by (rewrite E, app_length; lia).
      rewrite E, app_length in *. lia. }
    intros b W E. unfold sbind at 1. destruct (add =? 1) eqn:Ea.
    + destruct (Dr b W E) as (m & Lm & ->). exists m. split; [auto|reflexivity].
    + unfold sbind at 1. rewrite more_data_spec by auto.
      unfold is_u in U2. rewrite D0 in * by lia. cbn [app] in E.
      replace (ended (bb_rem b)) with true.
      2:{ symmetry. apply ended_iff. right. rewrite E. eauto. }
      cbn [negb cond]. exists 0%nat. split; [lia|]. rewrite adv0 by auto. reflexivity.
Qed.
Lemma prefsvc_unimpl : forall ref use idr store, ref <> 0 -> is_u 1 store ->
  has_base_marking use store idr = true ->
  parses (ParsePrefixNalUnitSvc ref use idr) (u_bits 1 store) None.
Proof.
  intros ref use idr store R U Hb. unfold ParsePrefixNalUnitSvc.
  replace (ref =? 0) with false by lia. cbn [negb]. eapply parses_bind1; [walk|].
  unfold has_base_marking in Hb. change on with tob in Hb. rewrite Hb. apply parses_ret.
Qed.
