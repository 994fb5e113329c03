(** Dumps: what the parsers return is dumped without undefined behaviour. *)
From Coq Require Import NArith ZArith List Bool Lia ZifyBool ZifyNat ZifyN String Ascii.
From Verif Require Import SpecBits Base BitBuffer SpecReader BitsLemmas BitBufferProofs
  ReaderProofs Rbsp RbspProofs ChecksumProofs Parser SpecSyntax ParserProofs TypesSps TypesPps SpecVui Vui VuiProofs
  SpecSps Sps SpsProofs SpecPps Pps PpsProofs TypesNal NalHeader SpecNalHeader NalHeaderProofs
  TypesExt Ext SpecExt ExtProofs TypesSlice SpecSliceParts TypesSliceHeader SliceHeader SpecSlice SliceProofs TypesSvcSlice
  SvcSlice SpecSvcSlice SvcSliceProofs TypesNalUnit NalUnit NalUnitProofs NalUnitProofs2 NalType Rtp
  SpecDump Dump DumpProofs.
Import ListNotations.
Open Scope N_scope.
Open Scope list_scope.
Ltac Zify.zify_post_hook ::= Z.div_mod_to_equations.

(** * Structures without pointers *)
Lemma nice_hrd : forall h, nice (dump_hrd h).
Proof. intros. unfold dump_hrd. nices. Qed.
Lemma nice_spsext : forall h, nice (dump_spsext h).
Proof. intros. unfold dump_spsext. nices. Qed.
Lemma nice_spssvc : forall h, nice (dump_spssvc h).
Proof. intros. unfold dump_spssvc. nices. Qed.
Lemma nice_scal : forall k s, plain k = true -> nice (dump_scal k s).
Proof. intros. unfold dump_scal. nices. apply nice_fus. auto. Qed.
Lemma nice_pps : forall h, nice (dump_pps h).
Proof. intros. unfold dump_pps. nices. apply nice_scal. reflexivity. Qed.
Lemma nice_prefsvc : forall v, nice (dump_prefsvc v).
Proof. intros. unfold dump_prefsvc. nices. Qed.
Lemma nice_prefix : forall v, nice (dump_prefix v).
Proof. intros. unfold dump_prefix. nices. destruct (px_svc v); [apply nice_prefsvc|apply nice_nil]. Qed.
Lemma nice_rplm : forall v, nice (dump_rplm v).
Proof. intros. unfold dump_rplm. nices. Qed.
Lemma nice_pwt : forall v, nice (dump_pwt v).
Proof. intros. unfold dump_pwt. nices. Qed.
Lemma nice_drpm : forall v, nice (dump_drpm v).
Proof. intros. unfold dump_drpm. nices. Qed.
Lemma nice_svc_ext : forall v, nice (dump_svc_ext v).
Proof. intros. unfold dump_svc_ext. nices. Qed.
Lemma nice_nalh : forall v, nice (dump_nalh v).
Proof. intros. unfold dump_nalh. cbv zeta. nices. destruct (nal_svc v); nices. apply nice_svc_ext. Qed.

(** * SPS *)
Lemma nice_present : forall A (c : bool) valid (o : option A) f, valid_opt c valid o ->
  (forall a, valid a -> nice (f a)) -> nice (when c (deref o f)).
Proof.
  intros A c valid o f V H. apply nice_when. intros ->. destruct o as [a|]; cbn in V; [|tauto].
  apply nice_deref. eauto.
Qed.
Lemma nice_vui : forall v, valid_vui v -> nice (dump_vui v).
Proof.
  intros v V. unfold valid_vui in V. change on with tob in V. unfold dump_vui.
  nices; match goal with |- nice (deref _ _) => idtac end; conj.
  all: (apply nice_deref; match goal with H : valid_opt _ _ ?o, E : tob _ = true |- exists a, ?o = _ /\ _ =>
    rewrite E in H; destruct o as [a|]; cbn in H; [|tauto]; exists a; split; [reflexivity|apply nice_hrd] end).
Qed.
Lemma profile_plain : forall p, Forall (fun w => plain w = true) (profile_words p).
Proof. destruct p; repeat constructor. Qed.
Lemma nice_sps_data : forall o s, ok_sps s -> nice (dump_sps_data o s).
Proof.
  intros o s (ls & V). pose proof (getResolution_spec s ls V) as (G & _). unfold valid_sps in V.
  change on with tob in V. conj. unfold dump_sps_data. nices.
  - apply nice_words; [reflexivity|apply profile_plain].
  - apply nice_scal. reflexivity.
  - apply nice_deref. match goal with H : valid_opt _ _ ?o, E : tob _ = true |- exists a, ?o = _ /\ _ =>
      rewrite E in H; destruct o as [a|]; cbn in H; [|tauto]; exists a; split; [reflexivity|apply nice_vui; exact H] end.
  - unfold dump_resolution. rewrite G. nices.
Qed.
Lemma nice_sps : forall o s, ok_sps s -> nice (dump_sps o s).
Proof. intros. unfold dump_sps. nices. apply nice_sps_data. auto. Qed.

(** * Subset SPS: which extension there is *)
Definition good_subset (v : subsps) : Prop :=
  let idc := profile_idc (ss_sps v) in
  ok_sps (ss_sps v) /\
  (if (idc =? 83) || (idc =? 86) then
     (exists e, ss_svc v = Some e /\ valid_spssvc (chroma_array_type (ss_sps v)) e) /\
     ss_bit_equal_to_one v = 0 /\ ss_mvc_vui_parameters_present_flag v = 0
   else ss_svc v = None /\ ss_svc_vui_parameters_present_flag v = 0 /\
     (if (idc =? 118) || (idc =? 128) || (idc =? 134) then True
      else ss_mvc_vui_parameters_present_flag v = 0 /\
        (if (idc =? 138) || (idc =? 135) then True
         else if idc =? 139 then True else ss_bit_equal_to_one v = 0))) /\
  (if ss_additional_extension2_flag v =? 1 then True else ss_additional_extension2_data_flag v = 0).
Lemma subset_good : forall b v b', bb_wf b -> ParseSubsetSps b = (Ok v, b') -> good_subset v.
Proof.
  intros b v b' W H. unfold ParseSubsetSps in H.
  apply sbind_inv in H. destruct H as (s & b1 & Q1 & H).
  destruct (ParseSpsData_sound b s b1 W Q1) as (ls & Vs & R1).
  pose proof (reads_wf _ _ _ R1) as W1.
  apply sbind_inv in H. destruct H as ([[[svc vui] one] mvui] & b2 & Q2 & H).
  cbn beta iota in H.
  apply sbind_inv in H. destruct H as (add & b3 & _ & H).
  apply sbind_inv in H. destruct H as (data & b4 & Q4 & H).
  apply sbind_inv in H. destruct H as (u & b5 & _ & H).
  apply sret_inv in H. destruct H as [-> _]. unfold good_subset.
  cbn [ss_sps ss_svc ss_svc_vui_parameters_present_flag ss_bit_equal_to_one ss_mvc_vui_parameters_present_flag
       ss_additional_extension2_flag ss_additional_extension2_data_flag].
  split; [exists ls; exact Vs|]. split.
  - unfold ParseSubsetExt in Q2. cbv zeta in Q2. rewrite cat_eq in Q2.
    destruct ((profile_idc s =? 83) || (profile_idc s =? 86)).
    + apply sbind_inv in Q2. destruct Q2 as (x & b6 & Q & Q2).
      apply sbind_inv in Q2. destruct Q2 as (y & b7 & _ & Q2).
      apply sret_inv in Q2. destruct Q2 as [Q2 _]. injection Q2 as -> -> -> ->.
      apply spssvc_sound in Q; auto. split; [|auto]. exists x. tauto.
    + destruct ((profile_idc s =? 118) || (profile_idc s =? 128) || (profile_idc s =? 134)).
      { apply sbind_inv in Q2. destruct Q2 as (y & b7 & _ & Q2).
        apply sbind_inv in Q2. destruct Q2 as (z & b8 & _ & Q2). apply sret_inv in Q2. destruct Q2 as [Q2 _].
        injection Q2 as -> -> -> ->. auto. }
      destruct ((profile_idc s =? 138) || (profile_idc s =? 135)).
      { apply sbind_inv in Q2. destruct Q2 as (y & b7 & _ & Q2). apply sret_inv in Q2. destruct Q2 as [Q2 _].
        injection Q2 as -> -> -> ->. auto. }
      destruct (profile_idc s =? 139).
      { apply sbind_inv in Q2. destruct Q2 as (y & b7 & _ & Q2). apply sret_inv in Q2. destruct Q2 as [Q2 _].
        injection Q2 as -> -> -> ->. auto. }
      apply sret_inv in Q2. destruct Q2 as [Q2 _]. injection Q2 as -> -> -> ->. auto.
  - destruct (add =? 1); [exact I|]. cbn [cond] in Q4. apply sret_inv in Q4. tauto.
Qed.
Lemma nice_subsps : forall o v, good_subset v -> nice (dump_subsps o v).
Proof.
  intros o v (O & S & _). unfold dump_subsps. cbv zeta. apply nice_block; [reflexivity|].
  apply nice_app; [apply nice_sps_data, O|]. apply nice_app; [|nices].
  destruct (_ || _) eqn:E1 in |- *; cbv zeta in S; rewrite E1 in S.
  - nices. destruct S as ((e & -> & _) & _). apply nice_deref. exists e. split; [reflexivity|apply nice_spssvc].
  - nices.
Qed.

(** * Slice headers *)
Definition good_slice (st : pstate) (ref nut : N) (h : slh) : Prop :=
  exists s p v, active st (pic_parameter_set_id (s_lead v)) = Some (s, p) /\
    valid_slice ref nut s p v /\ h = slh_of ref nut s p v.
Lemma nice_opt_ok : forall A B (c : bool) ok (o : option A) (g : A -> B) f, opt_ok c ok o ->
  (forall b, nice (f b)) -> nice (when c (deref (option_map g o) f)).
Proof. intros A B c ok o g f V H. apply nice_when. intros ->. destruct V as (x & -> & _). apply H. Qed.
Lemma nice_slh : forall st ref nut h, good_slice st ref nut h -> nice (dump_slh h).
Proof.
  intros st ref nut h (s & p & v & A & V & ->). unfold valid_slice in V. conj.
  assert (T : s_type v <= 9) by (match goal with H : valid_lead _ |- _ => apply H end).
  unfold dump_slh. cbv zeta. unfold slh_of. cbv zeta.
  cbn [sh_in sh_lead sh_pic sh_idr_pic_id sh_poc sh_redundant_pic_cnt sh_refs sh_ref_pic_list_modification
       sh_pred_weight_table sh_dec_ref_pic_marking sh_cabac_init_idc sh_slice_qp_delta sh_spqs sh_dbk
       sh_slice_group_change_cycle]. fold (s_type v). rewrite type_P, type_B, type_SP by exact T.
  change (on (pps_weighted_pred_flag p) && (P_slice (s_type v) || SP_slice (s_type v)) || (pps_weighted_bipred_idc p =? 1) && B_slice (s_type v)) with (weighted p (s_type v)).
  apply nice_block; [reflexivity|].
  repeat match goal with
  | |- nice (when _ (deref _ dump_pwt) ++ _) => apply nice_app; [eapply nice_opt_ok; [eassumption|apply nice_pwt]|]
  | |- nice (when _ (deref _ dump_drpm) ++ _) => apply nice_app; [eapply nice_opt_ok; [eassumption|apply nice_drpm]|]
  | |- nice (dump_rplm _ ++ _) => apply nice_app; [apply nice_rplm|]
  | |- nice (_ ++ _) => apply nice_app; [solve [nices]|]
  end. nices.
Qed.
Definition good_svc_slice (st : pstate) (hd : nalh) (h : svh) : Prop :=
  exists c v, svc_active hd st (pic_parameter_set_id (v_lead (fst v))) = Some c /\
    valid_svc_slice 0 0 c v /\ svh_of c v = Some h.
Lemma nice_svh : forall st hd h, good_svc_slice st hd h -> nice (dump_svh h).
Proof.
  intros st hd h (c & v & _ & V & E). destruct v as [v [w|]]; [|discriminate].
  unfold svh_of in E. cbn [snd fst option_map] in E. injection E as <-.
  destruct V as [V _]. cbn [fst] in V. unfold valid_svc1 in V. conj.
  assert (T : v_type v <= 9) by (match goal with H : valid_lead _ |- _ => apply H end).
  match goal with H : opt_ok _ _ (v_qz v) |- _ => rename H into Q end.
  unfold dump_svh. cbv zeta.
  cbn [vh_in vh_svin vh_lead vh_pic vh_idr_pic_id vh_poc vh_redundant_pic_cnt vh_qzero vh_cabac_init_idc
       vh_slice_qp_delta vh_dbk vh_slice_group_change_cycle vh_ilayer vh_modes vh_scan_idx_start vh_scan_idx_end].
  apply nice_block; [reflexivity|].
  repeat match goal with
  | |- nice (when (in_quality_id _ =? 0) _ ++ _) => apply nice_app; [|solve [nices]]
  | |- nice (_ ++ _) => apply nice_app; [solve [nices]|]
  end.
  apply nice_when. intros Z. change (c_base_layer_quality c = true) in Z. rewrite Z in Q.
  destruct Q as (z & E & Q). rewrite E. unfold valid_qz in Q. destruct Q as (_ & _ & Q1 & Q2 & Q3 & _).
  fold (v_type v). rewrite type_P, type_B by exact T.
  cbn [qzero_of q_refs q_ref_pic_list_modification q_base_pred_weight_table_flag q_pred_weight_table
       q_dec_ref_pic_marking q_store_ref_base_pic_flag deref].
  repeat match goal with
  | |- nice (dump_rplm _ ++ _) => apply nice_app; [apply nice_rplm|]
  | |- nice (_ ++ _) => apply nice_app; [solve [nices]|]
  end.
  apply nice_app.
  - apply nice_when. intros X.
    assert (SW : svc_weights c (v_type v) = true).
    { unfold svc_inputs_of in X. cbv zeta in X. cbn [in_weighted_pred_flag in_weighted_bipred_idc] in X.
      rewrite Z in X. exact X. }
    apply nice_app; [nices|]. apply nice_when. intros Y. apply nice_deref.
    assert (NF : svc_weights c (v_type v) && negb (on (z_base_pred_weight_table_flag z)) = true).
    { rewrite SW in *. cbn [andb] in *. unfold svc_inputs2_of in Y. cbv zeta in Y. cbn [in_no_inter_layer_pred_flag] in Y.
      change tob with on in Y. unfold c_inter_layer in Q1.
      destruct (on (svc_no_inter_layer_pred_flag (c_ext c))); cbn [negb] in Q1; [|exact Y].
      rewrite Q1. reflexivity. }
    rewrite NF in Q2. destruct Q2 as (t & -> & _). eexists. split; [reflexivity|apply nice_pwt].
  - apply nice_when. intros X. apply nice_app; [|nices].
    change (c_ref c = true) in X. rewrite X in Q3. destruct Q3 as (m & -> & _). apply nice_drpm.
Qed.

(** * What a payload parser returns *)
(** [st]: the parameter sets before; [h]: the NAL unit header. *)
Record good_payload (st : pstate) (h : nalh) (p : payload) : Prop := {
  gp_slice : forall x, pl_slice p = Some x ->
    x = mkslp (nal_ref_idc h) (nal_unit_type h) (sl_slice_header x) /\
    good_slice st (nal_ref_idc h) (nal_unit_type h) (sl_slice_header x);
  gp_sps : forall x, pl_sps p = Some x -> ok_sps x;
  gp_pps : forall x, pl_pps p = Some x -> ok_pps x;
  gp_prefix : forall x, pl_prefix p = Some x ->
    tob (svc_extension_flag h) = true /\ exists e, nal_svc h = Some e /\
    px_svc_extension_flag x = svc_extension_flag h /\ px_nal_ref_idc x = nal_ref_idc h /\
    px_use_ref_base_pic_flag x = svc_use_ref_base_pic_flag e /\ px_idr_flag x = svc_idr_flag e /\
    (if svc_extension_flag h =? 1 then exists v, px_svc x = Some v /\
       pf_nal_ref_idc v = nal_ref_idc h /\ pf_use_ref_base_pic_flag v = svc_use_ref_base_pic_flag e /\
       pf_idr_flag v = svc_idr_flag e /\
       (nal_ref_idc h = 0 -> v = mkprefsvc 0 (svc_use_ref_base_pic_flag e) (svc_idr_flag e) 0 0 0)
     else px_svc x = None);
  gp_subset : forall x, pl_subset_sps p = Some x -> good_subset x;
  gp_slice_ext : forall x, pl_slice_ext p = Some x ->
    x = mkslext (svc_extension_flag h) (avc_3d_extension_flag h) (nal_ref_idc h) (nal_unit_type h)
          (sx_slice_header x) (sx_svc_slice_header x) /\
    (if tob (svc_extension_flag h) then sx_slice_header x = None /\
       forall y, sx_svc_slice_header x = Some y -> good_svc_slice st h y
     else sx_svc_slice_header x = None /\
       if tob (avc_3d_extension_flag h) then sx_slice_header x = None
       else exists y, sx_slice_header x = Some y /\ good_slice st (nal_ref_idc h) (nal_unit_type h) y)
}.
Lemma storedu_inv : forall A (p : pstate -> P (option A)) b w o s, storedu p (b, w) = (Ok o, s) ->
  forall a, o = Some a -> exists b', p (w_st w) b = (Ok (Some a), b') /\ fst s = b'.
Proof.
  intros A p b w o s H a ->. unfold storedu in H. destruct (p (w_st w) b) as [[[x|]| |k| |] b']; inversion H; subst; eauto.
Qed.
Lemma stored_inv : forall A (p : P A) b w o s, stored p (b, w) = (Ok o, s) ->
  forall a, o = Some a -> exists b', p b = (Ok a, b').
Proof. intros A p b w o s H a ->. unfold stored in H. destruct (p b) as [[x| |k| |] b']; inversion H; subst; eauto. Qed.
Lemma slice_good : forall ref nut st b h b', bb_wf b -> ok_state st ->
  ParseSliceHeader ref nut st b = (Ok (Some h), b') -> good_slice st ref nut h.
Proof.
  intros ref nut st b h b' W O H. apply slice_sound in H; auto using ok_use_state.
  destruct H as (_ & s & p & v & A & V & E & _). exists s, p, v. auto.
Qed.
Lemma payload_good : forall h b w p s, bb_wf b -> ok_state (w_st w) ->
  ParseNalUnitPayload h (b, w) = (Ok p, s) -> good_payload (w_st w) h p.
Proof.
  intros h b w p s W O H. unfold ParseNalUnitPayload in H. cbv zeta in H.
  destruct (_ || _) eqn:T1.
  { apply sbind_inv in H. destruct H as (o & s1 & H1 & H). apply sret_inv in H. destruct H as [-> _].
    split; cbn; intros; try discriminate. subst o. eapply storedu_inv in H1; [|reflexivity].
    destruct H1 as (b1 & H1 & _). unfold ParseSliceLayerWithoutPartitioningRbsp in H1.
    apply sbind_inv in H1. destruct H1 as (sh & b2 & H2 & H1). apply sret_inv in H1. destruct H1 as [H1 _].
    destruct sh as [sh|]; [|discriminate]. injection H1 as ->. cbn [sl_slice_header]. split; [reflexivity|].
    eapply slice_good; eauto. }
  destruct (_ =? 7) eqn:T2.
  { apply sbind_inv in H. destruct H as (o & s1 & H1 & H). apply sbind_inv in H. destruct H as (u & s2 & _ & H).
    apply sret_inv in H. destruct H as [-> _]. split; cbn; intros; try discriminate. subst o.
    eapply stored_inv in H1; [|reflexivity]. destruct H1 as (b1 & H1). eapply ParseSps_ok; eauto. }
  destruct (_ =? 8) eqn:T3.
  { apply sbind_inv in H. destruct H as (o & s1 & H1 & H). apply sbind_inv in H. destruct H as (u & s2 & _ & H).
    apply sret_inv in H. destruct H as [-> _]. split; cbn; intros; try discriminate. subst o.
    eapply stored_inv in H1; [|reflexivity]. destruct H1 as (b1 & H1). eapply ParsePps_ok; eauto. }
  destruct (_ =? 14) eqn:T4.
  { destruct (tob (svc_extension_flag h)) eqn:TS;
      [|apply sret_inv in H; destruct H as [-> _]; split; cbn; intros; discriminate].
    destruct (nal_svc h) as [e|] eqn:TE; [|apply sret_inv in H; destruct H as [-> _]; split; cbn; intros; discriminate].
    apply sbind_inv in H. destruct H as (o & s1 & H1 & H). apply sret_inv in H. destruct H as [-> _].
    split; cbn; intros; try discriminate. subst o. eapply storedu_inv in H1; [|reflexivity].
    destruct H1 as (b1 & H1 & _). split; [exact TS|]. exists e. split; [exact TE|].
    unfold ParsePrefixNalUnitRbsp in H1. destruct (svc_extension_flag h =? 1) eqn:E1.
    - apply sbind_inv in H1. destruct H1 as (r & b2 & H2 & H1). apply sret_inv in H1. destruct H1 as [H1 _].
      destruct r as [v|]; [|discriminate]. injection H1 as ->. cbn. repeat (split; [reflexivity|]).
      exists v. split; [reflexivity|]. unfold ParsePrefixNalUnitSvc in H2. destruct (negb (nal_ref_idc h =? 0)) eqn:R0.
      + apply sbind_inv in H2. destruct H2 as (st & b3 & _ & H2). destruct (_ && _) in H2;
          [apply sret_inv in H2; destruct H2; discriminate|].
        apply sbind_inv in H2. destruct H2 as (ad & b4 & _ & H2). apply sbind_inv in H2. destruct H2 as (da & b5 & _ & H2).
        apply sret_inv in H2. destruct H2 as [H2 _]. injection H2 as ->. cbn. repeat (split; [reflexivity|]). lia.
      + apply sret_inv in H2. destruct H2 as [H2 _]. injection H2 as ->. cbn. repeat (split; [reflexivity|]).
        intros ->. reflexivity.
    - apply sret_inv in H1. destruct H1 as [H1 _]. injection H1 as ->. cbn. auto. }
  destruct (_ =? 15) eqn:T5.
  { apply sbind_inv in H. destruct H as (o & s1 & H1 & H). apply sbind_inv in H. destruct H as (u & s2 & _ & H).
    apply sret_inv in H. destruct H as [-> _]. split; cbn; intros; try discriminate. subst o.
    eapply stored_inv in H1; [|reflexivity]. destruct H1 as (b1 & H1). eapply subset_good; eauto. }
  destruct (_ =? 20) eqn:T6.
  { apply sbind_inv in H. destruct H as (o & s1 & H1 & H). apply sret_inv in H. destruct H as [-> _].
    split; cbn; intros; try discriminate. subst o. unfold ParseSliceLayerExtensionRbsp in H1. cbv zeta in H1.
    destruct (tob (svc_extension_flag h)).
    - apply sbind_inv in H1. destruct H1 as (o & s2 & H2 & H1). apply sret_inv in H1. destruct H1 as [H1 _].
      injection H1 as ->. cbn. split; [reflexivity|]. split; [reflexivity|]. intros y ->.
      eapply storedu_inv in H2; [|reflexivity]. destruct H2 as (b2 & H2 & _).
      apply svc_sound in H2; auto using ok_svc_use_state. destruct H2 as (c & v & A & V & E & _). exists c, v. auto.
    - destruct (tob (avc_3d_extension_flag h)).
      + apply sret_inv in H1. destruct H1 as [H1 _]. injection H1 as ->. cbn. auto.
      + apply sbind_inv in H1. destruct H1 as (o & s2 & H2 & H1). apply sret_inv in H1. destruct H1 as [H1 _].
        destruct o as [y|]; [|discriminate]. injection H1 as ->. cbn. split; [reflexivity|]. split; [reflexivity|].
        exists y. split; [reflexivity|]. eapply storedu_inv in H2; [|reflexivity]. destruct H2 as (b2 & H2 & _).
        eapply slice_good; eauto. }
  apply sret_inv in H. destruct H as [-> _]. split; cbn; intros; discriminate.
Qed.

Lemma nice_slext : forall st h p x, good_payload st h p -> pl_slice_ext p = Some x -> nice (dump_slext x).
Proof.
  intros st h p x G E. destruct (gp_slice_ext _ _ _ G x E) as (X & Y). unfold dump_slext. nice1.
  rewrite X. cbn [sx_svc_extension_flag sx_avc_3d_extension_flag sx_slice_header sx_svc_slice_header].
  destruct (tob (svc_extension_flag h)).
  - apply nice_maybe. intros y Ey. eapply nice_svh. apply Y. exact Ey.
  - destruct Y as [_ Y]. destruct (tob (avc_3d_extension_flag h)); [apply nice_nil|].
    destruct Y as (y & Ey & Gy). apply nice_deref. exists y. split; [exact Ey|]. eapply nice_slh; eauto.
Qed.
Lemma nice_payload : forall o st h p, good_payload st h p -> nice (dump_payload o (nal_unit_type h) p).
Proof.
  intros o st h p G. unfold dump_payload. nice1.
  assert (K : forall n : N, nice (match n with
    | 1 | 5 => maybe (pl_slice p) dump_slp
    | 7 => maybe (pl_sps p) (dump_sps o)
    | 8 => maybe (pl_pps p) dump_pps
    | 14 => maybe (pl_prefix p) dump_prefix
    | 15 => maybe (pl_subset_sps p) (dump_subsps o)
    | 20 => maybe (pl_slice_ext p) dump_slext
    | _ => [L 0 []]
    end)).
  { assert (K1 : nice (maybe (pl_slice p) dump_slp)).
    { apply nice_maybe. intros x E. destruct (gp_slice _ _ _ G x E) as [_ S]. unfold dump_slp. nice1. eapply nice_slh; eauto. }
    assert (K2 : nice (maybe (pl_sps p) (dump_sps o))).
    { apply nice_maybe. intros x E. apply nice_sps. eapply gp_sps; eauto. }
    assert (K3 : nice (maybe (pl_pps p) dump_pps)).
    { apply nice_maybe. intros x E. apply nice_pps. }
    assert (K4 : nice (maybe (pl_prefix p) dump_prefix)).
    { apply nice_maybe. intros x E. apply nice_prefix. }
    assert (K5 : nice (maybe (pl_subset_sps p) (dump_subsps o))).
    { apply nice_maybe. intros x E. apply nice_subsps. eapply gp_subset; eauto. }
    assert (K6 : nice (maybe (pl_slice_ext p) dump_slext)).
    { apply nice_maybe. intros x E. eapply nice_slext; eauto. }
    intros n. repeat (match goal with |- nice (match ?x with _ => _ end) => destruct x end; try assumption; try apply nice_empty). }
  apply K.
Qed.
