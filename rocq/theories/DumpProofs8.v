(** Dumps: the members of SVC slice headers and of whole NAL units are printed. *)
From Coq Require Import NArith ZArith List Bool Lia ZifyBool ZifyNat ZifyN String Ascii.
From Verif Require Import SpecBits Base BitBuffer SpecReader BitsLemmas BitBufferProofs
  ReaderProofs Rbsp RbspProofs ChecksumProofs Parser SpecSyntax ParserProofs TypesSps TypesPps SpecVui Vui VuiProofs
  SpecScaling SpecSps Sps SpsProofs SpecPps Pps PpsProofs TypesNal NalHeader SpecNalHeader NalHeaderProofs
  TypesExt Ext SpecExt ExtProofs TypesSlice SpecSliceParts TypesSliceHeader SliceHeader SpecSlice SliceProofs TypesSvcSlice
  SvcSlice SpecSvcSlice SvcSliceProofs TypesNalUnit NalUnit NalUnitProofs SpecNalUnit NalUnitProofs2 NalType Rtp RtpProofs
  SpecRbsp PropsNalUnit Tool PropsTool SpecDump SpecShown SpecLabels Dump DumpProofs DumpProofs2 DumpProofs3 DumpProofs4 DumpProofs5 DumpProofs6
  DumpProofs7.
Import ListNotations.
Open Scope N_scope.
Open Scope list_scope.
Ltac Zify.zify_post_hook ::= Z.div_mod_to_equations.

Definition included (d e : dump) : Prop := forall m, says (flat d) m -> says (flat e) m.
Lemma included_all : forall d e ms, included d e -> Forall (tells (flat d)) ms -> Forall (tells (flat e)) ms.
Proof. intros d e ms I. apply Forall_impl. intros [c m] H C. apply I, H, C. Qed.
Lemma included_refl : forall d, included d d.
Proof. intros d m H. exact H. Qed.
Lemma included_l : forall d a b, included d a -> included d (a ++ b).
Proof. intros d a b I m H. apply says_l, I, H. Qed.
Lemma included_r : forall d a b, included d b -> included d (a ++ b).
Proof. intros d a b I m H. apply says_r, I, H. Qed.
Lemma included_block : forall d n a, included d a -> included d (block n a).
Proof. intros d n a I m H. apply says_block, I, H. Qed.
Lemma included_when : forall d (c : bool) a, c = true -> included d a -> included d (Dump.when c a).
Proof. intros d c a -> I. exact I. Qed.
(** The place of a structure in a dump. *)
Ltac place cond :=
  lazymatch goal with
  | |- included ?d ?d => apply included_refl
  | |- included _ (_ ++ _) => first [apply included_l; place cond | apply included_r; place cond]
  | |- included _ (block _ _) => apply included_block; place cond
  | |- included _ (Dump.when _ _) => apply included_when; [|place cond]; cond
  end.

(** * SVC slice headers *)
Lemma qz_says : forall c v ty z, ty <= 9 -> c_base_layer_quality c = true ->
  Forall (tells (flat (dump_qz (svc_inputs_of c) (svc_inputs2_of c v) ty (qzero_of c ty (Some z))))) (qz_members c ty z).
Proof.
  intros c v ty z T Z. unfold dump_qz, svc_inputs_of, svc_inputs2_of, qz_members, svc_uses_refs.
  cbv zeta.
  cbn [in_weighted_pred_flag in_weighted_bipred_idc in_no_inter_layer_pred_flag in_nal_ref_idc
    in_slice_header_restriction_flag in_use_ref_base_pic_flag in_idr_flag qzero_of].
  rewrite Z. unfold SpecSvcSlice.when. cbv iota. cbn [andb].
  rewrite type_P, type_B by exact T. change tob with on.
  fold (svc_weights c ty). fold (c_ref c) (c_restricted c) (c_inter_layer c) (c_idr c).
  cbn [q_refs q_ref_pic_list_modification q_base_pred_weight_table_flag q_pred_weight_table q_dec_ref_pic_marking q_store_ref_base_pic_flag].
  members; seek_says holds.
Qed.
Lemma ilayer_says : forall c j y,
  in_inter_layer_deblocking_filter_control_present_flag j = sv_inter_layer_deblocking_filter_control_present_flag (c_svc c) ->
  in_extended_spatial_scalability_idc j = sv_extended_spatial_scalability_idc (c_svc c) ->
  (sv_extended_spatial_scalability_idc (c_svc c) = 2 -> in_ChromaArrayType j = chroma_array_type (c_sps c)) ->
  Forall (tells (flat (dump_il j y))) (ilayer_members c y).
Proof.
  intros c j y J1 J2 J3. unfold dump_il, ilayer_members. rewrite J1, J2. change tob with on.
  destruct (N.eqb_spec (sv_extended_spatial_scalability_idc (c_svc c)) 2) as [X|X].
  - rewrite J3 by exact X. members; seek_says holds.
  - members; try discriminate; seek_says holds.
Qed.
Lemma modes_says : forall c j m, in_adaptive_tcoeff_level_prediction_flag j = sv_adaptive_tcoeff_level_prediction_flag (c_svc c) ->
  Forall (tells (flat (dump_mo j m))) (modes_members c m).
Proof.
  intros c j m J. unfold dump_mo, modes_members. rewrite J. change tob with on. members; seek_says holds.
Qed.
Lemma scan_says : forall p, Forall (tells (flat (fu "scan_idx_start" (fst p) ++ fu "scan_idx_end" (snd p)))) (scan_members p).
Proof. intros p. unfold scan_members. members; seek_says holds. Qed.
Lemma svh_says : forall c v h, svc_idr_flag (c_ext c) <= 1 -> valid_svc_slice 0 0 c v -> svh_of c v = Some h ->
  Forall (tells (flat (dump_svh h))) (svc_members c v).
Proof.
  intros c [v [w|]] h I [V W] E; [|discriminate]. unfold svh_of in E. cbn [snd fst option_map] in *. injection E as <-.
  assert (W' : valid_svc2 c (v_type v) w)
    by (destruct (base_marking c v); cbn [negb opt_ok] in W; [discriminate|destruct W as (x & [= <-] & X); auto]).
  clear W. rewrite svh_parts. cbv zeta.
  cbn [vh_in vh_svin vh_lead vh_pic vh_idr_pic_id vh_poc vh_redundant_pic_cnt vh_qzero vh_cabac_init_idc
       vh_slice_qp_delta vh_dbk vh_slice_group_change_cycle vh_ilayer vh_modes vh_scan_idx_start vh_scan_idx_end fst snd].
  fold (v_type v).
  change (in_idr_flag (svc_inputs2_of c v)) with (svc_idr_flag (c_ext c)).
  change (in_quality_id (svc_inputs2_of c v)) with (svc_quality_id (c_ext c)).
  change (in_no_inter_layer_pred_flag (svc_inputs2_of c v)) with (svc_no_inter_layer_pred_flag (c_ext c)).
  change (in_slice_header_restriction_flag (svc_inputs2_of c v)) with (sv_slice_header_restriction_flag (c_svc c)).
  replace (svc_idr_flag (c_ext c) =? 1) with (c_idr c) by (unfold c_idr, on; lia).
  unfold valid_svc1 in V. destruct V as (VL & _ & _ & _ & _ & VQ). assert (T : v_type v <= 9) by apply VL.
  destruct W' as (_ & _ & _ & _ & WI & WM & WS).
  remember (svc_inputs2_of c v) as j eqn:J.
  remember (dump_qz (svc_inputs_of c) j (v_type v) (qzero_of c (v_type v) (v_qz v))) as dq eqn:DQ.
  rewrite type_I by exact T.
  unfold svc_members. cbn [fst snd among]. rewrite !Forall_app. split; [|split; [|split; [|split; [|split]]]].
  - unfold svc1_members, svc_inputs_of. cbv zeta. red_slh_goal. rewrite changing_eq by auto. change tob with on.
    members; seek_says holds.
  - unfold c_base_layer_quality in VQ at 1. change (on (svc_quality_id (c_ext c))) with (on (svc_quality_id (c_ext c))) in VQ.
    destruct (svc_quality_id (c_ext c) =? 0) eqn:Q; cbn [opt_ok] in VQ; [|rewrite VQ; apply Forall_nil].
    destruct VQ as (z & Z & VZ). rewrite Z in *. cbn [among].
    apply (included_all dq); [place holds|]. subst dq j. apply qz_says; auto.
  - unfold svc2_members, svc_inputs_of. cbv zeta. red_slh_goal. rewrite changing_eq by auto. change tob with on.
    members; seek_says holds.
  - destruct (v_ilayer w) as [y|] eqn:Y; [|apply Forall_nil]. cbn [among SpecSvcSlice.or_else].
    destruct (c_inter_layer c && c_base_layer_quality c) eqn:C; cbn [opt_ok] in WI; [|discriminate].
    assert (C' : negb (tob (svc_no_inter_layer_pred_flag (c_ext c))) && (svc_quality_id (c_ext c) =? 0) = true) by exact C.
    apply (included_all (dump_il j y)); [place holds|].
    subst j. apply ilayer_says; unfold svc_inputs2_of; cbv zeta;
    cbn [in_inter_layer_deblocking_filter_control_present_flag in_extended_spatial_scalability_idc in_ChromaArrayType]; rewrite C; try reflexivity.
    intros ->. rewrite orb_true_r. reflexivity.
  - destruct (v_modes w) as [m|] eqn:Y; [|apply Forall_nil]. cbn [among SpecSvcSlice.or_else].
    destruct (c_inter_layer c) eqn:C; cbn [opt_ok] in WM; [|discriminate].
    assert (C' : negb (tob (svc_no_inter_layer_pred_flag (c_ext c))) = true) by exact C.
    apply (included_all (dump_mo j m)); [place holds|].
    subst j. apply modes_says; unfold svc_inputs2_of; cbv zeta;
    cbn [in_adaptive_tcoeff_level_prediction_flag]; rewrite C; reflexivity.
  - destruct (v_scan w) as [p|] eqn:Y; [|apply Forall_nil]. cbn [among SpecSvcSlice.or_else].
    destruct (negb (c_restricted c) && negb (skipped w)) eqn:C; cbn [opt_ok] in WS; [|discriminate].
    assert (C' : negb (tob (sv_slice_header_restriction_flag (c_svc c))) &&
      negb (tob (mo_slice_skip_flag (SpecSvcSlice.or_else (v_modes w) (mkmodes 0 0 0 0 0 0 0 0 0)))) = true).
    { unfold skipped in C. destruct (v_modes w); exact C. }
    apply (included_all (fu "scan_idx_start" (fst p) ++ fu "scan_idx_end" (snd p))); [|apply scan_says].
    apply included_block. repeat (apply included_r; try apply included_refl). apply included_when; [exact C'|apply included_refl].
Qed.

(** * NAL units *)
Lemma tells_among : forall A (f : A -> list (bool * member)) ws o, (forall a, o = Some a -> Forall (tells ws) (f a)) ->
  Forall (tells ws) (among f o).
Proof. intros A f ws [a|] H; [apply H; reflexivity|apply Forall_nil]. Qed.
Lemma vui_all_says : forall v, valid_vui v -> Forall (tells (flat (dump_vui v))) (vui_all v).
Proof.
  intros v V. unfold vui_all. rewrite !Forall_app. split; [apply vui_says|]. unfold valid_vui in V.
  repeat match goal with H : _ /\ _ |- _ => destruct H end.
  split; apply tells_among; intros a E;
  match goal with H : valid_opt ?c _ ?o, E : ?o = Some _ |- _ =>
    unfold valid_opt in H; destruct c eqn:C; [|congruence] end.
  all: apply (included_all (dump_hrd a)); [|apply hrd_says]; unfold dump_vui; rewrite E; cbn [deref]; change tob with on; place holds.
Qed.
Lemma sps_all_says : forall o s, ok_sps s -> Forall (tells (flat (dump_sps_data o s))) (sps_all s).
Proof.
  intros o s [ls V]. unfold sps_all. rewrite Forall_app. split; [apply sps_data_says|]. apply tells_among. intros a E.
  unfold valid_sps in V. repeat match goal with H : _ /\ _ |- _ => destruct H end.
  match goal with H : valid_opt _ valid_vui _ |- _ => rename H into V end. rewrite E in V.
  destruct (on (vui_parameters_present_flag s)) eqn:C; [|discriminate]. cbn [valid_opt] in V.
  apply (included_all (dump_vui a)); [|apply vui_all_says; exact V]. unfold dump_sps_data. rewrite E. cbn [deref]. change tob with on.
  place holds.
Qed.
Lemma subsps_all_says : forall o v, good_subset v -> Forall (tells (flat (dump_subsps o v))) (subsps_all v).
Proof.
  intros o v [S G]. unfold subsps_all. rewrite !Forall_app. split; [|split].
  - apply (included_all (dump_sps_data o (ss_sps v))); [|apply sps_all_says; exact S]. unfold dump_subsps. cbv zeta.
    apply included_block, included_l, included_refl.
  - apply tells_among. intros e E. cbv zeta in G.
    apply (included_all (dump_spssvc e)); [|apply spssvc_says]. unfold dump_subsps. cbv zeta.
    apply included_block, included_r, included_l. rewrite E in *.
    destruct ((profile_idc (ss_sps v) =? 83) || (profile_idc (ss_sps v) =? 86)); [|destruct G as [[G _] _]; discriminate].
    cbn [deref]. apply included_l, included_refl.
  - unfold dump_subsps, is_svc_profile. cbv zeta. members; seek_says holds.
Qed.
Lemma prefix_all_says : forall st h p v, good_payload st h p -> pl_prefix p = Some v ->
  Forall (tells (flat (dump_prefix v))) (prefix_all v).
Proof.
  intros st h p v G E. apply tells_among. intros x X.
  unfold dump_prefix. destruct (gp_prefix _ _ _ G v E) as (F & e & _ & F' & _). rewrite F', F, X. cbn [Dump.when].
  unfold dump_prefsvc. members; seek_says holds.
Qed.
Lemma header_all_says : forall h, valid_nalh h -> Forall (tells (flat (dump_nalh h))) (header_all h).
Proof.
  intros h (_ & _ & _ & _ & V). unfold header_all. rewrite !Forall_app. split; [apply nalh_says|].
  destruct (nal_svc h) as [e|] eqn:E; cbn [among]; [|split; apply Forall_nil]. destruct V as (T & F & _).
  assert (K : dump_nalh h = block "nal_unit_header" (fu "forbidden_zero_bit" (forbidden_zero_bit h) ++
    fu "nal_ref_idc" (nal_ref_idc h) ++ fu "nal_unit_type" (nal_unit_type h) ++
    fu "svc_extension_flag" (svc_extension_flag h) ++ dump_svc_ext e)).
  { unfold dump_nalh. cbv zeta. rewrite E, F. destruct T as [-> | ->]; reflexivity. }
  rewrite K. split.
  - apply (included_all (dump_svc_ext e)); [place holds|apply svc_ext_says].
  - members; seek_says holds.
Qed.
Lemma in_payload : forall o off len x, included (dump_payload o (nal_unit_type (nu_header x)) (nu_payload x)) (dump_nalu o off len x).
Proof. intros o off len x. unfold dump_nalu. apply included_block. do 5 apply included_r. apply included_refl. Qed.
Lemma in_header : forall o off len x, included (dump_nalh (nu_header x)) (dump_nalu o off len x).
Proof. intros o off len x. unfold dump_nalu. apply included_block. do 4 apply included_r. apply included_l, included_refl. Qed.
Lemma in_member : forall A (o : option A) f a, o = Some a -> included (f a) (maybe o f).
Proof. intros A o f a -> . apply included_refl. Qed.
Lemma shape_sps : forall h p v, shape h p -> pl_sps p = Some v -> nal_unit_type h = 7.
Proof.
  intros h p v S E. unfold shape in S. cbv zeta in S. rewrite S in E.
  repeat match type of E with context[if ?c then _ else _] => destruct c eqn:? end; try discriminate; lia.
Qed.
Lemma shape_pps : forall h p v, shape h p -> pl_pps p = Some v -> nal_unit_type h = 8.
Proof.
  intros h p v S E. unfold shape in S. cbv zeta in S. rewrite S in E.
  repeat match type of E with context[if ?c then _ else _] => destruct c eqn:? end; try discriminate; lia.
Qed.
Lemma shape_prefix : forall h p v, shape h p -> pl_prefix p = Some v -> nal_unit_type h = 14.
Proof.
  intros h p v S E. unfold shape in S. cbv zeta in S. rewrite S in E.
  repeat match type of E with context[if ?c then _ else _] => destruct c eqn:? end; try discriminate; lia.
Qed.
Lemma shape_subset : forall h p v, shape h p -> pl_subset_sps p = Some v -> nal_unit_type h = 15.
Proof.
  intros h p v S E. unfold shape in S. cbv zeta in S. rewrite S in E.
  repeat match type of E with context[if ?c then _ else _] => destruct c eqn:? end; try discriminate; lia.
Qed.
Lemma shape_slice : forall h p v, shape h p -> pl_slice p = Some v -> nal_unit_type h = 1 \/ nal_unit_type h = 5.
Proof.
  intros h p v S E. unfold shape in S. cbv zeta in S. rewrite S in E.
  repeat match type of E with context[if ?c then _ else _] => destruct c eqn:? end; try discriminate; lia.
Qed.
Lemma shape_slext : forall h p v, shape h p -> pl_slice_ext p = Some v -> nal_unit_type h = 20.
Proof.
  intros h p v S E. unfold shape in S. cbv zeta in S. rewrite S in E.
  repeat match type of E with context[if ?c then _ else _] => destruct c eqn:? end; try discriminate; lia.
Qed.
Lemma unit_all_says : forall o off len st ck x, good_unit st ck x -> shape (nu_header x) (nu_payload x) ->
  Forall (tells (flat (dump_nalu o off len x))) (unit_all (nu_header x) (nu_payload x)).
Proof.
  intros o off len st ck x [V G _] S. unfold unit_all. rewrite !Forall_app.
  split; [apply (included_all _ _ _ (in_header o off len x)), header_all_says, V|].
  split; [|split; [|split]]; apply tells_among; intros v E; apply (included_all _ _ _ (in_payload o off len x)); unfold dump_payload.
  - rewrite (shape_sps _ _ _ S E). eapply included_all; [apply included_block, in_member, E|].
    unfold dump_sps. eapply included_all; [apply included_block, included_refl|]. apply sps_all_says. apply (gp_sps _ _ _ G), E.
  - rewrite (shape_pps _ _ _ S E). eapply included_all; [apply included_block, in_member, E|]. apply pps_says.
  - rewrite (shape_prefix _ _ _ S E). eapply included_all; [apply included_block, in_member, E|]. eapply prefix_all_says; eauto.
  - rewrite (shape_subset _ _ _ S E). eapply included_all; [apply included_block, in_member, E|].
    apply subsps_all_says. apply (gp_subset _ _ _ G), E.
Qed.
(** The slice header of a dumped unit. *)
Lemma unit_slice_says : forall o off len st ck x v, good_unit st ck x -> shape (nu_header x) (nu_payload x) ->
  pl_slice (nu_payload x) = Some v ->
  let ref := nal_ref_idc (nu_header x) in let nut := nal_unit_type (nu_header x) in
  exists s p y, active st (pic_parameter_set_id (s_lead y)) = Some (s, p) /\ valid_slice ref nut s p y /\
    sl_slice_header v = slh_of ref nut s p y /\
    Forall (tells (flat (dump_nalu o off len x))) (slice_members nut s p y).
Proof.
  intros o off len st ck x v [V G _] S E ref nut. destruct (gp_slice _ _ _ G v E) as (_ & s & p & y & A & Y & H).
  exists s, p, y. split; [exact A|]. split; [exact Y|]. split; [exact H|].
  apply (included_all _ _ _ (in_payload o off len x)). unfold dump_payload.
  assert (K : included (dump_slh (sl_slice_header v)) (maybe (pl_slice (nu_payload x)) dump_slp)).
  { rewrite E. cbn [maybe]. unfold dump_slp. apply included_block, included_refl. }
  assert (T : s_type y <= 9) by apply Y.
  destruct (shape_slice _ _ _ S E) as [X|X]; rewrite X; eapply included_all; try (apply included_block, K);
    rewrite H; apply slh_says; exact T.
Qed.
Lemma unit_slext_says : forall o off len st ck x v, good_unit st ck x -> shape (nu_header x) (nu_payload x) ->
  pl_slice_ext (nu_payload x) = Some v -> forall y, sx_svc_slice_header v = Some y ->
  exists c z, svc_active (nu_header x) st (pic_parameter_set_id (v_lead (fst z))) = Some c /\ valid_svc_slice 0 0 c z /\ svh_of c z = Some y /\
    Forall (tells (flat (dump_nalu o off len x))) (svc_members c z).
Proof.
  intros o off len st ck x v [V G _] S E y Y. destruct (gp_slice_ext _ _ _ G v E) as (F & H). rewrite F in Y.
  cbn [sx_svc_slice_header] in Y.
  destruct (tob (svc_extension_flag (nu_header x))) eqn:B; [|destruct H; congruence].
  destruct H as [_ H]. destruct (H _ Y) as (c & z & A & Z & Z'). exists c, z. split; [exact A|]. split; [exact Z|]. split; [exact Z'|].
  apply (included_all _ _ _ (in_payload o off len x)). unfold dump_payload. rewrite (shape_slext _ _ _ S E).
  eapply included_all; [apply included_block, in_member, E|].
  unfold dump_slext. rewrite F. cbn [sx_svc_extension_flag sx_svc_slice_header]. rewrite B, Y. cbn [maybe].
  eapply included_all; [apply included_block, included_refl|]. apply svh_says; auto.
  apply (header_idr _ V). apply svc_active_ext in A. exact A.
Qed.
