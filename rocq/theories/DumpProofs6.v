(** Dumps: the words determine slice headers, payloads and units. *)
From Coq Require Import NArith ZArith List Bool Lia ZifyBool ZifyNat ZifyN String Ascii.
From Verif Require Import SpecBits Base BitBuffer SpecReader BitsLemmas BitBufferProofs
  ReaderProofs Rbsp RbspProofs ChecksumProofs Parser SpecSyntax ParserProofs TypesSps TypesPps SpecVui Vui VuiProofs
  SpecScaling SpecSps Sps SpsProofs SpecPps Pps PpsProofs TypesNal NalHeader SpecNalHeader NalHeaderProofs
  TypesExt Ext SpecExt ExtProofs TypesSlice SpecSliceParts TypesSliceHeader SliceHeader SpecSlice SliceProofs TypesSvcSlice
  SvcSlice SpecSvcSlice SvcSliceProofs TypesNalUnit NalUnit NalUnitProofs SpecNalUnit NalUnitProofs2 NalType Rtp RtpProofs
  SpecRbsp PropsNalUnit Tool PropsTool SpecDump SpecShown Dump DumpProofs DumpProofs2 DumpProofs3 DumpProofs4 DumpProofs5.
Import ListNotations.
Open Scope N_scope.
Open Scope list_scope.
Ltac Zify.zify_post_hook ::= Z.div_mod_to_equations.

Lemma opt_step : forall A B (ok : A -> Prop) (g : A -> B) f (c : bool) o o' r r',
  (forall a b r r', ok a -> ok b -> flat (f (g a)) ++ r = flat (f (g b)) ++ r' -> g a = g b /\ r = r') ->
  opt_ok c ok o -> opt_ok c ok o' ->
  flat (Dump.when c (deref (option_map g o) f)) ++ r = flat (Dump.when c (deref (option_map g o') f)) ++ r' ->
  option_map g o = option_map g o' /\ r = r'.
Proof.
  intros A B ok g f c o o' r r' S X Y H. destruct c; cbn [opt_ok Dump.when] in *.
  - destruct X as (x & -> & X). destruct Y as (y & -> & Y). cbn [option_map deref] in *. apply S in H; auto.
    destruct H as [-> ->]. auto.
  - subst. auto.
Qed.
Lemma changing_eq : forall p, pps_slice_group_map_type p <= 6 \/ True ->
  (0 <? pps_num_slice_groups_minus1 p) && (3 <=? pps_slice_group_map_type p) && (pps_slice_group_map_type p <=? 5) = changing_groups p.
Proof.
  intros p _. unfold changing_groups. cbn [existsb]. lia.
Qed.
Ltac red_slh E := cbn [sh_in sh_lead sh_pic sh_idr_pic_id sh_poc sh_redundant_pic_cnt sh_refs sh_ref_pic_list_modification
       sh_pred_weight_table sh_dec_ref_pic_marking sh_cabac_init_idc sh_slice_qp_delta sh_spqs sh_dbk
       sh_slice_group_change_cycle
       in_nal_ref_idc in_nal_unit_type in_separate_colour_plane_flag in_log2_max_frame_num_minus4 in_frame_mbs_only_flag
       in_pic_order_cnt_type in_bottom_field_pic_order_in_frame_present_flag in_delta_pic_order_always_zero_flag
       in_redundant_pic_cnt_present_flag in_weighted_pred_flag in_weighted_bipred_idc in_entropy_coding_mode_flag
       in_deblocking_filter_control_present_flag in_num_slice_groups_minus1 in_slice_group_map_type
       s_lead s_pic s_idr_pic_id s_poc s_redundant_pic_cnt s_refs s_rpl0 s_rpl1 s_table s_marking s_cabac_init_idc
       s_slice_qp_delta s_spqs s_dbk s_cycle
       first_mb_in_slice slice_type pic_parameter_set_id colour_plane_id frame_num field_pic_flag bottom_field_flag
       pic_order_cnt_lsb delta_pic_order_cnt_bottom delta_pic_order_cnt direct_spatial_mv_pred_flag
       num_ref_idx_active_override_flag num_ref_idx_l0_active_minus1 num_ref_idx_l1_active_minus1
       sp_for_switch_flag slice_qs_delta disable_deblocking_filter_idc slice_alpha_c0_offset_div2 slice_beta_offset_div2] in E.
Lemma slh_shows : forall st ref nut, shows (good_slice st ref nut) dump_slh same.
Proof.
  intros st ref nut a b r r' (s & p & v & AA & VA & ->) (s' & p' & v' & AB & VB & ->) E.
  destruct v as [[] [] idr [] red [] rl0 rl1 tab mark cab qp [] [] cyc].
  destruct v' as [[] [] idr' [] red' [] rl0' rl1' tab' mark' cab' qp' [] [] cyc'].
  unfold valid_slice, s_type in VA, VB. unfold slh_of, inputs_of, dump_slh, s_type in E. cbv zeta in E.
  red_slh E. red_slh VA. red_slh VB. red_slh AA. red_slh AB.
  apply block_step in E. do 3 (apply app_step in E; apply fu_step in E; destruct E as [? E]). subst.
  rewrite AA in AB. injection AB as <- <-.
  rewrite !changing_eq in E by auto. change tob with on in E.
  conj0.
  match goal with H : valid_lead _ |- _ => assert (T : slice_type0 <= 9) by apply H end.
  repeat match goal with H : valid_lead _ |- _ => clear H end.
  rewrite ?type_P, ?type_B, ?type_I, ?type_SP, ?type_SI in E by exact T.
  unfold valid_picid, valid_poc, two_deltas, valid_refs, uses_refs, valid_rplm, valid_spqs, valid_dbk, valid_cycle in *.
  repeat match goal with H : _ |- _ => progress (red_slh H) end. conj0.
  steps E.
  apply rplm_step in E; [destruct E as [RP E]|reflexivity].
  apply app_step in E. fold (weighted p slice_type0) in E.
  eapply (opt_step _ _ (valid_table (chroma_array_type s) slice_type0 _ _)) in E;
    [destruct E as [TA E]|intros; eapply pwt_step; eassumption|eassumption|eassumption].
  apply app_step in E.
  eapply (opt_step _ _ (valid_marking (idr_flag_of nut))) in E;
    [destruct E as [MA E]|intros; eapply drpm_step; eassumption|eassumption|eassumption].
  steps E. injection E as <-. split; [|reflexivity]. unfold same, slh_of, inputs_of, s_type.
  cbn [s_lead s_pic s_idr_pic_id s_poc s_redundant_pic_cnt s_refs s_rpl0 s_rpl1 s_table s_marking s_cabac_init_idc
       s_slice_qp_delta s_spqs s_dbk s_cycle slice_type num_ref_idx_l0_active_minus1 num_ref_idx_l1_active_minus1].
  rewrite RP, TA, MA. reflexivity.
Qed.

(** ** Slice headers in scalable extension: the parts of the dump *)
Definition dump_qz (i : slin) (j : svin) (ty : N) (q : qzero) : dump :=
  let r := q_refs q in
    Dump.when (is_B ty) (fu "direct_spatial_mv_pred_flag" (direct_spatial_mv_pred_flag r)) ++
    Dump.when (is_P ty || is_B ty) (
      fu "num_ref_idx_active_override_flag" (num_ref_idx_active_override_flag r) ++
      Dump.when (tob (num_ref_idx_active_override_flag r)) (
        fu "num_ref_idx_l0_active_minus1" (num_ref_idx_l0_active_minus1 r) ++
        Dump.when (is_B ty) (fu "num_ref_idx_l1_active_minus1" (num_ref_idx_l1_active_minus1 r)))) ++
    deref (q_ref_pic_list_modification q) dump_rplm ++
    Dump.when ((tob (in_weighted_pred_flag i) && is_P ty) ||
          ((in_weighted_bipred_idc i =? 1) && is_B ty)) (
      Dump.when (negb (tob (in_no_inter_layer_pred_flag j)))
        (fu "base_pred_weight_table_flag" (q_base_pred_weight_table_flag q)) ++
      Dump.when (tob (in_no_inter_layer_pred_flag j) || negb (tob (q_base_pred_weight_table_flag q)))
        (deref (q_pred_weight_table q) dump_pwt)) ++
    Dump.when (negb (in_nal_ref_idc i =? 0)) (
      deref (q_dec_ref_pic_marking q) dump_drpm ++
      Dump.when (negb (tob (in_slice_header_restriction_flag j))) (
        fu "store_ref_base_pic_flag" (q_store_ref_base_pic_flag q) ++
        Dump.when ((tob (in_use_ref_base_pic_flag j) || tob (q_store_ref_base_pic_flag q)) &&
              negb (tob (in_idr_flag j)))
          (dump_unimplemented "dec_ref_base_pic_marking()"))).
Definition dump_il (j : svin) (y : ilayer) : dump :=
    fu "ref_layer_dq_id" (il_ref_layer_dq_id y) ++
    Dump.when (tob (in_inter_layer_deblocking_filter_control_present_flag j)) (
      fu "disable_inter_layer_deblocking_filter_idc"
        (il_disable_inter_layer_deblocking_filter_idc y) ++
      Dump.when (negb (il_disable_inter_layer_deblocking_filter_idc y =? 1)) (
        fiu "inter_layer_slice_alpha_c0_offset_div2"
          (il_inter_layer_slice_alpha_c0_offset_div2 y) ++
        fiu "inter_layer_slice_beta_offset_div2" (il_inter_layer_slice_beta_offset_div2 y))) ++
    fu "constrained_intra_resampling_flag" (il_constrained_intra_resampling_flag y) ++
    Dump.when (in_extended_spatial_scalability_idc j =? 2) (
      Dump.when (0 <? in_ChromaArrayType j) (
        fu "ref_layer_chroma_phase_x_plus1_flag" (il_ref_layer_chroma_phase_x_plus1_flag y) ++
        fu "ref_layer_chroma_phase_y_plus1" (il_ref_layer_chroma_phase_y_plus1 y)) ++
      fiu "scaled_ref_layer_left_offset" (il_scaled_ref_layer_left_offset y) ++
      fiu "scaled_ref_layer_top_offset" (il_scaled_ref_layer_top_offset y) ++
      fiu "scaled_ref_layer_right_offset" (il_scaled_ref_layer_right_offset y) ++
      fiu "scaled_ref_layer_bottom_offset" (il_scaled_ref_layer_bottom_offset y)).
Definition dump_mo (j : svin) (m : modes) : dump :=
    fu "slice_skip_flag" (mo_slice_skip_flag m) ++
    (if tob (mo_slice_skip_flag m) then
       fu "num_mbs_in_slice_minus1" (mo_num_mbs_in_slice_minus1 m)
     else
       fu "adaptive_base_mode_flag" (mo_adaptive_base_mode_flag m) ++
       Dump.when (negb (tob (mo_adaptive_base_mode_flag m)))
         (fu "default_base_mode_flag" (mo_default_base_mode_flag m)) ++
       Dump.when (negb (tob (mo_default_base_mode_flag m))) (
         fu "adaptive_motion_prediction_flag" (mo_adaptive_motion_prediction_flag m) ++
         Dump.when (negb (tob (mo_adaptive_motion_prediction_flag m)))
           (fu "default_motion_prediction_flag" (mo_default_motion_prediction_flag m))) ++
       fu "adaptive_residual_prediction_flag" (mo_adaptive_residual_prediction_flag m) ++
       Dump.when (negb (tob (mo_adaptive_residual_prediction_flag m)))
         (fu "default_residual_prediction_flag" (mo_default_residual_prediction_flag m))) ++
    Dump.when (tob (in_adaptive_tcoeff_level_prediction_flag j))
      (fu "tcoeff_level_prediction_flag" (mo_tcoeff_level_prediction_flag m)).


Ltac red_mo E := cbn [mo_slice_skip_flag mo_num_mbs_in_slice_minus1 mo_adaptive_base_mode_flag mo_default_base_mode_flag
    mo_adaptive_motion_prediction_flag mo_default_motion_prediction_flag mo_adaptive_residual_prediction_flag
    mo_default_residual_prediction_flag mo_tcoeff_level_prediction_flag] in E.
Lemma mo_step : forall c j a b r r', in_adaptive_tcoeff_level_prediction_flag j = sv_adaptive_tcoeff_level_prediction_flag (c_svc c) ->
  valid_modes c a -> valid_modes c b -> flat (dump_mo j a) ++ r = flat (dump_mo j b) ++ r' -> a = b /\ r = r'.
Proof.
  intros c j a b r r' J VA VB E. unfold valid_modes in VA, VB. unfold dump_mo in E. rewrite J in E. change tob with on in E.
  destruct a, b. red_mo VA. red_mo VB. red_mo E. conj0.
  steps E. subst. auto.
Qed.

Ltac red_il E := cbn [il_ref_layer_dq_id il_disable_inter_layer_deblocking_filter_idc
  il_inter_layer_slice_alpha_c0_offset_div2 il_inter_layer_slice_beta_offset_div2 il_constrained_intra_resampling_flag
  il_ref_layer_chroma_phase_x_plus1_flag il_ref_layer_chroma_phase_y_plus1 il_scaled_ref_layer_left_offset
  il_scaled_ref_layer_top_offset il_scaled_ref_layer_right_offset il_scaled_ref_layer_bottom_offset] in E.
Lemma il_step : forall c j a b r r',
  in_inter_layer_deblocking_filter_control_present_flag j = sv_inter_layer_deblocking_filter_control_present_flag (c_svc c) ->
  in_extended_spatial_scalability_idc j = sv_extended_spatial_scalability_idc (c_svc c) ->
  (sv_extended_spatial_scalability_idc (c_svc c) = 2 -> in_ChromaArrayType j = chroma_array_type (c_sps c)) ->
  valid_ilayer c a -> valid_ilayer c b -> flat (dump_il j a) ++ r = flat (dump_il j b) ++ r' -> a = b /\ r = r'.
Proof.
  intros c j a b r r' J1 J2 J3 VA VB E. unfold valid_ilayer in VA, VB. cbv zeta in VA, VB.
  unfold dump_il in E. rewrite J1, J2 in E. change tob with on in E.
  destruct a, b. red_il VA. red_il VB. red_il E. conj0.
  destruct (N.eqb_spec (sv_extended_spatial_scalability_idc (c_svc c)) 2) as [F|F].
  - rewrite J3 in E by exact F. conj0. cbn [Dump.when] in E. steps E. subst. auto.
  - cbn [Dump.when] in E. conj0. steps E. subst. auto.
Qed.
Ltac red_refs_in E := cbn [z_refs z_rpl0 z_rpl1 z_base_pred_weight_table_flag z_table z_marking z_store_ref_base_pic_flag
  q_refs q_ref_pic_list_modification q_base_pred_weight_table_flag q_pred_weight_table q_dec_ref_pic_marking q_store_ref_base_pic_flag
  direct_spatial_mv_pred_flag num_ref_idx_active_override_flag num_ref_idx_l0_active_minus1 num_ref_idx_l1_active_minus1 deref] in E.
Lemma qz_step : forall c v v' ty a b r r', ty <= 9 -> c_base_layer_quality c = true ->
  v_qz v = Some a -> v_qz v' = Some b -> valid_qz 0 0 c ty a -> valid_qz 0 0 c ty b ->
  has_base_marking c a = false -> has_base_marking c b = false ->
  flat (dump_qz (svc_inputs_of c) (svc_inputs2_of c v) ty (qzero_of c ty (Some a))) ++ r =
  flat (dump_qz (svc_inputs_of c) (svc_inputs2_of c v') ty (qzero_of c ty (Some b))) ++ r' ->
  (qzero_of c ty (Some a) = qzero_of c ty (Some b) /\ present (z_table a) = present (z_table b)) /\ r = r'.
Proof.
  intros c v v' ty a b r r' T Z VA VB QA QB BA BB E. unfold dump_qz, svc_inputs_of, svc_inputs2_of in E.
  rewrite VA, VB in E. cbv zeta in E.
  cbn [in_weighted_pred_flag in_weighted_bipred_idc in_no_inter_layer_pred_flag in_nal_ref_idc
    in_slice_header_restriction_flag in_use_ref_base_pic_flag in_idr_flag qzero_of] in E.
  rewrite Z in E. unfold SpecSvcSlice.when in E. cbv iota in E. cbn [andb] in E.
  rewrite type_P, type_B in E by exact T. change tob with on in E.
  fold (svc_weights c ty) in E. fold (c_ref c) (c_restricted c) (c_inter_layer c) (c_idr c) in E.
  destruct a as [[] rl0 rl1 bf tab mark stf], b as [[] rl0' rl1' bf' tab' mark' stf'].
  unfold valid_qz, valid_svc_refs, svc_uses_refs in QA, QB. unfold has_base_marking in BA, BB. red_refs_in QA. red_refs_in QB. red_refs_in BA. red_refs_in BB. red_refs_in E. conj0.
  steps E.
  apply rplm_step in E; [destruct E as [RP E]|reflexivity].
  clear VA VB. apply app_step in E.
  match type of E with flat ?d ++ ?q = flat ?d' ++ ?q' => assert (K : (bf = bf' /\ option_map (table_of (chroma_array_type (c_sps c)) ty num_ref_idx_l0_active_minus0
    num_ref_idx_l1_active_minus0) tab = option_map (table_of (chroma_array_type (c_sps c)) ty num_ref_idx_l0_active_minus0
    num_ref_idx_l1_active_minus0) tab') /\ q = q') end.
  { revert E. match goal with |- _ ++ ?q = _ ++ ?q' -> _ => generalize q q'; intros q1 q2 E end.
    destruct (svc_weights c ty); cbn [andb Dump.when opt_ok] in *; [|subst; auto].
    assert (K : bf = bf' /\ flat (Dump.when (negb (on bf)) (deref
                 (option_map (table_of (chroma_array_type (c_sps c)) ty num_ref_idx_l0_active_minus0 num_ref_idx_l1_active_minus0) tab) dump_pwt)) ++ q1 =
       flat (Dump.when (negb (on bf')) (deref
                 (option_map (table_of (chroma_array_type (c_sps c)) ty num_ref_idx_l0_active_minus0 num_ref_idx_l1_active_minus0) tab') dump_pwt)) ++ q2).
    { apply app_step in E. unfold c_inter_layer in *. destruct (on (svc_no_inter_layer_pred_flag (c_ext c))); cbn [negb orb Dump.when] in *.
      - subst. split; [reflexivity|exact E].
      - apply fu_step in E. exact E. }
    clear E. destruct K as [<- E].
    eapply (opt_step _ _ (valid_table (chroma_array_type (c_sps c)) ty _ _)) in E;
      [destruct E as [TA E]|intros; eapply pwt_step; eassumption|eassumption|eassumption]. auto. }
  clear E. destruct K as [[<- TA] E].
  assert (K : option_map (drpm_of (svc_idr_flag (c_ext c))) mark = option_map (drpm_of (svc_idr_flag (c_ext c))) mark' /\ stf = stf' /\ r = r').
  { destruct (c_ref c); cbn [andb Dump.when opt_ok] in *.
    - destruct H10 as (m & -> & M). destruct H3 as (m' & -> & M'). cbn [option_map deref] in *.
      apply app_step in E. apply drpm_step in E; auto. destruct E as [-> E].
      destruct (c_restricted c); cbn [negb andb Dump.when] in *.
      + subst. auto.
      + apply app_step in E. apply fu_step in E. destruct E as [-> E]. rewrite BB in E. auto.
    - subst. auto. }
  destruct K as (MA & <- & <-). split; [|reflexivity]. split.
  - unfold qzero_of. cbn [z_refs z_rpl0 z_rpl1 z_base_pred_weight_table_flag z_table z_marking z_store_ref_base_pic_flag
      num_ref_idx_l0_active_minus1 num_ref_idx_l1_active_minus1]. rewrite RP, TA, MA. reflexivity.
  - cbn [z_table]. destruct tab, tab'; try reflexivity; discriminate.
Qed.
Ltac red_svh E := cbn [vh_in vh_svin vh_lead vh_pic vh_idr_pic_id vh_poc vh_redundant_pic_cnt vh_qzero vh_cabac_init_idc
       vh_slice_qp_delta vh_dbk vh_slice_group_change_cycle vh_ilayer vh_modes vh_scan_idx_start vh_scan_idx_end fst snd
       v_lead v_pic v_idr_pic_id v_poc v_redundant_pic_cnt v_qz v_cabac_init_idc v_slice_qp_delta v_dbk v_cycle v_ilayer v_modes v_scan
       in_nal_ref_idc in_nal_unit_type in_separate_colour_plane_flag in_log2_max_frame_num_minus4 in_frame_mbs_only_flag
       in_pic_order_cnt_type in_bottom_field_pic_order_in_frame_present_flag in_delta_pic_order_always_zero_flag
       in_redundant_pic_cnt_present_flag in_entropy_coding_mode_flag
       in_deblocking_filter_control_present_flag in_num_slice_groups_minus1 in_slice_group_map_type svc_inputs_of
       first_mb_in_slice slice_type pic_parameter_set_id colour_plane_id frame_num field_pic_flag bottom_field_flag
       pic_order_cnt_lsb delta_pic_order_cnt_bottom delta_pic_order_cnt
       disable_deblocking_filter_idc slice_alpha_c0_offset_div2 slice_beta_offset_div2] in E.
Lemma svh_parts : forall h, dump_svh h =
  let ty := slice_type (vh_lead h) in
  let i := vh_in h in
  let j := vh_svin h in
  block "slice_header_in_scalable_extension" (
  fu "first_mb_in_slice" (first_mb_in_slice (vh_lead h)) ++
  fu "slice_type" ty ++
  fu "pic_parameter_set_id" (pic_parameter_set_id (vh_lead h)) ++
  Dump.when (tob (in_separate_colour_plane_flag i)) (fu "colour_plane_id" (colour_plane_id (vh_pic h))) ++
  fu "frame_num" (frame_num (vh_pic h)) ++
  Dump.when (negb (tob (in_frame_mbs_only_flag i))) (
    fu "field_pic_flag" (field_pic_flag (vh_pic h)) ++
    Dump.when (tob (field_pic_flag (vh_pic h)))
      (fu "bottom_field_flag" (bottom_field_flag (vh_pic h)))) ++
  Dump.when (in_idr_flag j =? 1) (fu "idr_pic_id" (vh_idr_pic_id h)) ++
  Dump.when (in_pic_order_cnt_type i =? 0) (
    fu "pic_order_cnt_lsb" (pic_order_cnt_lsb (vh_poc h)) ++
    Dump.when (tob (in_bottom_field_pic_order_in_frame_present_flag i) &&
          negb (tob (field_pic_flag (vh_pic h))))
      (fiu "delta_pic_order_cnt_bottom" (delta_pic_order_cnt_bottom (vh_poc h)))) ++
  Dump.when ((in_pic_order_cnt_type i =? 1) && negb (tob (in_delta_pic_order_always_zero_flag i)))
    (fis "delta_pic_order_cnt" (delta_pic_order_cnt (vh_poc h))) ++
  Dump.when (tob (in_redundant_pic_cnt_present_flag i))
    (fu "redundant_pic_cnt" (vh_redundant_pic_cnt h)) ++
  Dump.when (in_quality_id j =? 0) (dump_qz i j ty (vh_qzero h)) ++
  Dump.when (tob (in_entropy_coding_mode_flag i) && negb (is_I ty))
    (fu "cabac_init_idc" (vh_cabac_init_idc h)) ++
  fiu "slice_qp_delta" (vh_slice_qp_delta h) ++
  Dump.when (tob (in_deblocking_filter_control_present_flag i)) (
    fu "disable_deblocking_filter_idc" (disable_deblocking_filter_idc (vh_dbk h)) ++
    Dump.when (negb (disable_deblocking_filter_idc (vh_dbk h) =? 1)) (
      fiu "slice_alpha_c0_offset_div2" (slice_alpha_c0_offset_div2 (vh_dbk h)) ++
      fiu "slice_beta_offset_div2" (slice_beta_offset_div2 (vh_dbk h)))) ++
  Dump.when ((0 <? in_num_slice_groups_minus1 i) && (3 <=? in_slice_group_map_type i) &&
        (in_slice_group_map_type i <=? 5))
    (fu "slice_group_change_cycle" (vh_slice_group_change_cycle h)) ++
  Dump.when (negb (tob (in_no_inter_layer_pred_flag j)) && (in_quality_id j =? 0)) (dump_il j (vh_ilayer h)) ++
  Dump.when (negb (tob (in_no_inter_layer_pred_flag j))) (dump_mo j (vh_modes h)) ++
  Dump.when (negb (tob (in_slice_header_restriction_flag j)) && negb (tob (mo_slice_skip_flag (vh_modes h)))) (
    fu "scan_idx_start" (vh_scan_idx_start h) ++
    fu "scan_idx_end" (vh_scan_idx_end h))).
Proof. reflexivity. Qed.
Lemma svc_active_ext : forall h st id c, svc_active h st id = Some c -> nal_svc h = Some (c_ext c).
Proof.
  intros h st id c H. unfold svc_active in H. destruct (lookup id (st_pps st)) as [p|]; [|discriminate].
  destruct (lookup (pps_seq_parameter_set_id p) (st_subset_sps st)) as [ss|]; [|discriminate].
  destruct (ss_svc ss) as [x|]; [|discriminate]. destruct (nal_svc h) as [e|]; [|discriminate]. injection H as <-. reflexivity.
Qed.
Ltac walk_svh E := repeat (lazymatch type of E with
  | flat (Dump.when _ (dump_qz _ _ _ _)) ++ _ = _ => fail
  | flat (Dump.when _ (dump_il _ _)) ++ _ = _ => fail
  | flat (Dump.when _ (dump_mo _ _)) ++ _ = _ => fail
  | _ => step E
  end).
Ltac red_goal := cbn [v_lead slice_type v_qz].
Lemma else_step : forall A (ok : A -> Prop) (c : bool) o o' d (f : A -> dump) r r',
  (c = true -> forall a b r r', ok a -> ok b -> flat (f a) ++ r = flat (f b) ++ r' -> a = b /\ r = r') ->
  opt_ok c ok o -> opt_ok c ok o' ->
  flat (Dump.when c (f (SpecSvcSlice.or_else o d))) ++ r = flat (Dump.when c (f (SpecSvcSlice.or_else o' d))) ++ r' -> o = o' /\ r = r'.
Proof.
  intros A ok c o o' d f r r' S X Y H. destruct c; cbn [opt_ok Dump.when] in *.
  - destruct X as (x & -> & X). destruct Y as (y & -> & Y). cbn [SpecSvcSlice.or_else] in *. apply S in H; auto.
    destruct H as [-> ->]. auto.
  - subst. auto.
Qed.
Lemma Some_eq : forall A (a : A), exists b, Some b = Some a.
Proof. eauto. Qed.
Lemma svh_shows : forall st hd, (forall e, nal_svc hd = Some e -> svc_idr_flag e <= 1) -> shows (good_svc_slice st hd) dump_svh same.
Proof.
  intros st hd HI a b r r' (c & v & AA & VA & EA) (c' & v' & AB & VB & EB) E.
  destruct v as [v [w|]]; [|discriminate]. destruct v' as [v' [w'|]]; [|discriminate].
  unfold svh_of in EA, EB. cbn [snd fst option_map] in EA, EB. injection EA as <-. injection EB as <-.
  destruct VA as [VA WA], VB as [VB WB]. cbn [fst snd] in *.
  assert (BA : base_marking c v = false /\ valid_svc2 c (v_type v) w)
    by (destruct (base_marking c v); cbn [negb opt_ok] in WA; [discriminate|destruct WA as (x & [= <-] & X); auto]).
  assert (BB : base_marking c' v' = false /\ valid_svc2 c' (v_type v') w')
    by (destruct (base_marking c' v'); cbn [negb opt_ok] in WB; [discriminate|destruct WB as (x & [= <-] & X); auto]).
  clear WA WB. destruct BA as [BA WA], BB as [BB WB].
  rewrite !svh_parts in E. cbv zeta in E. red_svh E.
  assert (ID : pic_parameter_set_id (v_lead v) = pic_parameter_set_id (v_lead v')).
  { apply block_step in E. do 3 (apply app_step in E; apply fu_step in E; destruct E as [? E]). assumption. }
  rewrite ID, AB in AA. injection AA as ->. clear ID.
  apply svc_active_ext in AB. apply HI in AB. clear HI.
  change (in_idr_flag (svc_inputs2_of c v)) with (svc_idr_flag (c_ext c)) in E.
  change (in_idr_flag (svc_inputs2_of c v')) with (svc_idr_flag (c_ext c)) in E.
  change (in_quality_id (svc_inputs2_of c v)) with (svc_quality_id (c_ext c)) in E.
  change (in_quality_id (svc_inputs2_of c v')) with (svc_quality_id (c_ext c)) in E.
  change (in_no_inter_layer_pred_flag (svc_inputs2_of c v)) with (svc_no_inter_layer_pred_flag (c_ext c)) in E.
  change (in_no_inter_layer_pred_flag (svc_inputs2_of c v')) with (svc_no_inter_layer_pred_flag (c_ext c)) in E.
  change (in_slice_header_restriction_flag (svc_inputs2_of c v)) with (sv_slice_header_restriction_flag (c_svc c)) in E.
  change (in_slice_header_restriction_flag (svc_inputs2_of c v')) with (sv_slice_header_restriction_flag (c_svc c)) in E.
  destruct (Some_eq _ (svc_inputs2_of c v)) as [j JE]. destruct (Some_eq _ (svc_inputs2_of c v')) as [j' JE'].
  assert (X : svc_inputs2_of c v = j) by congruence. rewrite X in E |- *. clear X.
  assert (X : svc_inputs2_of c v' = j') by congruence. rewrite X in E |- *. clear X.
  unfold v_type in *.
  destruct v as [[] [] idr [] red z]. destruct v' as [[] [] idr' [] red' z'].
  destruct w as [cab qp [] cyc il mo sc]. destruct w' as [cab' qp' [] cyc' il' mo' sc'].
  unfold valid_svc1, v_type in VA, VB. unfold valid_svc2 in WA, WB. unfold base_marking in BA, BB.
  red_svh E. red_svh VA. red_svh VB. red_svh WA. red_svh WB. red_svh BA. red_svh BB.
  replace (svc_idr_flag (c_ext c) =? 1) with (c_idr c) in E by (unfold c_idr, on; lia).
  rewrite !changing_eq in E by auto. change tob with on in E.
  fold (c_base_layer_quality c) (c_inter_layer c) (c_restricted c) in E.
  conj0.
  match goal with H : valid_lead (mklead _ ?t _), H' : valid_lead (mklead _ ?t' _) |- _ => assert (T : t <= 9) by apply H; assert (T' : t' <= 9) by apply H' end.
  repeat match goal with H : valid_lead _ |- _ => clear H end.
  rewrite !type_I in E by assumption.
  unfold valid_picid, valid_poc, two_deltas, valid_dbk, valid_cycle in *.
  repeat match goal with H : _ |- _ => progress (red_svh H) end. conj0.
  walk_svh E.
  match type of E with flat (Dump.when _ (dump_qz _ _ ?t _)) ++ ?q = _ ++ ?q' =>
    assert (K : (qzero_of c t z = qzero_of c t z' /\ j = j') /\ q = q') end.
  { revert E. match goal with |- _ ++ ?q = _ ++ ?q' -> _ => generalize q q'; intros q1 q2 E end.
    injection JE as ->. injection JE' as ->.
    destruct (c_base_layer_quality c) eqn:BL; cbn [opt_ok Dump.when] in *.
    - match goal with H : exists x, z = Some x /\ _ |- _ => destruct H as (x & -> & VX) end.
      match goal with H : exists x, z' = Some x /\ _ |- _ => destruct H as (x' & -> & VX') end.
      eapply qz_step in E; [..|exact VX|exact VX'|exact BA|exact BB]; [|assumption|exact BL|reflexivity|reflexivity].
      destruct E as [[E1 E2] E]. split; [|exact E]. split; [exact E1|].
      unfold svc_inputs2_of. cbn [v_qz]. rewrite E2. reflexivity.
    - subst z z'. cbn [flat flat_map app] in E. auto. }
  clear E. destruct K as [[QE KJ] E]. subst j'. clear JE'.
  walk_svh E.
  injection JE as JE.
  eapply (else_step _ (valid_ilayer c)) in E; [destruct E as [IL E]| |eassumption|eassumption].
  2: { intros LC x y q1 q2 VX VY F. apply andb_true_iff in LC. destruct LC as [L1 L2].
       eapply il_step in F; [exact F|..|exact VX|exact VY]; rewrite JE; unfold svc_inputs2_of; cbv zeta.
       - cbn [in_inter_layer_deblocking_filter_control_present_flag]. rewrite L1, L2. reflexivity.
       - cbn [in_extended_spatial_scalability_idc]. rewrite L1, L2. reflexivity.
       - intros X. cbn [in_ChromaArrayType]. rewrite L1, L2, X. rewrite orb_true_r. reflexivity. }
  subst il'. apply app_step in E.
  eapply (else_step _ (valid_modes c)) in E; [destruct E as [MO E]| |eassumption|eassumption].
  2: { intros LC x y q1 q2 VX VY F. eapply mo_step in F; [exact F|..|exact VX|exact VY].
       rewrite JE; unfold svc_inputs2_of; cbv zeta. cbn [in_adaptive_tcoeff_level_prediction_flag]. rewrite LC. reflexivity. }
  subst mo'.
  unfold skipped in *. cbn [v_modes] in *.
  match type of E with flat (Dump.when ?g _) ++ _ = _ => match goal with H : opt_ok ?g' _ sc |- _ => assert (G : g = g') by (destruct mo; reflexivity) end end.
  rewrite G in E. clear G.
  eapply (else_step _ (fun p : N * N => is_u 4 (fst p) /\ is_u 4 (snd p)) _ sc sc' (0, 0) (fun p => fu "scan_idx_start" (fst p) ++ fu "scan_idx_end" (snd p))) in E;
    [destruct E as [SC E]| |eassumption|eassumption].
  2: { intros _ [x1 x2] [y1 y2] q1 q2 _ _ F. cbn [fst snd] in F. apply app_step in F. apply fu_step in F. destruct F as [-> F].
       apply fu_step in F. destruct F as [-> F]. auto. }
  subst sc'. injection E as <-. split; [|reflexivity]. unfold same. red_goal. rewrite QE. reflexivity.
Qed.

(** ** Payloads *)
(** Only the member that belongs to the type of the unit is set. *)
Definition shape (h : nalh) (p : payload) : Prop :=
  let t := nal_unit_type h in
  p = if (t =? 1) || (t =? 5) then mkpayload (pl_slice p) None None None None None
  else if t =? 7 then mkpayload None (pl_sps p) None None None None
  else if t =? 8 then mkpayload None None (pl_pps p) None None None
  else if t =? 14 then mkpayload None None None (pl_prefix p) None None
  else if t =? 15 then mkpayload None None None None (pl_subset_sps p) None
  else if t =? 20 then mkpayload None None None None None (pl_slice_ext p)
  else mkpayload None None None None None None.
Lemma payload_shape : forall h s p s', ParseNalUnitPayload h s = (Ok p, s') -> shape h p.
Proof.
  intros h s p s' H. unfold ParseNalUnitPayload in H. unfold shape. cbv zeta in *.
  repeat match type of H with
  | (if ?c then _ else _) _ = _ => destruct c
  | (match ?c with Some _ => _ | None => _ end) _ = _ => destruct c
  | sbind _ _ _ = _ => let x := fresh "x" in apply sbind_inv in H; destruct H as (x & ? & _ & H)
  | sret _ _ = _ => apply sret_inv in H; destruct H as [-> _]
  end; reflexivity.
Qed.

Lemma option_same : forall A (o o' : option A), option_map same o = option_map same o' -> o = o'.
Proof. intros A [a|] [b|] H; unfold same in H; cbn in H; congruence. Qed.
Lemma maybe_step : forall A B (g : A -> B) f o o' r r',
  (forall a b r r', o = Some a -> o' = Some b -> flat (f a) ++ r = flat (f b) ++ r' -> g a = g b /\ r = r') ->
  (forall a q r, flat (f a) ++ q <> "}"%string :: r) ->
  flat (maybe o f) ++ "}"%string :: r = flat (maybe o' f) ++ "}"%string :: r' ->
  option_map g o = option_map g o' /\ r = r'.
Proof.
  intros A B g f o o' r r' S N E. destruct o as [a|], o' as [b|]; cbn [maybe option_map] in *.
  - apply S in E; auto. destruct E as [-> E]. injection E as <-. auto.
  - cbn [flat flat_map app] in E. exfalso. eapply N. exact E.
  - cbn [flat flat_map app] in E. exfalso. symmetry in E. eapply N. exact E.
  - cbn [flat flat_map app] in E. injection E as <-. auto.
Qed.
Lemma block_head : forall n d q r, n <> "}"%string -> flat (block n d) ++ q <> "}"%string :: r.
Proof. intros n d q r N E. rewrite flat_block in E. cbn [app] in E. injection E as E _. auto. Qed.

Lemma prefix_step : forall st h p p' a b r r', good_payload st h p -> good_payload st h p' ->
  pl_prefix p = Some a -> pl_prefix p' = Some b ->
  flat (dump_prefix a) ++ r = flat (dump_prefix b) ++ r' -> shown_prefix a = shown_prefix b /\ r = r'.
Proof.
  intros st h p p' a b r r' GA GB EA EB E.
  destruct (gp_prefix _ _ _ GA a EA) as (S1 & e & H1 & A1 & A2 & A3 & A4 & A5).
  destruct (gp_prefix _ _ _ GB b EB) as (_ & e' & H1' & B1 & B2 & B3 & B4 & B5).
  rewrite H1 in H1'. injection H1' as <-. unfold dump_prefix in E. apply block_step in E.
  rewrite A1, B1, S1 in E. cbn [Dump.when] in E.
  unfold shown_prefix. rewrite A1, A2, A3, A4, B1, B2, B3, B4.
  destruct (svc_extension_flag h =? 1).
  - destruct A5 as (x & Ex & X1 & X2 & X3 & X4), B5 as (y & Ey & Y1 & Y2 & Y3 & Y4). rewrite Ex, Ey in *.
    unfold dump_prefsvc in E. apply block_step in E. rewrite X1, Y1 in E. cbn [option_map].
    destruct (N.eqb_spec (nal_ref_idc h) 0) as [Z|Z]; cbn [negb Dump.when] in E.
    + rewrite X4, Y4 by exact Z. injection E as <-. auto.
    + apply app_step in E. apply fu_step in E. destruct E as [F1 E]. apply fu_step in E. destruct E as [F2 E].
      injection E as <-. split; [|reflexivity]. unfold shown_prefsvc. rewrite X1, X2, X3, Y1, Y2, Y3, F1, F2. reflexivity.
  - rewrite A5, B5 in *. injection E as <-. auto.
Qed.
Lemma slext_step : forall st h p p' a b r r', (forall e, nal_svc h = Some e -> svc_idr_flag e <= 1) ->
  good_payload st h p -> good_payload st h p' ->
  pl_slice_ext p = Some a -> pl_slice_ext p' = Some b ->
  flat (dump_slext a) ++ r = flat (dump_slext b) ++ r' -> a = b /\ r = r'.
Proof.
  intros st h p p' a b r r' HI GA GB EA EB E.
  destruct (gp_slice_ext _ _ _ GA a EA) as (A1 & A2). destruct (gp_slice_ext _ _ _ GB b EB) as (B1 & B2).
  unfold dump_slext in E. apply block_step in E. rewrite A1, B1 in E.
  cbn [sx_svc_extension_flag sx_avc_3d_extension_flag sx_slice_header sx_svc_slice_header] in E.
  rewrite A1, B1. destruct (tob (svc_extension_flag h)).
  - destruct A2 as [-> A2], B2 as [-> B2].
    apply (maybe_step _ _ same) in E.
    + destruct E as [E <-]. split; [|reflexivity]. apply option_same in E. rewrite E. reflexivity.
    + intros. eapply svh_shows; eauto.
    + intros. apply block_head. discriminate.
  - destruct A2 as [-> A2], B2 as [-> B2]. destruct (tob (avc_3d_extension_flag h)).
    + rewrite A2, B2. injection E as <-. auto.
    + destruct A2 as (y & Ey & Y), B2 as (y' & Ey' & Y'). rewrite Ey, Ey' in *. cbn [deref] in E.
      apply (slh_shows st (nal_ref_idc h) (nal_unit_type h)) in E; auto. destruct E as [E E2]. unfold same in E. subst. injection E2 as <-. auto.
Qed.
Lemma payload_step : forall o st h p p' r r', (forall e, nal_svc h = Some e -> svc_idr_flag e <= 1) ->
  good_payload st h p -> good_payload st h p' -> shape h p -> shape h p' ->
  flat (dump_payload o (nal_unit_type h) p) ++ r = flat (dump_payload o (nal_unit_type h) p') ++ r' ->
  shown_payload p = shown_payload p' /\ r = r'.
Proof.
  intros o st h p p' r r' HI GA GB SA SB E. unfold dump_payload in E. apply block_step in E.
  unfold shape in SA, SB. cbv zeta in SA, SB.
  assert (T : nal_unit_type h = 1 \/ nal_unit_type h = 5 \/ nal_unit_type h = 7 \/ nal_unit_type h = 8 \/ nal_unit_type h = 14 \/
     nal_unit_type h = 15 \/ nal_unit_type h = 20 \/
     (nal_unit_type h <> 1 /\ nal_unit_type h <> 5 /\ nal_unit_type h <> 7 /\ nal_unit_type h <> 8 /\ nal_unit_type h <> 14 /\
      nal_unit_type h <> 15 /\ nal_unit_type h <> 20)) by lia.
  assert (SL : forall a b r r', pl_slice p = Some a -> pl_slice p' = Some b ->
     flat (dump_slp a) ++ r = flat (dump_slp b) ++ r' -> same a = same b /\ r = r').
  { intros a b q q' EA EB F. destruct (gp_slice _ _ _ GA a EA) as (A1 & A2). destruct (gp_slice _ _ _ GB b EB) as (B1 & B2).
    unfold dump_slp in F. apply block_step in F. apply (slh_shows st (nal_ref_idc h) (nal_unit_type h)) in F; auto. destruct F as [F F2].
    injection F2 as <-. split; [|reflexivity]. unfold same in *. rewrite A1, B1, F. reflexivity. }
  destruct T as [T|[T|[T|[T|[T|[T|[T|T]]]]]]]; [rewrite T in E, SA, SB; cbn in SA, SB; unfold shown_payload..|].
  1,2: rewrite SA, SB; cbn; apply (maybe_step _ _ same) in E; [|exact SL|intros; apply block_head; discriminate];
    destruct E as [E <-]; apply option_same in E; rewrite E; auto.
  - rewrite SA, SB; cbn. apply (maybe_step _ _ shown_sps) in E; [| |intros; apply block_head; discriminate].
    + destruct E as [-> <-]. auto.
    + intros. eapply sps_shows; [apply (gp_sps _ _ _ GA); assumption|apply (gp_sps _ _ _ GB); assumption|eassumption].
  - rewrite SA, SB; cbn. apply (maybe_step _ _ same) in E; [| |intros; apply block_head; discriminate].
    + destruct E as [E <-]. apply option_same in E. rewrite E. auto.
    + intros. eapply pps_shows; [apply (gp_pps _ _ _ GA); assumption|apply (gp_pps _ _ _ GB); assumption|eassumption].
  - rewrite SA, SB; cbn. apply (maybe_step _ _ shown_prefix) in E; [| |intros; apply block_head; discriminate].
    + destruct E as [-> <-]. auto.
    + intros. eapply prefix_step; [exact GA|exact GB|eassumption..].
  - rewrite SA, SB; cbn. apply (maybe_step _ _ shown_subsps) in E; [| |intros; apply block_head; discriminate].
    + destruct E as [-> <-]. auto.
    + intros. eapply subsps_shows; [apply (gp_subset _ _ _ GA); assumption|apply (gp_subset _ _ _ GB); assumption|eassumption].
  - rewrite SA, SB; cbn. apply (maybe_step _ _ same) in E; [| |intros; apply block_head; discriminate].
    + destruct E as [E <-]. apply option_same in E. rewrite E. auto.
    + intros. eapply (slext_step st h p p'); eauto.
  - clear SL. repeat match type of SA with context[nal_unit_type h =? ?k] => replace (nal_unit_type h =? k) with false in SA, SB by lia end.
    cbn in SA, SB. unfold shown_payload. rewrite SA, SB. split; [reflexivity|].
    assert (M : forall (A : Type) (a1 a2 a3 a4 a5 a6 a7 : A), match nal_unit_type h with 1 | 5 => a1 | 7 => a2 | 8 => a3 | 14 => a4 | 15 => a5 | 20 => a6 | _ => a7 end = a7).
    { intros. destruct (nal_unit_type h) as [|q]; [reflexivity|]. do 5 (destruct q as [q|q|]; try reflexivity; try (exfalso; lia)). }
    rewrite !M in E. cbn in E. injection E as <-. reflexivity.
Qed.

(** ** NAL units *)
Lemma text_inj : forall a b, Forall (fun c => c < 256) a -> Forall (fun c => c < 256) b -> text_of a = text_of b -> a = b.
Proof.
  induction a as [|x a IH]; intros [|y b] FA FB E; try discriminate; [reflexivity|]. cbn [text_of] in E.
  inversion FA; subst. inversion FB; subst. injection E as E1 E2.
  assert (x = y) by (rewrite <- (N_ascii_embedding x), <- (N_ascii_embedding y) by assumption; congruence). f_equal; auto.
Qed.
Lemma hex_of_small : forall c, Forall (fun b => b < 256) c -> Forall (fun b => b < 256) (hex_of c).
Proof.
  assert (D : forall d, nth (N.to_nat d) hex_digits 0 < 256).
  { intros d. assert (K : Forall (fun x => x < 256) hex_digits) by (repeat constructor).
    destruct (Nat.lt_ge_cases (N.to_nat d) (List.length hex_digits)) as [L|L].
    - rewrite Forall_forall in K. apply K, nth_In, L.
    - rewrite nth_overflow by exact L. lia. }
  intros c F. induction F as [|b c B F IH]; [constructor|]. cbn [hex_of flat_map app]. repeat (constructor; [apply D|]). exact IH.
Qed.
Lemma checksum_step : forall a b r r', is_checksum a -> is_checksum b ->
  flat (dump_checksum a) ++ r = flat (dump_checksum b) ++ r' -> a = b /\ r = r'.
Proof.
  intros a b r r' A B E. rewrite !dump_checksum_eq in E by assumption. apply fld_step in E. destruct E as [E <-].
  cbn [append] in E. injection E as E. apply text_inj in E; [|apply hex_of_small, A|apply hex_of_small, B].
  split; [|reflexivity]. destruct A as [LA FA], B as [LB FB].
  apply C55_injective; auto; try lia. rewrite !C55_printable by (auto; lia). congruence.
Qed.
Lemma header_idr : forall h, valid_nalh h -> forall e, nal_svc h = Some e -> svc_idr_flag e <= 1.
Proof.
  intros h V e E. unfold valid_nalh in V. rewrite E in V.
  destruct V as (_ & _ & _ & _ & _ & _ & V & _). unfold is_u in V. lia.
Qed.

Lemma nalu_step : forall o st ck off len off' len' x y r r', (add_checksum o = true -> ck = true) ->
  good_unit st ck x -> good_unit st ck y -> shape (nu_header x) (nu_payload x) -> shape (nu_header y) (nu_payload y) ->
  flat (dump_nalu o off len x) ++ r = flat (dump_nalu o off' len' y) ++ r' ->
  (add_offset o = true -> off = off') /\ (add_length o = true -> len = len') /\
  (add_parsed_length o = true -> nu_parsed_length x = nu_parsed_length y) /\
  (add_checksum o = true -> nu_checksum x = nu_checksum y) /\
  nu_header x = nu_header y /\ shown_payload (nu_payload x) = shown_payload (nu_payload y) /\ r = r'.
Proof.
  intros o st ck off len off' len' x y r r' CK [HX PX KX] [HY PY KY] SX SY E. unfold dump_nalu in E. apply block_step in E.
  apply app_step in E.
  assert (K : (add_offset o = true -> off = off') /\ True) by (split; [|exact I]; intros A; rewrite A in E; cbn [Dump.when] in E; apply hex_step in E; tauto).
  destruct K as [K1 _].
  assert (E1 : forall q q', flat (Dump.when (add_offset o) (fld "offset" (hex8 off))) ++ q = flat (Dump.when (add_offset o) (fld "offset" (hex8 off'))) ++ q' -> q = q').
  { intros q q' F. destruct (add_offset o); cbn [Dump.when] in F; [apply hex_step in F; tauto|exact F]. }
  apply E1 in E. clear E1. apply app_step in E.
  assert (K2 : add_length o = true -> len = len') by (intros A; rewrite A in E; cbn [Dump.when] in E; apply fu_step in E; tauto).
  assert (E1 : forall q q', flat (Dump.when (add_length o) (fu "length" len)) ++ q = flat (Dump.when (add_length o) (fu "length" len')) ++ q' -> q = q').
  { intros q q' F. destruct (add_length o); cbn [Dump.when] in F; [apply fu_step in F; tauto|exact F]. }
  apply E1 in E. clear E1. apply app_step in E.
  assert (K3 : add_parsed_length o = true -> nu_parsed_length x = nu_parsed_length y) by (intros A; rewrite A in E; cbn [Dump.when] in E; apply hex_step in E; tauto).
  assert (E1 : forall q q', flat (Dump.when (add_parsed_length o) (fld "parsed_length" (hex8 (nu_parsed_length x)))) ++ q = flat (Dump.when (add_parsed_length o) (fld "parsed_length" (hex8 (nu_parsed_length y)))) ++ q' -> q = q').
  { intros q q' F. destruct (add_parsed_length o); cbn [Dump.when] in F; [apply hex_step in F; tauto|exact F]. }
  apply E1 in E. clear E1. apply app_step in E.
  assert (E1 : forall q q', flat (Dump.when (add_checksum o) (deref (nu_checksum x) dump_checksum)) ++ q = flat (Dump.when (add_checksum o) (deref (nu_checksum y) dump_checksum)) ++ q' ->
    (add_checksum o = true -> nu_checksum x = nu_checksum y) /\ q = q').
  { intros q q' F. destruct (add_checksum o); cbn [Dump.when] in F; [|split; [discriminate|exact F]].
    rewrite CK in KX, KY by reflexivity. destruct KX as (cx & EX & CX), KY as (cy & EY & CY). rewrite EX, EY in *. cbn [deref] in F.
    apply checksum_step in F; auto. destruct F as [<- <-]. auto. }
  apply E1 in E. clear E1. destruct E as [K4 E]. apply app_step in E.
  apply nalh_shows in E; auto. destruct E as [K5 E]. unfold same in K5. rewrite <- K5 in *.
  apply payload_step with (st := st) in E; [|apply (header_idr _ HX)|auto..]. destruct E as [K6 E]. injection E as <-. tauto.
Qed.
Lemma parse_shape : forall a ck u w x w', fits a u -> ok_state (w_st w) ->
  parse_unit a ck u w = (Ok x, w') -> shape (nu_header x) (nu_payload x).
Proof.
  intros a ck u w x w' F O E.
  destruct (unit_cases a ck u w F O) as [(h & p & b1 & b2 & w2 & H1 & H2 & MV & _ & _ & _ & _ & E')|[(_ & _ & E')|(_ & _ & E')]];
    change (unit_parser a ck u w) with (parse_unit a ck u w) in E'; rewrite E in E'; try discriminate.
  assert (X : x = mknalu h p (get_current_offset b2) (if ck then Some (checksum_of (start a (unesc u))) else None)) by congruence.
  clear E E'. subst x. cbn [nu_header nu_payload]. eapply payload_shape. exact H2.
Qed.
