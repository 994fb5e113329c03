(** Parser of slice headers in scalable extension: safety, soundness, completeness. *)
From Coq Require Import NArith ZArith List Bool Lia ZifyBool ZifyNat ZifyN.
From Verif Require Import SpecBits Base BitBuffer SpecReader BitsLemmas BitBufferProofs
  SpecSyntax ReaderProofs Parser ParserProofs TypesSps Vui SpecVui VuiProofs SpecScaling SpecSps
  Sps SpsProofs TypesPps SpecPps Pps PpsProofs TypesNal NalHeaderProofs TypesExt SpecExt ExtProofs
  TypesSlice SliceParts SpecSliceParts SlicePartsProofs TypesSliceHeader SliceHeader SpecSlice
  SliceProofs TypesSvcSlice SvcSlice SpecSvcSlice.
Import ListNotations.
Open Scope N_scope.
Ltac Zify.zify_post_hook ::= Z.div_mod_to_equations.

Definition sub_use (v : subsps) : Prop :=
  sps_use (ss_sps v) /\ separate_colour_plane_flag (ss_sps v) <= 1.
Lemma ok_sub_use : forall v, ok_subset v -> sub_use v.
Proof.
  intros v [O _]. split; [apply ok_sps_use; auto|]. destruct O as [ls V].
  unfold valid_sps in V. conj. destruct (is_high _); conj; [|lia].
  destruct (chroma_format_idc (ss_sps v) =? 3); unfold is_u in *; lia.
Qed.
Definition svc_use_state (st : pstate) : Prop :=
  (forall id p, lookup id (st_pps st) = Some p -> pps_use p) /\
  (forall id v, lookup id (st_subset_sps st) = Some v -> sub_use v).
Lemma ok_svc_use_state : forall st, ok_state st -> svc_use_state st.
Proof.
  intros st (_ & S1 & S2). split; intros id x H.
  - eapply ok_pps_use, S1, H.
  - eapply ok_sub_use, S2, H.
Qed.
Lemma sep1 : forall s, separate_colour_plane_flag s <= 1 ->
  (separate_colour_plane_flag s =? 1) = tob (separate_colour_plane_flag s).
Proof. intros s H. unfold tob. lia. Qed.

(** ** Blocks *)
Lemma svc_refs_good : forall ty, good (svc_refs ty).
Proof. intros. unfold svc_refs. good_tac. Qed.
Lemma svc_refs_sound : forall ty, ty <= 9 ->
  sound (svc_refs ty) (valid_svc_refs 0 0 ty) (enc_svc_refs ty).
Proof.
  intros ty L b v b' W H. unfold svc_refs in H. rewrite type_P, type_B in H by auto.
  change (P_slice ty || B_slice ty) with (svc_uses_refs ty) in H.
  unfold valid_svc_refs, enc_svc_refs. change on with tob. inv. red_refs. fin.
Qed.
Lemma svc_refs_complete : forall ty, ty <= 9 ->
  complete (svc_refs ty) (valid_svc_refs 0 0 ty) (enc_svc_refs ty).
Proof.
  intros ty L [ds ov l0 l1] V. unfold valid_svc_refs in V. revert V. red_refs. change on with tob.
  intro V. conj. unfold svc_refs, enc_svc_refs. red_refs. change on with tob.
  rewrite type_P, type_B by auto.
  change (P_slice ty || B_slice ty) with (svc_uses_refs ty). walk.
Qed.

Ltac red_ilayer := cbn [il_ref_layer_dq_id il_disable_inter_layer_deblocking_filter_idc
  il_inter_layer_slice_alpha_c0_offset_div2 il_inter_layer_slice_beta_offset_div2
  il_constrained_intra_resampling_flag il_ref_layer_chroma_phase_x_plus1_flag
  il_ref_layer_chroma_phase_y_plus1 il_scaled_ref_layer_left_offset
  il_scaled_ref_layer_top_offset il_scaled_ref_layer_right_offset
  il_scaled_ref_layer_bottom_offset].
Lemma svc_ilayer_good : forall s x, good (svc_ilayer s x).
Proof. intros. unfold svc_ilayer. good_tac. Qed.
Lemma svc_ilayer_sound : forall c,
  sound (svc_ilayer (c_sps c) (c_svc c)) (valid_ilayer c) (enc_ilayer c).
Proof.
  intros c b v b' W H. unfold svc_ilayer in H. rewrite cat_eq in H.
  unfold valid_ilayer, enc_ilayer. cbv zeta. change on with tob. inv. red_ilayer. fin.
Qed.
Lemma svc_ilayer_complete : forall c,
  complete (svc_ilayer (c_sps c) (c_svc c)) (valid_ilayer c) (enc_ilayer c).
Proof.
  intros c v V. destruct v as [dq di a be cr px py l t r bo]. unfold valid_ilayer in V. cbv zeta in V.
  revert V. red_ilayer. change on with tob. intro V. conj.
  unfold svc_ilayer, enc_ilayer. cbv zeta. red_ilayer. change on with tob. rewrite cat_eq. walk.
Qed.

Ltac red_modes := cbn [mo_slice_skip_flag mo_num_mbs_in_slice_minus1 mo_adaptive_base_mode_flag
  mo_default_base_mode_flag mo_adaptive_motion_prediction_flag mo_default_motion_prediction_flag
  mo_adaptive_residual_prediction_flag mo_default_residual_prediction_flag
  mo_tcoeff_level_prediction_flag].
Lemma svc_modes_good : forall x, good (svc_modes x).
Proof. intros. unfold svc_modes. good_tac. Qed.
Lemma svc_modes_sound : forall c, sound (svc_modes (c_svc c)) (valid_modes c) (enc_modes c).
Proof.
  intros c b v b' W H. unfold svc_modes in H. unfold valid_modes, enc_modes. change on with tob.
  bstep H sk b1 H1. rd. destruct (tob sk) eqn:?.
  - inv. pairinv. red_modes. rewrite Heqb0. cbv iota. rewrite <- ?app_assoc. fin.
  - inv. pairinv. red_modes. rewrite Heqb0. cbv iota. rewrite <- ?app_assoc. fin.
Qed.
Lemma svc_modes_complete : forall c, complete (svc_modes (c_svc c)) (valid_modes c) (enc_modes c).
Proof.
  intros c v V. destruct v as [sk nm ab db am dm ar dr tc]. unfold valid_modes in V.
  revert V. red_modes. change on with tob. intro V. conj.
  unfold svc_modes, enc_modes. red_modes. change on with tob.
  eapply parses_bind; [walk|]. destruct (tob sk); conj; subst.
  - eapply parses_bind with (a := (nm, 0, 0, 0, 0, 0, 0)); [walk|]. cbv beta iota. walk.
  - eapply parses_bind with (a := (0, ab, db, am, dm, ar, dr)); [walk|]. cbv beta iota. walk.
Qed.

(** ** The part of quality layer 0 *)
Definition wtab : Type := (N * option pwt)%type.
Lemma weights_sound : forall c ty n0 n1 b bf pw b', bb_wf b ->
  cond (svc_weights c ty)
    (bf <- cond (c_inter_layer c) (ReadBits 1) 0 ;;
     pw <- cond (negb (c_inter_layer c) || negb (tob bf))
       (some_of (ParsePredWeightTable (chroma_array_type (c_sps c)) ty n0 n1)) None ;;
     sret (bf, pw))%m (0, None) b = (Ok (bf, pw), b') ->
  exists tb, pw = option_map (table_of (chroma_array_type (c_sps c)) ty n0 n1) tb /\
    (if svc_weights c ty && c_inter_layer c then is_u 1 bf else bf = 0) /\
    opt_ok (svc_weights c ty && negb (tob bf))
      (valid_table (chroma_array_type (c_sps c)) ty n0 n1) tb /\
    reads b ((if svc_weights c ty && c_inter_layer c then u_bits 1 bf else []) ++
             enc_opt (enc_table (chroma_array_type (c_sps c)) ty) tb) b'.
Proof.
  intros c ty n0 n1 b bf pw b' W H. destruct (svc_weights c ty); cbn [andb]; unfold cond at 1 in H.
  - bstep H f b1 H1.
    assert (X : (if c_inter_layer c then is_u 1 f else f = 0) /\
      reads b (if c_inter_layer c then u_bits 1 f else []) b1) by (clear H; fin).
    destruct X as [V1 R1]. clear H1. pose proof (reads_wf _ _ _ R1) as W1.
    bstep H t b2 H2. apply sret_inv in H. destruct H as [E ->]. injection E as -> ->.
    eapply opt_via_sound in H2; [|apply table_sound|auto]. destruct H2 as (tb & V2 & -> & R2).
    exists tb. split; [reflexivity|]. split; [exact V1|]. split; [|eapply reads_app; eauto].
    assert (Ef : negb (c_inter_layer c) || negb (tob f) = negb (tob f)).
    { destruct (c_inter_layer c); [reflexivity|]. subst f. reflexivity. }
    rewrite Ef in V2. exact V2.
  - apply sret_inv in H. destruct H as [E ->]. injection E as -> ->. exists None.
    split; [reflexivity|]. split; [reflexivity|]. split; [reflexivity|]. apply reads_refl. auto.
Qed.
Lemma weights_complete : forall c ty n0 n1 bf tb,
  (if svc_weights c ty && c_inter_layer c then is_u 1 bf else bf = 0) ->
  opt_ok (svc_weights c ty && negb (tob bf))
      (valid_table (chroma_array_type (c_sps c)) ty n0 n1) tb ->
  parses (cond (svc_weights c ty)
    (bf <- cond (c_inter_layer c) (ReadBits 1) 0 ;;
     pw <- cond (negb (c_inter_layer c) || negb (tob bf))
       (some_of (ParsePredWeightTable (chroma_array_type (c_sps c)) ty n0 n1)) None ;;
     sret (bf, pw))%m (0, None))
    ((if svc_weights c ty && c_inter_layer c then u_bits 1 bf else []) ++
             enc_opt (enc_table (chroma_array_type (c_sps c)) ty) tb)
    (bf, option_map (table_of (chroma_array_type (c_sps c)) ty n0 n1) tb).
Proof.
  intros c ty n0 n1 bf tb V1 V2. destruct (svc_weights c ty); cbn [andb] in *; cbn [cond].
  - eapply parses_bind with (a := bf); [walk|].
    assert (Ef : negb (c_inter_layer c) || negb (tob bf) = negb (tob bf)).
    { destruct (c_inter_layer c); [reflexivity|]. subst bf. reflexivity. }
    rewrite Ef. eapply parses_bind1; [|apply parses_ret].
    eapply opt_via_complete; [apply table_complete|exact V2].
  - subst bf. cbn [opt_ok] in V2. subst tb. apply parses_ret.
Qed.

Definition svc_qzero' (c : ctx) (ty : N) : P (option qzero) :=
  svc_qzero (nal_ref_idc (c_nal c)) ty (c_sps c) (c_pps c) (c_svc c) (c_ext c).
Lemma svc_qzero_good : forall ref ty s p x e, good (svc_qzero ref ty s p x e).
Proof. intros. unfold svc_qzero. pose proof svc_refs_good. good_tac. Qed.
Lemma svc_weighted_eq : forall c ty, ty <= 9 -> svc_weighted (c_pps c) ty = svc_weights c ty.
Proof. intros c ty L. unfold svc_weighted, svc_weights. rewrite type_P, type_B by auto. reflexivity. Qed.
Lemma qzero_sound : forall c ty b o b', bb_wf b -> ty <= 9 -> svc_qzero' c ty b = (Ok o, b') ->
  exists z, valid_qz 0 0 c ty z /\
    o = (if has_base_marking c z then None else Some (qzero_of c ty (Some z))) /\
    reads b (enc_qz c ty z) b'.
Proof.
  intros c ty b o b' W L H. unfold svc_qzero', svc_qzero in H.
  rewrite cat_eq, svc_weighted_eq in H by auto.
  replace (tob (svc_no_inter_layer_pred_flag (c_ext c))) with (negb (c_inter_layer c)) in H
    by (unfold c_inter_layer; change on with tob; rewrite negb_involutive; reflexivity).
  rewrite negb_involutive in H.
  bstep H rf b1 H1. apply svc_refs_sound in H1; auto. destruct H1 as [V1 R1].
  pose proof (reads_wf _ _ _ R1) as W1.
  bstep H rl b2 H2. apply rplm_sound in H2; auto. destruct H2 as (cs0 & cs1 & V2 & -> & R2).
  pose proof (reads_wf _ _ _ R2) as W2.
  bstep H bt b3 H3. destruct bt as [bf pw]. apply weights_sound in H3; auto.
  destruct H3 as (tb & -> & V3 & V4 & R3). pose proof (reads_wf _ _ _ R3) as W3.
  fold (c_ref c) in H. unfold valid_qz, enc_qz, has_base_marking.
  destruct (c_ref c).
  - bstep H dm b4 H4. apply drpm_sound in H4; auto. destruct H4 as (mk & V5 & -> & R4).
    pose proof (reads_wf _ _ _ R4) as W4. change (tob (sv_slice_header_restriction_flag (c_svc c))) with (c_restricted c) in H.
    destruct (c_restricted c); cbn [negb andb] in *.
    + apply sret_inv in H. destruct H as [-> ->].
      exists (mkqz rf cs0 cs1 bf tb (Some mk) 0).
      cbn [z_refs z_rpl0 z_rpl1 z_base_pred_weight_table_flag z_table z_marking z_store_ref_base_pic_flag].
      split; [|split].
      * do 4 (split; [assumption|]). split; [exists mk; auto|reflexivity].
      * reflexivity.
      * rewrite app_nil_r. eapply reads_app; [eassumption|]. eapply reads_app; [eassumption|].
        rewrite app_assoc. eapply reads_app; [eassumption|]. exact R4.
    + bstep H sr b5 H5. rd.
      exists (mkqz rf cs0 cs1 bf tb (Some mk) sr).
      cbn [z_refs z_rpl0 z_rpl1 z_base_pred_weight_table_flag z_table z_marking z_store_ref_base_pic_flag].
      assert (E : b' = b5 /\ o = (if (on (svc_use_ref_base_pic_flag (c_ext c)) || on sr) && negb (c_idr c)
        then None else Some (qzero_of c ty (Some (mkqz rf cs0 cs1 bf tb (Some mk) sr))))).
      { unfold c_idr. change on with tob.
        destruct ((tob (svc_use_ref_base_pic_flag (c_ext c)) || tob sr) && negb (tob (svc_idr_flag (c_ext c))));
          apply sret_inv in H; destruct H as [-> ->]; auto. }
      destruct E as [-> ->].
      split; [|split].
      * do 4 (split; [assumption|]). split; [exists mk; auto|assumption].
      * reflexivity.
      * eapply reads_app; [eassumption|]. eapply reads_app; [eassumption|].
        rewrite app_assoc. eapply reads_app; [eassumption|].
        eapply reads_app; [exact R4|]. assumption.
  - apply sret_inv in H. destruct H as [-> ->]. exists (mkqz rf cs0 cs1 bf tb None 0).
    cbn [z_refs z_rpl0 z_rpl1 z_base_pred_weight_table_flag z_table z_marking z_store_ref_base_pic_flag negb andb].
    split; [|split].
    * do 4 (split; [assumption|]). split; reflexivity.
    * reflexivity.
    * cbn [enc_opt]. rewrite !app_nil_r. eapply reads_app; [eassumption|].
      eapply reads_app; [eassumption|]. assumption.
Qed.
Lemma qzero_complete : forall c ty z, ty <= 9 -> valid_qz 0 0 c ty z ->
  parses (svc_qzero' c ty) (enc_qz c ty z)
    (if has_base_marking c z then None else Some (qzero_of c ty (Some z))).
Proof.
  intros c ty [rf cs0 cs1 bf tb om sr] L (V1 & V2 & V3 & V4 & V5 & V6).
  unfold svc_qzero', svc_qzero, enc_qz, has_base_marking.
  cbn [z_refs z_rpl0 z_rpl1 z_base_pred_weight_table_flag z_table z_marking z_store_ref_base_pic_flag] in *.
  rewrite cat_eq, svc_weighted_eq by auto.
  replace (tob (svc_no_inter_layer_pred_flag (c_ext c))) with (negb (c_inter_layer c))
    by (unfold c_inter_layer; change on with tob; rewrite negb_involutive; reflexivity).
  rewrite negb_involutive.
  eapply parses_bind; [apply svc_refs_complete; auto|].
  eapply parses_bind; [apply rplm_complete; auto|].
  rewrite app_assoc.
  eapply parses_bind; [apply weights_complete; [exact V3|exact V4]|]. cbv beta iota.
  fold (c_ref c). change (tob (sv_slice_header_restriction_flag (c_svc c))) with (c_restricted c).
  destruct (c_ref c); cbn [andb opt_ok] in *.
  - destruct V5 as (mk & -> & V5). cbn [enc_opt].
    eapply parses_bind; [apply drpm_complete; exact V5|].
    destruct (c_restricted c); cbn [andb negb] in *.
    + subst sr. apply parses_ret.
    + eapply parses_bind1; [apply ReadBits_parses; [lia|exact V6]|].
      unfold c_idr. change on with tob.
      destruct ((tob (svc_use_ref_base_pic_flag (c_ext c)) || tob sr) && negb (tob (svc_idr_flag (c_ext c))));
      apply parses_ret.
  - subst om sr. apply parses_ret.
Qed.

(** ** The rest *)
Lemma cond_or_sound : forall A (c : bool) (p : P A) ok enc d, sound p ok enc ->
  forall b v b', bb_wf b -> cond c p d b = (Ok v, b') ->
  exists o, opt_ok c ok o /\ v = or_else o d /\ reads b (enc_opt enc o) b'.
Proof.
  intros A c p ok enc d H b v b' W Hp. unfold cond in Hp. destruct c; cbn [opt_ok].
  - apply H in Hp; auto. destruct Hp as [O R]. exists (Some v). split; [exists v; auto|]. auto.
  - apply sret_inv in Hp. destruct Hp as [-> ->]. exists None. split; [reflexivity|].
    split; [reflexivity|]. apply reads_refl. auto.
Qed.
Lemma cond_or_complete : forall A (c : bool) (p : P A) (ok : A -> Prop) enc d o,
  complete p ok enc -> opt_ok c ok o -> parses (cond c p d) (enc_opt enc o) (or_else o d).
Proof.
  intros A c p ok enc d o H O. unfold opt_ok in O. destruct c; cbn [cond].
  - destruct O as (x & -> & O). apply H. auto.
  - subst o. apply parses_ret.
Qed.
Definition scan_read : P (N * N) := (ss <- ReadBits 4 ;; se <- ReadBits 4 ;; sret (ss, se))%m.
Lemma scan_good : good scan_read.
Proof. unfold scan_read. good_tac. Qed.
Lemma scan_sound : sound scan_read (fun p => is_u 4 (fst p) /\ is_u 4 (snd p)) enc_scan.
Proof. intros b v b' W H. unfold scan_read in H. inv. unfold enc_scan. cbn [fst snd]. fin. Qed.
Lemma scan_complete : complete scan_read (fun p => is_u 4 (fst p) /\ is_u 4 (snd p)) enc_scan.
Proof. intros [a b] [V1 V2]. unfold enc_scan, scan_read. cbn [fst snd] in *. walk. Qed.

Lemma svc_rest_good : forall h s p x e ld pic idr po red q, sps_use s -> pps_use p ->
  good (svc_rest h s p x e ld pic idr po red q).
Proof.
  intros h s p x e ld pic idr po red q US UP. unfold svc_rest. cbv zeta.
  pose proof (slice_cycle_good s p US UP). pose proof slice_dbk_good.
  pose proof svc_ilayer_good. pose proof svc_modes_good. good_tac.
Qed.
Lemma svc_good : forall h st, svc_use_state st -> good (ParseSliceHeaderInScalableExtension h st).
Proof.
  intros h st [U1 U2]. unfold ParseSliceHeaderInScalableExtension.
  apply good_bind; [apply slice_lead_good|]. intro ld.
  apply found_bind_good. intros p Fp. rewrite mfind_lookup in Fp. apply U1 in Fp.
  apply found_bind_good. intros ss Fs. rewrite mfind_lookup in Fs. apply U2 in Fs. cbv zeta.
  destruct Fs as [Fs Fq].
  pose proof slice_pic_good. pose proof slice_poc_good. pose proof svc_qzero_good.
  pose proof svc_rest_good. good_tac.
Qed.

Lemma inputs2_eq : forall c v, 
  svc_inputs2 (c_nal c) (c_sps c) (c_svc c) (c_ext c) (qzero_of c (v_type v) (v_qz v)) =
  svc_inputs2_of c v.
Proof.
  intros c v. unfold svc_inputs2, svc_inputs2_of, when, present. rewrite cat_eq.
  fold (c_base_layer_quality c). change (negb (tob (svc_no_inter_layer_pred_flag (c_ext c)))) with (c_inter_layer c).
  fold (c_ref c). change (tob (sv_slice_header_restriction_flag (c_svc c))) with (c_restricted c).
  destruct (v_qz v) as [z|]; [|reflexivity]. cbn [qzero_of q_pred_weight_table].
  destruct (z_table z); reflexivity.
Qed.
Lemma svc_inputs_eq : forall c,
  svc_inputs (c_nal c) (c_sps c) (c_pps c) (c_ext c) = svc_inputs_of c.
Proof. intros c. unfold svc_inputs, svc_inputs_of, when. rewrite changing. reflexivity. Qed.

Lemma skip_eq : forall om v2, v_modes v2 = om ->
  tob (mo_slice_skip_flag (or_else om no_modes)) = skipped v2.
Proof. intros om v2 <-. unfold skipped. destruct (v_modes v2); reflexivity. Qed.

Lemma svc_rest_sound : forall c v1 b r b', bb_wf b -> sps_use (c_sps c) -> pps_use (c_pps c) ->
  v_type v1 <= 9 ->
  svc_rest (c_nal c) (c_sps c) (c_pps c) (c_svc c) (c_ext c) (v_lead v1) (v_pic v1)
    (v_idr_pic_id v1) (v_poc v1) (v_redundant_pic_cnt v1)
    (qzero_of c (v_type v1) (v_qz v1)) b = (Ok r, b') ->
  exists v2, valid_svc2 c (v_type v1) v2 /\ Some r = svh_of c (v1, Some v2) /\
    reads b (enc_svc2 c (v_type v1) v2) b'.
Proof.
  intros c v1 b r b' W US UP L H. unfold svc_rest in H. cbv zeta in H. fold scan_read in H.
  change (negb (tob (svc_no_inter_layer_pred_flag (c_ext c)))) with (c_inter_layer c) in H.
  fold (c_base_layer_quality c) in H. fold (v_type v1) in H.
  change (tob (sv_slice_header_restriction_flag (c_svc c))) with (c_restricted c) in H.
  rewrite type_I in H by auto.
  bstep H cb b1 H1. apply ue_cond_sound in H1; auto. destruct H1 as [V1 R1].
  pose proof (reads_wf _ _ _ R1) as W1.
  bstep H qp b2 H2. apply se_sound in H2; auto. destruct H2 as [V2 R2].
  pose proof (reads_wf _ _ _ R2) as W2.
  bstep H db b3 H3. apply slice_dbk_sound in H3; auto. destruct H3 as [V3 R3].
  pose proof (reads_wf _ _ _ R3) as W3.
  bstep H cy b4 H4. apply slice_cycle_sound in H4; auto. destruct H4 as [V4 R4].
  pose proof (reads_wf _ _ _ R4) as W4.
  bstep H il b5 H5. eapply cond_or_sound in H5; [|apply svc_ilayer_sound|auto].
  destruct H5 as (oil & V5 & -> & R5). pose proof (reads_wf _ _ _ R5) as W5.
  bstep H mo b6 H6. eapply cond_or_sound in H6; [|apply svc_modes_sound|auto].
  destruct H6 as (omo & V6 & -> & R6). pose proof (reads_wf _ _ _ R6) as W6.
  bstep H sc b7 H7. eapply cond_or_sound in H7; [|apply scan_sound|auto].
  destruct H7 as (osc & V7 & -> & R7).
  set (v2 := mksvc2 cb qp db cy oil omo osc).
  rewrite (skip_eq omo v2 eq_refl) in V7.
  exists v2. split; [|split].
  - unfold valid_svc2. do 6 (split; [assumption|]). assumption.
  - destruct (or_else osc (0, 0)) as [s1 s2] eqn:Es. apply sret_inv in H. destruct H as [-> ->].
    unfold svh_of. cbn [fst snd option_map]. unfold v2. cbn [v_scan v_cabac_init_idc
      v_slice_qp_delta v_dbk v_cycle v_ilayer v_modes]. rewrite Es. cbn [fst snd].
    rewrite inputs2_eq, svc_inputs_eq. reflexivity.
  - destruct (or_else osc (0, 0)) as [s1 s2]. apply sret_inv in H. destruct H as [_ ->].
    unfold enc_svc2, v2. cbn [v_scan v_cabac_init_idc
      v_slice_qp_delta v_dbk v_cycle v_ilayer v_modes].
    repeat (eapply reads_app; [eassumption|]). assumption.
Qed.
Lemma svc_rest_complete : forall c v1 v2, sps_use (c_sps c) -> pps_use (c_pps c) ->
  v_type v1 <= 9 -> valid_svc2 c (v_type v1) v2 -> forall r, Some r = svh_of c (v1, Some v2) ->
  parses (svc_rest (c_nal c) (c_sps c) (c_pps c) (c_svc c) (c_ext c) (v_lead v1) (v_pic v1)
    (v_idr_pic_id v1) (v_poc v1) (v_redundant_pic_cnt v1)
    (qzero_of c (v_type v1) (v_qz v1))) (enc_svc2 c (v_type v1) v2) r.
Proof.
  intros c v1 v2 US UP L (V1 & V2 & V3 & V4 & V5 & V6 & V7) r E.
  unfold svc_rest. cbv zeta. fold scan_read.
  change (negb (tob (svc_no_inter_layer_pred_flag (c_ext c)))) with (c_inter_layer c).
  fold (c_base_layer_quality c). fold (v_type v1).
  change (tob (sv_slice_header_restriction_flag (c_svc c))) with (c_restricted c).
  rewrite type_I by auto. unfold enc_svc2.
  eapply parses_bind; [apply ue_cond_complete; [lia|exact V1]|].
  eapply parses_bind; [apply se_parses; exact V2|].
  eapply parses_bind; [apply slice_dbk_complete; [lia|exact V3]|].
  eapply parses_bind; [apply slice_cycle_complete; auto|].
  eapply parses_bind; [eapply cond_or_complete; [apply svc_ilayer_complete|exact V5]|].
  eapply parses_bind; [eapply cond_or_complete; [apply svc_modes_complete|exact V6]|].
  eapply parses_bind1.
  { eapply cond_or_complete; [apply scan_complete|]. rewrite (skip_eq _ v2 eq_refl). exact V7. }
  rewrite inputs2_eq, svc_inputs_eq. unfold svh_of in E. cbn [fst snd option_map] in E.
  injection E as ->. destruct (or_else (v_scan v2) (0, 0)). apply parses_ret.
Qed.

Lemma svc_sound : forall h st b r b', bb_wf b -> svc_use_state st ->
  ParseSliceHeaderInScalableExtension h st b = (Ok r, b') ->
  exists c v, svc_active h st (pic_parameter_set_id (v_lead (fst v))) = Some c /\
    valid_svc_slice 0 0 c v /\ r = svh_of c v /\ reads b (enc_svc_slice c v) b'.
Proof.
  intros h st b r b' W [U1 U2] H. unfold ParseSliceHeaderInScalableExtension in H.
  bstep H ld b1 H1. apply slice_lead_sound in H1; auto. destruct H1 as [V1 R1].
  pose proof (reads_wf _ _ _ R1) as W1.
  bstep H p b2 H2. apply found_inv in H2. destruct H2 as [Fp ->]. rewrite mfind_lookup in Fp.
  bstep H ss b2 H2. apply found_inv in H2. destruct H2 as [Fs ->]. rewrite mfind_lookup in Fs.
  cbv zeta in H.
  bstep H x b2 H2. apply found_inv in H2. destruct H2 as [Fx ->].
  pose proof (U1 _ _ Fp) as UP. pose proof (U2 _ _ Fs) as [US U3].
  rewrite (sep1 _ U3) in H.
  bstep H pic b2 H2. apply slice_pic_sound in H2; auto. destruct H2 as [V2 R2].
  pose proof (reads_wf _ _ _ R2) as W2.
  bstep H e b3 H3. apply found_inv in H3. destruct H3 as [Fe ->].
  set (c := mkctx h e p (ss_sps ss) x).
  change (tob (svc_idr_flag e)) with (c_idr c) in H.
  change (svc_quality_id e =? 0) with (c_base_layer_quality c) in H.
  change (svc_qzero _ _ _ _ _ _) with (svc_qzero' c (slice_type ld)) in H.
  bstep H idr b3 H3. apply ue_cond_sound in H3; auto. destruct H3 as [V3 R3].
  pose proof (reads_wf _ _ _ R3) as W3.
  bstep H po b4 H4. apply slice_poc_sound in H4; auto. destruct H4 as [V4 R4].
  pose proof (reads_wf _ _ _ R4) as W4.
  bstep H red b5 H5. apply ue_cond_sound in H5; auto. destruct H5 as [V5 R5].
  pose proof (reads_wf _ _ _ R5) as W5.
  assert (L : slice_type ld <= 9) by apply V1.
  bstep H o b6 H6.
  assert (X : exists oz, opt_ok (c_base_layer_quality c) (valid_qz 0 0 c (slice_type ld)) oz /\
    o = (if match oz with Some z => has_base_marking c z | None => false end then None
         else Some (qzero_of c (slice_type ld) oz)) /\
    reads b5 (enc_opt (enc_qz c (slice_type ld)) oz) b6).
  { unfold cond in H6. destruct (c_base_layer_quality c).
    - apply qzero_sound in H6; auto. destruct H6 as (z & Vz & Eo & Rz). exists (Some z).
      split; [exists z; auto|]. auto.
    - apply sret_inv in H6. destruct H6 as [-> ->]. exists None. split; [reflexivity|].
      split; [reflexivity|]. apply reads_refl. auto. }
  clear H6. destruct X as (oz & V6 & Eo & R6). pose proof (reads_wf _ _ _ R6) as W6.
  set (v1 := mksvc1 ld pic idr po red oz).
  change (match oz with Some z => has_base_marking c z | None => false end) with (base_marking c v1) in Eo.
  assert (V : valid_svc1 0 0 c v1).
  { unfold valid_svc1. do 5 (split; [assumption|]). assumption. }
  assert (R : reads b (enc_svc1 c v1) b6).
  { unfold enc_svc1. repeat (eapply reads_app; [eassumption|]). assumption. }
  assert (A : svc_active h st (pic_parameter_set_id (v_lead v1)) = Some c).
  { unfold svc_active, v1. cbn [v_lead]. rewrite Fp, Fs, Fx, Fe. reflexivity. }
  destruct (base_marking c v1) eqn:Bm; subst o; cbv iota in H.
  - apply sret_inv in H. destruct H as [-> ->]. exists c, (v1, None).
    unfold valid_svc_slice, enc_svc_slice. cbn [fst snd enc_opt].
    rewrite Bm, app_nil_r. cbn [negb opt_ok]. auto.
  - bstep H r' b7 H7. apply sret_inv in H. destruct H as [-> ->].
    apply (svc_rest_sound c v1) in H7; auto. destruct H7 as (v2 & V2' & E2 & R2').
    exists c, (v1, Some v2). unfold valid_svc_slice, enc_svc_slice. cbn [fst snd enc_opt].
    rewrite Bm. cbn [negb opt_ok]. split; [auto|]. split; [split; [auto|exists v2; auto]|].
    split; [auto|]. eapply reads_app; eauto.
Qed.
Lemma svc_complete : forall h st c v, svc_use_state st ->
  svc_active h st (pic_parameter_set_id (v_lead (fst v))) = Some c -> valid_svc_slice 0 0 c v ->
  parses (ParseSliceHeaderInScalableExtension h st) (enc_svc_slice c v) (svh_of c v).
Proof.
  intros h st c [v1 ov2] [U1 U2] A [V V']. cbn [fst snd] in *. unfold svc_active in A.
  destruct (lookup (pic_parameter_set_id (v_lead v1)) (st_pps st)) as [p|] eqn:Fp; [|discriminate].
  destruct (lookup (pps_seq_parameter_set_id p) (st_subset_sps st)) as [ss|] eqn:Fs; [|discriminate].
  destruct (ss_svc ss) as [x|] eqn:Fx; [|discriminate].
  destruct (nal_svc h) as [e|] eqn:Fe; [|discriminate]. injection A as A.
  assert (Ec : h = c_nal c /\ e = c_ext c /\ p = c_pps c /\ ss_sps ss = c_sps c /\ x = c_svc c)
    by (subst c; auto).
  destruct Ec as (Eh & Ee & Ep & Es & Ex).
  pose proof (U1 _ _ Fp) as UP. pose proof (U2 _ _ Fs) as [US U3].
  destruct V as (V1 & V2 & V3 & V4 & V5 & V6). assert (L : v_type v1 <= 9) by apply V1.
  unfold ParseSliceHeaderInScalableExtension, enc_svc_slice, enc_svc1. cbn [fst snd].
  rewrite <- !app_assoc.
  eapply parses_bind; [apply slice_lead_complete; exact V1|].
  eapply parses_found; [rewrite mfind_lookup; exact Fp|].
  eapply parses_found; [rewrite mfind_lookup; exact Fs|]. cbv zeta.
  eapply parses_found; [exact Fx|]. rewrite (sep1 _ U3).
  rewrite Es in *. 
  eapply parses_bind; [apply slice_pic_complete; [exact US|exact V2]|].
  eapply parses_found; [exact Fe|].
  subst e p x. change (tob (svc_idr_flag (c_ext c))) with (c_idr c).
  eapply parses_bind; [apply ue_cond_complete; [lia|exact V3]|].
  eapply parses_bind; [apply slice_poc_complete; [exact US|exact V4]|].
  eapply parses_bind; [apply ue_cond_complete; [lia|exact V5]|].
  rewrite Eh. change (svc_qzero _ _ _ _ _ _) with (svc_qzero' c (v_type v1)).
  eapply parses_bind with (a := if base_marking c v1 then None else Some (qzero_of c (v_type v1) (v_qz v1))).
  { fold (c_base_layer_quality c). unfold base_marking, opt_ok in *. destruct (c_base_layer_quality c); cbn [cond].
    - destruct V6 as (z & Ez & Vz). rewrite Ez. apply qzero_complete; auto.
    - rewrite V6. apply parses_ret. }
  destruct (base_marking c v1); cbn [negb opt_ok] in V'; cbv iota.
  - subst ov2. apply parses_ret.
  - destruct V' as (v2 & -> & V7). cbn [enc_opt].
    eapply parses_bind1; [eapply svc_rest_complete; eauto; reflexivity|].
    apply parses_ret.
Qed.
