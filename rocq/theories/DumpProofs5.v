(** Dumps: the words determine the parameter sets and the parts of slice headers. *)
From Coq Require Import NArith ZArith List Bool Lia ZifyBool ZifyNat ZifyN String Ascii.
From Verif Require Import SpecBits Base BitBuffer SpecReader BitsLemmas BitBufferProofs
  ReaderProofs Rbsp RbspProofs ChecksumProofs Parser SpecSyntax ParserProofs TypesSps TypesPps SpecVui Vui VuiProofs
  SpecScaling SpecSps Sps SpsProofs SpecPps Pps PpsProofs TypesNal NalHeader SpecNalHeader NalHeaderProofs
  TypesExt Ext SpecExt ExtProofs TypesSlice SpecSliceParts TypesSliceHeader SliceHeader SpecSlice SliceProofs TypesSvcSlice
  SvcSlice SpecSvcSlice SvcSliceProofs TypesNalUnit NalUnit NalUnitProofs SpecNalUnit NalUnitProofs2 NalType Rtp RtpProofs
  SpecRbsp PropsNalUnit Tool PropsTool SpecDump SpecShown Dump DumpProofs DumpProofs2 DumpProofs3 DumpProofs4.
Import ListNotations.
Open Scope N_scope.
Open Scope list_scope.
Ltac Zify.zify_post_hook ::= Z.div_mod_to_equations.

Definition same {A} (a : A) : A := a.
Lemma pairs_eq : forall l l' : list (N * N), map fst l = map fst l' -> map snd l = map snd l' -> l = l'.
Proof.
  induction l as [|[a b] l IH]; intros [|[a' b'] l'] H1 H2; cbn [map fst snd] in *; try discriminate; [reflexivity|].
  injection H1 as -> H1. injection H2 as -> H2. f_equal. auto.
Qed.

(** * PPS *)
Definition dump_groups (p : pps) : dump :=
  when (0 <? pps_num_slice_groups_minus1 p) (
    fu "slice_group_map_type" (pps_slice_group_map_type p) ++
    (if pps_slice_group_map_type p =? 0 then
       fus "run_length_minus1" (pps_run_length_minus1 p)
     else if pps_slice_group_map_type p =? 2 then
       fus "top_left" (map fst (pps_rects p)) ++
       fus "bottom_right" (map snd (pps_rects p))
     else if (pps_slice_group_map_type p =? 3) || (pps_slice_group_map_type p =? 4) ||
             (pps_slice_group_map_type p =? 5) then
       fu "slice_group_change_direction_flag" (pps_slice_group_change_direction_flag p) ++
       fu "slice_group_change_rate_minus1" (pps_slice_group_change_rate_minus1 p)
     else when (pps_slice_group_map_type p =? 6) (
       fu "pic_size_in_map_units_minus1" (pps_pic_size_in_map_units_minus1 p) ++
       fus "slice_group_id" (pps_slice_group_id p)))).
Lemma groups_step : forall a b r r', valid_slice_groups a -> valid_slice_groups b ->
  pps_num_slice_groups_minus1 a = pps_num_slice_groups_minus1 b ->
  flat (dump_groups a) ++ r = flat (dump_groups b) ++ r' ->
  (pps_slice_group_map_type a = pps_slice_group_map_type b /\
   pps_run_length_minus1 a = pps_run_length_minus1 b /\ pps_rects a = pps_rects b /\
   pps_slice_group_change_direction_flag a = pps_slice_group_change_direction_flag b /\
   pps_slice_group_change_rate_minus1 a = pps_slice_group_change_rate_minus1 b /\
   pps_pic_size_in_map_units_minus1 a = pps_pic_size_in_map_units_minus1 b /\
   pps_slice_group_id a = pps_slice_group_id b) /\ r = r'.
Proof.
  intros a b r r' VA VB EN E. unfold valid_slice_groups in *. cbv zeta in *. unfold dump_groups in E. rewrite <- EN in *.
  destruct (0 <? pps_num_slice_groups_minus1 a) eqn:P; cbn [when] in E.
  - replace (pps_num_slice_groups_minus1 a =? 0) with false in * by lia. cbn [negb andb] in *.
    apply app_step in E. apply fu_step in E. destruct E as [T E]. rewrite <- T in *. destruct VA as (M & _ & VA). destruct VB as (_ & _ & VB).
    set (t := pps_slice_group_map_type a) in *.
    assert (K : t = 0 \/ t = 1 \/ t = 2 \/ t = 3 \/ t = 4 \/ t = 5 \/ t = 6) by lia. clearbody t.
    destruct K as [K|[K|[K|[K|[K|[K|K]]]]]]; rewrite K in *; cbn [N.eqb N.leb N.compare Pos.eqb Pos.compare Pos.compare_cont andb orb when] in *; cbv beta iota in *;
      conj0; steps E; repeat split; try congruence; apply pairs_eq; congruence.
  - replace (pps_num_slice_groups_minus1 a =? 0) with true in * by lia. cbn [negb andb] in *.
    conj0. repeat split; try exact E; try congruence; try (apply pairs_eq; congruence).
    transitivity 0; [|symmetry]; match goal with H : _ -> ?x = 0 |- ?x = 0 => apply H; lia end.
Qed.
Lemma pps_shows : forall cfi, shows (fun p => exists ext, valid_pps cfi p ext) dump_pps same.
Proof.
  intros cfi a b r r' [ea VA] [eb VB] E. unfold dump_pps in E. fold (dump_groups a) in E. fold (dump_groups b) in E.
  unfold valid_pps in *. destruct VA as (CA & _ & _ & _ & _ & _ & GA & _). destruct VB as (CB & _ & _ & _ & _ & _ & GB & _).
  repeat lazymatch type of E with
  | flat (dump_groups _ ++ _) ++ _ = _ => fail
  | flat (dump_groups _) ++ _ = _ => fail
  | _ => step E
  end.
  apply app_step in E. apply groups_step in E; auto. destruct E as [G E]. steps E. injection E as <-. split; [|reflexivity].
  unfold same. clear GA GB. destruct a, b. cbn in *. conj0. subst. reflexivity.
Qed.
Lemma spsext_shows : shows valid_spsext dump_spsext same.
Proof.
  intros [] [] r r' VA VB E. unfold dump_spsext in E. unfold valid_spsext in *. red_spsext in VA. red_spsext in VB. red_spsext in E.
  conj0. steps E. injection E as <-. split; [|reflexivity]. unfold same. congruence.
Qed.
Lemma spssvc_shows : forall cat, shows (valid_spssvc cat) dump_spssvc same.
Proof.
  intros cat [] [] r r' VA VB E. unfold dump_spssvc in E. unfold valid_spssvc in *. red_spssvc in VA. red_spssvc in VB. red_spssvc in E.
  conj0. subst. steps E. injection E as <-. split; [|reflexivity]. unfold same. congruence.
Qed.

(** * Subset SPS *)
Lemma sps_shows : forall o, shows ok_sps (dump_sps o) shown_sps.
Proof.
  intros o a b r r' VA VB E. unfold dump_sps in E. apply block_step in E. apply sps_data_shows in E; auto.
  destruct E as [H E]. injection E as <-. auto.
Qed.
Lemma shown_profile : forall a b, shown_sps a = shown_sps b -> profile_idc a = profile_idc b.
Proof. intros a b H. apply (f_equal profile_idc) in H. exact H. Qed.
Lemma shown_cat : forall a b, shown_sps a = shown_sps b -> chroma_array_type a = chroma_array_type b.
Proof. intros a b H. apply (f_equal chroma_array_type) in H. exact H. Qed.
Lemma subsps_shows : forall o, shows good_subset (dump_subsps o) shown_subsps.
Proof.
  intros o a b r r' (SA & VA & FA) (SB & VB & FB) E. unfold dump_subsps in E. cbv zeta in *.
  apply block_step in E. apply app_step in E. apply sps_data_shows in E; auto. destruct E as [S E].
  pose proof (shown_profile _ _ S) as P. pose proof (shown_cat _ _ S) as C. rewrite <- P, <- C in *.
  apply app_step in E.
  match type of E with ?x ++ ?y = ?z ++ ?t =>
    assert (K : (ss_svc a = ss_svc b /\ ss_svc_vui_parameters_present_flag a = ss_svc_vui_parameters_present_flag b /\
      ss_bit_equal_to_one a = ss_bit_equal_to_one b /\
      ss_mvc_vui_parameters_present_flag a = ss_mvc_vui_parameters_present_flag b) /\ y = t);
    [revert E; generalize y, t; intros q q' E|destruct K as [K E']; clear E] end.
  - destruct (_ || _) eqn:T1 in VA, VB, E; rewrite ?T1 in VB, E.
    { destruct VA as ((x & XA & YA) & ? & ?). destruct VB as ((y & XB & YB) & ? & ?). rewrite XA, XB in *. cbn [deref] in E.
      apply app_step in E. eapply spssvc_shows in E; eauto. destruct E as [HX E]. unfold same in HX. subst y. steps E.
      repeat split; congruence. }
    destruct (_ || _) eqn:T2 in VA, VB, E; rewrite ?T2 in VB, E.
    { steps E. conj0. repeat split; congruence. }
    destruct (_ || _) eqn:T3 in VA, VB, E; rewrite ?T3 in VB, E.
    { steps E. conj0. repeat split; congruence. }
    destruct (_ =? 139) eqn:T4 in VA, VB, E; rewrite ?T4 in VB, E; cbn [Dump.when] in E.
    { steps E. conj0. repeat split; congruence. }
    conj0. repeat split; try congruence. exact E.
  - apply app_step in E'. apply fu_step in E'. destruct E' as [F E]. rewrite <- F in *.
    assert (D : ss_additional_extension2_data_flag a = ss_additional_extension2_data_flag b /\ "}"%string :: r = "}"%string :: r').
    { destruct (_ =? 1); cbn [Dump.when] in E; [steps E; auto|]. split; [congruence|exact E]. }
    destruct D as [D R]. injection R as <-. split; [|reflexivity]. unfold shown_subsps. rewrite S. conj0. congruence.
Qed.

(** * NAL unit header *)
Lemma svc_ext_shows : shows valid_svc_ext dump_svc_ext same.
Proof.
  intros [] [] r r' _ _ E. unfold dump_svc_ext in E. red_svc_ext in E. steps E. injection E as <-.
  split; [|reflexivity]. unfold same. congruence.
Qed.
Lemma nalh_shows : shows valid_nalh dump_nalh same.
Proof.
  intros [] [] r r' VA VB E. unfold dump_nalh in E. unfold valid_nalh in *. red_nalh in VA. red_nalh in VB. red_nalh in E. cbv zeta in E.
  apply block_step in E. do 3 (apply app_step in E; apply fu_step in E; destruct E as [<- E]).
  destruct nal_svc as [e|], nal_svc0 as [e'|]; conj0; subst; try tauto.
  - assert (K : exists x y, flat (dump_svc_ext e) ++ x = flat (dump_svc_ext e') ++ y /\ "}"%string :: r = x /\ "}"%string :: r' = y).
    { exists ("}"%string :: r), ("}"%string :: r'). split; [|auto].
      match goal with H : ?t = 14 \/ ?t = 20 |- _ => destruct H; subst t end;
        (change (on 1) with true in E; cbn [N.eqb Pos.eqb orb negb Dump.when] in E; apply app_step in E; apply fu_step in E; apply E). }
    destruct K as (x & y & K & X & Y). apply svc_ext_shows in K; auto. destruct K as [K1 K2]. unfold same in *. split; congruence.
  - replace (_ || _) with false in E by lia. cbn [Dump.when flat flat_map app] in E. injection E as <-. auto.
Qed.

(** * Parts of slice headers *)
Lemma nonempty_step : forall k l l' r r', (forall vs q, r <> k :: "{"%string :: vs ++ q) -> (forall vs q, r' <> k :: "{"%string :: vs ++ q) ->
  flat (Dump.when (nonempty l) (fus k l)) ++ r = flat (Dump.when (nonempty l') (fus k l')) ++ r' -> l = l' /\ r = r'.
Proof.
  intros k l l' r r' A B E.
  assert (F : forall l, flat (fus k l) = k :: "{"%string :: map dec l ++ ["}"%string]).
  { intros x. unfold fus, flist. cbn [flat flat_map]. apply app_nil_r. }
  destruct l as [|x l], l' as [|y l']; cbn [nonempty Dump.when] in E.
  - auto.
  - exfalso. change (r = flat (fus k (y :: l')) ++ r') in E. rewrite F in E. cbn [app] in E. rewrite <- app_assoc in E. exact (A _ _ E).
  - exfalso. change (flat (fus k (x :: l)) ++ r = r') in E. rewrite F in E. cbn [app] in E. rewrite <- app_assoc in E. symmetry in E. exact (B _ _ E).
  - apply fus_step in E. exact E.
Qed.
Lemma nonempty_head : forall k k' l r, k <> k' -> (forall vs q, r <> k :: "{"%string :: vs ++ q) ->
  forall vs q, flat (Dump.when (nonempty l) (fus k' l)) ++ r <> k :: "{"%string :: vs ++ q.
Proof.
  intros k k' [|x l] r NE H vs q E; cbn [nonempty Dump.when] in E; [exact (H _ _ E)|].
  unfold fus, flist in E. cbn [flat flat_map app] in E. injection E as E _. congruence.
Qed.
Lemma rplm_step : forall a b r r', rp_slice_type a = rp_slice_type b -> flat (dump_rplm a) ++ r = flat (dump_rplm b) ++ r' -> a = b /\ r = r'.
Proof.
  intros a b r r' T E. unfold dump_rplm in E. apply block_step in E.
  do 2 (apply app_step in E; apply fu_step in E; destruct E as [? E]).
  assert (Z : forall k (x : list string), k <> "}"%string -> forall vs q, "}"%string :: x <> k :: "{"%string :: vs ++ q) by (intros k x K vs q W; injection W as W _; congruence).
  apply app_step in E. apply nonempty_step in E; [destruct E as [? E]|rewrite flat_app, <- app_assoc; repeat (apply nonempty_head; [discriminate|]); apply Z; discriminate..].
  apply app_step in E. apply nonempty_step in E; [destruct E as [? E]|repeat (apply nonempty_head; [discriminate|]); apply Z; discriminate..].
  apply nonempty_step in E; [destruct E as [? E]|apply Z; discriminate..].
  injection E as <-. split; [|reflexivity]. destruct a, b. cbn in *. congruence.
Qed.
Lemma pwt_step : forall cat ty n0 n1 a b r r', ty <= 9 -> valid_table cat ty n0 n1 a -> valid_table cat ty n0 n1 b ->
  flat (dump_pwt (table_of cat ty n0 n1 a)) ++ r = flat (dump_pwt (table_of cat ty n0 n1 b)) ++ r' ->
  table_of cat ty n0 n1 a = table_of cat ty n0 n1 b /\ r = r'.
Proof.
  intros cat ty n0 n1 [[[ld cd] w0] w1] [[[ld' cd'] w0'] w1'] r r' T VA VB E.
  unfold valid_table, valid_pwt, table_of, pwt_of, chroma_flags in *. unfold dump_pwt in E.
  cbn [pw_chroma_array_type pw_slice_type pw_luma_log2_weight_denom pw_chroma_log2_weight_denom pw_luma_weight_l0_flag
    pw_luma_weight_l0 pw_luma_offset_l0 pw_chroma_weight_l0_flag pw_chroma_weight_l0 pw_chroma_offset_l0
    pw_luma_weight_l1_flag pw_luma_weight_l1 pw_luma_offset_l1 pw_chroma_weight_l1_flag pw_chroma_weight_l1 pw_chroma_offset_l1] in E.
  rewrite !type_B in E by exact T. unfold has_weights_l1, B_slice in *.
  replace (ty mod 5 =? 1) with ((ty =? 1) || (ty =? 6)) in E by lia.
  assert (NC : forall w, cat = 0 -> Forall (valid_weights cat) w -> forall A (f : (Z * Z) * (Z * Z) -> A), flat_map (fun w => olist f (w_chroma w)) w = []).
  { intros w C F A f. induction F as [|x w X F IH]; [reflexivity|]. cbn [flat_map]. rewrite IH. unfold valid_weights in X.
    destruct X as [_ X]. destruct (w_chroma x) as [[p q]|]; [tauto|reflexivity]. }
  destruct VA as (_ & CA & _ & FA & VA). destruct VB as (_ & CB & _ & FB & VB).
  destruct (negb (cat =? 0)) eqn:C; cbn [Dump.when] in E;
  destruct ((ty =? 1) || (ty =? 6)) eqn:B; cbn [Dump.when] in E; conj0; subst; steps E; injection E as <-; (split; [|reflexivity]);
  repeat match goal with H : _ = _ |- _ => rewrite H end; rewrite ?NC by (auto; lia); reflexivity.
Qed.
Lemma drpm_step : forall idr a b r r', valid_marking idr a -> valid_marking idr b ->
  flat (dump_drpm (drpm_of idr a)) ++ r = flat (dump_drpm (drpm_of idr b)) ++ r' -> drpm_of idr a = drpm_of idr b /\ r = r'.
Proof.
  intros idr a b r r' VA VB E. unfold dump_drpm in E. apply block_step in E.
  destruct a as [x y|ca], b as [x' y'|cb]; cbn [drpm_of valid_marking] in *; conj0; try tauto;
  cbn [dr_IdrPicFlag dr_no_output_of_prior_pics_flag dr_long_term_reference_flag dr_adaptive_ref_pic_marking_mode_flag
    dr_memory_management_control_operation dr_difference_of_pic_nums_minus1 dr_long_term_pic_num dr_long_term_frame_idx
    dr_max_long_term_frame_idx_plus1] in E.
  - replace (tob idr) with true in E by (unfold tob; lia). steps E. injection E as <-. split; congruence.
  - subst idr. change (tob 0) with false in E. cbv iota in E. apply app_step in E. apply fu_step in E. destruct E as [F E].
    destruct ca as [ca|], cb as [cb|]; cbn [flag_of] in *; try discriminate.
    + change (tob 1) with true in E. cbn [Dump.when] in E. steps E. injection E as <-. split; congruence.
    + cbn in E. injection E as <-. auto.
Qed.
