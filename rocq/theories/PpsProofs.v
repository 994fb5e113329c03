(** PPS parser: safety, soundness, completeness. *)
From Coq Require Import NArith ZArith List Bool Lia ZifyBool ZifyNat ZifyN.
From Verif Require Import SpecBits Base BitBuffer SpecReader BitsLemmas BitBufferProofs
  Rbsp SpecRbsp RbspProofs Parser ParserProofs TypesSps TypesPps SpecVui VuiProofs
  ScalingList SpecScaling ScalingProofs Sps SpsProofs Pps SpecPps.
Import ListNotations.
Open Scope N_scope.
Ltac Zify.zify_post_hook ::= Z.div_mod_to_equations.

Ltac red_pps := cbn [
  pps_chroma_format_idc pps_pic_parameter_set_id pps_seq_parameter_set_id
   pps_entropy_coding_mode_flag pps_bottom_field_pic_order_in_frame_present_flag
   pps_num_slice_groups_minus1 pps_slice_group_map_type pps_run_length_minus1
   pps_rects pps_slice_group_change_direction_flag
   pps_slice_group_change_rate_minus1 pps_pic_size_in_map_units_minus1
   pps_slice_group_id pps_num_ref_idx_l0_default_active_minus1
   pps_num_ref_idx_l1_default_active_minus1 pps_weighted_pred_flag
   pps_weighted_bipred_idc pps_pic_init_qp_minus26 pps_pic_init_qs_minus26
   pps_chroma_qp_index_offset pps_deblocking_filter_control_present_flag
   pps_constrained_intra_pred_flag pps_redundant_pic_cnt_present_flag
   pps_transform_8x8_mode_flag pps_pic_scaling_matrix_present_flag pps_scaling
   pps_second_chroma_qp_index_offset].
Tactic Notation "red_pps" "in" hyp(H) := cbn [
  pps_chroma_format_idc pps_pic_parameter_set_id pps_seq_parameter_set_id
   pps_entropy_coding_mode_flag pps_bottom_field_pic_order_in_frame_present_flag
   pps_num_slice_groups_minus1 pps_slice_group_map_type pps_run_length_minus1
   pps_rects pps_slice_group_change_direction_flag
   pps_slice_group_change_rate_minus1 pps_pic_size_in_map_units_minus1
   pps_slice_group_id pps_num_ref_idx_l0_default_active_minus1
   pps_num_ref_idx_l1_default_active_minus1 pps_weighted_pred_flag
   pps_weighted_bipred_idc pps_pic_init_qp_minus26 pps_pic_init_qs_minus26
   pps_chroma_qp_index_offset pps_deblocking_filter_control_present_flag
   pps_constrained_intra_pred_flag pps_redundant_pic_cnt_present_flag
   pps_transform_8x8_mode_flag pps_pic_scaling_matrix_present_flag pps_scaling
   pps_second_chroma_qp_index_offset] in H.

(** ** more_rbsp_data inside a parser *)
Definition ended (l : list bool) : bool :=
  match l with [] => true | _ => is_stop l end.
Lemma ended_iff : forall l, ended l = true <-> at_end l.
Proof.
  intros l. unfold at_end. destruct l as [|x t]; cbn [ended].
  - intuition.
  - rewrite is_stop_iff. split.
    + intros (k & K & E). right. exists k. split; [lia|auto].
    + intros [E|(k & K & E)]; [discriminate|]. exists k. split; [lia|auto].
Qed.
Lemma more_data_spec : forall b, bb_wf b -> more_data b = (Ok (negb (ended (bb_rem b))), b).
Proof. intros b W. unfold more_data. rewrite more_rbsp_data_spec by auto. unfold ended. destruct (bb_rem b); reflexivity. Qed.
Lemma more_data_good : good more_data.
Proof.
  intros b W. rewrite more_data_spec by auto. exists 0%nat. split; [lia|].
  symmetry. apply adv0; auto.
Qed.
#[export] Hint Resolve more_data_good : good.
Lemma more_data_inv : forall b m b', bb_wf b -> more_data b = (Ok m, b') ->
  b' = b /\ m = negb (ended (bb_rem b)).
Proof. intros b m b' W H. rewrite more_data_spec in H by auto. inversion H. auto. Qed.

Lemma not_ended_app : forall c k, c <> [] -> (k <= 7)%nat -> ended (c ++ stop_bits k) = false.
Proof.
  intros c k C K. destruct (ended (c ++ stop_bits k)) eqn:E; auto.
  apply ended_iff in E. destruct E as [E|(j & J & E)].
  - destruct c; [congruence|discriminate].
  - destruct c as [|x c]; [congruence|]. cbn [app] in E. unfold stop_bits in E.
    injection E as _ E. assert (In true (repeat false j)).
    { rewrite <- E. apply in_or_app. right. left. reflexivity. }
    apply repeat_spec in H. discriminate.
Qed.

(** ** Slice groups *)
Lemma id_len : forall n, n <= 7 -> getSliceGroupIdLen n = slice_group_id_bits n.
Proof.
  intros n H. assert (n = 0 \/ n = 1 \/ n = 2 \/ n = 3 \/ n = 4 \/ n = 5 \/ n = 6 \/ n = 7) by lia.
  repeat (destruct H0 as [->|H0]; [reflexivity|]). subst. reflexivity.
Qed.

Definition rect_entry : P (N * N) :=
  (tl <- ReadExponentialGolomb ;; br <- ReadExponentialGolomb ;; sret (tl, br))%m.
Lemma rect_good : good rect_entry.
Proof. unfold rect_entry. good_tac. Qed.
Lemma rect_sound : sound rect_entry (fun r => is_ue (fst r) /\ is_ue (snd r)) enc_rect.
Proof.
  intros b v b' W H. unfold rect_entry in H. inv. unfold enc_rect. cbn [fst snd]. fin.
Qed.
Lemma rect_complete : complete rect_entry (fun r => is_ue (fst r) /\ is_ue (snd r)) enc_rect.
Proof.
  intros [tl br] V. cbn [fst snd] in V. conj. unfold rect_entry, enc_rect. cbn [fst snd]. walk.
Qed.

Lemma rep_snd : forall A (p : P A) ok enc n, sound p ok enc ->
  sound (rep n p) (fun l => length l = n /\ Forall ok l) (flat_map enc).
Proof. intros A p ok enc n S b v b' W H. exact (rep_sound _ _ _ _ S n b v b' W H). Qed.
Lemma rep_complete : forall A (p : P A) ok enc n l, complete p ok enc -> length l = n ->
  Forall ok l -> parses (rep n p) (flat_map enc l) l.
Proof.
  intros A p ok enc n l C L F. subst n. apply parses_rep. intros v Hv.
  rewrite Forall_forall in F. apply C. auto.
Qed.
Lemma ue_snd : sound ReadExponentialGolomb is_ue ue_bits.
Proof. exact ue_sound. Qed.
Lemma ue_cpl : complete ReadExponentialGolomb is_ue ue_bits.
Proof. exact ue_parses. Qed.
Lemma u_snd : forall n, sound (ReadBits n) (is_u n) (u_bits n).
Proof.
  intros n b v b' W H. apply ReadBits_sound in H; auto. destruct H as [[_ H] R]. auto.
Qed.
Lemma u_cpl : forall n, 0 < n <= 32 -> complete (ReadBits n) (is_u n) (u_bits n).
Proof. intros n Hn v V. apply ReadBits_parses; auto. Qed.
#[export] Hint Resolve rep_snd ue_snd u_snd rect_sound : snd.
#[export] Hint Resolve rect_good : good.

Lemma ParseSliceGroups_good : forall n, good (ParseSliceGroups n).
Proof. intros n. unfold ParseSliceGroups. good_tac. Qed.
#[export] Hint Resolve ParseSliceGroups_good : good.

Lemma groups_sound : forall n b t b', bb_wf b -> n <= 7 ->
  cond (0 <? n) (ParseSliceGroups n) (0, [], [], 0, 0, 0, []) b = (Ok t, b') ->
  forall p, pps_num_slice_groups_minus1 p = n ->
  (pps_slice_group_map_type p, pps_run_length_minus1 p, pps_rects p,
   pps_slice_group_change_direction_flag p, pps_slice_group_change_rate_minus1 p,
   pps_pic_size_in_map_units_minus1 p, pps_slice_group_id p) = t ->
  valid_slice_groups p /\ reads b (enc_slice_groups p) b'.
Proof.
  intros n b t b' W Hn H p En Et. unfold valid_slice_groups, enc_slice_groups. rewrite En.
  destruct (0 <? n) eqn:E0; cbn [cond] in H.
  - replace (n =? 0) with false by lia. cbn [negb andb]. cbv zeta.
    unfold ParseSliceGroups in H. fold rect_entry in H. rewrite id_len in H by auto. inv.
    assert (M : x = 0 \/ x = 1 \/ x = 2 \/ x = 3 \/ x = 4 \/ x = 5 \/ x = 6) by lia.
    repeat (destruct M as [->|M]); subst; cbn [N.eqb Pos.eqb orb] in *; cbv iota in *; inv;
      pairinv; conj;
      repeat match goal with
      | H : pps_slice_group_map_type p = _ |- _ => rewrite H in *; clear H
      | H : pps_run_length_minus1 p = _ |- _ => rewrite H in *; clear H
      | H : pps_rects p = _ |- _ => rewrite H in *; clear H
      | H : pps_slice_group_change_direction_flag p = _ |- _ => rewrite H in *; clear H
      | H : pps_slice_group_change_rate_minus1 p = _ |- _ => rewrite H in *; clear H
      | H : pps_pic_size_in_map_units_minus1 p = _ |- _ => rewrite H in *; clear H
      | H : pps_slice_group_id p = _ |- _ => rewrite H in *; clear H
      end; cbn [N.eqb Pos.eqb andb N.leb N.compare Pos.compare Pos.compare_cont]; cbv iota;
      rewrite ?app_nil_r; unfold kMaxMbPicSize in *.
    all: fin.
  - assert (Z : n = 0) by lia. clear E0. revert En H. rewrite Z. intros En H.
    change (0 =? 0) with true. cbn [negb andb]. cbv iota zeta. inv. pairinv.
    repeat match goal with H : _ = _ |- _ => rewrite H; clear H end. fin.
Qed.

Lemma groups_complete : forall p, pps_num_slice_groups_minus1 p <= 7 ->
  valid_slice_groups p ->
  parses (cond (0 <? pps_num_slice_groups_minus1 p)
            (ParseSliceGroups (pps_num_slice_groups_minus1 p)) (0, [], [], 0, 0, 0, []))
    (enc_slice_groups p)
    (pps_slice_group_map_type p, pps_run_length_minus1 p, pps_rects p,
     pps_slice_group_change_direction_flag p, pps_slice_group_change_rate_minus1 p,
     pps_pic_size_in_map_units_minus1 p, pps_slice_group_id p).
Proof.
  intros p. unfold valid_slice_groups, enc_slice_groups.
  generalize (pps_num_slice_groups_minus1 p) as n.
  generalize (pps_slice_group_map_type p) as mt, (pps_run_length_minus1 p) as runs,
    (pps_rects p) as rects, (pps_slice_group_change_direction_flag p) as dir,
    (pps_slice_group_change_rate_minus1 p) as rate,
    (pps_pic_size_in_map_units_minus1 p) as size, (pps_slice_group_id p) as ids.
  clear p. intros mt runs rects dir rate size ids n Hn (Hmt & H0 & V). cbv zeta.
  destruct (n =? 0) eqn:En.
  - assert (n = 0) by lia. subst n. rewrite H0 in * by auto. cbn in V. conj. subst.
    apply parses_ret.
  - replace (0 <? n) with true by lia. cbn [cond]. cbn [negb andb] in V. unfold ParseSliceGroups.
    clear H0. fold rect_entry. rewrite id_len by auto.
    assert (L : 0 < slice_group_id_bits n <= 32).
    { assert (M : n = 1 \/ n = 2 \/ n = 3 \/ n = 4 \/ n = 5 \/ n = 6 \/ n = 7) by lia.
      clear - M. repeat (destruct M as [->|M]; [cbv; split; [reflexivity|discriminate]|]).
      subst. cbv; split; [reflexivity|discriminate]. }
    eapply parses_bind; [apply parses_ue_max; lia|].
    assert (M : mt = 0 \/ mt = 1 \/ mt = 2 \/ mt = 3 \/ mt = 4 \/ mt = 5 \/ mt = 6) by lia.
    repeat (destruct M as [->|M]); subst;
      cbn [N.eqb Pos.eqb andb orb N.leb N.compare Pos.compare Pos.compare_cont] in *;
      cbv iota in *; conj; subst; try walk.
    + eapply parses_bind1; [|apply parses_ret].
      apply (rep_complete _ _ is_ue); [exact ue_cpl|lia|auto].
    + eapply parses_bind1; [|apply parses_ret].
      apply (rep_complete _ _ (fun r => is_ue (fst r) /\ is_ue (snd r)));
        [exact rect_complete|lia|auto].
    + assert (R : parses (rep (N.to_nat (size + 1)) (ReadBits (slice_group_id_bits n)))
                    (flat_map (u_bits (slice_group_id_bits n)) ids) ids).
      { apply (rep_complete _ _ (is_u (slice_group_id_bits n))); [apply u_cpl; auto|lia|auto]. }
      unfold kMaxMbPicSize. walk.
Qed.

(** ** Completeness of parsers that look at everything that is left *)
Definition yields {A} (p : P A) (c rest : list bool) (v : A) : Prop :=
  forall b, bb_wf b -> bb_rem b = c ++ rest ->
  exists m, (m <= length (bb_rem b))%nat /\ p b = (Ok v, bb_adv b m).
Lemma yields_bind : forall A B (p : P A) (f : A -> P B) c1 c2 rest a v,
  parses p c1 a -> yields (f a) c2 rest v -> yields (sbind p f) (c1 ++ c2) rest v.
Proof.
  intros A B p f c1 c2 rest a v H1 H2 b W E. rewrite <- app_assoc in E.
  destruct (reads_split b c1 _ W E) as [R Er].
  destruct (H2 _ (reads_wf _ _ _ R) Er) as (m & L & H).
  exists (length c1 + m)%nat. unfold sbind. rewrite (H1 b _ W E), H, bb_adv_adv.
  split; [|auto]. rewrite Er in L. rewrite E, app_length. lia.
Qed.
Lemma yields_of_parses : forall A (p : P A) c rest v, parses p c v -> yields p c rest v.
Proof.
  intros A p c rest v H b W E. exists (length c). split; [rewrite E, app_length; lia|].
  eapply H; eauto.
Qed.
(** ... and end with a lenient look at the trailing bits. *)
Definition after_trailing (b : bb) : bb := snd (rbsp_trailing_bits b).
Definition gives {A} (p : P A) (c rest : list bool) (v : A) : Prop :=
  forall b, bb_wf b -> bb_rem b = c ++ rest ->
  p b = (Ok v, after_trailing (bb_adv b (length c))).
Lemma ignored_trailing : forall b, bb_wf b ->
  ignored rbsp_trailing_bits b = (Ok tt, after_trailing b).
Proof.
  intros b W. pose proof (rbsp_trailing_bits_good b W) as G. unfold ignored, attempt, sbind, sret, after_trailing.
  destruct (rbsp_trailing_bits b) as [[a| |k| |] b1]; try contradiction; reflexivity.
Qed.
Lemma gives_yields : forall A (p : P A) c rest v, gives p c rest v -> yields p c rest v.
Proof.
  intros A p c rest v H b W E. specialize (H b W E).
  destruct (reads_split b c _ W E) as [R Er]. pose proof (reads_wf _ _ _ R) as W1.
  pose proof (rbsp_trailing_bits_good _ W1) as G. unfold after_trailing in H.
  destruct (rbsp_trailing_bits (bb_adv b (length c))) as [[a| |k| |] b1]; try contradiction;
    destruct G as (m & L & ->); exists (length c + m)%nat; cbn [snd] in H; rewrite H, bb_adv_adv;
    (split; [|auto]); rewrite Er in L; rewrite E, app_length; lia.
Qed.
Lemma gives_bind : forall A B (p : P A) (f : A -> P B) c1 c2 rest a v,
  parses p c1 a -> gives (f a) c2 rest v -> gives (sbind p f) (c1 ++ c2) rest v.
Proof.
  intros A B p f c1 c2 rest a v H1 H2 b W E. rewrite <- app_assoc in E.
  destruct (reads_split b c1 _ W E) as [R Er].
  specialize (H2 _ (reads_wf _ _ _ R) Er).
  unfold sbind. rewrite (H1 b _ W E), H2, bb_adv_adv, app_length. reflexivity.
Qed.
Lemma gives_bind1 : forall A B (p : P A) (f : A -> P B) c rest a v,
  parses p c a -> gives (f a) [] rest v -> gives (sbind p f) c rest v.
Proof. intros. rewrite <- (app_nil_r c). eapply gives_bind; eauto. Qed.
Lemma gives_more : forall A (f : bool -> P A) c rest v,
  gives (f (negb (ended (c ++ rest)))) c rest v -> gives (sbind more_data f) c rest v.
Proof.
  intros A f c rest v H b W E. unfold sbind. rewrite more_data_spec by auto.
  specialize (H b W E). rewrite <- E in H. auto.
Qed.
Lemma gives_end : forall A (v : A) rest,
  gives (ignored rbsp_trailing_bits ;;; sret v)%m [] rest v.
Proof.
  intros A v rest b W E. unfold sbind. rewrite ignored_trailing by auto.
  cbn [length]. rewrite adv0 by auto. reflexivity.
Qed.

Ltac gwalk :=
  match goal with
  | |- gives (sbind more_data _) _ _ _ => idtac
  | |- gives (sbind (ignored _) _) [] _ _ => apply gives_end
  | |- gives (sbind _ _) (_ ++ _) _ _ =>
      eapply gives_bind; [solve [walk]|cbn beta iota; gwalk]
  | |- gives (sbind _ _) _ _ _ =>
      eapply gives_bind1; [solve [walk]|cbn beta iota; gwalk]
  end.

(** ** The whole PPS *)
Lemma ParsePpsExt_good : forall cfi, good (ParsePpsExt cfi).
Proof. intros. unfold ParsePpsExt. good_tac. Qed.
#[export] Hint Resolve ParsePpsExt_good : good.
Lemma ParsePps_good : forall cfi, good (ParsePps cfi).
Proof. intros. unfold ParsePps. good_tac. Qed.
#[export] Hint Resolve ParsePps_good : good.

Lemma ext_sound : forall cfi b t8 psm sc second b', bb_wf b ->
  ParsePpsExt cfi b = (Ok (t8, psm, sc, second), b') ->
  exists ls, is_u 1 t8 /\ is_u 1 psm /\
    N.of_nat (length ls) = (if tob psm then 6 + (if cfi =? 3 then 6 else 2) * t8 else 0) /\
    slists_ok 0 ls /\ sc = store_all 0 ls scal0 /\ is_se second /\
    reads b (u_bits 1 t8 ++ u_bits 1 psm ++ enc_slists ls ++ se_bits second) b'.
Proof.
  intros cfi b t8 psm sc second b' W H. unfold ParsePpsExt in H. inv. pairinv.
  match goal with H : cond _ (scaling_loop _ _ _) _ _ = _ |- _ =>
    apply matrix_sound in H; [|assumption]; destruct H as (ls & L & O & -> & R) end.
  exists ls.
  match goal with |- context [N.of_nat (length ls) = ?r] =>
    assert (L' : N.of_nat (length ls) = r)
      by (rewrite L; destruct (tob _), (cfi =? 3); cbn [negb]; lia) end.
  clear L.
  fin.
Qed.

Lemma ParsePps_sound : forall cfi b v b', bb_wf b -> ParsePps cfi b = (Ok v, b') ->
  exists ext b1, valid_pps cfi v ext /\ reads b (enc_pps v ext) b1 /\
  (exists m, (m <= length (bb_rem b1))%nat /\ b' = bb_adv b1 m) /\
  match ext with
  | None => at_end (bb_rem b1)
  | Some ls => ~ at_end (enc_pps_ext v ls ++ bb_rem b1)
  end.
Proof.
  intros cfi b v b' W H. unfold ParsePps in H. inv.
  match goal with H : more_data _ = _ |- _ =>
    apply more_data_inv in H; [|assumption]; destruct H as [-> Em] end.
  match goal with H : cond _ (ParseSliceGroups _) _ _ = _ |- _ => rename H into Hg end.
  match goal with H : ignored _ ?b1 = _, W1 : bb_wf ?b1 |- _ =>
    destruct (ignored_ok _ rbsp_trailing_bits b1 rbsp_trailing_bits_good W1) as (m & Lm & Hm);
    rewrite Hm in H; inversion H; subst; clear H Hm end.
  match goal with |- exists ext b1, valid_pps _ ?v _ /\ _ =>
    eapply groups_sound with (p := v) in Hg; [|assumption|assumption|reflexivity|reflexivity]
  end.
  destruct Hg as [Vg Rg].
  match goal with H : cond (negb ?e) _ _ ?b2 = (Ok _, ?b3) |- _ => rename H into He end.
  destruct (ended _) eqn:Ee in He; cbn [negb cond] in He.
  - inv. pairinv. exists None. eexists.
    split; [|split; [|split; [eexists; split; [exact Lm|reflexivity]|apply ended_iff; exact Ee]]].
    + unfold valid_pps. red_pps. fin.
    + unfold enc_pps, enc_pps_main. rewrite app_nil_r.
      match goal with |- context [enc_slice_groups ?p] => set (eg := enc_slice_groups p) in * end.
      red_pps. fin.
  - apply ext_sound in He; [|assumption]. destruct He as (ls & E1 & E2 & E3 & E4 & E5 & E6 & E7).
    exists (Some ls). eexists.
    split; [|split; [|split; [eexists; split; [exact Lm|reflexivity]|]]].
    + unfold valid_pps. red_pps. change on with tob. fin.
    + unfold enc_pps, enc_pps_main. rewrite <- !app_assoc.
      match goal with |- context [enc_slice_groups ?p] => set (eg := enc_slice_groups p) in * end.
      unfold enc_pps_ext. red_pps. fin.
    + intros A. apply ended_iff in A. unfold enc_pps_ext in A. red_pps in A.
      destruct E7 as (_ & E7 & _). rewrite E7 in Ee. rewrite A in Ee. discriminate.
Qed.

Lemma ParsePps_complete : forall cfi v ext rest, valid_pps cfi v ext ->
  match ext with
  | None => at_end rest
  | Some ls => Forall slist_readable ls /\ ~ at_end (enc_pps_ext v ls ++ rest)
  end -> gives (ParsePps cfi) (enc_pps v ext) rest v.
Proof.
  intros cfi v ext rest V R. unfold valid_pps in V. conj.
  match goal with H : valid_slice_groups v |- _ =>
    apply groups_complete in H; [|assumption]; rename H into G end.
  unfold enc_pps, enc_pps_main. rewrite <- !app_assoc.
  set (eg := enc_slice_groups v) in *. clearbody eg. unfold ParsePps.
  destruct v. red_pps in G.
  repeat match goal with H : context [pps_chroma_format_idc (mkpps _ _ _ _ _ _ _ _ _ _ _ _ _ _ _ _ _ _ _ _ _ _ _ _ _ _ _)] |- _ => red_pps in H end.
  unfold enc_pps_ext in *. red_pps.
  repeat match goal with H : context [mkpps _ _ _ _ _ _ _ _ _ _ _ _ _ _ _ _ _ _ _ _ _ _ _ _ _ _ _] |- _ => red_pps in H end.
  subst. gwalk. apply gives_more.
  destruct ext as [ls|]; conj; subst.
  - assert (En : ended ((u_bits 1 pps_transform_8x8_mode_flag ++
      u_bits 1 pps_pic_scaling_matrix_present_flag ++
      enc_slists ls ++ se_bits pps_second_chroma_qp_index_offset) ++ rest) = false).
    { destruct (ended _) eqn:Ee; [|reflexivity]. apply ended_iff in Ee. contradiction. }
    rewrite En. cbn [negb cond]. change on with tob in *.
    eapply gives_bind1 with (a := (pps_transform_8x8_mode_flag,
      pps_pic_scaling_matrix_present_flag, store_all 0 ls scal0,
      pps_second_chroma_qp_index_offset)); [|cbn beta iota; apply gives_end].
    unfold ParsePpsExt.
    eapply parses_bind; [walk|]. eapply parses_bind; [walk|].
    eapply parses_bind; [apply matrix_complete; auto|walk].
    match goal with H : N.of_nat (length ls) = _ |- _ => revert H end.
    destruct (tob pps_pic_scaling_matrix_present_flag), (cfi =? 3); cbn [negb]; lia.
  - replace (ended _) with true; [|symmetry; apply ended_iff; auto].
    cbn [negb cond]. unfold sbind at 1, sret at 1. cbn beta iota. apply gives_end.
Qed.
