(** Slice header parser: safety, soundness, completeness. *)
From Coq Require Import NArith ZArith List Bool Lia ZifyBool ZifyNat ZifyN.
From Verif Require Import SpecBits Base BitBuffer SpecReader BitsLemmas BitBufferProofs
  SpecSyntax ReaderProofs Parser ParserProofs TypesSps Vui SpecVui VuiProofs SpecScaling SpecSps
  Sps SpsProofs TypesPps SpecPps Pps PpsProofs NalHeaderProofs TypesExt SpecExt ExtProofs
  TypesSlice SliceParts SpecSliceParts SlicePartsProofs TypesSliceHeader SliceHeader SpecSlice.
Import ListNotations.
Open Scope N_scope.
Ltac Zify.zify_post_hook ::= Z.div_mod_to_equations.

(** ** Parameter set lookup *)
Lemma mfind_lookup : forall A k (m : list (N * A)), mfind k m = lookup k m.
Proof.
  intros A k m. unfold lookup. induction m as [|[i v] t IH]; cbn; auto. destruct (i =? k); auto.
Qed.
Lemma found_good : forall A (o : option A), good (found o).
Proof. intros. unfold found. good_tac. Qed.
#[export] Hint Resolve found_good : good.
Lemma found_inv : forall A (o : option A) b v b', found o b = (Ok v, b') -> o = Some v /\ b' = b.
Proof.
  intros A [x|] b v b' H; unfold found in H; [|discriminate H].
  apply sret_inv in H. destruct H as [-> ->]. auto.
Qed.

(** What a slice header parser needs from the parameter sets. *)
Definition sps_use (s : sps) : Prop :=
  log2_max_frame_num_minus4 s <= 12 /\ log2_max_pic_order_cnt_lsb_minus4 s <= 12 /\
  bit_depth_luma_minus8 s <= 6 /\ pic_width_in_mbs_minus1 s <= 1055 /\
  pic_height_in_map_units_minus1 s <= 1055.
Definition pps_use (p : pps) : Prop := is_ue (pps_slice_group_change_rate_minus1 p).
Lemma ok_sps_use : forall s, ok_sps s -> sps_use s.
Proof.
  intros s [ls V]. unfold valid_sps in V. conj. unfold sps_use.
  split; [auto|]. split; [destruct (pic_order_cnt_type s =? 0); lia|].
  split; [destruct (is_high (profile_idc s)); lia|]. lia.
Qed.
Lemma ok_pps_use : forall p, ok_pps p -> pps_use p.
Proof.
  intros p [ext V]. unfold valid_pps in V. conj. unfold valid_slice_groups in *. unfold pps_use.
  cbv zeta in *. conj. destruct (_ && (3 <=? _) && _); conj; auto. unfold is_ue. lia.
Qed.

(** ** Slice types *)
Lemma type_P : forall ty, ty <= 9 -> is_P ty = P_slice ty.
Proof. intros. unfold is_P, is_type, P_slice. lia. Qed.
Lemma type_B : forall ty, ty <= 9 -> is_B ty = B_slice ty.
Proof. intros. unfold is_B, is_type, B_slice. lia. Qed.
Lemma type_I : forall ty, ty <= 9 -> is_I ty = I_slice ty.
Proof. intros. unfold is_I, is_type, I_slice. lia. Qed.
Lemma type_SP : forall ty, ty <= 9 -> is_SP ty = SP_slice ty.
Proof. intros. unfold is_SP, is_type, SP_slice. lia. Qed.
Lemma type_SI : forall ty, ty <= 9 -> is_SI ty = SI_slice ty.
Proof. intros. unfold is_SI, is_type, SI_slice. lia. Qed.

(** ** Blocks *)
Lemma slice_lead_good : good slice_lead.
Proof. unfold slice_lead. good_tac. Qed.
Lemma slice_lead_sound : sound slice_lead valid_lead enc_lead.
Proof.
  intros b v b' W H. unfold slice_lead in H. inv. unfold valid_lead, enc_lead.
  cbn [first_mb_in_slice slice_type pic_parameter_set_id]. unfold kMaxMbPicSize in *. fin.
Qed.
Lemma slice_lead_complete : complete slice_lead valid_lead enc_lead.
Proof.
  intros [fm ty id] V. unfold valid_lead in V.
  cbn [first_mb_in_slice slice_type pic_parameter_set_id] in V. conj.
  unfold enc_lead, slice_lead, kMaxMbPicSize.
  cbn [first_mb_in_slice slice_type pic_parameter_set_id]. walk.
Qed.

Ltac red_pic := cbn [colour_plane_id frame_num field_pic_flag bottom_field_flag].
Ltac red_pic_in V := cbn [colour_plane_id frame_num field_pic_flag bottom_field_flag] in V.
Lemma slice_pic_good : forall c s, good (slice_pic c s).
Proof. intros. unfold slice_pic. good_tac. Qed.
Lemma slice_pic_sound : forall s, sps_use s ->
  sound (slice_pic (tob (separate_colour_plane_flag s)) s) (valid_picid s) (enc_picid s).
Proof.
  intros s (L1 & _) b v b' W H. unfold slice_pic in H. rewrite u32_small in H by lia. inv.
  unfold valid_picid, enc_picid. red_pic. change on with tob. fin.
Qed.
Lemma slice_pic_complete : forall s, sps_use s ->
  complete (slice_pic (tob (separate_colour_plane_flag s)) s) (valid_picid s) (enc_picid s).
Proof.
  intros s (L1 & _) v V. destruct v as [cp fn fp bf]. unfold valid_picid in V. red_pic_in V.
  change on with tob in V. conj. unfold enc_picid, slice_pic. red_pic. change on with tob.
  rewrite u32_small by lia. walk.
Qed.

Ltac red_poc := cbn [pic_order_cnt_lsb delta_pic_order_cnt_bottom delta_pic_order_cnt].
Lemma slice_poc_good : forall s p f, good (slice_poc s p f).
Proof. intros. unfold slice_poc, pushed. cbv zeta. good_tac. Qed.
Lemma pushed_se_sound : forall (c : bool) b l b', bb_wf b ->
  pushed c ReadSignedExponentialGolomb b = (Ok l, b') ->
  length l = (if c then 1 else 0)%nat /\ Forall is_se l /\ reads b (flat_map se_bits l) b'.
Proof.
  intros c b l b' W H. unfold pushed, cond in H. destruct c; inv.
  - cbn. rewrite app_nil_r. split; [auto|]. split; [constructor; auto|]. auto.
  - cbn. split; [auto|]. split; [constructor|]. apply reads_refl. auto.
Qed.
Lemma pushed_se_parses : forall (c : bool) l, length l = (if c then 1 else 0)%nat -> Forall is_se l ->
  parses (pushed c ReadSignedExponentialGolomb) (flat_map se_bits l) l.
Proof.
  intros c l L F. unfold pushed, cond. destruct c.
  - destruct l as [|x [|y l]]; cbn in L; try lia. inversion F; subst. cbn [flat_map].
    eapply parses_bind; [apply se_parses; auto|apply parses_ret].
  - destruct l; cbn in L; try lia. apply parses_ret.
Qed.
Lemma slice_poc_sound : forall s p f, sps_use s ->
  sound (slice_poc s p f) (valid_poc s p f) (enc_poc s p f).
Proof.
  intros s p f (_ & L & _) b v b' W H. unfold slice_poc in H. cbv zeta in H.
  rewrite u32_small in H by lia.
  change (tob _ && negb _) with (two_deltas p f) in H.
  unfold valid_poc, enc_poc. change on with tob.
  apply sbind_inv in H. destruct H as ([lsb db] & b1 & H1 & H).
  assert (Q1 : (if pic_order_cnt_type s =? 0
     then is_u (log2_max_pic_order_cnt_lsb_minus4 s + 4) lsb /\
        (if two_deltas p f then is_se db else db = 0%Z)
     else lsb = 0 /\ db = 0%Z) /\
     reads b (if pic_order_cnt_type s =? 0
       then u_bits (log2_max_pic_order_cnt_lsb_minus4 s + 4) lsb ++
            (if two_deltas p f then se_bits db else []) else []) b1).
  { clear H. fin. }
  clear H1. destruct Q1 as [Q1 R1].
  apply sbind_inv in H. destruct H as (d & b2 & H2 & H). inv1. red_poc.
  split; [|eapply reads_app; [exact R1|]]; [split; [exact Q1|]|].
  1,2: clear Q1; destruct ((pic_order_cnt_type s =? 1) && negb (tob (delta_pic_order_always_zero_flag s))) eqn:?;
    unfold cond in H2.
  1,3: apply sbind_inv in H2; destruct H2 as (d0 & b3 & H3 & H2);
    apply sbind_inv in H2; destruct H2 as (d1 & b4 & H4 & H2); inv1;
    pose proof (reads_wf _ _ _ R1); apply se_sound in H3; auto; destruct H3 as [S3 R3];
    pose proof (reads_wf _ _ _ R3); apply pushed_se_sound in H4; auto; destruct H4 as (S4 & S5 & R4).
  - split; [|constructor; auto]. cbn [length]. destruct (two_deltas p f); lia.
  - cbn [flat_map]. eapply reads_app; eauto.
  - inv1; auto.
  - inv1. apply reads_refl. eapply reads_wf; eauto.
Qed.
Lemma slice_poc_complete : forall s p f, sps_use s ->
  complete (slice_poc s p f) (valid_poc s p f) (enc_poc s p f).
Proof.
  intros s p f (_ & L & _) [lsb db d] [V1 V2]. unfold slice_poc. cbv zeta.
  rewrite u32_small by lia.
  change (tob _ && negb _) with (two_deltas p f). change on with tob in V2.
  unfold enc_poc. change on with tob. cbn [pic_order_cnt_lsb delta_pic_order_cnt_bottom delta_pic_order_cnt] in *.
  eapply parses_bind with (a := (lsb, db)).
  { walk. }
  cbv beta iota. eapply parses_bind1 with (a := d); [|apply parses_ret].
  apply parses_cond; intros C; rewrite C in V2; [|subst; reflexivity]. destruct V2 as [E F].
  rewrite ?C. destruct d as [|d0 d1]; [destruct (two_deltas p f); cbn in E; lia|].
  inversion F; subst. cbn [flat_map].
  eapply parses_bind; [apply se_parses; auto|].
  eapply parses_bind1; [|apply parses_ret].
  apply pushed_se_parses; auto. cbn [length] in E. destruct (two_deltas p f); lia.
Qed.

Ltac red_refs := cbn [direct_spatial_mv_pred_flag num_ref_idx_active_override_flag
  num_ref_idx_l0_active_minus1 num_ref_idx_l1_active_minus1].
Lemma slice_refs_good : forall p ty, good (slice_refs p ty).
Proof. intros. unfold slice_refs. good_tac. Qed.
Lemma slice_refs_sound : forall p ty, ty <= 9 ->
  sound (slice_refs p ty) (valid_refs (pps_num_ref_idx_l0_default_active_minus1 p)
    (pps_num_ref_idx_l1_default_active_minus1 p) ty) (enc_refs ty).
Proof.
  intros p ty L b v b' W H. unfold slice_refs in H. rewrite type_P, type_SP, type_B in H by auto.
  change (P_slice ty || SP_slice ty || B_slice ty) with (uses_refs ty) in H.
  unfold valid_refs, enc_refs. change on with tob. inv. red_refs. fin.
Qed.
Lemma slice_refs_complete : forall p ty, ty <= 9 ->
  complete (slice_refs p ty) (valid_refs (pps_num_ref_idx_l0_default_active_minus1 p)
    (pps_num_ref_idx_l1_default_active_minus1 p) ty) (enc_refs ty).
Proof.
  intros p ty L [ds ov l0 l1] V. unfold valid_refs in V. revert V. red_refs. change on with tob.
  intro V. conj. unfold slice_refs, enc_refs. red_refs. change on with tob.
  rewrite type_P, type_SP, type_B by auto.
  change (P_slice ty || SP_slice ty || B_slice ty) with (uses_refs ty).
  eapply parses_bind; [walk|].
  eapply parses_bind1 with (a := (ov, l0, l1)); [|apply parses_ret].
  apply parses_cond; intro C; take_if; conj; [|subst; reflexivity].
  eapply parses_bind; [walk|].
  eapply parses_bind1 with (a := (l0, l1)); [|apply parses_ret].
  destruct (tob ov); conj; [walk|]. subst. apply parses_ret.
Qed.

Definition qp_ok (s : sps) (q : Z) : Prop :=
  (Z.abs q <= 51 + 6 * Z.of_N (bit_depth_luma_minus8 s))%Z.
Lemma slice_qp_red : forall s b, sps_use s -> slice_qp s b =
  (q <- ReadSignedExponentialGolomb ;;
   guard (negb (q <? -51 - 6 * Z.of_N (bit_depth_luma_minus8 s))%Z) ;;;
   guard (negb (51 + 6 * Z.of_N (bit_depth_luma_minus8 s) <? q)%Z) ;;;
   sret q)%m b.
Proof.
  intros s b (_ & _ & L & _). unfold slice_qp, sbind, sres.
  destruct (ReadSignedExponentialGolomb b) as [[q| |k| |] b1]; auto.
  rewrite to_i32_small by lia.
  rewrite (chk_i32_ok (6 * _)) by lia. cbv beta iota.
  rewrite (chk_i32_ok (-51 - _)) by lia. cbv beta iota.
  destruct (guard _ b1) as [[u| |k| |] b2]; auto.
  rewrite (chk_i32_ok (51 + _)) by lia. reflexivity.
Qed.
Lemma good_ext : forall A (p q : P A), (forall b, p b = q b) -> good q -> good p.
Proof. intros A p q E G b W. rewrite E. apply G; auto. Qed.
Lemma slice_qp_good : forall s, sps_use s -> good (slice_qp s).
Proof. intros s U. eapply good_ext; [exact (fun b => slice_qp_red s b U)|]. good_tac. Qed.
Lemma slice_qp_sound : forall s, sps_use s -> sound (slice_qp s) (qp_ok s) se_bits.
Proof.
  intros s U b v b' W H. rewrite slice_qp_red in H by auto. inv. unfold qp_ok. fin.
Qed.
Lemma slice_qp_complete : forall s, sps_use s -> complete (slice_qp s) (qp_ok s) se_bits.
Proof.
  intros s U v V b rest W E. rewrite slice_qp_red by auto. revert b rest W E.
  change (parses (q <- ReadSignedExponentialGolomb ;;
   guard (negb (q <? -51 - 6 * Z.of_N (bit_depth_luma_minus8 s))%Z) ;;;
   guard (negb (51 + 6 * Z.of_N (bit_depth_luma_minus8 s) <? q)%Z) ;;;
   sret q)%m (se_bits v) v).
  destruct U as (_ & _ & L & _). unfold qp_ok in V.
  eapply parses_bind1; [walk|]. walk.
Qed.

Lemma slice_spqs_good : forall ty, good (slice_spqs ty).
Proof. intros. unfold slice_spqs. good_tac. Qed.
Lemma slice_spqs_sound : forall ty, ty <= 9 -> sound (slice_spqs ty) (valid_spqs ty) (enc_spqs ty).
Proof.
  intros ty L b v b' W H. unfold slice_spqs in H. rewrite type_SP, type_SI in H by auto.
  unfold valid_spqs, enc_spqs. destruct (SP_slice ty || SI_slice ty); unfold cond at 1 in H.
  - inv. cbn [sp_for_switch_flag slice_qs_delta]. fin.
  - inv. cbn. fin.
Qed.
Lemma slice_spqs_complete : forall ty, ty <= 9 ->
  complete (slice_spqs ty) (valid_spqs ty) (enc_spqs ty).
Proof.
  intros ty L [sw qs] V. unfold valid_spqs in V. cbn [sp_for_switch_flag slice_qs_delta] in V.
  unfold slice_spqs, enc_spqs. cbn [sp_for_switch_flag slice_qs_delta].
  rewrite type_SP, type_SI by auto. walk.
Qed.

Ltac red_dbk := cbn [disable_deblocking_filter_idc slice_alpha_c0_offset_div2 slice_beta_offset_div2].
Lemma slice_dbk_good : forall m p, good (slice_dbk m p).
Proof. intros. unfold slice_dbk. good_tac. Qed.
Lemma slice_dbk_sound : forall m p, sound (slice_dbk m p) (valid_dbk m p) (enc_dbk p).
Proof.
  intros m p b v b' W H. unfold slice_dbk in H. unfold valid_dbk, enc_dbk. change on with tob.
  destruct (tob (pps_deblocking_filter_control_present_flag p)); unfold cond at 1 in H; inv.
  - red_dbk. fin.
  - red_dbk. fin.
Qed.
Lemma slice_dbk_complete : forall m p, m <= 2 ^ 31 ->
  complete (slice_dbk m p) (valid_dbk m p) (enc_dbk p).
Proof.
  intros m p L [i a be] V. unfold valid_dbk in V. revert V. red_dbk. change on with tob. intro V.
  unfold slice_dbk, enc_dbk. red_dbk. change on with tob. walk.
Qed.

Lemma changing : forall p, has_cycle p = changing_groups p.
Proof. intro p. unfold has_cycle, changing_groups. cbn [existsb]. lia. Qed.
Lemma log2_up_size : forall n, N.log2_up (n + 1) = N.size n.
Proof.
  intro n. destruct (N.eq_0_gt_0_cases n) as [->|P]; [reflexivity|].
  rewrite N.log2_up_eqn by lia. rewrite N.size_log2 by lia. f_equal. f_equal. lia.
Qed.
Lemma cycle_len : forall s p, sps_use s -> pps_use p ->
  getSliceGroupChangeCycleLen (pic_width_in_mbs_minus1 s) (pic_height_in_map_units_minus1 s)
    (pps_slice_group_change_rate_minus1 p) = Ok (cycle_bits s p) /\ 0 < cycle_bits s p <= 32.
Proof.
  intros s p (_ & _ & _ & LW & LH) R. unfold pps_use, is_ue in R.
  unfold getSliceGroupChangeCycleLen, cycle_bits.
  set (w := pic_width_in_mbs_minus1 s) in *. set (h := pic_height_in_map_units_minus1 s) in *.
  set (r := pps_slice_group_change_rate_minus1 p) in *. clearbody w h r. cbv zeta.
  rewrite (u32_small (w + 1)), (u32_small (h + 1)), (u32_small (r + 1)) by lia.
  assert (B : 1 <= (w + 1) * (h + 1) <= 1056 * 1056) by nia.
  rewrite u32_small by lia. set (sz := (w + 1) * (h + 1)) in *. clearbody sz.
  replace (r + 1 =? 0) with false by lia.
  assert (E : (sz + (r + 1) + (r + 1 - 1)) / (r + 1) = (sz + (r + 1) - 1) / (r + 1) + 1).
  { replace (sz + (r + 1) + (r + 1 - 1)) with (sz + (r + 1) - 1 + 1 * (r + 1)) by lia.
    apply N.div_add. lia. }
  rewrite E, log2_up_size. split; [reflexivity|].
  assert (D : 1 <= (sz + (r + 1) - 1) / (r + 1) <= sz).
  { split.
    - apply N.div_le_lower_bound; lia.
    - apply N.lt_succ_r. apply N.div_lt_upper_bound; nia. }
  set (q := (sz + (r + 1) - 1) / (r + 1)) in *. clearbody q.
  rewrite N.size_log2 by lia. split; [lia|].
  assert (N.log2 q <= N.log2 (2 ^ 31)) by (apply N.log2_le_mono; lia).
  rewrite N.log2_pow2 in * by lia. lia.
Qed.
Lemma slice_cycle_red : forall s p, sps_use s -> pps_use p -> forall b, slice_cycle s p b =
  cond (changing_groups p) (ReadBits (cycle_bits s p)) 0 b.
Proof.
  intros s p US UP b. unfold slice_cycle. destruct (cycle_len s p US UP) as [-> _].
  rewrite changing. reflexivity.
Qed.
Lemma slice_cycle_good : forall s p, sps_use s -> pps_use p -> good (slice_cycle s p).
Proof. intros s p US UP. eapply good_ext; [exact (slice_cycle_red s p US UP)|]. good_tac. Qed.
Lemma slice_cycle_sound : forall s p, sps_use s -> pps_use p ->
  sound (slice_cycle s p) (valid_cycle s p) (enc_cycle s p).
Proof.
  intros s p US UP b v b' W H. rewrite slice_cycle_red in H by auto. unfold valid_cycle, enc_cycle.
  fin.
Qed.
Lemma slice_cycle_complete : forall s p, sps_use s -> pps_use p ->
  complete (slice_cycle s p) (valid_cycle s p) (enc_cycle s p).
Proof.
  intros s p US UP v V b rest W E. rewrite slice_cycle_red by auto. revert b rest W E.
  change (parses (cond (changing_groups p) (ReadBits (cycle_bits s p)) 0) (enc_cycle s p v) v).
  destruct (cycle_len s p US UP) as [_ L]. unfold enc_cycle. unfold valid_cycle in V.
  apply parses_cond; intro C; rewrite C in V; [|subst; reflexivity]. rewrite ?C.
  apply ReadBits_parses; auto.
Qed.

(** ** Optional sub-structures *)
Lemma opt_via_sound : forall A E (c : bool) (p : P A) (ok : E -> Prop) enc val,
  sound_via p ok enc val -> forall b o b', bb_wf b -> cond c (some_of p) None b = (Ok o, b') ->
  exists e, opt_ok c ok e /\ o = option_map val e /\ reads b (enc_opt enc e) b'.
Proof.
  intros A E c p ok enc val H b o b' W Hp. unfold cond in Hp. destruct c; cbn [opt_ok].
  - unfold some_of in Hp. apply sbind_inv in Hp. destruct Hp as (x & b1 & H1 & Hp). inv1.
    apply H in H1; auto. destruct H1 as (e & O & -> & R).
    exists (Some e). split; [exists e; auto|]. auto.
  - inv1. exists None. split; [reflexivity|]. split; [reflexivity|]. apply reads_refl. auto.
Qed.
Lemma opt_via_complete : forall A E (c : bool) (p : P A) (ok : E -> Prop) enc val e,
  complete_via p ok enc val -> opt_ok c ok e ->
  parses (cond c (some_of p) None) (enc_opt enc e) (option_map val e).
Proof.
  intros A E c p ok enc val e H O. unfold opt_ok in O. destruct c; cbn [cond].
  - destruct O as (x & -> & O). unfold some_of. cbn [enc_opt option_map].
    eapply parses_bind1; [apply H; auto|apply parses_ret].
  - subst e. apply parses_ret.
Qed.
Lemma table_sound : forall cat ty n0 n1,
  sound_via (ParsePredWeightTable cat ty n0 n1) (valid_table cat ty n0 n1) (enc_table cat ty)
    (table_of cat ty n0 n1).
Proof.
  intros cat ty n0 n1 b v b' W H. apply pwt_sound in H; auto.
  destruct H as (ld & cd & w0 & w1 & V & E & R). exists (ld, cd, w0, w1). auto.
Qed.
Lemma table_complete : forall cat ty n0 n1,
  complete_via (ParsePredWeightTable cat ty n0 n1) (valid_table cat ty n0 n1) (enc_table cat ty)
    (table_of cat ty n0 n1).
Proof. intros cat ty n0 n1 [[[ld cd] w0] w1] V. apply pwt_complete. exact V. Qed.

Lemma ue_cond_sound : forall (c : bool) m b v b', bb_wf b -> cond c (ue_max m) 0 b = (Ok v, b') ->
  (if c then v <= m else v = 0) /\ reads b (if c then ue_bits v else []) b'.
Proof.
  intros c m b v b' W H. unfold cond in H. destruct c; inv; auto.
  split; [auto|]. apply reads_refl. auto.
Qed.
Lemma ue_cond_complete : forall (c : bool) m v, m <= 2 ^ 31 -> (if c then v <= m else v = 0) ->
  parses (cond c (ue_max m) 0) (if c then ue_bits v else []) v.
Proof.
  intros c m v L V. apply parses_cond; intro C; rewrite C in V; rewrite ?C; subst; auto.
  apply parses_ue_max; lia.
Qed.

(** ** The whole header *)
Lemma slice_rest_good : forall ref nut s p ld pic idr po red rf, sps_use s -> pps_use p ->
  good (slice_rest ref nut s p ld pic idr po red rf).
Proof.
  intros ref nut s p ld pic idr po red rf US UP. unfold slice_rest. cbv zeta.
  pose proof (slice_qp_good s US). pose proof (slice_cycle_good s p US UP).
  pose proof slice_spqs_good. pose proof slice_dbk_good.
  good_tac.
Qed.
Definition use_state (st : pstate) : Prop :=
  (forall id s, lookup id (st_sps st) = Some s -> sps_use s) /\
  (forall id p, lookup id (st_pps st) = Some p -> pps_use p).
Lemma ok_use_state : forall st, ok_state st -> use_state st.
Proof.
  intros st (S1 & S2 & _). split; intros id x H.
  - eapply ok_sps_use, S1, H.
  - eapply ok_pps_use, S2, H.
Qed.
Lemma found_bind_good : forall A B (o : option A) (f : A -> P B),
  (forall a, o = Some a -> good (f a)) -> good (sbind (found o) f).
Proof.
  intros A B o f G. apply good_bind_ok; [apply found_good|].
  intros b a b' W H. apply found_inv in H. destruct H as [H _]. auto.
Qed.
Lemma ParseSliceHeader_good : forall ref nut st, use_state st -> good (ParseSliceHeader ref nut st).
Proof.
  intros ref nut st [U1 U2]. unfold ParseSliceHeader.
  apply good_bind; [apply slice_lead_good|]. intro ld.
  apply found_bind_good. intros p Fp. rewrite mfind_lookup in Fp. apply U2 in Fp.
  apply found_bind_good. intros s Fs. rewrite mfind_lookup in Fs. apply U1 in Fs.
  pose proof slice_pic_good. pose proof slice_poc_good. pose proof slice_refs_good.
  pose proof slice_rest_good. good_tac.
Qed.

Lemma idr_eq : forall nut, (if nut =? 5 then 1 else 0) = idr_flag_of nut.
Proof. reflexivity. Qed.
Lemma inputs_eq : forall ref nut s p, slice_inputs ref nut s p = inputs_of ref nut s p.
Proof. intros. unfold slice_inputs, inputs_of. rewrite changing. reflexivity. Qed.
Tactic Notation "bstep" hyp(H) ident(x) ident(b1) ident(H1) :=
  apply sbind_inv in H; destruct H as (x & b1 & H1 & H).
Ltac bsteps H := repeat (apply sbind_inv in H; destruct H as (? & ? & _ & H)).
Lemma slice_rest_sound : forall ref nut s p ld pic idr po red rf b h b', bb_wf b ->
  sps_use s -> pps_use p -> slice_type ld <= 9 ->
  slice_rest ref nut s p ld pic idr po red rf b = (Ok h, b') ->
  exists cs0 cs1 tb mk cb qp sq db cy,
    let v := mkslice ld pic idr po red rf cs0 cs1 tb mk cb qp sq db cy in
    let ty := slice_type ld in
    h = slh_of ref nut s p v /\
    valid_rplm ty cs0 cs1 /\
    opt_ok (weighted p ty)
      (valid_table (chroma_array_type s) ty (num_ref_idx_l0_active_minus1 rf)
         (num_ref_idx_l1_active_minus1 rf)) tb /\
    opt_ok (negb (ref =? 0)) (valid_marking (idr_flag_of nut)) mk /\
    (if on (pps_entropy_coding_mode_flag p) && negb (I_slice ty) && negb (SI_slice ty)
     then cb <= 2 else cb = 0) /\
    qp_ok s qp /\ valid_spqs ty sq /\ valid_dbk 2 p db /\ valid_cycle s p cy /\
    reads b (enc_rplm ty cs0 cs1 ++
      enc_opt (enc_table (chroma_array_type s) ty) tb ++
      enc_opt enc_marking mk ++
      (if on (pps_entropy_coding_mode_flag p) && negb (I_slice ty) && negb (SI_slice ty)
       then ue_bits cb else []) ++
      se_bits qp ++ enc_spqs ty sq ++ enc_dbk p db ++ enc_cycle s p cy) b'.
Proof.
  intros ref nut s p ld pic idr po red rf b h b' W US UP L H. unfold slice_rest in H. cbv zeta in H.
  rewrite type_P, type_SP, type_B, type_I, type_SI in H by auto.
  change (tob (pps_weighted_pred_flag p) && _ || _) with (weighted p (slice_type ld)) in H.
  rewrite idr_eq, cat_eq in H. set (ty := slice_type ld) in *.
  bstep H rl b1 H1. apply rplm_sound in H1; auto. destruct H1 as (cs0 & cs1 & V1 & -> & R1).
  pose proof (reads_wf _ _ _ R1) as W1.
  bstep H pw b2 H2. eapply opt_via_sound in H2; [|apply table_sound|auto].
  destruct H2 as (tb & V2 & -> & R2). pose proof (reads_wf _ _ _ R2) as W2.
  bstep H dm b3 H3. eapply opt_via_sound in H3; [|apply drpm_sound|auto].
  destruct H3 as (mk & V3 & -> & R3). pose proof (reads_wf _ _ _ R3) as W3.
  bstep H cb b4 H4. apply ue_cond_sound in H4; auto. destruct H4 as [V4 R4].
  pose proof (reads_wf _ _ _ R4) as W4.
  bstep H qp b5 H5. apply slice_qp_sound in H5; auto. destruct H5 as [V5 R5].
  pose proof (reads_wf _ _ _ R5) as W5.
  bstep H sq b6 H6. apply slice_spqs_sound in H6; auto. destruct H6 as [V6 R6].
  pose proof (reads_wf _ _ _ R6) as W6.
  bstep H db b7 H7. apply slice_dbk_sound in H7; auto. destruct H7 as [V7 R7].
  pose proof (reads_wf _ _ _ R7) as W7.
  bstep H cy b8 H8. apply slice_cycle_sound in H8; auto. destruct H8 as [V8 R8].
  apply sret_inv in H. destruct H as [-> ->].
  exists cs0, cs1, tb, mk, cb, qp, sq, db, cy. cbv zeta.
  split; [rewrite inputs_eq; reflexivity|].
  do 8 (split; [assumption|]).
  repeat (eapply reads_app; [eassumption|]). assumption.
Qed.
Lemma slice_sound : forall ref nut st b h b', bb_wf b -> use_state st ->
  ParseSliceHeader ref nut st b = (Ok (Some h), b') ->
  (nut =? 20) || (nut =? 21) = false /\
  exists s p v, active st (pic_parameter_set_id (s_lead v)) = Some (s, p) /\
    valid_slice ref nut s p v /\ h = slh_of ref nut s p v /\
    reads b (enc_slice ref nut s p v) b'.
Proof.
  intros ref nut st b h b' W [U1 U2] H. unfold ParseSliceHeader in H.
  bstep H ld b1 H1. apply slice_lead_sound in H1; auto. destruct H1 as [V1 R1].
  pose proof (reads_wf _ _ _ R1) as W1.
  bstep H p b2 H2. apply found_inv in H2. destruct H2 as [Fp ->]. rewrite mfind_lookup in Fp.
  bstep H s b2 H2. apply found_inv in H2. destruct H2 as [Fs ->]. rewrite mfind_lookup in Fs.
  pose proof (U1 _ _ Fs) as US. pose proof (U2 _ _ Fp) as UP.
  bstep H pic b2 H2. apply slice_pic_sound in H2; auto. destruct H2 as [V2 R2].
  pose proof (reads_wf _ _ _ R2) as W2.
  bstep H idr b3 H3. apply ue_cond_sound in H3; auto. destruct H3 as [V3 R3].
  pose proof (reads_wf _ _ _ R3) as W3.
  bstep H po b4 H4. apply slice_poc_sound in H4; auto. destruct H4 as [V4 R4].
  pose proof (reads_wf _ _ _ R4) as W4.
  bstep H red b5 H5. apply ue_cond_sound in H5; auto. destruct H5 as [V5 R5].
  pose proof (reads_wf _ _ _ R5) as W5.
  assert (L : slice_type ld <= 9) by apply V1.
  bstep H rf b6 H6. apply slice_refs_sound in H6; auto. destruct H6 as [V6 R6].
  pose proof (reads_wf _ _ _ R6) as W6.
  destruct ((nut =? 20) || (nut =? 21)); [apply sret_inv in H; destruct H; discriminate|].
  split; [reflexivity|].
  bstep H h' b7 H7. apply sret_inv in H. destruct H as [E ->]. injection E as ->.
  apply slice_rest_sound in H7; auto.
  destruct H7 as (cs0 & cs1 & tb & mk & cb & qp & sq & db & cy & E & X).
  conj. exists s, p, (mkslice ld pic idr po red rf cs0 cs1 tb mk cb qp sq db cy).
  split.
  { unfold active. cbn [s_lead]. rewrite Fp, Fs. reflexivity. }
  split.
  { unfold valid_slice, s_type. cbn [s_lead s_pic s_idr_pic_id s_poc s_redundant_pic_cnt s_refs
      s_rpl0 s_rpl1 s_table s_marking s_cabac_init_idc s_slice_qp_delta s_spqs s_dbk s_cycle].
    do 13 (split; [assumption|]). assumption. }
  split; [exact E|].
  unfold enc_slice, s_type. cbn [s_lead s_pic s_idr_pic_id s_poc s_redundant_pic_cnt s_refs
      s_rpl0 s_rpl1 s_table s_marking s_cabac_init_idc s_slice_qp_delta s_spqs s_dbk s_cycle].
  repeat (eapply reads_app; [eassumption|]). assumption.
Qed.

Lemma slice_rest_complete : forall ref nut s p v, sps_use s -> pps_use p ->
  valid_slice ref nut s p v ->
  parses (slice_rest ref nut s p (s_lead v) (s_pic v) (s_idr_pic_id v) (s_poc v)
            (s_redundant_pic_cnt v) (s_refs v))
    (enc_rplm (s_type v) (s_rpl0 v) (s_rpl1 v) ++
     enc_opt (enc_table (chroma_array_type s) (s_type v)) (s_table v) ++
     enc_opt enc_marking (s_marking v) ++
     (if on (pps_entropy_coding_mode_flag p) && negb (I_slice (s_type v)) && negb (SI_slice (s_type v))
      then ue_bits (s_cabac_init_idc v) else []) ++
     se_bits (s_slice_qp_delta v) ++ enc_spqs (s_type v) (s_spqs v) ++ enc_dbk p (s_dbk v) ++
     enc_cycle s p (s_cycle v))
    (slh_of ref nut s p v).
Proof.
  intros ref nut s p v US UP V. unfold valid_slice in V.
  destruct V as (V1 & V2 & V3 & V4 & V5 & V6 & V7 & V8 & V9 & V10 & V11 & V12 & V13 & V14).
  assert (L : s_type v <= 9) by apply V1.
  unfold slice_rest. cbv zeta. fold (s_type v).
  rewrite type_P, type_SP, type_B, type_I, type_SI by auto.
  change (tob (pps_weighted_pred_flag p) && _ || _) with (weighted p (s_type v)).
  rewrite idr_eq, cat_eq.
  eapply parses_bind; [apply rplm_complete; exact V7|].
  eapply parses_bind; [eapply opt_via_complete; [apply table_complete|exact V8]|].
  eapply parses_bind; [eapply opt_via_complete; [apply drpm_complete|exact V9]|].
  eapply parses_bind; [apply ue_cond_complete; [lia|exact V10]|].
  eapply parses_bind; [apply slice_qp_complete; [exact US|exact V11]|].
  eapply parses_bind; [apply slice_spqs_complete; [exact L|exact V12]|].
  eapply parses_bind; [apply slice_dbk_complete; [lia|exact V13]|].
  eapply parses_bind1; [apply slice_cycle_complete; [exact US|exact UP|exact V14]|].
  rewrite inputs_eq. apply parses_ret.
Qed.
Lemma parses_found : forall A B (o : option A) (f : A -> P B) x c v, o = Some x ->
  parses (f x) c v -> parses (sbind (found o) f) c v.
Proof. intros A B o f x c v -> H. eapply parses_bind0; [apply parses_ret|exact H]. Qed.
Lemma slice_complete : forall ref nut st s p v, use_state st -> (nut =? 20) || (nut =? 21) = false ->
  active st (pic_parameter_set_id (s_lead v)) = Some (s, p) -> valid_slice ref nut s p v ->
  parses (ParseSliceHeader ref nut st) (enc_slice ref nut s p v) (Some (slh_of ref nut s p v)).
Proof.
  intros ref nut st s p v [U1 U2] Nu A V. unfold active in A.
  destruct (lookup (pic_parameter_set_id (s_lead v)) (st_pps st)) as [p'|] eqn:Fp; [|discriminate].
  destruct (lookup (pps_seq_parameter_set_id p') (st_sps st)) as [s'|] eqn:Fs; [|discriminate].
  injection A as -> ->. pose proof (U1 _ _ Fs) as US. pose proof (U2 _ _ Fp) as UP.
  pose proof (slice_rest_complete ref nut s p v US UP V) as R. unfold valid_slice in V.
  destruct V as (V1 & V2 & V3 & V4 & V5 & V6 & _). assert (L : s_type v <= 9) by apply V1.
  unfold ParseSliceHeader, enc_slice.
  eapply parses_bind; [apply slice_lead_complete; exact V1|].
  eapply parses_found; [rewrite mfind_lookup; exact Fp|].
  eapply parses_found; [rewrite mfind_lookup; exact Fs|].
  eapply parses_bind; [apply slice_pic_complete; [exact US|exact V2]|].
  eapply parses_bind; [apply ue_cond_complete; [lia|exact V3]|].
  eapply parses_bind; [apply slice_poc_complete; [exact US|exact V4]|].
  eapply parses_bind; [apply ue_cond_complete; [lia|exact V5]|].
  eapply parses_bind; [apply slice_refs_complete; [exact L|exact V6]|].
  rewrite Nu. eapply parses_bind1; [exact R|apply parses_ret].
Qed.
