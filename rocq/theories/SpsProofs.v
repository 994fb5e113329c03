(** SPS parser: safety, soundness, completeness, resolution. *)
From Coq Require Import NArith ZArith List Bool Lia ZifyBool ZifyNat ZifyN.
From Verif Require Import SpecBits Base BitBuffer SpecReader BitsLemmas BitBufferProofs
  Rbsp SpecRbsp RbspProofs Parser ParserProofs TypesSps Vui SpecVui VuiProofs
  ScalingList SpecScaling ScalingProofs Sps SpecSps.
Import ListNotations.
Open Scope N_scope.
Ltac Zify.zify_post_hook ::= Z.div_mod_to_equations.

Ltac red_sps := cbn [
  profile_idc constraint_set0_flag constraint_set1_flag constraint_set2_flag
   constraint_set3_flag constraint_set4_flag constraint_set5_flag
   reserved_zero_2bits level_idc seq_parameter_set_id chroma_format_idc
   separate_colour_plane_flag bit_depth_luma_minus8 bit_depth_chroma_minus8
   qpprime_y_zero_transform_bypass_flag seq_scaling_matrix_present_flag
   sps_scaling log2_max_frame_num_minus4 pic_order_cnt_type
   log2_max_pic_order_cnt_lsb_minus4 delta_pic_order_always_zero_flag
   offset_for_non_ref_pic offset_for_top_to_bottom_field
   num_ref_frames_in_pic_order_cnt_cycle offset_for_ref_frame max_num_ref_frames
   gaps_in_frame_num_value_allowed_flag pic_width_in_mbs_minus1
   pic_height_in_map_units_minus1 frame_mbs_only_flag
   mb_adaptive_frame_field_flag direct_8x8_inference_flag frame_cropping_flag
   frame_crop_left_offset frame_crop_right_offset frame_crop_top_offset
   frame_crop_bottom_offset vui_parameters_present_flag vui_parameters
   profile_type].
Tactic Notation "red_sps" "in" hyp(H) := cbn [
  profile_idc constraint_set0_flag constraint_set1_flag constraint_set2_flag
   constraint_set3_flag constraint_set4_flag constraint_set5_flag
   reserved_zero_2bits level_idc seq_parameter_set_id chroma_format_idc
   separate_colour_plane_flag bit_depth_luma_minus8 bit_depth_chroma_minus8
   qpprime_y_zero_transform_bypass_flag seq_scaling_matrix_present_flag
   sps_scaling log2_max_frame_num_minus4 pic_order_cnt_type
   log2_max_pic_order_cnt_lsb_minus4 delta_pic_order_always_zero_flag
   offset_for_non_ref_pic offset_for_top_to_bottom_field
   num_ref_frames_in_pic_order_cnt_cycle offset_for_ref_frame max_num_ref_frames
   gaps_in_frame_num_value_allowed_flag pic_width_in_mbs_minus1
   pic_height_in_map_units_minus1 frame_mbs_only_flag
   mb_adaptive_frame_field_flag direct_8x8_inference_flag frame_cropping_flag
   frame_crop_left_offset frame_crop_right_offset frame_crop_top_offset
   frame_crop_bottom_offset vui_parameters_present_flag vui_parameters
   profile_type] in H.

Lemma high_eq : forall p, is_high p = has_chroma_info p.
Proof.
  intros p. unfold is_high, high_profiles, has_chroma_info. cbn [existsb].
  rewrite !orb_assoc, orb_false_r. reflexivity.
Qed.

(** ** Cropping *)
Definition crop_ok (cfi sep w h fmo l r t bo : N) : Prop :=
  crop_unit_x cfi sep * (l + r) < 16 * (w + 1) /\
  crop_unit_y cfi sep fmo * (t + bo) < 16 * ((2 - fmo) * (h + 1)).

Lemma unit_x : forall cfi sep, cfi <= 3 -> sep < 2 -> (sep = 0 \/ cfi = 3) ->
  getCropUnitX cfi sep = Z.of_N (crop_unit_x cfi sep).
Proof.
  intros cfi sep C S D.
  assert (Hc : cfi = 0 \/ cfi = 1 \/ cfi = 2 \/ cfi = 3) by lia.
  assert (Hs : sep = 0 \/ sep = 1) by lia.
  destruct Hc as [->|[->|[->| ->]]], Hs as [->| ->]; try reflexivity; lia.
Qed.
Lemma unit_y : forall cfi sep fmo, cfi <= 3 -> sep < 2 -> (sep = 0 \/ cfi = 3) -> fmo < 2 ->
  getCropUnitY cfi sep fmo = Ok (Z.of_N (crop_unit_y cfi sep fmo)).
Proof.
  intros cfi sep fmo C S D F.
  assert (Hc : cfi = 0 \/ cfi = 1 \/ cfi = 2 \/ cfi = 3) by lia.
  assert (Hs : sep = 0 \/ sep = 1) by lia.
  assert (Hf : fmo = 0 \/ fmo = 1) by lia.
  destruct Hc as [->|[->|[->| ->]]], Hs as [->| ->], Hf as [->| ->]; try reflexivity; lia.
Qed.
Lemma unit_x_le : forall cfi sep, 1 <= crop_unit_x cfi sep <= 2.
Proof.
  intros. unfold crop_unit_x. destruct (on sep); [lia|].
  destruct cfi as [|[[|[]|]|[|[]|]|]]; lia.
Qed.
Lemma unit_y_le : forall cfi sep fmo, fmo < 2 -> 1 <= crop_unit_y cfi sep fmo <= 4.
Proof.
  intros. unfold crop_unit_y. destruct (on sep); [lia|].
  destruct cfi as [|[[|[]|]|[|[]|]|]]; lia.
Qed.
Lemma of_i32_of_N : forall x, x < 2 ^ 32 -> of_i32 (Z.of_N x) = x.
Proof. intros. unfold of_i32. rewrite Z.mod_small; lia. Qed.
Lemma u32_small : forall x, x < 2 ^ 32 -> u32 x = x.
Proof. intros. unfold u32. apply N.mod_small. auto. Qed.
Lemma sub32_small : forall a b, b <= a -> a < 2 ^ 32 -> sub32 a b = a - b.
Proof.
  intros. unfold sub32. rewrite (N.mod_small b) by lia.
  replace (a + (2 ^ 32 - b)) with (a - b + 1 * 2 ^ 32) by lia.
  rewrite N.mod_add by lia. apply N.mod_small. lia.
Qed.

Definition crop_check (cfi sep w h fmo l r t bo : N) : bool :=
  negb ((16 * (w + 1) <=? crop_unit_x cfi sep * (l + r)) ||
        (16 * ((2 - fmo) * (h + 1)) <=? crop_unit_y cfi sep fmo * (t + bo))).

Lemma crop_eq : forall cfi sep w h fmo, cfi <= 3 -> sep < 2 -> (sep = 0 \/ cfi = 3) ->
  fmo < 2 -> w <= 1055 -> h <= 1055 -> forall b, bb_wf b ->
  ParseSpsCrop cfi sep w h fmo b =
  (l <- ue_max kMaxWidth ;; r <- ue_max kMaxWidth ;;
   t <- ue_max kMaxHeight ;; bo <- ue_max kMaxHeight ;;
   guard (crop_check cfi sep w h fmo l r t bo) ;;; sret (l, r, t, bo))%m b.
Proof.
  intros cfi sep w h fmo C S D F Hw Hh b W. unfold ParseSpsCrop.
  pose proof (unit_x_le cfi sep) as Ux. pose proof (unit_y_le cfi sep fmo F) as Uy.
  assert (Step : forall A (p : P A) f g ok, (forall b v b', bb_wf b -> p b = (Ok v, b') ->
             ok v /\ bb_wf b') ->
             (forall v b', bb_wf b' -> ok v -> f v b' = g v b') ->
             forall b, bb_wf b -> sbind p f b = @sbind _ A (N * N * N * N) p g b).
  { intros A p f g ok Hp Hf b0 W0. unfold sbind. destruct (p b0) as [[a| |k| |] b1] eqn:E; auto.
    destruct (Hp _ _ _ W0 E). apply Hf; auto. }
  assert (U : forall m b v b', bb_wf b -> ue_max m b = (Ok v, b') -> v <= m /\ bb_wf b').
  { intros m b0 v b' W0 H. apply ue_max_sound in H; auto. destruct H as [[_ H] R].
    split; auto. eapply reads_wf; eauto. }
  apply (Step _ _ _ _ (fun v => v <= kMaxWidth)); [apply U|intros l b1 W1 Hl|auto].
  apply (Step _ _ _ _ (fun v => v <= kMaxWidth)); [apply U|intros r b2 W2 Hr|auto].
  apply (Step _ _ _ _ (fun v => v <= kMaxHeight)); [apply U|intros t b3 W3 Ht|auto].
  apply (Step _ _ _ _ (fun v => v <= kMaxHeight)); [apply U|intros bo b4 W4 Hb|auto].
  unfold kMaxWidth, kMaxHeight, kMaxMbWidth, kMaxMbHeight in *.
  cbv zeta. rewrite unit_y by auto. unfold sbind at 1, sres at 1.
  rewrite unit_x by auto.
  rewrite !of_i32_of_N by lia.
  rewrite !(u32_small (l + r)), !(u32_small (t + bo)), !(u32_small (w + 1)),
    !(u32_small (h + 1)) by lia.
  rewrite sub32_small by lia.
  rewrite (u32_small (crop_unit_x cfi sep * _)) by nia.
  rewrite (u32_small (crop_unit_y cfi sep fmo * _)) by nia.
  rewrite (u32_small (16 * (w + 1))) by lia.
  rewrite (u32_small (16 * (2 - fmo))) by lia.
  rewrite (u32_small (16 * (2 - fmo) * _)) by nia.
  unfold crop_check. rewrite N.mul_assoc. reflexivity.
Qed.

Lemma ParseSpsHigh_good : good ParseSpsHigh.
Proof. unfold ParseSpsHigh. good_tac. Qed.
Lemma ParseSpsPoc1_good : good ParseSpsPoc1.
Proof. unfold ParseSpsPoc1. good_tac. Qed.
#[export] Hint Resolve ParseSpsHigh_good ParseSpsPoc1_good : good.

Lemma unit_y_ok : forall cfi sep fmo, fmo < 2 -> exists z, getCropUnitY cfi sep fmo = Ok z.
Proof.
  intros cfi sep fmo F. unfold getCropUnitY, getSubHeightC.
  assert (Hf : fmo = 0 \/ fmo = 1) by lia.
  destruct Hf as [->| ->]; destruct (getChromaArrayType cfi sep =? 0);
    repeat match goal with |- context [if ?c then _ else _] => destruct c end;
    cbn; eauto.
Qed.
Lemma ParseSpsCrop_good : forall cfi sep w h fmo, fmo < 2 -> good (ParseSpsCrop cfi sep w h fmo).
Proof.
  intros cfi sep w h fmo F. unfold ParseSpsCrop. cbv zeta.
  destruct (unit_y_ok cfi sep fmo F) as [z ->].
  do 4 (apply good_bind; [auto with good|intros ?]).
  intros bb0 W. unfold sbind at 1, sres at 1.
  match goal with |- match ?p bb0 with _ => _ end => assert (G : good p) by good_tac; exact (G bb0 W) end.
Qed.

Lemma ParseSpsData_good : good ParseSpsData.
Proof.
  unfold ParseSpsData. cbv zeta.
  do 10 (apply good_bind; [auto with good|intros ?]).
  apply good_bind; [good_tac|intros ?]. repeat (apply good_pair; intros ? ?).
  do 3 (apply good_bind; [good_tac|intros ?]).
  apply good_bind; [good_tac|intros ?]. repeat (apply good_pair; intros ? ?).
  do 4 (apply good_bind; [good_tac|intros ?]).
  apply good_bind_ok; [good_tac|]. intros fmo bb0 bb1 W H.
  apply ReadBits_sound in H; [|auto]. destruct H as [[_ F] _]. change (2 ^ 1) with 2 in F.
  pose proof (fun cfi sep w h => ParseSpsCrop_good cfi sep w h fmo F) as G.
  good_tac.
Qed.
#[export] Hint Resolve ParseSpsData_good : good.

Lemma matrix_sound : forall c n s b s' b', bb_wf b ->
  cond c (scaling_loop n 0 s) s b = (Ok s', b') ->
  exists ls, length ls = (if c then n else 0%nat) /\ slists_ok 0 ls /\
  s' = store_all 0 ls s /\ reads b (enc_slists ls) b'.
Proof.
  intros c n s b s' b' W H. destruct c; cbn [cond] in H.
  - apply (scaling_loop_sound n 0) in H; auto.
  - inv. exists []. split; [reflexivity|]. split; [exact I|]. split; [reflexivity|].
    apply reads_refl; auto.
Qed.

Lemma high_sound : forall p b cfi sep bdl bdc qpp ssm sc b', bb_wf b ->
  cond (is_high p) ParseSpsHigh (1, 0, 0, 0, 0, 0, scal0) b
    = (Ok (cfi, sep, bdl, bdc, qpp, ssm, sc), b') ->
  exists ls,
  (if is_high p then
     cfi <= 3 /\ (if cfi =? 3 then is_u 1 sep else sep = 0) /\ bdl <= 6 /\ bdc <= 6 /\
     is_u 1 qpp /\ is_u 1 ssm /\
     N.of_nat (length ls) = (if tob ssm then (if cfi =? 3 then 12 else 8) else 0) /\
     slists_ok 0 ls
   else cfi = 1 /\ sep = 0 /\ bdl = 0 /\ bdc = 0 /\ qpp = 0 /\ ssm = 0 /\ ls = []) /\
  sc = store_all 0 ls scal0 /\
  reads b (if is_high p then
     ue_bits cfi ++ (if cfi =? 3 then u_bits 1 sep else []) ++
     ue_bits bdl ++ ue_bits bdc ++ u_bits 1 qpp ++ u_bits 1 ssm ++ enc_slists ls
     else []) b'.
Proof.
  intros p b cfi sep bdl bdc qpp ssm sc b' W H. destruct (is_high p); cbn [cond] in H.
  - unfold ParseSpsHigh in H. inv. pairinv.
    match goal with Hs : cond (tob _) (scaling_loop _ _ _) _ _ = _ |- _ =>
      apply matrix_sound in Hs; [rename Hs into X|assumption] end.
    destruct X as (ls & L & O & E & R). exists ls. subst.
    match goal with |- context [N.of_nat (length ls) = ?r] =>
      assert (L' : N.of_nat (length ls) = r) by (rewrite L; destruct (tob _), (_ =? 3); reflexivity)
    end. fin.
  - inv. pairinv. exists []. split; [repeat split; reflexivity|]. split; [reflexivity|].
    apply reads_refl; auto.
Qed.

Lemma ParseSpsPoc1_sound : sound ParseSpsPoc1
  (fun '(dpoaz, ofnrp, ofttb, nrf, ofrf) =>
     is_u 1 dpoaz /\ is_se ofnrp /\ is_se ofttb /\ nrf <= 255 /\
     N.of_nat (length ofrf) = nrf /\ Forall is_se ofrf)
  (fun '(dpoaz, ofnrp, ofttb, nrf, ofrf) =>
     u_bits 1 dpoaz ++ se_bits ofnrp ++ se_bits ofttb ++ ue_bits nrf ++
     flat_map se_bits ofrf).
Proof.
  intros b v b' W H. unfold ParseSpsPoc1 in H. inv. 
  match goal with H : rep _ _ ?b1 = (Ok _, ?b2), W1 : bb_wf ?b1 |- _ =>
    apply (rep_sound _ _ is_se se_bits) in H; [|exact se_sound|exact W1];
    destruct H as [[L F] R] end.
  fin.
Qed.
#[export] Hint Resolve ParseSpsPoc1_sound : snd.

Lemma crop_sound : forall c cfi sep w h fmo b l r t bo b', cfi <= 3 -> sep < 2 ->
  (sep = 0 \/ cfi = 3) -> fmo < 2 -> w <= 1055 -> h <= 1055 -> bb_wf b ->
  cond c (ParseSpsCrop cfi sep w h fmo) (0, 0, 0, 0) b = (Ok (l, r, t, bo), b') ->
  (if c then l <= 16880 /\ r <= 16880 /\ t <= 16880 /\ bo <= 16880 /\
             crop_unit_x cfi sep * (l + r) < 16 * (w + 1) /\
             crop_unit_y cfi sep fmo * (t + bo) < 16 * ((2 - fmo) * (h + 1))
   else l = 0 /\ r = 0 /\ t = 0 /\ bo = 0) /\
  reads b (if c then ue_bits l ++ ue_bits r ++ ue_bits t ++ ue_bits bo else []) b'.
Proof.
  intros c cfi sep w h fmo b l r t bo b' C S D F Hw Hh W H.
  destruct c; cbn [cond] in H.
  - rewrite crop_eq in H by auto. inv. pairinv. unfold crop_check in *.
    unfold kMaxWidth, kMaxHeight, kMaxMbWidth, kMaxMbHeight in *. fin.
  - inv. pairinv. fin.
Qed.

Lemma annex_a_eq : forall s, is_u 1 (constraint_set1_flag s) -> is_u 1 (constraint_set3_flag s) ->
  is_u 1 (constraint_set4_flag s) -> is_u 1 (constraint_set5_flag s) ->
  GetProfileType (profile_idc s) (constraint_set1_flag s) (constraint_set3_flag s)
    (constraint_set4_flag s) (constraint_set5_flag s) = annex_a s.
Proof.
  intros s C1 C3 C4 C5. unfold is_u in *. change (2 ^ 1) with 2 in *.
  assert (O : forall x, x < 2 -> on x = (x =? 1)) by (intros x Hx; unfold on; lia).
  unfold annex_a, GetProfileType. rewrite !O by auto.
  generalize (constraint_set1_flag s =? 1) (constraint_set3_flag s =? 1)
    (constraint_set4_flag s =? 1) (constraint_set5_flag s =? 1). clear.
  generalize (profile_idc s). intros p c1 c3 c4 c5.
  destruct p as [|p]; [reflexivity|].
  repeat (destruct p as [p|p|]; try reflexivity).
Qed.


#[export] Hint Resolve ParseSpsCrop_good : good.
#[export] Hint Extern 1 (_ < 2) =>
  match goal with H : ?x < _ |- ?x < _ => exact H end : good.

Lemma ParseSpsData_sound : forall b v b', bb_wf b -> ParseSpsData b = (Ok v, b') ->
  exists ls, valid_sps v ls /\ reads b (enc_sps v ls) b'.
Proof.
  intros b v b' W H. unfold ParseSpsData in H. cbv zeta in H. inv.
  match goal with H : cond (has_chroma_info _) _ _ _ = _ |- _ =>
    rewrite <- high_eq in H; apply high_sound in H; [|assumption];
    destruct H as (ls & Hh & -> & Rh) end.
  match goal with H : cond _ (ParseSpsCrop _ _ _ _ _) _ _ = _ |- _ =>
    apply crop_sound in H; [destruct H as [Hc Rc]|..] end.
  exists ls. unfold valid_sps, enc_sps, crop_width, crop_height, coded_width, coded_height.
  red_sps. change on with tob.
  unfold kMaxMbWidth, kMaxMbHeight in *. fin.
  match goal with |- _ = annex_a ?s => apply (annex_a_eq s); assumption end.
  all: unfold kMaxMbWidth, kMaxMbHeight, is_u in *;
    match type of Hh with if ?c then _ else _ => destruct c end;
    repeat (match type of Hh with context [if ?c then _ else _] => destruct c eqn:? end); conj; try assumption; lia.
Qed.

Lemma matrix_complete : forall (c : bool) n (ls : list slist) s,
  length ls = (if c then n else 0%nat) -> slists_ok 0 ls -> Forall slist_readable ls ->
  parses (cond c (scaling_loop n 0 s) s) (enc_slists ls) (store_all 0 ls s).
Proof.
  intros c n ls s L O F. destruct c; cbn [cond].
  - subst n. apply (scaling_loop_complete ls 0); auto.
  - destruct ls; [|discriminate]. apply parses_ret.
Qed.

Lemma crop_complete : forall cfi sep w h fmo l r t bo, cfi <= 3 -> sep < 2 ->
  (sep = 0 \/ cfi = 3) -> fmo < 2 -> w <= 1055 -> h <= 1055 ->
  l <= 16880 -> r <= 16880 -> t <= 16880 -> bo <= 16880 ->
  crop_unit_x cfi sep * (l + r) < 16 * (w + 1) ->
  crop_unit_y cfi sep fmo * (t + bo) < 16 * ((2 - fmo) * (h + 1)) ->
  parses (ParseSpsCrop cfi sep w h fmo)
    (ue_bits l ++ ue_bits r ++ ue_bits t ++ ue_bits bo) (l, r, t, bo).
Proof.
  intros cfi sep w h fmo l r t bo C S D F Hw Hh Hl Hr Ht Hb Cx Cy b rest W E.
  rewrite crop_eq by auto. revert b rest W E.
  match goal with |- forall b rest, bb_wf b -> bb_rem b = ?c ++ rest -> ?p b = (Ok ?v, _) =>
    change (parses p c v) end.
  unfold kMaxWidth, kMaxHeight, kMaxMbWidth, kMaxMbHeight, crop_check.
  walk.
Qed.

Lemma ParseSpsPoc1_complete : forall dpoaz ofnrp ofttb nrf ofrf,
  is_u 1 dpoaz -> is_se ofnrp -> is_se ofttb -> nrf <= 255 ->
  N.of_nat (length ofrf) = nrf -> Forall is_se ofrf ->
  parses ParseSpsPoc1 (u_bits 1 dpoaz ++ se_bits ofnrp ++ se_bits ofttb ++ ue_bits nrf ++
     flat_map se_bits ofrf) (dpoaz, ofnrp, ofttb, nrf, ofrf).
Proof.
  intros dpoaz ofnrp ofttb nrf ofrf V1 V2 V3 V4 V5 V6. unfold ParseSpsPoc1.
  assert (R : parses (rep (N.to_nat nrf) ReadSignedExponentialGolomb)
                (flat_map se_bits ofrf) ofrf).
  { replace (N.to_nat nrf) with (length ofrf) by lia. apply parses_rep. intros v Hv.
    apply se_parses. rewrite Forall_forall in V6. apply V6; auto. }
  walk.
Qed.

Lemma high_complete : forall (c : bool) cfi sep bdl bdc qpp ssm ls,
  (if c then
     cfi <= 3 /\ (if cfi =? 3 then is_u 1 sep else sep = 0) /\ bdl <= 6 /\ bdc <= 6 /\
     is_u 1 qpp /\ is_u 1 ssm /\
     N.of_nat (length ls) = (if tob ssm then (if cfi =? 3 then 12 else 8) else 0) /\
     slists_ok 0 ls
   else cfi = 1 /\ sep = 0 /\ bdl = 0 /\ bdc = 0 /\ qpp = 0 /\ ssm = 0 /\ ls = []) ->
  Forall slist_readable ls ->
  parses (cond c ParseSpsHigh (1, 0, 0, 0, 0, 0, scal0))
    (if c then
     ue_bits cfi ++ (if cfi =? 3 then u_bits 1 sep else []) ++
     ue_bits bdl ++ ue_bits bdc ++ u_bits 1 qpp ++ u_bits 1 ssm ++ enc_slists ls
     else []) (cfi, sep, bdl, bdc, qpp, ssm, store_all 0 ls scal0).
Proof.
  intros c cfi sep bdl bdc qpp ssm ls V F. apply parses_cond; intros ->; conj.
  - assert (M : parses (cond (tob ssm)
                 (scaling_loop (if negb (cfi =? 3) then 8%nat else 12%nat) 0 scal0) scal0)
                 (enc_slists ls) (store_all 0 ls scal0)).
    { apply matrix_complete; auto.
      destruct (tob ssm), (cfi =? 3); cbn [negb]; lia. }
    unfold ParseSpsHigh. walk.
  - subst. reflexivity.
Qed.

Lemma ParseSpsData_complete : forall v ls, valid_sps v ls -> Forall slist_readable ls ->
  parses ParseSpsData (enc_sps v ls) v.
Proof.
  intros v ls V F.
  pose proof (annex_a_eq v) as An. destruct v. unfold valid_sps in V.
  unfold crop_width, crop_height, coded_width, coded_height in V.
  red_sps in V. red_sps in An.
  change on with tob in V. conj. specialize (An ltac:(assumption) ltac:(assumption)
    ltac:(assumption) ltac:(assumption)).
  unfold enc_sps, ParseSpsData. red_sps. change on with tob. cbv zeta.
  rewrite <- An in *. clear An. rewrite high_eq in *. subst.
  match goal with H : if has_chroma_info _ then _ else _ |- _ =>
    pose proof (high_complete _ _ _ _ _ _ _ _ H F) as HH; rename H into Hh end.
  assert (Rng : chroma_format_idc <= 3 /\ separate_colour_plane_flag < 2 /\
    (separate_colour_plane_flag = 0 \/ chroma_format_idc = 3)).
  { destruct (has_chroma_info _); conj; [|subst; lia].
    destruct (chroma_format_idc =? 3) eqn:E3; unfold is_u in *; lia. }
  destruct Rng as (R1 & R2 & R3). clear Hh.
  assert (PC : parses (cond (tob frame_cropping_flag)
      (ParseSpsCrop chroma_format_idc separate_colour_plane_flag pic_width_in_mbs_minus1
         pic_height_in_map_units_minus1 frame_mbs_only_flag) (0, 0, 0, 0))
     (if tob frame_cropping_flag then
       ue_bits frame_crop_left_offset ++ ue_bits frame_crop_right_offset ++
       ue_bits frame_crop_top_offset ++ ue_bits frame_crop_bottom_offset else [])
     (frame_crop_left_offset, frame_crop_right_offset, frame_crop_top_offset,
      frame_crop_bottom_offset)).
  { apply parses_cond; intros C; rewrite C in *; conj; [|subst; reflexivity].
    apply crop_complete; auto. }
  assert (PP : parses (cond (pic_order_cnt_type =? 1) ParseSpsPoc1 (0, 0%Z, 0%Z, 0, []))
     (if pic_order_cnt_type =? 1 then
       u_bits 1 delta_pic_order_always_zero_flag ++ se_bits offset_for_non_ref_pic ++
       se_bits offset_for_top_to_bottom_field ++
       ue_bits num_ref_frames_in_pic_order_cnt_cycle ++
       flat_map se_bits offset_for_ref_frame else [])
     (delta_pic_order_always_zero_flag, offset_for_non_ref_pic,
      offset_for_top_to_bottom_field, num_ref_frames_in_pic_order_cnt_cycle,
      offset_for_ref_frame)).
  { apply parses_cond; intros C; rewrite C in *; conj; [|subst; reflexivity].
    apply ParseSpsPoc1_complete; auto. }
  unfold kMaxMbWidth, kMaxMbHeight in *.
  walk.
Qed.

(** ** The whole SPS: trailing bits are looked at, their result ignored *)
Lemma rbsp_trailing_bits_good : good rbsp_trailing_bits.
Proof.
  intros b W. destruct (rbsp_trailing_bits_spec b W) as [[E ->]|[_ (m & L & ->)]]; [|eauto].
  exists (tb_len b). split; [|auto].
  assert (L : length (firstn (tb_len b) (bb_rem b)) = length (stop_bits (tb_len b - 1)))
    by now rewrite E.
  rewrite firstn_length in L. unfold stop_bits in L. cbn [length] in L.
  rewrite repeat_length in L. unfold tb_len in *. destruct W as (_ & _ & _ & _). lia.
Qed.
#[export] Hint Resolve rbsp_trailing_bits_good good_attempt : good.
Lemma good_ignored : forall A (p : P A), good p -> good (ignored p).
Proof. intros. unfold ignored. good_tac. Qed.
#[export] Hint Resolve good_ignored : good.
Lemma ignored_ok : forall A (p : P A) b, good p -> bb_wf b ->
  exists m, (m <= length (bb_rem b))%nat /\ ignored p b = (Ok tt, bb_adv b m).
Proof.
  intros A p b G W. specialize (G b W). unfold ignored, attempt, sbind, sret.
  destruct (p b) as [[a| |k| |] b1]; try contradiction; destruct G as (m & L & ->); eauto.
Qed.
(** [p], then a lenient look at the trailing bits. *)
Lemma trailing_inv : forall A (p : P A) b v b', good p -> bb_wf b ->
  (s <- p ;; ignored rbsp_trailing_bits ;;; sret s)%m b = (Ok v, b') ->
  exists b1 m, p b = (Ok v, b1) /\ (m <= length (bb_rem b1))%nat /\ b' = bb_adv b1 m.
Proof.
  intros A p b v b' G W H. apply sbind_inv in H. destruct H as (s & b1 & H1 & H).
  apply sbind_inv in H. destruct H as (u & b2 & H2 & H). inv1.
  destruct (ignored_ok _ rbsp_trailing_bits b1 rbsp_trailing_bits_good) as (m & L & E).
  { eapply good_wf; eauto. }
  rewrite E in H2. inversion H2; subst. eauto.
Qed.
Lemma trailing_intro : forall A (p : P A) b v b1, good p -> bb_wf b -> p b = (Ok v, b1) ->
  exists m, (m <= length (bb_rem b1))%nat /\
  (s <- p ;; ignored rbsp_trailing_bits ;;; sret s)%m b = (Ok v, bb_adv b1 m).
Proof.
  intros A p b v b1 G W H.
  destruct (ignored_ok _ rbsp_trailing_bits b1 rbsp_trailing_bits_good) as (m & L & E).
  { eapply good_wf; eauto. }
  exists m. split; [auto|]. unfold sbind at 1. rewrite H. unfold sbind. rewrite E. reflexivity.
Qed.
Lemma trailing_null : forall A (p : P A) b b1, p b = (Null, b1) ->
  (s <- p ;; ignored rbsp_trailing_bits ;;; sret s)%m b = (Null, b1).
Proof. intros A p b b1 H. unfold sbind at 1. rewrite H. reflexivity. Qed.

Lemma ParseSps_good : good ParseSps.
Proof. unfold ParseSps. good_tac. Qed.
#[export] Hint Resolve ParseSps_good : good.

(** ** Resolution *)
Lemma chk_i32_ok : forall z, (- 2 ^ 31 <= z < 2 ^ 31)%Z -> chk_i32 z = Ok z.
Proof. intros z H. unfold chk_i32. replace (_ && _) with true by lia. reflexivity. Qed.
Lemma to_i32_small : forall n, n < 2 ^ 31 -> to_i32 n = Z.of_N n.
Proof. intros n H. unfold to_i32.
  replace (n <? 2 ^ 31) with true by lia. reflexivity. Qed.

Lemma getResolution_spec : forall s ls, valid_sps s ls ->
  getResolution s =
  Ok (Z.of_N (coded_width s - crop_width s), Z.of_N (coded_height s - crop_height s)) /\
  crop_width s < coded_width s /\ crop_height s < coded_height s.
Proof.
  intros s ls V.
  assert (B : chroma_format_idc s <= 3 /\ separate_colour_plane_flag s < 2 /\
     (separate_colour_plane_flag s = 0 \/ chroma_format_idc s = 3) /\
     frame_mbs_only_flag s < 2 /\ pic_width_in_mbs_minus1 s <= 1055 /\
     pic_height_in_map_units_minus1 s <= 1055 /\
     frame_crop_left_offset s <= 16880 /\ frame_crop_right_offset s <= 16880 /\
     frame_crop_top_offset s <= 16880 /\ frame_crop_bottom_offset s <= 16880 /\
     crop_width s < coded_width s /\ crop_height s < coded_height s).
  { unfold valid_sps in V. conj. unfold is_u in *.
    assert (S3 : chroma_format_idc s <= 3 /\ separate_colour_plane_flag s < 2 /\
     (separate_colour_plane_flag s = 0 \/ chroma_format_idc s = 3)).
    { destruct (is_high _); conj; [destruct (_ =? 3) eqn:?|]; lia. }
    conj. do 3 (split; [assumption|]).
    split; [change 2 with (2 ^ 1); assumption|]. do 2 (split; [assumption|]).
    destruct (on (frame_cropping_flag s)); conj; [auto 10|].
    unfold crop_width, crop_height, coded_width, coded_height.
    repeat match goal with H : frame_crop_left_offset s = 0 |- _ => rewrite H in *; clear H
    | H : frame_crop_right_offset s = 0 |- _ => rewrite H in *; clear H
    | H : frame_crop_top_offset s = 0 |- _ => rewrite H in *; clear H
    | H : frame_crop_bottom_offset s = 0 |- _ => rewrite H in *; clear H end.
    rewrite !N.mul_0_r. repeat split; nia. }
  destruct B as (B1 & B2 & B3 & B4 & B5 & B6 & B7 & B8 & B9 & B10 & B11 & B12).
  split; [|auto]. revert B11 B12. clear V.
  unfold getResolution, coded_width, crop_width, coded_height, crop_height.
  rewrite unit_y, unit_x by auto.
  pose proof (unit_x_le (chroma_format_idc s) (separate_colour_plane_flag s)) as Ux.
  pose proof (unit_y_le (chroma_format_idc s) (separate_colour_plane_flag s)
     (frame_mbs_only_flag s) B4) as Uy.
  set (ux := crop_unit_x _ _) in *. set (uy := crop_unit_y _ _ _) in *. clearbody ux uy.
  clear B1 B2 B3.
  set (w := pic_width_in_mbs_minus1 s) in *. set (h := pic_height_in_map_units_minus1 s) in *.
  set (fmo := frame_mbs_only_flag s) in *.
  set (l := frame_crop_left_offset s) in *. set (r := frame_crop_right_offset s) in *.
  set (t := frame_crop_top_offset s) in *. set (bo := frame_crop_bottom_offset s) in *.
  clearbody w h fmo l r t bo. intros B11 B12. cbv zeta. unfold rbind.
  assert (Hl : (Z.of_N ux * Z.of_N l <= 2 * 16880)%Z) by nia.
  assert (Hr : (Z.of_N ux * Z.of_N r <= 2 * 16880)%Z) by nia.
  assert (Ht : (Z.of_N uy * Z.of_N t <= 4 * 16880)%Z) by nia.
  assert (Hb : (Z.of_N uy * Z.of_N bo <= 4 * 16880)%Z) by nia.
  assert (Hh : (0 <= (2 - Z.of_N fmo) * Z.of_N (h + 1) <= 2 * 1056)%Z) by nia.
  rewrite (u32_small (w + 1)), (u32_small (h + 1)) by lia.
  rewrite (u32_small (16 * _)) by lia.
  rewrite !to_i32_small by lia.
  rewrite (chk_i32_ok (2 - _)) by lia; cbv beta iota.
  rewrite (chk_i32_ok ((2 - _) * _)) by lia; cbv beta iota.
  rewrite (chk_i32_ok (16 * _)) by lia; cbv beta iota.
  rewrite (chk_i32_ok (Z.of_N ux * Z.of_N l)) by lia; cbv beta iota.
  rewrite (chk_i32_ok (Z.of_N ux * Z.of_N r)) by lia; cbv beta iota.
  rewrite (chk_i32_ok (Z.of_N ux * _ + _)) by lia; cbv beta iota.
  rewrite (chk_i32_ok (_ - (Z.of_N ux * _ + _))) by lia; cbv beta iota.
  rewrite (chk_i32_ok (Z.of_N uy * Z.of_N t)) by lia; cbv beta iota.
  rewrite (chk_i32_ok (Z.of_N uy * Z.of_N bo)) by lia; cbv beta iota.
  rewrite (chk_i32_ok (Z.of_N uy * _ + _)) by lia; cbv beta iota.
  rewrite (chk_i32_ok (_ - (Z.of_N uy * _ + _))) by lia; cbv beta iota.
  assert (Ew : (Z.of_N (16 * (w + 1)) - (Z.of_N ux * Z.of_N l + Z.of_N ux * Z.of_N r) =
      Z.of_N (16 * (w + 1) - ux * (l + r)))%Z) by nia.
  assert (Eh : (16 * ((2 - Z.of_N fmo) * Z.of_N (h + 1)) -
      (Z.of_N uy * Z.of_N t + Z.of_N uy * Z.of_N bo) =
      Z.of_N (16 * ((2 - fmo) * (h + 1)) - uy * (t + bo)))%Z).
  { rewrite N2Z.inj_sub by lia. rewrite !N2Z.inj_mul, N2Z.inj_sub, !N2Z.inj_add by lia. ring. }
  rewrite Ew, Eh.
  replace (_ || _) with false; [reflexivity|].
  symmetry. apply orb_false_iff. split; lia.
Qed.
