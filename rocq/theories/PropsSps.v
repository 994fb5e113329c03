(** Properties C24-C28 and C49: sequence parameter sets. *)
From Coq Require Import NArith ZArith List Bool Lia ZifyBool ZifyNat ZifyN.
From Verif Require Import SpecBits Base BitBuffer SpecReader BitsLemmas BitBufferProofs ReaderProofs
  Rbsp SpecRbsp RbspProofs Parser SpecSyntax ParserProofs TypesSps Vui SpecVui VuiProofs
  ScalingList SpecScaling ScalingProofs Sps SpecSps SpsProofs.
Import ListNotations.
Open Scope N_scope.
Ltac Zify.zify_post_hook ::= Z.div_mod_to_equations.

(** C27: HRD and VUI decoding invert the syntax of Annex E. *)
Theorem C27_hrd_exact : decodes ParseHrdParameters valid_hrd enc_hrd.
Proof.
  apply decodes_of; [apply ParseHrdParameters_good|apply ParseHrdParameters_sound
    |apply ParseHrdParameters_complete].
Qed.
Theorem C27_vui_exact : decodes ParseVuiParameters valid_vui enc_vui.
Proof.
  apply decodes_of; [apply ParseVuiParameters_good|apply ParseVuiParameters_sound
    |apply ParseVuiParameters_complete].
Qed.
(** Closed validity statements. *)
Ltac valid_tac :=
  repeat (hnf; match goal with
  | |- _ /\ _ => split
  | |- Forall ?P ?l => let l' := eval vm_compute in l in
      change (Forall P l'); constructor
  | |- _ -> False => let H := fresh in intro H; vm_compute in H; discriminate H
  | |- _ = _ -> _ = _ => let H := fresh in intro H; first [discriminate H|vm_compute; reflexivity]
  | |- True => exact I
  | |- _ = _ => vm_compute; reflexivity
  end).
Definition ex_hrd : hrd := mkhrd 1 4 6 [(1249, 19999, 0); (3, 7, 1)] 23 23 15 24.
Definition ex_vui : vui :=
  mkvui 1 255 40 33 1 0 1 5 1 1 9 16 9 1 1 1 1 1001 60000 1 1 (Some ex_hrd) 0 None 0 1 1
    1 2 1 11 11 0 4.
Definition fresh (l : list bool) : bb := mkbb (octets l) 0 0 false.
Lemma fresh_reachable : forall l, N.of_nat (length (octets l)) < 2 ^ 61 -> 
  bytes_ok (octets l) -> reachable (fresh l).
Proof. intros l H B. apply (reach_new false (octets l)); auto. Qed.
Example C27_ex_valid : valid_vui ex_vui.
Proof. valid_tac. Qed.
Example C27_ex : fst (ParseVuiParameters (fresh (enc_vui ex_vui ++ stop_bits 7))) = Ok ex_vui.
Proof. vm_compute. reflexivity. Qed.
Example C27_rejects_cpb_cnt :
  fst (ParseHrdParameters (fresh (ue_bits 32 ++ repeat true 200))) = Null.
Proof. vm_compute. reflexivity. Qed.

(** C28: scaling lists.  [scale_full 8 n ds]: [ds] is a complete delta_scale sequence for a
    list of [n] entries; the routine turns it into the standard's list.  [v] and [f] are
    the vectors passed by reference. *)
Theorem C28_scaling_list_standard : forall i n v f d ds b rest, reachable b ->
  scale_full 8 n ds -> bb_rem b = flat_map se_bits ds ++ rest ->
  exists b', scaling_list (N.of_nat i) v n f d b =
      (Ok (true, (scale_vals 8 n ds ++ skipn n v,
                  match ds with [] => f | _ => put i (default_flag ds) f end,
                  last ds d)), b') /\
    consumed b (flat_map se_bits ds) b'.
Proof.
  intros i n v f d ds b rest R F E. apply reachable_wf in R.
  pose proof (scaling_list_complete i v n f d (FullList ds) F I) as C. cbn beta iota in C.
  destruct (parses_consumed _ _ _ _ _ _ C R E) as (b' & H & Cs & _).
  exists b'. split; [|auto]. rewrite H. unfold overlay.
  replace (length (scale_vals 8 n ds)) with n; [reflexivity|].
  clear - F. revert n F. generalize 8. induction ds as [|x t IH]; intros l [|n] F;
    cbn [scale_full scale_vals length] in *; try contradiction; auto.
  destruct F as [_ F]. destruct (next l x =? 0).
  - rewrite repeat_length. reflexivity.
  - cbn [length]. f_equal. apply IH; auto.
Qed.
(** A complete sequence has at most [n] deltas and gives [n] values below 256, the first
    ones being the running sums and the rest repeating the last one. *)
Theorem C28_scaling_list_shape : forall n ds, scale_full 8 n ds ->
  (length ds <= n)%nat /\ length (scale_vals 8 n ds) = n /\
  Forall (fun x => x < 256) (scale_vals 8 n ds).
Proof.
  intros n ds F. assert (L : 8 < 256) by lia. revert L F. generalize 8 at 1 2 3 4. intros l.
  revert n l. induction ds as [|x t IH]; intros [|n] l L F;
    cbn [scale_full scale_vals length] in *; try contradiction; auto.
  destruct F as [_ F]. destruct (next l x =? 0).
  - subst t. rewrite repeat_length. cbn [length]. split; [lia|]. split; [auto|].
    apply Forall_forall. intros y Hy. apply (repeat_spec (S n)) in Hy. subst; auto.
  - destruct (IH n (next l x) (next_lt l x) F) as (A & B & C). cbn [length].
    split; [lia|]. split; [lia|]. constructor; auto. apply next_lt.
Qed.
(** A delta outside -128..127 is rejected. *)
Theorem C28_scaling_list_rejects : forall i n v f d ds x b rest, reachable b ->
  scale_open 8 n ds -> (Z.abs x <= 2 ^ 31 - 1)%Z -> (x < -128 \/ 127 < x)%Z ->
  bb_rem b = flat_map se_bits ds ++ se_bits x ++ rest ->
  exists t b', scaling_list (N.of_nat i) v n f d b = (Ok (false, t), b').
Proof.
  intros i n v f d ds x b rest R F Rx Nx E. apply reachable_wf in R. rewrite app_assoc in E.
  assert (O : slist_ok n (BadDelta ds x)).
  { cbn [slist_ok]. split; [auto|]. split; [auto|]. unfold delta_ok. lia. }
  pose proof (scaling_list_complete i v n f d (BadDelta ds x) O I) as C. cbn beta iota in C.
  destruct (parses_consumed _ _ _ _ _ _ C R E) as (b' & H & Cs & _). eauto.
Qed.
(** Whatever the bits are, the routine stops without crashing. *)
Theorem C28_scaling_list_safe : forall i n v f d, never_crashes (scaling_list i v n f d).
Proof. intros. apply never_crashes_of. apply scaling_list_good. Qed.
(** The caller ignores the rejection: an SPS with delta_scale = 200 is accepted. *)
Definition bad_scaling_sps : list bool :=
  u_bits 8 100 ++ u_bits 8 0 ++ u_bits 8 30 ++ ue_bits 0 ++ ue_bits 1 ++ ue_bits 0 ++
  ue_bits 0 ++ u_bits 1 0 ++ u_bits 1 1 ++ (u_bits 1 1 ++ se_bits 200) ++ u_bits 7 0 ++
  ue_bits 0 ++ ue_bits 2 ++ ue_bits 1 ++ u_bits 1 0 ++ ue_bits 10 ++ ue_bits 8 ++
  u_bits 1 1 ++ u_bits 1 1 ++ u_bits 1 0 ++ u_bits 1 0 ++ stop_bits 7.
Theorem C28_bad_delta_accepted_refuted : exists b s,
  reachable b /\ fst (ParseSps b) = Ok s /\ delta_scale (sps_scaling s) = 200%Z.
Proof.
  exists (fresh bad_scaling_sps). eexists. split; [|split; [vm_compute; reflexivity|reflexivity]].
  apply fresh_reachable; [reflexivity|]. repeat constructor.
Qed.
(** The lists of an SPS share two vectors: a second 4x4 list overwrites the first. *)
Theorem C28_lists_overwritten_refuted : forall s ds1 ds2,
  scale_full 8 16 ds1 -> scale_full 8 16 ds2 ->
  ScalingList4x4 (store_all 0 [FullList ds1; FullList ds2] s) =
  ScalingList4x4 (store_all 0 [FullList ds2] s).
Proof.
  intros s ds1 ds2 F1 F2. cbn [store_all store]. unfold store_list. cbv zeta.
  change (size_of 0) with 16%nat. change (size_of 1) with 16%nat.
  change ((0 <? 6)%nat) with true. change ((1 <? 6)%nat) with true. cbv iota.
  cbn [ScalingList4x4]. unfold overlay.
  destruct (C28_scaling_list_shape 16 ds1 F1) as (_ & L1 & _).
  destruct (C28_scaling_list_shape 16 ds2 F2) as (_ & L2 & _).
  rewrite L1, L2. f_equal. rewrite <- L1 at 1. apply skipn_app_exact.
Qed.
(** A list of a rising and then constant part: 9, 11, 11, ... *)
Example C28_ex : scale_full 8 16 [1; 2; -11]%Z /\
  scale_vals 8 16 [1; 2; -11]%Z = 9 :: repeat 11 15 /\
  scale_full 8 16 [-8]%Z /\ default_flag [-8]%Z = 1 /\
  scale_open 8 16 [1; 2]%Z.
Proof. valid_tac. Qed.

(** C24: SPS decoding.  [ls] is the scaling matrix syntax of the SPS; [slist_std] says all
    its lists are the standard's. *)
Theorem C24_sps_data_round_trip : forall s ls b rest, reachable b ->
  valid_sps s ls -> Forall slist_std ls -> bb_rem b = enc_sps s ls ++ rest ->
  exists b', ParseSpsData b = (Ok s, b') /\ consumed b (enc_sps s ls) b' /\ bb_rem b' = rest.
Proof.
  intros s ls b rest R V F E. apply reachable_wf in R.
  eapply parses_consumed; eauto. apply ParseSpsData_complete; auto.
  eapply Forall_impl; [|exact F]. intros [] H; cbn in *; auto.
Qed.
(** The whole RBSP: any data may follow. *)
Theorem C24_sps_round_trip : forall s ls b rest, reachable b ->
  valid_sps s ls -> Forall slist_std ls -> bb_rem b = enc_sps s ls ++ rest ->
  exists b', ParseSps b = (Ok s, b').
Proof.
  intros s ls b rest R V F E.
  destruct (C24_sps_data_round_trip s ls b rest R V F E) as (b1 & H & _).
  destruct (trailing_intro _ ParseSpsData b s b1 ParseSpsData_good (reachable_wf _ R) H)
    as (m & _ & E1). eauto.
Qed.
(** Everything accepted is the decoding of its bits. *)
Theorem C24_sps_accepts_only_encodings : forall b s b', reachable b ->
  ParseSpsData b = (Ok s, b') ->
  exists ls, valid_sps s ls /\ consumed b (enc_sps s ls) b'.
Proof.
  intros b s b' R H. apply reachable_wf in R.
  destruct (ParseSpsData_sound b s b' R H) as (ls & V & Rd).
  exists ls. split; [auto|apply reads_consumed; auto].
Qed.
Theorem C24_sps_safe : never_crashes ParseSpsData /\ never_crashes ParseSps.
Proof. split; apply never_crashes_of; auto with good. Qed.

Definition ex_sps : sps :=
  mksps 100 0 1 0 0 0 1 0 31 3 3 1 2 1 0 1
    (mkscal [1;0;0;0;0;0;1;0;0;0;0;0] (9 :: repeat 11 15) [1] (repeat 8 64) [] (-8))
    4 1 0 1 (-3) 5 2 [7; -9]%Z 4 1 119 33 0 1 1 1 0 4 1 3 1 (Some ex_vui) CONSTRAINED_HIGH.
Definition ex_sps_lists : list slist :=
  [FullList [1; 2; -11]%Z; NoList; NoList; NoList; NoList; NoList; FullList [-8]%Z;
   NoList; NoList; NoList; NoList; NoList].
Example C24_ex_valid : valid_sps ex_sps ex_sps_lists /\ Forall slist_std ex_sps_lists.
Proof. valid_tac. Qed.
Example C24_ex : fst (ParseSps (fresh (enc_sps ex_sps ex_sps_lists ++ stop_bits 7))) = Ok ex_sps.
Proof. vm_compute. reflexivity. Qed.

(** C25: ranges of the accepted fields (H.264 7.4.2.1.1); for the picture size the limit is
    the implementation's. *)
Definition sps_in_range (s : sps) : Prop :=
  profile_idc s <= 255 /\ level_idc s <= 255 /\ seq_parameter_set_id s <= 31 /\
  chroma_format_idc s <= 3 /\ separate_colour_plane_flag s <= 1 /\
  (separate_colour_plane_flag s = 1 -> chroma_format_idc s = 3) /\
  bit_depth_luma_minus8 s <= 6 /\ bit_depth_chroma_minus8 s <= 6 /\
  qpprime_y_zero_transform_bypass_flag s <= 1 /\ seq_scaling_matrix_present_flag s <= 1 /\
  log2_max_frame_num_minus4 s <= 12 /\ pic_order_cnt_type s <= 2 /\
  log2_max_pic_order_cnt_lsb_minus4 s <= 12 /\
  delta_pic_order_always_zero_flag s <= 1 /\
  (- 2 ^ 31 + 1 <= offset_for_non_ref_pic s <= 2 ^ 31 - 1)%Z /\
  (- 2 ^ 31 + 1 <= offset_for_top_to_bottom_field s <= 2 ^ 31 - 1)%Z /\
  num_ref_frames_in_pic_order_cnt_cycle s <= 255 /\
  N.of_nat (length (offset_for_ref_frame s)) = num_ref_frames_in_pic_order_cnt_cycle s /\
  Forall (fun z => - 2 ^ 31 + 1 <= z <= 2 ^ 31 - 1)%Z (offset_for_ref_frame s) /\
  max_num_ref_frames s <= 16 /\
  pic_width_in_mbs_minus1 s <= 1055 /\ pic_height_in_map_units_minus1 s <= 1055 /\
  frame_mbs_only_flag s <= 1 /\ mb_adaptive_frame_field_flag s <= 1 /\
  crop_width s < coded_width s /\ crop_height s < coded_height s /\
  (forall v, vui_parameters s = Some v -> valid_vui v).
Theorem C25_sps_in_range : forall b s b', reachable b -> ParseSps b = (Ok s, b') ->
  sps_in_range s.
Proof.
  intros b s b' R H. apply reachable_wf in R.
  destruct (trailing_inv _ ParseSpsData b s b' ParseSpsData_good R H) as (b1 & m & H1 & _).
  destruct (ParseSpsData_sound b s b1 R H1) as (ls & V & _).
  destruct (getResolution_spec s ls V) as (_ & G1 & G2).
  unfold valid_sps in V. conj. unfold is_u in *. unfold sps_in_range.
  assert (Fa : Forall (fun z => - 2 ^ 31 + 1 <= z <= 2 ^ 31 - 1)%Z (offset_for_ref_frame s)).
  { destruct (pic_order_cnt_type s =? 1); conj.
    - match goal with H : Forall is_se _ |- _ => eapply Forall_impl; [|exact H] end.
      unfold is_se. intros; lia.
    - match goal with H : offset_for_ref_frame s = [] |- _ => rewrite H end. constructor. }
  assert (Vu : forall v, vui_parameters s = Some v -> valid_vui v).
  { intros v E. match goal with H : valid_opt _ _ _ |- _ => rename H into Hv end.
    unfold valid_opt in Hv. destruct (on (vui_parameters_present_flag s)).
    - rewrite E in Hv. exact Hv.
    - congruence. }
  assert (Hh : chroma_format_idc s <= 3 /\ separate_colour_plane_flag s <= 1 /\
    (separate_colour_plane_flag s = 1 -> chroma_format_idc s = 3) /\
    bit_depth_luma_minus8 s <= 6 /\ bit_depth_chroma_minus8 s <= 6 /\
    qpprime_y_zero_transform_bypass_flag s <= 1 /\ seq_scaling_matrix_present_flag s <= 1).
  { destruct (is_high (profile_idc s)); conj;
      [destruct (chroma_format_idc s =? 3) eqn:?|]; repeat split; lia. }
  assert (Hp : delta_pic_order_always_zero_flag s <= 1 /\
    (- 2 ^ 31 + 1 <= offset_for_non_ref_pic s <= 2 ^ 31 - 1)%Z /\
    (- 2 ^ 31 + 1 <= offset_for_top_to_bottom_field s <= 2 ^ 31 - 1)%Z /\
    num_ref_frames_in_pic_order_cnt_cycle s <= 255 /\
    N.of_nat (length (offset_for_ref_frame s)) = num_ref_frames_in_pic_order_cnt_cycle s).
  { unfold is_se in *. destruct (pic_order_cnt_type s =? 1); conj; [repeat split; lia|].
    match goal with H : offset_for_ref_frame s = [] |- _ => rewrite H in *; cbn [length] end.
    repeat split; lia. }
  assert (Hl : log2_max_pic_order_cnt_lsb_minus4 s <= 12)
    by (destruct (pic_order_cnt_type s =? 0); lia).
  assert (Hm : mb_adaptive_frame_field_flag s <= 1)
    by (destruct (negb (on (frame_mbs_only_flag s))); lia).
  conj.
  repeat match goal with H : if _ then _ else _ |- _ => clear H end.
  repeat match goal with
  | |- _ /\ _ => split
  | H : ?P |- ?P => exact H
  | |- _ => lia
  end.
Qed.
(** Out-of-range fields are refused. *)
Example C25_ex : fst (ParseSps (fresh (u_bits 8 66 ++ u_bits 8 0 ++ u_bits 8 30 ++
  ue_bits 32 ++ repeat true 100))) = Null.
Proof. vm_compute. reflexivity. Qed.

(** C26: resolution of accepted parameter sets. *)
Theorem C26_resolution : forall b s b', reachable b -> ParseSps b = (Ok s, b') ->
  exists w h, getResolution s = Ok (w, h) /\
  w = (Z.of_N (coded_width s) - Z.of_N (crop_width s))%Z /\
  h = (Z.of_N (coded_height s) - Z.of_N (crop_height s))%Z /\
  (1 <= w <= Z.of_N (coded_width s))%Z /\ (1 <= h <= Z.of_N (coded_height s))%Z.
Proof.
  intros b s b' R H. apply reachable_wf in R.
  destruct (trailing_inv _ ParseSpsData b s b' ParseSpsData_good R H) as (b1 & m & H1 & _).
  destruct (ParseSpsData_sound b s b1 R H1) as (ls & V & _).
  destruct (getResolution_spec s ls V) as (G & G1 & G2).
  rewrite G. do 2 eexists. split; [reflexivity|]. lia.
Qed.
Example C26_ex : getResolution ex_sps = Ok (1916, 1080)%Z /\
  coded_width ex_sps = 1920 /\ coded_height ex_sps = 1088.
Proof. vm_compute. auto. Qed.

(** C49: profile from profile_idc and the constraint flags, each flag being a bit. *)
Theorem C49_profile : forall s, constraint_set1_flag s <= 1 -> constraint_set3_flag s <= 1 ->
  constraint_set4_flag s <= 1 -> constraint_set5_flag s <= 1 ->
  GetProfileType (profile_idc s) (constraint_set1_flag s) (constraint_set3_flag s)
    (constraint_set4_flag s) (constraint_set5_flag s) = annex_a s.
Proof.
  intros. apply annex_a_eq; unfold is_u; change (2 ^ 1) with 2; lia.
Qed.
(** And it is what an accepted SPS reports. *)
Theorem C49_profile_of_accepted : forall b s b', reachable b -> ParseSps b = (Ok s, b') ->
  profile_type s = annex_a s.
Proof.
  intros b s b' R H. apply reachable_wf in R.
  destruct (trailing_inv _ ParseSpsData b s b' ParseSpsData_good R H) as (b1 & m & H1 & _).
  destruct (ParseSpsData_sound b s b1 R H1) as (ls & V & _).
  unfold valid_sps in V. conj. assumption.
Qed.
Example C49_ex : annex_a ex_sps = CONSTRAINED_HIGH /\
  GetProfileType 66 1 0 0 0 = CONSTRAINED_BASELINE /\ GetProfileType 110 0 1 1 0 = HIGH_10_INTRA.
Proof. vm_compute. auto. Qed.

Print Assumptions C27_hrd_exact.
Print Assumptions C27_vui_exact.
Print Assumptions C28_scaling_list_standard.
Print Assumptions C28_scaling_list_shape.
Print Assumptions C28_scaling_list_rejects.
Print Assumptions C28_scaling_list_safe.
Print Assumptions C28_bad_delta_accepted_refuted.
Print Assumptions C28_lists_overwritten_refuted.
Print Assumptions C24_sps_data_round_trip.
Print Assumptions C24_sps_round_trip.
Print Assumptions C24_sps_accepts_only_encodings.
Print Assumptions C24_sps_safe.
Print Assumptions C25_sps_in_range.
Print Assumptions C26_resolution.
Print Assumptions C49_profile.
Print Assumptions C49_profile_of_accepted.
