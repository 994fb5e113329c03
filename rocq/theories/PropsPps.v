(** Property C29: picture parameter sets. *)
From Coq Require Import NArith ZArith List Bool Lia ZifyBool ZifyNat ZifyN.
From Verif Require Import SpecBits Base BitBuffer SpecReader BitsLemmas BitBufferProofs ReaderProofs
  Rbsp SpecRbsp RbspProofs Parser SpecSyntax ParserProofs TypesSps Vui SpecVui VuiProofs
  ScalingList SpecScaling ScalingProofs Sps SpecSps SpsProofs PropsSps
  TypesPps Pps SpecPps PpsProofs.
Import ListNotations.
Open Scope N_scope.
Ltac Zify.zify_post_hook ::= Z.div_mod_to_equations.

(** [ext] is the scaling matrix syntax of the High profile part, None when absent. *)
Definition ext_std (ext : option (list slist)) : Prop :=
  match ext with Some ls => Forall slist_std ls | None => True end.

(** C29: a PPS followed by its trailing bits decodes to itself. *)
Theorem C29_pps_round_trip : forall cfi p ext k b, reachable b ->
  valid_pps cfi p ext -> ext_std ext -> (k <= 7)%nat ->
  bb_rem b = enc_pps p ext ++ stop_bits k ->
  exists b', ParsePps cfi b = (Ok p, b').
Proof.
  intros cfi p ext k b R V F K E. apply reachable_wf in R.
  assert (G : gives (ParsePps cfi) (enc_pps p ext) (stop_bits k) p); [apply ParsePps_complete; auto|eauto].
  destruct ext as [ls|].
  - split.
    + eapply Forall_impl; [|exact F]. intros [] Hs; cbn in *; auto.
    + intros A. apply ended_iff in A. rewrite not_ended_app in A; [discriminate| |auto].
      unfold enc_pps_ext. discriminate.
  - right. eauto.
Qed.
(** Everything accepted is the decoding of its bits, and the part after
    redundant_pic_cnt_present_flag is present exactly when data remains there. *)
Theorem C29_pps_accepts_only_encodings : forall cfi p b b', reachable b ->
  ParsePps cfi b = (Ok p, b') ->
  exists ext b1, valid_pps cfi p ext /\ consumed b (enc_pps p ext) b1 /\
    bb_bytes b' = bb_bytes b /\ (bb_pos b1 <= bb_pos b')%nat /\
    match ext with
    | None => at_end (bb_rem b1)
    | Some ls => ~ at_end (enc_pps_ext p ls ++ bb_rem b1)
    end.
Proof.
  intros cfi p b b' R H. apply reachable_wf in R.
  destruct (ParsePps_sound cfi b p b' R H) as (ext & b1 & V & Rd & (m & Lm & ->) & X).
  exists ext, b1. split; [auto|]. split; [apply reads_consumed; auto|].
  assert (W1 : bb_wf b1) by (eapply reads_wf; eauto).
  pose proof (reads_consumed _ _ _ Rd) as (_ & Eb & _ & _ & _).
  split; [|split; [|exact X]].
  - rewrite <- Eb. reflexivity.
  - rewrite bb_adv_pos. lia.
Qed.
(** Ranges of the accepted fields. *)
Definition pps_in_range (p : pps) : Prop :=
  pps_pic_parameter_set_id p <= 255 /\ pps_seq_parameter_set_id p <= 31 /\
  pps_entropy_coding_mode_flag p <= 1 /\
  pps_bottom_field_pic_order_in_frame_present_flag p <= 1 /\
  pps_num_slice_groups_minus1 p <= 7 /\ pps_slice_group_map_type p <= 6 /\
  pps_slice_group_change_direction_flag p <= 1 /\
  pps_slice_group_change_rate_minus1 p <= 2 ^ 32 - 2 /\
  pps_pic_size_in_map_units_minus1 p <= 139263 /\
  N.of_nat (length (pps_run_length_minus1 p)) <= 8 /\
  N.of_nat (length (pps_rects p)) <= 7 /\
  N.of_nat (length (pps_slice_group_id p)) <= 139264 /\
  Forall (fun g => g <= 7) (pps_slice_group_id p) /\
  pps_num_ref_idx_l0_default_active_minus1 p <= 31 /\
  pps_num_ref_idx_l1_default_active_minus1 p <= 31 /\
  pps_weighted_pred_flag p <= 1 /\ pps_weighted_bipred_idc p <= 3 /\
  pps_deblocking_filter_control_present_flag p <= 1 /\
  pps_constrained_intra_pred_flag p <= 1 /\ pps_redundant_pic_cnt_present_flag p <= 1 /\
  pps_transform_8x8_mode_flag p <= 1 /\ pps_pic_scaling_matrix_present_flag p <= 1.
Theorem C29_pps_in_range : forall cfi p b b', reachable b ->
  ParsePps cfi b = (Ok p, b') -> pps_in_range p.
Proof.
  intros cfi p b b' R H. apply reachable_wf in R.
  destruct (ParsePps_sound cfi b p b' R H) as (ext & b1 & V & _).
  unfold valid_pps, valid_slice_groups in V. cbv zeta in V. conj. unfold pps_in_range.
  assert (X : pps_transform_8x8_mode_flag p <= 1 /\ pps_pic_scaling_matrix_present_flag p <= 1).
  { destruct ext; conj; unfold is_u in *; lia. }
  assert (X1 : N.of_nat (length (pps_run_length_minus1 p)) <= 8).
  { destruct (negb (pps_num_slice_groups_minus1 p =? 0) && (pps_slice_group_map_type p =? 0));
      conj; [lia|]. match goal with H : pps_run_length_minus1 p = [] |- _ => rewrite H end.
    cbn; lia. }
  assert (X2 : N.of_nat (length (pps_rects p)) <= 7).
  { destruct (negb (pps_num_slice_groups_minus1 p =? 0) && (pps_slice_group_map_type p =? 2));
      conj; [lia|]. match goal with H : pps_rects p = [] |- _ => rewrite H end. cbn; lia. }
  assert (X3 : pps_slice_group_change_direction_flag p <= 1 /\
    pps_slice_group_change_rate_minus1 p <= 2 ^ 32 - 2).
  { match goal with H : context [3 <=? _] |- _ => revert H end. unfold is_u, is_ue.
    match goal with |- (if ?c then _ else _) -> _ => destruct c end; intros; conj; lia. }
  assert (X4 : pps_pic_size_in_map_units_minus1 p <= 139263 /\
    N.of_nat (length (pps_slice_group_id p)) <= 139264 /\
    Forall (fun g => g <= 7) (pps_slice_group_id p)).
  { destruct (negb (pps_num_slice_groups_minus1 p =? 0) && (pps_slice_group_map_type p =? 6));
      conj.
    - split; [lia|]. split; [lia|].
      match goal with H : Forall _ (pps_slice_group_id p) |- _ => eapply Forall_impl; [|exact H] end.
      intros g G. unfold is_u in G.
      assert (slice_group_id_bits (pps_num_slice_groups_minus1 p) <= 3).
      { unfold slice_group_id_bits. apply N.lt_succ_r. change (N.succ 3) with 4.
        apply N.le_lt_trans with (N.size 7); [|vm_compute; reflexivity].
        destruct (N.eq_dec (pps_num_slice_groups_minus1 p) 0) as [->|]; [cbn; lia|].
        rewrite !N.size_log2 by lia. apply -> N.succ_le_mono. apply N.log2_le_mono. lia. }
      assert (2 ^ slice_group_id_bits (pps_num_slice_groups_minus1 p) <= 2 ^ 3)
        by (apply N.pow_le_mono_r; lia). lia.
    - match goal with H : pps_slice_group_id p = [] |- _ => rewrite H end. cbn.
      split; [lia|]. split; [lia|constructor]. }
  conj. unfold is_u in *.
  repeat match goal with H : if _ then _ else _ |- _ => clear H end.
  repeat match goal with
  | |- _ /\ _ => split
  | H : ?P |- ?P => exact H
  | |- _ => lia
  end.
Qed.
Theorem C29_pps_safe : forall cfi, never_crashes (ParsePps cfi).
Proof. intros. apply never_crashes_of. auto with good. Qed.

(** Two PPS: raster slice groups (map type 6) with no extension, and box-out groups with
    the 8x8 transform and scaling lists. *)
Definition ex_pps1 : pps :=
  mkpps 1 200 31 1 0 2 6 [] [] 0 0 3 [0; 1; 3; 2] 15 31 1 2 (-26) 25 (-12) 1 0 1
    0 0 scal0 0%Z.
Definition ex_pps2 : pps :=
  mkpps 1 0 0 0 1 1 3 [] [] 1 98 0 [] 0 0 0 0 0 0 12 0 1 0
    1 1 (mkscal [0;1;0;0;0;0;0;0] (9 :: repeat 11 15) [0; 0] [] [] (-11)) (-12)%Z.
Definition ex_pps2_lists : list slist :=
  [NoList; FullList [1; 2; -11]%Z; NoList; NoList; NoList; NoList; NoList; NoList].
Example C29_ex1_valid : valid_pps 1 ex_pps1 None.
Proof. valid_tac. Qed.
Example C29_ex1 : fst (ParsePps 1 (fresh (rbsp (enc_pps ex_pps1 None)))) = Ok ex_pps1.
Proof. vm_compute. reflexivity. Qed.
Example C29_ex2_valid : valid_pps 1 ex_pps2 (Some ex_pps2_lists) /\ ext_std (Some ex_pps2_lists).
Proof. valid_tac. Qed.
Example C29_ex2 :
  fst (ParsePps 1 (fresh (rbsp (enc_pps ex_pps2 (Some ex_pps2_lists))))) = Ok ex_pps2.
Proof. vm_compute. reflexivity. Qed.

(** Not checked: chroma_qp_index_offset (-12..12), pic_init_qp_minus26, weighted_bipred_idc
    (0..2), slice_group_id (at most num_slice_groups_minus1). *)
Theorem C29_unchecked_ranges_refuted : exists b p b', reachable b /\
  ParsePps 1 b = (Ok p, b') /\ (12 < pps_chroma_qp_index_offset p)%Z /\
  (25 < pps_pic_init_qp_minus26 p)%Z /\ pps_weighted_bipred_idc p = 3 /\
  Exists (fun g => pps_num_slice_groups_minus1 p < g) (pps_slice_group_id p).
Proof.
  exists (fresh (rbsp (enc_pps (mkpps 1 0 0 0 0 2 6 [] [] 0 0 1 [0; 3] 0 0 0 3 100 0 100 0 0 0
    0 0 scal0 0%Z) None))).
  eexists. eexists. split; [|split; [vm_compute; reflexivity|]].
  - apply fresh_reachable; [reflexivity|]. repeat constructor.
  - vm_compute. repeat (split; [reflexivity|]). apply Exists_cons_tl, Exists_cons_hd. reflexivity.
Qed.
(** The standard infers second_chroma_qp_index_offset = chroma_qp_index_offset when it is
    absent; the parser leaves 0. *)
Theorem C29_second_offset_not_inferred_refuted : exists b p b', reachable b /\
  ParsePps 1 b = (Ok p, b') /\ pps_chroma_qp_index_offset p = 5%Z /\
  pps_second_chroma_qp_index_offset p = 0%Z.
Proof.
  exists (fresh (rbsp (enc_pps (mkpps 1 0 0 0 0 0 0 [] [] 0 0 0 [] 0 0 0 0 0 0 5 0 0 0
    0 0 scal0 0%Z) None))).
  eexists. eexists. split; [|split; [vm_compute; reflexivity|split; reflexivity]].
  apply fresh_reachable; [reflexivity|]. repeat constructor.
Qed.

Print Assumptions C29_pps_round_trip.
Print Assumptions C29_pps_accepts_only_encodings.
Print Assumptions C29_pps_in_range.
Print Assumptions C29_pps_safe.
Print Assumptions C29_unchecked_ranges_refuted.
Print Assumptions C29_second_offset_not_inferred_refuted.
