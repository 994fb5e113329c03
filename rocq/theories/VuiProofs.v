(** HRD and VUI parsers: safety, soundness, completeness. *)
From Coq Require Import NArith ZArith List Bool Lia ZifyBool ZifyNat ZifyN.
From Verif Require Import SpecBits Base BitBuffer SpecReader BitsLemmas BitBufferProofs
  Parser ParserProofs TypesSps Vui SpecVui.
Import ListNotations.
Open Scope N_scope.
Ltac Zify.zify_post_hook ::= Z.div_mod_to_equations.

(** ** Tactics used for all the syntax structures *)
Ltac pairinv :=
  repeat match goal with
  | H : (_, _) = (_, _) |- _ => injection H; clear H; intros; subst
  | H : Some _ = Some _ |- _ => injection H; clear H; intros; subst
  end.

Create HintDb snd discriminated.

(** Use the soundness lemma of a sub-parser. *)
Ltac inv_sub :=
  match goal with
  | W : bb_wf ?b, H : ?p ?b = (Ok ?v, ?b2) |- _ =>
      let S := fresh "S" in
      eassert (S : sound p _ _) by (solve [eauto with snd good nocore]);
      apply (S b v b2 W) in H; clear S; destruct H as [? H];
      pose proof (reads_wf _ _ _ H)
  end.
(** A compound step: remember only that the state stays well formed. *)
Ltac inv_wf :=
  match goal with
  | W : bb_wf ?b, H : ?p ?b = (Ok _, ?b2) |- _ =>
      match goal with
      | _ : bb_wf b2 |- _ => fail 1
      | _ => assert (bb_wf b2) by (eapply good_wf; [|exact W|exact H]; good_tac)
      end
  end.
Ltac inv := repeat first [inv1 | inv_sub | inv_wf].

Ltac conj := repeat match goal with H : _ /\ _ |- _ => destruct H end.
(** Split a successful conditional block. *)
Ltac open_if :=
  match goal with
  | |- context [if ?c then _ else _] => destruct c eqn:?
  end;
  unfold cond in * |-; cbv iota in * |-; inv; pairinv; conj.

Ltac next_state b :=
  match goal with
  | H : reads b _ ?b2 |- _ => apply (reads_app b b2)
  | H : _ b = (Ok _, ?b2) |- _ => apply (reads_app b b2)
  end.

Ltac fin :=
  repeat match goal with
  | |- _ /\ _ => split
  | |- ?x = ?x => reflexivity
  | H : reads ?b ?c ?b' |- reads ?b ?c ?b' => exact H
  | |- reads ?b [] ?b => apply reads_refl; assumption
  | |- reads ?b (_ ++ _) _ => next_state b
  | H : ?P |- ?P => exact H
  | |- context [if _ then _ else _] => open_if
  | |- _ => unfold is_u, is_ue, is_se in *; lia
  end.

(** Completeness: walk the program along the code. *)
Ltac take_if :=
  repeat match goal with
  | C : ?c = ?b, H : context [if ?c then _ else _] |- _ => rewrite C in H
  | C : ?c = ?b |- context [if ?c then _ else _] => rewrite C
  end.
Create HintDb prs discriminated.
Ltac walk :=
  match goal with
  | H : parses ?p ?c _ |- parses ?p ?c _ => exact H
  | |- parses (sret _) [] _ => apply parses_ret
  | |- parses (sbind (sbind _ _) _) _ _ => fail 1 "nested bind"
  | |- parses (sbind (guard _) _) _ _ =>
      eapply parses_bind0; [apply parses_guard; unfold is_u, is_ue, is_se in *; lia|walk]
  | |- parses (sbind _ _) (_ ++ _) _ => eapply parses_bind; [walk|cbn beta iota; walk]
  | |- parses (sbind _ _) _ _ => eapply parses_bind1; [walk|cbn beta iota; walk]
  | |- parses (ReadBits _) _ _ =>
      apply ReadBits_parses; unfold is_u, is_ue, is_se in *; [lia|lia]
  | |- parses (ue_max _) _ _ => apply parses_ue_max; unfold is_u, is_ue, is_se in *; lia
  | |- parses (se_rng _ _) _ _ => apply parses_se_rng; unfold is_u, is_ue, is_se in *; lia
  | |- parses ReadExponentialGolomb _ _ =>
      apply ue_parses; unfold is_u, is_ue, is_se in *; lia
  | |- parses ReadSignedExponentialGolomb _ _ =>
      apply se_parses; unfold is_u, is_ue, is_se in *; lia
  | |- parses (cond ?c _ _) (if ?c then _ else _) _ =>
      apply parses_cond;
      [intro; take_if;
       repeat match goal with H : _ /\ _ |- _ => destruct H end; walk
      |intro; take_if;
       repeat match goal with H : _ /\ _ |- _ => destruct H end;
       subst; reflexivity]
  | |- parses _ _ _ => solve [eauto with prs nocore]
  end.

(** ** hrd_parameters() *)
Definition hrd_entry : P (N * N * N) :=
  (br <- ReadExponentialGolomb ;; cs <- ReadExponentialGolomb ;;
   cbr <- ReadBits 1 ;; sret (br, cs, cbr))%m.

Lemma hrd_entry_sound : sound hrd_entry valid_sched enc_sched.
Proof.
  intros b v b' W H. unfold hrd_entry in H. inv. unfold valid_sched, enc_sched. fin.
Qed.
Lemma hrd_entry_good : good hrd_entry.
Proof. unfold hrd_entry. good_tac. Qed.
Lemma hrd_entry_complete : complete hrd_entry valid_sched enc_sched.
Proof.
  intros [[br cs] cbr] V. unfold valid_sched in V. conj.
  unfold hrd_entry, enc_sched. walk.
Qed.

Lemma ParseHrdParameters_good : good ParseHrdParameters.
Proof. unfold ParseHrdParameters. good_tac. Qed.
#[export] Hint Resolve ParseHrdParameters_good : good.

Lemma rep_hrd_sound : forall n, sound (rep n hrd_entry)
  (fun l => length l = n /\ Forall valid_sched l) (flat_map enc_sched).
Proof.
  intros n b v b' W H.
  exact (rep_sound _ _ _ _ hrd_entry_sound n b v b' W H).
Qed.
#[export] Hint Resolve rep_hrd_sound : snd.

Lemma ParseHrdParameters_sound : sound ParseHrdParameters valid_hrd enc_hrd.
Proof.
  intros b v b' W H. unfold ParseHrdParameters in H. fold hrd_entry in H. inv. conj.
  unfold valid_hrd, enc_hrd.
  cbn [cpb_cnt_minus1 bit_rate_scale cpb_size_scale sched_sel
       initial_cpb_removal_delay_length_minus1 cpb_removal_delay_length_minus1
       dpb_output_delay_length_minus1 time_offset_length].
  fin.
Qed.

Lemma ParseHrdParameters_complete : complete ParseHrdParameters valid_hrd enc_hrd.
Proof.
  intros [cnt brs css sched a1 a2 a3 a4] V. unfold valid_hrd in V.
  cbn [cpb_cnt_minus1 bit_rate_scale cpb_size_scale sched_sel
       initial_cpb_removal_delay_length_minus1 cpb_removal_delay_length_minus1
       dpb_output_delay_length_minus1 time_offset_length] in V. conj.
  unfold enc_hrd, ParseHrdParameters. fold hrd_entry.
  cbn [cpb_cnt_minus1 bit_rate_scale cpb_size_scale sched_sel
       initial_cpb_removal_delay_length_minus1 cpb_removal_delay_length_minus1
       dpb_output_delay_length_minus1 time_offset_length].
  assert (L : N.to_nat (cnt + 1) = length sched) by lia.
  assert (R : parses (rep (N.to_nat (cnt + 1)) hrd_entry) (flat_map enc_sched sched) sched).
  { rewrite L. apply parses_rep. intros v Hv. apply hrd_entry_complete.
    rewrite Forall_forall in *. auto. }
  walk.
Qed.
#[export] Hint Resolve ParseHrdParameters_sound : snd.
#[export] Hint Resolve ParseHrdParameters_complete : prs.

(** ** vui_parameters() *)
Lemma good_some_of : forall A (p : P A), good p -> good (some_of p).
Proof. intros. unfold some_of. good_tac. Qed.
#[export] Hint Resolve good_some_of : good.

(** An optional sub-structure. *)
Lemma opt_sound : forall A (c : bool) (p : P A) ok enc, sound p ok enc -> good p ->
  sound (cond c (some_of p) None) (valid_opt c ok) (enc_opt enc).
Proof.
  intros A c p ok enc S G b v b' W H. unfold cond in H. destruct c; unfold some_of in H.
  - apply sbind_inv in H. destruct H as (x & b1 & H1 & H). inv1. apply S in H1; auto.
  - inv. cbn. split; [auto|apply reads_refl; auto].
Qed.
Lemma opt_complete : forall A (c : bool) (p : P A) ok enc v, complete p ok enc ->
  valid_opt c ok v -> parses (cond c (some_of p) None) (enc_opt enc v) v.
Proof.
  intros A c p ok enc v C V. unfold valid_opt in V. destruct c.
  - destruct v as [x|]; [|contradiction]. cbn [cond enc_opt]. unfold some_of.
    eapply parses_bind1; [apply C; auto|apply parses_ret].
  - subst. apply parses_ret.
Qed.
#[export] Hint Resolve opt_sound : snd.
#[export] Hint Resolve opt_complete : prs.

Lemma ParseVuiParameters_good : good ParseVuiParameters.
Proof. unfold ParseVuiParameters. good_tac. Qed.
#[export] Hint Resolve ParseVuiParameters_good : good.

Ltac red_vui := cbn [
  aspect_ratio_info_present_flag aspect_ratio_idc sar_width sar_height
   overscan_info_present_flag overscan_appropriate_flag
   video_signal_type_present_flag video_format video_full_range_flag
   colour_description_present_flag colour_primaries transfer_characteristics
   matrix_coefficients chroma_loc_info_present_flag
   chroma_sample_loc_type_top_field chroma_sample_loc_type_bottom_field
   timing_info_present_flag num_units_in_tick time_scale fixed_frame_rate_flag
   nal_hrd_parameters_present_flag nal_hrd_parameters
   vcl_hrd_parameters_present_flag vcl_hrd_parameters low_delay_hrd_flag
   pic_struct_present_flag bitstream_restriction_flag
   motion_vectors_over_pic_boundaries_flag max_bytes_per_pic_denom
   max_bits_per_mb_denom log2_max_mv_length_horizontal
   log2_max_mv_length_vertical max_num_reorder_frames max_dec_frame_buffering].
Tactic Notation "red_vui" "in" hyp(H) := cbn [
  aspect_ratio_info_present_flag aspect_ratio_idc sar_width sar_height
   overscan_info_present_flag overscan_appropriate_flag
   video_signal_type_present_flag video_format video_full_range_flag
   colour_description_present_flag colour_primaries transfer_characteristics
   matrix_coefficients chroma_loc_info_present_flag
   chroma_sample_loc_type_top_field chroma_sample_loc_type_bottom_field
   timing_info_present_flag num_units_in_tick time_scale fixed_frame_rate_flag
   nal_hrd_parameters_present_flag nal_hrd_parameters
   vcl_hrd_parameters_present_flag vcl_hrd_parameters low_delay_hrd_flag
   pic_struct_present_flag bitstream_restriction_flag
   motion_vectors_over_pic_boundaries_flag max_bytes_per_pic_denom
   max_bits_per_mb_denom log2_max_mv_length_horizontal
   log2_max_mv_length_vertical max_num_reorder_frames max_dec_frame_buffering] in H.

Lemma ParseVuiParameters_sound : sound ParseVuiParameters valid_vui enc_vui.
Proof.
  intros b v b' W H. unfold ParseVuiParameters in H. inv.
  unfold valid_vui, enc_vui. red_vui. change on with tob. fin.
Qed.

Lemma ParseVuiParameters_complete : complete ParseVuiParameters valid_vui enc_vui.
Proof.
  intros v V. destruct v. unfold valid_vui in V. red_vui in V. change on with tob in V. conj.
  unfold enc_vui, ParseVuiParameters. red_vui. change on with tob.
  walk.
Qed.
#[export] Hint Resolve ParseVuiParameters_sound : snd.
#[export] Hint Resolve ParseVuiParameters_complete : prs.
