(** Dumps: the members of a value are printed with their names. *)
From Coq Require Import NArith ZArith List Bool Lia ZifyBool ZifyNat ZifyN String Ascii.
From Coq Require DecimalString DecimalZ.
From Verif Require Import SpecBits Base BitBuffer SpecReader BitsLemmas BitBufferProofs
  ReaderProofs Rbsp RbspProofs ChecksumProofs Parser SpecSyntax ParserProofs TypesSps TypesPps SpecVui Vui VuiProofs
  SpecScaling SpecSps Sps SpsProofs SpecPps Pps PpsProofs TypesNal NalHeader SpecNalHeader NalHeaderProofs
  TypesExt Ext SpecExt ExtProofs TypesSlice SpecSliceParts TypesSliceHeader SliceHeader SpecSlice SliceProofs TypesSvcSlice
  SvcSlice SpecSvcSlice SvcSliceProofs TypesNalUnit NalUnit NalUnitProofs SpecNalUnit NalUnitProofs2 NalType Rtp RtpProofs
  SpecRbsp PropsNalUnit Tool PropsTool SpecDump SpecShown SpecLabels Dump DumpProofs DumpProofs2 DumpProofs3 DumpProofs4 DumpProofs5 DumpProofs6.
Import ListNotations.
Open Scope N_scope.
Open Scope list_scope.
Ltac Zify.zify_post_hook ::= Z.div_mod_to_equations.

Lemma number_deci : forall z, number (deci z) = Some z.
Proof.
  intros z. unfold number, deci. rewrite DecimalString.NilEmpty.isi. cbn [option_map]. rewrite DecimalZ.of_to. reflexivity.
Qed.
Lemma number_dec : forall n, number (dec n) = Some (Z.of_N n).
Proof.
  intros n. rewrite <- number_deci. f_equal. destruct n; reflexivity.
Qed.

(** ** Where a member is in a dump *)
Definition lifts (d e : dump) : Prop := forall m, says (flat d) m -> says (flat e) m.
Lemma says_sub : forall ws pre post m, says ws m -> says (pre ++ ws ++ post) m.
Proof.
  intros ws pre post [n v|n vs]; cbn [says].
  - intros (b & w & a & -> & E). exists (pre ++ b), w, (a ++ post). rewrite <- !app_assoc. cbn [app]. auto.
  - intros (b & l & a & -> & E). exists (pre ++ b), l, (a ++ post). rewrite <- ?app_assoc. cbn [app]. rewrite <- ?app_assoc. auto.
Qed.
Lemma says_l : forall a b m, says (flat a) m -> says (flat (a ++ b)) m.
Proof. intros a b m H. rewrite flat_app. apply (says_sub _ []). exact H. Qed.
Lemma says_r : forall a b m, says (flat b) m -> says (flat (a ++ b)) m.
Proof. intros a b m H. rewrite flat_app, <- (app_nil_r (flat b)). apply says_sub. exact H. Qed.
Lemma says_block : forall n d m, says (flat d) m -> says (flat (block n d)) m.
Proof. intros n d m H. rewrite flat_block. apply (says_sub _ [n; "{"%string]). exact H. Qed.
Lemma says_when : forall (c : bool) d m, c = true -> says (flat d) m -> says (flat (Dump.when c d)) m.
Proof. intros c d m -> H. exact H. Qed.
Lemma says_then : forall (c : bool) d e m, c = true -> says (flat d) m -> says (flat (if c then d else e)) m.
Proof. intros c d e m -> H. exact H. Qed.
Lemma says_else : forall (c : bool) d e m, c = false -> says (flat e) m -> says (flat (if c then d else e)) m.
Proof. intros c d e m -> H. exact H. Qed.
Lemma says_fu : forall k n, says (flat (fu k n)) (One k (Z.of_N n)).
Proof. intros k n. exists [], (dec n), []. split; [reflexivity|apply number_dec]. Qed.
Lemma says_fi : forall k n, says (flat (fi k n)) (One k n).
Proof. intros k n. exists [], (deci n), []. split; [reflexivity|apply number_deci]. Qed.
Lemma says_fiu : forall k n, says (flat (fiu k n)) (One k (n mod 2 ^ 32)%Z).
Proof.
  intros k n. unfold fiu. replace (n mod 2 ^ 32)%Z with (Z.of_N (of_i32 n)); [apply says_fu|].
  unfold of_i32. rewrite Z2N.id; [reflexivity|]. apply Z.mod_pos_bound. reflexivity.
Qed.
Lemma says_fus : forall k l, says (flat (fus k l)) (Many k (map Z.of_N l)).
Proof.
  intros k l. exists [], (map dec l), []. split; [cbn; rewrite app_nil_r; reflexivity|]. rewrite !map_map. apply map_ext. apply number_dec.
Qed.
Lemma says_fis : forall k l, says (flat (fis k l)) (Many k l).
Proof.
  intros k l. exists [], (map deci l), []. split; [cbn; rewrite app_nil_r; reflexivity|]. rewrite !map_map. apply map_ext. apply number_deci.
Qed.
Ltac seek_says cond :=
  lazymatch goal with
  | |- says (flat (_ ++ _)) _ => first [apply says_l; seek_says cond | apply says_r; seek_says cond]
  | |- says (flat (block _ _)) _ => apply says_block; seek_says cond
  | |- says (flat (Dump.when _ _)) _ => apply says_when; [|seek_says cond]; cond
  | |- says (flat (fu ?k _)) (One ?k _) => apply says_fu
  | |- says (flat (fi ?k _)) (One ?k _) => apply says_fi
  | |- says (flat (fiu ?k _)) (One ?k _) => apply says_fiu
  | |- says (flat (fus ?k _)) (Many ?k _) => apply says_fus
  | |- says (flat (fis ?k _)) (Many ?k _) => apply says_fis
  | |- says (flat (dump_scal _ _)) _ => unfold dump_scal; seek_says cond
  | |- says (flat (if _ then _ else _)) _ => first [apply says_then; [|seek_says cond]; cond | apply says_else; [|seek_says cond]; cond]
  end.
Ltac members := repeat (apply Forall_cons || apply Forall_nil); unfold tells; cbn [fst snd]; intros C;
  repeat match goal with H : _ && _ = true |- _ => apply andb_prop in H; destruct H end.
Ltac holds := first [reflexivity | assumption | apply negb_true_iff; assumption | lia].

Lemma hrd_says : forall v, Forall (tells (flat (dump_hrd v))) (hrd_members v).
Proof. intros v. unfold dump_hrd, hrd_members. members; seek_says holds. Qed.
Lemma vui_says : forall v, Forall (tells (flat (dump_vui v))) (vui_members v).
Proof. intros v. unfold dump_vui, vui_members. change tob with on. members; seek_says holds. Qed.
Lemma sps_data_says : forall o v, Forall (tells (flat (dump_sps_data o v))) (sps_members v).
Proof. intros o v. unfold dump_sps_data, sps_members. rewrite prints_high. change tob with on. members; seek_says holds. Qed.
Lemma pps_says : forall v, Forall (tells (flat (dump_pps v))) (pps_members v).
Proof. intros v. unfold dump_pps, pps_members, changing_groups. cbn [existsb]. members; seek_says holds. Qed.
Lemma spssvc_says : forall v, Forall (tells (flat (dump_spssvc v))) (spssvc_members v).
Proof. intros v. unfold dump_spssvc, spssvc_members. members; seek_says holds. Qed.
Lemma nalh_says : forall v, Forall (tells (flat (dump_nalh v))) (nalh_members v).
Proof. intros v. unfold dump_nalh, nalh_members. cbv zeta. members; seek_says holds. Qed.
Lemma svc_ext_says : forall v, Forall (tells (flat (dump_svc_ext v))) (svc_ext_members v).
Proof. intros v. unfold dump_svc_ext, svc_ext_members. members; seek_says holds. Qed.
Ltac red_slh_goal := cbn [sh_in sh_lead sh_pic sh_idr_pic_id sh_poc sh_redundant_pic_cnt sh_refs sh_ref_pic_list_modification
       sh_pred_weight_table sh_dec_ref_pic_marking sh_cabac_init_idc sh_slice_qp_delta sh_spqs sh_dbk
       sh_slice_group_change_cycle
       in_nal_ref_idc in_nal_unit_type in_separate_colour_plane_flag in_log2_max_frame_num_minus4 in_frame_mbs_only_flag
       in_pic_order_cnt_type in_bottom_field_pic_order_in_frame_present_flag in_delta_pic_order_always_zero_flag
       in_redundant_pic_cnt_present_flag in_weighted_pred_flag in_weighted_bipred_idc in_entropy_coding_mode_flag
       in_deblocking_filter_control_present_flag in_num_slice_groups_minus1 in_slice_group_map_type].
Ltac holds ::= first [reflexivity | assumption | apply negb_true_iff; assumption
  | repeat match goal with H : ?x = true |- context[?x] => rewrite H end; rewrite ?orb_true_r; reflexivity | lia].
Lemma slh_says : forall ref nut s p v, s_type v <= 9 ->
  Forall (tells (flat (dump_slh (slh_of ref nut s p v)))) (slice_members nut s p v).
Proof.
  intros ref nut s p v T. unfold slh_of, inputs_of, dump_slh, slice_members, uses_refs. cbv zeta. red_slh_goal.
  fold (s_type v). rewrite !changing_eq by auto. rewrite ?type_P, ?type_B, ?type_I, ?type_SP, ?type_SI by exact T. change tob with on.
  members; seek_says holds.
Qed.
