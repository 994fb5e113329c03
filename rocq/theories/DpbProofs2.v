(** What h264nal-dpb_parse.py reads from the dump of a unit. *)
From Coq Require Import NArith ZArith List Bool Lia ZifyBool ZifyNat ZifyN String Ascii.
From Verif Require Import Base Parser TypesNal TypesNalUnit TypesSps Sps TypesPps TypesSlice TypesSliceHeader SliceHeader SpecDump Dump DumpProofs
  PyText PyText2 PyTextProofs SplitProofs ToolTextProofs Dpb DpbProofs.
Import ListNotations.
Open Scope N_scope.
Open Scope list_scope.

(** ** Slice headers *)
Lemma pwt_none : forall lab v, In lab ["num_ref_idx_active_override_flag:"; "num_ref_idx_l0_active_minus1:"; "long_term_reference_flag:";
  "adaptive_ref_pic_marking_mode_flag:"; "memory_management_control_operation"; "difference_of_pic_nums_minus1"; "long_term_frame_idx";
  "max_long_term_frame_idx_plus1"; "modification_of_pic_nums_idc"; "abs_diff_pic_num_minus1"; "long_term_pic_num"]%string ->
  lfind lab (dump_pwt v) = None.
Proof. intros lab v H. unfold dump_pwt. repeat (destruct H as [<-|H]; [mute|]). destruct H. Qed.
Ltac mute_slh := mute; try (apply pwt_none; cbn; tauto).
(** the marking of a slice that has one *)
Definition marking_of (h : slh) : option drpm := if negb (in_nal_ref_idc (sh_in h) =? 0) then sh_dec_ref_pic_marking h else None.
Lemma drpm_quiet : forall lab v, In lab ["num_ref_idx_active_override_flag:"; "num_ref_idx_l0_active_minus1:";
  "modification_of_pic_nums_idc"; "abs_diff_pic_num_minus1"]%string -> lfind lab (dump_drpm v) = None.
Proof. intros lab v H. unfold dump_drpm. repeat (destruct H as [<-|H]; [mute|]). destruct H. Qed.
Lemma marking_find : forall lab h, lfind lab (Dump.when (negb (in_nal_ref_idc (sh_in h) =? 0)) (deref (sh_dec_ref_pic_marking h) dump_drpm)) =
  match marking_of h with Some d => lfind lab (dump_drpm d) | None => None end.
Proof.
  intros lab h. unfold marking_of. destruct (negb _); [|reflexivity]. destruct (sh_dec_ref_pic_marking h); reflexivity.
Qed.
Definition uses_refs_b (h : slh) : bool := let ty := slice_type (sh_lead h) in is_P ty || is_SP ty || is_B ty.
Ltac enter := unfold dump_slh; cbv zeta; apply in_block; [reflexivity|].
Tactic Notation "over" integer(n) := do n (apply skip; [mute|]).
Ltac rest := mute; try (apply pwt_none; cbn; tauto); try (apply drpm_quiet; cbn; tauto).
Lemma slh_first_mb : forall h, lfind "first_mb_in_slice:" (dump_slh h) = Some [dec (first_mb_in_slice (sh_lead h))].
Proof. intros h. enter. apply hit, at_fu. reflexivity. Qed.
Lemma slh_type : forall h, lfind "slice_type:" (dump_slh h) = Some [dec (slice_type (sh_lead h))].
Proof. intros h. enter. over 1. apply hit, at_fu. reflexivity. Qed.
Lemma slh_frame_num : forall h, lfind "frame_num:" (dump_slh h) = Some [dec (frame_num (sh_pic h))].
Proof. intros h. enter. over 4. apply hit, at_fu. reflexivity. Qed.
Lemma slh_override : forall h, lfind "num_ref_idx_active_override_flag:" (dump_slh h) =
  if uses_refs_b h then Some [dec (num_ref_idx_active_override_flag (sh_refs h))] else None.
Proof.
  intros h. enter. unfold uses_refs_b. over 11.
  destruct (is_P _ || is_SP _ || is_B _); [apply hit, hit, at_fu; reflexivity|].
  cbn [Dump.when app]. unfold dump_rplm. rest.
Qed.
Lemma slh_active : forall h, uses_refs_b h && tob (num_ref_idx_active_override_flag (sh_refs h)) = true ->
  lfind "num_ref_idx_l0_active_minus1:" (dump_slh h) = Some [dec (num_ref_idx_l0_active_minus1 (sh_refs h))].
Proof.
  intros h E. enter. unfold uses_refs_b in E. over 11. apply andb_true_iff in E. destruct E as [E1 E2]. rewrite E1, E2.
  apply hit. cbn [Dump.when]. over 1. apply hit, at_fu. reflexivity.
Qed.
Lemma slh_rplm : forall h, lfind "ref_pic_list_modification_flag_l0:" (dump_slh h) = Some [dec (rp_flag_l0 (sh_ref_pic_list_modification h))].
Proof.
  intros h. enter. over 12. apply hit. unfold dump_rplm. apply in_block; [reflexivity|]. apply hit, at_fu. reflexivity.
Qed.
Lemma marking_hit : forall lab h r, In lab ["long_term_reference_flag:"; "adaptive_ref_pic_marking_mode_flag:";
   "memory_management_control_operation"; "difference_of_pic_nums_minus1"; "long_term_frame_idx"; "max_long_term_frame_idx_plus1"]%string ->
  match marking_of h with Some d => lfind lab (dump_drpm d) | None => None end = r -> lfind lab (dump_slh h) = r.
Proof.
  intros lab h r I E. rewrite <- marking_find in E. subst r. unfold dump_slh, dump_rplm. cbv zeta.
  remember (Dump.when (negb (in_nal_ref_idc (sh_in h) =? 0)) (deref (sh_dec_ref_pic_marking h) dump_drpm)) as md. clear Heqmd.
  assert (X : forall a b, lfind lab b = None -> lfind lab (a ++ b) = lfind lab a).
  { intros a b B. rewrite lfind_app, B. destruct (lfind lab a); reflexivity. }
  repeat (destruct I as [<-|I]; [apply in_block; [reflexivity|]; do 14 (apply skip; [rest|]); apply X; rest|]). destruct I.
Qed.
Lemma slh_long_term : forall h, lfind "long_term_reference_flag:" (dump_slh h) =
  match marking_of h with Some d => if tob (dr_IdrPicFlag d) then Some [dec (dr_long_term_reference_flag d)] else None | None => None end.
Proof.
  intros h. apply marking_hit; [cbn; tauto|]. destruct (marking_of h) as [d|]; [|reflexivity]. unfold dump_drpm.
  apply in_block; [reflexivity|]. destruct (tob (dr_IdrPicFlag d)); [|mute]. over 1. apply at_fu. reflexivity.
Qed.
Lemma slh_adaptive : forall h, lfind "adaptive_ref_pic_marking_mode_flag:" (dump_slh h) =
  match marking_of h with Some d => if tob (dr_IdrPicFlag d) then None else Some [dec (dr_adaptive_ref_pic_marking_mode_flag d)] | None => None end.
Proof.
  intros h. apply marking_hit; [cbn; tauto|]. destruct (marking_of h) as [d|]; [|reflexivity]. unfold dump_drpm.
  apply in_block; [reflexivity|]. destruct (tob (dr_IdrPicFlag d)); [mute|]. apply hit, at_fu. reflexivity.
Qed.
Definition braced (l : list N) : list string := "{"%string :: map dec l ++ ["}"%string].
Section lists.
  Context (h : slh) (d : drpm) (E : marking_of h = Some d) (NI : tob (dr_IdrPicFlag d) = false)
    (AD : tob (dr_adaptive_ref_pic_marking_mode_flag d) = true).
  Tactic Notation "list_at" integer(n) := apply marking_hit; [cbn; tauto|]; rewrite E; unfold dump_drpm; apply in_block; [reflexivity|]; rewrite NI, AD;
    cbn [Dump.when]; apply skip; [mute|]; do n (apply skip; [mute|]).
  Lemma slh_mmco : lfind "memory_management_control_operation" (dump_slh h) = Some (braced (dr_memory_management_control_operation d)).
  Proof. list_at 0. apply hit, at_fus; [discriminate|reflexivity|reflexivity]. Qed.
  Lemma slh_diffs : lfind "difference_of_pic_nums_minus1" (dump_slh h) = Some (braced (dr_difference_of_pic_nums_minus1 d)).
  Proof. list_at 1. apply hit, at_fus; [discriminate|reflexivity|reflexivity]. Qed.
  Lemma slh_ltfi : lfind "long_term_frame_idx" (dump_slh h) = Some (braced (dr_long_term_frame_idx d)).
  Proof. list_at 3. apply hit, at_fus; [discriminate|reflexivity|reflexivity]. Qed.
  Lemma slh_mltfi : lfind "max_long_term_frame_idx_plus1" (dump_slh h) = Some (braced (dr_max_long_term_frame_idx_plus1 d)).
  Proof. list_at 4. apply at_fus; [discriminate|reflexivity|reflexivity]. Qed.
End lists.
Lemma slh_mod_idc : forall h, lfind "modification_of_pic_nums_idc" (dump_slh h) =
  let l := rp_modification_of_pic_nums_idc (sh_ref_pic_list_modification h) in if nonempty l then Some (braced l) else None.
Proof.
  intros h. enter. over 12. unfold dump_rplm. destruct (rp_modification_of_pic_nums_idc _) as [|x l]; cbn [nonempty Dump.when app].
  - apply skip; rest.
  - apply hit, in_block; [reflexivity|]. over 2. apply hit. cbn [Dump.when]. apply at_fus; [discriminate|reflexivity|reflexivity].
Qed.
Lemma slh_abs_diff : forall h, lfind "abs_diff_pic_num_minus1" (dump_slh h) =
  let l := rp_abs_diff_pic_num_minus1 (sh_ref_pic_list_modification h) in if nonempty l then Some (braced l) else None.
Proof.
  intros h. enter. over 12. unfold dump_rplm. destruct (rp_abs_diff_pic_num_minus1 _) as [|x l]; cbn [nonempty Dump.when app].
  - apply skip; rest.
  - apply hit, in_block; [reflexivity|]. over 3. apply hit. cbn [Dump.when]. apply at_fus; [discriminate|reflexivity|reflexivity].
Qed.
(** The list long_term_pic_num is that of the marking when the modification has none. *)
Lemma slh_lt_pic_num : forall h, rp_long_term_pic_num (sh_ref_pic_list_modification h) <> [] ->
  lfind "long_term_pic_num" (dump_slh h) = Some (braced (rp_long_term_pic_num (sh_ref_pic_list_modification h))).
Proof.
  intros h NE. enter. over 12. unfold dump_rplm. destruct (rp_long_term_pic_num _) as [|x l]; [congruence|]. cbn [nonempty].
  apply hit, in_block; [reflexivity|]. over 4. cbn [Dump.when]. apply at_fus; [discriminate|reflexivity|reflexivity].
Qed.
Lemma slh_lt_pic_num' : forall h, rp_long_term_pic_num (sh_ref_pic_list_modification h) = [] ->
  lfind "long_term_pic_num" (dump_slh h) =
  match marking_of h with
  | Some d => if negb (tob (dr_IdrPicFlag d)) && tob (dr_adaptive_ref_pic_marking_mode_flag d) then Some (braced (dr_long_term_pic_num d)) else None
  | None => None
  end.
Proof.
  intros h E.
  assert (X : lfind "long_term_pic_num" (dump_slh h) = match marking_of h with Some d => lfind "long_term_pic_num" (dump_drpm d) | None => None end).
  { rewrite <- marking_find. enter. unfold dump_rplm. rewrite E. cbn [nonempty Dump.when].
    remember (Dump.when (negb (in_nal_ref_idc (sh_in h) =? 0)) (deref (sh_dec_ref_pic_marking h) dump_drpm)) as md. clear Heqmd.
    do 14 (apply skip; [rest|]). rewrite lfind_app. destruct (lfind _ md); [reflexivity|]. rest. }
  rewrite X. destruct (marking_of h) as [d|]; [|reflexivity].
  unfold dump_drpm. rewrite lfind_block by reflexivity. destruct (tob (dr_IdrPicFlag d)); cbn [negb andb]; [mute|].
  destruct (tob (dr_adaptive_ref_pic_marking_mode_flag d)); [|cbn [Dump.when]; mute]. cbn [Dump.when]. over 3.
  apply hit, at_fus; [discriminate|reflexivity|reflexivity].
Qed.
