(** Properties C31 (reference picture list modification), C32 (prediction weights) and C33
    (reference picture marking). *)
From Coq Require Import NArith ZArith List Bool Lia ZifyBool ZifyNat ZifyN.
From Verif Require Import SpecBits SpecRbsp Base BitBuffer SpecReader BitsLemmas BitBufferProofs ReaderProofs
  Parser SpecSyntax ParserProofs SpecVui VuiProofs TypesSlice SliceParts SpecSliceParts SlicePartsProofs
  PropsSps PropsPps.
Import ListNotations.
Open Scope N_scope.
Ltac Zify.zify_post_hook ::= Z.div_mod_to_equations.

(** C31: for every slice type, every pair of command lists is decoded, nothing else is
    accepted, and the loops end on every input. *)
Theorem C31_ref_pic_list_modification_exact : forall slice_type,
  decodes_as (ParseRefPicListModification slice_type)
    (fun '(cs0, cs1) => valid_rplm slice_type cs0 cs1)
    (fun '(cs0, cs1) => enc_rplm slice_type cs0 cs1)
    (fun '(cs0, cs1) => rplm_of slice_type cs0 cs1).
Proof.
  intros st. apply decodes_as_of.
  - apply ParseRefPicListModification_good.
  - intros b t b' W H. destruct (rplm_sound st b t b' W H) as (cs0 & cs1 & X). exists (cs0, cs1). exact X.
  - intros [cs0 cs1] V. apply rplm_complete; auto.
Qed.
(** Although both lists go to the same vectors, the reported value determines the commands
    of each list. *)
Theorem C31_lists_recoverable : forall slice_type cs0 cs1 cs0' cs1',
  rplm_of slice_type cs0 cs1 = rplm_of slice_type cs0' cs1' -> cs0 = cs0' /\ cs1 = cs1'.
Proof. exact rplm_of_inj. Qed.
Theorem C31_never_crashes : forall slice_type, never_crashes (ParseRefPicListModification slice_type).
Proof. intros. apply never_crashes_of. auto with good. Qed.

Definition ex_cs0 := Some [SubPicNum 4; LongTermPic 0; AddPicNum 7].
Definition ex_cs1 : option (list rpl_cmd) := Some [].
Example ex_rplm_valid : valid_rplm 1 ex_cs0 ex_cs1.
Proof.
  unfold valid_rplm, valid_cmds, ex_cs0, ex_cs1, rpl_ok, is_ue. cbn [rpl_arg].
  repeat (split || constructor); lia.
Qed.
Example ex_rplm_parsed :
  fst (ParseRefPicListModification 1 (fresh (rbsp (enc_rplm 1 ex_cs0 ex_cs1)))) =
  Ok (mkrplm 1 1 [0; 2; 1; 3; 3] [4; 7] [0] 1).
Proof. vm_compute. reflexivity. Qed.

(** C32: for every chroma array type, slice type and number of references. *)
Theorem C32_pred_weight_table_exact : forall cat slice_type n0 n1,
  decodes_as (ParsePredWeightTable cat slice_type n0 n1)
    (fun '(ld, cd, w0, w1) => valid_pwt cat slice_type n0 n1 ld cd w0 w1)
    (fun '(ld, cd, w0, w1) => enc_pwt cat slice_type ld cd w0 w1)
    (fun '(ld, cd, w0, w1) => pwt_of cat slice_type n0 n1 ld cd w0 w1).
Proof.
  intros. apply decodes_as_of.
  - apply ParsePredWeightTable_good.
  - intros b t b' W H. destruct (pwt_sound _ _ _ _ b t b' W H) as (ld & cd & w0 & w1 & X).
    exists (ld, cd, w0, w1). exact X.
  - intros [[[ld cd] w0] w1] V. apply pwt_complete; auto.
Qed.
(** One luma flag per reference, one chroma flag per reference if there is chroma, and one
    weight and one offset (pairs of them for chroma) per flag that is 1. *)
Definition ones (l : list N) : nat := length (filter (fun f => f =? 1) l).
Theorem C32_vector_lengths : forall cat slice_type n0 n1 b v b', reachable b ->
  ParsePredWeightTable cat slice_type n0 n1 b = (Ok v, b') ->
  N.of_nat (length (pw_luma_weight_l0_flag v)) = n0 + 1 /\
  N.of_nat (length (pw_chroma_weight_l0_flag v)) = (if cat =? 0 then 0 else n0 + 1) /\
  N.of_nat (length (pw_luma_weight_l1_flag v)) = (if has_weights_l1 slice_type then n1 + 1 else 0) /\
  N.of_nat (length (pw_chroma_weight_l1_flag v)) =
    (if has_weights_l1 slice_type && negb (cat =? 0) then n1 + 1 else 0) /\
  length (pw_luma_weight_l0 v) = ones (pw_luma_weight_l0_flag v) /\
  length (pw_luma_offset_l0 v) = ones (pw_luma_weight_l0_flag v) /\
  length (pw_chroma_weight_l0 v) = ones (pw_chroma_weight_l0_flag v) /\
  length (pw_chroma_offset_l0 v) = ones (pw_chroma_weight_l0_flag v) /\
  length (pw_luma_weight_l1 v) = ones (pw_luma_weight_l1_flag v) /\
  length (pw_luma_offset_l1 v) = ones (pw_luma_weight_l1_flag v) /\
  length (pw_chroma_weight_l1 v) = ones (pw_chroma_weight_l1_flag v) /\
  length (pw_chroma_offset_l1 v) = ones (pw_chroma_weight_l1_flag v) /\
  Forall (fun l => length l = 2%nat) (pw_chroma_weight_l0 v ++ pw_chroma_offset_l0 v ++
    pw_chroma_weight_l1 v ++ pw_chroma_offset_l1 v).
Proof.
  intros cat st n0 n1 b v b' R H. apply reachable_wf in R.
  destruct (pwt_sound _ _ _ _ b v b' R H) as (ld & cd & w0 & w1 & (_ & _ & L0 & F0 & V1) & -> & _).
  clear H R b b'. unfold pwt_of.
  cbn [pw_luma_weight_l0_flag pw_luma_weight_l0 pw_luma_offset_l0 pw_chroma_weight_l0_flag
    pw_chroma_weight_l0 pw_chroma_offset_l0 pw_luma_weight_l1_flag pw_luma_weight_l1
    pw_luma_offset_l1 pw_chroma_weight_l1_flag pw_chroma_weight_l1 pw_chroma_offset_l1].
  assert (X : forall (f : Z * Z -> Z) ws,
    length (flat_map (fun w => olist f (w_luma w)) ws) = ones (luma_flags ws)).
  { intros f. unfold ones, luma_flags. induction ws as [|[[l|] c] ws IH]; cbn in *; auto. }
  assert (Y : forall (f : (Z * Z) * (Z * Z) -> list Z) ws, Forall (valid_weights cat) ws ->
    length (flat_map (fun w => olist f (w_chroma w)) ws) = ones (chroma_flags cat ws)).
  { intros f. unfold ones, chroma_flags. induction 1 as [|[l [c|]] ws [_ V] F IH].
    - destruct negb; reflexivity.
    - cbn [w_chroma] in V. destruct c. destruct V as (V & _).
      replace (cat =? 0) with false in * by lia. cbn in *. auto.
    - cbn [w_chroma olist flat_map app]. rewrite IH. destruct (negb (cat =? 0)); reflexivity. }
  assert (Z : forall (f : (Z * Z) * (Z * Z) -> list Z) ws, (forall p, length (f p) = 2%nat) ->
    Forall (fun l => length l = 2%nat) (flat_map (fun w => olist f (w_chroma w)) ws)).
  { intros f ws Hf. induction ws as [|[l [c|]] ws IH]; cbn; auto. }
  assert (F1 : Forall (valid_weights cat) w1).
  { destruct (has_weights_l1 st); [apply V1|subst; constructor]. }
  repeat split; try (apply X || (apply Y; assumption)).
  - unfold luma_flags. rewrite map_length. exact L0.
  - unfold chroma_flags. destruct (cat =? 0); cbn; [auto|]. rewrite map_length. exact L0.
  - unfold luma_flags. rewrite map_length. destruct (has_weights_l1 st); [apply V1|subst; auto].
  - unfold chroma_flags. destruct (cat =? 0), (has_weights_l1 st); cbn; auto; [|subst; auto].
    rewrite map_length. apply V1.
  - rewrite !Forall_app. repeat split; apply Z; intros [p q]; reflexivity.
Qed.
Theorem C32_never_crashes : forall cat slice_type n0 n1,
  never_crashes (ParsePredWeightTable cat slice_type n0 n1).
Proof. intros. apply never_crashes_of. auto with good. Qed.

Definition ex_w0 := [mkweights (Some (3, -4)%Z) None; mkweights None (Some ((1, 2), (-5, 6))%Z)].
Definition ex_w1 := [mkweights None None].
Example ex_pwt_valid : valid_pwt 1 6 1 0 5 7 ex_w0 ex_w1.
Proof.
  unfold valid_pwt, ex_w0, ex_w1. cbn [length].
  repeat (split || constructor || cbn); unfold is_se; cbn; try lia.
Qed.
Example ex_pwt_parsed :
  fst (ParsePredWeightTable 1 6 1 0 (fresh (rbsp (enc_pwt 1 6 5 7 ex_w0 ex_w1)))) =
  Ok (mkpwt 1 6 1 0 5 7 [1; 0] [3%Z] [(-4)%Z] [0; 1] [[1; -5]%Z] [[2; 6]%Z] [0] [] [] [0] [] []).
Proof. vm_compute. reflexivity. Qed.

(** C33: for every IdrPicFlag, every marking is decoded, nothing else is accepted, and the
    loop ends on every input. *)
Theorem C33_dec_ref_pic_marking_exact : forall idr,
  decodes_as (ParseDecRefPicMarking idr) (valid_marking idr) enc_marking (drpm_of idr).
Proof.
  intros. apply decodes_as_of; [apply ParseDecRefPicMarking_good|apply drpm_sound|apply drpm_complete].
Qed.
Theorem C33_marking_recoverable : forall idr m m', valid_marking idr m -> valid_marking idr m' ->
  drpm_of idr m = drpm_of idr m' -> m = m'.
Proof. exact drpm_of_inj. Qed.
Theorem C33_never_crashes : forall idr, never_crashes (ParseDecRefPicMarking idr).
Proof. intros. apply never_crashes_of. auto with good. Qed.

Definition ex_mark := Marking (Some [MakeLong 3 1; UnmarkLong 9; MaxLong 2; UnmarkAll; CurrentLong 0; UnmarkShort 8]).
Example ex_mark_valid : valid_marking 0 ex_mark.
Proof. unfold valid_marking, ex_mark, valid_cmds, mmco_ok, is_ue. repeat (split || constructor). Qed.
Example ex_mark_parsed :
  fst (ParseDecRefPicMarking 0 (fresh (rbsp (enc_marking ex_mark)))) =
  Ok (mkdrpm 0 0 0 1 [3; 2; 4; 5; 6; 1; 0] [3; 8] [9] [1; 0] [2]).
Proof. vm_compute. reflexivity. Qed.
Example ex_mark_idr :
  fst (ParseDecRefPicMarking 1 (fresh (rbsp (enc_marking (IdrMarking 1 0))))) =
  Ok (mkdrpm 1 1 0 0 [] [] [] [] []).
Proof. vm_compute. reflexivity. Qed.
(** Truncated lists are rejected. *)
Example ex_mark_truncated :
  fst (ParseDecRefPicMarking 0 (fresh [true; false; true; false; true; false; true; false])) = Null.
Proof. vm_compute. reflexivity. Qed.

Print Assumptions C31_ref_pic_list_modification_exact.
Print Assumptions C31_lists_recoverable.
Print Assumptions C31_never_crashes.
Print Assumptions C32_pred_weight_table_exact.
Print Assumptions C32_vector_lengths.
Print Assumptions C32_never_crashes.
Print Assumptions C33_dec_ref_pic_marking_exact.
Print Assumptions C33_marking_recoverable.
Print Assumptions C33_never_crashes.
