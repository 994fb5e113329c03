(** The parsers depend only on the bits that are left, and on where in a byte they start. *)
From Coq Require Import NArith ZArith List Bool Lia ZifyBool ZifyNat ZifyN.
From Verif Require Import SpecBits Base BitBuffer SpecReader BitsLemmas BitBufferProofs
  ReaderProofs Rbsp RbspProofs Parser ParserProofs Vui ScalingList TypesSps Sps TypesPps Pps TypesNal NalHeader
  TypesExt Ext TypesSlice SliceParts TypesSliceHeader SliceHeader TypesSvcSlice SvcSlice TypesNalUnit NalUnit.
Import ListNotations.
Open Scope N_scope.
Ltac Zify.zify_post_hook ::= Z.div_mod_to_equations.

(** Buffers that look the same from the current position on. *)
Definition alike (b1 b2 : bb) : Prop :=
  bb_wf b1 /\ bb_wf b2 /\ bb_rem b1 = bb_rem b2 /\ bb_bit b1 = bb_bit b2 /\ bb_asserts b1 = bb_asserts b2.
Definition local {A} (p : P A) : Prop := forall b1 b2, alike b1 b2 ->
  fst (p b1) = fst (p b2) /\ alike (snd (p b1)) (snd (p b2)).
Lemma alike_adv : forall b1 b2 n, alike b1 b2 -> (n <= length (bb_rem b1))%nat ->
  alike (bb_adv b1 n) (bb_adv b2 n).
Proof.
  intros b1 b2 n (W1 & W2 & R & B & A) L.
  split; [apply bb_adv_wf; auto|]. split; [apply bb_adv_wf; auto; congruence|].
  rewrite !bb_adv_rem by (auto; congruence). split; [congruence|].
  unfold bb_adv. cbn [bb_bit bb_asserts]. split; [|exact A]. rewrite B. lia.
Qed.

(** * Combinators *)
Lemma local_bind : forall A B (p : P A) (f : A -> P B), local p -> (forall a, local (f a)) -> local (sbind p f).
Proof.
  intros A B p f LP LF b1 b2 S. unfold sbind. destruct (LP b1 b2 S) as [E S'].
  destruct (p b1) as [r1 c1], (p b2) as [r2 c2]. cbn [fst snd] in *. subst r2.
  destruct r1; cbn [fst snd]; auto. apply LF. exact S'.
Qed.
Lemma local_ret : forall A (a : A), local (sret a).
Proof. intros A a b1 b2 S. split; auto. Qed.
Lemma local_fail : forall A, local (@sfail bb A).
Proof. intros A b1 b2 S. split; auto. Qed.
Lemma local_res : forall A (r : res A), local (sres r).
Proof. intros A r b1 b2 S. split; auto. Qed.
Lemma local_guard : forall c, local (guard c).
Proof. intros []; [apply local_ret|apply local_fail]. Qed.
Lemma local_if : forall A (c : bool) (p q : P A), local p -> local q -> local (if c then p else q).
Proof. intros A []; auto. Qed.
Lemma local_cond : forall A (c : bool) (p : P A) d, local p -> local (cond c p d).
Proof. intros A [] p d L; [exact L|apply local_ret]. Qed.
Lemma local_pair : forall A B C (x : A * B) (f : A -> B -> P C),
  (forall a b, local (f a b)) -> local (let (a, b) := x in f a b).
Proof. intros A B C [a b] f H. apply H. Qed.
Lemma local_opt : forall A C (x : option A) (f : A -> P C) q,
  (forall a, local (f a)) -> local q -> local (match x with Some a => f a | None => q end).
Proof. intros A C [a|] f q H1 H2; auto. Qed.
Lemma local_rep : forall A n (p : P A), local p -> local (rep n p).
Proof.
  induction n as [|n IH]; intros p L; cbn [rep]; [apply local_ret|].
  apply local_bind; [exact L|intros a]. apply local_bind; [apply IH; exact L|intros l; apply local_ret].
Qed.
Lemma local_repi : forall A n i (p : N -> P A), (forall j, local (p j)) -> local (repi n i p).
Proof.
  induction n as [|n IH]; intros i p L; cbn [repi]; [apply local_ret|].
  apply local_bind; [apply L|intros a]. apply local_bind; [apply IH; exact L|intros l; apply local_ret].
Qed.
Lemma local_ReadBits : forall n, local (ReadBits n).
Proof.
  intros n b1 b2 S. pose proof S as (W1 & W2 & R & _). rewrite !ReadBits_spec by auto.
  unfold rd_ok. rewrite <- R. destruct (negb _) eqn:E; cbn [fst snd]; split; auto.
  apply alike_adv; auto. lia.
Qed.
Lemma local_ue : local ReadExponentialGolomb.
Proof.
  intros b1 b2 S. pose proof S as (W1 & W2 & R & B & A). rewrite !ReadExponentialGolomb_spec by auto.
  rewrite <- R, <- A. destruct (ue_dec (bb_rem b1)) as [[v n]|] eqn:E; cbn [fst snd]; split; auto.
  - apply ue_dec_sound in E. apply alike_adv; auto. tauto.
  - destruct (bb_asserts b1); auto. apply alike_adv; auto. apply lead0_le.
Qed.
Lemma local_se : local ReadSignedExponentialGolomb.
Proof. apply local_bind; [apply local_ue|intros u; apply local_res]. Qed.
Lemma local_ue_max : forall m, local (ue_max m).
Proof. intros m. repeat (apply local_bind; [auto using local_ue, local_guard|intros ?]). apply local_ret. Qed.
Lemma local_se_rng : forall lo hi, local (se_rng lo hi).
Proof. intros lo hi. repeat (apply local_bind; [auto using local_se, local_guard|intros ?]). apply local_ret. Qed.
(** Decisions that look at the buffer. *)
Lemma local_peek : forall A (f : bb -> res A), (forall b1 b2, alike b1 b2 -> f b1 = f b2) ->
  local (fun b => (f b, b)).
Proof. intros A f H b1 b2 S. cbn [fst snd]. auto. Qed.
Lemma left_alike : forall b1 b2, alike b1 b2 -> RemainingBitCount b1 = RemainingBitCount b2.
Proof. intros b1 b2 (W1 & W2 & R & _). rewrite !RemainingBitCount_spec, R by auto. reflexivity. Qed.
Lemma local_left : forall A (f : N -> P A), (forall n, local (f n)) -> local (fun b => f (RemainingBitCount b) b).
Proof. intros A f H b1 b2 S. cbv beta. rewrite (left_alike b1 b2 S). apply H. exact S. Qed.

Create HintDb local discriminated.
#[export] Hint Resolve local_ret local_fail local_res local_guard local_ReadBits local_ue local_se
  local_ue_max local_se_rng : local.
Ltac local_tac :=
  repeat match goal with
  | |- local (sbind _ _) => apply local_bind; [|intros ?]
  | |- local (cond _ _ _) => apply local_cond
  | |- local (rep _ _) => apply local_rep
  | |- local (repi _ _ _) => apply local_repi; intros ?
  | |- local (if _ then _ else _) => apply local_if
  | |- local (let (_, _) := _ in _) => apply local_pair; intros ? ?
  | |- local (match _ with Some _ => _ | None => _ end) => apply local_opt; [intros ?|]
  | |- local _ => solve [auto with local]
  end.

(** * The parsers *)
Lemma attempt_local : forall A (p : P A), local p -> local (attempt p).
Proof.
  intros A p L b1 b2 S. unfold attempt. destruct (L b1 b2 S) as [E S'].
  destruct (p b1) as [r1 c1], (p b2) as [r2 c2]. cbn [fst snd] in *. subst r2.
  destruct r1; cbn [fst snd]; auto.
Qed.
Lemma ignored_local : forall A (p : P A), local p -> local (ignored p).
Proof. intros A p L. unfold ignored. apply local_bind; [apply attempt_local; auto|intros; apply local_ret]. Qed.
Lemma more_data_local : local more_data.
Proof.
  apply local_peek. intros b1 b2 S. unfold more_rbsp_data. rewrite (left_alike b1 b2 S).
  pose proof S as (W1 & W2 & R & _).
  unfold PeekBits. rewrite !PeekBitsW_spec, R by (auto; lia). reflexivity.
Qed.
Lemma trailing_local : local rbsp_trailing_bits.
Proof.
  assert (T : forall f, local (trailing_loop f)).
  { induction f as [|f IH]; intros b1 b2 S; cbn [trailing_loop]; unfold byte_aligned;
      pose proof S as (_ & _ & _ & B & _); rewrite <- B; destruct (bb_bit b1 =? 0); auto.
    revert b1 b2 S B. change (forall b1 b2, alike b1 b2 -> bb_bit b1 = bb_bit b2 ->
      fst ((x <- ReadBits 1 ;; if x =? 0 then trailing_loop f else sfail)%m b1) =
      fst ((x <- ReadBits 1 ;; if x =? 0 then trailing_loop f else sfail)%m b2) /\
      alike (snd ((x <- ReadBits 1 ;; if x =? 0 then trailing_loop f else sfail)%m b1))
            (snd ((x <- ReadBits 1 ;; if x =? 0 then trailing_loop f else sfail)%m b2))).
    intros b1 b2 S _. revert b1 b2 S. 
    change (local (x <- ReadBits 1 ;; if x =? 0 then trailing_loop f else sfail)%m). local_tac. }
  unfold rbsp_trailing_bits. local_tac.
Qed.
#[export] Hint Resolve attempt_local ignored_local more_data_local trailing_local : local.
Lemma ParseHrdParameters_local : local ParseHrdParameters.
Proof. unfold ParseHrdParameters. local_tac. Qed.
#[export] Hint Resolve ParseHrdParameters_local : local.
Lemma ParseVuiParameters_local : local ParseVuiParameters.
Proof. unfold ParseVuiParameters, some_of. local_tac. Qed.
#[export] Hint Resolve ParseVuiParameters_local : local.
Lemma scaling_list_local : forall i v n f d, local (scaling_list i v n f d).
Proof.
  assert (L : forall n j i ls nx v f d, local (scaling_list_loop n j i ls nx v f d)).
  { induction n as [|n IH]; intros; cbn [scaling_list_loop]; local_tac. }
  intros. unfold scaling_list. local_tac.
Qed.
#[export] Hint Resolve scaling_list_local : local.
Lemma scaling_loop_local : forall n i s, local (scaling_loop n i s).
Proof. induction n as [|n IH]; intros; cbn [scaling_loop]; unfold scaling_entry; local_tac. Qed.
#[export] Hint Resolve scaling_loop_local : local.
Lemma ParseSps_local : local ParseSps.
Proof. unfold ParseSps, ParseSpsData, ParseSpsHigh, ParseSpsPoc1, ParseSpsCrop, some_of. cbv zeta. local_tac. Qed.
Lemma ParseSpsData_local : local ParseSpsData.
Proof. unfold ParseSpsData, ParseSpsHigh, ParseSpsPoc1, ParseSpsCrop, some_of. cbv zeta. local_tac. Qed.
#[export] Hint Resolve ParseSps_local ParseSpsData_local : local.
Lemma ParsePps_local : forall cfi, local (ParsePps cfi).
Proof. intros cfi. unfold ParsePps, ParsePpsExt, ParseSliceGroups. cbv zeta. local_tac. Qed.
#[export] Hint Resolve ParsePps_local : local.
Lemma drain_local : forall x, local (drain x).
Proof.
  assert (D : forall f x, local (drain_fuel f x)).
  { induction f as [|f IH]; intros x; cbn [drain_fuel]; [intros b1 b2 S; auto|local_tac]. }
  intros x. apply (local_left _ (fun n => drain_fuel (S (N.to_nat n)) x)). auto.
Qed.
#[export] Hint Resolve drain_local : local.
Lemma ParseSpsExtension_local : local ParseSpsExtension.
Proof. unfold ParseSpsExtension, ParseSpsExtensionData. cbv zeta. local_tac. Qed.
Lemma ParseSubsetSps_local : local ParseSubsetSps.
Proof. unfold ParseSubsetSps, ParseSubsetExt, ParseSpsSvcExtension, some_of. cbv zeta. local_tac. Qed.
Lemma ParsePrefixNalUnitRbsp_local : forall f ref use idr, local (ParsePrefixNalUnitRbsp f ref use idr).
Proof. intros. unfold ParsePrefixNalUnitRbsp, ParsePrefixNalUnitSvc. cbv zeta. local_tac. Qed.
Lemma ParseNalUnitHeader_local : local ParseNalUnitHeader.
Proof. unfold ParseNalUnitHeader, ParseNalUnitHeaderSvcExtension. cbv zeta. local_tac. Qed.
Lemma until_local : forall C (p : P C) stop, local p -> local (until p stop).
Proof.
  intros C p stop L. assert (U : forall f, local (until_fuel f p stop)).
  { induction f as [|f IH]; cbn [until_fuel]; [intros b1 b2 S; auto|local_tac]. }
  apply (local_left _ (fun n => until_fuel (S (N.to_nat n)) p stop)). auto.
Qed.
Lemma mod_loop_local : local mod_loop.
Proof. unfold mod_loop. apply until_local. unfold mod_round, pushed. local_tac. Qed.
Lemma mmco_loop_local : local mmco_loop.
Proof. unfold mmco_loop. apply until_local. unfold mmco_round, pushed. local_tac. Qed.
#[export] Hint Resolve mod_loop_local mmco_loop_local : local.
Lemma ParseRefPicListModification_local : forall t, local (ParseRefPicListModification t).
Proof. intros. unfold ParseRefPicListModification. cbv zeta. local_tac. Qed.
Lemma ParsePredWeightTable_local : forall cat t n0 n1, local (ParsePredWeightTable cat t n0 n1).
Proof. intros. unfold ParsePredWeightTable, pw_round. cbv zeta. local_tac. Qed.
Lemma ParseDecRefPicMarking_local : forall idr, local (ParseDecRefPicMarking idr).
Proof. intros. unfold ParseDecRefPicMarking. cbv zeta. local_tac. Qed.
Lemma found_local : forall A (o : option A), local (found o).
Proof. intros A [a|]; [apply local_ret|apply local_fail]. Qed.
#[export] Hint Resolve ParseSubsetSps_local ParsePrefixNalUnitRbsp_local ParseNalUnitHeader_local
  ParseRefPicListModification_local ParsePredWeightTable_local ParseDecRefPicMarking_local found_local : local.
Lemma ParseSliceHeader_local : forall ref nut st, local (ParseSliceHeader ref nut st).
Proof.
  intros. unfold ParseSliceHeader, slice_rest, slice_lead, slice_pic, slice_poc, slice_refs, slice_qp, slice_spqs,
    slice_dbk, slice_cycle, pushed, some_of. cbv zeta. local_tac.
Qed.
Lemma svc_local : forall h st, local (ParseSliceHeaderInScalableExtension h st).
Proof.
  intros. unfold ParseSliceHeaderInScalableExtension, svc_rest, svc_qzero, svc_refs, svc_ilayer, svc_modes, slice_lead,
    slice_pic, slice_poc, slice_dbk, slice_cycle, pushed, some_of. cbv zeta. local_tac.
Qed.
#[export] Hint Resolve ParseSliceHeader_local svc_local : local.

(** * With the state *)
Definition mlocal {A} (m : M A) : Prop := forall b1 b2 w, alike b1 b2 ->
  fst (m (b1, w)) = fst (m (b2, w)) /\ alike (fst (snd (m (b1, w)))) (fst (snd (m (b2, w)))) /\
  snd (snd (m (b1, w))) = snd (snd (m (b2, w))).
Lemma mlocal_bind : forall A B (p : M A) (f : A -> M B), mlocal p -> (forall a, mlocal (f a)) -> mlocal (sbind p f).
Proof.
  intros A B p f LP LF b1 b2 w S. unfold sbind. destruct (LP b1 b2 w S) as (E & S' & Ew).
  destruct (p (b1, w)) as [r1 [c1 w1]], (p (b2, w)) as [r2 [c2 w2]]. cbn [fst snd] in *. subst r2 w2.
  destruct r1; cbn [fst snd]; auto. apply LF. exact S'.
Qed.
Lemma mlocal_ret : forall A (a : A), mlocal (sret a).
Proof. intros A a b1 b2 w S. repeat split; apply S. Qed.
Lemma mlocal_if : forall A (c : bool) (p q : M A), mlocal p -> mlocal q -> mlocal (if c then p else q).
Proof. intros A []; auto. Qed.
Lemma mlocal_opt : forall A C (x : option A) (f : A -> M C) q,
  (forall a, mlocal (f a)) -> mlocal q -> mlocal (match x with Some a => f a | None => q end).
Proof. intros A C [a|] f q H1 H2; auto. Qed.
Lemma mlocal_change : forall f, mlocal (change f).
Proof. intros f b1 b2 w S. cbn. auto. Qed.
Lemma mlocal_onbuf : forall A (p : P A), local p -> mlocal (onbuf p).
Proof.
  intros A p L b1 b2 w S. unfold onbuf. destruct (L b1 b2 S) as [E S'].
  destruct (p b1), (p b2). cbn [fst snd] in *. auto.
Qed.
Lemma mlocal_stored : forall A (p : P A), local p -> mlocal (stored p).
Proof.
  intros A p L b1 b2 w S. unfold stored. destruct (L b1 b2 S) as [E S'].
  destruct (p b1) as [r1 c1], (p b2) as [r2 c2]. cbn [fst snd] in *. subst r2. destruct r1; cbn [fst snd]; auto.
Qed.
Lemma mlocal_storedu : forall A (p : pstate -> P (option A)), (forall st, local (p st)) -> mlocal (storedu p).
Proof.
  intros A p L b1 b2 w S. unfold storedu. destruct (L (w_st w) b1 b2 S) as [E S'].
  destruct (p _ b1) as [r1 c1], (p _ b2) as [r2 c2]. cbn [fst snd] in *. subst r2.
  destruct r1 as [[]| | | |]; cbn [fst snd]; auto.
Qed.
Lemma mlocal_nonnull : forall A (o : option A), mlocal (nonnull o).
Proof. intros A [a|] b1 b2 w S; cbn; auto. Qed.
Create HintDb mlocal discriminated.
#[export] Hint Resolve mlocal_ret mlocal_change mlocal_nonnull : mlocal.
Ltac mlocal_tac :=
  repeat match goal with
  | |- mlocal (sbind _ _) => apply mlocal_bind; [|intros ?]
  | |- mlocal (if _ then _ else _) => apply mlocal_if
  | |- mlocal (match _ with Some _ => _ | None => _ end) => apply mlocal_opt; [intros ?|]
  | |- mlocal (stored _) => apply mlocal_stored; solve [auto with local]
  | |- mlocal (storedu _) => apply mlocal_storedu; intros ?; solve [auto with local]
  | |- mlocal (onbuf _) => apply mlocal_onbuf; solve [auto with local]
  | |- mlocal _ => solve [auto with mlocal]
  end.
Lemma slice_layer_local : forall ref nut st, local (ParseSliceLayerWithoutPartitioningRbsp ref nut st).
Proof. intros. unfold ParseSliceLayerWithoutPartitioningRbsp. local_tac. Qed.
#[export] Hint Resolve slice_layer_local : local.
Lemma payload_local : forall h, mlocal (ParseNalUnitPayload h).
Proof. intros h. unfold ParseNalUnitPayload, ParseSliceLayerExtensionRbsp. cbv zeta. mlocal_tac. Qed.
Lemma header_local : mlocal nal_header.
Proof. unfold nal_header. mlocal_tac. Qed.
