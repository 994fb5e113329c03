(** Proofs about the RTP packet parsers. *)
From Coq Require Import NArith ZArith List Bool Lia ZifyBool ZifyNat ZifyN.
From Verif Require Import SpecBits Base BitBuffer SpecReader BitsLemmas BitBufferProofs
  ReaderProofs RbspProofs Parser SpecSyntax ParserProofs TypesNal NalHeader NalHeaderProofs TypesSliceHeader SpecSlice
  TypesNalUnit NalUnit NalUnitProofs SpecNalUnit NalUnitProofs2 Rtp.
Import ListNotations.
Open Scope N_scope.
Ltac Zify.zify_post_hook ::= Z.div_mod_to_equations.

Lemma single_mgood : mgood ParseRtpSingle.
Proof.
  unfold ParseRtpSingle. apply mgood_bind; [apply header_mgood|intros h].
  apply mgood_bind; [apply payload_mgood|intros p; apply mgood_ret].
Qed.
Lemma fua_mgood : forall ref, mgood (ParseRtpFuA ref).
Proof.
  intros ref. unfold ParseRtpFuA. apply mgood_bind; [apply header_mgood|intros h].
  do 4 (apply mgood_bind; [apply mgood_onbuf, good_ReadBits; lia|intros ?]).
  destruct (_ =? 0); [apply mgood_ret|].
  apply mgood_bind; [apply payload_mgood|intros p; apply mgood_ret].
Qed.

(** One round of the STAP-A loop: 16 bits and at least a header are consumed. *)
Lemma size_read : forall b w, bb_wf b ->
  match onbuf (ReadBits 16) (b, w) with
  | (Ok s, (b', w')) => w' = w /\ s = bval (firstn 16 (bb_rem b)) /\ b' = bb_adv b 16 /\ (16 <= length (bb_rem b))%nat
  | (Null, (b', w')) => w' = w /\ b' = b /\ (length (bb_rem b) < 16)%nat
  | _ => False
  end.
Proof.
  intros b w W. unfold onbuf. rewrite ReadBits_spec by auto.
  destruct (rd_ok 16 b) eqn:R; unfold rd_ok in R.
  - repeat split. lia.
  - repeat split. lia.
Qed.
Lemma moves_len : forall b b', bb_wf b -> moves b b' -> (length (bb_rem b') <= length (bb_rem b))%nat.
Proof. intros b b' W (m & L & ->). rewrite bb_adv_rem by auto. rewrite skipn_length. lia. Qed.
(** One round of the loop as a function of its own. *)
Definition stapa_round : M (N * nalh * payload) := (
  size <- onbuf (ReadBits 16) ;;
  onbuf (fun b => guard (negb (RemainingBitCount b <? size * 8)) b) ;;;
  h <- nal_header ;;
  p <- ParseNalUnitPayload h ;;
  sret (size, h, p))%m.
Lemma stapa_step : forall f ss hs ps b w, bb_wf b ->
  stapa_loop (S f) ss hs ps (b, w) =
  if (length (bb_rem b) =? 0)%nat then (Ok (rev ss, rev hs, rev ps), (b, w))
  else sbind stapa_round (fun '(s, h, p) => stapa_loop f (s :: ss) (h :: hs) (p :: ps)) (b, w).
Proof.
  intros f ss hs ps b w W. cbn [stapa_loop]. rewrite RemainingBitCount_spec by auto.
  destruct (length (bb_rem b)) eqn:E; [reflexivity|]. replace (0 <? _) with true by lia.
  cbn [Nat.eqb]. unfold stapa_round, sbind, sret.
  destruct (onbuf (ReadBits 16) (b, w)) as [[sz| |k| |] s1]; try reflexivity.
  destruct (onbuf _ s1) as [[u| |k| |] s2]; try reflexivity.
  destruct (nal_header s2) as [[h| |k| |] s3]; try reflexivity.
  destruct (ParseNalUnitPayload h s3) as [[p| |k| |] s4]; reflexivity.
Qed.
Lemma stapa_end : forall f ss hs ps b w, bb_wf b -> length (bb_rem b) = 0%nat ->
  stapa_loop f ss hs ps (b, w) = (Ok (rev ss, rev hs, rev ps), (b, w)).
Proof.
  intros [|f] ss hs ps b w W L; cbn [stapa_loop]; rewrite RemainingBitCount_spec by auto;
    rewrite L; reflexivity.
Qed.
Lemma round_mgood : mgood stapa_round.
Proof.
  unfold stapa_round. apply mgood_bind; [apply mgood_onbuf, good_ReadBits|intros size].
  apply mgood_bind; [apply mgood_onbuf|intros _].
  { intros b W. unfold guard. destruct (negb _); cbn; exists 0%nat; rewrite adv0 by auto; split; auto; lia. }
  apply mgood_bind; [apply header_mgood|intros h].
  apply mgood_bind; [apply payload_mgood|intros p; apply mgood_ret].
Qed.
(** It is 16 bits of size, then what ParseRtpSingle does. *)
Lemma round_inv : forall b w s h p b' w', bb_wf b ->
  stapa_round (b, w) = (Ok (s, h, p), (b', w')) ->
  (16 <= length (bb_rem b))%nat /\ s = bval (firstn 16 (bb_rem b)) /\
  (16 + 8 * N.to_nat s <= length (bb_rem b))%nat /\
  ParseRtpSingle (bb_adv b 16, w) = (Ok (mkrtp_single h p), (b', w')).
Proof.
  intros b w s h p b' w' W H. unfold stapa_round in H. pose proof (size_read b w W) as SR.
  unfold sbind at 1 in H. destruct (onbuf (ReadBits 16) (b, w)) as [[sz| |k| |] [b1 w1]]; try discriminate.
  destruct SR as (-> & Es & -> & L).
  assert (W1 : bb_wf (bb_adv b 16)) by (apply bb_adv_wf; auto).
  unfold sbind at 1 in H. unfold onbuf at 1, guard at 1 in H.
  rewrite RemainingBitCount_spec in H by auto. rewrite bb_adv_rem, skipn_length in H by auto.
  destruct (N.ltb_spec (N.of_nat (length (bb_rem b) - 16)) (sz * 8)) as [LT|LT]; [discriminate H|].
  cbn [negb] in H. unfold sret at 1 in H. unfold ParseRtpSingle. unfold sbind, sret in *.
  destruct (nal_header (bb_adv b 16, w)) as [[hh| |k| |] s2]; try discriminate.
  destruct (ParseNalUnitPayload hh s2) as [[pp| |k| |] s3]; try discriminate.
  injection H as <- <- <- ->. split; [lia|]. split; [auto|]. split; [lia|reflexivity].
Qed.
Lemma round_ok : forall b w h p b' w', bb_wf b -> (16 <= length (bb_rem b))%nat ->
  (16 + 8 * N.to_nat (bval (firstn 16 (bb_rem b))) <= length (bb_rem b))%nat ->
  ParseRtpSingle (bb_adv b 16, w) = (Ok (mkrtp_single h p), (b', w')) ->
  stapa_round (b, w) = (Ok (bval (firstn 16 (bb_rem b)), h, p), (b', w')).
Proof.
  intros b w h p b' w' W L F H. unfold stapa_round. pose proof (size_read b w W) as SR.
  unfold sbind at 1. destruct (onbuf (ReadBits 16) (b, w)) as [[sz| |k| |] [b1 w1]]; try tauto; [|lia].
  destruct SR as (-> & -> & -> & _).
  assert (W1 : bb_wf (bb_adv b 16)) by (apply bb_adv_wf; auto).
  unfold sbind at 1. unfold onbuf at 1, guard at 1.
  rewrite RemainingBitCount_spec by auto. rewrite bb_adv_rem, skipn_length by auto.
  replace (N.of_nat (length (bb_rem b) - 16) <? _) with false by lia.
  cbn [negb]. unfold sret at 1. unfold ParseRtpSingle in H. unfold sbind, sret in *.
  destruct (nal_header (bb_adv b 16, w)) as [[hh| |k| |] s2]; try discriminate.
  destruct (ParseNalUnitPayload hh s2) as [[pp| |k| |] s3]; try discriminate.
  injection H as <- <- ->. reflexivity.
Qed.
Lemma stapa_loop_good : forall fuel ss hs ps b w, bb_wf b -> ok_state (w_st w) ->
  (length (bb_rem b) <= 16 * fuel)%nat ->
  match stapa_loop fuel ss hs ps (b, w) with
  | (Ok _, (b', w')) | (Null, (b', w')) => moves b b' /\ ok_state (w_st w')
  | _ => False
  end.
Proof.
  induction fuel as [|f IH]; intros ss hs ps b w W O L.
  - rewrite stapa_end by (auto; lia). split; [apply moves_refl|]; auto.
  - rewrite stapa_step by auto. destruct (length (bb_rem b) =? 0)%nat eqn:E.
    { split; [apply moves_refl|]; auto. }
    unfold sbind. pose proof (round_mgood b w W O) as G.
    destruct (stapa_round (b, w)) as [[[[s h] p]| |k| |] [b1 w1]] eqn:R; auto.
    destruct G as [MV O1]. pose proof (moves_wf _ _ W MV) as W1.
    apply round_inv in R; auto. destruct R as (L16 & _ & _ & R).
    pose proof (single_mgood (bb_adv b 16) w (bb_adv_wf _ _ W L16) O) as G. rewrite R in G.
    destruct G as [MV2 _].
    pose proof (moves_len _ _ (bb_adv_wf _ _ W L16) MV2) as L2.
    rewrite bb_adv_rem, skipn_length in L2 by auto.
    specialize (IH (s :: ss) (h :: hs) (p :: ps) b1 w1 W1 O1 ltac:(lia)).
    destruct (stapa_loop f (s :: ss) (h :: hs) (p :: ps) (b1, w1)) as [[r| |k| |] [b2 w2]]; auto;
      (split; [eapply moves_trans; [exact MV|tauto]|tauto]).
Qed.
Lemma stapa_mgood : mgood ParseRtpStapA.
Proof.
  unfold ParseRtpStapA. apply mgood_bind; [apply header_mgood|intros h].
  apply mgood_bind; [|intros [[ss hs] ps]; apply mgood_ret].
  intros b w W O. apply stapa_loop_good; auto.
  pose proof (bb_rem_length b W). unfold bb_count in *. lia.
Qed.

(** ParseRtp starts again at the beginning of the buffer. *)
Definition wsafe {A} (m : M A) : Prop := forall b w, bb_wf b -> ok_state (w_st w) ->
  match m (b, w) with
  | (Ok _, (b', w')) | (Null, (b', w')) => kept b b' /\ ok_state (w_st w')
  | _ => False
  end.
Lemma wsafe_bind : forall A B (p : M A) (f : A -> M B),
  wsafe p -> (forall a, wsafe (f a)) -> wsafe (sbind p f).
Proof.
  intros A B p f G F b w W O. unfold sbind. specialize (G b w W O).
  destruct (p (b, w)) as [[a| |k| |] [b1 w1]]; auto. destruct G as [G1 G2].
  specialize (F a b1 w1 (proj1 G1) G2).
  destruct (f a (b1, w1)) as [[v| |k| |] [b2 w2]]; auto; destruct F as [F1 F2];
    (split; [eapply kept_trans; eauto|auto]).
Qed.
Lemma wsafe_of : forall A (m : M A), mgood m -> wsafe m.
Proof.
  intros A m G b w W O. specialize (G b w W O).
  destruct (m (b, w)) as [[v| |k| |] [b2 w2]]; auto; (split; [apply moves_kept; tauto|tauto]).
Qed.
Lemma seek0 : forall b, bb_wf b -> Seek 0 0 b = (Ok tt, mkbb (bb_bytes b) 0 0 (bb_asserts b)).
Proof. intros b W. rewrite Seek_spec by auto. replace (_ && _) with true by lia. reflexivity. Qed.
Lemma rtp_wsafe : wsafe ParseRtp.
Proof.
  unfold ParseRtp. apply wsafe_bind; [apply wsafe_of, header_mgood|intros h].
  apply wsafe_bind.
  { intros b w W O. unfold onbuf. rewrite seek0 by auto. cbn [snd]. split; [|auto].
    destruct W as (W1 & W2 & W3 & W4). repeat split; auto; cbn; lia. }
  intros _. cbv zeta. destruct (_ <=? 23).
  { apply wsafe_of, mgood_bind; [apply single_mgood|intros; apply mgood_ret]. }
  destruct (_ =? 24).
  { apply wsafe_of, mgood_bind; [apply stapa_mgood|intros; apply mgood_ret]. }
  destruct (_ =? 28).
  { apply wsafe_of, mgood_bind; [apply fua_mgood|intros; apply mgood_ret]. }
  apply wsafe_of, mgood_ret.
Qed.
Lemma on_unit_safe : forall A a (m : M A) u w, wsafe m -> fits a u -> ok_state (w_st w) ->
  match on_unit a m u w with
  | (Ok _, w') | (Null, w') => ok_state (w_st w')
  | _ => False
  end.
Proof.
  intros A a m u w G F O. rewrite on_unit_eq by auto.
  specialize (G (start a (unesc u)) w (start_wf _ _ (fits_unesc _ _ F)) O).
  destruct (m (start a (unesc u), w)) as [[v| |k| |] [b' w']]; tauto.
Qed.
