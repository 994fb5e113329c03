(** Proofs: safety for every harmless parser state.  The lemmas follow those of NalUnitProofs,
    RtpProofs and EntryProofs, which are about the states that parsing produces. *)
From Coq Require Import NArith ZArith List Bool Lia ZifyBool ZifyNat ZifyN.
From Verif Require Import SpecBits Base BitBuffer SpecReader BitsLemmas BitBufferProofs
  ReaderProofs Rbsp SpecRbsp RbspProofs Framing SpecFraming FramingProofs Parser SpecSyntax ParserProofs Vui SpecVui VuiProofs SpecScaling
  TypesSps Sps SpecSps SpsProofs TypesPps Pps SpecPps PpsProofs
  TypesNal NalHeader SpecNalHeader NalHeaderProofs TypesExt Ext SpecExt ExtProofs
  TypesSlice SliceParts SpecSliceParts SlicePartsProofs TypesSliceHeader SliceHeader SpecSlice SliceProofs
  TypesSvcSlice SvcSlice SpecSvcSlice SvcSliceProofs
  TypesNalUnit NalUnit NalUnitProofs SpecNalUnit NalUnitProofs2 NalUnitProofs3 Rtp RtpProofs
  TypesEntry Entry EntryProofs SpecCallers.
Import ListNotations.
Open Scope N_scope.
Ltac Zify.zify_post_hook ::= Z.div_mod_to_equations.

Lemma depth_fits : forall s, depth_harmless s ->
  (-357913941 <= to_i32 (bit_depth_luma_minus8 s) <= 357913932)%Z.
Proof.
  intros s H. unfold depth_harmless in H. unfold to_i32.
  change (2 ^ 32) with 4294967296 in H. change (2 ^ 31) with 2147483648. change (2 ^ 32)%Z with 4294967296%Z.
  destruct (N.ltb_spec (bit_depth_luma_minus8 s) 2147483648); lia.
Qed.
Lemma slice_qp_harmless : forall s, depth_harmless s -> good (slice_qp s).
Proof.
  intros s U. apply depth_fits in U. set (x := to_i32 (bit_depth_luma_minus8 s)) in *.
  apply good_ext with (q := (q <- ReadSignedExponentialGolomb ;; guard (negb (q <? -51 - 6 * x)%Z) ;;;
    guard (negb (51 + 6 * x <? q)%Z) ;;; sret q)%m); [|good_tac].
  intros b. unfold slice_qp, sbind, sres. fold x. clearbody x.
  destruct (ReadSignedExponentialGolomb b) as [[q| |k| |] b1]; auto.
  rewrite (chk_i32_ok (6 * _)) by lia. cbv beta iota.
  rewrite (chk_i32_ok (-51 - _)) by lia. cbv beta iota.
  destruct (guard _ b1) as [[u| |k| |] b2]; auto.
  rewrite (chk_i32_ok (51 + _)) by lia. reflexivity.
Qed.
Lemma slice_cycle_harmless : forall s p, rate_harmless p -> good (slice_cycle s p).
Proof.
  intros s p R. unfold slice_cycle. destruct (has_cycle p) eqn:C; cbn [cond]; [|apply good_ret].
  unfold has_cycle in C. specialize (R ltac:(lia) ltac:(lia)).
  unfold getSliceGroupChangeCycleLen. cbv zeta. rewrite (u32_small (_ + 1)) by lia.
  replace (pps_slice_group_change_rate_minus1 p + 1 =? 0) with false by lia.
  intros b W. unfold sbind, sres. apply good_ReadBits. exact W.
Qed.
Lemma slice_rest_harmless : forall ref nut s p ld pic idr po red rf, depth_harmless s -> rate_harmless p ->
  good (slice_rest ref nut s p ld pic idr po red rf).
Proof.
  intros ref nut s p ld pic idr po red rf US UP. unfold slice_rest. cbv zeta.
  pose proof (slice_qp_harmless s US). pose proof (slice_cycle_harmless s p UP).
  pose proof slice_spqs_good. pose proof slice_dbk_good. good_tac.
Qed.
Lemma ParseSliceHeader_harmless : forall ref nut st, harmless st -> good (ParseSliceHeader ref nut st).
Proof.
  intros ref nut st [U1 U2]. unfold ParseSliceHeader.
  apply good_bind; [apply slice_lead_good|]. intro ld.
  apply found_bind_good. intros p Fp. rewrite mfind_lookup in Fp. apply U2 in Fp. destruct Fp as [Fp _].
  apply found_bind_good. intros s Fs. rewrite mfind_lookup in Fs. apply U1 in Fs.
  pose proof slice_pic_good. pose proof slice_poc_good. pose proof slice_refs_good.
  pose proof slice_rest_harmless. good_tac.
Qed.
Lemma svc_rest_harmless : forall h s p x e ld pic idr po red q, rate_harmless p ->
  good (svc_rest h s p x e ld pic idr po red q).
Proof.
  intros h s p x e ld pic idr po red q UP. unfold svc_rest. cbv zeta.
  pose proof (slice_cycle_harmless s p UP). pose proof slice_dbk_good.
  pose proof svc_ilayer_good. pose proof svc_modes_good. good_tac.
Qed.
Lemma svc_harmless : forall h st, harmless st -> good (ParseSliceHeaderInScalableExtension h st).
Proof.
  intros h st [_ U2]. unfold ParseSliceHeaderInScalableExtension.
  apply good_bind; [apply slice_lead_good|]. intro ld.
  apply found_bind_good. intros p Fp. rewrite mfind_lookup in Fp. apply U2 in Fp. destruct Fp as [Fp _].
  pose proof found_good. cbv zeta.
  pose proof slice_pic_good. pose proof slice_poc_good. pose proof svc_qzero_good.
  pose proof svc_rest_harmless. good_tac.
Qed.
Lemma ok_sps_harmless : forall s, ok_sps s -> depth_harmless s.
Proof. intros s O. apply ok_sps_use in O. destruct O as (_ & _ & O & _). left. lia. Qed.
Lemma ok_pps_harmless : forall p, ok_pps p -> rate_harmless p /\ counts_harmless p.
Proof.
  intros p O. split.
  - apply ok_pps_use in O. unfold pps_use, is_ue in O. intros _ _. lia.
  - destruct O as [ext V]. unfold valid_pps in V. conj. split; lia.
Qed.
Lemma ok_harmless : forall st, ok_state st -> harmless st.
Proof. intros st (S1 & S2 & _). split; intros id x H; eauto using ok_sps_harmless, ok_pps_harmless. Qed.
Lemma add_harmless_sps : forall s st, ok_sps s -> harmless st -> harmless (add_sps s st).
Proof.
  intros s st O (S1 & S2). split; cbn [add_sps st_sps st_pps st_subset_sps]; auto.
  intros id x H. rewrite lookup_minsert in H. destruct (_ =? id); [injection H as <-; auto using ok_sps_harmless|eauto].
Qed.
Lemma add_harmless_pps : forall s st, ok_pps s -> harmless st -> harmless (add_pps s st).
Proof.
  intros s st O (S1 & S2). split; cbn [add_pps st_sps st_pps st_subset_sps]; auto.
  intros id x H. rewrite lookup_minsert in H. destruct (_ =? id); [injection H as <-; auto using ok_pps_harmless|eauto].
Qed.
Lemma add_harmless_subset : forall s st, ok_subset s -> harmless st -> harmless (add_subset_sps s st).
Proof. intros s st O S. exact S. Qed.

Definition hgood {A} (m : M A) : Prop := forall b w, bb_wf b -> harmless (w_st w) ->
  match m (b, w) with
  | (Ok _, (b', w')) | (Null, (b', w')) => moves b b' /\ harmless (w_st w')
  | _ => False
  end.
Lemma hgood_bind : forall A B (p : M A) (f : A -> M B),
  hgood p -> (forall a, hgood (f a)) -> hgood (sbind p f).
Proof.
  intros A B p f G F b w W O. unfold sbind. specialize (G b w W O).
  destruct (p (b, w)) as [[a| |k| |] [b1 w1]]; auto. destruct G as [G1 G2].
  specialize (F a b1 w1 (moves_wf _ _ W G1) G2).
  destruct (f a (b1, w1)) as [[v| |k| |] [b2 w2]]; auto; destruct F as [F1 F2];
    (split; [eapply moves_trans; eauto|auto]).
Qed.
Lemma hgood_ret : forall A (a : A), hgood (sret a).
Proof. intros A a b w W O. cbn. split; [apply moves_refl; auto|auto]. Qed.
Lemma hgood_fail : forall A, hgood (@sfail (bb * world) A).
Proof. intros A b w W O. cbn. split; [apply moves_refl; auto|auto]. Qed.
Lemma hgood_nonnull : forall A (o : option A), hgood (nonnull o).
Proof. intros A [a|]; [apply hgood_ret|apply hgood_fail]. Qed.
Lemma hgood_onbuf : forall A (p : P A), good p -> hgood (onbuf p).
Proof.
  intros A p G b w W O. unfold onbuf. specialize (G b W).
  destruct (p b) as [[a| |k| |] b']; auto.
Qed.
Lemma hgood_stored : forall A (p : P A), good p -> hgood (stored p).
Proof.
  intros A p G b w W O. unfold stored. specialize (G b W).
  destruct (p b) as [[a| |k| |] b']; auto.
Qed.
Lemma hgood_storedu : forall A (p : pstate -> P (option A)),
  (forall st, harmless st -> good (p st)) -> hgood (storedu p).
Proof.
  intros A p G b w W O. unfold storedu. specialize (G _ O b W).
  destruct (p (w_st w) b) as [[[a|]| |k| |] b']; auto.
Qed.
Lemma hgood_update : forall A (p : P A) (ok : A -> Prop) (f : A -> pstate -> pstate) (pl : option A -> payload),
  good p -> (forall b v b', bb_wf b -> p b = (Ok v, b') -> ok v) ->
  (forall v st, ok v -> harmless st -> harmless (f v st)) ->
  hgood (sbind (stored p) (fun s =>
    sbind (match s with Some s => change (f s) | None => sret tt end) (fun _ => sret (pl s)))).
Proof.
  intros A p ok f pl G K F b w W O. unfold sbind, stored. specialize (G b W).
  destruct (p b) as [[a| |k| |] b'] eqn:E; auto; cbn; auto.
  split; [auto|]. apply F; auto. eauto.
Qed.
Lemma slice_layer_harmless : forall ref nut st, harmless st ->
  good (ParseSliceLayerWithoutPartitioningRbsp ref nut st).
Proof.
  intros. unfold ParseSliceLayerWithoutPartitioningRbsp. apply good_bind.
  - apply ParseSliceHeader_harmless. auto.
  - intros. apply good_ret.
Qed.
Lemma slice_ext_hgood : forall h, hgood (ParseSliceLayerExtensionRbsp h).
Proof.
  intros h. unfold ParseSliceLayerExtensionRbsp. destruct (tob _).
  { apply hgood_bind; [|intros; apply hgood_ret]. apply hgood_storedu. intros st O.
    apply svc_harmless, O. }
  destruct (tob _); [apply hgood_ret|].
  apply hgood_bind; [|intros; apply hgood_ret]. apply hgood_storedu. intros st O.
  apply ParseSliceHeader_harmless, O.
Qed.
Lemma payload_hgood : forall h, hgood (ParseNalUnitPayload h).
Proof.
  intros h. unfold ParseNalUnitPayload. cbv zeta.
  destruct (_ || _).
  { apply hgood_bind; [|intros; apply hgood_ret]. apply hgood_storedu. intros. apply slice_layer_harmless; auto. }
  destruct (_ =? 7).
  { apply (hgood_update _ ParseSps ok_sps add_sps (fun s => mkpayload None s None None None None));
      eauto using ParseSps_good, ParseSps_ok, add_harmless_sps. }
  destruct (_ =? 8).
  { apply (hgood_update _ (ParsePps 1) ok_pps add_pps (fun s => mkpayload None None s None None None));
      eauto using ParsePps_good, ParsePps_ok, add_harmless_pps. }
  destruct (_ =? 14).
  { destruct (tob _); [|apply hgood_ret]. destruct (nal_svc h); [|apply hgood_ret].
    apply hgood_bind; [|intros; apply hgood_ret]. apply hgood_storedu. intros. apply prefix_good. }
  destruct (_ =? 15).
  { apply (hgood_update _ ParseSubsetSps ok_subset add_subset_sps
      (fun s => mkpayload None None None None s None));
      eauto using ParseSubsetSps_good, ParseSubsetSps_ok, add_harmless_subset. }
  destruct (_ =? 20); [|apply hgood_ret].
  apply hgood_bind; [apply slice_ext_hgood|intros; apply hgood_ret].
Qed.
Lemma header_hgood : hgood nal_header.
Proof.
  unfold nal_header. apply hgood_bind; [|intros; apply hgood_nonnull].
  apply hgood_storedu. intros. apply ParseNalUnitHeader_good.
Qed.
Lemma offset_hgood : forall A (f : bb -> A), hgood (fun '(b, w) => (Ok (f b), (b, w))).
Proof. intros A f b w W O. split; [apply moves_refl; auto|auto]. Qed.
Lemma nalunit_hgood : forall ck, hgood (ParseNalUnit ck).
Proof.
  intros ck. unfold ParseNalUnit. apply hgood_bind.
  { destruct ck; [|apply hgood_ret]. apply hgood_bind; [|intros; apply hgood_ret].
    apply hgood_onbuf, checksum_good. }
  intros c. apply hgood_bind; [apply header_hgood|]. intros h.
  apply hgood_bind; [apply payload_hgood|]. intros p. apply offset_hgood.
Qed.
Lemma single_hgood : hgood ParseRtpSingle.
Proof.
  unfold ParseRtpSingle. apply hgood_bind; [apply header_hgood|intros h].
  apply hgood_bind; [apply payload_hgood|intros p; apply hgood_ret].
Qed.
Lemma fua_hgood : forall ref, hgood (ParseRtpFuA ref).
Proof.
  intros ref. unfold ParseRtpFuA. apply hgood_bind; [apply header_hgood|intros h].
  do 4 (apply hgood_bind; [apply hgood_onbuf, good_ReadBits; lia|intros ?]).
  destruct (_ =? 0); [apply hgood_ret|].
  apply hgood_bind; [apply payload_hgood|intros p; apply hgood_ret].
Qed.
Lemma round_hgood : hgood stapa_round.
Proof.
  unfold stapa_round. apply hgood_bind; [apply hgood_onbuf, good_ReadBits|intros size].
  apply hgood_bind; [apply hgood_onbuf|intros _].
  { intros b W. unfold guard. destruct (negb _); cbn; exists 0%nat; rewrite adv0 by auto; split; auto; lia. }
  apply hgood_bind; [apply header_hgood|intros h].
  apply hgood_bind; [apply payload_hgood|intros p; apply hgood_ret].
Qed.
Lemma stapa_loop_harmless : forall fuel ss hs ps b w, bb_wf b -> harmless (w_st w) ->
  (length (bb_rem b) <= 16 * fuel)%nat ->
  match stapa_loop fuel ss hs ps (b, w) with
  | (Ok _, (b', w')) | (Null, (b', w')) => moves b b' /\ harmless (w_st w')
  | _ => False
  end.
Proof.
  induction fuel as [|f IH]; intros ss hs ps b w W O L.
  - rewrite stapa_end by (auto; lia). split; [apply moves_refl|]; auto.
  - rewrite stapa_step by auto. destruct (length (bb_rem b) =? 0)%nat eqn:E.
    { split; [apply moves_refl|]; auto. }
    unfold sbind. pose proof (round_hgood b w W O) as G.
    destruct (stapa_round (b, w)) as [[[[s h] p]| |k| |] [b1 w1]] eqn:R; auto.
    destruct G as [MV O1]. pose proof (moves_wf _ _ W MV) as W1.
    apply round_inv in R; auto. destruct R as (L16 & _ & _ & R).
    pose proof (single_hgood (bb_adv b 16) w (bb_adv_wf _ _ W L16) O) as G. rewrite R in G.
    destruct G as [MV2 _].
    pose proof (moves_len _ _ (bb_adv_wf _ _ W L16) MV2) as L2.
    rewrite bb_adv_rem, skipn_length in L2 by auto.
    specialize (IH (s :: ss) (h :: hs) (p :: ps) b1 w1 W1 O1 ltac:(lia)).
    destruct (stapa_loop f (s :: ss) (h :: hs) (p :: ps) (b1, w1)) as [[r| |k| |] [b2 w2]]; auto;
      (split; [eapply moves_trans; [exact MV|tauto]|tauto]).
Qed.
Lemma stapa_hgood : hgood ParseRtpStapA.
Proof.
  unfold ParseRtpStapA. apply hgood_bind; [apply header_hgood|intros h].
  apply hgood_bind; [|intros [[ss hs] ps]; apply hgood_ret].
  intros b w W O. apply stapa_loop_harmless; auto.
  pose proof (bb_rem_length b W). unfold bb_count in *. lia.
Qed.
Definition hsafe {A} (m : M A) : Prop := forall b w, bb_wf b -> harmless (w_st w) ->
  match m (b, w) with
  | (Ok _, (b', w')) | (Null, (b', w')) => kept b b' /\ harmless (w_st w')
  | _ => False
  end.
Lemma hsafe_bind : forall A B (p : M A) (f : A -> M B),
  hsafe p -> (forall a, hsafe (f a)) -> hsafe (sbind p f).
Proof.
  intros A B p f G F b w W O. unfold sbind. specialize (G b w W O).
  destruct (p (b, w)) as [[a| |k| |] [b1 w1]]; auto. destruct G as [G1 G2].
  specialize (F a b1 w1 (proj1 G1) G2).
  destruct (f a (b1, w1)) as [[v| |k| |] [b2 w2]]; auto; destruct F as [F1 F2];
    (split; [eapply kept_trans; eauto|auto]).
Qed.
Lemma hsafe_of : forall A (m : M A), hgood m -> hsafe m.
Proof.
  intros A m G b w W O. specialize (G b w W O).
  destruct (m (b, w)) as [[v| |k| |] [b2 w2]]; auto; (split; [apply moves_kept; tauto|tauto]).
Qed.
Lemma rtp_hsafe : hsafe ParseRtp.
Proof.
  unfold ParseRtp. apply hsafe_bind; [apply hsafe_of, header_hgood|intros h].
  apply hsafe_bind.
  { intros b w W O. unfold onbuf. rewrite seek0 by auto. cbn [snd]. split; [|auto].
    destruct W as (W1 & W2 & W3 & W4). repeat split; auto; cbn; lia. }
  intros _. cbv zeta. destruct (_ <=? 23).
  { apply hsafe_of, hgood_bind; [apply single_hgood|intros; apply hgood_ret]. }
  destruct (_ =? 24).
  { apply hsafe_of, hgood_bind; [apply stapa_hgood|intros; apply hgood_ret]. }
  destruct (_ =? 28).
  { apply hsafe_of, hgood_bind; [apply fua_hgood|intros; apply hgood_ret]. }
  apply hsafe_of, hgood_ret.
Qed.
Lemma h_on_unit_safe : forall A a (m : M A) u w, hsafe m -> fits a u -> harmless (w_st w) ->
  match on_unit a m u w with
  | (Ok _, w') | (Null, w') => harmless (w_st w')
  | _ => False
  end.
Proof.
  intros A a m u w G F O. rewrite on_unit_eq by auto.
  specialize (G (start a (unesc u)) w (start_wf _ _ (fits_unesc _ _ F)) O).
  destruct (m (start a (unesc u), w)) as [[v| |k| |] [b' w']]; tauto.
Qed.
Lemma h_on_unit_good : forall A a (m : M A) u w, hgood m -> fits a u -> harmless (w_st w) ->
  match on_unit a m u w with
  | (Ok _, w') | (Null, w') => harmless (w_st w')
  | _ => False
  end.
Proof.
  intros A a m u w G F O. rewrite on_unit_eq by auto.
  specialize (G (start a (unesc u)) w (start_wf _ _ (fits_unesc _ _ F)) O).
  destruct (m (start a (unesc u), w)) as [[v| |k| |] [b' w']]; tauto.
Qed.
Section loop.
  Context (a ck : bool).
  Lemma h_loop_runs : forall data ix w, fits a data -> harmless (w_st w) ->
    (forall x, In x ix -> ni_payload x + ni_size x <= N.of_nat (length data)) ->
    exists l w', bitstream_loop a ck data ix w = (Ok l, w') /\ harmless (w_st w') /\
      runs (unit_parser a ck) (map (fun x => (ni_payload x, SpecFraming.slice (ni_payload x) (ni_size x) data)) ix) w l w'.
  Proof.
    intros data ix. induction ix as [|x ix IH]; intros w F O I.
    { exists [], w. split; [reflexivity|]. split; [auto|]. constructor. }
    cbn [bitstream_loop map]. unfold ParseNalUnitBytes.
    assert (Ix : ni_payload x + ni_size x <= N.of_nat (length data)) by (apply I; left; auto).
    rewrite unescaping_slice by auto. fold (unit_parser a ck).
    pose proof (h_on_unit_good _ a (ParseNalUnit ck) (SpecFraming.slice (ni_payload x) (ni_size x) data) w
      (nalunit_hgood ck) (slice_ok _ _ _ _ F) O) as G.
    fold (unit_parser a ck) in G.
    destruct (unit_parser a ck (SpecFraming.slice (ni_payload x) (ni_size x) data) w) as [[u| |k| |] w1] eqn:E; try tauto.
    - destruct (IH w1 F G) as (l & w2 & E2 & O2 & R2); [intros; apply I; right; auto|].
      rewrite E2. eexists. exists w2. split; [reflexivity|]. split; [auto|].
      replace (ni_size x) with (N.of_nat (length (SpecFraming.slice (ni_payload x) (ni_size x) data))) at 2
        by (rewrite slice_length by auto; lia).
      eapply runs_kept; eauto.
    - destruct (IH w1 F G) as (l & w2 & E2 & O2 & R2); [intros; apply I; right; auto|].
      exists l, w2. split; [auto|]. split; [auto|]. eapply runs_dropped; eauto.
  Qed.
End loop.
Lemma h_bitstream_runs : forall a ck data w, fits a data -> harmless (w_st w) ->
  exists ix l w', FindNaluIndices data (N.of_nat (length data)) = Ok ix /\
    ParseBitstream a ck data (N.of_nat (length data)) w = (Ok l, w') /\ harmless (w_st w') /\
    runs (unit_parser a ck) (found_units data ix) w l w'.
Proof.
  intros a ck data w F O. pose proof F as (_ & L & _). unfold ParseBitstream.
  rewrite FindNaluIndices_spec by lia. eexists.
  destruct (h_loop_runs a ck data (index_list data (N.of_nat (length data)) (poss data 0)) w F O)
    as (l & w' & E & O' & R).
  { intros x H. apply index_fits; auto. lia. }
  exists l, w'. auto.
Qed.
Lemma hgood_maybe : forall A (p : pstate -> P (option A)),
  (forall st, harmless st -> good (p st)) -> hgood (maybe p).
Proof.
  intros. unfold maybe. apply hgood_bind; [apply hgood_storedu; auto|intros; apply hgood_nonnull].
Qed.
Lemma on_bits_hgood : forall A (e : structure A), hgood (on_bits e).
Proof.
  intros A e. destruct e; cbn [on_bits];
    try (apply hgood_onbuf; auto with good; fail);
    try (apply hgood_maybe; intros; auto with good; fail).
  - apply hgood_maybe. intros. apply ParseSliceHeader_harmless. auto.
  - apply hgood_maybe. intros. apply slice_layer_harmless. auto.
  - apply hgood_maybe. intros. apply svc_harmless. auto.
  - apply hgood_bind; [apply slice_ext_hgood|intros; apply hgood_nonnull].
  - apply payload_hgood.
Qed.
