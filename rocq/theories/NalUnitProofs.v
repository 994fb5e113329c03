(** Proofs about the NAL unit payload and NAL unit parsers. *)
From Coq Require Import NArith ZArith List Bool Lia ZifyBool ZifyNat ZifyN.
From Verif Require Import SpecBits Base BitBuffer SpecReader BitsLemmas BitBufferProofs
  ReaderProofs Rbsp RbspProofs ChecksumProofs Parser SpecSyntax ParserProofs TypesSps TypesPps Vui VuiProofs
  SpecSps Sps SpsProofs SpecPps Pps PpsProofs TypesNal NalHeader SpecNalHeader NalHeaderProofs
  TypesExt Ext SpecExt ExtProofs TypesSliceHeader SliceHeader SpecSlice SliceProofs TypesSvcSlice
  SvcSlice SpecSvcSlice SvcSliceProofs TypesNalUnit NalUnit.
Import ListNotations.
Open Scope N_scope.
Ltac Zify.zify_post_hook ::= Z.div_mod_to_equations.

(** * Maps *)
Lemma lookup_minsert : forall A (v : A) k id m,
  lookup id (minsert k v m) = if k =? id then Some v else lookup id m.
Proof.
  intros A v k id m. rewrite <- !mfind_lookup.
  induction m as [|[i x] t IH]; cbn [minsert mfind]; [reflexivity|].
  destruct (i =? k) eqn:E; cbn [mfind].
  - destruct (k =? id) eqn:F; [reflexivity|]. replace (i =? id) with false by lia. reflexivity.
  - rewrite IH. destruct (i =? id) eqn:F; [|reflexivity].
    replace (k =? id) with false by lia. reflexivity.
Qed.

(** * Parameter sets that parsers return are well formed *)
Lemma ParseSps_ok : forall b v b', bb_wf b -> ParseSps b = (Ok v, b') -> ok_sps v.
Proof.
  intros b v b' W H. unfold ParseSps in H. apply sbind_inv in H. destruct H as (s & b1 & Q & H).
  apply sbind_inv in H. destruct H as (u & b2 & _ & H). apply sret_inv in H. destruct H as [-> _].
  apply ParseSpsData_sound in Q; auto. destruct Q as (ls & V & _). exists ls. exact V.
Qed.
Lemma ParsePps_ok : forall b v b', bb_wf b -> ParsePps 1 b = (Ok v, b') -> ok_pps v.
Proof.
  intros b v b' W H. apply ParsePps_sound in H; auto. destruct H as (e & _ & V & _). exists e. exact V.
Qed.
Lemma ParseSubsetSps_ok : forall b v b', bb_wf b -> ParseSubsetSps b = (Ok v, b') -> ok_subset v.
Proof.
  intros b v b' W H. unfold ParseSubsetSps in H.
  apply sbind_inv in H. destruct H as (s & b1 & Q1 & H).
  destruct (ParseSpsData_sound b s b1 W Q1) as (ls & Vs & R1).
  pose proof (reads_wf _ _ _ R1) as W1.
  apply sbind_inv in H. destruct H as ([[[svc vui] one] mvui] & b2 & Q2 & H).
  cbn beta iota in H.
  apply sbind_inv in H. destruct H as (add & b3 & _ & H).
  apply sbind_inv in H. destruct H as (data & b4 & _ & H).
  apply sbind_inv in H. destruct H as (u & b5 & _ & H).
  apply sret_inv in H. destruct H as [-> _]. unfold ok_subset. cbn [ss_sps ss_svc].
  split; [exists ls; exact Vs|]. intros e ->. unfold ParseSubsetExt in Q2. cbv zeta in Q2.
  rewrite cat_eq in Q2.
  destruct ((profile_idc s =? 83) || (profile_idc s =? 86)).
  - apply sbind_inv in Q2. destruct Q2 as (x & b6 & Q & Q2).
    apply sbind_inv in Q2. destruct Q2 as (y & b7 & _ & Q2).
    apply sret_inv in Q2. destruct Q2 as [Q2 _]. injection Q2 as -> _ _ _.
    apply spssvc_sound in Q; auto. tauto.
  - exfalso. destruct ((profile_idc s =? 118) || (profile_idc s =? 128) || (profile_idc s =? 134)).
    { apply sbind_inv in Q2. destruct Q2 as (y & b7 & _ & Q2).
      apply sbind_inv in Q2. destruct Q2 as (z & b8 & _ & Q2). discriminate Q2. }
    destruct ((profile_idc s =? 138) || (profile_idc s =? 135)).
    { apply sbind_inv in Q2. destruct Q2 as (y & b7 & _ & Q2). discriminate Q2. }
    destruct (profile_idc s =? 139).
    { apply sbind_inv in Q2. destruct Q2 as (y & b7 & _ & Q2). discriminate Q2. }
    discriminate Q2.
Qed.
Lemma ok_add_sps : forall s st, ok_sps s -> ok_state st -> ok_state (add_sps s st).
Proof.
  intros s st O (S1 & S2 & S3). split; [|split]; cbn [add_sps st_sps st_pps st_subset_sps]; auto.
  intros id x H. rewrite lookup_minsert in H. destruct (_ =? id); [injection H as <-; auto|eauto].
Qed.
Lemma ok_add_pps : forall s st, ok_pps s -> ok_state st -> ok_state (add_pps s st).
Proof.
  intros s st O (S1 & S2 & S3). split; [|split]; cbn [add_pps st_sps st_pps st_subset_sps]; auto.
  intros id x H. rewrite lookup_minsert in H. destruct (_ =? id); [injection H as <-; auto|eauto].
Qed.
Lemma ok_add_subset : forall s st, ok_subset s -> ok_state st -> ok_state (add_subset_sps s st).
Proof.
  intros s st O (S1 & S2 & S3). split; [|split]; cbn [add_subset_sps st_sps st_pps st_subset_sps]; auto.
  intros id x H. rewrite lookup_minsert in H. destruct (_ =? id); [injection H as <-; auto|eauto].
Qed.
Lemma ok_new : ok_state new_state.
Proof. split; [|split]; intros id x H; discriminate H. Qed.

(** * Safety *)
Definition moves (b b' : bb) : Prop := exists m, (m <= length (bb_rem b))%nat /\ b' = bb_adv b m.
Lemma moves_refl : forall b, bb_wf b -> moves b b.
Proof. intros b W. exists 0%nat. rewrite adv0 by auto. split; [lia|auto]. Qed.
Lemma moves_wf : forall b b', bb_wf b -> moves b b' -> bb_wf b'.
Proof. intros b b' W (m & L & ->). apply bb_adv_wf; auto. Qed.
Lemma moves_trans : forall a b c, moves a b -> moves b c -> moves a c.
Proof.
  intros a b c (m & L & ->) (n & K & ->). exists (m + n)%nat. rewrite bb_adv_adv.
  rewrite bb_adv_rem, skipn_length in K by auto. split; [lia|auto].
Qed.
Lemma moves_kept : forall b b', bb_wf b -> moves b b' -> kept b b'.
Proof. intros b b' W (m & L & ->). apply kept_adv; auto. Qed.
(** No crash; the buffer moves forward; the state stays well formed. *)
Definition mgood {A} (m : M A) : Prop := forall b w, bb_wf b -> ok_state (w_st w) ->
  match m (b, w) with
  | (Ok _, (b', w')) | (Null, (b', w')) => moves b b' /\ ok_state (w_st w')
  | _ => False
  end.
Lemma mgood_bind : forall A B (p : M A) (f : A -> M B),
  mgood p -> (forall a, mgood (f a)) -> mgood (sbind p f).
Proof.
  intros A B p f G F b w W O. unfold sbind. specialize (G b w W O).
  destruct (p (b, w)) as [[a| |k| |] [b1 w1]]; auto. destruct G as [G1 G2].
  specialize (F a b1 w1 (moves_wf _ _ W G1) G2).
  destruct (f a (b1, w1)) as [[v| |k| |] [b2 w2]]; auto; destruct F as [F1 F2];
    (split; [eapply moves_trans; eauto|auto]).
Qed.
Lemma mgood_ret : forall A (a : A), mgood (sret a).
Proof. intros A a b w W O. cbn. split; [apply moves_refl; auto|auto]. Qed.
Lemma mgood_fail : forall A, mgood (@sfail (bb * world) A).
Proof. intros A b w W O. cbn. split; [apply moves_refl; auto|auto]. Qed.
Lemma mgood_nonnull : forall A (o : option A), mgood (nonnull o).
Proof. intros A [a|]; [apply mgood_ret|apply mgood_fail]. Qed.
Lemma mgood_onbuf : forall A (p : P A), good p -> mgood (onbuf p).
Proof.
  intros A p G b w W O. unfold onbuf. specialize (G b W).
  destruct (p b) as [[a| |k| |] b']; auto.
Qed.
Lemma mgood_stored : forall A (p : P A), good p -> mgood (stored p).
Proof.
  intros A p G b w W O. unfold stored. specialize (G b W).
  destruct (p b) as [[a| |k| |] b']; auto.
Qed.
Lemma mgood_storedu : forall A (p : pstate -> P (option A)),
  (forall st, ok_state st -> good (p st)) -> mgood (storedu p).
Proof.
  intros A p G b w W O. unfold storedu. specialize (G _ O b W).
  destruct (p (w_st w) b) as [[[a|]| |k| |] b']; auto.
Qed.
(** A parameter set parser followed by the update of the state. *)
Lemma mgood_update : forall A (p : P A) (ok : A -> Prop) (f : A -> pstate -> pstate) (pl : option A -> payload),
  good p -> (forall b v b', bb_wf b -> p b = (Ok v, b') -> ok v) ->
  (forall v st, ok v -> ok_state st -> ok_state (f v st)) ->
  mgood (sbind (stored p) (fun s =>
    sbind (match s with Some s => change (f s) | None => sret tt end) (fun _ => sret (pl s)))).
Proof.
  intros A p ok f pl G K F b w W O. unfold sbind, stored. specialize (G b W).
  destruct (p b) as [[a| |k| |] b'] eqn:E; auto; cbn; auto.
  split; [auto|]. apply F; auto. eauto.
Qed.

Lemma slice_layer_good : forall ref nut st, ok_state st ->
  good (ParseSliceLayerWithoutPartitioningRbsp ref nut st).
Proof.
  intros. unfold ParseSliceLayerWithoutPartitioningRbsp. apply good_bind.
  - apply ParseSliceHeader_good, ok_use_state. auto.
  - intros. apply good_ret.
Qed.
Lemma slice_ext_mgood : forall h, mgood (ParseSliceLayerExtensionRbsp h).
Proof.
  intros h. unfold ParseSliceLayerExtensionRbsp. destruct (tob _).
  { apply mgood_bind; [|intros; apply mgood_ret]. apply mgood_storedu. intros st O.
    apply svc_good, ok_svc_use_state, O. }
  destruct (tob _); [apply mgood_ret|].
  apply mgood_bind; [|intros; apply mgood_ret]. apply mgood_storedu. intros st O.
  apply ParseSliceHeader_good, ok_use_state, O.
Qed.
Lemma payload_mgood : forall h, mgood (ParseNalUnitPayload h).
Proof.
  intros h. unfold ParseNalUnitPayload. cbv zeta.
  destruct (_ || _).
  { apply mgood_bind; [|intros; apply mgood_ret]. apply mgood_storedu. intros. apply slice_layer_good; auto. }
  destruct (_ =? 7).
  { apply (mgood_update _ ParseSps ok_sps add_sps (fun s => mkpayload None s None None None None));
      eauto using ParseSps_good, ParseSps_ok, ok_add_sps. }
  destruct (_ =? 8).
  { apply (mgood_update _ (ParsePps 1) ok_pps add_pps (fun s => mkpayload None None s None None None));
      eauto using ParsePps_good, ParsePps_ok, ok_add_pps. }
  destruct (_ =? 14).
  { destruct (tob _); [|apply mgood_ret]. destruct (nal_svc h); [|apply mgood_ret].
    apply mgood_bind; [|intros; apply mgood_ret]. apply mgood_storedu. intros. apply prefix_good. }
  destruct (_ =? 15).
  { apply (mgood_update _ ParseSubsetSps ok_subset add_subset_sps
      (fun s => mkpayload None None None None s None));
      eauto using ParseSubsetSps_good, ParseSubsetSps_ok, ok_add_subset. }
  destruct (_ =? 20); [|apply mgood_ret].
  apply mgood_bind; [apply slice_ext_mgood|intros; apply mgood_ret].
Qed.
Lemma header_mgood : mgood nal_header.
Proof.
  unfold nal_header. apply mgood_bind; [|intros; apply mgood_nonnull].
  apply mgood_storedu. intros. apply ParseNalUnitHeader_good.
Qed.
Lemma checksum_good : good GetNaluChecksum.
Proof.
  intros b W. rewrite GetNaluChecksum_gen by auto. exists 0%nat. rewrite adv0 by auto. split; [lia|auto].
Qed.
Lemma offset_mgood : forall A (f : bb -> A), mgood (fun '(b, w) => (Ok (f b), (b, w))).
Proof. intros A f b w W O. split; [apply moves_refl; auto|auto]. Qed.
Lemma nalunit_mgood : forall ck, mgood (ParseNalUnit ck).
Proof.
  intros ck. unfold ParseNalUnit. apply mgood_bind.
  { destruct ck; [|apply mgood_ret]. apply mgood_bind; [|intros; apply mgood_ret].
    apply mgood_onbuf, checksum_good. }
  intros c. apply mgood_bind; [apply header_mgood|]. intros h.
  apply mgood_bind; [apply payload_mgood|]. intros p. apply offset_mgood.
Qed.

(** * What happens to the state *)
Definition add_opt {A} (f : A -> pstate -> pstate) (o : option A) (st : pstate) : pstate :=
  match o with Some a => f a st | None => st end.
Definition add_payload (p : payload) (st : pstate) : pstate :=
  add_opt add_sps (pl_sps p) (add_opt add_pps (pl_pps p) (add_opt add_subset_sps (pl_subset_sps p) st)).
(** [m] changes nothing of the state. *)
Definition passive {A} (m : M A) : Prop := forall b w, w_st (snd (snd (m (b, w)))) = w_st w.
Lemma passive_bind : forall A B (p : M A) (f : A -> M B), passive p -> (forall a, passive (f a)) ->
  passive (sbind p f).
Proof.
  intros A B p f G F b w. unfold sbind. specialize (G b w).
  destruct (p (b, w)) as [[a| |k| |] [b1 w1]]; auto. cbn [snd] in G. rewrite <- G. apply F.
Qed.
Lemma passive_ret : forall A (a : A), passive (sret a).
Proof. intros A a b w. reflexivity. Qed.
Lemma passive_nonnull : forall A (o : option A), passive (nonnull o).
Proof. intros A [a|] b w; reflexivity. Qed.
Lemma passive_stored : forall A (p : P A), passive (stored p).
Proof. intros A p b w. unfold stored. destruct (p b) as [[a| |k| |] b']; reflexivity. Qed.
Lemma passive_storedu : forall A (p : pstate -> P (option A)), passive (storedu p).
Proof. intros A p b w. unfold storedu. destruct (p (w_st w) b) as [[[a|]| |k| |] b']; reflexivity. Qed.
Lemma passive_onbuf : forall A (p : P A), passive (onbuf p).
Proof. intros A p b w. unfold onbuf. destruct (p b) as [r b']. reflexivity. Qed.
Lemma passive_header : passive nal_header.
Proof. apply passive_bind; [apply passive_storedu|intros; apply passive_nonnull]. Qed.
Lemma passive_slice_ext : forall h, passive (ParseSliceLayerExtensionRbsp h).
Proof.
  intros h. unfold ParseSliceLayerExtensionRbsp. destruct (tob _).
  { apply passive_bind; [apply passive_storedu|intros; apply passive_ret]. }
  destruct (tob _); [apply passive_ret|].
  apply passive_bind; [apply passive_storedu|intros; apply passive_ret].
Qed.

Lemma payload_state : forall h b w p b' w', ParseNalUnitPayload h (b, w) = (Ok p, (b', w')) ->
  w_st w' = add_payload p (w_st w).
Proof.
  intros h b w p b' w' H.
  assert (K : forall A (m : M A) (f : A -> payload), passive m ->
    (forall a, pl_sps (f a) = None /\ pl_pps (f a) = None /\ pl_subset_sps (f a) = None) ->
    sbind m (fun a => sret (f a)) (b, w) = (Ok p, (b', w')) -> w_st w' = add_payload p (w_st w)).
  { intros A m f Pm Pf E. apply sbind_inv in E. destruct E as (a & [b1 w1] & E1 & E2).
    inversion E2; subst. specialize (Pm b w). rewrite E1 in Pm. cbn [snd] in Pm.
    unfold add_payload. destruct (Pf a) as (-> & -> & ->). exact Pm. }
  unfold ParseNalUnitPayload in H. cbv zeta in H.
  destruct (_ || _).
  { eapply K in H; [exact H|apply passive_storedu|auto]. }
  destruct (_ =? 7).
  { unfold sbind, stored, change, sret in H. destruct (ParseSps b) as [[a| |k| |] b1]; inversion H; reflexivity. }
  destruct (_ =? 8).
  { unfold sbind, stored, change, sret in H. destruct (ParsePps 1 b) as [[a| |k| |] b1]; inversion H; reflexivity. }
  destruct (_ =? 14).
  { destruct (tob _); [|inversion H; reflexivity]. destruct (nal_svc h); [|inversion H; reflexivity].
    eapply K in H; [exact H|apply passive_storedu|auto]. }
  destruct (_ =? 15).
  { unfold sbind, stored, change, sret in H. destruct (ParseSubsetSps b) as [[a| |k| |] b1]; inversion H; reflexivity. }
  destruct (_ =? 20); [|inversion H; reflexivity].
  eapply K in H; [exact H|apply passive_slice_ext|auto].
Qed.
(** What is stored where. *)
Lemma payload_kinds : forall h b w p b' w', ParseNalUnitPayload h (b, w) = (Ok p, (b', w')) ->
  (pl_slice p <> None -> nal_unit_type h = 1 \/ nal_unit_type h = 5) /\
  (pl_sps p <> None -> nal_unit_type h = 7) /\
  (pl_pps p <> None -> nal_unit_type h = 8) /\
  (pl_prefix p <> None -> nal_unit_type h = 14) /\
  (pl_subset_sps p <> None -> nal_unit_type h = 15) /\
  (pl_slice_ext p <> None -> nal_unit_type h = 20).
Proof.
  intros h b w p b' w' H. unfold ParseNalUnitPayload in H. cbv zeta in H.
  assert (X : forall A B (x : M A) (f : A -> B) y s, sbind x (fun a => sret (f a)) s = (Ok y, (b', w')) ->
    exists a, y = f a).
  { intros A B x f y s E. apply sbind_inv in E. destruct E as (a & s1 & _ & E). inversion E; eauto. }
  assert (Y : forall A (x : M A) (k : A -> M unit) (f : A -> payload) s,
    sbind x (fun a => sbind (k a) (fun _ => sret (f a))) s = (Ok p, (b', w')) -> exists a, p = f a).
  { intros A x k f s E. apply sbind_inv in E. destruct E as (a & s1 & _ & E). apply X in E.
    destruct E; eauto. }
  destruct (_ || _) eqn:T1.
  { apply X in H. destruct H as (a & ->). cbn. repeat split; try congruence; lia. }
  destruct (_ =? 7) eqn:T2.
  { apply Y in H. destruct H as (a & ->). cbn. repeat split; try congruence; lia. }
  destruct (_ =? 8) eqn:T3.
  { apply Y in H. destruct H as (a & ->). cbn. repeat split; try congruence; lia. }
  destruct (_ =? 14) eqn:T4.
  { destruct (tob _); [destruct (nal_svc h)|].
    - apply X in H. destruct H as (a & ->). cbn. repeat split; try congruence; lia.
    - inversion H. cbn. repeat split; try congruence; lia.
    - inversion H. cbn. repeat split; try congruence; lia. }
  destruct (_ =? 15) eqn:T5.
  { apply Y in H. destruct H as (a & ->). cbn. repeat split; try congruence; lia. }
  destruct (_ =? 20) eqn:T6.
  { apply X in H. destruct H as (a & ->). cbn. repeat split; try congruence; lia. }
  inversion H. cbn. repeat split; try congruence; lia.
Qed.

(** * The counter only counts *)
Definition counts {A} (m : M A) : Prop := forall b st c, c < 2 ^ 32 ->
  w_unimplemented (snd (snd (m (b, mkw st 0)))) < 2 ^ 32 /\
  m (b, mkw st c) =
  let '(r, (b', w')) := m (b, mkw st 0) in
  (r, (b', mkw (w_st w') (u32 (c + w_unimplemented w')))).
Lemma mkw_eta : forall w, mkw (w_st w) (w_unimplemented w) = w.
Proof. destruct w; reflexivity. Qed.
Lemma u32_id : forall c, c < 2 ^ 32 -> u32 c = c.
Proof. intros. unfold u32. apply N.mod_small. auto. Qed.
Lemma counts_bind : forall A B (p : M A) (f : A -> M B), counts p -> (forall a, counts (f a)) ->
  counts (sbind p f).
Proof.
  intros A B p f G F b st c C. destruct (G b st c C) as [G0 G1]. unfold sbind. rewrite G1.
  destruct (p (b, mkw st 0)) as [[a| |k| |] [b1 w1]]; cbn [snd] in *; auto.
  assert (C1 : u32 (c + w_unimplemented w1) < 2 ^ 32) by (unfold u32; lia).
  destruct (F a b1 (w_st w1) _ C1) as [F0 F1]. rewrite F1.
  destruct (F a b1 (w_st w1) _ G0) as [_ F2]. rewrite mkw_eta in F2. rewrite F2.
  destruct (f a (b1, mkw (w_st w1) 0)) as [r [b2 w2]]. cbn [snd w_unimplemented w_st] in *.
  split; [unfold u32; lia|]. do 3 f_equal. unfold u32. lia.
Qed.
Lemma counts_nop : forall A (m : M A), (forall b w, snd (snd (m (b, w))) = w) ->
  (forall b st c c', fst (m (b, mkw st c)) = fst (m (b, mkw st c')) /\
     fst (snd (m (b, mkw st c))) = fst (snd (m (b, mkw st c')))) -> counts m.
Proof.
  intros A m K1 K2 b st c C. pose proof (K1 b (mkw st 0)) as Q0. pose proof (K1 b (mkw st c)) as Q1.
  destruct (K2 b st c 0) as [Q2 Q3].
  destruct (m (b, mkw st 0)) as [r [b1 w1]]. destruct (m (b, mkw st c)) as [r2 [b2 w2]].
  cbn [fst snd] in *. subst. cbn [w_unimplemented w_st]. split; [lia|].
  rewrite N.add_0_r, u32_id by auto. reflexivity.
Qed.
Lemma counts_ret : forall A (a : A), counts (sret a).
Proof. intros. apply counts_nop; cbn; auto. Qed.
Lemma counts_fail : forall A, counts (@sfail (bb * world) A).
Proof. intros. apply counts_nop; cbn; auto. Qed.
Lemma counts_nonnull : forall A (o : option A), counts (nonnull o).
Proof. intros A [a|]; [apply counts_ret|apply counts_fail]. Qed.
Lemma counts_onbuf : forall A (p : P A), counts (onbuf p).
Proof.
  intros. apply counts_nop; intros; unfold onbuf; destruct (p b); auto.
Qed.
Lemma counts_stored : forall A (p : P A), counts (stored p).
Proof.
  intros. apply counts_nop; intros; unfold stored; destruct (p b) as [[a| |k| |] b']; auto.
Qed.
Lemma counts_storedu : forall A (p : pstate -> P (option A)), counts (storedu p).
Proof.
  intros A p b st c C. unfold storedu. cbn [w_st].
  destruct (p st b) as [[[a|]| |k| |] b']; cbn [snd w_unimplemented w_st report];
    (split; [try (unfold u32; lia); lia|]); unfold report; cbn [w_st w_unimplemented];
    rewrite ?N.add_0_r, ?(u32_id c C); reflexivity.
Qed.
Lemma counts_change : forall f, counts (change f).
Proof.
  intros f b st c C. cbn. split; [lia|]. rewrite N.add_0_r, u32_id by auto. reflexivity.
Qed.
Lemma counts_header : counts nal_header.
Proof. apply counts_bind; [apply counts_storedu|intros; apply counts_nonnull]. Qed.
Lemma counts_slice_ext : forall h, counts (ParseSliceLayerExtensionRbsp h).
Proof.
  intros h. unfold ParseSliceLayerExtensionRbsp. destruct (tob _).
  { apply counts_bind; [apply counts_storedu|intros; apply counts_ret]. }
  destruct (tob _); [apply counts_ret|].
  apply counts_bind; [apply counts_storedu|intros; apply counts_ret].
Qed.
Lemma counts_payload : forall h, counts (ParseNalUnitPayload h).
Proof.
  intros h. unfold ParseNalUnitPayload. cbv zeta.
  assert (U : forall A (o : option A) f, counts (match o with Some s => change (f s) | None => sret tt end)).
  { intros A [s|] f; [apply counts_change|apply counts_ret]. }
  repeat match goal with
  | |- counts (if ?c then _ else _) => destruct c
  | |- counts (match ?c with Some _ => _ | None => _ end) => first [apply U|destruct c]
  | |- counts (sbind _ _) => apply counts_bind; [|intros]
  | |- counts (sret _) => apply counts_ret
  | |- counts (stored _) => apply counts_stored
  | |- counts (storedu _) => apply counts_storedu
  | |- counts (ParseSliceLayerExtensionRbsp _) => apply counts_slice_ext
  end.
Qed.
Lemma counts_offset : forall A (f : bb -> A), counts (fun '(b, w) => (Ok (f b), (b, w))).
Proof. intros. apply counts_nop; auto. Qed.
Lemma counts_nalunit : forall ck, counts (ParseNalUnit ck).
Proof.
  intros ck. unfold ParseNalUnit. apply counts_bind.
  { destruct ck; [|apply counts_ret]. apply counts_bind; [apply counts_onbuf|intros; apply counts_ret]. }
  intros c. apply counts_bind; [apply counts_header|]. intros h.
  apply counts_bind; [apply counts_payload|]. intros p. apply counts_offset.
Qed.
