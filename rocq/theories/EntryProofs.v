(** Proofs about the parsers of single syntax structures called on bytes. *)
From Coq Require Import NArith ZArith List Bool Lia ZifyBool ZifyNat ZifyN.
From Verif Require Import SpecBits Base BitBuffer SpecReader BitsLemmas BitBufferProofs
  ReaderProofs Rbsp SpecRbsp RbspProofs Parser SpecSyntax ParserProofs Vui SpecVui VuiProofs SpecScaling
  TypesSps Sps SpecSps SpsProofs TypesPps Pps SpecPps PpsProofs
  TypesNal NalHeader SpecNalHeader NalHeaderProofs TypesExt Ext SpecExt ExtProofs
  TypesSlice SliceParts SpecSliceParts SlicePartsProofs TypesSliceHeader SliceHeader SpecSlice SliceProofs
  TypesSvcSlice SvcSlice SpecSvcSlice SvcSliceProofs PropsSlice PropsSvcSlice
  TypesNalUnit NalUnit NalUnitProofs SpecNalUnit NalUnitProofs2 SpecConform LocalProofs
  TypesEntry Entry SpecEntry.
Import ListNotations.
Open Scope N_scope.
Ltac Zify.zify_post_hook ::= Z.div_mod_to_equations.

Lemma mgood_maybe : forall A (p : pstate -> P (option A)),
  (forall st, ok_state st -> good (p st)) -> mgood (maybe p).
Proof.
  intros. unfold maybe. apply mgood_bind; [apply mgood_storedu; auto|intros; apply mgood_nonnull].
Qed.
Lemma on_bits_mgood : forall A (e : structure A), mgood (on_bits e).
Proof.
  intros A e. destruct e; cbn [on_bits];
    try (apply mgood_onbuf; auto with good; fail);
    try (apply mgood_maybe; intros; auto with good; fail).
  - apply mgood_maybe. intros. apply ParseSliceHeader_good, ok_use_state. auto.
  - apply mgood_maybe. intros. apply slice_layer_good. auto.
  - apply mgood_maybe. intros. apply svc_good, ok_svc_use_state. auto.
  - apply mgood_bind; [apply slice_ext_mgood|intros; apply mgood_nonnull].
  - apply payload_mgood.
Qed.

Definition keeps {A} (m : M A) : Prop := forall b w, w_st (snd (snd (m (b, w)))) = w_st w.
Lemma keeps_bind : forall A B (p : M A) (f : A -> M B), keeps p -> (forall a, keeps (f a)) -> keeps (sbind p f).
Proof.
  intros A B p f Kp Kf b w. unfold sbind. specialize (Kp b w). destruct (p (b, w)) as [r [b1 w1]].
  cbn [snd] in Kp. destruct r; cbn [snd]; auto. rewrite Kf. auto.
Qed.
Lemma keeps_ret : forall A (a : A), keeps (sret a).
Proof. intros A a b w. reflexivity. Qed.
Lemma keeps_nonnull : forall A (o : option A), keeps (nonnull o).
Proof. intros A [a|] b w; reflexivity. Qed.
Lemma keeps_onbuf : forall A (p : P A), keeps (onbuf p).
Proof. intros A p b w. unfold onbuf. destruct (p b); reflexivity. Qed.
Lemma keeps_storedu : forall A (p : pstate -> P (option A)), keeps (storedu p).
Proof. intros A p b w. unfold storedu. destruct (p (w_st w) b) as [[[a|]| | | |] b1]; reflexivity. Qed.
Lemma keeps_maybe : forall A (p : pstate -> P (option A)), keeps (maybe p).
Proof. intros. unfold maybe. apply keeps_bind; [apply keeps_storedu|intros; apply keeps_nonnull]. Qed.
Lemma keeps_ext : forall h, keeps (ParseSliceLayerExtensionRbsp h).
Proof.
  intros h. unfold ParseSliceLayerExtensionRbsp. destruct (tob _); [|destruct (tob _)];
    repeat (apply keeps_bind; [apply keeps_storedu|intros]); apply keeps_ret.
Qed.
Lemma on_bits_keeps : forall A (e : structure A), is_payload e = false -> keeps (on_bits e).
Proof.
  intros A e E. destruct e; cbn [on_bits]; try discriminate; try apply keeps_onbuf; try apply keeps_maybe.
  apply keeps_bind; [apply keeps_ext|intros; apply keeps_nonnull].
Qed.

Lemma onbuf_inv : forall A (p : P A) b w v b' w', onbuf p (b, w) = (Ok v, (b', w')) ->
  p b = (Ok v, b') /\ w' = w.
Proof. intros. unfold onbuf in H. destruct (p b) as [r b1]. inversion H; subst; auto. Qed.
Lemma maybe_inv : forall A (p : pstate -> P (option A)) b w v b' w', maybe p (b, w) = (Ok v, (b', w')) ->
  p (w_st w) b = (Ok (Some v), b') /\ w' = w.
Proof.
  intros. unfold maybe, sbind, storedu in H. destruct (p (w_st w) b) as [[[a|]| | | |] b1]; cbn in H;
    try discriminate H. inversion H; subst; auto.
Qed.
Lemma onbuf_intro : forall A (p : P A) b w v b', p b = (Ok v, b') -> onbuf p (b, w) = (Ok v, (b', w)).
Proof. intros. unfold onbuf. rewrite H. reflexivity. Qed.
Lemma maybe_intro : forall A (p : pstate -> P (option A)) b w v b', p (w_st w) b = (Ok (Some v), b') ->
  maybe p (b, w) = (Ok v, (b', w)).
Proof. intros. unfold maybe, sbind, storedu. rewrite H. reflexivity. Qed.

Lemma prefsvc_as_read : forall ref use idr b v b', bb_wf b ->
  ParsePrefixNalUnitSvc ref use idr b = (Ok (Some v), b') ->
  exists ds b1, reads b (enc_prefsvc v ds) b1 /\ prefsvc_read ref use idr v ds /\
    (ref <> 0 -> at_end (bb_rem b1)).
Proof.
  intros ref use idr b v b' W H. apply prefsvc_sound in H; [|auto].
  destruct H as (ds & b1 & R & _ & Q1 & Q2 & Q3 & Q4 & Q5). exists ds, b1. split; [exact R|].
  unfold prefsvc_read. destruct (ref =? 0) eqn:Er; cbn [negb] in Q5.
  - split; [|lia]. repeat (split; [assumption|]). destruct Q5 as (K1 & K2 & K3 & _). split; [|exact K3].
    destruct v as [v1 v2 v3 v4 v5 v6]. cbn in *. subst. apply N.eqb_eq in Er. rewrite Er. reflexivity.
  - destruct Q5 as (K1 & K2 & K3 & K4). split; [|auto]. repeat (split; [assumption|]). exact K3.
Qed.
Lemma prefsvc_then : forall ref use idr v ds rest b, bb_wf b -> valid_prefsvc ref use idr v ds ->
  prefsvc_read ref use idr v ds -> only_stop rest -> bb_rem b = enc_prefsvc v ds ++ rest ->
  exists b', ParsePrefixNalUnitSvc ref use idr b = (Ok (Some v), b').
Proof.
  intros ref use idr v ds rest b W V R (k & K & ->) E.
  assert (Z : ref = 0 -> ds = []).
  { intros ->. destruct R as (_ & _ & _ & _ & _ & R). exact R. }
  destruct (prefsvc_complete ref use idr v ds k V K Z b W E) as (m & _ & H). eauto.
Qed.

Lemma on_bits_sound : forall A (e : structure A) b w v b' w', bb_wf b -> ok_state (w_st w) ->
  on_bits e (b, w) = (Ok v, (b', w')) -> understood e v ->
  exists c b1, reads b c b1 /\ coding false e (w_st w) v c (bb_rem b1).
Proof.
  intros A e b w v b' w' W O H U.
  assert (LF : forall ls, lists_ok false ls) by (intros ls D; discriminate D).
  destruct e; cbn [on_bits coding understood] in *; try contradiction;
    try (apply onbuf_inv in H; destruct H as [H ->]); try (apply maybe_inv in H; destruct H as [H ->]).
  - apply ParseHrdParameters_sound in H; [|auto]. destruct H as [V R]. exists (enc_hrd v), b'. auto.
  - apply ParseVuiParameters_sound in H; [|auto]. destruct H as [V R]. exists (enc_vui v), b'. auto.
  - apply ParseSpsData_sound in H; [|auto]. destruct H as (ls & V & R). exists (enc_sps v ls), b'. eauto.
  - apply trailing_inv in H; [|auto with good|auto]. destruct H as (b1 & m & H & _).
    apply ParseSpsData_sound in H; [|auto]. destruct H as (ls & V & R). exists (enc_sps v ls), b1. eauto.
  - apply ParsePps_sound in H; [|auto]. destruct H as (ext & b1 & V & R & _ & X).
    exists (enc_pps v ext), b1. split; [exact R|]. exists ext. split; [exact V|]. split; [reflexivity|].
    destruct ext; auto.
  - apply trailing_inv in H; [|auto with good|auto]. destruct H as (b1 & m & H & _).
    apply spsext_sound in H; [|auto]. destruct H as [V R]. exists (enc_spsext v), b1. auto.
  - apply spssvc_sound in H; [|auto]. destruct H as [V R]. exists (enc_spssvc v), b'. auto.
  - apply ParseSubsetSps_sound in H; [|auto|auto]. destruct H as (ls & ds & b1 & V & R & X & _).
    exists (enc_subsps v ls ds), b1. split; [exact R|]. exists ls, ds. split; [exact V|]. split; [apply LF|].
    split; [reflexivity|]. split; [exact X|]. intros D; discriminate D.
  - apply ParseNalUnitHeader_sound in H; [|auto]. destruct H as [V R]. exists (enc_nalh v), b'. auto.
  - apply svc_ext_sound in H; [|auto]. destruct H as [V R]. exists (enc_svc_ext v), b'. auto.
  - apply prefsvc_as_read in H; [|auto]. destruct H as (ds & b1 & R & V & X).
    exists (enc_prefsvc v ds), b1. split; [exact R|]. exists ds. split; [exact V|]. split; [reflexivity|].
    split; [exact X|]. intros D; discriminate D.
  - unfold ParsePrefixNalUnitRbsp in H. destruct (svc_extension_flag =? 1) eqn:F.
    + apply sbind_inv in H. destruct H as (r & b2 & H & H2). unfold sret in H2.
      destruct r as [x|]; [|discriminate H2]. inversion H2; subst; clear H2.
      apply prefsvc_as_read in H; [|auto]. destruct H as (ds & b1 & R & V & X).
      exists (enc_prefsvc x ds), b1. split; [exact R|]. exists x, ds. apply N.eqb_eq in F. rewrite F.
      split; [reflexivity|]. split; [exact V|]. split; [reflexivity|]. split; [exact X|]. intros D; discriminate D.
    + unfold sret in H. inversion H; subst. exists [], b'. split; [apply reads_refl; auto|auto].
  - apply rplm_sound in H; [|auto]. destruct H as (c0 & c1 & V & E & R).
    exists (enc_rplm slice_type c0 c1), b'. split; [exact R|]. exists c0, c1. auto.
  - apply pwt_sound in H; [|auto]. destruct H as (ld & cd & w0 & w1 & V & E & R).
    eexists _, b'. split; [exact R|]. exists ld, cd, w0, w1. auto.
  - apply drpm_sound in H; [|auto]. destruct H as (m & V & E & R).
    exists (enc_marking m), b'. split; [exact R|]. exists m. auto.
  - apply slice_sound in H; [|auto|apply ok_use_state; auto]. destruct H as (Nt & s & p & x & Ac & V & E & R).
    unfold valid_in, reported_in, enc_in. eexists _, b'. split; [exact R|]. split; [exact Nt|]. exists x.
    split; [exists s, p; auto|]. rewrite Ac. subst v. auto.
  - unfold ParseSliceLayerWithoutPartitioningRbsp in H. apply sbind_inv in H.
    destruct H as (r & b1 & H & H2). unfold sret in H2. destruct r as [y|]; [|discriminate H2].
    inversion H2; subst; clear H2.
    apply slice_sound in H; [|auto|apply ok_use_state; auto]. destruct H as (Nt & s & p & x & Ac & V & E & R).
    unfold valid_in, reported_in, enc_in. eexists _, b'. split; [exact R|]. split; [exact Nt|]. exists x, y.
    split; [exists s, p; auto|]. rewrite Ac. subst y. auto.
  - apply svc_sound in H; [|auto|apply ok_svc_use_state; auto]. destruct H as (c & x & Ac & V & E & R).
    unfold svc_valid_in, svc_reported_in, svc_enc_in. eexists _, b'. split; [exact R|]. exists x.
    split; [exists c; auto|]. change (svc_id x) with (pic_parameter_set_id (v_lead (fst x))). rewrite Ac. auto.
  - apply sbind_inv in H. destruct H as (r & s1 & H & H2). destruct r as [y|]; [|discriminate H2].
    cbn in H2. inversion H2; subst; clear H2. unfold ParseSliceLayerExtensionRbsp in H.
    destruct (tob (svc_extension_flag h)) eqn:T.
    + apply sbind_inv in H. destruct H as (r & s1 & H & H2). unfold sret in H2. inversion H2; subst; clear H2.
      destruct r as [y|]; [|exfalso; apply U; reflexivity].
      unfold storedu in H. destruct (ParseSliceHeaderInScalableExtension h (w_st w) b) as [[[a|]| | | |] b1] eqn:E1;
        try discriminate H. inversion H; subst; clear H.
      apply svc_sound in E1; [|auto|apply ok_svc_use_state; auto]. destruct E1 as (c & x & Ac & V & E & R).
      unfold svc_valid_in, svc_reported_in, svc_enc_in. eexists _, b'. split; [exact R|]. split; [unfold tob in T; lia|].
      exists x, y. split; [exists c; auto|]. change (svc_id x) with (pic_parameter_set_id (v_lead (fst x))).
      rewrite Ac. auto.
    + destruct (tob (avc_3d_extension_flag h)).
      * unfold sret in H. inversion H; subst. exfalso. apply U. reflexivity.
      * apply sbind_inv in H. destruct H as (r & s1 & H & H2). unfold sret in H2.
        destruct r as [y'|]; [|discriminate H2]. inversion H2; subst. exfalso. apply U. reflexivity.
Qed.

Lemma on_bits_complete : forall A (e : structure A) b w v c rest, bb_wf b -> ok_state (w_st w) ->
  coding true e (w_st w) v c rest -> bb_rem b = c ++ rest ->
  exists b', on_bits e (b, w) = (Ok v, (b', w)).
Proof.
  intros A e b w v c rest W O C E.
  assert (OB : forall B (p : P B) x b', p b = (Ok x, b') -> exists b', onbuf p (b, w) = (Ok x, (b', w))).
  { intros B p x b' H. exists b'. apply onbuf_intro. exact H. }
  assert (MB : forall B (p : pstate -> P (option B)) x b', p (w_st w) b = (Ok (Some x), b') ->
    exists b', maybe p (b, w) = (Ok x, (b', w))).
  { intros B p x b' H. exists b'. apply maybe_intro. exact H. }
  destruct e; cbn [on_bits coding] in *; try contradiction.
  - destruct C as [V ->]. eapply OB, ParseHrdParameters_complete; eauto.
  - destruct C as [V ->]. eapply OB, ParseVuiParameters_complete; eauto.
  - destruct C as (ls & V & L & ->). eapply OB, ParseSpsData_complete; eauto.
  - destruct C as (ls & V & L & ->). destruct (trailing_intro _ ParseSpsData b v (bb_adv b (length (enc_sps v ls)))) as (m & _ & H);
      [auto with good|auto|eapply ParseSpsData_complete; eauto|]. eapply OB. exact H.
  - destruct C as (ext & V & -> & X).
    assert (G : gives (ParsePps chroma_format_idc) (enc_pps v ext) rest v).
    { apply ParsePps_complete; [exact V|]. destruct ext; [|exact X]. destruct X as [L X]. split; [apply L; reflexivity|exact X]. }
    eapply OB, G; eauto.
  - destruct C as [V ->]. destruct (trailing_intro _ ParseSpsExtensionData b v (bb_adv b (length (enc_spsext v)))) as (m & _ & H);
      [auto with good|auto|eapply spsext_complete; eauto|]. eapply OB. exact H.
  - destruct C as [V ->]. eapply OB, spssvc_complete; eauto.
  - destruct C as (ls & ds & V & L & -> & _ & S). destruct (S eq_refl) as (k & K & ->).
    assert (G : gives ParseSubsetSps (enc_subsps v ls ds) (stop_bits k) v) by (apply ParseSubsetSps_complete; auto).
    eapply OB, G; eauto.
  - destruct C as [V ->]. eapply MB, ParseNalUnitHeader_complete; eauto.
  - destruct C as [V ->]. eapply OB, svc_ext_complete; eauto.
  - destruct C as (ds & R & -> & _ & S). destruct (S eq_refl) as [V T].
    destruct (prefsvc_then _ _ _ _ _ _ b W V R T E) as [b' H]. eapply MB. exact H.
  - destruct (svc_extension_flag =? 1) eqn:F.
    + destruct C as (x & ds & -> & R & -> & _ & S). destruct (S eq_refl) as [V T].
      destruct (prefsvc_then _ _ _ _ _ _ b W V R T E) as [b' H]. eapply MB.
      unfold ParsePrefixNalUnitRbsp. rewrite F. unfold sbind. rewrite H. apply N.eqb_eq in F. rewrite F. reflexivity.
    + destruct C as [-> ->]. eapply MB. unfold ParsePrefixNalUnitRbsp. rewrite F. reflexivity.
  - destruct C as (c0 & c1 & V & -> & ->). eapply OB, rplm_complete; eauto.
  - destruct C as (ld & cd & w0 & w1 & V & -> & ->). eapply OB, pwt_complete; eauto.
  - destruct C as (m & V & -> & ->). eapply OB, drpm_complete; eauto.
  - destruct C as (Nt & x & (s & p & Ac & V) & Rp & ->). unfold reported_in, enc_in in *. rewrite Ac in *.
    injection Rp as <-. eapply MB, slice_complete; eauto. apply ok_use_state; auto.
  - destruct C as (Nt & x & y & (s & p & Ac & V) & Rp & -> & ->). unfold reported_in, enc_in in *. rewrite Ac in *.
    injection Rp as <-. eapply MB. unfold ParseSliceLayerWithoutPartitioningRbsp, sbind.
    rewrite (slice_complete nal_ref_idc nal_unit_type (w_st w) s p x (ok_use_state _ O) Nt Ac V b rest W E). reflexivity.
  - destruct C as (x & (d & Ac & V) & Rp & ->). unfold svc_reported_in, svc_enc_in in *. rewrite Ac in *.
    eapply MB. rewrite <- Rp. eapply svc_complete; eauto. apply ok_svc_use_state; auto.
  - destruct C as (F & x & y & (d & Ac & V) & Rp & -> & ->). unfold svc_reported_in, svc_enc_in in *. rewrite Ac in *.
    unfold sbind at 1. unfold ParseSliceLayerExtensionRbsp. replace (tob (svc_extension_flag h)) with true by (unfold tob; lia).
    unfold sbind, storedu.
    rewrite (svc_complete h (w_st w) d x (ok_svc_use_state _ O) Ac V b rest W E), Rp. eexists. reflexivity.
Qed.

(** ** Behind a header of one byte *)
Lemma alike_start : forall a x l b', fits a (x :: l) -> reads (start a (x :: l)) (byte_bits x) b' ->
  alike b' (start a l).
Proof.
  intros a x l b' F R. pose proof (reads_wf _ _ _ R) as W'. destruct R as (W & E & ->).
  rewrite byte_bits_length in *. rewrite start_rem, bits_of_cons in E. apply app_inv_head in E.
  split; [exact W'|]. split.
  - apply start_wf. destruct F as (B & L & Y). cbn [length] in *. inversion B; subst.
    split; [assumption|]. split; [lia|]. intros T; specialize (Y T); lia.
  - rewrite start_rem. split; [auto|]. split; reflexivity.
Qed.
Lemma behind_header : forall a ck x body w, fits a (x :: body) -> ok_state (w_st w) -> x <> 0 ->
  x mod 32 <> 14 -> x mod 32 <> 20 -> x mod 32 <> 21 ->
  let h := mknalh (x / 128) (x / 32 mod 4) (x mod 32) 0 0 None in
  exists n c p w', unit_parser a ck (x :: body) w = (Ok (mknalu h p n c), w') /\
    on_unit a (on_bits (NalUnitPayload h)) body w = (Ok p, w').
Proof.
  intros a ck x body w F O X0 T14 T20 T21 h.
  assert (FB : fits a body).
  { destruct F as (B & L & Y). cbn [length] in *. inversion B; subst.
    split; [assumption|]. split; [lia|]. intros T; specialize (Y T); lia. }
  assert (U : unesc (x :: body) = x :: unesc body) by (destruct x; [congruence|reflexivity]).
  pose proof (fits_unesc _ _ F) as F'. rewrite U in F'.
  destruct (unit_cases a ck (x :: body) w F O)
    as [(h' & p & b1 & b2 & w2 & H1 & H2 & M1 & M2 & _ & _ & _ & E')|[(_ & K & _)|(_ & K & _)]];
    rewrite U in *.
  2,3: exfalso; apply K; split; [discriminate|]; change (type_of (x :: unesc body)) with (x mod 32); lia.
  pose proof (header_bytes a _ F' _ _ H1) as (_ & _ & E1 & E2 & E3 & V & E4 & R).
  change (type_of (x :: unesc body)) with (x mod 32) in *. cbn [hd] in *.
  replace ((x mod 32 =? 14) || (x mod 32 =? 20)) with false in E4 by lia. destruct E4 as [E4 E5].
  assert (Eh : h' = h).
  { destruct V as (_ & _ & _ & V & _). destruct h' as [h1 h2 h3 h4 h5 h6]. unfold h. cbn in *. subst. reflexivity. }
  subst h'. assert (R' : reads (start a (x :: unesc body)) (byte_bits x) b1).
  { assert (C : enc_nalh h = byte_bits x).
    { destruct R as (_ & R & _). rewrite start_rem, bits_of_cons in R. unfold enc_nalh in R. rewrite E5, app_nil_r in R.
      destruct F as (B & _). inversion B; subst.
      apply (f_equal (firstn 8)) in R. rewrite !firstn_app, byte_bits_length, enc_nal_byte_length in R.
      rewrite !firstn_O, !app_nil_r, !firstn_all2 in R; [|rewrite enc_nal_byte_length; lia|rewrite byte_bits_length; lia].
      unfold enc_nalh. rewrite E5, app_nil_r. auto. }
    rewrite <- C. exact R. }
  apply alike_start in R'; [|exact F'].
  destruct (payload_local h b1 (start a (unesc body)) w R') as (P1 & _ & P2).
  eexists _, _, p, w2. split; [exact E'|]. rewrite on_unit_eq by exact FB. cbn [on_bits].
  rewrite H2 in P1, P2. cbn [fst snd] in P1, P2.
  destruct (ParseNalUnitPayload h (start a (unesc body), w)) as [r [b3 w3]]. cbn [fst snd] in *. congruence.
Qed.

(** One structure, stored in the payload or not. *)
Lemma stored_same : forall A (p : P A) b w, good p -> bb_wf b ->
  exists o b', stored p (b, w) = (Ok o, (b', w)) /\
    (forall v, o = Some v <-> exists b'', onbuf p (b, w) = (Ok v, (b'', w))).
Proof.
  intros A p b w G W. specialize (G b W). unfold stored, onbuf. destruct (p b) as [r b1].
  destruct r as [x| |k| |]; try contradiction.
  - exists (Some x), b1. split; [reflexivity|]. intros v. split; [intros [= ->]; eauto|intros [b'' [= -> _]]; auto].
  - exists None, b1. split; [reflexivity|]. intros v. split; [discriminate|]. intros [b'' D]; discriminate D.
Qed.
Lemma storedu_same : forall A (p : pstate -> P (option A)) b w, good (p (w_st w)) -> bb_wf b ->
  exists o b' w', storedu p (b, w) = (Ok o, (b', w')) /\
    (forall v, o = Some v <-> exists b'', maybe p (b, w) = (Ok v, (b'', w))).
Proof.
  intros A p b w G W. specialize (G b W). unfold maybe, sbind, storedu. destruct (p (w_st w) b) as [r b1].
  destruct r as [[x|]| |k| |]; try contradiction.
  - exists (Some x), b1, w. split; [reflexivity|]. intros v. split; [intros [= ->]; eexists; reflexivity|].
    intros [b'' D]. cbn in D. injection D as ->. auto.
  - exists None, b1, (report w). split; [reflexivity|]. intros v. split; [discriminate|]. intros [b'' D]; discriminate D.
  - exists None, b1, w. split; [reflexivity|]. intros v. split; [discriminate|]. intros [b'' D]; discriminate D.
Qed.
