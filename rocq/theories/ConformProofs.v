(** Proofs about SpecConform: an understood payload is the reading of its own syntax. *)
From Coq Require Import NArith ZArith List Bool Lia ZifyBool ZifyNat ZifyN.
From Verif Require Import SpecBits Base BitBuffer SpecReader BitsLemmas BitBufferProofs
  ReaderProofs Rbsp SpecRbsp RbspProofs Parser SpecSyntax ParserProofs SpecVui SpecScaling
  TypesSps Sps SpecSps SpsProofs TypesPps Pps SpecPps PpsProofs PropsSps PropsPps
  TypesNal NalHeader SpecNalHeader NalHeaderProofs TypesExt Ext SpecExt ExtProofs PropsExt
  TypesSlice TypesSliceHeader SliceHeader SpecSlice SliceProofs PropsSlice
  TypesSvcSlice SvcSlice SpecSvcSlice SvcSliceProofs PropsSvcSlice
  TypesNalUnit NalUnit NalUnitProofs SpecNalUnit NalUnitProofs2 SpecMux SpecConform.
Import ListNotations.
Open Scope N_scope.
Ltac Zify.zify_post_hook ::= Z.div_mod_to_equations.

Lemma stored_eq : forall A (p : P A) b w a s, stored p (b, w) = (Ok (Some a), s) ->
  exists b', p b = (Ok a, b') /\ s = (b', w).
Proof. intros A p b w a s H. unfold stored in H. destruct (p b) as [[x| |k| |] b']; inversion H; subst; eauto. Qed.
Lemma storedu_eq : forall A (p : pstate -> P (option A)) b w a s, storedu p (b, w) = (Ok (Some a), s) ->
  exists b', p (w_st w) b = (Ok (Some a), b') /\ s = (b', w).
Proof.
  intros A p b w a s H. unfold storedu in H. destruct (p (w_st w) b) as [[[x|]| |k| |] b']; inversion H; subst; eauto.
Qed.
Lemma change_eq : forall f s u s', change f s = (Ok u, s') -> fst s' = fst s.
Proof. intros f [b w] u s' H. unfold change in H. inversion H; subst. reflexivity. Qed.
Lemma sret_eq : forall S A (a b : A) (s s' : S), sret a s = (Ok b, s') -> b = a /\ s' = s.
Proof. intros S A a b s s' H. unfold sret in H. inversion H; auto. Qed.

(** [c] is at the front, and reading went to [b'] *)
Definition within (b : bb) (c : list bool) (b' : bb) : Prop :=
  exists b1, reads b c b1 /\ moves b1 b'.
Record found (st : pstate) (h : nalh) (p : payload) (b b' : bb) : Prop := {
  f_sps : forall s, pl_sps p = Some s -> nal_unit_type h = 7 /\
    exists ls, valid_sps s ls /\ within b (enc_sps s ls) b';
  f_pps : forall v, pl_pps p = Some v -> nal_unit_type h = 8 /\
    exists ext b1, valid_pps 1 v ext /\ reads b (enc_pps v ext) b1 /\ moves b1 b' /\
      (ext = None -> at_end (bb_rem b1));
  f_subset : forall v, pl_subset_sps p = Some v -> nal_unit_type h = 15 /\
    (exists ls b1, valid_sps (ss_sps v) ls /\ reads b (enc_sps (ss_sps v) ls) b1) /\
    (is_mv_profile (profile_idc (ss_sps v)) = false ->
     exists ls ds, valid_subsps v ls ds /\ within b (enc_subsps v ls ds) b');
  f_slice : forall x, pl_slice p = Some x -> (nal_unit_type h = 1 \/ nal_unit_type h = 5) /\
    x = mkslp (nal_ref_idc h) (nal_unit_type h) (sl_slice_header x) /\
    exists v, valid_in (nal_ref_idc h) (nal_unit_type h) st v /\
      reported_in (nal_ref_idc h) (nal_unit_type h) st v = Some (sl_slice_header x) /\
      reads b (enc_in (nal_ref_idc h) (nal_unit_type h) st v) b';
  f_prefix : forall x, pl_prefix p = Some x -> nal_unit_type h = 14 /\
    exists e v ds, nal_svc h = Some e /\
      x = mkprefix 1 (nal_ref_idc h) (svc_use_ref_base_pic_flag e) (svc_idr_flag e) (Some v) /\
      prefsvc_read (nal_ref_idc h) (svc_use_ref_base_pic_flag e) (svc_idr_flag e) v ds /\
      within b (enc_prefsvc v ds) b';
  f_svc : forall x y, pl_slice_ext p = Some x -> sx_svc_slice_header x = Some y -> nal_unit_type h = 20 /\
    x = mkslext 1 0 (nal_ref_idc h) 20 None (Some y) /\
    exists v, svc_valid_in zero zero h st v /\ svc_reported_in h st v = Some y /\
      reads b (svc_enc_in h st v) b'
}.
Ltac nothing := split; cbn; intros; discriminate.
Lemma payload_found : forall h b w p b' w', valid_nalh h -> bb_wf b -> ok_state (w_st w) ->
  ParseNalUnitPayload h (b, w) = (Ok p, (b', w')) -> found (w_st w) h p b b'.
Proof.
  intros h b w p b' w' VH W O H. unfold ParseNalUnitPayload in H. cbv zeta in H.
  destruct (_ || _) eqn:T1.
  { apply sbind_inv in H. destruct H as (o & s1 & H1 & H). apply sret_eq in H. destruct H as [-> <-].
    split; cbn; intros; try discriminate. subst o. split; [lia|]. apply storedu_eq in H1.
    destruct H1 as (b1 & H1 & Es). injection Es as -> <-. unfold ParseSliceLayerWithoutPartitioningRbsp in H1.
    apply sbind_inv in H1. destruct H1 as (sh & b2 & H2 & H1). apply sret_eq in H1. destruct H1 as [H1 <-].
    destruct sh as [sh|]; [|discriminate]. injection H1 as ->. cbn [sl_slice_header].
    apply slice_sound in H2; auto using ok_use_state. destruct H2 as (_ & s & q & v & A & V & -> & R).
    split; [reflexivity|]. exists v. unfold valid_in, reported_in, enc_in. rewrite A. eauto 6. }
  destruct (_ =? 7) eqn:T2.
  { apply sbind_inv in H. destruct H as (o & s1 & H1 & H). apply sbind_inv in H. destruct H as (u & s2 & H2 & H).
    apply sret_eq in H. destruct H as [-> <-]. split; cbn; intros; try discriminate. subst o. split; [lia|].
    apply stored_eq in H1. destruct H1 as (b1 & H1 & ->). apply change_eq in H2. cbn in H2. subst b'.
    destruct (trailing_inv _ ParseSpsData _ _ _ ParseSpsData_good W H1) as (b3 & m & H3 & Lm & ->).
    apply ParseSpsData_sound in H3; auto. destruct H3 as (ls & V & R). exists ls. split; [auto|]. exists b3. split; [auto|].
    exists m. auto. }
  destruct (_ =? 8) eqn:T3.
  { apply sbind_inv in H. destruct H as (o & s1 & H1 & H). apply sbind_inv in H. destruct H as (u & s2 & H2 & H).
    apply sret_eq in H. destruct H as [-> <-]. split; cbn; intros; try discriminate. subst o. split; [lia|].
    apply stored_eq in H1. destruct H1 as (b1 & H1 & ->). apply change_eq in H2. cbn in H2. subst b'.
    apply ParsePps_sound in H1; auto. destruct H1 as (ext & b3 & V & R & M & X). exists ext, b3.
    split; [auto|]. split; [auto|]. split; [exact M|]. intros ->. exact X. }
  destruct (_ =? 14) eqn:T4.
  { destruct (tob (svc_extension_flag h)) eqn:TS; [|apply sret_eq in H; destruct H as [-> _]; nothing].
    destruct (nal_svc h) as [e|] eqn:TE; [|apply sret_eq in H; destruct H as [-> _]; nothing].
    apply sbind_inv in H. destruct H as (o & s1 & H1 & H). apply sret_eq in H. destruct H as [-> <-].
    split; cbn; intros; try discriminate. subst o. split; [lia|]. apply storedu_eq in H1.
    destruct H1 as (b1 & H1 & Es). injection Es as -> <-. exists e.
    unfold ParsePrefixNalUnitRbsp in H1. destruct (svc_extension_flag h =? 1) eqn:E1.
    - apply sbind_inv in H1. destruct H1 as (r & b2 & H2 & H1). apply sret_eq in H1. destruct H1 as [H1 <-].
      destruct r as [v|]; [|discriminate]. injection H1 as ->. cbn [px_svc].
      apply prefsvc_sound in H2; auto. destruct H2 as (ds & b3 & R & M & Q1 & Q2 & Q3 & Q4 & Q5).
      assert (F1 : svc_extension_flag h = 1) by lia. rewrite F1.
      exists v, ds. split; [auto|]. split; [reflexivity|]. split; [|exists b3; auto].
      unfold prefsvc_read. repeat (split; [assumption|]).
      destruct (nal_ref_idc h =? 0) eqn:R0; cbn [negb] in Q5.
      + destruct Q5 as (K1 & K2 & K3 & _). split; [|exact K3]. destruct v as [v1 v2 v3 v4 v5 v6]. cbn in *. subst.
        apply N.eqb_eq in R0. rewrite R0. reflexivity.
      + intuition.
    - exfalso. unfold valid_nalh in VH. rewrite TE in VH. lia. }
  destruct (_ =? 15) eqn:T5.
  { apply sbind_inv in H. destruct H as (o & s1 & H1 & H). apply sbind_inv in H. destruct H as (u & s2 & H2 & H).
    apply sret_eq in H. destruct H as [-> <-]. split; cbn; intros; try discriminate. subst o. split; [lia|].
    apply stored_eq in H1. destruct H1 as (b1 & H1 & ->). apply change_eq in H2. cbn in H2. subst b'. split.
    - unfold ParseSubsetSps in H1. apply sbind_inv in H1. destruct H1 as (sp & b3 & Q1 & H1).
      apply sbind_inv in H1. destruct H1 as ([[[svc vui] one] mv] & b4 & _ & H1).
      apply sbind_inv in H1. destruct H1 as (add & b5 & _ & H1). apply sbind_inv in H1. destruct H1 as (dt & b6 & _ & H1).
      apply sbind_inv in H1. destruct H1 as (tr & b7 & _ & H1). apply sret_eq in H1. destruct H1 as [-> _].
      cbn [ss_sps]. apply ParseSpsData_sound in Q1; auto. destruct Q1 as (ls & V & R). eauto.
    - intros M. apply ParseSubsetSps_sound in H1; auto. destruct H1 as (ls & ds & b3 & V & R & _ & Mv).
      exists ls, ds. split; [auto|]. exists b3. auto. }
  destruct (_ =? 20) eqn:T6.
  { apply sbind_inv in H. destruct H as (o & s1 & H1 & H). apply sret_eq in H. destruct H as [-> <-].
    split; cbn; intros; try discriminate. subst o. split; [lia|]. unfold ParseSliceLayerExtensionRbsp in H1. cbv zeta in H1.
    destruct (tob (svc_extension_flag h)).
    - apply sbind_inv in H1. destruct H1 as (o & s2 & H1 & H2). apply sret_eq in H2. destruct H2 as [X <-].
      injection X as ->. cbn in H0. subst o. apply storedu_eq in H1. destruct H1 as (b1 & H1 & Es). injection Es as -> <-.
      apply svc_sound in H1; auto using ok_svc_use_state. destruct H1 as (c & v & A & V & E & R).
      split; [|exists v; unfold svc_valid_in, svc_reported_in, svc_enc_in, svc_id; rewrite A; eauto 6].
      unfold valid_nalh in VH. destruct (nal_svc h); [|lia]. destruct VH as (_ & _ & _ & -> & _ & -> & _).
      replace (nal_unit_type h) with 20 by lia. reflexivity.
    - destruct (tob (avc_3d_extension_flag h)).
      + apply sret_eq in H1. destruct H1 as [X _]. injection X as ->. discriminate.
      + apply sbind_inv in H1. destruct H1 as (o & s2 & H1 & H2). apply sret_eq in H2. destruct H2 as [X _].
        destruct o; [|discriminate]. injection X as ->. discriminate. }
  apply sret_eq in H. destruct H as [-> _]. nothing.
Qed.

(** Which parts a payload has. *)
Definition form (h : nalh) (p : payload) : Prop :=
  let t := nal_unit_type h in
  p = if (t =? 1) || (t =? 5) then mkpayload (pl_slice p) None None None None None
  else if t =? 7 then mkpayload None (pl_sps p) None None None None
  else if t =? 8 then mkpayload None None (pl_pps p) None None None
  else if t =? 14 then mkpayload None None None (pl_prefix p) None None
  else if t =? 15 then mkpayload None None None None (pl_subset_sps p) None
  else if t =? 20 then mkpayload None None None None None (pl_slice_ext p)
  else no_parts.
Lemma payload_form : forall h s p s', ParseNalUnitPayload h s = (Ok p, s') -> form h p.
Proof.
  intros h s p s' H. unfold ParseNalUnitPayload in H. unfold form. cbv zeta in *.
  repeat match type of H with
  | (if ?c then _ else _) _ = _ => destruct c
  | (match ?c with Some _ => _ | None => _ end) _ = _ => destruct c
  | sbind _ _ _ = _ => let x := fresh "x" in apply sbind_inv in H; destruct H as (x & ? & _ & H)
  | sret _ _ = _ => apply sret_inv in H; destruct H as [-> _]
  end; reflexivity.
Qed.
Lemma no_lists : forall s ls, valid_sps s ls -> seq_scaling_matrix_present_flag s = 0 -> ls = [].
Proof.
  intros s ls V Z. unfold valid_sps in V.
  assert (K : N.of_nat (length ls) = 0 \/ ls = []).
  { destruct V as (_ & _ & _ & _ & _ & _ & _ & _ & _ & _ & V & _). destruct (is_high _); [left|right; tauto].
    destruct V as (_ & _ & _ & _ & _ & _ & -> & _). rewrite Z. reflexivity. }
  destruct K as [K|K]; [|exact K]. destruct ls; [reflexivity|cbn in K; lia].
Qed.
Lemma no_pps_lists : forall v ls, valid_pps 1 v (Some ls) -> pps_pic_scaling_matrix_present_flag v = 0 -> ls = [].
Proof.
  intros v ls V Z. unfold valid_pps in V. repeat match goal with H : _ /\ _ |- _ => destruct H end.
  match goal with H : N.of_nat (length ls) = _ |- _ => rewrite Z in H; cbn in H end. destruct ls; [reflexivity|cbn in *; lia].
Qed.
(** What was understood can be written. *)
Lemma contains_coded : forall st h p bits n, contains st h p bits n -> form h p -> valid_nalh h ->
  nal_unit_type h <> 21 -> IsPayloadParsed p (nal_unit_type h) = true -> rewritable h p ->
  exists l, coded st h l p.
Proof.
  intros st h p bits n [C1 C2 C3 C4 C5 C6] Fm VH T21 I [R1 R2 R3 R4 R5]. unfold form in Fm. cbv zeta in Fm.
  unfold IsPayloadParsed in I.
  destruct (nal_unit_type h =? 7) eqn:T7.
  { replace ((nal_unit_type h =? 1) || (nal_unit_type h =? 5)) with false in Fm by lia.
    destruct (pl_sps p) as [s|] eqn:E; [|discriminate]. rewrite Fm.
    destruct (C1 s eq_refl) as (_ & ls & rest & V & _). pose proof (no_lists s ls V (R1 s eq_refl)). subst ls.
    eexists. apply (coded_sps st h s []); auto; lia. }
  destruct (nal_unit_type h =? 8) eqn:T8.
  { replace ((nal_unit_type h =? 1) || (nal_unit_type h =? 5)) with false in Fm by lia.
    destruct (pl_pps p) as [s|] eqn:E; [|discriminate]. rewrite Fm.
    destruct (C2 s eq_refl) as (_ & ext & rest & V & _). eexists. apply (coded_pps st h s ext); [lia|auto|].
    destruct ext as [ls|]; cbn; [|auto]. rewrite (no_pps_lists s ls V (R2 s eq_refl)). constructor. }
  destruct (nal_unit_type h =? 15) eqn:T15.
  { replace ((nal_unit_type h =? 1) || (nal_unit_type h =? 5)) with false in Fm by lia.
    replace (nal_unit_type h =? 14) with false in Fm by lia.
    destruct (pl_subset_sps p) as [v|] eqn:E; [|discriminate]. rewrite Fm.
    destruct (R3 v eq_refl) as (Z1 & Z2 & Z3).
    destruct (C3 v eq_refl) as (_ & _ & K). destruct (K Z2) as (ls & ds & rest & V & _).
    pose proof V as (Vs & _). pose proof (no_lists _ ls Vs Z1). subst ls.
    eexists. apply (coded_subset_sps st h v [] ds); auto; lia. }
  destruct (nal_unit_type h =? 14) eqn:T14.
  { replace ((nal_unit_type h =? 1) || (nal_unit_type h =? 5)) with false in Fm by lia.
    destruct (pl_prefix p) as [x|] eqn:E; [|discriminate]. rewrite Fm.
    destruct (C5 x eq_refl) as (_ & e & v & ds & rest & Ee & -> & (P1 & P2 & P3 & P4 & P5) & _).
    specialize (R4 _ v eq_refl eq_refl).
    exists (octets (rbsp (enc_prefsvc v (if pf_additional_prefix_nal_unit_extension_flag v =? 0 then [] else ds)))).
    apply (coded_prefix st h e v); [lia|auto| |].
    - unfold valid_prefsvc. repeat (split; [assumption|]). destruct (nal_ref_idc h =? 0) eqn:R0; cbn [negb].
      + destruct P5 as (-> & ->). cbn. auto.
      + split; [|].
        * destruct P5 as (Q1 & Q2 & Q3). repeat (split; [assumption|]). intros ->. reflexivity.
        * destruct (N.eqb_spec (pf_additional_prefix_nal_unit_extension_flag v) 0) as [Z|Z]; [|exact P4].
          rewrite (R4 Z). reflexivity.
    - intros Z. rewrite Z in P5. cbn [N.eqb] in P5. destruct P5 as (-> & ->). reflexivity. }
  destruct ((nal_unit_type h =? 1) || (nal_unit_type h =? 5)) eqn:T1.
  { destruct (pl_slice p) as [x|] eqn:E; [|discriminate]. rewrite Fm.
    destruct (C4 x eq_refl) as (T & Ex & v & rest & V & Rp & _). rewrite Ex.
    eexists. apply (coded_slice st h v _ []); auto. }
  destruct (nal_unit_type h =? 20) eqn:T20.
  { destruct (pl_slice_ext p) as [x|] eqn:E; [|discriminate]. rewrite Fm. specialize (R5 x eq_refl).
    destruct (sx_svc_slice_header x) as [y|] eqn:Ey; [|congruence].
    destruct (C6 x y eq_refl Ey) as (T & Ex & v & rest & V & Rp & _). rewrite Ex.
    eexists. apply (coded_svc_slice st h v _ []); auto. }
  rewrite Fm. exists []. apply coded_other; [cbn [In]; lia|constructor|]. intros [|x a]; discriminate.
Qed.
