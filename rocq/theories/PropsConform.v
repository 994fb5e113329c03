(** Property C60: an accepted NAL unit is the encoding of what is reported for it. *)
From Coq Require Import NArith ZArith List Bool Lia ZifyBool ZifyNat ZifyN.
From Verif Require Import SpecBits Base BitBuffer SpecReader BitsLemmas BitBufferProofs
  ReaderProofs Rbsp SpecRbsp RbspProofs ChecksumProofs Parser SpecSyntax ParserProofs SpecVui SpecScaling SpecFraming
  Framing FramingProofs FramingProofs2 FramingProofs3 PropsFraming
  TypesSps Sps SpecSps SpsProofs TypesPps Pps SpecPps PpsProofs PropsSps PropsPps
  TypesNal NalHeader SpecNalHeader NalHeaderProofs TypesExt Ext SpecExt ExtProofs PropsExt
  TypesSlice TypesSliceHeader SliceHeader SpecSlice SliceProofs PropsSlice
  TypesSvcSlice SvcSlice SpecSvcSlice SvcSliceProofs PropsSvcSlice
  TypesNalUnit NalUnit NalUnitProofs SpecNalUnit NalUnitProofs2 NalUnitProofs3 PropsNalUnit PropsNalUnit2
  CodecProofs SpecMux MuxProofs PropsMux SpecConform ConformProofs.
Import ListNotations.
Open Scope N_scope.
Ltac Zify.zify_post_hook ::= Z.div_mod_to_equations.

Lemma offset_start : forall a l m, N.of_nat (length l) < 2 ^ 61 -> (m <= 8 * length l)%nat ->
  get_current_offset (bb_adv (start a l) m) = (N.of_nat m + 7) / 8.
Proof.
  intros a l m L M. unfold get_current_offset, bb_adv, start. cbn [bb_byte bb_bit].
  change (8 * 0 + 0) with 0. rewrite N.add_0_l. set (q := N.of_nat m) in *.
  assert (Q : q <= 8 * N.of_nat (length l)) by lia. clearbody q.
  unfold u64. rewrite N.mod_small; destruct (N.eqb_spec (q mod 8) 0); lia.
Qed.
Lemma reads_length : forall b c b', reads b c b' -> (length c <= length (bb_rem b))%nat.
Proof. intros b c b' (_ & E & _). rewrite E, app_length. lia. Qed.

(** The bits of an accepted unit, after removal of emulation prevention: the header that is
    reported, then the syntax of the payload that is reported; and how far it was read. *)
Theorem C60_contents : forall a ck u w x w' r, history a w -> fits a u -> strips u r ->
  parse_unit a ck u w = (Ok x, w') ->
  valid_nalh (nu_header x) /\
  exists bits, bits_of r = enc_nalh (nu_header x) ++ bits /\
    contains (w_st w) (nu_header x) (nu_payload x) bits (nu_parsed_length x).
Proof.
  intros a ck u w x w' r H F S E. apply strips_unesc in S. subst r. pose proof (history_ok a w H) as O.
  destruct (unit_cases a ck u w F O) as [(h & p & b1 & b2 & w2 & H1 & H2 & M1 & M2 & _ & _ & _ & E')|[(_ & _ & E')|(_ & _ & E')]];
    change (unit_parser a ck u w) with (parse_unit a ck u w) in E'; rewrite E in E'; try discriminate.
  assert (X : x = mknalu h p (get_current_offset b2) (if ck then Some (checksum_of (start a (unesc u))) else None)) by congruence.
  pose proof (start_wf _ _ (fits_unesc _ _ F)) as W. pose proof (fits_unesc _ _ F) as (_ & L61 & _).
  clear E E'. subst x. cbn [nu_header nu_payload nu_parsed_length].
  apply ParseNalUnitHeader_sound in H1; [|auto]. destruct H1 as [V R1]. split; [exact V|].
  pose proof (reads_wf _ _ _ R1) as W1. pose proof (payload_found h b1 w p b2 w2 V W1 O H2) as G.
  exists (bb_rem b1). pose proof R1 as (_ & RM & EB). rewrite start_rem in RM. split; [exact RM|].
  assert (LR : (length (bb_rem b1) + length (enc_nalh h) = 8 * length (unesc u))%nat).
  { pose proof (f_equal (@length bool) RM) as Q. rewrite app_length, bits_of_length in Q. lia. }
  assert (EX : forall c, reads b1 c b2 -> ends_in h c (get_current_offset b2)).
  { intros c R. pose proof (reads_length _ _ _ R). destruct R as (_ & _ & ->). rewrite EB, bb_adv_adv. unfold ends_in.
    rewrite offset_start by (auto; lia). rewrite app_length. reflexivity. }
  assert (CV : forall c b3, reads b1 c b3 -> moves b3 b2 -> covers h c (get_current_offset b2)).
  { intros c b3 R (m & Lm & ->). pose proof (reads_length _ _ _ R). pose proof (reads_wf _ _ _ R).
    destruct R as (_ & Rm & ->). rewrite EB in *. rewrite !bb_adv_adv in *. unfold covers.
    pose proof (f_equal (@length bool) Rm) as Q. rewrite app_length in Q.
    rewrite offset_start by (auto; lia). rewrite app_length. lia. }
  destruct G as [G1 G2 G3 G4 G5 G6]. split.
  - intros s Es. destruct (G1 s Es) as (T & ls & Vs & b3 & R & M). split; [auto|]. exists ls, (bb_rem b3).
    split; [auto|]. split; [apply R|eauto].
  - intros v Es. destruct (G2 v Es) as (T & ext & b3 & Vs & R & M & A). split; [auto|]. exists ext, (bb_rem b3).
    split; [auto|]. split; [apply R|]. split; [eauto|auto].
  - intros v Es. destruct (G3 v Es) as (T & (ls & b3 & Vs & R) & Z). split; [auto|]. split.
    + exists ls, (bb_rem b3). split; [auto|apply R].
    + intros K. destruct (Z K) as (ls' & ds & Vd & b4 & Rd & M). exists ls', ds, (bb_rem b4).
      split; [auto|]. split; [apply Rd|eauto].
  - intros y Es. destruct (G4 y Es) as (T & Ex & v & Vs & Rp & R). split; [auto|]. split; [exact Ex|]. exists v, (bb_rem b2).
    split; [auto|]. split; [auto|]. split; [apply R|auto].
  - intros y Es. destruct (G5 y Es) as (T & e & v & ds & E1 & E2 & Q & b3 & R & M). split; [auto|].
    exists e, v, ds, (bb_rem b3). split; [auto|]. split; [auto|]. split; [auto|]. split; [apply R|eauto].
  - intros y z Es Ez. destruct (G6 y z Es Ez) as (T & Ex & v & Vs & Rp & R). split; [auto|]. split; [exact Ex|]. exists v, (bb_rem b2).
    split; [auto|]. split; [auto|]. split; [apply R|auto].
Qed.

(** What was understood can be written again by an encoder that follows the standard, and is
    then read as the same. *)
Theorem C60_rewritten : forall a ck u w x w', history a w -> fits a u ->
  parse_unit a ck u w = (Ok x, w') -> header_std (nu_header x) ->
  IsPayloadParsed (nu_payload x) (nal_unit_type (nu_header x)) = true ->
  rewritable (nu_header x) (nu_payload x) ->
  exists l, coded (w_st w) (nu_header x) l (nu_payload x) /\
    (fits a (nal_unit (nu_header x) l) ->
     exists x' w'', parse_unit a ck (nal_unit (nu_header x) l) w = (Ok x', w'') /\
       nu_header x' = nu_header x /\ nu_payload x' = nu_payload x /\
       next_sets (w_st w) (nu_payload x) (w_st w'')).
Proof.
  intros a ck u w x w' H F E S I R.
  destruct (C60_contents a ck u w x w' (unesc u) H F (unesc_strips u) E) as (V & bits & _ & C).
  assert (Fm : form (nu_header x) (nu_payload x)).
  { destruct (unit_cases a ck u w F (history_ok a w H)) as [(h & p & b1 & b2 & w2 & H1 & H2 & _ & _ & _ & _ & _ & E')|[(_ & _ & E')|(_ & _ & E')]];
      change (unit_parser a ck u w) with (parse_unit a ck u w) in E'; rewrite E in E'; try discriminate.
    injection E' as -> _. cbn [nu_header nu_payload]. eapply payload_form; eauto. }
  destruct (contains_coded _ _ _ _ _ C Fm V) as (l & K); auto.
  { unfold valid_nalh in V. destruct (nal_svc (nu_header x)); lia. }
  exists l. split; [exact K|]. intros F2.
  destruct (C51_unit_round_trip a ck w _ l _ H S K F2) as (x' & w2 & E2 & E3 & E4 & E5 & _). eauto 7.
Qed.

(** ex_u_slice after ex_u_sps and ex_u_pps *)
Example C60_ex : exists w x w', history true w /\ fits true ex_u_slice /\
  parse_unit true true ex_u_slice w = (Ok x, w') /\ header_std (nu_header x) /\
  IsPayloadParsed (nu_payload x) (nal_unit_type (nu_header x)) = true /\
  rewritable (nu_header x) (nu_payload x) /\ pl_slice (nu_payload x) <> None.
Proof.
  exists (snd (ParseBitstream true true (annexb [(true, ex_u_sps); (false, ex_u_pps)])
             (size_of (annexb [(true, ex_u_sps); (false, ex_u_pps)])) (mkw new_state 0))).
  eexists. eexists. split.
  { apply (hist_call true (mkw new_state 0) (CallBitstream true (annexb [(true, ex_u_sps); (false, ex_u_pps)])) (Ok tt));
      [apply (hist_new true 0)| |].
    - assert (F : fits true (annexb [(true, ex_u_sps); (false, ex_u_pps)])) by fits_tac. exact F.
    - vm_compute. reflexivity. }
  split; [fits_tac|]. split; [vm_compute; reflexivity|].
  cbn [nu_header nu_payload]. split; [|split; [|split]].
  - unfold header_std, valid_nalh, is_u. cbn. lia.
  - reflexivity.
  - split; cbn; intros; discriminate.
  - cbn. discriminate.
Qed.

Print Assumptions C60_contents.
Print Assumptions C60_rewritten.
