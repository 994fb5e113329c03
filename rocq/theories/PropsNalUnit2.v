(** Properties C40 to C43: neighbours, checksum option, parsed_length, IsPayloadParsed. *)
From Coq Require Import NArith ZArith List Bool Lia ZifyBool ZifyNat ZifyN.
From Verif Require Import SpecBits Base BitBuffer SpecReader BitsLemmas BitBufferProofs
  ReaderProofs SpecRbsp Rbsp RbspProofs ChecksumProofs Parser SpecSyntax ParserProofs TypesSps TypesPps SpecSps
  SpecPps Sps Pps TypesNal NalHeader TypesExt Ext TypesSliceHeader SliceHeader TypesSvcSlice
  SvcSlice PropsSps PropsPps PropsSlice Framing SpecFraming FramingProofs FramingProofs2 FramingProofs3
  PropsFraming SpecSlice TypesNalUnit NalUnit NalUnitProofs SpecNalUnit NalUnitProofs2 NalUnitProofs3
  Rtp RtpProofs PropsNalUnit.
Import ListNotations.
Open Scope N_scope.
Ltac Zify.zify_post_hook ::= Z.div_mod_to_equations.

(** * C40: a rejected unit does not affect its neighbours *)
Lemma annexb_units_app : forall us vs o, annexb_units o (us ++ vs) =
  annexb_units o us ++ annexb_units (o + size_of (annexb us)) vs.
Proof.
  induction us as [|[c u] us IH]; intros vs o; cbn [app annexb_units].
  - unfold size_of. cbn. now rewrite N.add_0_r.
  - f_equal. rewrite IH. do 2 f_equal. unfold annexb, size_of. cbn [flat_map fst snd].
    rewrite !app_length. unfold code. destruct c; cbn [length]; lia.
Qed.
Lemma annexb_units_snd : forall us o, map snd (annexb_units o us) = map snd us.
Proof. induction us as [|[c u] us IH]; intros o; cbn [annexb_units map snd]; [auto|]. now rewrite IH. Qed.
Lemma annexb_units_fit : forall a us o, fits a (annexb us) -> Forall (fun e => fits a (snd e)) (annexb_units o us).
Proof.
  intros a. induction us as [|[c u] us IH]; intros o (B & L & H); [constructor|].
  unfold annexb in B, L, H. cbn [flat_map fst snd] in B, L, H. fold (annexb us) in B, L, H.
  rewrite !app_length in L, H. apply Forall_app in B. destruct B as [B B2]. apply Forall_app in B. destruct B as [_ B1].
  cbn [annexb_units]. constructor.
  - cbn [snd]. split; [exact B1|]. split; [lia|]. intros A. specialize (H A). lia.
  - apply IH. split; [exact B2|]. split; [lia|]. intros A. specialize (H A). lia.
Qed.
Section C40.
Context (a ck : bool) (w : world) (Hw : history a w) (Cw : w_unimplemented w < 2 ^ 32).
Let P := parse_unit a ck.
Lemma rejected_step : forall us o u vs l w1 l' w', units_fit a (us ++ (o, u) :: vs) ->
  runs P us w l w1 -> rejected (fst (P u w1)) -> runs P (us ++ (o, u) :: vs) w l' w' ->
  exists lu l2, l' = l ++ lu ++ l2 /\ (lu = [] \/ exists x, lu = [(x, o, size_of u)]) /\
    forall c, c < 2 ^ 32 -> exists w2, runs P vs (mkw (w_st w1) c) l2 w2 /\ w_st w2 = w_st w'.
Proof.
  intros us o u vs l w1 l' w' F R1 RJ R. apply Forall_app in F. destruct F as [F1 F2].
  inversion F2 as [|? ? Fu Fv]; subst. cbn [snd] in Fu.
  pose proof (runs_ok a ck us w l w1 R1 F1 (history_ok a w Hw)) as O1.
  pose proof (runs_count_bound a ck us w l w1 R1 F1 Cw) as B1.
  apply runs_app_inv in R. destruct R as (k1 & s1 & k2 & R2 & R3 & ->).
  destruct (runs_det _ _ _ _ _ _ _ R1 R2) as [<- <-].
  pose proof (unit_result_counter a ck u (w_st w1) (w_unimplemented w1) (w_unimplemented w1) Fu B1 B1) as (_ & _ & B).
  rewrite mkw_eta in B. change (unit_parser a ck u w1) with (P u w1) in B.
  inversion R3 as [|? ? ? ? x s' l0 ? E R4|? ? ? ? s' ? ? E R4]; subst;
    rewrite E in RJ, B; cbn [fst snd] in RJ, B;
    pose proof (others_leave_state a ck u w1 _ _ O1 Fu E (or_intror RJ)) as S.
  - exists [(x, o, size_of u)], l0. split; [reflexivity|]. split; [eauto|]. intros c C.
    rewrite <- (mkw_eta s') in R4. rewrite S in R4.
    destruct (runs_counter a ck vs _ _ _ _ R4 Fv B c C) as (w2 & R5 & S5 & _). eauto.
  - exists [], k2. split; [reflexivity|]. split; [auto|]. intros c C.
    rewrite <- (mkw_eta s') in R4. rewrite S in R4.
    destruct (runs_counter a ck vs _ _ _ _ R4 Fv B c C) as (w2 & R5 & S5 & _). eauto.
Qed.
(** Dropping it changes neither the other results nor the final state. *)
Theorem C40_dropping : forall us o u vs l1 w1 l w', Forall (fun e => fits a (snd e)) (us ++ (o, u) :: vs) ->
  runs (parse_unit a ck) us w l1 w1 -> rejected (fst (parse_unit a ck u w1)) ->
  runs (parse_unit a ck) (us ++ (o, u) :: vs) w l w' ->
  exists lu l2 w2, l = l1 ++ lu ++ l2 /\ (lu = [] \/ exists x, lu = [(x, o, size_of u)]) /\
    runs (parse_unit a ck) (us ++ vs) w (l1 ++ l2) w2 /\ w_st w2 = w_st w'.
Proof.
  intros us o u vs l1 w1 l w' F R1 RJ R.
  destruct (rejected_step us o u vs l1 w1 l w' F R1 RJ R) as (lu & l2 & E & EU & K).
  apply Forall_app in F. destruct F as [F1 F2].
  destruct (K (w_unimplemented w1)) as (w2 & R2 & S2).
  { eapply runs_count_bound; eauto. }
  rewrite mkw_eta in R2. exists lu, l2, w2. split; [auto|]. split; [auto|]. split; [|auto].
  eapply runs_app; eauto.
Qed.
(** So does replacing it by another rejected unit. *)
Theorem C40_replacing : forall us o u o' u' vs l1 w1 l w',
  Forall (fun e => fits a (snd e)) (us ++ (o, u) :: vs) -> fits a u' ->
  runs (parse_unit a ck) us w l1 w1 ->
  rejected (fst (parse_unit a ck u w1)) -> rejected (fst (parse_unit a ck u' w1)) ->
  runs (parse_unit a ck) (us ++ (o, u) :: vs) w l w' ->
  exists lu lu' l2 w2, l = l1 ++ lu ++ l2 /\ (lu = [] \/ exists x, lu = [(x, o, size_of u)]) /\
    (lu' = [] \/ exists x, lu' = [(x, o', size_of u')]) /\
    runs (parse_unit a ck) (us ++ (o', u') :: vs) w (l1 ++ lu' ++ l2) w2 /\ w_st w2 = w_st w'.
Proof.
  intros us o u o' u' vs l1 w1 l w' F Fu' R1 RJ RJ' R.
  destruct (rejected_step us o u vs l1 w1 l w' F R1 RJ R) as (lu & l2 & E & EU & K).
  assert (F' : units_fit a (us ++ (o', u') :: vs)).
  { apply Forall_app in F. destruct F as [F1 F2]. inversion F2; subst. apply Forall_app. split; auto. }
  destruct (units_run a ck _ w F' (history_ok a w Hw)) as (l' & w2 & R' & _).
  destruct (rejected_step us o' u' vs l1 w1 l' w2 F' R1 RJ' R') as (lu' & l2' & E' & EU' & K').
  destruct (K 0 ltac:(reflexivity)) as (w3 & R3 & S3). destruct (K' 0 ltac:(reflexivity)) as (w4 & R4 & S4).
  destruct (runs_det _ _ _ _ _ _ _ R3 R4) as [<- <-].
  exists lu, lu', l2, w2. rewrite E' in R'. repeat (split; [assumption|]). congruence.
Qed.
(** For byte streams: the units before and after keep their results. *)
Definition units_of (l : list (nalu * N * N)) : list nalu := map (fun e => fst (fst e)) l.
Theorem C40_stream : forall us c u vs l1 w1 l w',
  Forall (fun u => nal_bytes (snd u)) (us ++ (c, u) :: vs) -> fits a (annexb (us ++ (c, u) :: vs)) ->
  ParseBitstream a ck (annexb us) (size_of (annexb us)) w = (Ok l1, w1) ->
  rejected (fst (parse_unit a ck u w1)) ->
  ParseBitstream a ck (annexb (us ++ (c, u) :: vs)) (size_of (annexb (us ++ (c, u) :: vs))) w = (Ok l, w') ->
  exists lu l2 l' w2, units_of l = units_of l1 ++ lu ++ l2 /\ (length lu <= 1)%nat /\
    ParseBitstream a ck (annexb (us ++ vs)) (size_of (annexb (us ++ vs))) w = (Ok l', w2) /\
    units_of l' = units_of l1 ++ l2 /\ w_st w2 = w_st w'.
Proof.
  intros us c u vs l1 w1 l w' NB F E1 RJ E.
  assert (Fus : fits a (annexb us) /\ fits a (annexb (us ++ vs))).
  { destruct F as (B & L & H). unfold annexb in B, L, H. rewrite flat_map_app in B, L, H. cbn [flat_map fst snd] in B, L, H.
    rewrite !app_length in L, H. apply Forall_app in B. destruct B as [B1 B2]. apply Forall_app in B2. destruct B2 as [_ B2].
    unfold annexb. split.
    - split; [exact B1|]. split; [lia|]. intros A. specialize (H A). lia.
    - rewrite flat_map_app. split; [apply Forall_app; split; [exact B1|exact B2]|].
      rewrite app_length. split; [lia|]. intros A. specialize (H A). lia. }
  destruct Fus as [F1 F2].
  assert (NB' : Forall (fun u => nal_bytes (snd u)) us /\ Forall (fun u => nal_bytes (snd u)) (us ++ vs)).
  { apply Forall_app in NB. destruct NB as [N1 N2]. inversion N2; subst. split; [auto|]. apply Forall_app. auto. }
  destruct NB' as [N1 N2].
  destruct (C39_annexb a ck us w Hw N1 F1) as (k1 & v1 & G1 & R1). rewrite E1 in G1. injection G1 as <- <-.
  destruct (C39_annexb a ck _ w Hw NB F) as (k & v & G & R). rewrite E in G. injection G as <- <-.
  destruct (C39_annexb a ck _ w Hw N2 F2) as (l' & w2 & G2 & R2).
  pose proof (annexb_units_fit _ _ 0 F) as UF. rewrite annexb_units_app in R, UF. cbn [annexb_units] in R, UF.
  set (o := 0 + size_of (annexb us) + (if c then 4 else 3)) in *.
  destruct (C40_dropping _ _ _ _ _ _ _ _ UF R1 RJ R) as (lu & l2 & w3 & El & Elu & R3 & S3).
  rewrite annexb_units_app in R2.
  assert (MS : map snd (annexb_units 0 us ++ annexb_units (o + N.of_nat (length u)) vs) =
    map snd (annexb_units 0 us ++ annexb_units (0 + size_of (annexb us)) vs))
    by (rewrite !map_app, !annexb_units_snd; reflexivity).
  destruct (runs_offsets _ _ _ _ _ _ MS R3) as (l3 & R4 & M).
  destruct (runs_det _ _ _ _ _ _ _ R2 R4) as [<- <-].
  exists (units_of lu), (units_of l2), l', w2. unfold units_of in *.
  split; [rewrite El, !map_app; reflexivity|]. split.
  { rewrite map_length. destruct Elu as [->|(x & ->)]; cbn; lia. }
  split; [exact G2|]. split; [|exact S3].
  apply (f_equal (map fst)) in M. rewrite !map_map in M. cbn [fst] in M. rewrite M, map_app. reflexivity.
Qed.
End C40.
Example C40_ex : exists l1 w1, history true w1 /\
  ParseBitstream true false (annexb (firstn 3 ex_units)) (size_of (annexb (firstn 3 ex_units))) (mkw new_state 0) = (Ok l1, w1) /\
  length l1 = 3%nat /\ rejected (fst (parse_unit true false ex_u_bad w1)) /\
  rejected (fst (parse_unit true false [21] w1)).
Proof.
  assert (F : fits true (annexb (firstn 3 ex_units))) by fits_tac.
  eexists. eexists. split; [|split; [vm_compute; reflexivity|]].
  - eapply hist_call; [apply (hist_new true 0)|exact (F : call_ok true (CallBitstream false _))|].
    vm_compute. reflexivity.
  - split; [reflexivity|]. split.
    + right. eexists. split; [vm_compute; reflexivity|]. reflexivity.
    + left. reflexivity.
Qed.

(** * C41: the checksum option *)
Definition without_checksum (x : nalu) : nalu :=
  mknalu (nu_header x) (nu_payload x) (nu_parsed_length x) None.
Definition res_map {A B} (f : A -> B) (r : res A) : res B :=
  match r with Ok x => Ok (f x) | Null => Null | UB k => UB k | Abort => Abort | NoFuel => NoFuel end.
Theorem C41_option_neutral : forall a u w, history a w -> fits a u ->
  fst (parse_unit a false u w) = res_map without_checksum (fst (parse_unit a true u w)) /\
  snd (parse_unit a false u w) = snd (parse_unit a true u w).
Proof.
  intros a u w H F. change parse_unit with unit_parser. unfold unit_parser. rewrite !on_unit_eq by auto.
  pose proof (start_wf _ _ (fits_unesc _ _ F)) as W. rewrite !nalunit_eq by auto.
  destruct (ParseNalUnitHeader _) as [[[h|]| |k| |] b1]; try (split; reflexivity).
  destruct (ParseNalUnitPayload h (b1, w)) as [[p| |k| |] [b2 w2]]; split; reflexivity.
Qed.
(** The checksum is that of the unescaped bytes (C15 says what that is), computed before
    anything is parsed; without the option there is none. *)
Theorem C41_checksum_value : forall a u w x w' r, history a w -> fits a u -> strips u r ->
  parse_unit a true u w = (Ok x, w') ->
  exists c, nu_checksum x = Some c /\ length c = 4%nat /\
    GetNaluChecksum (mkbb r 0 0 a) = (Ok c, mkbb r 0 0 a).
Proof.
  intros a u w x w' r H F S E. apply strips_unesc in S. subst r.
  destruct (unit_cases a true u w F (history_ok a w H))
    as [(h & p & b1 & b2 & w2 & E1 & E2 & _ & _ & _ & HR & HT & E3)|[(_ & _ & E3)|(_ & _ & E3)]];
    change (unit_parser a true u w) with (parse_unit a true u w) in E3; rewrite E in E3; try discriminate.
  injection E3 as -> _. eexists. split; [reflexivity|]. split; [reflexivity|].
  rewrite GetNaluChecksum_gen; [reflexivity|]. apply (start_wf _ _ (fits_unesc _ _ F)).
Qed.
(** Whole streams: the same entries apart from the checksums, and the same state. *)
Theorem C41_stream : forall a data w l w', history a w -> fits a data ->
  ParseBitstream a true data (size_of data) w = (Ok l, w') ->
  ParseBitstream a false data (size_of data) w =
    (Ok (map (fun '(x, o, n) => (without_checksum x, o, n)) l), w').
Proof.
  intros a data w l w' H F E.
  destruct (C39_in_order a true data w H F) as (ix & l1 & w1 & I1 & E1 & R1).
  rewrite E in E1. injection E1 as <- <-.
  destruct (C39_in_order a false data w H F) as (ix2 & l2 & w2 & I2 & E2 & R2).
  rewrite I1 in I2. injection I2 as <-. rewrite E2.
  assert (U : units_fit a (map (fun x => (ni_payload x, SpecFraming.slice (ni_payload x) (ni_size x) data)) ix)).
  { apply Forall_forall. intros e I. apply in_map_iff in I. destruct I as (x & <- & _). cbn [snd]. apply slice_ok; auto. }
  assert (R : runs (parse_unit a false) (map (fun x => (ni_payload x, SpecFraming.slice (ni_payload x) (ni_size x) data)) ix) w
    (map (fun '(x, o, n) => (without_checksum x, o, n)) l) w').
  { clear - R1 U H. revert H. induction R1 as [s|o u t s x s' l s'' E R IH|o u t s s' l s'' E R IH]; intros H.
    - constructor.
    - inversion U as [|? ? U1 U2]; subst. cbn [snd] in U1. cbn [map].
      destruct (C41_option_neutral a u s H U1) as [K1 K2]. rewrite E in K1, K2. cbn [fst snd res_map] in K1, K2.
      eapply runs_kept; [|apply IH; auto].
      + destruct (parse_unit a false u s) as [r1 s1]. cbn [fst snd] in *. subst. reflexivity.
      + eapply (hist_call a s (CallNalUnit true u)); [auto|exact U1|]. cbn [run_call]. unfold parse_unit in E. rewrite E. reflexivity.
    - inversion U as [|? ? U1 U2]; subst. cbn [snd] in U1.
      destruct (C41_option_neutral a u s H U1) as [K1 K2]. rewrite E in K1, K2. cbn [fst snd res_map] in K1, K2.
      eapply runs_dropped; [|apply IH; auto].
      + destruct (parse_unit a false u s) as [r1 s1]. cbn [fst snd] in *. subst. reflexivity.
      + eapply (hist_call a s (CallNalUnit true u)); [auto|exact U1|]. cbn [run_call]. unfold parse_unit in E. rewrite E. reflexivity. }
  destruct (runs_det _ _ _ _ _ _ _ R2 R) as [-> ->]. reflexivity.
Qed.
Example C41_ex : exists x w', parse_unit true true ex_u_sps (mkw new_state 0) = (Ok x, w') /\
  exists c, nu_checksum x = Some c /\ c <> [0; 0; 0; 0].
Proof.
  eexists. eexists. split; [vm_compute; reflexivity|]. eexists. split; [reflexivity|]. discriminate.
Qed.

(** * C42: parsed_length *)
Theorem C42_parsed_length : forall a ck u w x w' r, history a w -> fits a u -> strips u r ->
  parse_unit a ck u w = (Ok x, w') ->
  1 <= nu_parsed_length x <= size_of r /\ size_of r <= size_of u.
Proof.
  intros a ck u w x w' r H F S E. apply strips_unesc in S. subst r.
  pose proof (unesc_length u) as UL. unfold size_of. split; [|lia].
  destruct (unit_cases a ck u w F (history_ok a w H))
    as [(h & p & b1 & b2 & w2 & E1 & E2 & M1 & M2 & _ & HR & HT & E3)|[(_ & _ & E3)|(_ & _ & E3)]];
    change (unit_parser a ck u w) with (parse_unit a ck u w) in E3; rewrite E in E3; try discriminate.
  injection E3 as -> _. cbn [nu_parsed_length].
  pose proof (start_wf _ _ (fits_unesc _ _ F)) as W.
  pose proof (header_bytes a _ (fits_unesc _ _ F) _ _ E1) as B. cbv beta iota in B.
  destruct B as (_ & _ & _ & _ & _ & _ & _ & RD).
  pose proof F as (_ & L & _).
  destruct RD as (_ & RM & EB). destruct M2 as (m & LM & ->). subst b1.
  assert (L8 : (8 <= length (SpecNalHeader.enc_nalh h))%nat).
  { unfold SpecNalHeader.enc_nalh. rewrite app_length, enc_nal_byte_length. lia. }
  pose proof (f_equal (@length bool) RM) as RL. rewrite app_length in RL.
  pose proof (bb_rem_length _ W) as RN. unfold bb_count, start in RN. cbn [bb_bytes bb_byte bb_bit] in RN.
  change (8 * 0 + 0) with 0 in RN. rewrite N.sub_0_r in RN.
  rewrite bb_adv_adv. unfold get_current_offset, bb_adv, start. cbn [bb_byte bb_bit].
  change (8 * 0 + 0) with 0. set (q := 0 + N.of_nat (length (SpecNalHeader.enc_nalh h) + m)).
  assert (Q : 8 <= q <= 8 * N.of_nat (length (unesc u))) by (unfold q, start in *; lia).
  clearbody q. unfold u64. rewrite N.mod_small; destruct (N.eqb_spec (q mod 8) 0); lia.
Qed.
Example C42_ex : exists x w', parse_unit true true ex_u_sps (mkw new_state 0) = (Ok x, w') /\
  nu_parsed_length x = size_of ex_u_sps.
Proof. eexists. eexists. split; [vm_compute; reflexivity|]. vm_compute. reflexivity. Qed.

(** * C43: IsPayloadParsed *)
(** [o] is what a parser left behind: its result, or nothing if it rejected. *)
Definition gives {A} (p : P A) (b : bb) (o : option A) : Prop :=
  match p b with (Ok v, _) => o = Some v | (Null, _) => o = None | _ => False end.
Definition givesu {A} (p : P (option A)) (b : bb) (o : option A) : Prop :=
  match p b with (Ok v, _) => o = v | (Null, _) => o = None | _ => False end.
Definition accepts {A} (p : P A) (b : bb) : Prop := exists v b', p b = (Ok v, b').
Definition acceptsu {A} (p : P (option A)) (b : bb) : Prop := exists v b', p b = (Ok (Some v), b').
Definition no_payload : payload := mkpayload None None None None None None.
Lemma stored_gives : forall A (p : P A) s o s', stored p s = (Ok o, s') -> gives p (fst s) o.
Proof.
  intros A p [b w] o s' E. unfold stored in E. unfold gives. cbn [fst].
  destruct (p b) as [[v| |k| |] b']; try discriminate; injection E as <- _; auto.
Qed.
Lemma storedu_gives : forall A (p : pstate -> P (option A)) s o s', storedu p s = (Ok o, s') ->
  givesu (p (w_st (snd s))) (fst s) o.
Proof.
  intros A p [b w] o s' E. unfold storedu in E. unfold givesu. cbn [fst snd].
  destruct (p (w_st w) b) as [[[v|]| |k| |] b']; try discriminate; injection E as <- _; auto.
Qed.
(** The payload of a kept unit is what the parser for its type made of the bits after the
    header, given the state before the unit. *)
Definition payload_from (h : nalh) (st : pstate) (b : bb) (p : payload) : Prop :=
  let t := nal_unit_type h in
  if (t =? 1) || (t =? 5) then exists o, p = mkpayload o None None None None None /\
    givesu (ParseSliceLayerWithoutPartitioningRbsp (nal_ref_idc h) t st) b o
  else if t =? 7 then exists o, p = mkpayload None o None None None None /\ gives ParseSps b o
  else if t =? 8 then exists o, p = mkpayload None None o None None None /\ gives (ParsePps 1) b o
  else if t =? 14 then exists e o, nal_svc h = Some e /\ p = mkpayload None None None o None None /\
    givesu (ParsePrefixNalUnitRbsp 1 (nal_ref_idc h) (svc_use_ref_base_pic_flag e) (svc_idr_flag e)) b o
  else if t =? 15 then exists o, p = mkpayload None None None None o None /\ gives ParseSubsetSps b o
  else if t =? 20 then exists o, p = mkpayload None None None None None
      (Some (mkslext 1 0 (nal_ref_idc h) 20 None o)) /\
    givesu (ParseSliceHeaderInScalableExtension h st) b o
  else p = no_payload.
Theorem C43_payload : forall a ck u w x w' r, history a w -> fits a u -> strips u r ->
  parse_unit a ck u w = (Ok x, w') ->
  exists b, ParseNalUnitHeader (mkbb r 0 0 a) = (Ok (Some (nu_header x)), b) /\
    payload_from (nu_header x) (w_st w) b (nu_payload x).
Proof.
  intros a ck u w x w' r H F S E. apply strips_unesc in S. subst r.
  destruct (unit_cases a ck u w F (history_ok a w H))
    as [(h & p & b1 & b2 & w2 & E1 & E2 & M1 & M2 & _ & HR & HT & E3)|[(_ & _ & E3)|(_ & _ & E3)]];
    change (unit_parser a ck u w) with (parse_unit a ck u w) in E3; rewrite E in E3; try discriminate.
  injection E3 as -> _. cbn [nu_header nu_payload]. exists b1. split; [exact E1|].
  pose proof (header_bytes a _ (fits_unesc _ _ F) _ _ E1) as B. cbv beta iota in B.
  destruct B as (_ & _ & _ & _ & _ & V & SV & _). rewrite <- HT in SV.
  destruct V as (_ & _ & _ & V3 & _).
  assert (X : forall A B (m : M A) (f : A -> B) y s s', sbind m (fun o => sret (f o)) s = (Ok y, s') ->
    exists o s1, m s = (Ok o, s1) /\ y = f o).
  { intros A B m f y s s' K. apply sbind_inv in K. destruct K as (o & s1 & K1 & K2). inversion K2; eauto. }
  assert (Y : forall A B (m : M A) (k : A -> M unit) (f : A -> B) y s s',
    sbind m (fun o => sbind (k o) (fun _ => sret (f o))) s = (Ok y, s') ->
    exists o s1, m s = (Ok o, s1) /\ y = f o).
  { intros A B m k f y s s' K. apply sbind_inv in K. destruct K as (o & s1 & K1 & K2).
    apply sbind_inv in K2. destruct K2 as (? & ? & _ & K2). inversion K2; eauto. }
  unfold ParseNalUnitPayload in E2. unfold payload_from. cbv zeta in *.
  destruct ((nal_unit_type h =? 1) || (nal_unit_type h =? 5)).
  { apply X in E2. destruct E2 as (o & s1 & K & ->). apply storedu_gives in K. exists o. auto. }
  destruct (nal_unit_type h =? 7).
  { apply Y in E2. destruct E2 as (o & s1 & K & ->). apply stored_gives in K. exists o. auto. }
  destruct (nal_unit_type h =? 8).
  { apply Y in E2. destruct E2 as (o & s1 & K & ->). apply stored_gives in K. exists o. auto. }
  destruct (nal_unit_type h =? 14).
  { cbn [orb] in SV. destruct SV as [SF SN]. rewrite SF in E2. change (tob 1) with true in E2. cbv iota in E2.
    destruct (nal_svc h) as [e|]; [|congruence].
    apply X in E2. destruct E2 as (o & s1 & K & ->). apply storedu_gives in K. exists e, o. auto. }
  destruct (nal_unit_type h =? 15).
  { apply Y in E2. destruct E2 as (o & s1 & K & ->). apply stored_gives in K. exists o. auto. }
  destruct (N.eqb_spec (nal_unit_type h) 20) as [T20|T20].
  { cbn [orb] in SV. destruct SV as [SF SN]. apply X in E2. destruct E2 as (o & s1 & K & ->).
    unfold ParseSliceLayerExtensionRbsp in K. rewrite SF, V3, T20 in K. change (tob 1) with true in K. cbv iota in K.
    apply X in K. destruct K as (v & s2 & K & ->). apply storedu_gives in K. exists v. auto. }
  inversion E2. reflexivity.
Qed.
Lemma gives_iff : forall A (p : P A) b o, gives p b o -> (some o = true <-> accepts p b).
Proof.
  intros A p b o G. unfold gives, accepts in *. destruct (p b) as [[v| |k| |] b']; try tauto; subst o; cbn [some].
  - split; eauto.
  - split; [discriminate|]. intros (v & b2 & K). discriminate.
Qed.
Lemma givesu_iff : forall A (p : P (option A)) b o, givesu p b o -> (some o = true <-> acceptsu p b).
Proof.
  intros A p b o G. unfold givesu, acceptsu in *. destruct (p b) as [[[v|]| |k| |] b']; try tauto; subst o; cbn [some].
  - split; eauto.
  - split; [discriminate|]. intros (v & b2 & K). discriminate.
  - split; [discriminate|]. intros (v & b2 & K). discriminate.
Qed.
(** True exactly when the parser for the type accepted the payload; types without a parser
    count as parsed, and so does type 20 always. *)
Theorem C43_parsed_iff : forall a ck u w x w' r, history a w -> fits a u -> strips u r ->
  parse_unit a ck u w = (Ok x, w') ->
  let h := nu_header x in
  let parsed := IsPayloadParsed (nu_payload x) (nal_unit_type h) = true in
  exists b, ParseNalUnitHeader (mkbb r 0 0 a) = (Ok (Some h), b) /\
  (type_of u = 1 \/ type_of u = 5 ->
     (parsed <-> acceptsu (ParseSliceLayerWithoutPartitioningRbsp (nal_ref_idc h) (type_of u) (w_st w)) b)) /\
  (type_of u = 7 -> (parsed <-> accepts ParseSps b)) /\
  (type_of u = 8 -> (parsed <-> accepts (ParsePps 1) b)) /\
  (type_of u = 14 -> exists e, nal_svc h = Some e /\
     (parsed <-> acceptsu (ParsePrefixNalUnitRbsp 1 (nal_ref_idc h) (svc_use_ref_base_pic_flag e)
                             (svc_idr_flag e)) b)) /\
  (type_of u = 15 -> (parsed <-> accepts ParseSubsetSps b)) /\
  (~ In (type_of u) [1; 5; 7; 8; 14; 15] -> parsed).
Proof.
  intros a ck u w x w' r H F S E h parsed.
  destruct (C43_payload a ck u w x w' r H F S E) as (b & E1 & PF). fold h in E1, PF.
  exists b. split; [exact E1|].
  assert (T : nal_unit_type h = type_of u).
  { pose proof (unit_effect a ck u w F (history_ok a w H)) as K.
    change (unit_parser a ck u w) with (parse_unit a ck u w) in K. rewrite E in K. apply K. }
  unfold parsed, payload_from, IsPayloadParsed in *. rewrite T in *. cbv zeta in *. clear parsed E1 T E.
  split; [|split; [|split; [|split; [|split]]]].
  - intros [T|T]; rewrite T in *; cbn [N.eqb Pos.eqb orb] in *; destruct PF as (o & -> & G); now apply givesu_iff.
  - intros T; rewrite T in *; cbn [N.eqb Pos.eqb orb] in *; destruct PF as (o & -> & G); now apply gives_iff.
  - intros T; rewrite T in *; cbn [N.eqb Pos.eqb orb] in *; destruct PF as (o & -> & G); now apply gives_iff.
  - intros T; rewrite T in *; cbn [N.eqb Pos.eqb orb] in *; destruct PF as (e & o & SE & -> & G).
    exists e. split; [auto|]. now apply givesu_iff.
  - intros T; rewrite T in *; cbn [N.eqb Pos.eqb orb] in *; destruct PF as (o & -> & G); now apply gives_iff.
  - intros NI. cbn [In] in NI.
    destruct (N.eqb_spec (type_of u) 1), (N.eqb_spec (type_of u) 5), (N.eqb_spec (type_of u) 7),
      (N.eqb_spec (type_of u) 8), (N.eqb_spec (type_of u) 14), (N.eqb_spec (type_of u) 15); try tauto; try lia.
    cbn [orb] in *. destruct (type_of u =? 20); [|auto]. destruct PF as (o & -> & _). reflexivity.
Qed.
(** A rejected SVC slice is still "parsed". *)
Theorem C43_svc_slice_rejected_refuted : exists u x w', fits true u /\
  parse_unit true true u (mkw new_state 0) = (Ok x, w') /\ type_of u = 20 /\
  IsPayloadParsed (nu_payload x) 20 = true /\
  (exists e, pl_slice_ext (nu_payload x) = Some e /\ sx_svc_slice_header e = None /\ sx_slice_header e = None).
Proof.
  exists [116; 128; 0; 7; 255]. eexists. eexists. split; [fits_tac|]. split; [vm_compute; reflexivity|].
  split; [reflexivity|]. split; [reflexivity|]. eexists. repeat split.
Qed.
Example C43_ex : exists x w1 y w2 z w3,
  parse_unit true true ex_u_sps (mkw new_state 0) = (Ok x, w1) /\ parse_unit true true ex_u_bad w1 = (Ok y, w2) /\
  parse_unit true true [9; 240] w2 = (Ok z, w3) /\
  IsPayloadParsed (nu_payload x) 7 = true /\ IsPayloadParsed (nu_payload y) 5 = false /\
  IsPayloadParsed (nu_payload z) 9 = true.
Proof.
  eexists. eexists. eexists. eexists. eexists. eexists. split; [vm_compute; reflexivity|].
  split; [vm_compute; reflexivity|]. split; [vm_compute; reflexivity|]. auto.
Qed.

Print Assumptions C40_dropping.
Print Assumptions C40_replacing.
Print Assumptions C40_stream.
Print Assumptions C41_option_neutral.
Print Assumptions C41_checksum_value.
Print Assumptions C41_stream.
Print Assumptions C42_parsed_length.
Print Assumptions C43_payload.
Print Assumptions C43_parsed_iff.
Print Assumptions C43_svc_slice_rejected_refuted.
