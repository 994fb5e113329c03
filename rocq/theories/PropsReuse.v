(** Property C63: what a result depends on of the calls made before. *)
From Coq Require Import NArith ZArith List Bool Lia ZifyBool ZifyNat ZifyN.
From Verif Require Import SpecBits Base BitBuffer BitBufferProofs SpecRbsp Rbsp RbspProofs Parser
  SpecSyntax TypesSps TypesPps SpecSps SpecPps TypesNal NalHeader TypesExt TypesSliceHeader SliceHeader TypesSvcSlice
  PropsSps PropsPps PropsSlice Framing SpecFraming FramingProofs FramingProofs2 FramingProofs3
  PropsFraming SpecSlice TypesNalUnit NalUnit NalUnitProofs SpecNalUnit NalUnitProofs2 NalUnitProofs3
  PropsNalUnit SpecReuse ReuseProofs.
Import ListNotations.
Open Scope N_scope.
Ltac Zify.zify_post_hook ::= Z.div_mod_to_equations.

Lemma history_unit : forall a ck u w, history a w -> fits a u -> history a (snd (parse_unit a ck u w)).
Proof.
  intros a ck u w H F. unfold parse_unit. destruct (ParseNalUnitBytes a ck u (size_of u) w) as [r w'] eqn:E.
  eapply (hist_call a w (CallNalUnit ck u) (fst (drop (r, w'))) w'); [exact H|exact F|].
  cbn [run_call]. rewrite E. destruct r; reflexivity.
Qed.

(** A unit whose slice header, if it is a slice, was read gives the same result when more
    parameter sets are held, and what is held stays comparable. *)
Theorem C63_more_sets : forall a ck u w1 w2 x w1', history a w1 -> history a w2 -> fits a u ->
  below (w_st w1) (w_st w2) -> parse_unit a ck u w1 = (Ok x, w1') -> resolved x ->
  exists w2', parse_unit a ck u w2 = (Ok x, w2') /\ below (w_st w1') (w_st w2').
Proof.
  intros a ck u w1 w2 x w1' H1 H2 F B E R.
  destruct (unit_more a ck u w1 w2 x w1' F (history_ok a w1 H1) (history_ok a w2 H2) B E R) as (w2' & E2 & B2 & _).
  exists w2'. auto.
Qed.
(** Whether a unit is rejected does not depend on what is held; a rejected unit leaves it alone. *)
Theorem C63_rejected : forall a ck u w1 w2 w1', history a w1 -> history a w2 -> fits a u ->
  parse_unit a ck u w1 = (Null, w1') ->
  w_st w1' = w_st w1 /\ exists w2', parse_unit a ck u w2 = (Null, w2') /\ w_st w2' = w_st w2.
Proof.
  intros a ck u w1 w2 w1' H1 H2 F E.
  destruct (unit_rejected a ck u w1 w2 w1' F (history_ok a w1 H1) (history_ok a w2 H2) E) as (w2' & E2 & S1 & S2).
  split; [auto|]. exists w2'. auto.
Qed.
(** Only the parameter sets held count. *)
Theorem C63_same_sets : forall a ck u w1 w2 x w1', history a w1 -> history a w2 -> fits a u ->
  same_sets (w_st w1) (w_st w2) -> parse_unit a ck u w1 = (Ok x, w1') ->
  exists w2', parse_unit a ck u w2 = (Ok x, w2') /\ same_sets (w_st w1') (w_st w2').
Proof.
  intros a ck u w1 w2 x w1' H1 H2 F B E.
  destruct (unit_same a ck u w1 w2 x w1' F (history_ok a w1 H1) (history_ok a w2 H2) B E) as (w2' & E2 & B2 & _).
  exists w2'. auto.
Qed.

(** * Streams *)
Lemma found_units_fit : forall a data ix, fits a data -> Forall (fun e => fits a (snd e)) (found_units data ix).
Proof.
  intros a data ix F. apply Forall_forall. intros e I. apply in_map_iff in I. destruct I as (x & <- & _).
  cbn [snd]. apply slice_ok; auto.
Qed.
Lemma annexb_form : forall a ck data, fits a data ->
  exists us, Forall (fun e => fits a (snd e)) us /\ forall w, ok_state (w_st w) ->
    exists l w', ParseBitstream a ck data (size_of data) w = (Ok l, w') /\ runs (unit_parser a ck) us w l w'.
Proof.
  intros a ck data F.
  destruct (bitstream_runs a ck data (mkw new_state 0) F (history_ok a _ (hist_new a 0))) as (ix & _ & _ & E1 & _).
  exists (found_units data ix). split; [apply found_units_fit; auto|]. intros w O.
  destruct (bitstream_runs a ck data w F O) as (ix' & l & w' & E1' & E2 & _ & R).
  rewrite E1 in E1'. injection E1' as <-. exists l, w'. auto.
Qed.
Definition tagged (n : N) (l : list (nalu * N * N)) : list (nalu * N * N) := map (fun '(x, o, _) => (x, o, n)) l.
Lemma prefixed_form : forall a ck nlb data, fits a data -> nlb < 8 ->
  exists us, Forall (fun e => fits a (snd e)) us /\ forall w, ok_state (w_st w) ->
    exists l w', ParseBitstreamNALULength a ck data (size_of data) nlb w = (Ok (tagged nlb l), w') /\
      runs (unit_parser a ck) us w l w'.
Proof.
  intros a ck nlb data F NB. pose proof F as (B & L & _). destruct (N.eq_dec nlb 0) as [->|NZ].
  - exists (match data with [] => [] | _ => [(0, data)] end). split. { destruct data; constructor; auto. }
    intros w O. unfold ParseBitstreamNALULength. destruct data as [|c t].
    { exists [], w. split; [reflexivity|constructor]. }
    set (data := c :: t) in *.
    assert (E : forall f i acc s, i = size_of data -> nalu_length_loop (fun i n => ParseNalUnitBytes a ck (at_offset data i) n)
       f data (size_of data) 0 i acc s = (Ok (rev acc), s)).
    { intros f i acc s ->. destruct f; cbn [nalu_length_loop]; rewrite N.ltb_irrefl; reflexivity. }
    change (length data) with (S (length t)). cbn [nalu_length_loop].
    replace (0 <? size_of data) with true by (unfold size_of, data; cbn [length]; lia).
    replace (0 <? 0) with false by reflexivity. change (at_offset data 0) with data.
    change (ParseNalUnitBytes a ck data (size_of data) w) with (unit_parser a ck data w).
    destruct (unit_cases a ck data w F O)
      as [(h & p & b1 & b2 & w2 & _ & _ & _ & _ & _ & _ & _ & E3)|[(_ & _ & E3)|(_ & _ & E3)]]; rewrite E3;
      rewrite E by (unfold u64, size_of; rewrite N.mod_small; lia).
    + eexists [(_, 0, _)], w2. split; [reflexivity|]. eapply runs_kept; [exact E3|constructor].
    + exists [], (report w). split; [reflexivity|]. eapply runs_dropped; [exact E3|constructor].
    + exists [], w. split; [reflexivity|]. eapply runs_dropped; [exact E3|constructor].
  - destruct (framed_split (length data) (N.to_nat nlb) true data) as (us & t & E & ST & FS); auto; try lia.
    assert (PL : forall i n, In (i, n) (unit_places (N.to_nat nlb) 0 us) -> i + n <= N.of_nat (length data)).
    { intros i n. rewrite E, app_length.
      assert (G : forall us o, In (i, n) (unit_places (N.to_nat nlb) o us) ->
        i + n <= o + N.of_nat (length (framed (N.to_nat nlb) us))).
      { clear. induction us as [|u us IH]; intros o I; cbn [unit_places In] in I; [tauto|].
        cbn [framed flat_map]. fold (framed (N.to_nat nlb) us). rewrite !app_length, be_bytes_length.
        destruct I as [I|I]; [injection I as <- <-; lia|]. apply IH in I. lia. }
      intros I. apply G in I. lia. }
    exists (map (fun '(i, n) => (i, SpecFraming.slice i n data)) (unit_places (N.to_nat nlb) 0 us)). split.
    { apply Forall_forall. intros e I. apply in_map_iff in I. destruct I as ((i & n) & <- & _). cbn [snd]. apply slice_ok; auto. }
    intros w O.
    destruct (visit_runs a ck data nlb (unit_places (N.to_nat nlb) 0 us) w F O PL) as (l & w' & E2 & _ & R).
    exists l, w'. split; [|exact R]. unfold ParseBitstreamNALULength, size_of.
    pose proof (nalu_length_loop_spec (fun i n => ParseNalUnitBytes a ck (at_offset data i) n) us (length data) [] t [] w data nlb) as G.
    cbn [app length] in G. change (N.of_nat 0) with 0 in G. rewrite G; auto; try lia.
    + rewrite E2. reflexivity.
    + rewrite N2Nat.id in FS. exact FS.
Qed.

Lemma tagged_resolved : forall n l, Forall (fun '(x, _, _) => resolved x) (tagged n l) ->
  Forall (fun '(x, _, _) => resolved x) l.
Proof.
  intros n l. induction l as [|[[x o] k] l IH]; intros H; [constructor|]. inversion H; subst. constructor; auto.
Qed.
(** A stream in which every slice header was read gives the same results when more parameter
    sets are held at its start. *)
Theorem C63_stream : forall a ck data w1 w2 l w1', history a w1 -> history a w2 -> fits a data ->
  below (w_st w1) (w_st w2) -> Forall (fun '(x, _, _) => resolved x) l ->
  (ParseBitstream a ck data (size_of data) w1 = (Ok l, w1') ->
   exists w2', ParseBitstream a ck data (size_of data) w2 = (Ok l, w2') /\ below (w_st w1') (w_st w2')) /\
  (forall nlb, nlb < 8 -> ParseBitstreamNALULength a ck data (size_of data) nlb w1 = (Ok l, w1') ->
   exists w2', ParseBitstreamNALULength a ck data (size_of data) nlb w2 = (Ok l, w2') /\ below (w_st w1') (w_st w2')).
Proof.
  intros a ck data w1 w2 l w1' H1 H2 F B R. pose proof (history_ok _ _ H1) as O1. pose proof (history_ok _ _ H2) as O2.
  split.
  - intros E. destruct (annexb_form a ck data F) as (us & FU & K).
    destruct (K w1 O1) as (l1 & v1 & E1 & R1). rewrite E in E1. inversion E1; subst l1 v1.
    destruct (runs_more a ck us w1 l w1' w2 R1 FU O1 O2 B R) as (w2' & R2 & B2).
    destruct (K w2 O2) as (l2 & v2 & E2 & R2'). destruct (runs_det _ _ _ _ _ _ _ R2 R2') as [-> ->]. eauto.
  - intros nlb NB E. destruct (prefixed_form a ck nlb data F NB) as (us & FU & K).
    destruct (K w1 O1) as (l1 & v1 & E1 & R1). rewrite E in E1. inversion E1; subst l v1.
    apply tagged_resolved in R.
    destruct (runs_more a ck us w1 l1 w1' w2 R1 FU O1 O2 B R) as (w2' & R2 & B2).
    destruct (K w2 O2) as (l2 & v2 & E2 & R2'). destruct (runs_det _ _ _ _ _ _ _ R2 R2') as [-> ->]. eauto.
Qed.
(** In particular a stream that carries its own parameter sets: parsed on its own every slice
    header is read, then it gives the same after any calls. *)
Theorem C63_self_contained : forall a ck data n w l w1', history a w -> fits a data ->
  Forall (fun '(x, _, _) => resolved x) l ->
  (ParseBitstream a ck data (size_of data) (mkw new_state n) = (Ok l, w1') ->
   exists w2', ParseBitstream a ck data (size_of data) w = (Ok l, w2')) /\
  (forall nlb, nlb < 8 -> ParseBitstreamNALULength a ck data (size_of data) nlb (mkw new_state n) = (Ok l, w1') ->
   exists w2', ParseBitstreamNALULength a ck data (size_of data) nlb w = (Ok l, w2')).
Proof.
  intros a ck data n w l w1' H F R.
  destruct (C63_stream a ck data (mkw new_state n) w l w1' (hist_new a n) H F (below_new _) R) as [A B].
  split. { intros E. destruct (A E) as (w2' & E2 & _). eauto. }
  intros nlb NB E. destruct (B nlb NB E) as (w2' & E2 & _). eauto.
Qed.
(** Streams, when the same parameter sets are held. *)
Theorem C63_stream_same : forall a ck data w1 w2 l w1', history a w1 -> history a w2 -> fits a data ->
  same_sets (w_st w1) (w_st w2) ->
  (ParseBitstream a ck data (size_of data) w1 = (Ok l, w1') ->
   exists w2', ParseBitstream a ck data (size_of data) w2 = (Ok l, w2') /\ same_sets (w_st w1') (w_st w2')) /\
  (forall nlb, nlb < 8 -> ParseBitstreamNALULength a ck data (size_of data) nlb w1 = (Ok l, w1') ->
   exists w2', ParseBitstreamNALULength a ck data (size_of data) nlb w2 = (Ok l, w2') /\ same_sets (w_st w1') (w_st w2')).
Proof.
  intros a ck data w1 w2 l w1' H1 H2 F B. pose proof (history_ok _ _ H1) as O1. pose proof (history_ok _ _ H2) as O2.
  split.
  - intros E. destruct (annexb_form a ck data F) as (us & FU & K).
    destruct (K w1 O1) as (l1 & v1 & E1 & R1). rewrite E in E1. inversion E1; subst l1 v1.
    destruct (runs_same a ck us w1 l w1' w2 R1 FU O1 O2 B) as (w2' & R2 & B2).
    destruct (K w2 O2) as (l2 & v2 & E2 & R2'). destruct (runs_det _ _ _ _ _ _ _ R2 R2') as [-> ->]. eauto.
  - intros nlb NB E. destruct (prefixed_form a ck nlb data F NB) as (us & FU & K).
    destruct (K w1 O1) as (l1 & v1 & E1 & R1). rewrite E in E1. inversion E1; subst l v1.
    destruct (runs_same a ck us w1 l1 w1' w2 R1 FU O1 O2 B) as (w2' & R2 & B2).
    destruct (K w2 O2) as (l2 & v2 & E2 & R2'). destruct (runs_det _ _ _ _ _ _ _ R2 R2') as [-> ->]. eauto.
Qed.
(** Without the proviso on slices it is wrong: a slice whose parameter sets are missing is
    reported without header, and with one when they are held. *)
Theorem C63_unresolved_refuted : exists a ck u w1 w2 x w1', history a w1 /\ history a w2 /\ fits a u /\
  below (w_st w1) (w_st w2) /\ parse_unit a ck u w1 = (Ok x, w1') /\
  forall w2', parse_unit a ck u w2 <> (Ok x, w2').
Proof.
  assert (FS : fits true ex_u_sps) by fits_tac. assert (FP : fits true ex_u_pps) by fits_tac.
  assert (FU : fits true ex_u_slice) by fits_tac.
  exists true, false, ex_u_slice, (mkw new_state 0).
  exists (snd (parse_unit true false ex_u_pps (snd (parse_unit true false ex_u_sps (mkw new_state 0))))).
  destruct (parse_unit true false ex_u_slice (mkw new_state 0)) as [r w1'] eqn:E.
  assert (V : match r with Ok x => match pl_slice (nu_payload x) with None => true | Some _ => false end | _ => false end = true).
  { pose proof (f_equal fst E) as X. cbn [fst] in X. rewrite <- X. vm_compute. reflexivity. }
  destruct r as [x| | | |]; try discriminate V. exists x, w1'.
  split; [constructor|]. split.
  { apply history_unit; [|exact FP]. apply history_unit; [|exact FS]. constructor. }
  split; [exact FU|]. split; [apply below_new|]. split; [reflexivity|].
  intros w2' X.
  assert (Y : match fst (parse_unit true false ex_u_slice
    (snd (parse_unit true false ex_u_pps (snd (parse_unit true false ex_u_sps (mkw new_state 0)))))) with
    Ok x => match pl_slice (nu_payload x) with None => true | Some _ => false end | _ => false end = false) by (vm_compute; reflexivity).
  rewrite X in Y. cbn [fst] in Y. congruence.
Qed.

(** Non-vacuity: SPS, PPS and slice, alone and after a stream with other parameter sets. *)
Definition ex_own : list N := annexb (firstn 3 ex_units).
Example C63_ex : exists l w1 w w2, fits true ex_own /\ history true w /\
  ParseBitstream true true ex_own (size_of ex_own) (mkw new_state 0) = (Ok l, w1) /\
  length l = 3%nat /\ Forall (fun '(x, _, _) => resolved x) l /\
  length (st_pps (w_st w)) = 1%nat /\
  ParseBitstream true true ex_own (size_of ex_own) w = (Ok l, w2) /\ length (st_pps (w_st w2)) = 2%nat.
Proof.
  assert (F : fits true ex_own) by fits_tac.
  assert (F1 : fits true ex_u_pps1) by fits_tac.
  destruct (ParseBitstream true true ex_own (size_of ex_own) (mkw new_state 0)) as [r w1] eqn:E.
  assert (V : match r with Ok l => length l = 3%nat /\ forallb (fun '(x, _, _) =>
     if (nal_unit_type (nu_header x) =? 1) || (nal_unit_type (nu_header x) =? 5) then some (pl_slice (nu_payload x))
     else negb (nal_unit_type (nu_header x) =? 20)) l = true | _ => False end).
  { pose proof (f_equal fst E) as X. cbn [fst] in X. rewrite <- X. vm_compute. auto. }
  destruct r as [l| | | |]; try (destruct V; fail). destruct V as [VL VR].
  assert (R : Forall (fun '(x, _, _) => resolved x) l).
  { clear - VR. rewrite forallb_forall in VR. apply Forall_forall. intros [[x o] n] I. apply VR in I.
    unfold resolved. destruct (_ || _) eqn:T.
    - split; [|intros; lia]. intros _. destruct (pl_slice (nu_payload x)); [congruence|discriminate].
    - split; intros; lia. }
  set (w := snd (parse_unit true true ex_u_pps1 (mkw new_state 0))).
  assert (H : history true w).
  { apply history_unit; [constructor|exact F1]. }
  destruct (C63_self_contained true true ex_own 0 w l w1 H F R) as [A _]. destruct (A E) as (w2 & E2).
  exists l, w1, w, w2. repeat (split; [first [assumption|reflexivity|vm_compute; reflexivity]|]).
  change w2 with (snd (@Ok (list (nalu * N * N)) l, w2)). rewrite <- E2. vm_compute. reflexivity.
Qed.

Print Assumptions C63_more_sets.
Print Assumptions C63_rejected.
Print Assumptions C63_same_sets.
Print Assumptions C63_stream.
Print Assumptions C63_self_contained.
Print Assumptions C63_stream_same.
Print Assumptions C63_unresolved_refuted.
