(** Property C69: parser states filled by the caller, and the fuzz targets that fill them. *)
From Coq Require Import NArith ZArith List Bool String Lia ZifyBool ZifyNat ZifyN.
From Verif Require Import SpecBits Base BitBuffer SpecReader BitsLemmas BitBufferProofs
  ReaderProofs Rbsp SpecRbsp RbspProofs Framing SpecFraming FramingProofs FramingProofs2 FramingProofs3 Parser SpecSyntax ParserProofs ScalingList ScalingProofs
  TypesSps Sps SpsProofs TypesPps TypesNal TypesExt TypesSliceHeader SpecSlice SliceProofs
  TypesNalUnit NalUnit NalUnitProofs SpecNalUnit NalUnitProofs2 NalUnitProofs3 Rtp RtpProofs
  TypesEntry Entry EntryProofs PropsFraming PropsNalUnit SpecCallers CallerProofs Fuzz.
Import ListNotations.
Open Scope N_scope.
Ltac Zify.zify_post_hook ::= Z.div_mod_to_equations.

Lemma h_drop_good : forall A (r : res A * world),
  match r with (Ok _, w') | (Null, w') => harmless (w_st w') | _ => False end ->
  (fst (drop r) = Ok tt \/ fst (drop r) = Null) /\ harmless (w_st (snd (drop r))).
Proof. intros A [[v| |k| |] w] H; cbn; tauto. Qed.
Lemma h_unescaped_good : forall A a (m : M A) d w, hgood m -> fits a d -> harmless (w_st w) ->
  match with_buffer a m d w with (Ok _, w') | (Null, w') => harmless (w_st w') | _ => False end.
Proof.
  intros A a m d w G F O. rewrite with_buffer_eq by auto.
  specialize (G (start a d) w (start_wf _ _ F) O).
  destruct (m (start a d, w)) as [[v| |k| |] [b' w']]; tauto.
Qed.
Lemma h_length_safe : forall a ck data nlb w, fits a data -> harmless (w_st w) ->
  (exists l w', ParseBitstreamNALULength a ck data (size_of data) nlb w = (Ok l, w') /\ harmless (w_st w')) \/
  (8 <= nlb /\ exists w', ParseBitstreamNALULength a ck data (size_of data) nlb w = (Abort, w') /\ harmless (w_st w')).
Proof.
  intros a ck data nlb w F O. unfold ParseBitstreamNALULength, size_of.
  pose proof F as (B & L & _).
  assert (P : forall i n s, harmless (w_st s) -> i + n <= N.of_nat (List.length data) ->
    match ParseNalUnitBytes a ck (at_offset data i) n s with
    | (Ok _, s') | (Null, s') => harmless (w_st s') | _ => False end).
  { intros i n s Os I. unfold ParseNalUnitBytes. rewrite unescaping_slice by auto.
    apply h_on_unit_good; auto using nalunit_hgood, slice_ok. }
  destruct (N.eq_dec nlb 0) as [->|N0].
  - left. destruct (List.length data) as [|k] eqn:E.
    + exists [], w. destruct data; [|discriminate]. auto.
    + rewrite <- E. rewrite nalu_length_loop_zero by lia.
      specialize (P 0 (N.of_nat (List.length data)) w O ltac:(lia)). cbn [visit_all].
      destruct (ParseNalUnitBytes a ck (at_offset data 0) (N.of_nat (List.length data)) w) as [[x| |?| |] w']; try tauto; eauto.
  - apply (length_loop_safe _ _ (fun i n => ParseNalUnitBytes a ck (at_offset data i) n)
      (fun w => harmless (w_st w))); auto; try lia.
    intros. apply length_parse_abort. auto.
Qed.
Lemma h_call_safe : forall a c w, call_ok a c -> harmless (w_st w) ->
  (fst (run_call a c w) = Ok tt \/ fst (run_call a c w) = Null) /\ harmless (w_st (snd (run_call a c w))).
Proof.
  intros a c w C O. destruct c as [ck d|ck d|ck d|ck n d|d|d|d|ref d|h d| |n]; cbn [run_call call_ok] in *.
  - apply h_drop_good, h_on_unit_good; auto using nalunit_hgood.
  - apply h_drop_good, h_unescaped_good; auto using nalunit_hgood.
  - apply h_drop_good. destruct (h_bitstream_runs a ck d w C O) as (ix & l & w' & _ & E & O' & _).
    unfold size_of. rewrite E. auto.
  - destruct C as [C N8]. apply h_drop_good.
    destruct (h_length_safe a ck d n w C O) as [(l & w' & -> & O')|(N8' & _)]; [auto|lia].
  - apply h_drop_good, h_on_unit_safe; auto using rtp_hsafe.
  - apply h_drop_good, h_on_unit_good; auto using single_hgood.
  - apply h_drop_good, h_on_unit_good; auto using stapa_hgood.
  - apply h_drop_good, h_on_unit_good; auto using fua_hgood.
  - apply h_drop_good, h_on_unit_good; auto using payload_hgood.
  - cbn. auto.
  - cbn. auto.
Qed.

(** * C69: what a caller may put into the parser state *)
(** Nothing but these numbers can do harm, whatever else the sets hold and whatever ids they are
    stored under; and parsing keeps the state harmless. *)
Theorem C69_safe : forall a c w, call_ok a c -> harmless (w_st w) ->
  exists w', (run_call a c w = (Ok tt, w') \/ run_call a c w = (Null, w')) /\ harmless (w_st w').
Proof.
  intros a c w C O. destruct (h_call_safe a c w C O) as [R H].
  destruct (run_call a c w) as [r w']. exists w'. cbn [fst snd] in R, H. destruct R as [->| ->]; auto.
Qed.
(** Any number of calls. *)
Fixpoint run_calls (a : bool) (cs : list call) (w : world) : list (res unit) * world :=
  match cs with
  | [] => ([], w)
  | c :: t => let '(r, w1) := run_call a c w in let '(l, w2) := run_calls a t w1 in (r :: l, w2)
  end.
Theorem C69_sequence : forall a cs w, Forall (call_ok a) cs -> harmless (w_st w) ->
  Forall (fun r => r = Ok tt \/ r = Null) (fst (run_calls a cs w)) /\ harmless (w_st (snd (run_calls a cs w))).
Proof.
  intros a cs. induction cs as [|c t IH]; intros w F O; cbn [run_calls]; [cbn [fst snd]; auto|].
  apply Forall_cons_iff in F. destruct F as [F1 F2]. destruct (C69_safe a c w F1 O) as (w1 & R & O1).
  destruct (IH w1 F2 O1) as [L O2]. destruct R as [R|R]; rewrite R;
    destruct (run_calls a t w1) as [l w2]; cbn [fst snd] in *; auto.
Qed.
(** The parsers of single structures. *)
Theorem C69_structures : forall A (e : structure A) a data w, fits a data -> harmless (w_st w) ->
  exists w', ((exists x, ParseBytes a e data (size_of data) w = (Ok x, w')) \/
              ParseBytes a e data (size_of data) w = (Null, w')) /\ harmless (w_st w').
Proof.
  intros A e a data w F O. pose proof (h_on_unit_good A a (on_bits e) data w (on_bits_hgood A e) F O) as G.
  change (ParseBytes a e data (size_of data) w) with (on_unit a (on_bits e) data w).
  destruct (on_unit a (on_bits e) data w) as [[x| |k| |] w']; try tauto; exists w'; eauto.
Qed.
(** The states that parsing makes are among them. *)
Theorem C69_parsed : forall a w, history a w -> harmless (w_st w).
Proof. intros a w H. apply ok_harmless, (C23_state_well_formed a w H). Qed.

(** Without the conditions: an SPS whose bit depth makes the range of slice_qp_delta overflow,
    and a PPS whose change rate is 0 as a 32-bit number, each with four bytes of slice. *)
Definition deep_sps (depth : N) : sps :=
  mksps 66 0 0 0 0 0 0 0 0 0 1 0 depth 0 0 0 scal0 1 2 0 0 0%Z 0%Z 0 [] 0 0 0 0 1
    0 0 0 0 0 0 0 0 None UNSPECIFIED.
Definition rated_pps (map_type rate : N) : pps :=
  mkpps 0 0 0 0 0 1 map_type [] [] 0 rate 0 [] 0 0 0 0 0%Z 0%Z 0%Z 0 0 0 0 0 scal0 0%Z.
Definition deep_state (depth map_type rate : N) : pstate :=
  mkst [(0, deep_sps depth)] [(0, rated_pps map_type rate)] [].
Definition idr_slice : list N := [101; 136; 130; 120].
Theorem C69_depth_refuted : forall a ck c,
  fst (run_call a (CallNalUnit ck idr_slice) (mkw (deep_state 357913933 0 0) c)) = UB SignedOverflow /\
  fst (run_call a (CallNalUnit ck idr_slice) (mkw (deep_state 3937053354 0 0) c)) = UB SignedOverflow.
Proof. intros [|] [|] c; split; vm_compute; reflexivity. Qed.
Theorem C69_rate_refuted : forall a ck c, exists k,
  fst (run_call a (CallNalUnit ck idr_slice) (mkw (deep_state 0 3 (2 ^ 32 - 1)) c)) = UB k.
Proof. intros [|] [|] c; eexists; vm_compute; reflexivity. Qed.
(** The bounds are the exact ones: one less, or one more, is harmless and parses. *)
Example C69_ex : forall a ck c,
  harmless (deep_state 357913932 3 (2 ^ 32 - 2)) /\ harmless (deep_state 3937053355 2 (2 ^ 32 - 1)) /\
  fst (run_call a (CallNalUnit ck idr_slice) (mkw (deep_state 357913932 3 (2 ^ 32 - 2)) c)) = Ok tt /\
  fst (run_call a (CallNalUnit ck idr_slice) (mkw (deep_state 3937053355 2 (2 ^ 32 - 1)) c)) = Ok tt.
Proof.
  intros a ck c.
  assert (H : forall d m r, depth_harmless (deep_sps d) -> rate_harmless (rated_pps m r) -> harmless (deep_state d m r)).
  { intros d m r D R. split; intros [|id] x L; try discriminate L; injection L as <-; auto.
    split; auto. split; cbn; lia. }
  split; [|split]; [apply H..|].
  - left. cbn. lia.
  - intros _ _. cbn. lia.
  - right. cbn. lia.
  - intros _ T. cbn in T. lia.
  - destruct a, ck; split; vm_compute; reflexivity.
Qed.

(** * The fuzz targets *)
Lemma harmless_new : harmless new_state.
Proof. split; intros id x H; discriminate. Qed.
Lemma mock_harmless : forall st,
  forallb (fun e => bit_depth_luma_minus8 (snd e) =? 0) (st_sps st) = true ->
  forallb (fun e => (pps_num_slice_groups_minus1 (snd e) =? 0) &&
    (pps_num_ref_idx_l0_default_active_minus1 (snd e) <? 32) &&
    (pps_num_ref_idx_l1_default_active_minus1 (snd e) <? 32)) (st_pps st) = true -> harmless st.
Proof.
  intros st H1 H2. rewrite forallb_forall in H1, H2.
  split; intros id x L; unfold lookup in L;
    match type of L with option_map _ ?f = _ => destruct f as [e|] eqn:E; [|discriminate] end;
    injection L as <-; apply find_some in E; destruct E as [I _].
  - apply H1 in I. left. lia.
  - apply H2 in I. split; [intros T; lia|split; lia].
Qed.
Definition ends_well (b : block) : Prop := forall a data c, fits a data -> exists c', b a data c = (Ok tt, c').
Lemma call_ends : forall A st (f : bool -> list N -> N -> world -> res A * world), harmless st ->
  (forall a data w, fits a data -> harmless (w_st w) ->
    match f a data (size_of data) w with (Ok _, _) | (Null, _) => True | _ => False end) ->
  ends_well (with_state st f).
Proof.
  intros A st f H G a data c F. specialize (G a data (mkw st c) F H). unfold with_state.
  change (N.of_nat (List.length data)) with (size_of data).
  destruct (f a data (size_of data) (mkw st c)) as [[x| |k| |] w]; try tauto; eexists; reflexivity.
Qed.
Lemma parsing_ends : forall A st (e : structure A), harmless st -> ends_well (parsing st e).
Proof.
  intros A st e H. apply call_ends; auto. intros a data w F O.
  destruct (C69_structures A e a data w F O) as (w' & [(x & ->)| ->] & _); exact I.
Qed.
Lemma unescaping_ends : forall A st (m : M A), harmless st -> hsafe m ->
  ends_well (with_state st (fun a => unescaping a m)).
Proof.
  intros A st m H G. apply call_ends; auto. intros a data w F O.
  pose proof (h_on_unit_safe A a m data w G F O) as R.
  change (unescaping a m data (size_of data) w) with (on_unit a m data w).
  destruct (on_unit a m data w) as [[x| |k| |] w']; tauto.
Qed.
Lemma unescape_ends : ends_well unescape_block.
Proof.
  intros a data c F. exists c. unfold unescape_block. pose proof F as (_ & L & _).
  rewrite UnescapeRbsp_spec by lia. pose proof (fits_unesc a data F) as U.
  destruct (unesc data) as [|x t] eqn:E; [reflexivity|]. rewrite start_new by auto.
  pose proof (good_ReadBits 1 _ (start_wf _ _ U)) as G. destruct (ReadBits 1 _) as [[v| |k| |] b]; tauto || reflexivity.
Qed.
Lemma raw_ends : ends_well raw_block.
Proof.
  intros a data c F. exists c. unfold raw_block. rewrite start_new by auto.
  match goal with |- (done (fst (?p _)), _) = _ => assert (G : good p) end.
  { apply good_bind; [|intros _; apply good_bind; [|intros _; auto with good]].
    - destruct data as [|x t]; [apply good_ret|]. destruct (0 <? x mod 17); [|apply good_ret].
      unfold ignored. apply good_bind; [apply good_attempt, good_ReadBits|intros; apply good_ret].
    - intros b W. rewrite more_rbsp_data_spec by auto. cbn [done]. exists 0%nat. split; [lia|].
      symmetry. apply adv0. auto. }
  specialize (G _ (start_wf _ _ F)).
  match type of G with match ?x with _ => _ end => destruct x as [[v| |k| |] b] end; tauto || reflexivity.
Qed.
Lemma blocks_end : forall l, Forall ends_well l -> ends_well (blocks l).
Proof.
  induction 1 as [|b t B T IH]; intros a data c F; cbn [blocks]; [eexists; reflexivity|].
  destruct (B a data c F) as (c' & ->). exact (IH a data c' F).
Qed.
Lemma targets_end : Forall (fun t => Forall ends_well (snd t)) targets.
Proof.
  assert (S : harmless small_state) by (apply mock_harmless; reflexivity).
  assert (D : harmless field_state) by (apply mock_harmless; reflexivity).
  assert (E : harmless layer_state) by (apply mock_harmless; reflexivity).
  pose proof harmless_new as N.
  assert (B : ends_well (with_state new_state (fun a => ParseBitstream a true))).
  { apply call_ends; auto. intros a data w F O.
    destruct (h_bitstream_runs a true data w F O) as (ix & l & w' & _ & R & _). unfold size_of. rewrite R. exact I. }
  assert (U : ends_well (with_state new_state (fun a => ParseNalUnitBytes a true)))
    by (apply unescaping_ends; auto; apply hsafe_of, nalunit_hgood).
  unfold targets. repeat (apply Forall_cons; [cbn [snd]; repeat apply Forall_cons; try apply Forall_nil|]);
    try apply Forall_nil; auto using parsing_ends, unescape_ends, raw_ends;
    apply unescaping_ends; auto using fua_hgood, single_hgood, stapa_hgood, rtp_hsafe, hsafe_of.
Qed.
(** Every fuzz target returns, for all data. *)
Theorem C69_fuzz : forall name t, In (name, t) targets ->
  forall a data c, fits a data -> test_one_input t a data c = Ok tt.
Proof.
  intros name t I a data c F. pose proof targets_end as T. rewrite Forall_forall in T.
  destruct (blocks_end t (T _ I) a data c F) as (c' & E). unfold test_one_input. rewrite E. reflexivity.
Qed.
(** The statement is not empty: a target with another hand-made state would fail. *)
Example C69_ex_fuzz : List.length targets = 25%nat /\
  test_one_input [parsing (deep_state 357913933 0 0) (SliceHeader 3 5)] false (tl idr_slice) 0 = UB SignedOverflow /\
  test_one_input [parsing (deep_state 357913932 0 0) (SliceHeader 3 5)] false (tl idr_slice) 0 = Ok tt.
Proof. split; [reflexivity|]. split; vm_compute; reflexivity. Qed.

Print Assumptions C69_safe.
Print Assumptions C69_sequence.
Print Assumptions C69_structures.
Print Assumptions C69_parsed.
Print Assumptions C69_depth_refuted.
Print Assumptions C69_rate_refuted.
Print Assumptions C69_fuzz.
