(** Properties C56 to C59: the text dumps of what has been parsed. *)
From Coq Require Import NArith ZArith List Bool Lia ZifyBool ZifyNat ZifyN String Ascii.
From Verif Require Import SpecBits Base BitBuffer SpecReader BitsLemmas BitBufferProofs
  ReaderProofs Rbsp SpecRbsp RbspProofs ChecksumProofs Parser SpecSyntax ParserProofs SpecVui SpecScaling SpecFraming Framing
  FramingProofs TypesSps Sps SpecSps SpsProofs TypesPps Pps SpecPps PpsProofs PropsSps PropsPps
  TypesNal NalHeader SpecNalHeader NalHeaderProofs TypesExt Ext SpecExt ExtProofs PropsExt
  TypesSlice TypesSliceHeader SliceHeader SpecSlice SliceProofs PropsSlice
  TypesSvcSlice SvcSlice SpecSvcSlice SvcSliceProofs PropsSvcSlice
  TypesNalUnit NalUnit NalUnitProofs SpecNalUnit NalUnitProofs2 NalUnitProofs3 PropsNalUnit PropsNalUnit2
  PropsFraming NalType Rtp RtpProofs PropsRtp Tool PropsTool SpecDump SpecShown SpecLabels Dump DumpProofs DumpProofs2 DumpProofs3
  DumpProofs4 DumpProofs5 DumpProofs6 DumpProofs7 DumpProofs8.
Import ListNotations.
Open Scope N_scope.
Open Scope list_scope.
Ltac Zify.zify_post_hook ::= Z.div_mod_to_equations.

(** NalUnitState::fdump and RtpState::fdump. *)
Definition fdump_unit (level : Z) (o : popts) (off len : N) (x : nalu) : res string :=
  render level (dump_nalu o off len x).
Definition fdump_rtp (level : Z) (o : popts) (v : rtp) : res string := render level (dump_rtp o v).
(** The checksum is printed only if it was asked for when parsing. *)
Definition checksum_asked (ck : bool) (o : popts) : Prop := add_checksum o = true -> ck = true.

Lemma unit_facts : forall a ck u w x w', history a w -> fits a u -> parse_unit a ck u w = (Ok x, w') ->
  good_unit (w_st w) ck x /\ shape (nu_header x) (nu_payload x).
Proof.
  intros a ck u w x w' H F E. pose proof (history_ok a w H) as O. split; [eapply parse_good_unit|eapply parse_shape]; eauto.
Qed.
Lemma rtp_facts : forall a u w v w', history a w -> fits a u -> parse_rtp a u w = (Ok v, w') -> good_rtp v.
Proof.
  intros a u w v w' H F E. unfold parse_rtp, ParseRtpBytes in E.
  change (on_unit a ParseRtp u w = (Ok v, w')) in E. rewrite on_unit_eq in E by auto.
  destruct (ParseRtp (start a (unesc u), w)) as [r [b1 w1]] eqn:P.
  assert (X : r = Ok v) by (cbn in E; congruence). subst r.
  eapply gives_rtp; [|exact (history_ok a w H)|exact P]. apply start_wf, fits_unesc, F.
Qed.

(** * C56: every parse result can be dumped *)
Theorem C56_units : forall a ck u w x w' level o off len, history a w -> fits a u ->
  parse_unit a ck u w = (Ok x, w') -> checksum_asked ck o -> exists s, fdump_unit level o off len x = Ok s.
Proof.
  intros a ck u w x w' level o off len H F E C. destruct (unit_facts a ck u w x w' H F E) as [G _].
  destruct (render_printable level (dump_nalu o off len x)) as (s & R & _); [|exists s; exact R].
  eapply nice_printable, nice_nalu; eauto.
Qed.
Theorem C56_rtp : forall a u w v w' level o, history a w -> fits a u ->
  parse_rtp a u w = (Ok v, w') -> exists s, fdump_rtp level o v = Ok s.
Proof.
  intros a u w v w' level o H F E.
  destruct (render_printable level (dump_rtp o v)) as (s & R & _); [|exists s; exact R].
  eapply printable_rtp, rtp_facts; eauto.
Qed.
Lemma runs_each : forall a ck us w l w', runs (parse_unit a ck) us w l w' ->
  Forall (fun e => fits a (snd e)) us -> ok_state (w_st w) ->
  Forall (fun e => exists st, good_unit st ck (fst (fst e)) /\ shape (nu_header (fst (fst e))) (nu_payload (fst (fst e)))) l.
Proof.
  intros a ck us w l w' R. induction R as [s|o u t s x s' l s'' E R IH|o u t s s' l s'' E R IH]; intros F O; [constructor| |];
  inversion F as [|? ? F1 F2]; subst; cbn [snd] in F1;
  pose proof (unit_effect a ck u s F1 O) as K; change (unit_parser a ck u s) with (parse_unit a ck u s) in K; rewrite E in K.
  - destruct K as (_ & _ & _ & _ & _ & O'). constructor; [|auto]. exists (w_st s). cbn [fst].
    split; [exact (parse_good_unit a ck u s x s' F1 O E)|exact (parse_shape a ck u s x s' F1 O E)].
  - apply IH; auto. rewrite K. auto.
Qed.
Lemma stream_dumps : forall level o ck l, checksum_asked ck o ->
  Forall (fun e => exists st, good_unit st ck (fst (fst e)) /\ shape (nu_header (fst (fst e))) (nu_payload (fst (fst e)))) l ->
  exists ts, Forall2 (fun e t => fdump_unit level o (snd (fst e)) (snd e) (fst (fst e)) = Ok t) l ts /\
    fdump_bitstream level o l = Ok (String.concat "" (map (fun t => t ++ String newline EmptyString)%string ts)).
Proof.
  intros level o ck l C H. induction H as [|[[x off] len] l (st & G & _) H (ts & TS & E)].
  - exists []. split; [constructor|reflexivity].
  - cbn [fst snd] in *. destruct (render_printable level (dump_nalu o off len x)) as (s & R & _).
    { eapply nice_printable, nice_nalu; eauto. }
    exists (s :: ts). split; [constructor; auto|]. cbn [fdump_bitstream]. rewrite R. cbn [rbind]. rewrite E. cbn [rbind map].
    f_equal. set (f := fun t => (t ++ String newline EmptyString)%string).
    assert (K : forall z zs, String.concat "" (z :: zs) = (z ++ String.concat "" zs)%string).
    { intros z zs. cbn [String.concat]. destruct zs; cbn [append]; [|reflexivity]. cbn. induction z; cbn; congruence. }
    rewrite K. unfold f at 2.
    assert (A : forall p q r, ((p ++ q) ++ r = p ++ (q ++ r))%string) by (induction p; cbn; intros; congruence).
    rewrite A. reflexivity.
Qed.
(** A whole byte stream; one line per unit when the level is -1. *)
Theorem C56_stream : forall a ck data w l w' level o, history a w -> fits a data ->
  ParseBitstream a ck data (size_of data) w = (Ok l, w') -> checksum_asked ck o ->
  exists ts, Forall2 (fun e t => fdump_unit level o (snd (fst e)) (snd e) (fst (fst e)) = Ok t) l ts /\
    fdump_bitstream level o l = Ok (String.concat "" (map (fun t => t ++ String newline EmptyString)%string ts)).
Proof.
  intros a ck data w l w' level o H F E C. apply stream_dumps with (ck := ck); auto.
  destruct (C39_in_order a ck data w H F) as (ix & l1 & w1 & _ & E1 & R). rewrite E in E1. injection E1 as <- <-.
  eapply runs_each; [exact R| |exact (history_ok a w H)]. apply (found_fit a data ix F).
Qed.
(** Without that: asking for a checksum that was not computed dereferences a null pointer. *)
Theorem C56_checksum_refuted : forall a u w x w' level o off len, history a w -> fits a u ->
  parse_unit a false u w = (Ok x, w') -> add_checksum o = true ->
  fdump_unit level o off len x = UB NullDeref.
Proof.
  intros a u w x w' level o off len H F E C. destruct (unit_facts a false u w x w' H F E) as [[_ _ K] _].
  unfold fdump_unit, dump_nalu, block. rewrite C, K. cbn [render Dump.when deref].
  destruct (add_offset o), (add_length o), (add_parsed_length o); reflexivity.
Qed.

(** * C57: layout *)
Theorem C57_one_line : forall a ck u w x w' o off len s, history a w -> fits a u ->
  parse_unit a ck u w = (Ok x, w') -> checksum_asked ck o ->
  fdump_unit (-1) o off len x = Ok s -> one_line s.
Proof.
  intros a ck u w x w' o off len s H F E C D. destruct (unit_facts a ck u w x w' H F E) as [G _].
  eapply printable_one_line; [|exact D]. eapply nice_printable, nice_nalu; eauto.
Qed.
Theorem C57_indented : forall a ck u w x w' n o off len s, history a w -> fits a u ->
  parse_unit a ck u w = (Ok x, w') -> checksum_asked ck o ->
  fdump_unit (Z.of_nat n) o off len x = Ok s -> indented n s.
Proof.
  intros a ck u w x w' n o off len s H F E C D. destruct (unit_facts a ck u w x w' H F E) as [G _].
  apply (nice_indented n (dump_nalu o off len x)); [eapply nice_nalu; eauto|discriminate|exact D].
Qed.
(** The level decides about blanks and line ends only. *)
Theorem C57_same_words : forall a ck u w x w' o off len l1 l2 s1 s2, history a w -> fits a u ->
  parse_unit a ck u w = (Ok x, w') -> checksum_asked ck o ->
  fdump_unit l1 o off len x = Ok s1 -> fdump_unit l2 o off len x = Ok s2 -> words s1 = words s2.
Proof.
  intros a ck u w x w' o off len l1 l2 s1 s2 H F E C D1 D2. destruct (unit_facts a ck u w x w' H F E) as [G _].
  assert (N : printable (dump_nalu o off len x)) by (eapply nice_printable, nice_nalu; eauto).
  destruct (render_printable l1 _ N) as (t1 & T1 & W1). destruct (render_printable l2 _ N) as (t2 & T2 & W2).
  unfold fdump_unit in *. congruence.
Qed.
Theorem C57_rtp_one_line : forall a u w v w' o s, history a w -> fits a u ->
  parse_rtp a u w = (Ok v, w') -> fdump_rtp (-1) o v = Ok s -> one_line s.
Proof.
  intros a u w v w' o s H F E D. eapply printable_one_line; [|exact D]. eapply printable_rtp, rtp_facts; eauto.
Qed.

(** * C58: the words determine the values *)
Definition no_slice (x : nalu) : Prop := ~ In (nal_unit_type (nu_header x)) [1; 5; 20].
Lemma no_slice_good : forall st st' ck x, no_slice x -> shape (nu_header x) (nu_payload x) -> good_unit st ck x -> good_unit st' ck x.
Proof.
  intros st st' ck x N S [V G K]. split; auto. cbn [In no_slice] in N. unfold no_slice in N. cbn [In] in N.
  destruct G as [G1 G2 G3 G4 G5 G6]. split; auto.
  - intros y E. destruct (shape_slice _ _ _ S E); lia.
  - intros y E. pose proof (shape_slext _ _ _ S E). lia.
Qed.
Theorem C58_words_determine : forall a1 a2 ck u1 u2 w1 w2 x1 x2 w1' w2' o off1 off2 len1 len2 l1 l2 s1 s2,
  history a1 w1 -> history a2 w2 -> fits a1 u1 -> fits a2 u2 ->
  parse_unit a1 ck u1 w1 = (Ok x1, w1') -> parse_unit a2 ck u2 w2 = (Ok x2, w2') ->
  w_st w1 = w_st w2 \/ (no_slice x1 /\ no_slice x2) -> checksum_asked ck o ->
  fdump_unit l1 o off1 len1 x1 = Ok s1 -> fdump_unit l2 o off2 len2 x2 = Ok s2 -> words s1 = words s2 ->
  nu_header x1 = nu_header x2 /\ shown_payload (nu_payload x1) = shown_payload (nu_payload x2) /\
  (add_offset o = true -> off1 = off2) /\ (add_length o = true -> len1 = len2) /\
  (add_parsed_length o = true -> nu_parsed_length x1 = nu_parsed_length x2) /\
  (add_checksum o = true -> nu_checksum x1 = nu_checksum x2).
Proof.
  intros a1 a2 ck u1 u2 w1 w2 x1 x2 w1' w2' o off1 off2 len1 len2 l1 l2 s1 s2 H1 H2 F1 F2 E1 E2 ST C D1 D2 W.
  destruct (unit_facts _ _ _ _ _ _ H1 F1 E1) as [G1 S1]. destruct (unit_facts _ _ _ _ _ _ H2 F2 E2) as [G2 S2].
  assert (G2' : good_unit (w_st w1) ck x2).
  { destruct ST as [->|[_ N]]; [exact G2|]. eapply no_slice_good; eauto. }
  assert (N1 : printable (dump_nalu o off1 len1 x1)) by (eapply nice_printable, nice_nalu; eauto).
  assert (N2 : printable (dump_nalu o off2 len2 x2)) by (eapply nice_printable, nice_nalu; eauto).
  destruct (render_printable l1 _ N1) as (t1 & T1 & W1). destruct (render_printable l2 _ N2) as (t2 & T2 & W2).
  unfold fdump_unit in *. assert (X : flat (dump_nalu o off1 len1 x1) = flat (dump_nalu o off2 len2 x2)) by congruence.
  destruct (nalu_step o (w_st w1) ck off1 len1 off2 len2 x1 x2 [] []) as (K1 & K2 & K3 & K4 & K5 & K6 & _); auto.
  { rewrite !app_nil_r. exact X. }
  repeat split; auto.
Qed.

(** * C59: every syntax element is printed with its name and value *)
Theorem C59_units : forall a ck u w x w' level o off len s, history a w -> fits a u ->
  parse_unit a ck u w = (Ok x, w') -> checksum_asked ck o -> fdump_unit level o off len x = Ok s ->
  Forall (tells (words s)) (unit_all (nu_header x) (nu_payload x)).
Proof.
  intros a ck u w x w' level o off len s H F E C D. destruct (unit_facts a ck u w x w' H F E) as [G S].
  destruct (render_printable level (dump_nalu o off len x)) as (t & T & W). { eapply nice_printable, nice_nalu; eauto. }
  unfold fdump_unit in D. replace s with t by congruence. rewrite W. eapply unit_all_says; eauto.
Qed.
Theorem C59_slices : forall a ck u w x w' level o off len s v, history a w -> fits a u ->
  parse_unit a ck u w = (Ok x, w') -> checksum_asked ck o -> fdump_unit level o off len x = Ok s ->
  pl_slice (nu_payload x) = Some v ->
  let ref := nal_ref_idc (nu_header x) in let nut := nal_unit_type (nu_header x) in
  exists sp pp y, active (w_st w) (pic_parameter_set_id (s_lead y)) = Some (sp, pp) /\
    valid_slice ref nut sp pp y /\ sl_slice_header v = slh_of ref nut sp pp y /\
    Forall (tells (words s)) (slice_members nut sp pp y).
Proof.
  intros a ck u w x w' level o off len s v H F E C D V. destruct (unit_facts a ck u w x w' H F E) as [G S].
  destruct (render_printable level (dump_nalu o off len x)) as (t & T & W). { eapply nice_printable, nice_nalu; eauto. }
  unfold fdump_unit in D. replace s with t by congruence. rewrite W. eapply unit_slice_says; eauto.
Qed.
Theorem C59_svc_slices : forall a ck u w x w' level o off len s v y, history a w -> fits a u ->
  parse_unit a ck u w = (Ok x, w') -> checksum_asked ck o -> fdump_unit level o off len x = Ok s ->
  pl_slice_ext (nu_payload x) = Some v -> sx_svc_slice_header v = Some y ->
  exists c z, svc_active (nu_header x) (w_st w) (svc_id z) = Some c /\
    valid_svc_slice 0 0 c z /\ svh_of c z = Some y /\ Forall (tells (words s)) (svc_members c z).
Proof.
  intros a ck u w x w' level o off len s v y H F E C D V Y. destruct (unit_facts a ck u w x w' H F E) as [G S].
  destruct (render_printable level (dump_nalu o off len x)) as (t & T & W). { eapply nice_printable, nice_nalu; eauto. }
  unfold fdump_unit in D. replace s with t by congruence. rewrite W. eapply unit_slext_says; eauto.
Qed.
(** The resolution, when asked for: the cropped size in luma samples. *)
Theorem C59_resolution : forall a ck u w x w' level o off len s v, history a w -> fits a u ->
  parse_unit a ck u w = (Ok x, w') -> checksum_asked ck o -> fdump_unit level o off len x = Ok s ->
  pl_sps (nu_payload x) = Some v -> add_resolution o = true ->
  says (words s) (One "width" (Z.of_N (coded_width v) - Z.of_N (crop_width v))) /\
  says (words s) (One "height" (Z.of_N (coded_height v) - Z.of_N (crop_height v))).
Proof.
  intros a ck u w x w' level o off len s v H F E C D V R. destruct (unit_facts a ck u w x w' H F E) as [G S].
  destruct (render_printable level (dump_nalu o off len x)) as (t & T & W). { eapply nice_printable, nice_nalu; eauto. }
  unfold fdump_unit in D. replace s with t by congruence. rewrite W.
  destruct (gp_sps _ _ _ (gu_payload _ _ _ G) v V) as [ls L]. destruct (getResolution_spec v ls L) as (GR & G1 & G2).
  assert (K : included (dump_resolution v) (dump_nalu o off len x)).
  { intros m M. apply in_payload. unfold dump_payload. rewrite (shape_sps _ _ _ S V), V. cbn [maybe].
    apply says_block. unfold dump_sps. apply says_block. unfold dump_sps_data. apply says_block.
    repeat (apply says_r; lazymatch goal with |- says (flat (_ ++ _)) _ => idtac | _ => fail end).
    apply says_r. rewrite R. exact M. }
  unfold dump_resolution in K. rewrite GR in K. rewrite <- !N2Z.inj_sub by lia. split; apply K; [apply says_l|apply says_r]; apply says_fi.
Qed.

(** * What does not hold *)
Definition all_options : popts := mkpo true true true true true.
Definition w_new : world := mkw new_state 0.

(** Running the model on literals. *)
Lemma ok_run : forall A (r : res A * world) (Q : A -> world -> Prop),
  match r with (Ok v, w') => Q v w' | _ => False end -> exists v w', r = (Ok v, w') /\ Q v w'.
Proof. intros A [[v| |k| |] w] Q H; try contradiction. exists v, w. auto. Qed.
Lemma ok_text : forall A (r : res A) (Q : A -> Prop),
  match r with Ok v => Q v | _ => False end -> exists v, r = Ok v /\ Q v.
Proof. intros A [v| |k| |] Q H; try contradiction. exists v. auto. Qed.

(** In RtpState::fdump the structure of the packet starts right behind the closing brace of
    the header, so that the text is not laid out as the others are. *)
Example ex_rtp_text : exists v w', parse_rtp true [5; 99] w_new = (Ok v, w') /\
  fdump_rtp (-1) all_options v = Ok ("rtp { nal_unit_header { forbidden_zero_bit: 0 nal_ref_idc: 0 nal_unit_type: 5 " ++
  "}rtp_single { nal_unit_header { forbidden_zero_bit: 0 nal_ref_idc: 0 nal_unit_type: 5 } nal_unit_payload {  } } }")%string.
Proof. apply ok_run. vm_compute. reflexivity. Qed.
Theorem C57_rtp_indented_refuted : exists u w, history true w /\ fits true u /\
  exists v w', parse_rtp true u w = (Ok v, w') /\
  exists s, fdump_rtp 0 all_options v = Ok s /\ ~ indented 0 s.
Proof.
  exists [5; 99], w_new. split; [apply (hist_new true 0)|]. split; [fits_tac|].
  apply ok_run. match goal with |- context[match ?r with _ => _ end] => let x := eval vm_compute in r in change r with x end.
  cbv iota beta. apply ok_text. vm_compute.
  intros X. repeat match goal with H : _ /\ _ |- _ => destruct H end; discriminate.
Qed.
(** cpb_size_scale is not printed: two sequence parameter sets with the same text. *)
Definition ex_sps_scale (n : N) : sps :=
  mksps 66 0 0 0 0 0 0 0 30 0 1 0 0 0 0 0 scal0 0 2 0 0 0 0 0 [] 1 0 10 8 1 0 1 0 0 0 0 0 1
    (Some (mkvui 0 0 0 0 0 0 0 0 0 0 0 0 0 0 0 0 0 0 0 0 1 (Some (mkhrd 0 4 n [(9, 9, 0)] 23 23 15 24)) 0 None 0 0 0
       0 0 0 0 0 0 0)) BASELINE.
Theorem C58_cpb_size_scale_refuted : exists u1 u2, fits true u1 /\ fits true u2 /\
  exists x1 w1, parse_unit true true u1 w_new = (Ok x1, w1) /\
  exists x2 w2, parse_unit true true u2 w_new = (Ok x2, w2) /\
  pl_sps (nu_payload x1) = Some (ex_sps_scale 6) /\ pl_sps (nu_payload x2) = Some (ex_sps_scale 7) /\
  exists s, fdump_unit 0 (mkpo true true true false true) 0 20 x1 = Ok s /\
    fdump_unit 0 (mkpo true true true false true) 0 20 x2 = Ok s.
Proof.
  exists (ex_unit 103 (enc_sps (ex_sps_scale 6) [])), (ex_unit 103 (enc_sps (ex_sps_scale 7) [])).
  split; [fits_tac|]. split; [fits_tac|]. apply ok_run.
  match goal with |- context[match ?r with _ => _ end] => let x := eval vm_compute in r in change r with x end. cbv iota beta.
  apply ok_run.
  match goal with |- context[match ?r with _ => _ end] => let x := eval vm_compute in r in change r with x end. cbv iota beta.
  split; [reflexivity|]. split; [reflexivity|]. apply ok_text. vm_compute. reflexivity.
Qed.
(** Nor is additional_prefix_nal_unit_extension_flag of a prefix NAL unit. *)
Definition prefix_flag (x : nalu) : option (option N) :=
  option_map (fun p => option_map pf_additional_prefix_nal_unit_extension_flag (px_svc p)) (pl_prefix (nu_payload x)).
Theorem C58_prefix_flag_refuted : exists u1 u2, fits true u1 /\ fits true u2 /\
  exists x1 w1, parse_unit true true u1 w_new = (Ok x1, w1) /\
  exists x2 w2, parse_unit true true u2 w_new = (Ok x2, w2) /\
  prefix_flag x1 = Some (Some 0) /\ prefix_flag x2 = Some (Some 1) /\
  exists s, fdump_unit 0 (mkpo true true true false true) 0 5 x1 = Ok s /\
    fdump_unit 0 (mkpo true true true false true) 0 5 x2 = Ok s.
Proof.
  exists [110; 128; 0; 0; 32], [110; 128; 0; 0; 80].
  split; [fits_tac|]. split; [fits_tac|]. apply ok_run.
  match goal with |- context[match ?r with _ => _ end] => let x := eval vm_compute in r in change r with x end. cbv iota beta.
  apply ok_run.
  match goal with |- context[match ?r with _ => _ end] => let x := eval vm_compute in r in change r with x end. cbv iota beta.
  split; [reflexivity|]. split; [reflexivity|]. apply ok_text. vm_compute. reflexivity.
Qed.
(** Negative values of slice_alpha_c0_offset_div2 and slice_beta_offset_div2 come out as
    large ones. *)
Definition said (ws : list string) (k : string) : list (option Z) :=
  map (fun p => number (snd p)) (filter (fun p => String.eqb (k ++ ":") (fst p)) (combine ws (tl ws))).
Lemma says_said : forall ws k v, says ws (One k v) <-> In (Some v) (said ws k).
Proof.
  intros ws k v. unfold said. rewrite in_map_iff. split.
  - intros (b & w & t & -> & E). exists ((k ++ ":")%string, w). split; [exact E|]. apply filter_In.
    split; [|apply String.eqb_refl]. clear E.
    induction b as [|x b IH]; cbn [app combine tl]; [left; reflexivity|].
    destruct (b ++ (k ++ ":")%string :: w :: t) eqn:X; [destruct b; discriminate|]. cbn [tl combine] in *. right. exact IH.
  - intros ([k' w] & E & I). apply filter_In in I. destruct I as [I K]. apply String.eqb_eq in K. cbn [fst snd] in *. subst k'.
    induction ws as [|x ws IH]; [contradiction|]. destruct ws as [|y ws]; [contradiction|]. cbn [tl combine] in *.
    destruct I as [I|I].
    + injection I as -> ->. exists [], w, ws. auto.
    + destruct (IH I) as (b & w' & t & X & E'). exists (x :: b), w', t. rewrite X. auto.
Qed.
Definition w_ex : world := snd (ParseBitstream true true (annexb [(true, ex_u_sps); (false, ex_u_pps)])
  (size_of (annexb [(true, ex_u_sps); (false, ex_u_pps)])) w_new).
(** The name of the profile (A.2), between its label and the next member. *)
Definition profile_name (p : profile) : list string := (match p with
  | UNSPECIFIED => ["Unspecified"]
  | BASELINE => ["Baseline"]
  | CONSTRAINED_BASELINE => ["Constrained"; "Baseline"]
  | MAIN => ["Main"]
  | EXTENDED => ["Extended"]
  | HIGH => ["High"]
  | PROGRESSIVE_HIGH => ["Progressive"; "High"]
  | CONSTRAINED_HIGH => ["Constrained"; "High"]
  | HIGH_10 => ["High"; "10"]
  | PROGRESSIVE_HIGH_10 => ["Progressive"; "High"; "10"]
  | HIGH_10_INTRA => ["High"; "10"; "Intra"]
  | HIGH_422 => ["High"; "4:2:2"]
  | HIGH_422_INTRA => ["High"; "4:2:2"; "Intra"]
  | HIGH_444 => ["High"; "4:4:4"]
  | HIGH_444_INTRA => ["High"; "4:4:4"; "Intra"]
  | HIGH_444_PRED => ["High"; "4:4:4"; "Predictive"]
  | HIGH_444_PRED_INTRA => ["High"; "4:4:4"; "Predictive"; "Intra"]
  | CAVLC_444_INTRA => ["CAVLC"; "4:4:4"; "Intra"]
  end)%string.
Definition part (ws l : list string) : Prop := exists a b, l = a ++ ws ++ b.
Lemma part_l : forall ws d e, part ws (flat d) -> part ws (flat (d ++ e)).
Proof. intros ws d e (a & b & E). rewrite flat_app, E. exists a, (b ++ flat e). now rewrite <- !app_assoc. Qed.
Lemma part_r : forall ws d e, part ws (flat e) -> part ws (flat (d ++ e)).
Proof. intros ws d e (a & b & E). rewrite flat_app, E. exists (flat d ++ a), b. now rewrite <- !app_assoc. Qed.
Lemma part_block : forall ws n d, part ws (flat d) -> part ws (flat (block n d)).
Proof.
  intros ws n d (a & b & E). rewrite flat_block, E. exists ([n; "{"%string] ++ a), (b ++ ["}"%string]).
  now rewrite <- !app_assoc.
Qed.
Lemma sps_profile : forall o v, profile_type v = annex_a v ->
  part ("profile:"%string :: profile_name (annex_a v) ++ ["level_idc:"%string]) (flat (dump_sps_data o v)).
Proof.
  intros o v P. unfold dump_sps_data. apply part_block. do 8 apply part_r. rewrite P.
  rewrite flat_app, (flat_app (fu "level_idc" _)). change (flat (fu "level_idc" (level_idc v))) with ["level_idc:"%string; dec (level_idc v)].
  destruct (annex_a v); eexists [], _; reflexivity.
Qed.
Theorem C59_profile : forall a ck u w x w' level o off len s v, history a w -> fits a u ->
  parse_unit a ck u w = (Ok x, w') -> checksum_asked ck o -> fdump_unit level o off len x = Ok s ->
  (pl_sps (nu_payload x) = Some v \/ option_map ss_sps (pl_subset_sps (nu_payload x)) = Some v) ->
  part ("profile:"%string :: profile_name (annex_a v) ++ ["level_idc:"%string]) (words s).
Proof.
  intros a ck u w x w' level o off len s v H F E C D V. destruct (unit_facts a ck u w x w' H F E) as [G S].
  destruct (render_printable level (dump_nalu o off len x)) as (t & T & W). { eapply nice_printable, nice_nalu; eauto. }
  unfold fdump_unit in D. replace s with t by congruence. rewrite W.
  unfold dump_nalu. apply part_block. do 5 apply part_r. unfold dump_payload. apply part_block.
  destruct V as [V|V].
  - destruct (gp_sps _ _ _ (gu_payload _ _ _ G) v V) as [ls L].
    rewrite (shape_sps _ _ _ S V), V. cbn [maybe]. unfold dump_sps. apply part_block, sps_profile. apply L.
  - destruct (pl_subset_sps (nu_payload x)) as [y|] eqn:Y; [|discriminate]. cbn in V. injection V as <-.
    destruct (gp_subset _ _ _ (gu_payload _ _ _ G) y Y) as [(ls & L) _].
    rewrite (shape_subset _ _ _ S Y). cbn [maybe]. unfold dump_subsps. apply part_block, part_l, sps_profile. apply L.
Qed.
Theorem C59_negative_offset_refuted : exists w u, history true w /\ fits true u /\
  exists x w', parse_unit true true u w = (Ok x, w') /\
  option_map (fun v => slice_alpha_c0_offset_div2 (sh_dbk (sl_slice_header v))) (pl_slice (nu_payload x)) = Some (-6)%Z /\
  exists s, fdump_unit 0 all_options 0 20 x = Ok s /\
  ~ says (words s) (One "slice_alpha_c0_offset_div2" (-6)) /\
  says (words s) (One "slice_alpha_c0_offset_div2" 4294967290).
Proof.
  exists w_ex, ex_u_slice. split.
  { apply (hist_call true w_new (CallBitstream true (annexb [(true, ex_u_sps); (false, ex_u_pps)])) (Ok tt)); [apply (hist_new true 0)| |].
    - assert (F : fits true (annexb [(true, ex_u_sps); (false, ex_u_pps)])) by fits_tac. exact F.
    - vm_compute. reflexivity. }
  split; [fits_tac|]. apply ok_run.
  match goal with |- context[match ?r with _ => _ end] => let x := eval vm_compute in r in change r with x end. cbv iota beta.
  split; [reflexivity|]. apply ok_text.
  match goal with |- context[match ?r with _ => _ end] => let x := eval vm_compute in r in change r with x end. cbv iota beta.
  rewrite !says_said.
  match goal with |- context[said ?r ?k] => let x := eval vm_compute in (said r k) in change (said r k) with x end.
  split; [intros [X|[]]; discriminate X|left; reflexivity].
Qed.

(** * Examples *)
(** The example stream, on one line per unit; the fourth unit is a slice that is cut off. *)
Example C56_ex : fits true ex_stream /\
  exists l w', ParseBitstream true true ex_stream (size_of ex_stream) w_new = (Ok l, w') /\
  exists s, fdump_bitstream (-1) all_options l = Ok s /\
  (List.length (text_lines s) = 6%nat /\
   nth 3 (text_lines s) EmptyString = ("nal_unit { offset: 0x00000063 length: 3 parsed_length: 0x00000003 " ++
     "checksum: 0xdaf6e3ff nal_unit_header { forbidden_zero_bit: 0 nal_ref_idc: 1 nal_unit_type: 5 } " ++
     "nal_unit_payload {  } }")%string).
Proof.
  split; [fits_tac|]. apply ok_run.
  match goal with |- context[match ?r with _ => _ end] => let x := eval vm_compute in r in change r with x end. cbv iota beta.
  apply ok_text. vm_compute. split; reflexivity.
Qed.
(** The same unit at level 1. *)
Definition nl : string := String (ascii_of_N 10) EmptyString.
Example C57_ex : fits true ex_u_bad /\ exists x w', parse_unit true true ex_u_bad w_new = (Ok x, w') /\
  fdump_unit 1 (mkpo false false true false false) 0 3 x = Ok (
    "nal_unit {" ++ nl ++
    "    parsed_length: 0x00000003" ++ nl ++
    "    nal_unit_header {" ++ nl ++
    "      forbidden_zero_bit: 0" ++ nl ++
    "      nal_ref_idc: 1" ++ nl ++
    "      nal_unit_type: 5" ++ nl ++
    "    }" ++ nl ++
    "    nal_unit_payload {" ++ nl ++
    "      " ++ nl ++
    "    }" ++ nl ++
    "  }")%string.
Proof. split; [fits_tac|]. apply ok_run. vm_compute. reflexivity. Qed.
(** A PPS parsed in two different states, with different addresses: the texts agree up to
    what they say about the address. *)
Example C58_ex : exists x1 w1, parse_unit true true ex_u_pps w_new = (Ok x1, w1) /\
  exists x2 w2, parse_unit false true ex_u_pps w_ex = (Ok x2, w2) /\ no_slice x1 /\ no_slice x2 /\
  exists s1, fdump_unit (-1) (mkpo false true true true true) 0 8 x1 = Ok s1 /\
  exists s2, fdump_unit 2 (mkpo false true true true true) 99 8 x2 = Ok s2 /\ s1 <> s2 /\ words s1 = words s2.
Proof.
  apply ok_run.
  match goal with |- context[match ?r with _ => _ end] => let x := eval vm_compute in r in change r with x end. cbv iota beta.
  apply ok_run.
  match goal with |- context[match ?r with _ => _ end] => let x := eval vm_compute in r in change r with x end. cbv iota beta.
  split; [intros [X|[X|[X|[]]]]; discriminate X|]. split; [intros [X|[X|[X|[]]]]; discriminate X|].
  apply ok_text. vm_compute. eexists. split; [reflexivity|]. split; [discriminate|reflexivity].
Qed.
(** What is listed for the unit with the example SPS: 86 elements are in the bitstream. *)
Example C59_ex : exists x w', parse_unit true true ex_u_sps w_new = (Ok x, w') /\
  List.length (filter fst (unit_all (nu_header x) (nu_payload x))) = 86%nat /\
  nth_error (unit_all (nu_header x) (nu_payload x)) 32 = Some (true, Many "offset_for_ref_frame" [7; -9]%Z).
Proof.
  apply ok_run. vm_compute. split; reflexivity.
Qed.
Print Assumptions C56_units.
Print Assumptions C56_rtp.
Print Assumptions C56_stream.
Print Assumptions C56_checksum_refuted.
Print Assumptions C57_one_line.
Print Assumptions C57_indented.
Print Assumptions C57_same_words.
Print Assumptions C57_rtp_one_line.
Print Assumptions C58_words_determine.
Print Assumptions C59_units.
Print Assumptions C59_slices.
Print Assumptions C59_svc_slices.
Print Assumptions C59_resolution.
Print Assumptions C59_profile.
Print Assumptions C57_rtp_indented_refuted.
Print Assumptions C58_cpb_size_scale_refuted.
Print Assumptions C58_prefix_flag_refuted.
Print Assumptions C59_negative_offset_refuted.
