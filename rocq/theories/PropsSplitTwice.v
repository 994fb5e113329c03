(** Property C82: h264nal-split.py on the files that it has written. *)
From Coq Require Import NArith ZArith List Bool Lia ZifyBool ZifyNat ZifyN String Ascii Sorting.Sorted.
From Verif Require Import SpecBits Base BitBuffer SpecReader BitsLemmas BitBufferProofs
  ReaderProofs Rbsp SpecRbsp RbspProofs ChecksumProofs Parser SpecSyntax ParserProofs SpecFraming Framing
  FramingProofs FramingProofs2 FramingProofs3 TypesSps Sps SpecSps SpsProofs TypesPps Pps TypesNal NalHeader TypesExt Ext TypesSlice TypesSliceHeader SliceHeader
  TypesSvcSlice SvcSlice
  TypesNalUnit NalUnit NalUnitProofs SpecNalUnit NalUnitProofs2 NalUnitProofs3 PropsNalUnit PropsNalUnit2
  PropsFraming NalType Rtp RtpProofs Tool SpecTool ToolProofs PropsTool SpecDump SpecLabels Dump DumpProofs DumpProofs2 DumpProofs3
  DumpProofs4 DumpProofs5 DumpProofs6 DumpProofs7 DumpProofs8 PropsDump ToolText SpecToolText ToolTextProofs PropsToolText
  PyText PyTextProofs Split SpecSplit SplitProofs SplitProofs2 PropsSplit.
Import ListNotations.
Open Scope N_scope.
Open Scope list_scope.
Ltac Zify.zify_post_hook ::= Z.div_mod_to_equations.

(** The numbers read for a unit depend only on its bytes. *)
Definition numbers_of (u : nalu) : option size :=
  if nal_unit_type (nu_header u) =? 7 then
    match pl_sps (nu_payload u) with Some s => sps_read s | None => None end
  else None.
Lemma set_of_numbers : forall u off len,
  set_of (u, off, len) = match numbers_of u with Some r => [(off, r)] | None => [] end.
Proof.
  intros u off len. unfold set_of, numbers_of. destruct (_ =? 7); [|reflexivity].
  destruct (pl_sps _) as [s|]; [|reflexivity]. destruct (sps_read s); reflexivity.
Qed.
Lemma header_any : forall b w1 w2 h c1, nal_header (b, w1) = (Ok h, c1) -> c1 = (fst c1, w1) /\ nal_header (b, w2) = (Ok h, (fst c1, w2)).
Proof.
  intros b w1 w2 h c1. unfold nal_header, storedu, sbind, nonnull, sret, sfail. generalize (ParseNalUnitHeader b). intros [[[a|]| | | |] b'] H; try discriminate.
  injection H as <- <-. split; reflexivity.
Qed.
Lemma payload_numbers : forall h b w p c, ParseNalUnitPayload h (b, w) = (Ok p, c) ->
  (if nal_unit_type h =? 7 then pl_sps p else None) =
  (if nal_unit_type h =? 7 then match ParseSps b with (Ok s, _) => Some s | _ => None end else None).
Proof.
  intros h b w p c H. destruct (N.eqb_spec (nal_unit_type h) 7) as [T|T]; [|reflexivity]. revert H. unfold ParseNalUnitPayload. rewrite T.
  cbn [N.eqb Pos.eqb orb]. unfold sbind, stored, sret, change. destruct (ParseSps b) as [[s| | | |] b']; intros H; try discriminate;
    injection H as <- _; reflexivity.
Qed.
Lemma unit_numbers : forall a u w1 w2 x1 x2 w1' w2', parse_unit a false u w1 = (Ok x1, w1') -> parse_unit a false u w2 = (Ok x2, w2') ->
  numbers_of x1 = numbers_of x2.
Proof.
  intros a u w1 w2 x1 x2 w1' w2' H1 H2. unfold parse_unit, ParseNalUnitBytes, unescaping in H1, H2. destruct (UnescapeRbsp u (size_of u)) as [bytes| | | |]; try discriminate.
  unfold with_buffer in H1, H2. destruct (bb_new a bytes) as [b| | | |]; try discriminate.
  unfold ParseNalUnit, sbind, sret in H1, H2.
  destruct (nal_header (b, w1)) as [[h| | | |] c1] eqn:E1; try (destruct c1; discriminate).
  destruct (header_any b w1 w2 h c1 E1) as [EC E2]. rewrite E2 in H2. rewrite EC in H1.
  destruct (ParseNalUnitPayload h (fst c1, w1)) as [[p1| | | |] d1] eqn:P1; try (destruct d1; discriminate).
  destruct (ParseNalUnitPayload h (fst c1, w2)) as [[p2| | | |] d2] eqn:P2; try (destruct d2; discriminate).
  destruct d1 as [d1 v1], d2 as [d2 v2]. injection H1 as <- _. injection H2 as <- _.
  apply payload_numbers in P1. apply payload_numbers in P2. rewrite <- P2 in P1. unfold numbers_of. cbn [nu_header nu_payload].
  destruct (nal_unit_type h =? 7); [|reflexivity]. rewrite P1. reflexivity.
Qed.

(** ** What the script has seen when it does not fail *)
Definition accepted_as (a : bool) (data : list N) (x : nalu_index) (e : nalu * N * N) : Prop :=
  snd (fst e) = ni_payload x /\ ni_size x <> 0 /\ exists w w', parse_unit a false (unit_at data x) w = (Ok (fst (fst e)), w').
Lemma script_sees : forall a input data r, fits a data -> split_script a input data = Ok r -> r <> SplitFailed ->
  exists l, Forall2 (accepted_as a data) (indices data) l /\
    r = match changes None (sets_of l) with
        | [] => SplitNothing
        | c => SplitInto (segments 0 (map (find_start_code_offset data) c) data)
        end.
Proof.
  intros a input data r F S NF. destruct (C70_reads a input data F) as (l & w & text & e & P & RUN & R & _).
  pose proof (split_sane input data) as SN.
  destruct (C70_script a input data F) as (l' & w' & r' & e' & P' & T & S' & FE & _ & _).
  rewrite P in P'. injection P' as <- <-. rewrite S in S'. injection S' as <-.
  assert (E0 : e' = 0) by (destruct (N.eq_dec e' 0) as [Z|Z]; [exact Z|exfalso; apply NF, FE, Z]). subst e'.
  exists l. split.
  - destruct (annexb_run a (tool_options (split_args input)) data F (proj2 SN) ltac:(reflexivity)) as (ix & l' & w' & EI & P' & RU & _ & U).
    change (tool_parse a (tool_options (split_args input)) data) with
      (ParseBitstream a false data (size_of data) (mkw new_state 0)) in P'.
    rewrite P in P'. injection P' as <- <-.
    assert (SZ : size_of data < 2 ^ 64) by (destruct F as (_ & F & _); unfold size_of; lia).
    rewrite indices_spec in EI by exact SZ. injection EI as <-.
    assert (LEN : List.length l = List.length (found_units data (indices data))).
    { unfold tool in T. change (tool_parse a (tool_options (split_args input)) data) with
        (ParseBitstream a false data (size_of data) (mkw new_state 0)) in T. rewrite P in T.
      change (opt_dump_length (tool_options (split_args input))) with false in T. cbn [rbind] in T. rewrite U in T. cbn [rbind] in T.
      injection T as T. unfold exit_status in T. destruct (0 <? w_unimplemented w); [discriminate|].
      destruct (N.ltb_spec 0 (N.of_nat (List.length (indices data)) - N.of_nat (List.length l) + n_unparsed l)) as [X|X]; [discriminate|].
      pose proof (runs_kept_le _ _ _ _ _ _ _ RU) as LE. unfold found_units in *. rewrite map_length in *. lia. }
    pose proof (all_kept _ _ _ _ _ _ _ RU LEN) as AK.
    unfold found_units in AK. clear - AK. remember (indices data) as ixs. clear Heqixs. revert l AK.
    induction ixs as [|x ixs IH]; intros l AK; cbn [map] in AK; inversion AK as [|? ? ? l2 (E1 & E2 & s1 & s2 & EP) AK2]; subst; constructor.
    + cbn [fst snd] in *. split; [exact E1|]. split; [|exists s1, s2; exact EP].
      intros Z. rewrite Z in EP. unfold SpecFraming.slice in EP. cbn [N.to_nat firstn] in EP.
      exact (empty_unit _ _ _ _ _ EP).
    + apply IH. exact AK2.
  - unfold split_script in S. rewrite split_args_eq, RUN in S. cbn [rbind] in S. unfold split_main in S. cbn [fst snd] in S.
    destruct (N.eqb_spec e 0) as [E0|E0]; [|congruence].
    rewrite (split_points data l _ None R) in S. cbn [rbind] in S. injection S as S.
    rewrite <- S. clear. match goal with |- match map _ ?c with _ => _ end = _ => set (d := c); change (changes None (sets_of l)) with d end.
    destruct d; reflexivity.
Qed.

(** ** The units of a piece *)
Lemma segs_index : forall qs data start, size_of data < 2 ^ 64 -> airy data -> start <= size_of data -> placed data start qs ->
  forall before f aft, segments start (map (start_of data) qs) data = before ++ f :: aft -> forall x, In x (indices f) ->
  exists y, In y (indices (skipn (N.to_nat start) data)) /\ ni_payload y = ni_payload x + size_of (List.concat before) /\
    unit_at (skipn (N.to_nat start) data) y = unit_at f x.
Proof.
  induction qs as [|q qs IH]; intros data start L A ST P before f aft E x IX.
  - cbn [map segments] in E. destruct before as [|b0 [|b1 before]]; try discriminate. cbn [app] in E. injection E as E _.
    unfold bytes_between in E. rewrite firstn_all2 in E by (rewrite skipn_length; lia). rewrite E. exists x.
    split; [exact IX|]. split; [cbn; lia|reflexivity].
  - pose proof P as [F I]. apply Forall_cons_iff in F. destruct F as [[S SL] F].
    pose proof (sc_room data q S) as RM. pose proof (start_of_le data q) as LE.
    pose proof (fun H1 H2 => IH data (start_of data q) L A H1 H2) as IH'.
    specialize (IH' ltac:(unfold size_of; lia) (placed_next _ _ _ _ A P)). cbn [map segments] in E.
    destruct (skip_split data start ST) as (a & EA & SA). set (b := skipn (N.to_nat start) data) in *.
    set (c := start_of data q) in *. unfold bytes_between in E. fold b in E.
    rewrite <- (skip_more data start c SL) in IH'. fold b in IH'.
    assert (Q : sc_at b (q - start) = true).
    { rewrite <- (sc_at_app2 a), <- EA, SA. replace (start + (q - start)) with q by lia. exact S. }
    assert (C : start_of b (q - start) = c - start).
    { destruct (N.eq_dec q start) as [EQ|NE].
      - replace (q - start) with 0 by lia. unfold c in *. unfold start_of at 1. destruct (fetch b (0 - 1)); cbn; lia.
      - pose proof (start_app2 a b (q - start) ltac:(lia)) as X. rewrite <- EA, SA in X.
        replace (start + (q - start)) with q in X by lia. fold c in X. lia. }
    assert (AB : airy b) by (rewrite EA in A; exact (airy_app2 _ _ A)).
    assert (LB : size_of b < 2 ^ 64) by (unfold b, size_of in *; rewrite skipn_length; lia).
    set (b1 := firstn (N.to_nat (c - start)) b) in *. set (b2 := skipn (N.to_nat (c - start)) b) in *.
    assert (EB : b = b1 ++ b2) by (symmetry; apply firstn_skipn).
    assert (CI : indices b = indices b1 ++ map (shift (size_of b1)) (indices b2)).
    { rewrite EB. apply (cut_indices _ _ (q - start)).
      - rewrite <- EB. apply airy_cut; auto.
      - rewrite <- EB, C. unfold b1, size_of. rewrite firstn_length.
        apply sc_room in Q. assert (c - start <= q - start) by lia. lia. }
    assert (LB1 : size_of b1 < 2 ^ 64) by (rewrite EB in LB; unfold size_of in *; rewrite app_length in LB; lia).
    destruct before as [|f0 before]; cbn [app] in E.
    + injection E as E _. subst f. exists x. split; [rewrite CI; apply in_or_app; left; exact IX|]. split; [cbn; lia|].
      unfold unit_at. rewrite EB. apply slice_app1, indices_in; assumption.
    + injection E as E1 E2. subst f0. destruct (IH' before f aft E2 x IX) as (y & Y1 & Y2 & Y3). exists (shift (size_of b1) y).
      split; [rewrite CI; apply in_or_app; right; apply in_map, Y1|]. split.
      * cbn [shift ni_payload List.concat]. rewrite Y2. unfold size_of. rewrite app_length. lia.
      * rewrite <- Y3. unfold unit_at. cbn [shift ni_payload ni_size]. rewrite EB at 1. apply slice_app2.
Qed.
Lemma file_in : forall before f aft o, o < size_of f -> file_of (before ++ f :: aft) (o + size_of (List.concat before)) = List.length before.
Proof.
  induction before as [|g before IH]; intros f aft o H; cbn [app file_of List.concat List.length].
  - unfold size_of in *. cbn [List.length]. replace (o + N.of_nat 0) with o by lia. replace (o <? _) with true by lia. reflexivity.
  - unfold size_of in *. rewrite app_length. replace (o + _ <? _) with false by lia. f_equal. rewrite <- (IH f aft o H). f_equal. lia.
Qed.

(** ** Sets in one file *)
Lemma step_same : forall s t, step s t = 0%nat -> s = t.
Proof. intros [a b] [c d]. unfold step. cbn [fst snd]. destruct (_ && _) eqn:E; [|discriminate]. intros _. f_equal; lia. Qed.
Lemma cut_tail : forall e sets files, cut_at_changes (e :: sets) files -> cut_at_changes sets files.
Proof. intros e sets files C pre o1 s1 o2 s2 post E. apply (C (e :: pre) o1 s1 o2 s2 post). cbn [app]. f_equal. exact E. Qed.
Lemma cut_later : forall sets files o1 s1, cut_at_changes ((o1, s1) :: sets) files -> forall o2 s2, In (o2, s2) sets ->
  (file_of files o1 <= file_of files o2)%nat /\ (file_of files o1 = file_of files o2 -> s1 = s2).
Proof.
  induction sets as [|[o s] sets IH]; intros files o1 s1 C o2 s2 I; [destruct I|].
  pose proof (C [] o1 s1 o s sets eq_refl) as ST. destruct I as [I|I].
  - injection I as -> ->. split; [lia|]. intros E. apply step_same. lia.
  - destruct (IH files o s (cut_tail _ _ _ C) o2 s2 I) as [L E]. split; [lia|]. intros E2.
    rewrite <- (E ltac:(lia)). apply step_same. lia.
Qed.
Lemma cut_same : forall sets files, cut_at_changes sets files -> forall o1 s1 o2 s2, In (o1, s1) sets -> In (o2, s2) sets ->
  file_of files o1 = file_of files o2 -> s1 = s2 \/ (o1, s1) = (o2, s2).
Proof.
  induction sets as [|[o s] sets IH]; intros files C o1 s1 o2 s2 I1 I2 E; [destruct I1|].
  destruct I1 as [I1|I1], I2 as [I2|I2].
  - right. congruence.
  - injection I1 as -> ->. left. apply (cut_later _ _ _ _ C _ _ I2), E.
  - injection I2 as -> ->. left. symmetry. apply (cut_later _ _ _ _ C _ _ I1). auto.
  - exact (IH files (cut_tail _ _ _ C) o1 s1 o2 s2 I1 I2 E).
Qed.
Lemma same_no_changes : forall sets, no_change sets -> changes None sets = [].
Proof.
  intros sets NC. assert (X : forall sets s, (forall o1 s1, In (o1, s1) sets -> s1 = s) -> changes (Some s) sets = []).
  { clear. induction sets as [|[o1 s1] t IH]; intros s H; [reflexivity|]. cbn [changes]. rewrite (H o1 s1 (or_introl eq_refl)).
    replace (same_size s s) with true by (symmetry; apply same_size_step; reflexivity). apply IH. intros; eapply H; right; eauto. }
  destruct sets as [|[o0 s0] t]; [reflexivity|]. cbn [changes]. apply X.
  intros o1 s1 I1. eapply NC; [right; exact I1|left; reflexivity].
Qed.
Lemma Forall2_r : forall A B (R : A -> B -> Prop) xs ys y, Forall2 R xs ys -> In y ys -> exists x, In x xs /\ R x y.
Proof.
  intros A B R xs ys y F. induction F as [|x0 y0 xs ys H F IH]; intros I; [destruct I|]. destruct I as [->|I].
  - exists x0. split; [left; reflexivity|exact H].
  - destruct (IH I) as (x & X1 & X2). exists x. split; [right; exact X1|exact X2].
Qed.
Lemma Forall2_l : forall A B (R : A -> B -> Prop) xs ys x, Forall2 R xs ys -> In x xs -> exists y, In y ys /\ R x y.
Proof.
  intros A B R xs ys x F. induction F as [|x0 y0 xs ys H F IH]; intros I; [destruct I|]. destruct I as [->|I].
  - exists y0. split; [left; reflexivity|exact H].
  - destruct (IH I) as (y & Y1 & Y2). exists y. split; [right; exact Y1|exact Y2].
Qed.
Lemma sets_numbers : forall l o s, In (o, s) (sets_of l) <-> exists u len, In (u, o, len) l /\ numbers_of u = Some s.
Proof.
  intros l o s. unfold sets_of. rewrite in_flat_map. split.
  - intros ([[u off] len] & I1 & I2). rewrite set_of_numbers in I2. destruct (numbers_of u) as [r|] eqn:E; [|destruct I2].
    destruct I2 as [I2|[]]. injection I2 as -> ->. eauto.
  - intros (u & len & I & E). exists (u, o, len). split; [exact I|]. rewrite set_of_numbers, E. left. reflexivity.
Qed.

(** * C82: a file that the script has written is not split again *)
(** Whatever name the piece has, a second run finds nothing to split if the tool ends with status
    0 for the piece, and fails otherwise, as when a piece cannot be read alone. *)
Theorem C82_again : forall a input data files, fits a data -> split_script a input data = Ok (SplitInto files) ->
  forall f name, In f files -> exists e, tool a (tool_options (split_args name)) f = Ok ([], e) /\
    split_script a name f = Ok (if e =? 0 then SplitNothing else SplitFailed).
Proof.
  intros a input data files F S f name IF.
  destruct (script_sees a input data _ F S ltac:(discriminate)) as (l & ACC & EF).
  assert (SZ : size_of data < 2 ^ 64) by (destruct F as (_ & F' & _); unfold size_of; lia).
  assert (ALL : Forall2 (fun x (e : nalu * N * N) => snd (fst e) = ni_payload x /\ ni_size x <> 0) (indices data) l).
  { clear - ACC. induction ACC as [|x e xs l (H1 & H2 & _) ACC IH]; constructor; auto. }
  assert (EF' : files = segments 0 (map (find_start_code_offset data) (changes None (sets_of l))) data).
  { destruct (changes None (sets_of l)) as [|c cs]; [discriminate|]. injection EF as EF. exact EF. }
  clear EF. pose proof (acc_concat data l SZ ALL) as CC. pose proof (acc_changes data l SZ ALL) as CUT.
  rewrite <- EF' in CC, CUT. rewrite (points_eq data l SZ ALL) in EF'.
  apply in_split in IF. destruct IF as (before & aft & SP).
  assert (ED : data = List.concat before ++ f ++ List.concat aft).
  { rewrite <- CC, SP, concat_app. reflexivity. }
  assert (FF : fits a f).
  { destruct F as (B1 & B2 & B3). rewrite ED in B1, B2, B3. rewrite !app_length in B2, B3. unfold bytes_ok in *.
    apply Forall_app in B1. destruct B1 as [_ B1]. apply Forall_app in B1. destruct B1 as [B1 _].
    split; [exact B1|]. split; [lia|]. intros H. specialize (B3 H). lia. }
  destruct (C70_script a name f FF) as (_ & _ & r & e & _ & T & SR & FE & _ & _). exists e. split; [exact T|]. rewrite SR.
  destruct (N.eqb_spec e 0) as [E0|E0]; [|apply FE in E0; congruence].
  assert (D : r <> SplitFailed) by (intros D; apply FE in D; congruence). destruct (script_sees a name f r FF SR D) as (lf & ACCF & ER).
  rewrite same_no_changes in ER; [rewrite ER; reflexivity|].
  assert (SF : size_of f < 2 ^ 64) by (destruct FF as (_ & F' & _); unfold size_of; lia).
  assert (UP : forall o s, In (o, s) (sets_of lf) -> exists o', In (o', s) (sets_of l) /\ file_of files o' = List.length before).
  { intros o s I. apply sets_numbers in I. destruct I as (u & len & IU & NU).
    destruct (Forall2_r _ _ _ _ _ _ ACCF IU) as (x & IX & (EO & NZ & w1 & w1' & PU)). cbn [fst snd] in EO, PU.
    destruct (segs_index _ data 0 SZ (data_airy data l ALL) ltac:(lia) (qs_placed data l SZ ALL) before f aft) with (x := x) as (y & IY & PY & UY).
    { rewrite <- EF'. exact SP. } { exact IX. }
    cbn [N.to_nat skipn] in IY, UY.
    destruct (Forall2_l _ _ _ _ _ _ ACC IY) as ([[v off] vlen] & IV & (EO2 & _ & w2 & w2' & PV)). cbn [fst snd] in EO2, PV.
    rewrite UY in PV. exists off. split.
    - apply sets_numbers. exists v, vlen. split; [exact IV|]. rewrite <- NU. exact (unit_numbers _ _ _ _ _ _ _ _ PV PU).
    - rewrite EO2, PY, SP. apply file_in. pose proof (indices_in f x SF IX). lia. }
  intros o1 s1 o2 s2 I1 I2. destruct (UP _ _ I1) as (p1 & J1 & K1). destruct (UP _ _ I2) as (p2 & J2 & K2).
  destruct (cut_same _ _ CUT p1 s1 p2 s2 J1 J2 ltac:(congruence)) as [E|E]; congruence.
Qed.

Example C82_ex : exists files, split_script true "in.264" ex_switch = Ok (SplitInto files) /\ List.length files = 3%nat /\
  map (split_script true "in.01.264") files = [Ok SplitNothing; Ok SplitNothing; Ok SplitNothing].
Proof. eexists. split; [exact (proj1 (proj2 C70_ex))|]. split; vm_compute; reflexivity. Qed.
Print Assumptions C82_again.
