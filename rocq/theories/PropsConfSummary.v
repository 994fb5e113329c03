(** Property C81: the last line of h264nal-conformance.py. *)
From Coq Require Import NArith ZArith List Bool Lia ZifyBool ZifyNat ZifyN String Ascii.
From Verif Require Import SpecBits Base BitBuffer SpecReader BitsLemmas BitBufferProofs
  ReaderProofs Rbsp SpecRbsp RbspProofs ChecksumProofs Parser SpecSyntax ParserProofs SpecFraming Framing
  FramingProofs FramingProofs2 FramingProofs3 TypesSps Sps SpecSps SpsProofs TypesPps Pps TypesNal NalHeader TypesExt Ext TypesSlice TypesSliceHeader SliceHeader
  TypesSvcSlice SvcSlice
  TypesNalUnit NalUnit NalUnitProofs SpecNalUnit NalUnitProofs2 NalUnitProofs3 PropsNalUnit PropsNalUnit2
  PropsFraming NalType Rtp RtpProofs Tool SpecTool ToolProofs PropsTool SpecDump SpecLabels Dump DumpProofs DumpProofs2 DumpProofs3
  DumpProofs4 DumpProofs5 DumpProofs6 DumpProofs7 DumpProofs8 PropsDump ToolText SpecToolText ToolTextProofs PropsToolText
  PyText PyText2 PyTextProofs Conformance SpecConformance ConfProofs ConfProofs2 ConfProofs3 ConfProofs4 ConfProofs5 ConfProofs6 ConfProofs7 ConfProofs8
  PropsSplit PropsConformance ConfTable ConfSummary SpecConfSummary.
Import ListNotations.
Open Scope N_scope.
Open Scope list_scope.

(** The tool reports something about the file: a message, unimplemented syntax or a NAL unit that
    is rejected. *)
Definition reported (a : bool) (data : list N) (ms : list string) : Prop :=
  ms <> [] \/ exists ix, FindNaluIndices data (size_of data) = Ok ix /\
    (reports a false (found_units data ix) new_state mod 2 ^ 32 <> 0 \/ some_rejected a false (found_units data ix) (mkw new_state 0)).
(** Some slice of the file was kept without its header. *)
Definition header_lost (a : bool) (data : list N) : Prop :=
  exists l w e, ParseBitstream a false data (size_of data) (mkw new_state 0) = (Ok l, w) /\ In e l /\ with_slice e = true /\ with_header e = false.

Lemma status_kinds : forall a input data ms row, fits a data -> Forall message ms -> summary_of ms <> "0"%string ->
  conformance a input data (message_lines ms) = Ok row ->
  (r_status row = "0"%string /\ ~ reported a data ms) \/ (r_status row <> "0"%string /\ reported a data ms).
Proof.
  intros a input data ms row F M NZ R.
  destruct (C71_row a input data (message_lines ms) F) as (l & w & row' & levels & _ & R' & _ & _ & _ & _ & _ & _ & _ & e & T & S & _).
  rewrite R in R'. injection R' as <-. rewrite S. clear S R.
  destruct (C44_annexb a (tool_options (conf_args input)) data F (proj2 (conf_sane input data)) ltac:(reflexivity)) as (ix & rows & e' & I & T' & E2 & E1 & E0).
  rewrite T in T'. injection T' as _ <-. change (opt_add_checksum (tool_options (conf_args input))) with false in *. cbv zeta in E2, E1, E0. clear T.
  assert (L : e = 0 \/ e = 1 \/ e = 2).
  { destruct (N.eq_dec e 0) as [|N0]; [auto|]. destruct (N.eq_dec e 1) as [|N1]; [auto|]. destruct (N.eq_dec e 2) as [|N2]; [auto|]. exfalso. apply N0, E0.
    assert (U : reports a false (found_units data ix) new_state mod 2 ^ 32 = 0) by (destruct (N.eq_dec (reports a false (found_units data ix) new_state mod 2 ^ 32) 0) as [U|U]; [exact U|apply E2 in U; congruence]).
    split; [exact U|]. intros J. apply N1, E1. auto. }
  rewrite status_cases by (auto; lia).
  destruct L as [->|[->| ->]]; cbn [N.eqb Pos.eqb].
  - destruct (proj1 E0 eq_refl) as [U J]. destruct ms as [|m ms].
    + left. split; [reflexivity|]. intros [K|(ix' & I' & K)]; [congruence|]. rewrite I in I'. injection I' as <-. destruct K as [K|K]; [exact (K U)|exact (J K)].
    + right. split; [exact NZ|]. left. discriminate.
  - destruct (proj1 E1 eq_refl) as [U J]. right. split; [destruct ms; discriminate|]. right. exists ix. auto.
  - pose proof (proj1 E2 eq_refl) as U. right. split; [destruct ms; discriminate|]. right. exists ix. auto.
Qed.
Lemma header_kinds : forall a input data stderr row, fits a data -> conformance a input data stderr = Ok row ->
  (r_header_status row = "0"%string /\ ~ header_lost a data) \/ (r_header_status row <> "0"%string /\ header_lost a data).
Proof.
  intros a input data stderr row F R. destruct (C71_row a input data stderr F) as (l & w & row' & lv & P & _). destruct (C71_headers a input data stderr l w row F P R) as (_ & H & _).
  destruct (String.eqb_spec (r_header_status row) "0") as [E|N]; [left|right]; (split; [assumption|]).
  - intros (l' & w' & e & P' & I & S & X). rewrite P in P'. injection P' as <- <-. rewrite (proj1 H E e I S) in X. discriminate.
  - destruct (existsb (fun e => with_slice e && negb (with_header e)) l) eqn:K.
    + apply existsb_exists in K. destruct K as (e & I & K). apply andb_prop in K. destruct K as [K1 K2]. exists l, w, e. repeat split; auto. destruct (with_header e); [discriminate|reflexivity].
    + exfalso. apply N, H. intros e I S. destruct (with_header e) eqn:X; [reflexivity|]. assert (K' : existsb (fun e => with_slice e && negb (with_header e)) l = true); [|congruence].
      apply existsb_exists. exists e. rewrite S, X. auto.
Qed.
Lemma counted_filter : forall (A B : Type) (P : A -> Prop) (f : B -> bool) l rows, Forall2 (fun x r => (f r = true /\ P x) \/ (f r = false /\ ~ P x)) l rows ->
  counted P l (N.of_nat (List.length (filter f rows))).
Proof.
  intros A B P f l rows H. induction H as [|x r l rows [[E K]|[E K]] H IH]; [constructor| |]; cbn [filter]; rewrite E.
  - cbn [List.length]. rewrite Nat2N.inj_succ, <- N.add_1_r. apply counted_yes; assumption.
  - apply counted_no; assumption.
Qed.

(** The last line has the number of files, of those about which the tool reports something, and
    of those about which it does not although a slice header is missing. *)
Theorem C81_summary : forall a isdir content ms inputs,
  (forall i, In i inputs -> isdir i = false -> fits a (content i) /\ Forall message (ms i) /\ summary_of (ms i) <> "0"%string) ->
  exists issues silent, let files := filter (fun i => negb (isdir i)) inputs in
    conformance_summary a isdir content (fun i => message_lines (ms i)) inputs =
      Ok ("parsed " ++ decimal (N.of_nat (List.length files)) ++ " file(s), " ++ decimal issues ++ " with issues, " ++
          decimal silent ++ " silently missing slice headers")%string /\
    counted (fun i => reported a (content i) (ms i)) files issues /\
    counted (fun i => ~ reported a (content i) (ms i) /\ header_lost a (content i)) files silent.
Proof.
  intros a isdir content ms inputs F.
  assert (R : exists rows, analyze_files a content (fun i => message_lines (ms i)) (filter (fun i => negb (isdir i)) inputs) = Ok rows /\
    Forall2 (fun i r => ((r_status r = "0"%string /\ ~ reported a (content i) (ms i)) \/ (r_status r <> "0"%string /\ reported a (content i) (ms i))) /\
                        ((r_header_status r = "0"%string /\ ~ header_lost a (content i)) \/ (r_header_status r <> "0"%string /\ header_lost a (content i))))
      (filter (fun i => negb (isdir i)) inputs) rows).
  { induction inputs as [|i inputs IH]; [exists []; split; [reflexivity|constructor]|]. destruct IH as (rs & E & H); [intros j J; apply F; right; exact J|]. cbn [filter].
    destruct (isdir i) eqn:D; cbn [negb]; [exists rs; auto|]. destruct (F i (or_introl eq_refl) D) as (F1 & F2 & F3).
    destruct (C71_row a i (content i) (message_lines (ms i)) F1) as (l & w & row & lv & _ & K & _).
    exists (row :: rs). cbn [analyze_files]. rewrite K, E. cbn [rbind]. split; [reflexivity|]. constructor; [|exact H].
    split; [exact (status_kinds a i (content i) (ms i) row F1 F2 F3 K)|exact (header_kinds a i (content i) _ row F1 K)]. }
  destruct R as (rows & E & H). exists (N.of_nat (List.length (filter with_issues rows))), (N.of_nat (List.length (filter silently rows))). cbv zeta. split; [|split].
  - unfold conformance_summary. rewrite E. cbn [rbind]. unfold last_line. replace (List.length rows) with (List.length (filter (fun i => negb (isdir i)) inputs)); [reflexivity|].
    clear -H. induction H as [|? ? ? ? _ _ IH]; [reflexivity|]. cbn [List.length]. rewrite IH. reflexivity.
  - apply counted_filter. clear -H. induction H as [|i r l rows [H1 _] _ IH]; constructor; [|exact IH]. unfold with_issues.
    destruct H1 as [[S K]|[S K]]; [right; rewrite S; auto|left]. split; [|exact K]. apply String.eqb_neq in S. rewrite S. reflexivity.
  - apply counted_filter. clear -H. induction H as [|i r l rows [H1 H2] _ IH]; constructor; [|exact IH]. unfold silently.
    destruct H1 as [[S K]|[S K]].
    + rewrite S. destruct H2 as [[T L]|[T L]]; [right; rewrite T; split; [reflexivity|tauto]|left]. split; [apply String.eqb_neq in T; rewrite T; reflexivity|auto].
    + right. apply String.eqb_neq in S. rewrite S. split; [reflexivity|tauto].
Qed.
(** Headers are missing silently in scalable extensions only. *)
Theorem C81_silent : forall a data l w e, fits a data -> ~ reported a data [] ->
  ParseBitstream a false data (size_of data) (mkw new_state 0) = (Ok l, w) -> In e l -> with_slice e = true -> with_header e = false ->
  nal_unit_type (nu_header (the_unit e)) = 20 /\ svc_extension_flag (nu_header (the_unit e)) = 1.
Proof.
  intros a data l w e F NR P I S H. destruct (C71_row a "in.264" data (message_lines []) F) as (l' & w' & row & lv & _ & K & _).
  assert (NZ : summary_of [] <> "0"%string) by discriminate.
  destruct (status_kinds a "in.264" data [] row F (Forall_nil _) NZ K) as [[Z _]|[_ X]]; [|contradiction].
  exact (proj2 (C71_zero a "in.264" data [] l w row F (Forall_nil _) NZ P K Z) e I S H).
Qed.
(** A count is determined. *)
Theorem C81_count : forall (A : Type) (P : A -> Prop) l n m, counted P l n -> counted P l m -> n = m.
Proof.
  intros A P l n m H. revert m. induction H as [|x l n K H IH|x l n K H IH]; intros m M; inversion M; subst; try contradiction; [reflexivity| |].
  - f_equal. apply IH. assumption.
  - apply IH. assumption.
Qed.

(** ** Examples *)
Definition ex_content (i : string) : list N := if String.eqb i "svc.264" then [0; 0; 1; 116; 128; 0; 7; 255] else if String.eqb i "a.264" then ex_stream else ex_switch.
Example C81_ex : fits true (ex_content "svc.264") /\ fits true (ex_content "a.264") /\ fits true (ex_content "b.264") /\
  conformance_summary true (String.eqb "dir") ex_content (fun _ => message_lines []) ["a.264"; "dir"; "b.264"; "svc.264"]%string =
  Ok "parsed 3 file(s), 1 with issues, 1 silently missing slice headers"%string.
Proof. split; [fits_tac|]. split; [fits_tac|]. split; [fits_tac|]. vm_compute. reflexivity. Qed.

Print Assumptions C81_summary.
Print Assumptions C81_silent.
Print Assumptions C81_count.
