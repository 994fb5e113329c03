(** Property C71: h264nal-conformance.py. *)
From Coq Require Import NArith ZArith List Bool Lia ZifyBool ZifyNat ZifyN String Ascii.
From Verif Require Import SpecBits Base BitBuffer SpecReader BitsLemmas BitBufferProofs
  ReaderProofs Rbsp SpecRbsp RbspProofs ChecksumProofs Parser SpecSyntax ParserProofs SpecFraming Framing
  FramingProofs FramingProofs2 FramingProofs3 TypesSps Sps SpecSps SpsProofs TypesPps Pps TypesNal NalHeader TypesExt Ext TypesSlice TypesSliceHeader SliceHeader
  TypesSvcSlice SvcSlice
  TypesNalUnit NalUnit NalUnitProofs SpecNalUnit NalUnitProofs2 NalUnitProofs3 PropsNalUnit PropsNalUnit2
  PropsFraming NalType Rtp RtpProofs Tool SpecTool ToolProofs PropsTool SpecDump SpecLabels Dump DumpProofs DumpProofs2 DumpProofs3
  DumpProofs4 DumpProofs5 DumpProofs6 DumpProofs7 DumpProofs8 PropsDump ToolText SpecToolText ToolTextProofs PropsToolText
  PyText PyText2 PyTextProofs Conformance SpecConformance ConfProofs ConfProofs2 ConfProofs3 ConfProofs4 ConfProofs5 ConfProofs6 ConfProofs7 ConfProofs8
  PropsSplit.
Import ListNotations.
Open Scope N_scope.
Open Scope list_scope.
Ltac Zify.zify_post_hook ::= Z.div_mod_to_equations.

(** The options of the script *)
Definition conf_args (input : string) : args :=
  mkargs false true false false false false true false (-1) 30 None (Some input) None.
Lemma conf_args_eq : forall input, parse_args (conf_options input) = Go (conf_args input).
Proof. reflexivity. Qed.
Lemma conf_sane : forall input data, sane (conf_args input) data.
Proof. intros. split; [cbn; lia|]. split; [cbn; lia|]. discriminate. Qed.

(** ** The text *)
Definition the_unit (e : nalu * N * N) : nalu := fst (fst e).
Lemma conf_text : forall input data l, Forall (fun e => exists st, good_unit st false (the_unit e)) l ->
  units_text (conf_args input) data l = Ok (units_string (map the_unit l)) /\ units_ok (map the_unit l).
Proof.
  intros input data l F. induction F as [|[[u off] len] l (st & G) F [E U]]; [split; [reflexivity|constructor]|].
  assert (P : printable (dump_nalu conf_popts off len u)).
  { eapply nice_printable, nice_nalu with (ck := false); [discriminate|exact G]. }
  split; [|constructor; [exact P|exact U]].
  cbn [units_text]. unfold unit_text. change (parsing_options (conf_args input)) with conf_popts. change (indent_level (conf_args input)) with (-1)%Z.
  destruct (render_printable (-1) _ P) as (t & T & _). rewrite T. cbn [rbind]. change (arg_contents (conf_args input)) with false. cbn [rbind].
  rewrite E. cbn [rbind map]. unfold units_string. cbn [map]. rewrite concat_empty_cons. 
  assert (W : t = String.concat " " (unit_words u)).
  { rewrite <- (unit_words_eq off len u), unit_eq. rewrite unit_eq in T. exact (one_line_words _ _ _ _ _ T). }
  rewrite W. reflexivity.
Qed.

(** ** The row *)
(** The parameter sets: of units of type 7, and those in the subset parameter sets of units of type 15 *)
Definition parameter_sets (l : list (nalu * N * N)) : list sps :=
  flat_map (fun e =>
    let t := nal_unit_type (nu_header (the_unit e)) in
    let p := nu_payload (the_unit e) in
    if t =? 7 then match pl_sps p with Some s => [s] | None => [] end
    else if t =? 15 then match pl_subset_sps p with Some v => [ss_sps v] | None => [] end
    else []) l.
(** The units with slices *)
Definition with_slice (e : nalu * N * N) : bool := existsb (N.eqb (nal_unit_type (nu_header (the_unit e)))) [1; 5; 20].
(** The units whose slice header was parsed *)
Definition with_header (e : nalu * N * N) : bool :=
  let h := nu_header (the_unit e) in
  let p := nu_payload (the_unit e) in
  if existsb (N.eqb (nal_unit_type h)) [1; 5] then match pl_slice p with Some _ => true | None => false end
  else if nal_unit_type h =? 20 then
    match pl_slice_ext p with
    | Some v =>
        if negb (sx_svc_extension_flag v =? 0) then match sx_svc_slice_header v with Some _ => true | None => false end
        else if negb (sx_avc_3d_extension_flag v =? 0) then false
        else match sx_slice_header v with Some _ => true | None => false end
    | None => false
    end
  else false.
Definition picture_size (s : sps) : string :=
  (decimal (coded_width s - crop_width s) ++ "x" ++ decimal (coded_height s - crop_height s))%string.
Definition how_many {A} (f : A -> bool) (l : list A) : N := N.of_nat (List.length (filter f l)).

Lemma filter_map_units : forall (f : nalu -> bool) (g : nalu * N * N -> bool) l, (forall e, f (the_unit e) = g e) ->
  List.length (filter f (map the_unit l)) = List.length (filter g l).
Proof. intros f g l E. induction l as [|e l IH]; [reflexivity|]. cbn [map filter]. rewrite E. destruct (g e); cbn [List.length]; rewrite IH; reflexivity. Qed.
Lemma slice_same : forall e, slice_unit (the_unit e) = with_slice e.
Proof. intros e. unfold slice_unit, with_slice. cbn [existsb]. cbv zeta. rewrite orb_false_r, orb_assoc. reflexivity. Qed.
Lemma header_same : forall e, has_header (the_unit e) = with_header e.
Proof.
  intros e. unfold has_header, with_header, header_block. cbn [existsb]. cbv zeta. rewrite orb_false_r.
  destruct ((_ =? 1) || (_ =? 5)); [destruct (pl_slice _); reflexivity|]. destruct (_ =? 20); [|reflexivity].
  destruct (pl_slice_ext _) as [v|]; [|reflexivity]. unfold tob. destruct (negb (sx_svc_extension_flag v =? 0)); [destruct (sx_svc_slice_header v); reflexivity|].
  destruct (negb (sx_avc_3d_extension_flag v =? 0)); [reflexivity|]. destruct (sx_slice_header v); reflexivity.
Qed.
Lemma sets_same : forall l, flat_map set_of_unit (map the_unit l) = parameter_sets l.
Proof.
  induction l as [|e l IH]; [reflexivity|]. cbn [map flat_map]. rewrite IH. unfold parameter_sets. cbn [flat_map]. f_equal.
  unfold set_of_unit, set_data. cbv zeta. destruct (_ =? 7); [destruct (pl_sps _); reflexivity|]. destruct (_ =? 15); [|reflexivity].
  destruct (pl_subset_sps _); reflexivity.
Qed.

Theorem C71_row : forall a input data stderr, fits a data ->
  exists l w row levels, ParseBitstream a false data (size_of data) (mkw new_state 0) = (Ok l, w) /\
    conformance a input data stderr = Ok row /\
    r_nalus row = N.of_nat (List.length l) /\
    r_slice_nalus row = how_many with_slice l /\
    r_slice_headers row = how_many with_header l /\
    r_resolution row = String.concat ";" (unique (map picture_size (parameter_sets l))) /\
    r_profile row = String.concat ";" (unique (map (fun s => String.concat " " (profile_name (annex_a s))) (parameter_sets l))) /\
    Forall2 (fun s v => names_level (profile_idc s) (level_idc s) (constraint_set3_flag s) v) (parameter_sets l) levels /\
    r_level row = String.concat ";" (unique levels) /\
    exists e, tool a (tool_options (conf_args input)) data = Ok ([], e) /\ r_status row = run_status e stderr /\
      r_header_status row = get_slice_header_status (how_many with_slice l) (how_many with_header l).
Proof.
  intros a input data stderr F. pose proof (conf_sane input data) as SN.
  destruct (tool_run a (conf_args input) data F SN) as (l & w & P & (K1 & _ & _) & rows & e & T).
  destruct (conf_text input data l) as [TX OK]. { eapply Forall_impl; [|exact K1]. intros x (st & G & _). exists st. exact G. }
  assert (V : Forall (fun s => exists ls, valid_sps s ls) (parameter_sets l)).
  { apply Forall_forall. intros s I. apply in_flat_map in I. destruct I as (x & I1 & I2). rewrite Forall_forall in K1.
    destruct (K1 _ I1) as (st & G & _). cbv zeta in I2. destruct (_ =? 7).
    - destruct (pl_sps (nu_payload (the_unit x))) as [s'|] eqn:E; [|destruct I2]. destruct I2 as [<-|[]].
      exact (gp_sps _ _ _ (gu_payload _ _ _ G) s' E).
    - destruct (_ =? 15); [|destruct I2]. destruct (pl_subset_sps (nu_payload (the_unit x))) as [v|] eqn:E; [|destruct I2]. destruct I2 as [<-|[]].
      exact (proj1 (gp_subset _ _ _ (gu_payload _ _ _ G) v E)). }
  assert (RUN : run a (conf_args input) data = Ok (units_string (map the_unit l), e) /\ rows = []).
  { unfold tool in T. rewrite P in T. cbn [tool_options opt_dump_length conf_args arg_dump_length rbind] in T.
    unfold run, output. rewrite P. cbn [tool_options opt_dump_length conf_args arg_dump_length] in *. rewrite TX. cbn [rbind].
    destruct (unparsed_nal_units _ data l) as [n| | | |]; try discriminate. cbn [rbind] in *. injection T as <- <-. split; reflexivity. }
  destruct RUN as [RUN ->].
  assert (SZ : Forall sized (flat_map set_of_unit (map the_unit l))).
  { rewrite sets_same. eapply Forall_impl; [|exact V]. intros s (ls & L). destruct (getResolution_spec s ls L) as (GR & _ & _).
    eexists _, _. split; [exact GR|]. split; lia. }
  exists l, w. eexists. exists (map level_text (parameter_sets l)).
  split; [exact P|]. split. { unfold conformance. rewrite conf_args_eq, RUN. cbn [rbind fst snd]. reflexivity. }
  unfold analyze, parse_sps_lines. rewrite unit_lines, lines_read by assumption. rewrite !add_all_nil, sets_same. cbv zeta.
  cbn [r_nalus r_slice_nalus r_slice_headers r_resolution r_profile r_level r_status r_header_status].
  rewrite count_units, count_types, count_headers, map_length by exact OK.
  rewrite (filter_map_units _ _ l slice_same), (filter_map_units _ _ l header_same).
  do 3 (split; [reflexivity|]). split; [|split; [|split; [|split; [reflexivity|exists e; repeat (split; [assumption || reflexivity|]); reflexivity]]]].
  - do 2 f_equal. apply map_ext_in. intros s I. rewrite Forall_forall in V. destruct (V s I) as (ls & L). destruct (getResolution_spec s ls L) as (GR & _ & _).
    unfold resolution_text, picture_size. rewrite GR, !deci_dec, !N2Z.id by lia. reflexivity.
  - do 2 f_equal. apply map_ext_in. intros s I. rewrite Forall_forall in V. destruct (V s I) as (ls & L). unfold profile_string.
    replace (annex_a s) with (profile_type s) by apply L. destruct (profile_type s); reflexivity.
  - clear. induction (parameter_sets l) as [|s t IH]; cbn [map]; constructor; [apply level_named|exact IH].
Qed.

(** ** Slice headers that are missing *)
Theorem C71_headers : forall a input data stderr l w row, fits a data ->
  ParseBitstream a false data (size_of data) (mkw new_state 0) = (Ok l, w) -> conformance a input data stderr = Ok row ->
  r_slice_headers row <= r_slice_nalus row /\
  (r_header_status row = "0"%string <-> forall e, In e l -> with_slice e = true -> with_header e = true) /\
  (r_header_status row <> "0"%string ->
     r_header_status row = ("unparsed slice headers: " ++ decimal (r_slice_headers row) ++ "/" ++ decimal (r_slice_nalus row))%string).
Proof.
  intros a input data stderr l w row F P R. destruct (C71_row a input data stderr F) as (l' & w' & row' & levels & P' & R' & _ & S & H & _ & _ & _ & _ & e & _ & _ & HS).
  rewrite P in P'. injection P' as <- <-. rewrite R in R'. injection R' as <-. rewrite HS, S, H. unfold how_many.
  destruct (filter_same _ with_header with_slice l) as [EQ LE].
  { intros x _ X. rewrite <- slice_same. apply header_slice. rewrite header_same. exact X. }
  split; [lia|]. unfold get_slice_header_status. destruct (N.eqb_spec (N.of_nat (List.length (filter with_header l))) (N.of_nat (List.length (filter with_slice l)))) as [E|E].
  - split; [|congruence]. split; [|reflexivity]. intros _. apply EQ. lia.
  - split; [|reflexivity]. split; [discriminate|]. intros X. apply EQ in X. lia.
Qed.

(** ** The status *)
Lemma status_cases : forall e ms, Forall message ms -> summary_of ms <> "0"%string -> e < 3 ->
  run_status e (message_lines ms) =
  match ms with
  | [] => if e =? 0 then "0"%string else if e =? 1 then "h264nal: invalid bitstream"%string else "h264nal: unimplemented syntax"%string
  | _ => if e =? 0 then summary_of ms
         else if e =? 1 then ("h264nal: invalid bitstream; " ++ summary_of ms)%string
         else ("h264nal: unimplemented syntax; " ++ summary_of ms)%string
  end.
Proof.
  intros e ms F NZ L. unfold run_status. rewrite summarize_lines by exact F. assert (C : e = 0 \/ e = 1 \/ e = 2) by lia. clear L. cbv zeta.
  destruct C as [->|[->| ->]]; cbn [N.eqb Pos.eqb negb]; destruct ms as [|m ms]; try reflexivity;
    apply String.eqb_neq in NZ; rewrite NZ; reflexivity.
Qed.
(** The status of a file for which the tool writes no messages, and with messages. *)
Theorem C71_status : forall a input data ms row, fits a data -> Forall message ms -> summary_of ms <> "0"%string ->
  conformance a input data (message_lines ms) = Ok row ->
  exists ix, FindNaluIndices data (size_of data) = Ok ix /\
    let us := found_units data ix in
    let unimplemented := reports a false us new_state mod 2 ^ 32 in
    let told (s : string) := (match ms with [] => s | _ => s ++ "; " ++ summary_of ms end)%string in
    (unimplemented <> 0 -> r_status row = told "h264nal: unimplemented syntax"%string) /\
    (unimplemented = 0 -> some_rejected a false us (mkw new_state 0) -> r_status row = told "h264nal: invalid bitstream"%string) /\
    (unimplemented = 0 -> ~ some_rejected a false us (mkw new_state 0) ->
       r_status row = match ms with [] => "0"%string | _ => summary_of ms end).
Proof.
  intros a input data ms row F M NZ R.
  destruct (C71_row a input data (message_lines ms) F) as (l & w & row' & levels & _ & R' & _ & _ & _ & _ & _ & _ & _ & e & T & S & _).
  rewrite R in R'. injection R' as <-. rewrite S. clear S R.
  destruct (C44_annexb a (tool_options (conf_args input)) data F (proj2 (conf_sane input data)) ltac:(reflexivity)) as (ix & rows & e' & I & T' & E2 & E1 & E0).
  rewrite T in T'. injection T' as _ <-. exists ix. split; [exact I|]. cbv zeta. change (opt_add_checksum (tool_options (conf_args input))) with false in *.
  cbv zeta in E2, E1, E0. split; [|split].
  - intros U. apply E2 in U. subst e. rewrite status_cases by (auto; lia). destruct ms; reflexivity.
  - intros U J. pose proof (proj2 E1 (conj U J)). subst e. rewrite status_cases by (auto; lia). destruct ms; reflexivity.
  - intros U J. pose proof (proj2 E0 (conj U J)). subst e. rewrite status_cases by (auto; lia). destruct ms; reflexivity.
Qed.

(** A status of 0 means that every slice header of a unit of type 1 or 5 was parsed; those that are
    missing are of scalable extensions. *)
Theorem C71_zero : forall a input data ms l w row, fits a data -> Forall message ms -> summary_of ms <> "0"%string ->
  ParseBitstream a false data (size_of data) (mkw new_state 0) = (Ok l, w) ->
  conformance a input data (message_lines ms) = Ok row -> r_status row = "0"%string ->
  ms = [] /\
  forall e, In e l -> with_slice e = true -> with_header e = false ->
    nal_unit_type (nu_header (the_unit e)) = 20 /\ svc_extension_flag (nu_header (the_unit e)) = 1.
Proof.
  intros a input data ms l w row F M NZ P R Z.
  destruct (C71_row a input data (message_lines ms) F) as (l' & w' & row' & levels & P' & R' & _ & _ & _ & _ & _ & _ & _ & e & T & S & _).
  rewrite P in P'. injection P' as <- <-. rewrite R in R'. injection R' as <-.
  pose proof (conf_sane input data) as SN.
  destruct (annexb_run a (tool_options (conf_args input)) data F (proj2 SN) ltac:(reflexivity)) as (ix & l' & w' & _ & P' & _ & _ & U).
  change (tool_parse a (tool_options (conf_args input)) data) with (ParseBitstream a false data (size_of data) (mkw new_state 0)) in P'.
  rewrite P in P'. injection P' as <- <-.
  assert (E : e = exit_status (N.of_nat (List.length ix) - N.of_nat (List.length l) + n_unparsed l) (w_unimplemented w)).
  { unfold tool in T. change (tool_parse a (tool_options (conf_args input)) data) with
      (ParseBitstream a false data (size_of data) (mkw new_state 0)) in T. rewrite P in T.
    change (opt_dump_length (tool_options (conf_args input))) with false in T. cbn [rbind] in T. rewrite U in T. cbn [rbind] in T.
    injection T as T. congruence. }
  assert (E3 : e < 3) by (rewrite E; unfold exit_status; destruct (0 <? w_unimplemented w); [lia|destruct (0 <? _); lia]).
  rewrite S, status_cases in Z by assumption. 
  assert (X : ms = [] /\ e = 0).
  { destruct ms as [|m ms]; [split; [reflexivity|]; destruct (N.eqb_spec e 0); [assumption|]; destruct (e =? 1); discriminate|].
    exfalso. destruct (e =? 0); [congruence|]. destruct (e =? 1); discriminate. }
  destruct X as [-> X]. split; [reflexivity|]. intros x I WS WH.
  assert (NP : n_unparsed l = 0).
  { rewrite X in E. unfold exit_status in E. destruct (0 <? w_unimplemented w); [discriminate|].
    destruct (N.ltb_spec 0 (N.of_nat (List.length ix) - N.of_nat (List.length l) + n_unparsed l)); [discriminate|lia]. }
  assert (PD : unparsed_entry x = false).
  { destruct (unparsed_entry x) eqn:UE; [|reflexivity]. unfold n_unparsed in NP. assert (J : In x (filter unparsed_entry l)) by (apply filter_In; auto).
    destruct (filter unparsed_entry l); [destruct J|discriminate]. }
  destruct (tool_run a (conf_args input) data F SN) as (l' & w' & P' & (K1 & _ & _) & _).
  change (tool_parse a (tool_options (conf_args input)) data) with (ParseBitstream a false data (size_of data) (mkw new_state 0)) in P'.
  rewrite P in P'. injection P' as <- <-. rewrite Forall_forall in K1. destruct (K1 x I) as (st & G & _).
  unfold unparsed_entry in PD. fold (the_unit x) in PD, G. unfold with_slice, with_header in *. cbv zeta in WH. cbn [existsb] in WS, WH.
  apply gu_header in G as GH. apply gu_payload in G. destruct (the_unit x) as [h p b c]. cbn [nu_header nu_payload] in *. unfold IsPayloadParsed in PD.
  assert (C : nal_unit_type h = 1 \/ nal_unit_type h = 5 \/ nal_unit_type h = 20) by lia.
  destruct C as [C|[C|C]]; rewrite C in *; cbn [N.eqb Pos.eqb orb negb] in *.
  - destruct (pl_slice p); [discriminate|]. discriminate.
  - destruct (pl_slice p); [discriminate|]. discriminate.
  - split; [reflexivity|]. destruct (pl_slice_ext p) as [v|] eqn:V; [|discriminate].
    destruct GH as (_ & _ & _ & _ & GH). cbn [nu_header] in GH. destruct (nal_svc h); [apply GH|]. destruct GH as (_ & GH & _). congruence.
Qed.
(** The status alone does not show them: this unit has no header, and the tool ends with 0. *)
Theorem C71_status_alone_refuted : exists data row, fits true data /\ conformance true "in.264" data "" = Ok row /\
  r_status row = "0"%string /\ r_slice_nalus row = 1 /\ r_slice_headers row = 0 /\
  r_header_status row = "unparsed slice headers: 0/1"%string.
Proof.
  exists [0; 0; 1; 116; 128; 0; 7; 255]. eexists. split; [fits_tac|]. split; [vm_compute; reflexivity|]. repeat split; reflexivity.
Qed.

(** ** Examples *)
Example C71_ex : fits true ex_stream /\ conformance true "in.264" ex_stream "" =
  Ok (mkcsv "1916x1080" "Constrained High" "3.1" 5 2 1 "h264nal: invalid bitstream" "unparsed slice headers: 1/2").
Proof. split; [fits_tac|]. vm_compute. reflexivity. Qed.
Example C71_switch_ex : conformance true "in.264" ex_switch (message_lines ["bad"; "no SPS"; "bad"]%string) =
  Ok (mkcsv "320x240;640x480" "Baseline" "3.0" 5 0 0 "bad (x2); no SPS" "0").
Proof. vm_compute. reflexivity. Qed.

Print Assumptions C71_row.
Print Assumptions C71_headers.
Print Assumptions C71_status.
Print Assumptions C71_zero.
Print Assumptions C71_status_alone_refuted.
