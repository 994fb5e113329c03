(** Properties C61 and C62: the output of the command line tool, and its options. *)
From Coq Require Import NArith ZArith List Bool Lia ZifyBool ZifyNat ZifyN String Ascii.
From Verif Require Import SpecBits Base BitBuffer SpecReader BitsLemmas BitBufferProofs
  ReaderProofs Rbsp SpecRbsp RbspProofs ChecksumProofs Parser SpecSyntax ParserProofs SpecFraming Framing
  FramingProofs FramingProofs2 FramingProofs3 TypesSps Sps TypesPps Pps TypesNal NalHeader TypesExt Ext TypesSlice TypesSliceHeader SliceHeader
  TypesSvcSlice SvcSlice
  TypesNalUnit NalUnit NalUnitProofs SpecNalUnit NalUnitProofs2 NalUnitProofs3 PropsNalUnit PropsNalUnit2
  PropsFraming NalType Rtp RtpProofs Tool SpecTool ToolProofs PropsTool SpecDump SpecLabels Dump DumpProofs DumpProofs2 DumpProofs3
  DumpProofs4 DumpProofs5 DumpProofs6 DumpProofs7 DumpProofs8 PropsDump ToolText SpecToolText ToolTextProofs.
Import ListNotations.
Open Scope N_scope.
Open Scope list_scope.
Ltac Zify.zify_post_hook ::= Z.div_mod_to_equations.

(** * C61: the output *)
(** Options as parse_args leaves them (C62), with a length field of less than 8 bytes; for the
    length dump also a file whose bitrate can be computed. *)
Definition sane (g : args) (data : list N) : Prop :=
  (arg_nalu_length_bytes g < 8)%Z /\ dump_fits (tool_options g) data.

Definition kept (ck : bool) (data : list N) (l : list (nalu * N * N)) : Prop :=
  Forall (fun e => exists st, good_unit st ck (fst (fst e)) /\ shape (nu_header (fst (fst e))) (nu_payload (fst (fst e)))) l /\
  Forall (fun e => nal_unit_type (nu_header (fst (fst e))) < 32) l /\
  Forall (fun e => snd (fst e) <= size_of data /\ snd e <= size_of data + 8) l.
Lemma with_length_forall : forall n (Q : nalu -> Prop) l, Forall (fun e : nalu * N * N => Q (fst (fst e))) l ->
  Forall (fun e : nalu * N * N => Q (fst (fst e))) (with_length n l).
Proof. intros n Q l F. induction F as [|[[x o] k] l K _ IH]; cbn [with_length map]; constructor; auto. Qed.
Lemma with_length_places : forall n m l, n <= 8 -> Forall (fun e : nalu * N * N => snd (fst e) <= m /\ snd e <= m) l ->
  Forall (fun e : nalu * N * N => snd (fst e) <= m /\ snd e <= m + 8) (with_length n l).
Proof.
  intros n m l N F. induction F as [|[[x o] k] l K _ IH]; cbn [with_length map]; constructor; auto. cbn in *. lia.
Qed.
Lemma runs_places : forall a ck us w l w' m, runs (parse_unit a ck) us w l w' ->
  Forall (fun p => fst p + size_of (snd p) <= m) us ->
  Forall (fun e : nalu * N * N => snd (fst e) <= m /\ snd e <= m) l.
Proof.
  intros a ck us w l w' m R. induction R as [s|o u t s x s' l s'' E R IH|o u t s s' l s'' E R IH]; intros F; [constructor| |];
    inversion F as [|? ? F1 F2]; subst; auto. constructor; auto. cbn [fst snd] in *. unfold size_of in F1. lia.
Qed.
Lemma framed_places : forall n us o, Forall (fun p => fst p + size_of (snd p) <= o + size_of (framed n us)) (framed_units n o us).
Proof.
  intros n. induction us as [|u us IH]; intros o; cbn [framed_units]; [constructor|].
  assert (L : size_of (framed n (u :: us)) = N.of_nat n + size_of u + size_of (framed n us)).
  { unfold framed, size_of. cbn [flat_map]. rewrite !app_length, be_bytes_length. lia. }
  constructor.
  - cbn [fst snd]. rewrite L. lia.
  - eapply Forall_impl; [|exact (IH (o + N.of_nat n + N.of_nat (List.length u)))]. intros p H. cbv beta in *. rewrite L.
    change (N.of_nat (List.length u)) with (size_of u) in H. lia.
Qed.
Lemma tool_run : forall a g data, fits a data -> sane g data ->
  exists l w, tool_parse a (tool_options g) data = (Ok l, w) /\ kept (arg_checksum g) data l /\
    exists rows e, tool a (tool_options g) data = Ok (rows, e).
Proof.
  intros a g data F (N8 & DF). destruct (Z_lt_le_dec (arg_nalu_length_bytes g) 0) as [L|L].
  - destruct (C44_annexb a (tool_options g) data F DF) as (_ & rows & e & _ & T & _); [exact L|].
    destruct (annexb_run a (tool_options g) data F DF) as (ix & l & w & EI & P & R & _ & _); [exact L|].
    exists l, w. split; [exact P|]. split; [|eauto]. pose proof (found_fit a data ix F) as FF. split; [|split].
    + eapply runs_each; [exact R|exact FF|exact (history_ok a _ (new_history a))].
    + eapply Forall_impl; [|exact (runs_types _ _ _ _ _ _ R (new_history a) FF)]. intros x [X _]. exact X.
    + eapply Forall_impl; [|apply (runs_places _ _ _ _ _ _ (size_of data) R)]. { intros x X. cbv beta in X. lia. }
      pose proof F as (_ & L61 & _). assert (L64 : size_of data < 2 ^ 64) by (unfold size_of; lia).
      destruct (C16_annexb_sound data L64) as (r & E' & _ & _ & _ & IN). rewrite EI in E'. injection E' as <-.
      apply Forall_forall. intros p I. apply in_map_iff in I. destruct I as (y & <- & I). cbn [fst snd].
      specialize (IN y I). unfold size_of in *. rewrite slice_length by lia. lia.
  - destruct (C44_length_prefixed a (tool_options g) data F DF) as (_ & rows & e & _ & T & _); [split; [exact L|exact N8]|].
    destruct (prefixed_run a (tool_options g) data F) as (us & l & w & PU & FF & _ & P & R); [split; [exact L|exact N8]|].
    eexists. exists w. split; [exact P|]. split; [|eauto]. split; [|split].
    + apply (with_length_forall _ (fun x => exists st, good_unit st (arg_checksum g) x /\ shape (nu_header x) (nu_payload x))).
      eapply runs_each; [exact R|exact FF|exact (history_ok a _ (new_history a))].
    + apply (with_length_forall _ (fun x => nal_unit_type (nu_header x) < 32)).
      eapply Forall_impl; [|exact (runs_types _ _ _ _ _ _ R (new_history a) FF)]. intros x [X _]. exact X.
    + apply with_length_places. { cbn. lia. } apply (runs_places _ _ _ _ _ _ (size_of data) R).
      unfold prefixed_units in PU. destruct (_ =? 0).
      * subst us. destruct data; constructor; [|constructor]. cbn [fst snd]. lia.
      * destruct PU as (bs & t & -> & _ & _ & ->). eapply Forall_impl; [|apply framed_places]. intros p X. cbv beta in *.
        unfold size_of in *. rewrite app_length. lia.
Qed.

(** What is written for a unit: its dump, and the bytes at its place in the file if asked for. *)
Definition shown (g : args) (data : list N) (e : nalu * N * N) (t : string) : Prop :=
  let '(x, off, len) := e in
  exists d c, fdump_unit (indent_level g) (parsing_options g) off len x = Ok d /\
    t = (d ++ c)%string /\ one_line c /\
    if arg_contents g then
      exists hs, words t = words d ++ ["contents"; "{"]%string ++ hs ++ ["}"]%string /\
        Forall2 shows_byte hs (SpecFraming.slice off len data)
    else c = EmptyString.
Lemma unit_shown : forall g data x off len st, Forall (fun b => b < 256) data -> size_of data < 2 ^ 62 ->
  good_unit st (arg_checksum g) x -> off <= size_of data -> len <= size_of data + 8 ->
  exists t, unit_text g data (x, off, len) = Ok (t ++ String newline "")%string /\ shown g data (x, off, len) t /\
    (arg_one_line g = true -> one_line t).
Proof.
  intros g data x off len st B L G O Ln.
  assert (PR : printable (dump_nalu (parsing_options g) off len x)).
  { eapply nice_printable, nice_nalu with (ck := arg_checksum g); [|exact G]. cbn. auto. }
  destruct (render_printable (indent_level g) _ PR) as (d & R & W).
  assert (OL : arg_one_line g = true -> one_line d).
  { intros Q. eapply printable_one_line; [exact PR|]. rewrite <- R. unfold indent_level. rewrite Q. reflexivity. }
  unfold unit_text, shown. rewrite R. cbn [rbind]. destruct (arg_contents g) eqn:C.
  - pose proof (C54_in_bounds data x off len ltac:(lia) ltac:(lia) ltac:(lia)) as CB. unfold contents in CB.
    destruct (contents_words _ _ _ _ _ _ B CB) as (s & ws & E1 & E2 & E3 & E4 & E5). rewrite E1. cbn [rbind].
    exists (d ++ " contents {" ++ s ++ " }")%string. split; [rewrite !app_assoc_s; reflexivity|].
    assert (OC : one_line (" contents {" ++ s ++ " }")).
    { cbn [append one_line]. repeat (split; [reflexivity|]). apply one_line_app; [exact E5|]. cbn. auto. }
    split.
    + exists d, (" contents {" ++ s ++ " }")%string. split; [exact R|]. split; [reflexivity|]. split; [exact OC|].
      exists ws. split; [|exact E3].
      change (" contents {" ++ s ++ " }")%string with (String " " ("contents {" ++ s ++ String " " "}"))%string.
      rewrite words_sep by reflexivity. f_equal.
      assert (X : white_start (s ++ String " " "}")).
      { destruct E4 as [->|(c & t & -> & Wc)]; right; cbn [append]; [exists " "%char, "}"%string; auto|eauto]. }
      rewrite words_app by exact X. rewrite words_sep by reflexivity. rewrite E2. reflexivity.
    + intros Q. apply one_line_app; [exact (OL Q)|exact OC].
  - cbn [rbind append]. exists d. split; [reflexivity|]. split; [|exact OL].
    exists d, ""%string. split; [exact R|]. split; [rewrite app_nil_s; reflexivity|]. split; [exact I|reflexivity].
Qed.

(** For every file and all options but --dump-length: one piece of text per unit that is
    accepted, in order, each with a line end; the exit status is that of C44. *)
Theorem C61_dump_all : forall a g data, fits a data -> sane g data -> arg_dump_length g = false ->
  exists l w ts e, tool_parse a (tool_options g) data = (Ok l, w) /\
    tool a (tool_options g) data = Ok ([], e) /\
    run a g data = Ok (String.concat "" (map (fun t => t ++ String newline "")%string ts), e) /\
    Forall2 (shown g data) l ts /\
    (arg_one_line g = true -> Forall one_line ts).
Proof.
  intros a g data F S D. destruct (tool_run a g data F S) as (l & w & P & (K1 & K2 & K3) & rows & e & T).
  assert (X : exists ts, units_text g data l = Ok (String.concat "" (map (fun t => t ++ String newline "")%string ts)) /\
    Forall2 (shown g data) l ts /\ (arg_one_line g = true -> Forall one_line ts)).
  { clear P T K2. pose proof F as (B & L & _). induction l as [|[[x off] len] l IH].
    - exists []. split; [reflexivity|]. split; constructor.
    - inversion K1 as [|? ? (st & G & _) K1']; subst. inversion K3 as [|? ? [O Ln] K3']; subst. cbn [fst snd] in *.
      destruct (IH K1' K3') as (ts & E & FA & OL).
      destruct (unit_shown g data x off len st B) as (t & E1 & E2 & E3); auto. { unfold size_of. lia. }
      exists (t :: ts). cbn [units_text]. rewrite E1. cbn [rbind]. rewrite E. cbn [rbind map]. rewrite concat_cons.
      split; [reflexivity|]. split; [constructor; auto|]. intros Q. constructor; auto. }
  destruct X as (ts & X1 & X2 & X3). exists l, w, ts, e. split; [exact P|].
  unfold tool in T. rewrite P in T. cbn [tool_options opt_dump_length] in T. rewrite D in T. cbn [rbind] in T.
  unfold tool, run, output. rewrite P. cbn [tool_options opt_dump_length]. rewrite D, X1. cbn [rbind].
  destruct (unparsed_nal_units _ data l) as [n| | | |]; try discriminate. cbn [rbind] in *. injection T as <- <-. auto.
Qed.
(** One line per unit, by default. *)
Theorem C61_one_line : forall a g data s e, fits a data -> sane g data -> arg_dump_length g = false ->
  arg_one_line g = true -> run a g data = Ok (s, e) ->
  exists l w ls, tool_parse a (tool_options g) data = (Ok l, w) /\
    text_lines s = ls ++ [EmptyString] /\ Forall2 (shown g data) l ls.
Proof.
  intros a g data s e F S D O R. destruct (C61_dump_all a g data F S D) as (l & w & ts & e' & P & _ & R' & FA & OL).
  exists l, w, ts. split; [exact P|]. split; [|exact FA]. rewrite R in R'. injection R' as -> _. apply lines_concat, OL, O.
Qed.
(** With --dump-length: a table with seven columns, a line for each row of C50. *)
Theorem C61_dump_length : forall a g data, fits a data -> sane g data -> arg_dump_length g = true ->
  exists rows s e hd ls, tool a (tool_options g) data = Ok (rows, e) /\ run a g data = Ok (s, e) /\
    text_lines s = hd :: ls ++ [EmptyString] /\ fields hd = columns /\
    Forall2 (fun l r => Forall2 in_cell (fields l) (cells r)) ls rows.
Proof.
  intros a g data F S D. destruct (tool_run a g data F S) as (l & w & P & (K1 & K2 & K3) & rows & e & T).
  pose proof T as T'. unfold tool in T. rewrite P in T. cbn [tool_options opt_dump_length opt_frames_per_second] in T. rewrite D in T.
  destruct (dump_length (arg_frames_per_second g) l) as [rs| | | |] eqn:DL; try discriminate. cbn [rbind] in T.
  unfold run, output. rewrite P, D, DL. cbn [rbind].
  destruct (unparsed_nal_units (tool_options g) data l) as [n| | | |] eqn:U.
  2-5: discriminate.
  cbn [rbind] in *. injection T as <- <-.
  pose proof (dump_rows_fine _ _ _ _ _ _ _ K2 DL) as RF.
  exists rs. eexists. eexists. exists csv_header, (map row_text rs). split; [exact T'|]. split; [reflexivity|].
  split; [|split; [reflexivity|]].
  - rewrite lines_cons by (vm_compute; tauto). rewrite rows_lines by exact RF. reflexivity.
  - clear - RF. induction RF as [|r rs R RF IH]; cbn [map]; constructor; auto. apply row_cells, R.
Qed.
(** In Annex B mode what --add-contents shows is the unit. *)
Theorem C61_contents : forall a g data, fits a data -> sane g data -> (arg_nalu_length_bytes g < 0)%Z ->
  exists ix l w, FindNaluIndices data (size_of data) = Ok ix /\
    tool_parse a (tool_options g) data = (Ok l, w) /\
    forall x off len t, In (x, off, len) l -> shown g data (x, off, len) t -> arg_contents g = true ->
    exists u before hs, In (off, u) (found_units data ix) /\
      words t = before ++ ["contents"; "{"]%string ++ hs ++ ["}"]%string /\ Forall2 shows_byte hs u.
Proof.
  intros a g data F S A. destruct (C54_annexb_contents a (tool_options g) data F A) as (ix & l & w & E & P & _ & K).
  exists ix, l, w. split; [exact E|]. split; [exact P|]. intros x off len t I (d & c & _ & _ & _ & Q) C. rewrite C in Q.
  destruct Q as (hs & W & H). destruct (K _ I) as (u & IU & CU). exists u, (words d), hs.
  split; [exact IU|]. split; [exact W|].
  destruct (tool_run a g data F S) as (l' & w' & P' & (_ & _ & K3) & _). rewrite P in P'. injection P' as <- <-.
  rewrite Forall_forall in K3. specialize (K3 _ I). cbn [fst snd] in K3. pose proof F as (_ & L & _).
  rewrite C54_in_bounds in CU by (unfold size_of in *; lia). injection CU as <-. exact H.
Qed.

(** * C62: options *)
(** What an option is about. *)
Definition about_mode (o : opt) : option bool := match o with DumpAll => Some false | DumpLength => Some true | _ => None end.
Definition about_one_line (o : opt) : option bool := match o with OneLine b => Some b | _ => None end.
Definition about_offset (o : opt) : option bool := match o with AddOffset b => Some b | _ => None end.
Definition about_length (o : opt) : option bool := match o with AddLength b => Some b | _ => None end.
Definition about_parsed_length (o : opt) : option bool := match o with AddParsedLength b => Some b | _ => None end.
Definition about_checksum (o : opt) : option bool := match o with AddChecksum b => Some b | _ => None end.
Definition about_resolution (o : opt) : option bool := match o with AddResolution b => Some b | _ => None end.
Definition about_contents (o : opt) : option bool := match o with AddContents b => Some b | _ => None end.
Definition about_infile (o : opt) : option (option string) := match o with Infile s => Some (Some s) | _ => None end.
Definition about_outfile (o : opt) : option (option string) := match o with Outfile s => Some (Some s) | _ => None end.
Definition about_avcc (o : opt) : option (option string) := match o with AvccFile s => Some (Some s) | _ => None end.
Definition about_nalu_length (o : opt) : option string := match o with NaluLengthBytes s => Some s | _ => None end.
Definition about_fps (o : opt) : option string := match o with FramesPerSecond s => Some s | _ => None end.
(** A number in the range of an int; or nothing at all, which counts as zero. *)
Definition means (s : string) (n : Z) : Prop :=
  s = EmptyString /\ n = 0%Z \/ denotes s n /\ (0 <= n < 2 ^ 31)%Z.
Definition harmless (o : opt) : Prop :=
  match o with
  | Version | Help | Unsupported => False
  | NaluLengthBytes s | FramesPerSecond s => exists n, means s n
  | _ => True
  end.
Lemma int_arg_means : forall s n, int_arg s = Some n <-> means s n.
Proof. intros s n. rewrite int_arg_spec. unfold means, INT_MAX. intuition lia. Qed.

Record settings (os : list opt) (g0 g : args) : Prop := {
  set_mode : arg_dump_length g = last_of about_mode os (arg_dump_length g0);
  set_one_line : arg_one_line g = last_of about_one_line os (arg_one_line g0);
  set_offset : arg_offset g = last_of about_offset os (arg_offset g0);
  set_length : arg_length g = last_of about_length os (arg_length g0);
  set_parsed_length : arg_parsed_length g = last_of about_parsed_length os (arg_parsed_length g0);
  set_checksum : arg_checksum g = last_of about_checksum os (arg_checksum g0);
  set_resolution : arg_resolution g = last_of about_resolution os (arg_resolution g0);
  set_contents : arg_contents g = last_of about_contents os (arg_contents g0);
  set_infile : arg_infile g = last_of about_infile os (arg_infile g0);
  set_outfile : arg_outfile g = last_of about_outfile os (arg_outfile g0);
  set_avcc : arg_avcc_file g = last_of about_avcc os (arg_avcc_file g0);
  set_nalu_length : match last_of (fun o => option_map Some (about_nalu_length o)) os None with
                    | Some s => means s (arg_nalu_length_bytes g)
                    | None => arg_nalu_length_bytes g = arg_nalu_length_bytes g0
                    end;
  set_fps : match last_of (fun o => option_map Some (about_fps o)) os None with
            | Some s => means s (arg_frames_per_second g)
            | None => arg_frames_per_second g = arg_frames_per_second g0
            end
}.
Lemma last_snoc : forall O A (about : O -> option A) os o d,
  last_of about (os ++ [o]) d = match about o with Some x => x | None => last_of about os d end.
Proof.
  intros O A about os o. induction os as [|o' os IH]; intros d; cbn [app last_of].
  - reflexivity.
  - apply IH.
Qed.
Lemma set_snoc : forall os o g, set_options (os ++ [o]) g =
  match set_options os g with Go g' => set_option g' o | Stop n => Stop n end.
Proof.
  induction os as [|o' os IH]; intros o g; cbn [app set_options].
  - destruct (set_option g o); reflexivity.
  - destruct (set_option g o'); [apply IH|reflexivity].
Qed.
Lemma settings_hold : forall g0 os g, set_options os g0 = Go g -> settings os g0 g /\ Forall harmless os.
Proof.
  intros g0 os. induction os as [|o os IH] using rev_ind; intros g E.
  - injection E as <-. split; constructor; reflexivity.
  - rewrite set_snoc in E. destruct (set_options os g0) as [g1|n]; [|discriminate].
    destruct (IH g1 eq_refl) as [S H]. clear IH. destruct S as [S1 S2 S3 S4 S5 S6 S7 S8 S9 S10 S11 S12 S13].
    rewrite Forall_app. destruct g1 as [dl ol ao al ap ac ar ax nlb fps av inf outf].
    cbn [arg_dump_length arg_one_line arg_offset arg_length arg_parsed_length arg_checksum arg_resolution arg_contents
         arg_nalu_length_bytes arg_frames_per_second arg_avcc_file arg_infile arg_outfile] in *.
    destruct o; cbn [set_option] in E; try discriminate;
    try match type of E with match int_arg ?s with _ => _ end = _ => destruct (int_arg s) as [n|] eqn:IA; [|discriminate]; apply int_arg_means in IA end;
    injection E as <-; (split; [split; rewrite last_snoc; cbn; solve [auto]|split; [exact H|constructor; [cbn; eauto|constructor]]]).
Qed.
Lemma harmless_goes : forall os g0, Forall harmless os -> exists g, set_options os g0 = Go g.
Proof.
  intros os g0 H. revert g0. induction H as [|o os H _ IH]; intros g0; cbn [set_options]; [eauto|].
  assert (X : exists g1, set_option g0 o = Go g1).
  { destruct g0. destruct o; cbn [set_option harmless] in *; try tauto; eauto;
    destruct H as (n & H); apply int_arg_means in H; rewrite H; eauto. }
  destruct X as (g1 & ->). apply IH.
Qed.
Lemma last_some : forall O A (about : O -> option A) os d, last_of about os d = d \/ exists o x, In o os /\ about o = Some x /\ last_of about os d = x.
Proof.
  intros O A about os d. induction os as [|o os IH] using rev_ind; [left; reflexivity|]. rewrite last_snoc.
  destruct (about o) as [x|] eqn:E.
  - right. exists o, x. split; [apply in_or_app; right; left; reflexivity|]. auto.
  - destruct IH as [-> |(o' & x & I & A' & ->)]; [left; reflexivity|]. right. exists o', x. split; [apply in_or_app; left; exact I|]. auto.
Qed.
Lemma last_none : forall O A (about : O -> option A) os d, (forall o, In o os -> about o = None) -> last_of about os d = d.
Proof.
  intros O A about os d H. induction os as [|o os IH]; [reflexivity|]. cbn [last_of]. rewrite (H o (or_introl eq_refl)).
  apply IH. intros x I. apply H. right. exact I.
Qed.
(** The last option about a thing counts, the defaults being those of the usage text. *)
Theorem C62_last_counts : forall os g, parse_args os = Go g ->
  settings os (mkargs false true false false false false false false (-1) 30 None None None) g.
Proof.
  intros os g E. unfold parse_args in E. destruct (set_options os DEFAULT_OPTIONS) as [g1|n] eqn:S; [|discriminate].
  destruct (settings_hold _ _ _ S) as [H _]. destruct (arg_infile g1), (arg_avcc_file g1); try discriminate;
  injection E as <-; exact H.
Qed.
(** When the tool goes on to read a file. *)
Theorem C62_accepted : forall os, (exists g, parse_args os = Go g) <->
  Forall harmless os /\ exists o s, In o os /\ (o = Infile s \/ o = AvccFile s).
Proof.
  intros os. unfold parse_args. split.
  - intros (g & E). destruct (set_options os DEFAULT_OPTIONS) as [g1|n] eqn:S; [|discriminate].
    destruct (settings_hold _ _ _ S) as [H F]. split; [exact F|].
    destruct (arg_infile g1) as [f|] eqn:I1.
    + rewrite (set_infile _ _ _ H) in I1. destruct (last_some _ _ about_infile os (arg_infile DEFAULT_OPTIONS)) as [X|(o & x & I & A & X)].
      * rewrite X in I1. discriminate.
      * destruct o; try discriminate. eauto.
    + destruct (arg_avcc_file g1) as [f|] eqn:I2; [|discriminate].
      rewrite (set_avcc _ _ _ H) in I2. destruct (last_some _ _ about_avcc os (arg_avcc_file DEFAULT_OPTIONS)) as [X|(o & x & I & A & X)].
      * rewrite X in I2. discriminate.
      * destruct o; try discriminate. eauto.
  - intros (F & o & s & I & E). destruct (harmless_goes os DEFAULT_OPTIONS F) as (g & S). rewrite S.
    destruct (settings_hold _ _ _ S) as [H _].
    assert (K : arg_infile g <> None \/ arg_avcc_file g <> None).
    { rewrite (set_infile _ _ _ H), (set_avcc _ _ _ H). clear - I E. destruct E as [-> | ->]; [left|right].
      - revert I. induction os as [|o os IH] using rev_ind; intros I; [destruct I|]. rewrite last_snoc. apply in_app_or in I.
        destruct o; cbn [about_infile]; try discriminate; (destruct I as [I|[I|[]]]; [apply IH, I|discriminate]).
      - revert I. induction os as [|o os IH] using rev_ind; intros I; [destruct I|]. rewrite last_snoc. apply in_app_or in I.
        destruct o; cbn [about_avcc]; try discriminate; (destruct I as [I|[I|[]]]; [apply IH, I|discriminate]). }
    destruct (arg_infile g), (arg_avcc_file g); eauto. destruct K; congruence.
Qed.
(** Otherwise it ends at once, successfully only if asked for its version. *)
Theorem C62_stopped : forall os n, parse_args os = Stop n -> n = 0 /\ In Version os \/ n = 255.
Proof.
  intros os n E. unfold parse_args in E.
  assert (K : forall g m, set_options os g = Stop m -> m = 0 /\ In Version os \/ m = 255).
  { clear. induction os as [|o os IH]; intros g m E; cbn [set_options] in E; [discriminate|].
    destruct (set_option g o) as [g1|k] eqn:S.
    - destruct (IH _ _ E) as [[X Y]|X]; [left|right]; auto. split; [exact X|right; exact Y].
    - injection E as <-. destruct g. destruct o; cbn [set_option] in S; try discriminate;
      try (destruct (int_arg _); [discriminate|]); injection S as <-; auto. left. split; [reflexivity|left; reflexivity]. }
  destruct (set_options os DEFAULT_OPTIONS) as [g1|k] eqn:S.
  - right. destruct (arg_infile g1), (arg_avcc_file g1); try discriminate. injection E as <-. reflexivity.
  - injection E as <-. eapply K; eauto.
Qed.
(** The numbers are in range. *)
Theorem C62_ranges : forall os g, parse_args os = Go g ->
  (-1 <= arg_nalu_length_bytes g < 2 ^ 31)%Z /\ (0 <= arg_frames_per_second g < 2 ^ 31)%Z.
Proof.
  intros os g E. pose proof (C62_last_counts os g E) as H. pose proof (set_nalu_length _ _ _ H) as H1. pose proof (set_fps _ _ _ H) as H2.
  assert (M : forall s n, means s n -> (0 <= n < 2 ^ 31)%Z) by (intros s n [[_ ->]|[_ X]]; [lia|exact X]).
  destruct (last_of _ os None) in H1; destruct (last_of _ os None) in H2; cbn in H1, H2;
  try apply M in H1; try apply M in H2; lia.
Qed.
(** --add-contents brings offset and length along, --dump-length the length. *)
Theorem C62_implied : forall g, 
  add_offset (parsing_options g) = arg_offset g || arg_contents g /\
  add_length (parsing_options g) = arg_length g || arg_contents g || arg_dump_length g /\
  add_parsed_length (parsing_options g) = arg_parsed_length g /\
  add_checksum (parsing_options g) = arg_checksum g /\ add_resolution (parsing_options g) = arg_resolution g.
Proof. intros g. repeat split. Qed.
(** An empty argument is taken for the number zero: a single NAL unit without length field. *)
Theorem C62_empty_number_refuted : exists os g, In (NaluLengthBytes "") os /\
  parse_args os = Go g /\ arg_nalu_length_bytes g = 0%Z /\ forall n, ~ denotes "" n.
Proof.
  exists [Infile "f"; NaluLengthBytes ""]%string. eexists. split; [right; left; reflexivity|]. split; [reflexivity|].
  split; [reflexivity|]. intros n (ws & sg & ds & v & E & _ & ND & _).
  destruct ws; [|discriminate]. destruct sg; [|discriminate]. cbn in E. congruence.
Qed.
(** The value -1 that the usage text offers for the default is refused. *)
Theorem C62_minus_one_refuted : denotes "-1" (-1) /\
  parse_args [Infile "f"; NaluLengthBytes "-1"]%string = Stop 255 /\
  exists g, parse_args [Infile "f"]%string = Go g /\ arg_nalu_length_bytes g = (-1)%Z.
Proof.
  split; [|split; [reflexivity|eexists; split; reflexivity]].
  exists ""%string, "-"%string, "1"%string, 1%Z. split; [reflexivity|]. split; [exact I|]. split; [discriminate|].
  split; [|right; split; reflexivity]. apply value_digit with (d := 1%Z); [split; [reflexivity|lia]|constructor].
Qed.
(** The whole program: always an output and a status, with length fields of less than 8 bytes
    and, for the length dump, a bitrate that fits its type. *)
Theorem C61_defined : forall a read os, (forall f data, read f = Some data -> fits a data) ->
  (forall g f data, parse_args os = Go g -> arg_infile g = Some f -> read f = Some data ->
     (arg_nalu_length_bytes g < 8)%Z /\
     (arg_dump_length g = true -> size_of data < 2 ^ 31 /\
        size_of data * 8 * Z.to_N (arg_frames_per_second g) < 2 ^ 63)) ->
  exists s e, main a read os = Ok (s, e) /\ (e = 0 \/ e = 1 \/ e = 2 \/ e = 255).
Proof.
  intros a read os F H. unfold main. destruct (parse_args os) as [g|n] eqn:P.
  2: { exists ""%string, n. split; [reflexivity|]. destruct (C62_stopped os n P) as [[-> _]| ->]; auto. }
  destruct (arg_infile g) as [f|] eqn:If; [|exists ""%string, 0; auto].
  destruct (read f) as [data|] eqn:R; [|exists ""%string, 255; auto].
  destruct (H g f data eq_refl If R) as [H1 H2]. destruct (C62_ranges os g P) as [_ [Q _]].
  assert (S : sane g data) by (split; [exact H1|]; split; [exact Q|exact H2]).
  assert (EX : forall r e, tool a (tool_options g) data = Ok (r, e) -> e = 0 \/ e = 1 \/ e = 2 \/ e = 255).
  { intros r e T. unfold tool in T. destruct (tool_parse a (tool_options g) data) as [[l| | | |] w]; try discriminate.
    apply rbind_ok in T. destruct T as (rows & _ & T). apply rbind_ok in T. destruct T as (n & _ & T).
    injection T as _ <-. unfold exit_status. destruct (0 <? _); [auto|]. destruct (0 <? _); auto. }
  specialize (F f data R). destruct (arg_dump_length g) eqn:D.
  - destruct (C61_dump_length a g data F S D) as (rows & s & e & _ & _ & T & RU & _). exists s, e. split; [exact RU|]. eapply EX; eauto.
  - destruct (C61_dump_all a g data F S D) as (l & w & ts & e & _ & T & RU & _). eexists. exists e. split; [exact RU|]. eapply EX; eauto.
Qed.
(** With length fields of 8 bytes a file of 9 bytes ends the process. *)
Theorem C61_eight_refuted : exists data read, fits true data /\ read "f"%string = Some data /\
  main true read [Infile "f"; NaluLengthBytes "8"]%string = Abort /\
  main false read [Infile "f"; NaluLengthBytes "8"]%string = Abort.
Proof.
  exists [255; 255; 255; 255; 255; 255; 255; 248; 1], (fun _ => Some [255; 255; 255; 255; 255; 255; 255; 248; 1]).
  split; [fits_tac|]. split; [reflexivity|]. split; vm_compute; reflexivity.
Qed.

Definition ex_read (f : string) : option (list N) := if String.eqb f "f" then Some ex_stream else None.
Definition lines_of (r : res (string * N)) : list string * N :=
  match r with Ok (s, e) => (text_lines s, e) | _ => ([], 99) end.
(** A stream of five units whose fourth does not parse: text, and the length dump. *)
Example C61_ex : fits true ex_stream /\
  sane (mkargs false true false false false false false true (-1) 30 None (Some "f"%string) None) ex_stream /\
  (let '(ls, e) := lines_of (main true ex_read [Infile "f"; AddContents true]%string) in
   List.length ls = 6%nat /\ e = 1 /\
   nth 3 ls ""%string = ("nal_unit { offset: 0x00000063 length: 3 nal_unit_header { forbidden_zero_bit: 0 nal_ref_idc: 1 " ++
     "nal_unit_type: 5 } nal_unit_payload {  } } contents { 25 09 1c }")%string).
Proof.
  split; [fits_tac|]. split. { split; [cbn; lia|]. split; [cbn; lia|]. discriminate. }
  vm_compute. auto.
Qed.
Example C61_length_ex :
  sane (mkargs true true false false false false false false (-1) 25 None (Some "f"%string) None) ex_stream /\
  lines_of (main true ex_read [Infile "f"; FramesPerSecond "25"; DumpLength]%string) = (
    ["nal_num,frame_num,nal_unit_type,nal_unit_type_str,nal_length_bytes,bitrate_bps,first_mb_in_slice";
     "0,0,7,sps,57,,"; "1,0,8,pps,8,,"; "2,0,5,coded_slice_of_idr_picture,20,,17"; ",0,5,frame,,4000,";
     "3,1,5,coded_slice_of_idr_picture,3,,0"; "4,1,8,pps,15,,"; ",1,5,frame,,600,"; ""]%string, 1).
Proof.
  split. { split; [cbn; lia|]. split; [cbn; lia|]. intros _. vm_compute. auto. }
  vm_compute. reflexivity.
Qed.
Example C62_ex : exists g,
  parse_args [AddChecksum true; Infile "a"; NaluLengthBytes " +4"; AddChecksum false; OneLine false; Infile "b"]%string = Go g /\
  arg_checksum g = false /\ arg_one_line g = false /\ arg_nalu_length_bytes g = 4%Z /\ arg_infile g = Some "b"%string.
Proof. eexists. split; [vm_compute; reflexivity|]. repeat split. Qed.

Print Assumptions C61_dump_all.
Print Assumptions C61_one_line.
Print Assumptions C61_dump_length.
Print Assumptions C61_contents.
Print Assumptions C62_last_counts.
Print Assumptions C62_accepted.
Print Assumptions C62_stopped.
Print Assumptions C62_ranges.
Print Assumptions C62_implied.
Print Assumptions C62_empty_number_refuted.
Print Assumptions C62_minus_one_refuted.
Print Assumptions C61_defined.
Print Assumptions C61_eight_refuted.
