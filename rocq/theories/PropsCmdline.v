(** Property C73: the command line of the tool. *)
From Coq Require Import NArith ZArith List Bool Lia ZifyBool ZifyNat ZifyN String Ascii.
From Verif Require Import SpecBits Base TypesNal TypesNalUnit SpecNalUnit NalUnit Tool Dump ToolText PropsFraming PropsNalUnit PropsToolText Files SpecFiles PropsFiles
  Cmdline SpecCmdline CmdlineProofs SpecDpbText DpbProofs8 Split Conformance Dpb.
Import ListNotations.
Open Scope N_scope.

(** ** Reading the arguments *)
(** The options are exactly those that are written, in this order; everything else is refused. *)
Theorem C73_read : forall argv is, written argv is <-> getopt_long argv = is /\ ~ In (Other Unsupported) is.
Proof.
  intros argv is. split.
  - intros W. split; [exact (written_getopt _ _ W)|exact (written_supported _ _ W)].
  - intros [<- N]. exact (getopt_written _ N).
Qed.
Lemma stands_itself : forall n, stands_for n n.
Proof. intros n. split; [exists ""%string; symmetry; apply append_nil|left; reflexivity]. Qed.
(** Every sequence of options can be written, whatever the file names are. *)
Theorem C73_any : forall is, ~ In (Other Unsupported) is -> exists argv, written argv is.
Proof.
  induction is as [|i is IH]; intros N; [exists []; constructor|].
  destruct IH as [l W]; [intros X; apply N; right; exact X|].
  assert (F : forall n, In (n, i) flag_names -> exists argv, written argv (i :: is)).
  { intros n I. eexists. apply written_flag with n; [exact I|apply stands_itself|exact W]. }
  assert (A : forall n f v, In (n, f) arg_names -> i = Other (f v) -> exists argv, written argv (i :: is)).
  { intros n f v I ->. eexists. apply written_value with n; [exact I|apply stands_itself|exact W]. }
  destruct i as [| |o]; [apply (F "debug"%string)|apply (F "quiet"%string)|]; try (cbn; repeat ((left; reflexivity) || right); fail).
  destruct o as [| |[|]|[|]|[|]|[|]|[|]|[|]|[|]|v|v|v|v|v| | |];
  [apply (F "dump-all"%string)|apply (F "dump-length"%string)
  |apply (F "as-one-line"%string)|apply (F "no-as-one-line"%string)|apply (F "add-offset"%string)|apply (F "no-add-offset"%string)
  |apply (F "add-length"%string)|apply (F "no-add-length"%string)|apply (F "add-parsed-length"%string)|apply (F "no-add-parsed-length"%string)
  |apply (F "add-checksum"%string)|apply (F "no-add-checksum"%string)|apply (F "add-resolution"%string)|apply (F "no-add-resolution"%string)
  |apply (F "add-contents"%string)|apply (F "no-add-contents"%string)
  |apply (A "avcc-file"%string AvccFile v)|apply (A "nalu-length-bytes"%string NaluLengthBytes v)|apply (A "frames-per-second"%string FramesPerSecond v)
  |apply (A "infile"%string Infile v)|apply (A "outfile"%string Outfile v)
  |apply (F "version"%string)|apply (F "help"%string)|elim N; left; reflexivity]; try reflexivity; try (cbn; repeat ((left; reflexivity) || right); fail).
Qed.
(** What the three scripts put on the command line gives the options that C70 to C72 start from. *)
Theorem C73_scripts : forall input,
  getopt_long ["-i"; input; "--no-as-one-line"; "--add-offset"; "--add-length"; "--add-resolution"]%string = map Other (split_options input) /\
  getopt_long ["-i"; input; "--as-one-line"; "--add-resolution"]%string = map Other (conf_options input) /\
  getopt_long ["-i"; input; "--no-as-one-line"]%string = map Other (dpb_options input).
Proof. intros input. repeat split. Qed.

(** ** Running the tool *)
Lemma debug_total : forall is level, (0 <= level)%Z -> (level + Z.of_nat (List.length is) < 2 ^ 31)%Z -> exists n, debug_level is level = Ok n.
Proof.
  induction is as [|i is IH]; intros level L B; [eexists; reflexivity|]. cbn [List.length] in B. destruct i as [| |o]; cbn [debug_level].
  - unfold chk_i32. replace ((- 2 ^ 31 <=? level + 1) && (level + 1 <? 2 ^ 31))%Z with true by lia. cbn [rbind]. apply IH; lia.
  - apply IH; lia.
  - destruct (set_option DEFAULT_OPTIONS o); [apply IH; lia|eexists; reflexivity].
Qed.
Definition quiets (is : list item) : bool := existsb (fun i => match i with Quiet => true | _ => false end) is.
Lemma debug_goes : forall is level, Forall harmless (options_of is) -> (0 <= level)%Z -> (level + Z.of_nat (List.length is) < 2 ^ 31)%Z ->
  debug_level is level = Ok ((if quiets is then 0 else level) + Z.of_N (raised is))%Z.
Proof.
  induction is as [|i is IH]; intros level F L B; [cbn; f_equal; lia|]. cbn [List.length] in B. unfold options_of in *. cbn [flat_map] in F. destruct i as [| |o]; cbn [debug_level].
  - unfold chk_i32. replace ((- 2 ^ 31 <=? level + 1) && (level + 1 <? 2 ^ 31))%Z with true by lia. cbn [rbind]. rewrite IH; [|exact F|lia|lia].
    unfold quiets in *. cbn [existsb orb raised]. destruct (existsb _ is) eqn:Q; f_equal; lia.
  - rewrite IH; [|exact F|lia|lia]. unfold quiets. cbn [existsb orb raised]. destruct (existsb _ is); f_equal; lia.
  - inversion F as [|? ? H1 H2]; subst.
    assert (G : exists g, set_option DEFAULT_OPTIONS o = Go g).
    { destruct (harmless_goes [o] DEFAULT_OPTIONS) as [g G]; [constructor; [exact H1|constructor]|]. cbn [set_options] in G.
      destruct (set_option DEFAULT_OPTIONS o) as [g'|n]; [exists g'; reflexivity|discriminate]. }
    destruct G as [g G]. rewrite G. rewrite IH; [|exact H2|lia|lia]. unfold quiets. cbn [existsb orb raised]. reflexivity.
Qed.
(** With fewer than two requests for messages, the tool does what its options say (C61, C62, C68). *)
Definition few (is : list item) : Prop := N.of_nat (List.length is) < 2 ^ 31.
(** Four lines in front of the output, on the standard output, if the level is at least two. *)
Definition name_text (f : option string) : string := match f with Some s => s | None => "null" end.
Definition messages (level : N) (g : args) (s : string) : Prop :=
  level < 2 /\ s = ""%string \/
  2 <= level /\ s = String.concat "" (map (fun l => (l ++ String "010" "")%string)
    ["h264nal: original version"; "options.debug = " ++ number_text level; "options.infile = " ++ name_text (arg_infile g); "options.outfile = " ++ name_text (arg_outfile g)])%string.
Lemma app3 : forall a b c : string, ((a ++ b) ++ c = a ++ (b ++ c))%string.
Proof. induction a as [|x a IH]; intros; cbn; [reflexivity|f_equal; apply IH]. Qed.
Lemma messages_eq : forall level g, messages level g (debug_text (Z.of_N level) g).
Proof.
  intros level g. unfold messages, debug_text. destruct (1 <? Z.of_N level)%Z eqn:L; [right|left]; (split; [lia|]); [|reflexivity].
  rewrite N2Z.id. cbn [map String.concat]. rewrite !app3. reflexivity.
Qed.
Theorem C73_command : forall ver a r d stdin argv is g, written argv is -> few is -> parse_args (options_of is) = Go g ->
  exists m, messages (raised is) g m /\ forall x, tool_main ver a r d stdin (options_of is) = Ok x ->
    command ver a r d stdin argv = Ok (mkeff (m ++ eff_stdout x) (eff_disk x) (eff_status x)).
Proof.
  intros ver a r d stdin argv is g W B P. exists (debug_text (Z.of_N (raised is)) g). split; [apply messages_eq|]. intros x T.
  unfold command. rewrite (written_getopt _ _ W). unfold few in B.
  assert (H : Forall harmless (options_of is)) by (apply C62_accepted; exists g; exact P).
  rewrite (debug_goes is 0 H) by lia. cbn [rbind]. rewrite T. cbn [rbind]. rewrite P. destruct (quiets is); rewrite Z.add_0_l; reflexivity.
Qed.
(** If the arguments are not well written, or an option among them stops the program, or no file is
    named, nothing is read or written; the status is 0 only for --version. *)
Theorem C73_refused : forall ver a r d stdin argv, few (getopt_long argv) ->
  (forall is g, written argv is -> parse_args (options_of is) <> Go g) ->
  exists x, command ver a r d stdin argv = Ok x /\ eff_disk x = d /\
    (eff_stdout x = ""%string /\ eff_status x = 255 \/
     In (Other Version) (getopt_long argv) /\ eff_stdout x = ("version: " ++ ver ++ String "010" "")%string /\ eff_status x = 0).
Proof.
  intros ver a r d stdin argv B H. unfold few in B.
  assert (NG : forall g, parse_args (options_of (getopt_long argv)) <> Go g).
  { intros g P. assert (S : ~ In unsupported (getopt_long argv)).
    { intros I. assert (F : Forall harmless (options_of (getopt_long argv))) by (apply C62_accepted; exists g; exact P).
      rewrite Forall_forall in F. apply (F Unsupported). unfold options_of. apply in_flat_map. exists unsupported. split; [exact I|left; reflexivity]. }
    exact (H _ g (getopt_written _ S) P). }
  destruct (C68_refused ver a r d stdin (options_of (getopt_long argv))) as (x & T & D & C);
    [intros g f data P; elim (NG g P)|intros g P; elim (NG g P)|].
  destruct (debug_total (getopt_long argv) 0) as [n L]; [lia|lia|].
  exists x. unfold command. rewrite L. cbn [rbind]. rewrite T. cbn [rbind].
  destruct (parse_args (options_of (getopt_long argv))) as [g|m] eqn:P; [elim (NG g eq_refl)|]. split; [reflexivity|]. split; [exact D|].
  destruct C as [C|(V & C)]; [left; exact C|right]. split; [|exact C]. unfold options_of in V. apply in_flat_map in V.
  destruct V as (i & I & X). destruct i as [| |o]; cbn in X; try contradiction. destruct X as [->|[]]. exact I.
Qed.
(** Every command line ends with one of the four statuses; the provisos are those of C68. *)
Theorem C73_defined : forall ver a r d stdin argv, few (getopt_long argv) ->
  (forall f data, input d stdin f data -> fits a data) ->
  (forall g f data, parse_args (options_of (getopt_long argv)) = Go g -> arg_infile g = Some f -> input d stdin f data ->
     (arg_nalu_length_bytes g < 8)%Z /\
     (arg_dump_length g = true -> size_of data < 2 ^ 31 /\
        size_of data * 8 * Z.to_N (arg_frames_per_second g) < 2 ^ 63)) ->
  exists x, command ver a r d stdin argv = Ok x /\
    (eff_status x = 0 \/ eff_status x = 1 \/ eff_status x = 2 \/ eff_status x = 255).
Proof.
  intros ver a r d stdin argv B F H. unfold few in B. destruct (C68_defined ver a r d stdin _ F H) as (x & T & S).
  destruct (debug_total (getopt_long argv) 0) as [n L]; [lia|lia|]. unfold command. rewrite L. cbn [rbind]. rewrite T. cbn [rbind].
  destruct (parse_args (options_of (getopt_long argv))); eexists; (split; [reflexivity|exact S]).
Qed.

(** ** What goes wrong *)
(** The usage text offers -q, but the command line is refused. *)
Theorem C73_quiet_refuted : forall ver a r d stdin f,
  command ver a r d stdin ["-i"; f; "-q"]%string = Ok (mkeff "" d 255) /\ forall is, ~ written ["-i"; f; "-q"]%string is.
Proof.
  intros. split; [reflexivity|]. intros is W. apply C73_read in W. destruct W as [<- N]. apply N. right. left. reflexivity.
Qed.
(** A file that is named without an option is not read, and not refused if there is another one. *)
Theorem C73_operand_refuted : forall ver a r d stdin f g, ~ (exists s, s <> ""%string /\ g = ("-" ++ s)%string) ->
  command ver a r d stdin ["-i"; f; g]%string = command ver a r d stdin ["-i"; f]%string /\
  command ver a r d stdin [g] = Ok (mkeff "" d 255).
Proof.
  intros ver a r d stdin f g N.
  assert (E1 : getopt_long ["-i"; f; g]%string = getopt_long ["-i"; f]%string).
  { change (Other (Infile f) :: getopt_long [g] = [Other (Infile f)]). rewrite getopt_operand by exact N. reflexivity. }
  assert (E2 : getopt_long [g] = []) by (rewrite getopt_operand by exact N; reflexivity).
  unfold command. rewrite E1, E2. split; reflexivity.
Qed.
(** With -dd the messages are in front of the dump; a script that reads the output finds them. *)
Theorem C73_messages_refuted : forall ver a r d stdin f x, 
  tool_main ver a r d stdin [Infile f] = Ok x ->
  exists y, command ver a r d stdin ["-i"; f; "-dd"]%string = Ok y /\ eff_stdout y <> eff_stdout x /\
    eff_stdout y = ("h264nal: original version" ++ String "010" "" ++ "options.debug = 2" ++ String "010" "" ++ "options.infile = " ++ f ++ String "010" ""
                    ++ "options.outfile = null" ++ String "010" "" ++ eff_stdout x)%string.
Proof.
  intros ver a r d stdin f x T.
  destruct (C73_command ver a r d stdin ["-i"; f; "-dd"]%string [Other (Infile f); Debug; Debug] (mkargs false true false false false false false false (-1) 30 None (Some f) None))
    as (m & [[M _]|[_ M]] & C); [apply C73_read; split; [reflexivity|intros [E|[E|[E|[]]]]; discriminate]|reflexivity|reflexivity|discriminate|].
  specialize (C x T). eexists. split; [exact C|]. cbn [eff_stdout].
  assert (E : (m ++ eff_stdout x)%string = ("h264nal: original version" ++ String "010" "" ++ "options.debug = 2" ++ String "010" "" ++ "options.infile = " ++ f ++ String "010" ""
                    ++ "options.outfile = null" ++ String "010" "" ++ eff_stdout x)%string).
  { rewrite M. cbn [map String.concat arg_infile arg_outfile name_text raised existsb]. rewrite !app3. reflexivity. }
  split; [|exact E]. rewrite E. intros X. apply (f_equal String.length) in X. 
  assert (LA : forall s t, String.length (s ++ t) = (String.length s + String.length t)%nat) by (induction s as [|c s IH]; intros; cbn; [reflexivity|f_equal; apply IH]).
  rewrite !LA in X. cbn [String.length] in X. lia.
Qed.

(** Shortened names, values behind '=' and behind letters, letters in a group, an operand, "--". *)
Example C73_ex : written ["-di"; "f"; "--add-l"; "x"; "--frames=25"; "-oout"; "--no-as"; "--quiet"; "--deb"; "--"; "-q"]%string
  [Debug; Other (Infile "f"); Other (AddLength true); Other (FramesPerSecond "25"); Other (Outfile "out"); Other (OneLine false); Quiet; Debug] /\
  (forall is, ~ written ["--add"]%string is) /\ (forall is, ~ written ["--add-length=1"]%string is) /\ (forall is, ~ written ["-i"]%string is) /\
  raised [Debug; Other (Infile "f"); Debug; Quiet; Debug] = 1.
Proof.
  split; [apply C73_read; split; [reflexivity|cbn; intuition discriminate]|].
  repeat split; intros is W; apply C73_read in W; destruct W as [<- N]; apply N; left; reflexivity.
Qed.
Example C73_ex_run : few (getopt_long ["--infile=in"; "-d"; "-o"; "out"]%string) /\
  ex_written (command "1" true (fun _ => true) ex_disk [] ["--infile=in"; "-d"; "-o"; "out"]%string).
Proof. split; [reflexivity|]. vm_compute. split; [reflexivity|]. split; [reflexivity|]. split; [lia|reflexivity]. Qed.
Example C73_ex_version : command "1.2" true (fun _ => true) ex_disk [] ["--vers"; "--bad"]%string =
  Ok (mkeff ("version: 1.2" ++ String "010" "")%string ex_disk 0).
Proof. vm_compute. reflexivity. Qed.

Print Assumptions C73_read.
Print Assumptions C73_any.
Print Assumptions C73_scripts.
Print Assumptions C73_command.
Print Assumptions C73_refused.
Print Assumptions C73_defined.
Print Assumptions C73_quiet_refuted.
Print Assumptions C73_operand_refuted.
Print Assumptions C73_messages_refuted.
