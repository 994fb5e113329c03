(** Property C78: the files that fuzz/converter.py writes. *)
From Coq Require Import NArith List Bool Lia ZifyBool ZifyNat ZifyN String Ascii.
From Verif Require Import Base PyText Dump DumpProofs Converter SpecConverter ConverterProofs ConverterProofs2 ConverterProofs3 ConverterProofs4 PropsConverter
  ConverterFiles SpecConverterFiles ConverterProofs5.
Import ListNotations.
Open Scope list_scope.
Open Scope string_scope.

Lemma replaced_one : forall old new s a b, replaced old new s a -> replaced old new s b -> a = b.
Proof.
  intros old new s a b A. revert b. induction A as [s N|x r r' L A IH]; intros b B.
  - inversion B as [|y q q' L' B' E]; [reflexivity|subst]. exfalso. apply N. exists y, q. reflexivity.
  - remember (x ++ old ++ r) as s eqn:E. destruct B as [s N|y q q' L' B']; [exfalso; apply N; exists x, r; exact E|].
    assert (Q : String.length x = String.length y) by (specialize (L y q eq_refl); specialize (L' x r E); lia).
    destruct (app_split _ _ _ _ E (eq_sym Q)) as [-> F]. apply app_inj in F. subst q. rewrite (IH _ B'). reflexivity.
Qed.
Lemma out_exists : forall lines, exists out, parse_input lines = Ok out.
Proof. intros lines. destruct (C75_seeds lines) as (_ & out & _ & P & _). eauto. Qed.
Lemma join_no : forall x a b, ~ holds (String x "") a -> ~ holds (String x "") b -> x <> "/"%char -> ~ holds (String x "") (path_join a b).
Proof.
  intros x a b A B X H. unfold path_join in H. destruct (prefix "/" b); [contradiction|]. destruct (_ || _); apply holds_app in H; destruct H as [H|H]; try contradiction.
  apply (holds_app x "/") in H. destruct H as [([|y [|z u]] & v & E)|H]; try discriminate; [injection E as E; congruence|contradiction].
Qed.
(** What [convert] does, with the names computed *)
Lemma convert_is : forall infile outdir lines name, infile <> "-" -> last_part infile name -> exists out target sub,
  parse_input lines = Ok out /\ replaced "unittest" "fuzzer" name target /\ replaced ".cc" "" target sub /\ ~ holds "/" target /\ ~ holds "/" sub /\
  convert infile outdir lines = let (e, ok) := write_seeds (path_join (path_join outdir "corpus") sub) 0 (cv_data out) in
    (WriteText (path_join outdir target) (target_text name (cv_include out) (cv_code out)) :: e, ok).
Proof.
  intros infile outdir lines name M L. destruct (out_exists lines) as (out & P). rewrite <- (last_part_one _ _ _ (basename_last infile) L).
  destruct (basename_last infile) as [S _].
  exists out, (replace "unittest" "fuzzer" (basename infile)), (replace ".cc" "" (replace "unittest" "fuzzer" (basename infile))).
  pose proof (replace_spec "unittest" "fuzzer" (basename infile) ltac:(discriminate)) as R1. pose proof (replace_spec ".cc" "" (replace "unittest" "fuzzer" (basename infile)) ltac:(discriminate)) as R2.
  split; [exact P|]. split; [exact R1|]. split; [exact R2|].
  assert (S1 : ~ holds "/" (replace "unittest" "fuzzer" (basename infile))) by (intros H; apply S; apply (replaced_keeps _ _ _ _ "/" R1); [|exact H]; intros Z; apply within_spec in Z; discriminate).
  split; [exact S1|]. split.
  - intros H. apply S1. apply (replaced_keeps _ _ _ _ "/" R2); [|exact H]. intros Z; apply within_spec in Z; discriminate.
  - unfold convert. destruct (String.eqb_spec infile "-") as [E|_]; [contradiction|]. rewrite P, target_eq. reflexivity.
Qed.

(** One fuzz target, named after the test, and one file per data block, numbered, in a directory
    of the corpus; no two of the same name. *)
Theorem C78_files : forall infile outdir lines name, infile <> "-" -> last_part infile name -> ~ holds "%" outdir -> ~ holds "%" name ->
  exists out target sub code corpus dir paths,
    parse_input lines = Ok out /\ replaced "unittest" "fuzzer" name target /\ replaced ".cc" "" target sub /\
    in_dir outdir target code /\ in_dir outdir "corpus" corpus /\ in_dir corpus sub dir /\
    List.length paths = List.length (cv_data out) /\
    (forall i p, nth_error paths i = Some p -> exists num, two_digits (N.of_nat i) num /\ in_dir dir (seed_name num) p) /\
    NoDup (code :: paths) /\
    convert infile outdir lines =
      (WriteText code (target_text name (cv_include out) (cv_code out)) ::
       flat_map (fun p => [MakeDir dir; WriteBytes (fst p) (snd p)]) (combine paths (cv_data out)), true).
Proof.
  intros infile outdir lines name M L PO PN. destruct (convert_is infile outdir lines name M L) as (out & target & sub & P & R1 & R2 & S1 & S2 & C).
  exists out, target, sub, (path_join outdir target), (path_join outdir "corpus"), (path_join (path_join outdir "corpus") sub), (seed_paths (path_join (path_join outdir "corpus") sub) 0 (cv_data out)).
  assert (D : ~ holds "%" (path_join (path_join outdir "corpus") sub)).
  { apply join_no; [apply join_no; [exact PO|intros Z; apply within_spec in Z; discriminate|discriminate]| |discriminate].
    intros H. apply PN. apply (replaced_keeps _ _ _ _ "%" R1); [intros Z; apply within_spec in Z; discriminate|].
    apply (replaced_keeps _ _ _ _ "%" R2); [intros Z; apply within_spec in Z; discriminate|exact H]. }
  split; [exact P|]. split; [exact R1|]. split; [exact R2|]. split; [apply join_spec, S1|].
  split; [apply join_spec; intros Z; apply within_spec in Z; discriminate|]. split; [apply join_spec, S2|]. split; [apply seed_paths_len|]. split; [|split].
  - intros i p I. apply seed_paths_nth in I. subst p. exists (two (N.of_nat i)). split; [apply two_spec|]. apply join_spec, seed_no_slash.
  - constructor; [|apply seed_paths_nodup]. intros I. apply In_nth_error in I. destruct I as (k & I). apply seed_paths_nth in I. exact (code_not_seed _ _ _ _ S1 S2 I).
  - rewrite C, seeds_eq by exact D. reflexivity.
Qed.
(** The names are determined. *)
Theorem C78_determined : (forall p a b, last_part p a -> last_part p b -> a = b) /\ (forall d n p q, in_dir d n p -> in_dir d n q -> p = q) /\
  (forall old new s a b, replaced old new s a -> replaced old new s b -> a = b) /\ (forall n m s, two_digits n s -> two_digits m s -> n = m).
Proof.
  split; [exact last_part_one|]. split; [exact in_dir_one|]. split; [exact replaced_one|].
  intros n m s [(u & U1 & U2) _] [(v & V1 & V2) _]. congruence.
Qed.
(** A test whose name does not contain the word is overwritten if the output directory is its own. *)
Theorem C78_overwrites_refuted : forall dir name infile lines, in_dir dir name infile -> ~ holds "/" name -> ~ holds "unittest" name -> infile <> "-" ->
  exists out effs ok, parse_input lines = Ok out /\ convert infile dir lines = (WriteText infile (target_text name (cv_include out) (cv_code out)) :: effs, ok).
Proof.
  intros dir name infile lines I S U M.
  assert (L : last_part infile name).
  { split; [exact S|]. destruct I as [[[->|(d & ->)] E]|(_ & _ & E)]; [left; exact E|right; exists d; rewrite E, app_assoc_s; reflexivity|right; exists dir; exact E]. }
  destruct (convert_is infile dir lines name M L) as (out & target & sub & P & R1 & R2 & S1 & S2 & C).
  rewrite (replaced_one _ _ _ _ _ R1 (replaced_none _ _ name U)) in *. rewrite (in_dir_one _ _ _ _ (join_spec dir name S) I) in C.
  exists out. destruct (write_seeds _ 0 (cv_data out)) as [e ok]. exists e, ok. split; [exact P|exact C].
Qed.
(** If the name of the output directory ends with a percent sign, no seed is written. *)
Theorem C78_percent_refuted : forall infile a lines out, infile <> "-" -> ~ holds "%" a -> parse_input lines = Ok out -> cv_data out <> [] ->
  exists code text, convert infile (a ++ "%") lines = ([WriteText code text], false).
Proof.
  intros infile a lines out M PA P D. destruct (convert_is infile (a ++ "%") lines _ M (basename_last infile)) as (out' & target & sub & P' & R1 & R2 & S1 & S2 & C).
  rewrite P in P'. injection P' as <-. destruct (cv_data out) as [|d ds]; [contradiction|]. cbn [write_seeds] in C.
  assert (F : exists r, path_join (path_join (path_join (a ++ "%") "corpus") sub) "unittest.%02i.bin" = a ++ "%/" ++ r).
  { assert (E : path_join (a ++ "%") "corpus" = (a ++ "%/") ++ "corpus").
    { unfold path_join. change (prefix "/" "corpus") with false. cbv iota. destruct (String.eqb_spec (a ++ "%") "") as [Z|_]; [destruct a; discriminate|].
      destruct (ends_with_slash (a ++ "%")) eqn:Z; [apply slash_spec in Z; destruct Z as (q & Z); apply last_char in Z; discriminate|]. cbn [orb]. rewrite !app_assoc_s. reflexivity. }
    rewrite E, (corpus_sub _ _ (no_slash_prefix _ S2)). destruct (join_pre ((a ++ "%/") ++ "corpus/" ++ sub)) as (pre & [-> | ->] & J); rewrite J by reflexivity; rewrite !app_assoc_s; eexists; reflexivity. }
  destruct F as (r & F). rewrite F, format_gap in C by exact PA. cbn in C. eauto.
Qed.
(** The standard input is never converted. *)
Theorem C78_stdin_refuted : forall outdir lines, convert "-" outdir lines = ([], false).
Proof. reflexivity. Qed.

(** ** Examples *)
(** test/h264_hrd_parameters_parser_unittest.cc, all lines, as in fuzz/Makefile: the target is
    fuzz/h264_hrd_parameters_parser_fuzzer.cc of the repository, byte for byte. *)
Definition hrd_test : list string := [
  ln "/*"; ln " *  Copyright (c) Facebook, Inc. and its affiliates."; ln " */"; ln ""; ln "#include ""h264_hrd_parameters_parser.h"""; ln "";
  ln "#include <gmock/gmock.h>"; ln "#include <gtest/gtest.h>"; ln ""; ln "#include ""h264_common.h"""; ln "#include ""rtc_common.h"""; ln "";
  ln "namespace h264nal {"; ln ""; ln "class H264HrdParametersParserTest : public ::testing::Test {"; ln " public:";
  ln "  H264HrdParametersParserTest() {}"; ln "  ~H264HrdParametersParserTest() override {}"; ln "};"; ln "";
  ln "TEST_F(H264HrdParametersParserTest, TestSampleHrdParameters601IDR) {"; ln "  // hrd_parameters"; ln "  // fuzzer::conv: data";
  ln "  const uint8_t buffer[] = {"; ln "      0x9a, 0x80, 0x00, 0x4c, 0x4b, 0x40, 0x00, 0x26,";
  ln "      0x25, 0xaf, 0xd6, 0xb8, 0x1e, 0x30, 0x62, 0x24"; ln "  };"; ln ""; ln "  // fuzzer::conv: begin"; ln "  auto hrd_parameters =";
  ln "      H264HrdParametersParser::ParseHrdParameters(buffer, arraysize(buffer));"; ln "  // fuzzer::conv: end"; ln "";
  ln "  EXPECT_TRUE(hrd_parameters != nullptr);"; ln ""; ln "  EXPECT_EQ(0, hrd_parameters->cpb_cnt_minus1);";
  ln "  EXPECT_EQ(3, hrd_parameters->bit_rate_scale);"; ln "  EXPECT_EQ(5, hrd_parameters->cpb_size_scale);";
  ln "  EXPECT_THAT(hrd_parameters->bit_rate_value_minus1,"; ln "              ::testing::ElementsAreArray({78124}));";
  ln "  EXPECT_THAT(hrd_parameters->cpb_size_value_minus1,"; ln "              ::testing::ElementsAreArray({78124}));";
  ln "  EXPECT_THAT(hrd_parameters->cbr_flag, ::testing::ElementsAreArray({0}));";
  ln "  EXPECT_EQ(31, hrd_parameters->initial_cpb_removal_delay_length_minus1);";
  ln "  EXPECT_EQ(21, hrd_parameters->cpb_removal_delay_length_minus1);"; ln "  EXPECT_EQ(21, hrd_parameters->dpb_output_delay_length_minus1);";
  ln "  EXPECT_EQ(24, hrd_parameters->time_offset_length);"; ln "}"; ln ""; ln "}  // namespace h264nal"].
Definition hrd_target : string :=
"/*
 *  Copyright (c) Facebook, Inc. and its affiliates.
 */

// This file was auto-generated using fuzz/converter.py from
// h264_hrd_parameters_parser_unittest.cc.
// Do not edit directly.

#include ""h264_hrd_parameters_parser.h""
#include ""h264_common.h""
#include ""rtc_common.h""


// libfuzzer infra to test the fuzz target
extern ""C"" int LLVMFuzzerTestOneInput(const uint8_t *data, size_t size) {
  // the code below is copied verbatim out of a unit test, where it sits
  // inside ""namespace h264nal"", and so refers to the project's types
  // unqualified. This entry point cannot: it has to be extern ""C"" at
  // global scope. Pull the namespace in rather than qualifying each name,
  // which would mean keeping a list of them here.
  using namespace h264nal;  // NOLINT(build/namespaces)
  // a test with no fuzzer::conv markers converts to an empty body
  (void)data;
  (void)size;
  {
  auto hrd_parameters =
      H264HrdParametersParser::ParseHrdParameters(data, size);
  }
  return 0;
}
".
Example C78_ex : convert "../test/h264_hrd_parameters_parser_unittest.cc" "./" hrd_test =
  ([WriteText "./h264_hrd_parameters_parser_fuzzer.cc" hrd_target; MakeDir "./corpus/h264_hrd_parameters_parser_fuzzer";
    WriteBytes "./corpus/h264_hrd_parameters_parser_fuzzer/unittest.00.bin" [154; 128; 0; 76; 75; 64; 0; 38; 37; 175; 214; 184; 30; 48; 98; 36]%N], true).
Proof. vm_compute. reflexivity. Qed.
(** The hypotheses of the theorems *)
Example C78_ex_names : last_part "../test/a_unittest.cc" "a_unittest.cc" /\ ~ holds "%" "./" /\ ~ holds "%" "a_unittest.cc".
Proof.
  split; [split; [|right; exists "../test"; reflexivity]|split]; intros Z; apply within_spec in Z; discriminate.
Qed.
Example C78_ex_overwrites : in_dir "." "t.cc" "./t.cc" /\ exists text effs, convert "./t.cc" "." hrd_test = (WriteText "./t.cc" text :: effs, true).
Proof.
  split; [right; split; [discriminate|split; [|reflexivity]]; intros [|c [|x d]] E; discriminate|]. eexists. eexists. vm_compute. reflexivity.
Qed.
Example C78_ex_percent : exists text, convert "t_unittest.cc" "out100%" hrd_test = ([WriteText "out100%/t_fuzzer.cc" text], false).
Proof. eexists. vm_compute. reflexivity. Qed.

Print Assumptions C78_files.
Print Assumptions C78_determined.
Print Assumptions C78_overwrites_refuted.
Print Assumptions C78_percent_refuted.
Print Assumptions C78_stdin_refuted.
