(** Property C75: fuzz/converter.py. *)
From Coq Require Import NArith List Bool String Ascii Lia.
From Verif Require Import Base PyText Converter SpecConverter ConverterProofs ConverterProofs2 ConverterProofs3 ConverterProofs4.
Import ListNotations.
Open Scope list_scope.
Open Scope string_scope.

Lemma tagged_kinds : forall lines ks, Forall2 kind_is lines ks -> combine ks lines = tagged lines.
Proof. intros lines ks F. induction F as [|l k lines ks H F IH]; [reflexivity|]. cbn [combine tagged map]. apply kind_iff in H. rewrite H. f_equal. exact IH. Qed.
Lemma kinds_exist : forall lines, Forall2 kind_is lines (map kind_of lines).
Proof. induction lines as [|l lines IH]; constructor; [apply kind_iff; reflexivity|exact IH]. Qed.
Lemma parse_input_is : forall lines, exists out, parse_input lines = Ok out /\
  cv_include out = kept_includes (inc_of lines) /\
  cv_data out = map (fun b => find_bytes 0 (join b)) (data_blocks (tagged lines)) /\
  cv_blocks out = unique [] (map (fun b => sub_calls 0 false (join b)) (code_blocks (tagged lines))) /\
  cv_code out = strip (Ascii.eqb lf) (join (map frame (cv_blocks out))).
Proof.
  intros lines. destruct (read_blocks lines [] [] [] [] [] false false) as (dm & cm & R). cbn [opened app] in R. unfold parse_input. rewrite R. cbn [rbind rd_includes rd_data rd_code].
  eexists. split; [reflexivity|]. repeat split.
Qed.
(** Every file is converted.  There is a seed for every data block: the byte literals in it. *)
Theorem C75_seeds : forall lines, exists ks out, Forall2 kind_is lines ks /\ parse_input lines = Ok out /\
  Forall2 (fun b s => seed_of (text_of_lines b) s) (data_blocks (combine ks lines)) (cv_data out).
Proof.
  intros lines. exists (map kind_of lines). destruct (parse_input_is lines) as (out & P & _ & D & _). exists out.
  pose proof (kinds_exist lines) as K. split; [exact K|]. split; [exact P|]. rewrite (tagged_kinds _ _ K), D.
  clear D. induction (data_blocks (tagged lines)) as [|b l IH]; cbn [map]; constructor; [apply find_seed|exact IH].
Qed.
(** The fuzz target: the include lines without those of the test framework; the code blocks with
    their buffers replaced, each different one once. *)
Theorem C75_code : forall lines, exists ks out codes, Forall2 kind_is lines ks /\ parse_input lines = Ok out /\
  (exists incs, chosen wanted_include lines incs /\ cv_include out = text_of_lines incs) /\
  Forall2 (fun b c => renamed (text_of_lines b) c) (code_blocks (combine ks lines)) codes /\ kept [] codes (cv_blocks out) /\
  cv_code out ++ (if cv_blocks out then "" else String (ascii_of_N 10) "") = text_of_lines (map bracketed (cv_blocks out)).
Proof.
  intros lines. exists (map kind_of lines). destruct (parse_input_is lines) as (out & P & I & _ & B & C). exists out.
  pose proof (kinds_exist lines) as K. exists (map (fun b => sub_calls 0 false (join b)) (code_blocks (tagged lines))). split; [exact K|]. split; [exact P|].
  split; [|split; [|split]].
  - eexists. split; [apply includes_chosen, inc_chosen|exact I].
  - rewrite (tagged_kinds _ _ K). clear B. induction (code_blocks (tagged lines)) as [|b l IH]; cbn [map]; constructor; [apply sub_calls_spec|exact IH].
  - rewrite B. apply (unique_kept _ []). constructor.
  - rewrite C. apply frames_strip.
Qed.

(** ** The specification determines the result *)
Lemma app_split : forall a a' b b', a ++ b = a' ++ b' -> String.length a = String.length a' -> a = a' /\ b = b'.
Proof.
  induction a as [|c a IH]; intros [|c' a'] b b' E L; try discriminate; [auto|]. cbn in E, L. injection E as <- E. injection L as L. destruct (IH a' b b' E L) as [-> ->]. auto.
Qed.
Lemma literal_inj : forall d d' r r', (d < 256)%N -> (d' < 256)%N -> literal d ++ r = literal d' ++ r' -> d = d' /\ r = r'.
Proof.
  intros d d' r r' L L' E. destruct (app_split _ _ _ _ E eq_refl) as [A B]. split; [|exact B].
  assert (X : literal_at (literal d ++ "") = Some d) by (apply literal_at_spec; eauto). assert (Y : literal_at (literal d' ++ "") = Some d') by (apply literal_at_spec; eauto).
  rewrite A, Y in X. congruence.
Qed.
Lemma call_inj : forall n g r n' g' r', is_call n g -> is_call n' g' -> call n g ++ r = call n' g' ++ r' -> r = r'.
Proof.
  intros n g r n' g' r' C C' E. assert (X : call_at (call n g ++ r) = Some (String.length (call n g))) by (apply call_at_spec; eauto 8).
  assert (Y : call_at (call n' g' ++ r') = Some (String.length (call n' g'))) by (apply call_at_spec; eauto 8). rewrite E, Y in X. injection X as X.
  destruct (app_split _ _ _ _ E (eq_sym X)) as [_ Q]. exact Q.
Qed.
Theorem C75_determined :
  (forall line, exists k, forall k', kind_is line k' <-> k' = k) /\ (forall s a b, seed_of s a -> seed_of s b -> a = b) /\
  (forall s a b, renamed s a -> renamed s b -> a = b) /\ (forall s a b, words_of s a -> words_of s b -> a = b).
Proof.
  split; [|split; [|split]].
  - intros line. exists (kind_of line). intros k. rewrite kind_iff. split; congruence.
  - intros s a b A. revert b. induction A as [s N|x d r ds L N S IH]; intros b B.
    + inversion B as [|y d' r' ds' L' N' S']; [reflexivity|subst]. exfalso. exact (N y d' r' L' eq_refl).
    + remember (x ++ literal d ++ r) as s eqn:E. destruct B as [s N'|y d' r' ds' L' N' S']; [exfalso; exact (N' x d r L E)|].
      assert (Q : String.length x = String.length y) by (specialize (N y d' r' L' eq_refl); specialize (N' x d r L E); lia).
      destruct (app_split _ _ _ _ E (eq_sym Q)) as [_ F]. destruct (literal_inj _ _ _ _ L' L F) as [<- <-]. f_equal. apply IH, S'.
  - intros s a b A. revert b. induction A as [s N|x n g r r' C S N R IH]; intros b B.
    + inversion B as [|y n' g' q q' C' S' N' R']; [reflexivity|subst]. exfalso. exact (N y n' g' q C' S' eq_refl).
    + remember (x ++ call n g ++ r) as s eqn:E. destruct B as [s N'|y n' g' q q' C' S' N' R']; [exfalso; exact (N' x n g r C S E)|].
      assert (Q : String.length x = String.length y) by (specialize (N y n' g' q C' S' eq_refl); specialize (N' x n g r C S E); lia).
      destruct (app_split _ _ _ _ E (eq_sym Q)) as [<- F]. rewrite (call_inj _ _ _ _ _ _ C' C F) in R'. rewrite (IH _ R'). reflexivity.
  - intros s a b A B. apply concat_inj; [exact (words_good _ _ A)|exact (words_good _ _ B)|]. rewrite <- (key_words _ _ A). apply key_words, B.
Qed.

(** ** When a seed is the buffer of the test *)
(** If there is nothing but the buffer between the two markers, its bytes are written with two
    small hexadecimal digits, and 0x occurs nowhere else, the seed is the buffer. *)
Definition count_data (ks : list kind) : nat := List.length (filter (fun k => match k with DataMark => true | _ => false end) ks).
Theorem C75_declared : forall before mark body stop after ks l last, kind_is mark DataMark -> Forall (fun x => kind_is x Text) body ->
  (kind_is stop BeginMark \/ kind_is stop Closing) -> Forall2 kind_is before ks ->
  text_of_lines body = declared l last -> Forall (fun p => ~ holds "0x" (fst p) /\ (snd p < 256)%N) l -> ~ holds "0x" last ->
  exists out, parse_input (before ++ mark :: body ++ stop :: after)%list = Ok out /\ nth_error (cv_data out) (count_data ks) = Some (map snd l).
Proof.
  intros before mark body stop after ks l last M B S K T L Z. destruct (parse_input_is (before ++ mark :: body ++ stop :: after)%list) as (out & P & _ & D & _).
  exists out. split; [exact P|]. rewrite D, nth_error_map. replace (nth_error _ _) with (Some body).
  - cbn [option_map]. f_equal. change (join body) with (text_of_lines body). rewrite T. apply find_declared; assumption.
  - symmetry. clear D P T L Z l last out. induction K as [|x k before ks H K IH].
    + cbn [app tagged map]. apply kind_iff in M. rewrite M. cbn [data_blocks count_data filter List.length nth_error]. f_equal.
      fold data_want. fold data_stop. induction B as [|x body X B IH].
      * cbn [app map up_to]. destruct S as [S|S]; apply kind_iff in S; rewrite S; reflexivity.
      * cbn [app map up_to]. apply kind_iff in X. rewrite X. cbn [data_stop of_kind filter fst data_want map snd]. f_equal. exact IH.
    + apply kind_iff in H. cbn [app tagged map]. fold (tagged (before ++ mark :: body ++ stop :: after)%list). rewrite H.
      destruct k; cbn [data_blocks count_data filter List.length nth_error]; exact IH.
Qed.

(** ** Examples *)
Definition ln (s : string) : string := s ++ String lf "".
(** test/h264_hrd_parameters_parser_unittest.cc:23-32 *)
Definition ex_hrd : list string := [ln "#include <gmock/gmock.h>"; ln "#include ""h264_common.h"""; ln "";
  ln "  // fuzzer::conv: data"; ln "  const uint8_t buffer[] = {"; ln "      0x9a, 0x80, 0x00, 0x4c, 0x4b, 0x40, 0x00, 0x26,"; ln "      0x25, 0xaf, 0xd6, 0xb8, 0x1e, 0x30, 0x62, 0x24";
  ln "  };"; ln ""; ln "  // fuzzer::conv: begin"; ln "  auto hrd_parameters ="; ln "      H264HrdParametersParser::ParseHrdParameters(buffer, arraysize(buffer));";
  ln "  // fuzzer::conv: end"; ln "  EXPECT_EQ(0xf0f, x);"].
Example C75_ex : parse_input ex_hrd = Ok (mkconverted (ln "#include ""h264_common.h""") [[154; 128; 0; 76; 75; 64; 0; 38; 37; 175; 214; 184; 30; 48; 98; 36]%N]
  [ln "  auto hrd_parameters =" ++ ln "      H264HrdParametersParser::ParseHrdParameters(data, size);"]
  (ln "  {" ++ ln "  auto hrd_parameters =" ++ ln "      H264HrdParametersParser::ParseHrdParameters(data, size);" ++ "  }")).
Proof. reflexivity. Qed.
Example C75_ex_declared : kind_is (ln "  // fuzzer::conv: data") DataMark /\ Forall (fun x => kind_is x Text) [ln "  const uint8_t b[] = {"; ln "    0x9a, 0x80"; ln "  };"] /\
  text_of_lines [ln "  const uint8_t b[] = {"; ln "    0x9a, 0x80"; ln "  };"] = declared [(ln "  const uint8_t b[] = {" ++ "    ", 154%N); (", ", 128%N)] (String lf (ln "  };")) /\
  kind_is (ln "  // fuzzer::conv: begin") BeginMark /\ ~ holds "0x" (ln "  const uint8_t b[] = {" ++ "    ").
Proof. split; [apply kind_iff; reflexivity|]. split; [repeat (apply Forall_cons; [apply kind_iff; reflexivity|]); apply Forall_nil|]. split; [reflexivity|]. split; [apply kind_iff; reflexivity|]. intros H. apply within_spec in H. discriminate H. Qed.
(** The same call in two layouts is kept once; other arguments make another block. *)
Example C75_ex_unique : unique [] (map (sub_calls 0 false) ["f(b1, arraysize(b1), 1);"; ln "f(b2," ++ "   arraysize(b2),  1); "; "f(b, arraysize(b), 2);"; "f(b, arraysize(c), 2);"]) =
  ["f(data, size, 1);"; "f(data, size, 2);"; "f(b, arraysize(c), 2);"].
Proof. reflexivity. Qed.

(** ** Seeds that are not the buffer *)
(** The closing line is only seen without indentation, so a data block goes on to the next
    marker.  In test/h264_sps_parser_unittest.cc:91-180 it takes bytes out of the sizes in a
    comment: 0x24 from 320x240 and 0x23 from 320x232. *)
Definition sps_excerpt : list string := [ln "  // fuzzer::conv: data"; ln "  const uint8_t buffer[] = {"; ln "      0x64, 0x00, 0x33, 0xac, 0x72, 0x84, 0x40, 0x78,"; ln "      0x02, 0x27, 0xe5, 0xc0, 0x44, 0x00, 0x00, 0x03,";
  ln "      0x00, 0x04, 0x00, 0x00, 0x03, 0x00, 0xf0, 0x3c,"; ln "      0x60, 0xc6, 0x11, 0x80"; ln "  };"; ln "  auto sps = H264SpsParser::ParseSps(buffer, arraysize(buffer));"; ln "";
  ln "  // Source: 601.264 (320x240, Baseline profile, no cropping)"; ln "  // - Expected resolution: 320x232 (240 - 2*4 = 232 with CropUnitY=2)"; ln "  //"; ln "  // fuzzer::conv: data"].
Theorem C75_sps_seed_refuted : exists out, parse_input sps_excerpt = Ok out /\ nth_error (cv_data out) 0 =
  Some [100; 0; 51; 172; 114; 132; 64; 120; 2; 39; 229; 192; 68; 0; 0; 3; 0; 4; 0; 0; 3; 0; 240; 60; 96; 198; 17; 128; 36; 35]%N.
Proof. eexists. split; [vm_compute; reflexivity|reflexivity]. Qed.
(** In test/h264_rtp_parser_unittest.cc:57-111 two packets become one seed. *)
Definition rtp_excerpt : list string := [ln "  // fuzzer::conv: data"; ln "  const uint8_t buffer1[] = {"; ln "      0x78,"; ln "  };";
  ln "  auto rtp = H264RtpParser::ParseRtp(buffer1, arraysize(buffer1),"; ln "                                     &bitstream_parser_state);";
  ln "  const uint8_t buffer2[] = {"; ln "      0x7c,  // rtp nal_header"; ln "      0x85,  // fu_header"; ln "  };"; ln "}"].
Theorem C75_two_buffers_refuted : exists out, parse_input rtp_excerpt = Ok out /\ cv_data out = [[120; 124; 133]%N].
Proof. eexists. split; [vm_compute; reflexivity|reflexivity]. Qed.
(** Bytes that are written in another way are left out: capital letters, one digit, decimal. *)
Theorem C75_notation_refuted : exists out, parse_input [ln "// fuzzer::conv: data"; ln "const uint8_t buffer[] = { 0xFF, 0x1, 7, 0x20 };"; ln "// fuzzer::conv: begin"] = Ok out /\ cv_data out = [[32%N]].
Proof. eexists. split; [vm_compute; reflexivity|reflexivity]. Qed.

Print Assumptions C75_seeds.
Print Assumptions C75_code.
Print Assumptions C75_determined.
Print Assumptions C75_declared.
Print Assumptions C75_sps_seed_refuted.
Print Assumptions C75_two_buffers_refuted.
Print Assumptions C75_notation_refuted.
