(** Proofs about the model of fuzz/converter.py: the lines and the blocks. *)
From Coq Require Import NArith List Bool String Ascii Lia.
From Verif Require Import Base PyText Converter SpecConverter.
Import ListNotations.
Open Scope list_scope.
Open Scope string_scope.

Lemma app_nil_s : forall s, s ++ "" = s. Proof. induction s as [|c s IH]; cbn; [reflexivity|]. rewrite IH. reflexivity. Qed.
Lemma app_assoc_s : forall a b c, (a ++ b) ++ c = a ++ b ++ c. Proof. induction a as [|x a IH]; intros; cbn; [reflexivity|]. rewrite IH. reflexivity. Qed.
Lemma app_len : forall a b, String.length (a ++ b) = (String.length a + String.length b)%nat. Proof. induction a as [|x a IH]; intros; cbn; [reflexivity|]. rewrite IH. reflexivity. Qed.
Lemma app_inj : forall a b c, a ++ b = a ++ c -> b = c. Proof. induction a as [|x a IH]; cbn; intros b c E; [exact E|]. injection E as E. exact (IH _ _ E). Qed.

Lemma white_spec : forall c, white c = true <-> blank_char c.
Proof.
  intros c. unfold white, blank_char. set (n := N_of_ascii c). cbn [In]. rewrite orb_true_iff, !andb_true_iff, !N.leb_le. lia.
Qed.
Lemma word_spec : forall c, word_char c = true <-> word_charP c.
Proof.
  intros c. unfold word_char, word_charP, digit10. set (n := N_of_ascii c). cbv zeta. rewrite !orb_true_iff, !andb_true_iff, !N.leb_le, N.eqb_eq. lia.
Qed.
Lemma every_spec : forall f P s, (forall c, f c = true <-> P c) -> every f s = true <-> Forall P (chars_of s).
Proof.
  intros f P s H. induction s as [|c s IH]; cbn [every chars_of]; [split; constructor|]. rewrite andb_true_iff, IH, H. split.
  - intros [A B]. constructor; assumption.
  - intros F. inversion F; subst. auto.
Qed.
Lemma every_blank : forall s, every white s = true <-> blank s.
Proof. intros. apply every_spec, white_spec. Qed.
Lemma prefix_spec : forall p s, prefix p s = true <-> exists b, s = p ++ b.
Proof.
  induction p as [|c p IH]; intros s; [split; [exists s; reflexivity|destruct s; reflexivity]|]. destruct s as [|d s]; cbn [prefix append].
  - split; [discriminate|intros (b & E); discriminate].
  - destruct (ascii_dec c d) as [->|N].
    + rewrite IH. split; intros (b & E); exists b; [rewrite E; reflexivity|injection E as E; exact E].
    + split; [discriminate|]. intros (b & E). injection E as E _. congruence.
Qed.
Lemma within_spec : forall sub s, within sub s = true <-> holds sub s.
Proof.
  intros sub. induction s as [|c s IH]; cbn [within]; rewrite orb_true_iff.
  - rewrite prefix_spec. split.
    + intros [(b & E)|D]; [|discriminate]. exists "", b. exact E.
    + intros (a & b & E). left. destruct a as [|x a]; [|discriminate]. exists b. exact E.
  - rewrite prefix_spec, IH. split.
    + intros [(b & E)|(a & b & E)]; [exists "", b; exact E|exists (String c a), b; cbn; rewrite <- E; reflexivity].
    + intros (a & b & E). destruct a as [|x a]; [left; exists b; exact E|right]. injection E as _ E. exists a, b. exact E.
Qed.
Lemma include_spec : forall s, prefix "#include " s = true <-> include s.
Proof. intros. apply prefix_spec. Qed.
Lemma iff_false : forall (b : bool) P, (b = true <-> P) -> b = false <-> ~ P.
Proof. intros b P H. rewrite <- H. destruct b; intuition congruence. Qed.

(** ** Kinds *)
Definition kind_of (line : string) : kind :=
  if every white line then Blank else if prefix "#include " line then Text else if within data_mark line then DataMark
  else if line =? close_line then Closing else if within begin_mark line then BeginMark else if within end_mark line then EndMark else Text.
Lemma blank_holds : forall s sub, blank s -> holds sub s -> blank sub.
Proof.
  assert (X : forall a b, chars_of (a ++ b) = (chars_of a ++ chars_of b)%list) by (induction a as [|c a IH]; intros; cbn; [reflexivity|rewrite IH; reflexivity]).
  intros s sub B (a & b & ->). unfold blank in *. rewrite !X in B. apply Forall_app in B as [_ B]. apply Forall_app in B as [B _]. exact B.
Qed.
Lemma include_holds : forall s, include s -> holds "#include " s.
Proof. intros s (b & E). exists "", b. exact E. Qed.
Ltac mark_blank H := apply every_blank in H; vm_compute in H; discriminate H.
Lemma not_closing : forall sub, within sub close_line = false -> forall s, holds sub s -> s <> closing.
Proof. intros sub W s H ->. apply within_spec in H. change closing with close_line in H. congruence. Qed.
Lemma kind_iff : forall line k, kind_is line k <-> kind_of line = k.
Proof.
  intros line k. unfold kind_of.
  pose proof (every_blank line) as B. pose proof (include_spec line) as I. pose proof (within_spec data_mark line) as D.
  pose proof (within_spec begin_mark line) as G. pose proof (within_spec end_mark line) as E. pose proof (String.eqb_eq line close_line) as C.
  assert (B1 : blank line -> ~ holds data_mark line) by (intros X Y; pose proof (blank_holds _ _ X Y) as Z; mark_blank Z).
  assert (B2 : blank line -> ~ holds begin_mark line) by (intros X Y; pose proof (blank_holds _ _ X Y) as Z; mark_blank Z).
  assert (B3 : blank line -> ~ holds end_mark line) by (intros X Y; pose proof (blank_holds _ _ X Y) as Z; mark_blank Z).
  assert (B4 : blank line -> ~ include line) by (intros X Y; pose proof (blank_holds _ _ X (include_holds _ Y)) as Z; mark_blank Z).
  assert (B5 : blank line -> line <> closing) by (intros X ->; mark_blank X).
  pose proof (not_closing data_mark eq_refl line) as C1. pose proof (not_closing begin_mark eq_refl line) as C2. pose proof (not_closing end_mark eq_refl line) as C3.
  assert (C4 : include line -> line <> closing) by (intros Y; apply (not_closing "#include " eq_refl), include_holds, Y).
  change close_line with closing in *. change "fuzzer::conv: data" with data_mark in *. 
  destruct (every white line), (prefix "#include " line), (within data_mark line), (line =? closing), (within begin_mark line), (within end_mark line);
    destruct k; cbn [kind_is]; change "fuzzer::conv: data" with data_mark in *; change "fuzzer::conv: begin" with begin_mark in *; change "fuzzer::conv: end" with end_mark in *;
    (split; [intros; try reflexivity; exfalso|intros Q; try discriminate Q; clear Q]); intuition congruence.
Qed.

(** ** Blocks *)
Lemma add_last_app : forall D b x, add_last (D ++ [b])%list x = Ok (D ++ [(b ++ [x])%list])%list.
Proof.
  induction D as [|d D IH]; intros; [reflexivity|]. cbn [app add_last]. rewrite IH. destruct D; reflexivity.
Qed.
Definition opened (m : bool) (D : list (list string)) (b : list string) : list (list string) := if m then (D ++ [b])%list else D.
Definition inc_of (lines : list string) : list string := filter (fun l => negb (every white l) && prefix "#include " l) lines.
Definition data_stop (k : kind) := match k with DataMark | BeginMark | Closing => true | _ => false end.
Definition code_stop (k : kind) := match k with BeginMark | EndMark => true | _ => false end.
Definition data_want (k : kind) := match k with Text => true | _ => false end.
Definition code_want (k : kind) := match k with Text | Closing => true | _ => false end.
Definition tagged (lines : list string) : list (kind * string) := map (fun l => (kind_of l, l)) lines.
Lemma keep_ok : forall l inc D b C c dm cm, keep_line l (mkreading inc (opened dm D b) (opened cm C c) dm cm) =
  Ok (mkreading inc (opened dm D (b ++ [l])) (opened cm C (c ++ [l])) dm cm)%list.
Proof.
  intros. unfold keep_line. cbn [rd_data_mode rd_data rd_code_mode rd_code rd_includes]. destruct dm, cm; cbn [opened]; rewrite ?add_last_app; reflexivity.
Qed.
Lemma read_blocks : forall lines inc D b C c dm cm, exists dm' cm',
  read_lines lines (mkreading inc (opened dm D b) (opened cm C c) dm cm) =
  Ok (mkreading (inc ++ inc_of lines)
       (opened dm D (b ++ of_kind data_want (up_to data_stop (tagged lines))) ++ data_blocks (tagged lines))
       (opened cm C (c ++ of_kind code_want (up_to code_stop (tagged lines))) ++ code_blocks (tagged lines)) dm' cm')%list.
Proof.
  induction lines as [|l lines IH]; intros inc D b C c dm cm.
  - exists dm, cm. cbn. rewrite !app_nil_r. reflexivity.
  - cbn [read_lines tagged map]. fold (tagged lines). unfold read_line, inc_of, kind_of. cbn [filter]. fold (inc_of lines).
    cbn [rd_data_mode rd_data rd_code_mode rd_code rd_includes].
    destruct (every white l); cbn [negb andb rbind].
    { destruct (IH inc D b C c dm cm) as (dm' & cm' & R). exists dm', cm'. rewrite R. reflexivity. }
    destruct (prefix "#include " l).
    { rewrite keep_ok. cbn [rbind]. destruct (IH (inc ++ [l]) D (b ++ [l]) C (c ++ [l]) dm cm)%list as (dm' & cm' & R). exists dm', cm'. rewrite R.
      cbn [up_to data_stop code_stop data_blocks code_blocks of_kind filter fst data_want code_want map snd]. rewrite <- !app_assoc. reflexivity. }
    destruct (within data_mark l).
    { destruct (IH inc (opened dm D b) [] C c true cm) as (dm' & cm' & R). exists dm', cm'. change (opened dm D b ++ [[]])%list with (opened true (opened dm D b) []). cbn [rbind]. rewrite R.
      cbn [up_to data_stop code_stop data_blocks code_blocks of_kind filter fst data_want code_want map snd app opened]. fold data_want. fold data_stop. rewrite <- !app_assoc, ?app_nil_r. reflexivity. }
    destruct (l =? close_line).
    { change (opened dm D b) with (opened false (opened dm D b) []) at 1. rewrite keep_ok. cbn [rbind].
      destruct (IH inc (opened dm D b) ([] ++ [l]) C (c ++ [l]) false cm)%list as (dm' & cm' & R). exists dm', cm'. rewrite R.
      cbn [up_to data_stop code_stop data_blocks code_blocks of_kind filter fst data_want code_want map snd app opened]. rewrite <- !app_assoc, ?app_nil_r. reflexivity. }
    destruct (within begin_mark l).
    { destruct (IH inc (opened dm D b) [] (opened cm C c) [] false true) as (dm' & cm' & R). exists dm', cm'. cbn [rbind].
      change (mkreading inc (opened dm D b) (opened cm C c ++ [[]])%list false true) with (mkreading inc (opened false (opened dm D b) []) (opened true (opened cm C c) []) false true). rewrite R.
      cbn [up_to data_stop code_stop data_blocks code_blocks of_kind filter fst data_want code_want map snd app opened]. fold code_want. fold code_stop. rewrite <- !app_assoc, ?app_nil_r. reflexivity. }
    destruct (within end_mark l).
    { destruct (IH inc D b (opened cm C c) [] dm false) as (dm' & cm' & R). exists dm', cm'. cbn [rbind].
      change (mkreading inc (opened dm D b) (opened cm C c) dm false) with (mkreading inc (opened dm D b) (opened false (opened cm C c) []) dm false). rewrite R.
      cbn [up_to data_stop code_stop data_blocks code_blocks of_kind filter fst data_want code_want map snd app opened]. rewrite <- ?app_assoc, ?app_nil_r. reflexivity. }
    rewrite keep_ok. cbn [rbind]. destruct (IH inc D (b ++ [l]) C (c ++ [l]) dm cm)%list as (dm' & cm' & R). exists dm', cm'. rewrite R.
    cbn [up_to data_stop code_stop data_blocks code_blocks of_kind filter fst data_want code_want map snd]. rewrite <- !app_assoc. reflexivity.
Qed.
Lemma inc_chosen : forall lines, chosen include lines (inc_of lines).
Proof.
  induction lines as [|l lines IH]; [constructor|]. unfold inc_of. cbn [filter]. fold (inc_of lines).
  destruct (prefix "#include " l) eqn:P; [|rewrite andb_false_r; constructor; [|exact IH]; apply (iff_false _ _ (include_spec l)), P].
  apply include_spec in P. destruct (every white l) eqn:B; [|constructor; assumption]. exfalso.
  apply every_blank in B. pose proof (blank_holds _ _ B (include_holds _ P)) as Z. mark_blank Z.
Qed.
Lemma includes_chosen : forall lines r, chosen include lines r ->
  chosen wanted_include lines (filter (fun x => negb (within "gmock" x || within "gtest" x)) r).
Proof.
  intros lines r H. induction H as [|x l r I H IH|x l r I H IH]; [constructor| |constructor; [unfold wanted_include; tauto|exact IH]].
  cbn [filter]. pose proof (within_spec "gmock" x) as M. pose proof (within_spec "gtest" x) as T.
  destruct (within "gmock" x), (within "gtest" x); cbn [orb negb]; constructor; try exact IH; unfold wanted_include; intuition congruence.
Qed.
