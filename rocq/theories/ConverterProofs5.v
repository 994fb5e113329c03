(** Proofs about the files that the converter writes (C78). *)
From Coq Require Import NArith List Bool Lia ZifyBool ZifyNat ZifyN String Ascii Wf_nat DecimalString DecimalN.
From Verif Require Import Base PyText Dump DumpProofs Converter SpecConverter ConverterProofs ConverterProofs2 ConverterProofs3 ConverterProofs4 ConverterFiles SpecConverterFiles.
Import ListNotations.
Open Scope list_scope.
Open Scope string_scope.

(** ** Names *)
Lemma basename_last : forall s, last_part s (basename s).
Proof.
  induction s as [|c s IH]; cbn [basename].
  - split; [|left; reflexivity]. intros ([|x a] & b & E); discriminate.
  - destruct (within "/" (String c s)) eqn:W.
    + destruct IH as [H [E|(d & E)]].
      * split; [exact H|]. right. apply within_spec in W. destruct W as ([|x a] & b & W); cbn [append] in W; injection W as W1 W2.
        -- exists "". rewrite W1, <- E. reflexivity.
        -- exfalso. apply H. rewrite <- E. exists a, b. exact W2.
      * split; [exact H|]. right. exists (String c d). rewrite E at 1. reflexivity.
    + split; [|left; reflexivity]. intros H. apply within_spec in H. congruence.
Qed.
Lemma last_part_one : forall p a b, last_part p a -> last_part p b -> a = b.
Proof.
  assert (X : forall d a e b, ~ holds "/" a -> ~ holds "/" b -> d ++ "/" ++ a = e ++ "/" ++ b -> a = b).
  { induction d as [|c d IH]; intros a [|y e] b HA HB E; cbn [append] in E; injection E; intros.
    - assumption.
    - exfalso. apply HA. exists e, b. assumption.
    - exfalso. apply HB. exists d, a. symmetry. assumption.
    - eapply IH; eauto. }
  intros p a b [HA [A|(d & A)]] [HB [B|(e & B)]].
  - congruence.
  - exfalso. apply HA. exists e, b. congruence.
  - exfalso. apply HB. exists d, a. congruence.
  - apply (X d _ e); congruence.
Qed.
Lemma replace_skip : forall old new s r, replace_from (String.length s) old new (s ++ r) = replace_from 0 old new r.
Proof. intros old new. induction s as [|c s IH]; intros r; [reflexivity|]. exact (IH r). Qed.
Lemma replaced_shift : forall old new c t t', (forall q, String c t <> old ++ q) -> replaced old new t t' -> replaced old new (String c t) (String c t').
Proof.
  intros old new c t t' Z R. destruct R as [t H|a r r' A R].
  - apply replaced_none. intros ([|x a] & b & F); [exact (Z b F)|]. cbn [append] in F. injection F as _ F. apply H. exists a, b. exact F.
  - apply (replaced_next old new (String c a) r r'); [|exact R]. intros [|x a'] q F; [exfalso; exact (Z q F)|]. cbn [append] in F. injection F as _ F.
    specialize (A a' q F). cbn [String.length]. lia.
Qed.
Lemma replace_spec : forall old new s, old <> "" -> replaced old new s (replace old new s).
Proof.
  intros old new s O. unfold replace. remember (String.length s) as n eqn:E. revert s E. induction n as [n IH] using lt_wf_ind. intros s ->.
  destruct (prefix old s) eqn:P.
  - pose proof P as Q. apply prefix_spec in Q. destruct Q as (r & ->). destruct old as [|c old]; [congruence|].
    cbn [append] in *. cbn [replace_from]. rewrite P. replace (String.length (String c old) - 1)%nat with (String.length old) by (cbn [String.length]; lia). rewrite replace_skip.
    apply (replaced_next (String c old) new "" r); [intros; cbn; lia|]. apply (IH (String.length r)); [|reflexivity]. cbn [String.length]. rewrite app_len. lia.
  - destruct s as [|c t].
    + apply replaced_none. intros H. apply within_spec in H. cbn in H. destruct old; [congruence|discriminate].
    + cbn [replace_from]. rewrite P. specialize (IH (String.length t) ltac:(cbn; lia) t eq_refl).
      assert (Z : forall q, String c t <> old ++ q) by (intros q F; assert (X : prefix old (String c t) = true) by (apply prefix_spec; eauto); congruence).
      apply replaced_shift; assumption.
Qed.
Lemma slash_spec : forall s, ends_with_slash s = true <-> exists d, s = d ++ "/".
Proof.
  induction s as [|c s IH]; [split; [discriminate|intros ([|x d] & E); discriminate]|]. destruct s as [|y s].
  - cbn. rewrite Ascii.eqb_eq. split; [intros ->; exists ""; reflexivity|]. intros ([|x d] & E); [injection E; auto|]. injection E as _ E. destruct d; discriminate.
  - change (ends_with_slash (String c (String y s))) with (ends_with_slash (String y s)). rewrite IH. split.
    + intros (d & E). exists (String c d). rewrite E. reflexivity.
    + intros ([|x d] & E); [discriminate|]. injection E as _ E. exists d. exact E.
Qed.
Lemma join_spec : forall a b, ~ holds "/" b -> in_dir a b (path_join a b).
Proof.
  intros a b H. unfold path_join. destruct (prefix "/" b) eqn:P.
  - exfalso. apply H. apply prefix_spec in P. destruct P as (q & ->). exists "", q. reflexivity.
  - destruct (String.eqb_spec a "") as [->|N]; cbn [orb]; [left; split; [left|]; reflexivity|].
    destruct (ends_with_slash a) eqn:S.
    + left. split; [|reflexivity]. right. apply slash_spec. exact S.
    + right. split; [exact N|]. split; [|reflexivity]. intros d E. assert (X : ends_with_slash a = true) by (apply slash_spec; eauto). congruence.
Qed.
Lemma in_dir_one : forall d n p q, in_dir d n p -> in_dir d n q -> p = q.
Proof.
  intros d n p q [[[A|(x & A)] P]|(A & A' & P)] [[[B|(y & B)] Q]|(B & B' & Q)]; try congruence.
Qed.
Lemma holds_app : forall x a b, holds (String x "") (a ++ b) -> holds (String x "") a \/ holds (String x "") b.
Proof.
  intros x. induction a as [|c a IH]; intros b H; [right; exact H|]. destruct H as ([|y u] & v & E); cbn [append] in E; injection E as E1 E2.
  - left. exists "", a. rewrite E1. reflexivity.
  - destruct (IH b) as [(u' & v' & ->)|H]; [exists u, v; exact E2| |right; exact H]. left. exists (String c u'), v'. reflexivity.
Qed.
Lemma holds_in : forall x a u v, holds x a -> holds x (u ++ a ++ v).
Proof. intros x a u v (s & t & ->). exists (u ++ s), (t ++ v). rewrite !app_assoc_s. reflexivity. Qed.
Lemma replaced_keeps : forall old new s r x, replaced old new s r -> ~ holds (String x "") new -> holds (String x "") r -> holds (String x "") s.
Proof.
  intros old new s r x R N. induction R as [s _|a r r' _ R IH]; intros H; [exact H|].
  apply holds_app in H. destruct H as [H|H]; [exact (holds_in _ a "" _ H)|]. apply holds_app in H. destruct H as [H|H]; [contradiction|].
  specialize (IH H). rewrite <- app_assoc_s. pose proof (holds_in _ r (a ++ old) "" IH) as X. rewrite app_nil_s in X. exact X.
Qed.

(** ** The text *)
Lemma target_eq : forall name out, substitute (values name out) 0 code_template = Ok (target_text name (cv_include out) (cv_code out)).
Proof. intros name [inc data blocks code]. vm_compute. reflexivity. Qed.

(** ** Numbers *)
Lemma two_spec : forall n, two_digits n (two n).
Proof.
  intros n. unfold two. destruct (N.ltb_spec n 10) as [H|H].
  - assert (C : (n = 0 \/ n = 1 \/ n = 2 \/ n = 3 \/ n = 4 \/ n = 5 \/ n = 6 \/ n = 7 \/ n = 8 \/ n = 9)%N) by lia.
    decompose [or] C; subst n; (split; [eexists; split; reflexivity|split; [cbn; lia|cbn; lia]]).
  - split; [exists (N.to_uint n); split; [apply NilEmpty.usu|apply Unsigned.of_to]|].
    assert (Z : forall u, N.to_uint n = Decimal.D0 u -> u = Decimal.Nil).
    { intros u E. pose proof (Unsigned.to_of (N.to_uint n)) as U. rewrite Unsigned.of_to, E in U. unfold Decimal.unorm in U. cbn [Decimal.nzhead] in U.
      destruct (Decimal.nzhead u) as [|v|v|v|v|v|v|v|v|v|v] eqn:F; try discriminate; [injection U; auto|]. exfalso. exact (DecimalFacts.nzhead_nonzero _ _ F). }
    pose proof (Unsigned.of_to n) as V. unfold dec. split.
    + destruct (N.to_uint n) as [|u|u|u|u|u|u|u|u|u|u] eqn:E; try (cbn in V; lia);
        (destruct u as [|u|u|u|u|u|u|u|u|u|u]; [cbn in V; lia|..]); cbn; lia.
    + intros L t T. destruct (N.to_uint n) as [|u|u|u|u|u|u|u|u|u|u] eqn:E; try discriminate. rewrite (Z u eq_refl) in V. cbn in V. lia.
Qed.
Lemma two_inj : forall n m, two n = two m -> n = m.
Proof.
  intros n m E. destruct (two_spec n) as [(u & U1 & U2) _]. destruct (two_spec m) as [(v & V1 & V2) _]. rewrite E in U1. congruence.
Qed.
Lemma app_inj_r : forall a b c, a ++ c = b ++ c -> a = b.
Proof.
  induction a as [|x a IH]; intros [|y b] c E; [reflexivity| | |].
  - apply (f_equal String.length) in E. rewrite !app_len in E. cbn in E. lia.
  - apply (f_equal String.length) in E. rewrite !app_len in E. cbn in E. lia.
  - cbn [append] in E. injection E as -> E. f_equal. exact (IH _ _ E).
Qed.
Lemma seed_name_inj : forall n m, seed_name (two n) = seed_name (two m) -> n = m.
Proof. intros n m E. unfold seed_name in E. apply app_inj, app_inj_r in E. exact (two_inj _ _ E). Qed.

(** ** Formatting *)
Lemma format_gap : forall d arg r, ~ holds "%" d -> format_number 0 arg (d ++ r) = rbind (format_number 0 arg r) (fun x => Ok (d ++ x)).
Proof.
  induction d as [|c d IH]; intros arg r H; [cbn [append]; destruct (format_number 0 arg r); reflexivity|]. cbn [append format_number].
  destruct (Ascii.eqb_spec c "%") as [->|_]; [exfalso; apply H; exists "", d; reflexivity|].
  rewrite IH by (intros (a & b & ->); apply H; exists (String c a), b; reflexivity). destruct (format_number 0 arg r); reflexivity.
Qed.
Lemma format_seed : forall i, format_number 0 (Some i) "unittest.%02i.bin" = Ok (seed_name (two i)).
Proof. intros i. unfold seed_name. remember (two i) as t eqn:T. cbn -[two append]. rewrite <- T. reflexivity. Qed.
Lemma join_seed : forall dir i, ~ holds "%" dir -> format_number 0 (Some i) (path_join dir "unittest.%02i.bin") = Ok (path_join dir (seed_name (two i))).
Proof.
  intros dir i H. unfold path_join. change (prefix "/" "unittest.%02i.bin") with false. change (prefix "/" (seed_name (two i))) with false. cbv iota.
  destruct ((dir =? "") || ends_with_slash dir).
  - rewrite format_gap, format_seed by exact H. reflexivity.
  - rewrite format_gap by exact H. rewrite (format_gap "/"), format_seed; [reflexivity|]. intros ([|x [|y a]] & b & E); discriminate.
Qed.
Lemma digits_no : forall x n, digit_char x = false -> ~ holds (String x "") (two n).
Proof.
  intros x n D. assert (Z : forall u, ~ holds (String x "") (NilEmpty.string_of_uint u)).
  { induction u; cbn [NilEmpty.string_of_uint]; intros ([|y a] & b & E); try discriminate; injection E as E1 E2; try (subst x; discriminate); apply IHu; exists a, b; exact E2. }
  unfold two. destruct (n <? 10)%N; [|apply Z]. intros H. apply (holds_app x "0") in H. destruct H as [([|y [|z a]] & b & E)|H]; [injection E as <- _; discriminate|discriminate|discriminate|exact (Z _ H)].
Qed.
Lemma seed_no_slash : forall n, ~ holds "/" (seed_name (two n)).
Proof.
  intros n H. unfold seed_name in H. apply holds_app in H. destruct H as [H|H]; [apply within_spec in H; discriminate|].
  apply holds_app in H. destruct H as [H|H]; [exact (digits_no "/"%char n eq_refl H)|apply within_spec in H; discriminate].
Qed.
(** The seeds *)
Fixpoint seed_paths (dir : string) (i : N) (seeds : list (list N)) : list string :=
  match seeds with [] => [] | _ :: t => path_join dir (seed_name (two i)) :: seed_paths dir (i + 1) t end.
Definition seed_effects (dir : string) (paths : list string) (seeds : list (list N)) : list effect :=
  flat_map (fun p => [MakeDir dir; WriteBytes (fst p) (snd p)]) (combine paths seeds).
Lemma seeds_eq : forall dir seeds i, ~ holds "%" dir -> write_seeds dir i seeds = (seed_effects dir (seed_paths dir i seeds) seeds, true).
Proof.
  intros dir seeds. induction seeds as [|d seeds IH]; intros i H; [reflexivity|]. cbn [write_seeds]. rewrite join_seed by exact H. rewrite IH by exact H. reflexivity.
Qed.
Lemma seed_paths_nth : forall dir seeds i k p, nth_error (seed_paths dir i seeds) k = Some p -> p = path_join dir (seed_name (two (i + N.of_nat k))).
Proof.
  intros dir seeds. induction seeds as [|d seeds IH]; intros i k p E; [destruct k; discriminate|]. destruct k as [|k]; cbn [seed_paths nth_error] in E.
  - injection E as <-. rewrite N.add_0_r. reflexivity.
  - apply IH in E. rewrite E. do 3 f_equal. lia.
Qed.
Lemma seed_paths_len : forall dir seeds i, List.length (seed_paths dir i seeds) = List.length seeds.
Proof. intros dir seeds. induction seeds as [|d seeds IH]; intros i; cbn; auto. Qed.
Lemma join_inj : forall d a b, prefix "/" a = false -> prefix "/" b = false -> path_join d a = path_join d b -> a = b.
Proof.
  intros d a b A B E. unfold path_join in E. rewrite A, B in E. destruct (_ || _); apply app_inj in E; [exact E|]. apply app_inj in E. exact E.
Qed.
Lemma seed_paths_nodup : forall dir seeds i, NoDup (seed_paths dir i seeds).
Proof.
  intros dir seeds. induction seeds as [|d seeds IH]; intros i; cbn [seed_paths]; constructor; [|apply IH].
  intros H. apply In_nth_error in H. destruct H as (k & H). apply seed_paths_nth in H. apply join_inj in H; [|reflexivity|reflexivity]. apply seed_name_inj in H. lia.
Qed.
Lemma no_slash_prefix : forall b, ~ holds "/" b -> prefix "/" b = false.
Proof. intros b H. destruct (prefix "/" b) eqn:P; [|reflexivity]. exfalso. apply H. apply prefix_spec in P. destruct P as (q & ->). exists "", q. reflexivity. Qed.
(** The code file is none of them. *)
Lemma join_pre : forall d, exists pre, (pre = d \/ pre = d ++ "/") /\ forall b, prefix "/" b = false -> path_join d b = pre ++ b.
Proof.
  intros d. unfold path_join. destruct ((d =? "") || ends_with_slash d) eqn:S.
  - exists d. split; [auto|]. intros b ->. reflexivity.
  - exists (d ++ "/"). split; [auto|]. intros b ->. rewrite app_assoc_s. reflexivity.
Qed.
Lemma last_char : forall a b x y, a ++ String x "" = b ++ String y "" -> x = y.
Proof.
  induction a as [|c a IH]; intros [|z b] x y Q; cbn [append] in Q; injection Q; intros; try (destruct a; discriminate); try (destruct b; discriminate); [assumption|eapply IH; eassumption].
Qed.
Lemma corpus_sub : forall o sub, prefix "/" sub = false -> path_join (o ++ "corpus") sub = o ++ "corpus/" ++ sub.
Proof.
  intros o sub P. unfold path_join. rewrite P. destruct (String.eqb_spec (o ++ "corpus") "") as [F|_]; [destruct o; discriminate|].
  destruct (ends_with_slash (o ++ "corpus")) eqn:S.
  - exfalso. apply slash_spec in S. destruct S as (d & S). change "corpus" with ("corpu" ++ "s") in S. rewrite <- app_assoc_s in S. apply last_char in S. discriminate.
  - cbn [orb]. rewrite app_assoc_s. reflexivity.
Qed.
Lemma code_not_seed : forall outdir name sub n, ~ holds "/" name -> ~ holds "/" sub ->
  path_join outdir name <> path_join (path_join (path_join outdir "corpus") sub) (seed_name (two n)).
Proof.
  intros outdir name sub n HN HS E. destruct (join_pre outdir) as (pre & _ & J). rewrite (J "corpus" eq_refl), (corpus_sub _ _ (no_slash_prefix _ HS)), (J _ (no_slash_prefix _ HN)) in E.
  destruct (join_pre (pre ++ "corpus/" ++ sub)) as (pre' & [-> | ->] & J'); rewrite J' in E by reflexivity; rewrite !app_assoc_s in E; apply app_inj in E;
    apply HN; exists "corpus"; rewrite E; eexists; reflexivity.
Qed.
