(** Property C79: the files that h264nal-split.py writes. *)
From Coq Require Import NArith List Bool Lia ZifyBool ZifyNat ZifyN String Ascii.
From Verif Require Import Base ToolText PyText Dump DumpProofs Split Converter SpecConverter ConverterProofs ConverterProofs2 ConverterProofs3 ConverterProofs4 PropsConverter
  ConverterFiles SpecConverterFiles ConverterProofs5 SplitFiles SpecSplitFiles SpecNalUnit PropsNalUnit PropsSplit SpecFraming.
Import ListNotations.
Open Scope list_scope.
Open Scope string_scope.

Lemma last_dot_spec : forall s, match last_dot s with
  | Some (a, e) => s = a ++ e /\ exists x, e = "." ++ x /\ ~ holds "." x
  | None => ~ holds "." s
  end.
Proof.
  induction s as [|c s IH]; cbn [last_dot]; [intros ([|y a] & b & E); discriminate|]. destruct (last_dot s) as [[a e]|].
  - destruct IH as [-> X]. split; [reflexivity|exact X].
  - destruct (Ascii.eqb_spec c ".") as [->|N].
    + split; [reflexivity|]. exists s. split; [reflexivity|exact IH].
    + intros ([|y a] & b & E); cbn [append] in E; injection E as E1 E2; [congruence|]. apply IH. exists a, b. exact E2.
Qed.
Lemma dots_spec : forall s, every (Ascii.eqb ".") s = true <-> only_dots s.
Proof. intros s. apply every_spec. intros c. apply Ascii.eqb_eq. Qed.
Lemma taken_app : forall d n, taken (String.length d) (d ++ n) = d.
Proof. induction d as [|c d IH]; intros n; [destruct n; reflexivity|]. cbn. rewrite IH. reflexivity. Qed.
Lemma last_dots : forall a x b y, ~ holds "." x -> ~ holds "." y -> a ++ "." ++ x = b ++ "." ++ y -> a = b /\ x = y.
Proof.
  induction a as [|c a IH]; intros x [|z b] y HX HY E; cbn [append] in E; injection E; intros.
  - subst. auto.
  - exfalso. apply HX. exists b, y. assumption.
  - exfalso. apply HY. exists a, x. symmetry. assumption.
  - subst. destruct (IH x b y HX HY) as [-> ->]; auto.
Qed.
Lemma dots_prefix : forall a b, only_dots (a ++ b) -> only_dots a.
Proof. induction a as [|c a IH]; intros b H; [constructor|]. inversion H; subst. constructor; [reflexivity|eapply IH; eassumption]. Qed.
Lemma prefix_len : forall b x a y, (String.length b <= String.length a)%nat -> b ++ x = a ++ y -> exists z, a = b ++ z.
Proof.
  induction b as [|c b IH]; intros x [|d a] y L E; cbn [String.length append] in *; [exists ""; reflexivity|eexists; reflexivity|lia|].
  injection E as -> E. destruct (IH x a y ltac:(lia) E) as (z & ->). exists z. reflexivity.
Qed.
Lemma dot_before : forall b x a y, ~ holds "." y -> b ++ "." ++ x = a ++ "." ++ y -> exists z, a = b ++ z.
Proof.
  intros b x a y H E. apply (prefix_len b ("." ++ x) a ("." ++ y)); [|exact E]. destruct (Compare_dec.le_lt_dec (String.length b) (String.length a)) as [L|L]; [exact L|]. exfalso.
  revert b L E. induction a as [|c a IH]; intros [|d b] L E; cbn [String.length append] in *; try lia; injection E as E1 E2.
  - apply H. exists b, x. symmetry. exact E2.
  - exact (IH b ltac:(lia) E2).
Qed.
Lemma name_parts_of : forall name, name_parts name (match last_dot name with Some (a, _) => if every (Ascii.eqb ".") a then name else a | None => name end)
  (match last_dot name with Some (a, e) => if every (Ascii.eqb ".") a then "" else e | None => "" end).
Proof.
  intros name. pose proof (last_dot_spec name) as S. destruct (last_dot name) as [[a e]|].
  - destruct S as (S & x & -> & X). destruct (every (Ascii.eqb ".") a) eqn:D.
    + split; [symmetry; apply app_nil_s|]. right. split; [reflexivity|]. intros b y E. rewrite S in E. apply dots_spec in D.
      destruct (dot_before b y a x X (eq_sym E)) as (z & ->). exact (dots_prefix _ _ D).
    + split; [exact S|]. left. exists x. split; [reflexivity|]. split; [exact X|]. intros H. apply dots_spec in H. congruence.
  - split; [symmetry; apply app_nil_s|]. right. split; [reflexivity|]. intros b x E. exfalso. apply S. exists b, x. exact E.
Qed.
Lemma name_parts_one : forall n a e a' e', name_parts n a e -> name_parts n a' e' -> a = a' /\ e = e'.
Proof.
  intros n a e a' e' [N [(x & E & X & D)|[E D]]] [N' [(x' & E' & X' & D')|[E' D']]]; subst e e'.
  - rewrite N in N'. destruct (last_dots _ _ _ _ X X' N') as [-> ->]. auto.
  - exfalso. apply D. apply (D' a x). exact N.
  - exfalso. apply D'. apply (D a' x'). exact N'.
  - rewrite app_nil_s in *. subst. auto.
Qed.
Lemma splitext_spec : forall p, path_parts p (fst (splitext p)) (snd (splitext p)).
Proof.
  intros p. pose proof (basename_last p) as L. assert (E : exists dir, p = dir ++ basename p).
  { destruct L as [_ [E|(d & E)]]; [exists ""; exact E|]. exists (d ++ "/"). rewrite app_assoc_s. exact E. }
  destruct E as (dir & E). exists dir, (basename p). pose proof (name_parts_of (basename p)) as N.
  unfold splitext. destruct (last_dot (basename p)) as [[a e]|].
  - destruct (every (Ascii.eqb ".") a); cbn [fst snd].
    + exists (basename p). auto.
    + exists a. split; [exact E|]. split; [exact L|]. split; [exact N|]. f_equal.
      replace (String.length p - String.length (basename p))%nat with (String.length dir) by (apply (f_equal String.length) in E; rewrite app_len in E; lia).
      transitivity (taken (String.length dir) (dir ++ basename p)); [f_equal; exact E|apply taken_app].
  - exists (basename p). auto.
Qed.
Lemma path_parts_one : forall p b e b' e', path_parts p b e -> path_parts p b' e' -> b = b' /\ e = e'.
Proof.
  intros p b e b' e' (d & n & a & P & L & N & B) (d' & n' & a' & P' & L' & N' & B'). pose proof (last_part_one _ _ _ L L'). subst n'.
  rewrite P in P'. apply app_inj_r in P'. subst d'. destruct (name_parts_one _ _ _ _ _ N N') as [-> ->]. subst. auto.
Qed.
Definition piece_paths (base ext : string) (i : N) (files : list (list N)) : list string := map fst (name_files base ext i files).
Lemma name_files_is : forall base ext files i, name_files base ext i files = combine (piece_paths base ext i files) files.
Proof. intros base ext. unfold piece_paths. induction files as [|f files IH]; intros i; [reflexivity|]. cbn [name_files map combine fst]. f_equal. apply IH. Qed.
Lemma piece_len : forall base ext files i, List.length (piece_paths base ext i files) = List.length files.
Proof. intros base ext. unfold piece_paths. induction files as [|f files IH]; intros i; [reflexivity|]. cbn. rewrite IH. reflexivity. Qed.
Lemma piece_nth : forall base ext files i k p, nth_error (piece_paths base ext i files) k = Some p -> p = base ++ "." ++ two (i + N.of_nat k + 1) ++ ext.
Proof.
  intros base ext. unfold piece_paths. induction files as [|f files IH]; intros i k p E; [destruct k; discriminate|]. destruct k as [|k]; cbn [name_files map nth_error fst] in E.
  - injection E as <-. rewrite N.add_0_r. reflexivity.
  - apply IH in E. rewrite E. do 4 f_equal. lia.
Qed.
Lemma piece_nodup : forall base ext files i, NoDup (piece_paths base ext i files).
Proof.
  intros base ext files. induction files as [|f files IH]; intros i; [constructor|]. change (piece_paths base ext i (f :: files)) with ((base ++ "." ++ two (i + 1) ++ ext) :: piece_paths base ext (i + 1) files).
  constructor; [|apply IH]. intros H. apply In_nth_error in H. destruct H as (k & H). apply piece_nth in H. apply app_inj, app_inj, app_inj_r, two_inj in H. lia.
Qed.

Lemma last_part_same : forall d n m, last_part (d ++ n) n -> ~ holds "/" m -> last_part (d ++ m) m.
Proof.
  intros d n m [_ L] M. split; [exact M|]. destruct L as [E|(q & E)].
  - left. assert (d = "") as -> by (apply (app_inj_r d "" n); exact E). reflexivity.
  - right. exists q. rewrite <- app_assoc_s in E. apply app_inj_r in E. subst d. apply app_assoc_s.
Qed.
Lemma piece_parts : forall i b x k, path_parts i b ("." ++ x) -> path_parts (b ++ "." ++ two k) b ("." ++ two k).
Proof.
  intros i b x k (d & n & a & P & L & [N [(y & _ & _ & D)|[E _]]] & B); [|discriminate]. exists d, (a ++ "." ++ two k), a. subst b.
  split; [apply app_assoc_s|]. split.
  - rewrite app_assoc_s. subst i. apply (last_part_same d n); [exact L|]. destruct L as [L _]. intros H. apply holds_app in H. destruct H as [H|H].
    + apply L. rewrite N. exact (holds_in _ a "" _ H).
    + apply (holds_app "/" ".") in H. destruct H as [H|H]; [apply within_spec in H; discriminate|exact (digits_no "/"%char _ eq_refl H)].
  - split; [|reflexivity]. split; [reflexivity|]. left. exists (two k). split; [reflexivity|]. split; [exact (digits_no "."%char _ eq_refl)|exact D].
Qed.
Lemma ext_cases : forall i b e, path_parts i b e -> i = b ++ e /\ (e = "" \/ exists x, e = "." ++ x /\ ~ holds "." x).
Proof.
  intros i b e (d & n & a & P & L & [N K] & B). split; [rewrite P, N, B, app_assoc_s; reflexivity|]. destruct K as [(x & E & X & _)|[E _]]; [right; eauto|left; exact E].
Qed.
Lemma piece_mixed : forall i b x j b' k l, ~ holds "." x -> path_parts i b ("." ++ x) -> path_parts j b' "" -> b ++ "." ++ two k ++ "." ++ x <> b' ++ "." ++ two l ++ "".
Proof.
  intros i b x j b' k l X P Q E. rewrite app_nil_s in E. replace (b ++ "." ++ two k ++ "." ++ x) with ((b ++ "." ++ two k) ++ "." ++ x) in E by (rewrite !app_assoc_s; reflexivity).
  destruct (last_dots _ _ _ _ X (digits_no "."%char _ eq_refl) E) as [B _]. subst b'. pose proof (ext_cases _ _ _ Q) as [J _]. rewrite app_nil_s in J. subst j.
  destruct (path_parts_one _ _ _ _ _ Q (piece_parts _ _ _ k P)) as [_ F]. discriminate.
Qed.
Lemma writes_piece : forall a input data ws p f, split_writes a input data = Ok ws -> In (p, f) ws ->
  exists k, p = fst (splitext input) ++ "." ++ two k ++ snd (splitext input).
Proof.
  intros a input data ws p f W I. unfold split_writes in W. destruct (split_script a input data) as [r| | | |] eqn:S; try discriminate. cbn [rbind] in W. injection W as <-.
  destruct r as [| |files]; try (destruct I). destruct (splitext input) as [base ext]. apply (in_map fst) in I. apply In_nth_error in I. destruct I as (k & I). apply piece_nth in I.
  eexists. exact I.
Qed.

(** The pieces are written, in order, to files whose names have the number of the piece before
    the extension; the names are different from each other and from the input. *)
Theorem C79_names : forall a input data files base ext, split_script a input data = Ok (SplitInto files) -> path_parts input base ext ->
  exists paths, split_writes a input data = Ok (combine paths files) /\ List.length paths = List.length files /\
    (forall i p, nth_error paths i = Some p -> exists num, two_digits (N.of_nat i + 1) num /\ p = base ++ "." ++ num ++ ext) /\
    NoDup (input :: paths).
Proof.
  intros a input data files base ext S P. destruct (path_parts_one _ _ _ _ _ (splitext_spec input) P) as [EB EX]. unfold split_writes. rewrite S. cbn [rbind].
  destruct (splitext input) as [b e] eqn:E. cbn [fst snd] in *. subst b e. exists (piece_paths base ext 0 files). split; [rewrite name_files_is; reflexivity|].
  split; [apply piece_len|]. split.
  - intros i p I. apply piece_nth in I. eexists. split; [|exact I]. apply two_spec.
  - constructor; [|apply piece_nodup]. intros I. apply In_nth_error in I. destruct I as (k & I). apply piece_nth in I.
    destruct P as (d & n & x & P & _ & [N _] & B). apply (f_equal String.length) in I. rewrite P, N, B, !app_len in I. cbn [String.length] in I. lia.
Qed.
(** They are in the directory of the input. *)
Theorem C79_directory : forall a input data ws p f, split_writes a input data = Ok ws -> In (p, f) ws ->
  exists dir name name', input = dir ++ name /\ p = dir ++ name' /\ last_part input name /\ last_part p name'.
Proof.
  intros a input data ws p f W I. destruct (writes_piece _ _ _ _ _ _ W I) as (k & E). pose proof (splitext_spec input) as P. destruct (splitext input) as [base ext]. cbn [fst snd] in *.
  destruct P as (d & n & x & P & L & [N _] & B). exists d, n, (x ++ "." ++ two k ++ ext).
  split; [exact P|]. split; [rewrite E, B, app_assoc_s; reflexivity|]. split; [exact L|]. rewrite E, B, app_assoc_s. apply (last_part_same d n); [rewrite <- P; exact L|].
  destruct L as [L _]. intros H. apply holds_app in H. destruct H as [H|H]; [apply L; rewrite N; exact (holds_in _ x "" ext H)|].
  apply (holds_app "/" ".") in H. destruct H as [H|H]; [apply within_spec in H; discriminate|]. apply holds_app in H. destruct H as [H|H]; [exact (digits_no "/"%char _ eq_refl H)|].
  apply L. rewrite N. pose proof (holds_in _ ext x "" H) as Q. rewrite app_nil_s in Q. exact Q.
Qed.
(** Pieces of different inputs have different names. *)
Theorem C79_apart : forall a i d ws p f a' i' d' ws' f', split_writes a i d = Ok ws -> In (p, f) ws ->
  split_writes a' i' d' = Ok ws' -> In (p, f') ws' -> i = i'.
Proof.
  intros a i d ws p f a' i' d' ws' f' W I W' I'. destruct (writes_piece _ _ _ _ _ _ W I) as (k & E). destruct (writes_piece _ _ _ _ _ _ W' I') as (l & E').
  pose proof (splitext_spec i) as P. pose proof (splitext_spec i') as P'. destruct (splitext i) as [b e], (splitext i') as [b' e']. cbn [fst snd] in *. rewrite E in E'. clear - E' P P'.
  destruct (ext_cases _ _ _ P) as [-> [->|(x & -> & X)]], (ext_cases _ _ _ P') as [-> [->|(x' & -> & X')]].
  - rewrite !app_nil_s in *. destruct (last_dots _ _ _ _ (digits_no "."%char _ eq_refl) (digits_no "."%char _ eq_refl) E') as [-> _]. reflexivity.
  - exfalso. exact (piece_mixed _ _ _ _ _ _ _ X' P' P (eq_sym E')).
  - exfalso. exact (piece_mixed _ _ _ _ _ _ _ X P P' E').
  - assert (F : (b ++ "." ++ two k) ++ "." ++ x = (b' ++ "." ++ two l) ++ "." ++ x') by (rewrite !app_assoc_s; exact E'). destruct (last_dots _ _ _ _ X X' F) as [F' ->].
    destruct (last_dots _ _ _ _ (digits_no "."%char _ eq_refl) (digits_no "."%char _ eq_refl) F') as [-> _]. reflexivity.
Qed.
(** With fewer than a hundred pieces the names are in the order of the pieces; the hundredth comes
    before the eleventh. *)
Lemma two_form : forall n, (n < 100)%N -> two n = String (ascii_of_N (48 + n / 10)) (String (ascii_of_N (48 + n mod 10)) "").
Proof.
  assert (C : forallb (fun n => String.eqb (two n) (String (ascii_of_N (48 + n / 10)) (String (ascii_of_N (48 + n mod 10)) ""))) (map N.of_nat (seq 0 100)) = true) by (vm_compute; reflexivity).
  intros n H. rewrite forallb_forall in C. apply String.eqb_eq, C, in_map_iff. exists (N.to_nat n). split; [lia|]. apply in_seq. lia.
Qed.
Lemma before_app : forall p a b, before a b -> before (p ++ a) (p ++ b).
Proof.
  intros p a b [(q & c & d & x & y & -> & -> & L)|(c & x & ->)]; [left|right].
  - exists (p ++ q), c, d, x, y. rewrite !app_assoc_s. auto.
  - exists c, x. rewrite app_assoc_s. reflexivity.
Qed.
Lemma before_digit : forall u v x y, (u < 10)%N -> (v < 10)%N -> (u < v)%N -> before (String (ascii_of_N (48 + u)) x) (String (ascii_of_N (48 + v)) y).
Proof. intros u v x y U V L. left. exists "", (ascii_of_N (48 + u)), (ascii_of_N (48 + v)), x, y. split; [reflexivity|]. split; [reflexivity|]. rewrite !N_ascii_embedding by lia. lia. Qed.
Lemma two_before : forall n m e, (n < m)%N -> (m < 100)%N -> before (two n ++ e) (two m ++ e).
Proof.
  intros n m e L H. rewrite !two_form by lia. cbn [append]. pose proof (N.div_mod n 10 ltac:(lia)). pose proof (N.div_mod m 10 ltac:(lia)).
  pose proof (N.mod_lt n 10 ltac:(lia)). pose proof (N.mod_lt m 10 ltac:(lia)). destruct (N.lt_trichotomy (n / 10) (m / 10)) as [T|[T|T]]; [apply before_digit; lia| |lia].
  rewrite T. apply (before_app (String (ascii_of_N (48 + m / 10)) "")). apply before_digit; lia.
Qed.
Lemma writes_nth : forall a input data ws i p, split_writes a input data = Ok ws -> nth_error (map fst ws) i = Some p ->
  p = fst (splitext input) ++ "." ++ two (N.of_nat i + 1) ++ snd (splitext input).
Proof.
  intros a input data ws i p W I. unfold split_writes in W. destruct (split_script a input data) as [r| | | |] eqn:S; try discriminate. cbn [rbind] in W. injection W as <-.
  destruct r as [| |files]; [destruct i; discriminate|destruct i; discriminate|]. destruct (splitext input) as [base ext]. exact (piece_nth base ext files 0 i p I).
Qed.
Theorem C79_order : forall a input data ws i j p q, split_writes a input data = Ok ws ->
  nth_error (map fst ws) i = Some p -> nth_error (map fst ws) j = Some q ->
  ((i < j < 99)%nat -> before p q) /\ (i = 99%nat -> j = 10%nat -> before p q).
Proof.
  intros a input data ws i j p q W I J. pose proof (writes_nth _ _ _ _ _ _ W I) as P. pose proof (writes_nth _ _ _ _ _ _ W J) as Q. rewrite P, Q. split.
  - intros L. apply before_app, (before_app "."), two_before; lia.
  - intros -> ->. apply before_app, (before_app "."), (before_app "1"). left. exists "", "0"%char, "1"%char. do 2 eexists. split; [reflexivity|]. split; [reflexivity|]. reflexivity.
Qed.
(** Otherwise nothing is written. *)
Theorem C79_nothing : forall a input data, split_script a input data = Ok SplitFailed \/ split_script a input data = Ok SplitNothing ->
  split_writes a input data = Ok [].
Proof. intros a input data [H|H]; unfold split_writes; rewrite H; reflexivity. Qed.
(** Every path has one extension. *)
Theorem C79_extension : (forall p, exists b e, path_parts p b e) /\ (forall p b e b' e', path_parts p b e -> path_parts p b' e' -> b = b' /\ e = e').
Proof. split; [intros p; exists (fst (splitext p)), (snd (splitext p)); apply splitext_spec|exact path_parts_one]. Qed.

(** A piece need not be readable on its own: the picture parameter set of its slices may be in an
    earlier piece.  The script fails when it is run on such a piece. *)
Definition ex_parts : list (bool * list N) * list (bool * list N) :=
  ([(true, ex_u_sps); (false, ex_u_pps); (false, ex_u_slice)], [(true, ex_set 20 15 None); (false, ex_u_slice)]).
Theorem C79_piece_alone_refuted : exists data files piece, fits true data /\ split_script true "in.264" data = Ok (SplitInto files) /\ In piece files /\
  forall name, split_script true name piece = Ok SplitFailed.
Proof.
  exists (SpecFraming.annexb (fst ex_parts ++ snd ex_parts)%list), [SpecFraming.annexb (fst ex_parts); SpecFraming.annexb (snd ex_parts)], (SpecFraming.annexb (snd ex_parts)).
  split; [fits_tac|]. split; [vm_compute; reflexivity|]. split; [right; left; reflexivity|]. intros name. vm_compute. reflexivity.
Qed.

(** ** Examples *)
Example C79_ex_parts : map splitext ["foo.264"; "a.b/foo"; "dir/.264"; "dir/..x.y"; "/x/foo.tar.gz"; "a."] =
  [("foo", ".264"); ("a.b/foo", ""); ("dir/.264", ""); ("dir/..x", ".y"); ("/x/foo.tar", ".gz"); ("a", ".")].
Proof. reflexivity. Qed.
Example C79_ex_hundred : let l := map fst (name_files "foo" ".264" 0 (repeat [] 100)) in
  nth 8 l "" = "foo.09.264" /\ nth 10 l "" = "foo.11.264" /\ nth 99 l "" = "foo.100.264".
Proof. vm_compute. auto. Qed.
Example C79_ex : split_writes true "dir/in.264" ex_same_size = Ok [("dir/in.01.264", SpecFraming.annexb [(true, ex_set 20 15 (Some (10, 11)%N))]); ("dir/in.02.264", SpecFraming.annexb [(false, ex_set 20 15 (Some (40, 33)%N))])].
Proof. vm_compute. reflexivity. Qed.

Print Assumptions C79_names.
Print Assumptions C79_directory.
Print Assumptions C79_apart.
Print Assumptions C79_order.
Print Assumptions C79_nothing.
Print Assumptions C79_extension.
Print Assumptions C79_piece_alone_refuted.
