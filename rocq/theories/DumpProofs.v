(** Dumps: text, words and layout. *)
From Coq Require Import NArith ZArith List Bool Lia ZifyBool ZifyNat ZifyN String Ascii
  DecimalString HexadecimalString DecimalN DecimalZ HexadecimalN.
From Verif Require Import Base SpecDump Dump.
Import ListNotations.
Open Scope N_scope.
Open Scope list_scope.

(** * Strings *)
Fixpoint all (f : ascii -> bool) (s : string) : bool :=
  match s with EmptyString => true | String c t => f c && all f t end.
Lemma all_app : forall f a b, all f (a ++ b)%string = all f a && all f b.
Proof. induction a as [|c a IH]; intros b; cbn [all append]; [reflexivity|]. rewrite IH. apply andb_assoc. Qed.
Lemma all_impl : forall (f g : ascii -> bool) s, (forall c, f c = true -> g c = true) -> all f s = true -> all g s = true.
Proof.
  induction s as [|c s IH]; intros H A; cbn [all] in *; [reflexivity|].
  apply andb_true_iff in A. destruct A as [A B]. rewrite (H _ A), IH; auto.
Qed.
Lemma app_nil_s : forall a, (a ++ "")%string = a.
Proof. induction a as [|c a IH]; cbn [append]; [reflexivity|]. rewrite IH. reflexivity. Qed.
Lemma app_assoc_s : forall a b c, ((a ++ b) ++ c)%string = (a ++ b ++ c)%string.
Proof. induction a as [|x a IH]; intros b c; cbn [append]; [reflexivity|]. rewrite IH. reflexivity. Qed.

(** A word; a word that is not a brace. *)
Definition solid (c : ascii) : bool := negb (is_white c).
Definition token (s : string) : bool := nonblank s && all solid s.
Definition plain (s : string) : bool := token s && negb (String.eqb "{" s) && negb (String.eqb "}" s).
Lemma plain_token : forall s, plain s = true -> token s = true.
Proof. intros s H. unfold plain in H. destruct (token s); [reflexivity|discriminate]. Qed.

(** ** Pieces *)
Lemma pieces_nonnil : forall sep s, exists p ps, pieces sep s = p :: ps.
Proof.
  intros sep s. induction s as [|c s (p & ps & E)]; cbn [pieces]; [eauto|].
  destruct (sep c); [eauto|]. rewrite E. eauto.
Qed.
Lemma pieces_sep : forall sep a c b, sep c = true -> pieces sep (a ++ String c b)%string = pieces sep a ++ pieces sep b.
Proof.
  intros sep a c b S. induction a as [|x a IH]; cbn [append pieces]; [rewrite S; reflexivity|].
  rewrite IH. destruct (sep x); [reflexivity|]. destruct (pieces_nonnil sep a) as (p & ps & ->). reflexivity.
Qed.
Lemma pieces_none : forall sep a, all (fun c => negb (sep c)) a = true -> pieces sep a = [a].
Proof.
  intros sep a. induction a as [|x a IH]; intros H; cbn [all pieces] in *; [reflexivity|].
  apply andb_true_iff in H. destruct H as [X A]. rewrite (IH A). destruct (sep x); [discriminate|reflexivity].
Qed.
Lemma words_sep : forall a c b, is_white c = true -> words (a ++ String c b)%string = words a ++ words b.
Proof. intros a c b W. unfold words. rewrite pieces_sep by auto. apply filter_app. Qed.
Lemma words_white : forall c b, is_white c = true -> words (String c b) = words b.
Proof. intros c b W. exact (words_sep "" c b W). Qed.
Lemma words_token : forall w, token w = true -> words w = [w].
Proof.
  intros w T. unfold token in T. apply andb_true_iff in T. destruct T as [N A]. unfold words.
  rewrite pieces_none by exact A. cbn [filter]. rewrite N. reflexivity.
Qed.
Lemma words_chars : forall n s, words (chars n space ++ s)%string = words s.
Proof. induction n as [|n IH]; intros s; cbn [chars append]; [reflexivity|]. rewrite words_white by reflexivity. apply IH. Qed.
Lemma words_concat : forall ws, Forall (fun w => token w = true) ws -> words (String.concat " " ws) = ws.
Proof.
  intros ws F. induction F as [|w ws T F IH]; [reflexivity|]. destruct ws as [|v ws].
  - cbn [String.concat]. apply words_token, T.
  - change (String.concat " " (w :: v :: ws)) with (w ++ String space (String.concat " " (v :: ws)))%string.
    rewrite words_sep by reflexivity. rewrite words_token, IH by exact T. reflexivity.
Qed.

(** * Dumps *)
Definition flat (d : dump) : list string := flat_map (fun l => match l with L _ ws => ws | Bad _ => [] end) d.
Lemma flat_app : forall a b, flat (a ++ b) = flat a ++ flat b.
Proof. intros. apply flat_map_app. Qed.
Lemma flat_deeper : forall a, flat (map deeper a) = flat a.
Proof. induction a as [|[d ws|k] a IH]; cbn [map flat flat_map deeper]; [reflexivity| |]; unfold flat in IH; rewrite IH; reflexivity. Qed.
Lemma flat_block : forall n a, flat (block n a) = n :: "{"%string :: flat a ++ ["}"%string].
Proof. intros. unfold block. change (L 0 [n; "{"%string] :: ?x) with ([L 0 [n; "{"%string]] ++ x). rewrite !flat_app, flat_deeper. reflexivity. Qed.

(** Lines that are well formed when [o] braces are open before and [e] after them. *)
Fixpoint lay (o : nat) (ls : dump) (e : nat) : Prop :=
  match ls with
  | [] => o = e
  | Bad _ :: _ => False
  | L d ws :: t =>
      let k := if starts_closing ws then 1%nat else 0%nat in
      (k <= o)%nat /\ (closes ws <= o + opens ws)%nat /\ d = (o - k)%nat /\
      Forall (fun w => token w = true) ws /\
      lay (o + opens ws - closes ws) t e
  end.
Lemma lay_app : forall a b o m e, lay o a m -> lay m b e -> lay o (a ++ b) e.
Proof.
  induction a as [|[d ws|k] a IH]; intros b o m e A B; cbn [app lay] in *; [subst; auto| |tauto].
  destruct A as (A1 & A2 & A3 & A4 & A5). repeat (split; [assumption|]). eapply IH; eauto.
Qed.
Lemma lay_deeper : forall a o e, lay o a e -> lay (S o) (map deeper a) (S e).
Proof.
  induction a as [|[d ws|k] a IH]; intros o e A; cbn [map deeper lay] in *; [subst; auto| |tauto].
  destruct A as (A1 & A2 & A3 & A4 & A5). split; [lia|]. split; [lia|].
  split; [destruct (starts_closing ws); lia|]. split; [assumption|].
  replace (S o + opens ws - closes ws)%nat with (S (o + opens ws - closes ws)) by lia. apply IH. exact A5.
Qed.
(** Complete structures. *)
Definition nice (d : dump) : Prop := lay 0 d 0.
Lemma nice_nil : nice [].
Proof. reflexivity. Qed.
Lemma nice_app : forall a b, nice a -> nice b -> nice (a ++ b).
Proof. intros a b A B. eapply lay_app; eauto. Qed.
Lemma nice_when : forall c d, (c = true -> nice d) -> nice (when c d).
Proof. intros [] d H; [apply H; reflexivity|apply nice_nil]. Qed.
Lemma plain_count : forall b ws, (b = "{"%string \/ b = "}"%string) -> Forall (fun w => plain w = true) ws -> count b ws = O.
Proof.
  intros b ws B F. unfold count. induction F as [|w ws P F IH]; [reflexivity|]. cbn [filter].
  unfold plain in P. destruct B; subst b.
  - destruct (String.eqb "{" w); [destruct (token w); discriminate|exact IH].
  - destruct (String.eqb "}" w); [destruct (token w), (String.eqb "{" w); discriminate|exact IH].
Qed.
Lemma count_app : forall b x y, count b (x ++ y) = (count b x + count b y)%nat.
Proof. intros. unfold count. rewrite filter_app, app_length. reflexivity. Qed.
Lemma plain_start : forall w ws, plain w = true -> starts_closing (w :: ws) = false.
Proof.
  intros w ws P. cbn [starts_closing]. unfold plain in P. rewrite String.eqb_sym.
  destruct (String.eqb "}" w); [|reflexivity]. rewrite andb_false_r in P. discriminate.
Qed.
(** A line that opens as many braces as it closes. *)
Lemma nice_line : forall w ws, plain w = true -> Forall (fun w => token w = true) ws ->
  opens ws = closes ws -> nice [L 0 (w :: ws)].
Proof.
  intros w ws P F E. unfold nice. cbn [lay]. rewrite (plain_start _ _ P).
  assert (O : opens (w :: ws) = opens ws).
  { unfold opens. change (w :: ws) with ([w] ++ ws). rewrite count_app, plain_count; auto. }
  assert (C : closes (w :: ws) = closes ws).
  { unfold closes. change (w :: ws) with ([w] ++ ws). rewrite count_app, plain_count; auto. }
  rewrite O, C, E. split; [lia|]. split; [lia|]. split; [reflexivity|].
  split; [constructor; auto using plain_token|]. cbn [lay]. lia.
Qed.
Lemma nice_empty : nice [L 0 []].
Proof. unfold nice. cbn. repeat split; auto. Qed.
Lemma nice_words : forall w ws, plain w = true -> Forall (fun w => plain w = true) ws -> nice [L 0 (w :: ws)].
Proof.
  intros w ws P F. apply nice_line; auto.
  - eapply Forall_impl; [|exact F]. intros a; apply plain_token.
  - unfold opens, closes. rewrite !plain_count; auto.
Qed.
Lemma nice_block : forall n d, plain n = true -> nice d -> nice (block n d).
Proof.
  intros n d P D. unfold nice, block. cbn [lay]. rewrite (plain_start _ _ P).
  assert (O : opens [n; "{"%string] = 1%nat).
  { unfold opens. change [n; "{"%string] with ([n] ++ ["{"%string]). rewrite count_app, plain_count; auto. }
  assert (C : closes [n; "{"%string] = 0%nat).
  { unfold closes. change [n; "{"%string] with ([n] ++ ["{"%string]). rewrite count_app, plain_count; auto. }
  rewrite O, C. split; [lia|]. split; [lia|]. split; [reflexivity|].
  split; [repeat constructor; auto using plain_token|]. cbn [Nat.add Nat.sub].
  eapply lay_app; [apply lay_deeper, D|]. cbn. repeat split; auto.
Qed.

(** ** The text *)
(** Lines whose words are words, and no undefined behaviour. *)
Definition printable (d : dump) : Prop :=
  Forall (fun l => match l with L _ ws => Forall (fun w => token w = true) ws | Bad _ => False end) d.
Lemma lay_printable : forall ls o e, lay o ls e -> printable ls.
Proof.
  unfold printable. induction ls as [|[d ws|k] t IH]; intros o e H; cbn [lay] in H; [constructor| |tauto].
  constructor; [tauto|]. eapply IH. apply H.
Qed.
Lemma nice_printable : forall d, nice d -> printable d.
Proof. intros d. apply lay_printable. Qed.
Lemma printable_app : forall a b, printable a -> printable b -> printable (a ++ b).
Proof. intros. apply Forall_app. auto. Qed.
Lemma printable_deeper : forall a, printable a -> printable (map deeper a).
Proof. intros a H. induction H as [|[d ws|k] t L H IH]; cbn [map deeper]; constructor; auto. Qed.
Lemma printable_block : forall n d, token n = true -> printable d -> printable (block n d).
Proof.
  intros n d N D. constructor; [repeat constructor; auto|]. apply Forall_app. split; [apply printable_deeper, D|].
  repeat constructor.
Qed.
Lemma token_app : forall a b, token a = true -> token b = true -> token (a ++ b) = true.
Proof.
  intros a b A B. unfold token in *. rewrite all_app. destruct a; [discriminate|]. cbn [append nonblank andb] in *.
  rewrite A. destruct (all solid b); [reflexivity|]. rewrite andb_false_r in B. discriminate.
Qed.
Lemma join_token : forall a b, Forall (fun w => token w = true) a -> Forall (fun w => token w = true) b ->
  Forall (fun w => token w = true) (join_words a b).
Proof.
  intros a b A B. induction A as [|x a X A IH]; cbn [join_words]; [exact B|]. destruct a as [|y a].
  - destruct B as [|z b Z B]; repeat constructor; auto using token_app.
  - constructor; auto.
Qed.
Lemma printable_glue : forall a b, printable a -> printable b -> printable (glue a b).
Proof.
  intros a b A B. induction A as [|l a X A IH]; cbn [glue]; [exact B|]. destruct l as [d ws|k]; [|tauto].
  destruct a as [|y a]; [|constructor; auto]. destruct B as [|l' b Y B]; [repeat constructor; auto|].
  destruct l' as [d' ws'|k']; [|tauto]. constructor; auto using join_token.
Qed.

Lemma render_rest_ok : forall level ls, printable ls -> exists s, render_rest level ls = Ok s.
Proof.
  intros level ls H. induction H as [|[d ws|k] t F H (s & E)]; cbn [render_rest]; [eauto| |tauto].
  rewrite E. cbn [rbind]. eauto.
Qed.
Lemma render_rest_head : forall level ls s, render_rest level ls = Ok s ->
  s = ""%string \/ exists c t, s = String c t /\ is_white c = true.
Proof.
  intros level [|[d ws|k] t] s H; cbn [render_rest] in H; [left; congruence| |discriminate].
  right. destruct (render_rest level t) as [r| |k| |]; cbn [rbind] in H; try discriminate.
  injection H as <-. unfold indent. destruct (level =? -1)%Z; cbn [append]; eexists _, _; split; reflexivity.
Qed.
Lemma words_app : forall a s, s = ""%string \/ (exists c t, s = String c t /\ is_white c = true) ->
  words (a ++ s)%string = words a ++ words s.
Proof.
  intros a s [->|(c & t & -> & W)].
  - rewrite app_nil_s. cbn. rewrite app_nil_r. reflexivity.
  - rewrite words_sep, words_white by exact W. reflexivity.
Qed.
Lemma words_indent : forall level d s, words (indent level d ++ s)%string = words s.
Proof.
  intros level d s. unfold indent. destruct (level =? -1)%Z; cbn [append];
  rewrite words_white by reflexivity; [reflexivity|apply words_chars].
Qed.
Lemma words_rest : forall level ls s, printable ls -> render_rest level ls = Ok s -> words s = flat ls.
Proof.
  intros level ls s H. revert s. induction H as [|[d ws|k] t F H IH]; intros s E; cbn [render_rest flat flat_map] in *;
    [injection E as <-; reflexivity| |tauto].
  destruct (render_rest level t) as [r| |k| |] eqn:R; cbn [rbind] in E; try discriminate.
  injection E as <-. rewrite words_indent, words_app by (eapply render_rest_head; eauto).
  rewrite words_concat by exact F. rewrite (IH _ eq_refl). reflexivity.
Qed.
(** Every such dump is printed, with the words of its lines. *)
Lemma render_printable : forall level d, printable d -> exists s, render level d = Ok s /\ words s = flat d.
Proof.
  intros level d H. destruct H as [|[k ws|k] t F H]; cbn [render]; [exists ""%string; auto| |tauto].
  destruct (render_rest_ok level _ H) as (s & E). rewrite E.
  cbn [rbind flat flat_map]. eexists. split; [reflexivity|].
  rewrite words_app by (eapply render_rest_head; eauto). rewrite words_concat by exact F.
  rewrite (words_rest _ _ _ H E). reflexivity.
Qed.

(** *** One line *)
Definition unbroken (c : ascii) : bool := negb (is_newline c).
Lemma one_line_all : forall s, all unbroken s = true -> one_line s.
Proof.
  induction s as [|c s IH]; cbn [all one_line]; [auto|]. intros H. apply andb_true_iff in H. destruct H as [C H].
  split; [|auto]. unfold unbroken in C. destruct (is_newline c); [discriminate|reflexivity].
Qed.
Lemma token_unbroken : forall w, token w = true -> all unbroken w = true.
Proof.
  intros w T. unfold token in T. apply andb_true_iff in T. destruct T as [_ A]. eapply all_impl; [|exact A].
  intros c. unfold solid, unbroken, is_white. destruct (is_newline c); auto.
Qed.
Lemma concat_unbroken : forall ws, Forall (fun w => token w = true) ws -> all unbroken (String.concat " " ws) = true.
Proof.
  intros ws F. induction F as [|w ws T F IH]; [reflexivity|]. destruct ws as [|v ws].
  - apply token_unbroken, T.
  - change (String.concat " " (w :: v :: ws)) with (w ++ String space (String.concat " " (v :: ws)))%string.
    rewrite all_app, token_unbroken by exact T. cbn [all]. rewrite IH. reflexivity.
Qed.
Lemma rest_unbroken : forall ls s, printable ls -> render_rest (-1) ls = Ok s -> all unbroken s = true.
Proof.
  intros ls s H. revert s. induction H as [|[d ws|k] t F H IH]; intros s E; cbn [render_rest] in *;
    [injection E as <-; reflexivity| |tauto].
  destruct (render_rest (-1) t) as [r| |k| |] eqn:R; cbn [rbind] in E; try discriminate.
  injection E as <-. unfold indent. change (-1 =? -1)%Z with true. cbn [append all].
  rewrite !all_app, concat_unbroken, (IH _ eq_refl) by exact F. reflexivity.
Qed.
Lemma printable_one_line : forall d s, printable d -> render (-1) d = Ok s -> one_line s.
Proof.
  intros d s H E. destruct H as [|[k ws|k] t F H]; cbn [render] in *; [injection E as <-; exact I| |tauto].
  destruct (render_rest (-1) t) as [r| |k'| |] eqn:R; cbn [rbind] in E; try discriminate.
  injection E as <-. apply one_line_all. rewrite all_app, concat_unbroken by exact F.
  rewrite (rest_unbroken _ _ H R). reflexivity.
Qed.

(** *** Several lines *)
Definition line_text (n : nat) (l : line) : string :=
  match l with L d ws => (chars (2 * (n + d)) space ++ String.concat " " ws)%string | Bad _ => ""%string end.
Lemma chars_unbroken : forall n, all unbroken (chars n space) = true.
Proof. induction n as [|n IH]; cbn [chars all]; [reflexivity|]. rewrite IH. reflexivity. Qed.
Lemma indent_at : forall n d, indent (Z.of_nat n) d = String newline (chars (2 * (n + d)) space).
Proof.
  intros n d. unfold indent. replace (Z.of_nat n =? -1)%Z with false by lia. rewrite Nat2Z.id. reflexivity.
Qed.
Lemma lines_first : forall n ls a s, all unbroken a = true -> printable ls ->
  render_rest (Z.of_nat n) ls = Ok s -> text_lines (a ++ s)%string = a :: map (line_text n) ls.
Proof.
  intros n ls a s A H. revert a s A. induction H as [|[d ws|k] t F H IH]; intros a s A E; cbn [render_rest map] in *.
  - injection E as <-. rewrite app_nil_s. apply pieces_none, A.
  - destruct (render_rest (Z.of_nat n) t) as [r| |k| |] eqn:R; cbn [rbind] in E; try discriminate.
    injection E as <-. rewrite indent_at. cbn [append]. unfold text_lines. rewrite pieces_sep by reflexivity.
    rewrite (pieces_none is_newline a) by exact A. rewrite <- app_assoc_s. cbn [app]. f_equal.
    apply IH; [|reflexivity].
    unfold line_text. rewrite all_app, chars_unbroken, concat_unbroken by exact F. reflexivity.
  - tauto.
Qed.
Lemma indentation_concat : forall ws, Forall (fun w => token w = true) ws -> indentation (String.concat " " ws) = O.
Proof.
  intros ws F. destruct F as [|w ws T F]; [reflexivity|]. unfold token in T. apply andb_true_iff in T. destruct T as [N A].
  destruct w as [|c w]; [discriminate|]. cbn [all] in A. apply andb_true_iff in A. destruct A as [C _].
  destruct ws; cbn [String.concat append indentation]; unfold solid, is_white in C; destruct (is_blank c), (is_newline c); try discriminate; reflexivity.
Qed.
Lemma indentation_chars : forall n s, indentation (chars n space ++ s)%string = (n + indentation s)%nat.
Proof.
  induction n as [|n IH]; intros s; cbn [chars append indentation]; [reflexivity|].
  change (is_blank space) with true. cbv iota. rewrite IH. reflexivity.
Qed.
Lemma lay_laid : forall n ls o, lay o ls 0 -> laid_out n o (map (line_text n) ls).
Proof.
  induction ls as [|[d ws|k] t IH]; intros o H; cbn [lay map laid_out line_text] in *; [auto| |tauto].
  destruct H as (H1 & H2 & H3 & F & H). rewrite words_chars, words_concat by exact F.
  split; [exact H1|]. split; [exact H2|]. split; [|apply IH, H].
  rewrite indentation_chars, indentation_concat by exact F. subst d. lia.
Qed.
Lemma nice_indented : forall n d s, nice d -> d <> [] -> render (Z.of_nat n) d = Ok s -> indented n s.
Proof.
  intros n [|[k ws|k] t] s H NE E; [congruence| |]; unfold nice in H; cbn [lay render] in *; [|tauto].
  destruct H as (H1 & H2 & H3 & F & H).
  destruct (render_rest (Z.of_nat n) t) as [r| |k'| |] eqn:R; cbn [rbind] in E; try discriminate.
  injection E as <-. unfold indented. rewrite (lines_first n t _ r); eauto using concat_unbroken, lay_printable.
  rewrite words_concat by exact F. split; [destruct (starts_closing ws); [lia|reflexivity]|].
  split; [apply indentation_concat, F|]. split; [lia|]. apply lay_laid. exact H.
Qed.

(** * Numbers *)
Definition digit (c : ascii) : bool := (48 <=? N_of_ascii c) && (N_of_ascii c <=? 57).
Lemma digits : forall d, all digit (DecimalString.NilEmpty.string_of_uint d) = true.
Proof. induction d; cbn [DecimalString.NilEmpty.string_of_uint all]; auto; rewrite IHd; reflexivity. Qed.
Definition number_char (c : ascii) : bool := digit c || Ascii.eqb c "-" || Ascii.eqb c "x" ||
  ((97 <=? N_of_ascii c) && (N_of_ascii c <=? 102)).
Lemma by_ascii : forall f : ascii -> bool, forallb (fun n => f (ascii_of_nat n)) (seq 0 256) = true -> forall c, f c = true.
Proof.
  intros f H c. rewrite forallb_forall in H. rewrite <- (ascii_nat_embedding c). apply H. apply in_seq.
  pose proof (nat_ascii_bounded c). lia.
Qed.
Lemma number_solid : forall c, number_char c = true -> solid c && negb (Ascii.eqb c "{") && negb (Ascii.eqb c "}") = true.
Proof.
  intros c H. assert (K : implb (number_char c) (solid c && negb (Ascii.eqb c "{") && negb (Ascii.eqb c "}")) = true).
  { revert c H. intros c _. revert c. apply by_ascii. vm_compute. reflexivity. }
  rewrite H in K. exact K.
Qed.
Lemma number_plain : forall s, s <> ""%string -> all number_char s = true -> plain s = true.
Proof.
  intros [|c s] N H; [congruence|]. unfold plain, token. cbn [nonblank andb].
  assert (S : all solid (String c s) = true).
  { eapply all_impl; [|exact H]. intros x X. apply number_solid in X. destruct (solid x); [reflexivity|discriminate]. }
  rewrite S. cbn [all] in H. apply andb_true_iff in H. destruct H as [C _]. apply number_solid in C.
  cbn [andb String.eqb]. rewrite (Ascii.eqb_sym "{" c), (Ascii.eqb_sym "}" c).
  destruct (solid c), (Ascii.eqb c "{"), (Ascii.eqb c "}"); try discriminate. reflexivity.
Qed.
Lemma digit_number : forall c, digit c = true -> number_char c = true.
Proof. intros c H. unfold number_char. rewrite H. reflexivity. Qed.
Lemma dec_inj : forall n m, dec n = dec m -> n = m.
Proof.
  intros n m H. unfold dec in H.
  assert (E : N.to_uint n = N.to_uint m).
  { pose proof (DecimalString.NilEmpty.usu (N.to_uint n)) as A. rewrite H, DecimalString.NilEmpty.usu in A. congruence. }
  rewrite <- (DecimalN.Unsigned.of_to n), <- (DecimalN.Unsigned.of_to m), E. reflexivity.
Qed.
Lemma deci_inj : forall n m, deci n = deci m -> n = m.
Proof.
  intros n m H. unfold deci in H.
  assert (E : Z.to_int n = Z.to_int m).
  { pose proof (DecimalString.NilEmpty.isi (Z.to_int n)) as A. rewrite H, DecimalString.NilEmpty.isi in A. congruence. }
  rewrite <- (DecimalZ.of_to n), <- (DecimalZ.of_to m), E. reflexivity.
Qed.
Lemma uint_empty : forall d, DecimalString.NilEmpty.string_of_uint d = ""%string -> d = Decimal.Nil.
Proof. intros d H. destruct d; cbn in H; congruence. Qed.
Lemma to_uint_nonnil : forall n, N.to_uint n <> Decimal.Nil.
Proof.
  intros n H. assert (n = 0) by (rewrite <- (DecimalN.Unsigned.of_to n), H; reflexivity). subst. discriminate.
Qed.
Lemma dec_plain : forall n, plain (dec n) = true.
Proof.
  intros n. apply number_plain.
  - intros H. apply uint_empty in H. apply (to_uint_nonnil n H).
  - eapply all_impl; [apply digit_number|]. apply digits.
Qed.
Lemma to_int_nonnil : forall z, Z.to_int z <> Decimal.Pos Decimal.Nil.
Proof.
  intros n H. assert (n = 0%Z) by (rewrite <- (DecimalZ.of_to n), H; reflexivity). subst. discriminate.
Qed.
Lemma deci_plain : forall z, plain (deci z) = true.
Proof.
  intros z. pose proof (to_int_nonnil z). unfold deci. destruct (Z.to_int z) as [d|d]; cbn [DecimalString.NilEmpty.string_of_int].
  - apply number_plain; [intros K; apply uint_empty in K; subst; tauto|]. eapply all_impl; [apply digit_number|]. apply digits.
  - apply number_plain; [discriminate|]. cbn [all]. apply andb_true_iff. split; [reflexivity|].
    eapply all_impl; [apply digit_number|]. apply digits.
Qed.

(** ** Hexadecimal numbers *)
Fixpoint zeros (n : nat) (d : Hexadecimal.uint) : Hexadecimal.uint :=
  match n with O => d | S k => Hexadecimal.D0 (zeros k d) end.
Lemma zeros_string : forall n d, (chars n "0" ++ HexadecimalString.NilEmpty.string_of_uint d)%string =
  HexadecimalString.NilEmpty.string_of_uint (zeros n d).
Proof. induction n as [|n IH]; intros d; cbn [chars append zeros HexadecimalString.NilEmpty.string_of_uint]; [reflexivity|]. rewrite IH. reflexivity. Qed.
Lemma zeros_value : forall n d, N.of_hex_uint (zeros n d) = N.of_hex_uint d.
Proof. induction n as [|n IH]; intros d; cbn [zeros]; [reflexivity|]. rewrite <- (IH d). reflexivity. Qed.
Lemma hex_chars : forall d, all number_char (HexadecimalString.NilEmpty.string_of_uint d) = true.
Proof. induction d; cbn [HexadecimalString.NilEmpty.string_of_uint all]; auto; rewrite IHd; reflexivity. Qed.
Lemma hex8_eq : forall n, exists k, hex8 n = ("0x" ++ HexadecimalString.NilEmpty.string_of_uint (zeros k (N.to_hex_uint n)))%string.
Proof. intros n. unfold hex8, padded, hexs. rewrite zeros_string. eauto. Qed.
Lemma hex8_inj : forall n m, hex8 n = hex8 m -> n = m.
Proof.
  intros n m H. destruct (hex8_eq n) as (i & Ei), (hex8_eq m) as (j & Ej). rewrite Ei, Ej in H. cbn [append] in H.
  injection H as H. apply (f_equal HexadecimalString.NilEmpty.uint_of_string) in H. rewrite !HexadecimalString.NilEmpty.usu in H.
  injection H as H. apply (f_equal N.of_hex_uint) in H. rewrite !zeros_value, !HexadecimalN.Unsigned.of_to in H. exact H.
Qed.
Lemma hex8_plain : forall n, plain (hex8 n) = true.
Proof.
  intros n. destruct (hex8_eq n) as (i & ->). apply number_plain; [discriminate|]. cbn [append all]. rewrite hex_chars. reflexivity.
Qed.

(** * Fields *)
Lemma nice_fld : forall k v, plain (k ++ ":") = true -> plain v = true -> nice (fld k v).
Proof. intros k v K V. apply nice_words; auto. Qed.
Lemma nice_fu : forall k n, plain (k ++ ":") = true -> nice (fu k n).
Proof. intros k n K. apply nice_fld, dec_plain. exact K. Qed.
Lemma nice_fi : forall k n, plain (k ++ ":") = true -> nice (fi k n).
Proof. intros k n K. apply nice_fld, deci_plain. exact K. Qed.
Lemma nice_fiu : forall k n, plain (k ++ ":") = true -> nice (fiu k n).
Proof. intros k n K. apply nice_fu, K. Qed.
Lemma plain_tokens : forall ws, Forall (fun w => plain w = true) ws -> Forall (fun w => token w = true) ws.
Proof. intros ws. apply Forall_impl. exact plain_token. Qed.
Lemma nice_flist : forall k vs, plain k = true -> Forall (fun w => token w = true) vs -> opens vs = closes vs -> nice (flist k vs).
Proof.
  intros k vs K F E. unfold flist. apply nice_line; auto.
  - constructor; [reflexivity|]. apply Forall_app. split; auto.
  - change ("{"%string :: vs ++ ["}"%string]) with (["{"%string] ++ vs ++ ["}"%string]).
    unfold opens, closes in *. rewrite !count_app, E. cbn. lia.
Qed.
Lemma nice_plain_list : forall k vs, plain k = true -> Forall (fun w => plain w = true) vs -> nice (flist k vs).
Proof.
  intros k vs K F. apply nice_flist; auto using plain_tokens. unfold opens, closes. rewrite !plain_count; auto.
Qed.
Lemma decs_plain : forall l, Forall (fun w => plain w = true) (map dec l).
Proof. intros l. induction l; cbn [map]; constructor; auto using dec_plain. Qed.
Lemma decis_plain : forall l, Forall (fun w => plain w = true) (map deci l).
Proof. intros l. induction l; cbn [map]; constructor; auto using deci_plain. Qed.
Lemma nice_fus : forall k l, plain k = true -> nice (fus k l).
Proof. intros. apply nice_plain_list; auto using decs_plain. Qed.
Lemma nice_fis : forall k l, plain k = true -> nice (fis k l).
Proof. intros. apply nice_plain_list; auto using decis_plain. Qed.
Lemma nice_fiss : forall k l, plain k = true -> nice (fiss k l).
Proof.
  intros k l K. apply nice_flist; auto.
  - induction l as [|v l IH]; cbn [flat_map]; [constructor|]. constructor; [reflexivity|].
    apply Forall_app. split; [|exact IH]. apply Forall_app. split; [apply plain_tokens, decis_plain|repeat constructor].
  - induction l as [|v l IH]; cbn [flat_map]; [reflexivity|].
    change ("{"%string :: map deci v ++ ["}"%string]) with (["{"%string] ++ map deci v ++ ["}"%string]).
    unfold opens, closes in *. rewrite !count_app, IH.
    rewrite !(plain_count _ (map deci v)) by auto using decis_plain. cbn. lia.
Qed.
Lemma nice_deref : forall A (o : option A) f, (exists a, o = Some a /\ nice (f a)) -> nice (deref o f).
Proof. intros A o f (a & -> & H). exact H. Qed.
Lemma nice_maybe : forall A (o : option A) f, (forall a, o = Some a -> nice (f a)) -> nice (maybe o f).
Proof. intros A [a|] f H; cbn [maybe]; [auto|apply nice_empty]. Qed.
Lemma nice_unimplemented : forall k, plain k = true -> nice (dump_unimplemented k).
Proof.
  intros k K. apply (nice_flist k ["unimplemented"%string] K); [repeat constructor|reflexivity].
Qed.
Ltac nice1 :=
  lazymatch goal with
  | |- nice (_ ++ _) => apply nice_app
  | |- nice (fu _ _) => apply nice_fu; reflexivity
  | |- nice (fi _ _) => apply nice_fi; reflexivity
  | |- nice (fiu _ _) => apply nice_fiu; reflexivity
  | |- nice (fus _ _) => apply nice_fus; reflexivity
  | |- nice (fis _ _) => apply nice_fis; reflexivity
  | |- nice (fiss _ _) => apply nice_fiss; reflexivity
  | |- nice (dump_unimplemented _) => apply nice_unimplemented; reflexivity
  | |- nice (block _ _) => apply nice_block; [reflexivity|]
  | |- nice (when _ _) => apply nice_when; intros ?
  | |- nice (fld _ (hex8 _)) => apply nice_fld; [reflexivity|apply hex8_plain]
  | |- nice [] => apply nice_nil
  | |- nice [L 0 []] => apply nice_empty
  | |- nice (if ?c then _ else _) => destruct c eqn:?
  end.
Ltac nices := repeat nice1.
