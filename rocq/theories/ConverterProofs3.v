(** Proofs about the model of fuzz/converter.py: calls. *)
From Coq Require Import NArith Wf_nat List Bool String Ascii Lia.
From Verif Require Import Base PyText Converter SpecConverter ConverterProofs.
Import ListNotations.
Open Scope list_scope.
Open Scope string_scope.

Definition stops (f : ascii -> bool) (s : string) : Prop := match s with EmptyString => True | String c _ => f c = false end.
Lemma leading_is : forall f a r, every f a = true -> stops f r -> leading f (a ++ r) = a.
Proof.
  intros f. induction a as [|c a IH]; intros r A R; cbn [append].
  - destruct r as [|c r]; cbn in *; [reflexivity|]. rewrite R. reflexivity.
  - cbn [every leading] in *. apply andb_true_iff in A as [-> A]. rewrite IH by assumption. reflexivity.
Qed.
Lemma dropped_app : forall a r, dropped (String.length a) (a ++ r) = r.
Proof. induction a as [|c a IH]; intros; cbn; [destruct r; reflexivity|apply IH]. Qed.
Lemma leading_split : forall f s, s = leading f s ++ dropped (String.length (leading f s)) s /\ every f (leading f s) = true /\ stops f (dropped (String.length (leading f s)) s).
Proof.
  intros f. induction s as [|c s (E & A & R)]; [repeat split|]. cbn [leading]. destruct (f c) eqn:F; [|cbn; rewrite F; auto].
  cbn [append String.length dropped every]. rewrite F, A. rewrite <- E. auto.
Qed.
Lemma every_word : forall s, every word_char s = true <-> Forall word_charP (chars_of s).
Proof. intros. apply every_spec, word_spec. Qed.
Lemma call_at_spec : forall s n, call_at s = Some n <-> exists name g r, is_call name g /\ s = call name g ++ r /\ n = String.length (call name g).
Proof.
  assert (L : forall name g, String.length (call name g) = (String.length name + 1 + String.length g + String.length ("arraysize(" ++ name ++ ")"))%nat).
  { intros. unfold call. rewrite ?app_len. cbn [String.length]. lia. }
  intros s n. split.
  - unfold call_at. destruct (leading_split word_char s) as (E & A & _). set (name := leading word_char s) in *. set (rest := dropped (String.length name) s) in *.
    destruct name as [|c0 name0] eqn:EN; [discriminate|]. rewrite <- EN in *. destruct rest as [|c rest'] eqn:ER; [discriminate|].
    destruct (ascii_dec c ","%char) as [->|NC].
    2: { destruct c as [[] [] [] [] [] [] [] []]; try discriminate. congruence. }
    cbv zeta. destruct (leading_split white rest') as (E2 & A2 & _). set (sp := leading white rest') in *. set (rest2 := dropped (String.length sp) rest') in *.
    destruct (prefix _ rest2) eqn:P; [|discriminate]. apply prefix_spec in P as (r & P). intros X. injection X as <-.
    exists name, sp, r. split; [|split].
    + split; [split; [rewrite EN; discriminate|apply every_word, A]|apply every_blank, A2].
    + rewrite E, E2, P. unfold call. rewrite ?app_assoc_s. cbn [append]. rewrite ?app_assoc_s. reflexivity.
    + rewrite L. reflexivity.
  - intros (name & g & r & [[W0 W] G] & -> & ->). unfold call_at. apply every_word in W. apply every_blank in G.
    assert (E : call name g ++ r = name ++ String "," (g ++ ("arraysize(" ++ name ++ ")") ++ r)) by (unfold call; rewrite ?app_assoc_s; cbn [append]; rewrite ?app_assoc_s; reflexivity).
    rewrite E. rewrite (leading_is word_char name) by (auto; reflexivity). rewrite dropped_app.
    destruct name as [|c0 name0] eqn:EN; [congruence|]. rewrite <- EN in *. cbv zeta.
    rewrite (leading_is white g) by (auto; reflexivity). rewrite dropped_app.
    replace (prefix _ _) with true; [|symmetry; apply prefix_spec; exists r; reflexivity]. rewrite L. reflexivity.
Qed.

(** ** With the character before *)
Definition start_w (w : bool) (a : string) : Prop := at_start a /\ (a = "" -> w = false).
Inductive renamed_w : bool -> string -> string -> Prop :=
| rw_none : forall w s, (forall a n g r, is_call n g -> start_w w a -> s <> a ++ call n g ++ r) -> renamed_w w s s
| rw_next : forall w a n g r r', is_call n g -> start_w w a ->
    (forall a' n' g' r', is_call n' g' -> start_w w a' -> a ++ call n g ++ r = a' ++ call n' g' ++ r' -> (String.length a <= String.length a')%nat) ->
    renamed_w false r r' -> renamed_w w (a ++ call n g ++ r) (a ++ "data, size" ++ r').
Lemma start_false : forall a, start_w false a <-> at_start a.
Proof. intros. unfold start_w. tauto. Qed.
Lemma renamed_false : forall w s s', renamed_w w s s' -> w = false -> renamed s s'.
Proof.
  intros w s s' H. induction H as [w s N|w a n g r r' C S N _ IH]; intros ->.
  - apply renamed_none. intros a n g r C S. apply N; [exact C|apply start_false, S].
  - apply renamed_next; [exact C|apply start_false, S| |exact (IH eq_refl)]. intros a' n' g' x C' S'. apply N; [exact C'|apply start_false, S'].
Qed.
Lemma start_shift : forall w c a, start_w (word_char c) a <-> start_w w (String c a).
Proof.
  intros w c a. unfold start_w, at_start. split.
  - intros [A B]. split; [|discriminate]. intros [|x b] d E; cbn [append] in E; injection E as -> E.
    + intros K. apply word_spec in K. rewrite (B E) in K. discriminate.
    + exact (A b d E).
  - intros [A _]. split.
    + intros b d E. apply (A (String c b)). rewrite E. reflexivity.
    + intros ->. specialize (A "" c eq_refl). destruct (word_char c) eqn:W; [|reflexivity]. apply word_spec in W. contradiction.
Qed.
Lemma renamed_shift : forall (w : bool) c t t', (if w then None else call_at (String c t)) = None -> renamed_w (word_char c) t t' -> renamed_w w (String c t) (String c t').
Proof.
  intros w c t t' N H. assert (Z : forall n g r, is_call n g -> start_w w "" -> String c t <> call n g ++ r).
  { intros n g r C [_ S] E. rewrite (S eq_refl) in N. assert (call_at (String c t) = Some (String.length (call n g))) by (apply call_at_spec; exists n, g, r; auto). congruence. }
  inversion H as [w' s A|w' a n g r r' C S A R]; subst.
  - apply rw_none. intros [|x a] n g r C S E; [exact (Z n g r C S E)|]. cbn [append] in E. injection E as <- E. apply (A a n g r C); [apply start_shift in S; exact S|exact E].
  - change (String c (a ++ call n g ++ r)) with (String c a ++ call n g ++ r). change (String c (a ++ "data, size" ++ r')) with (String c a ++ "data, size" ++ r').
    apply rw_next; [exact C|apply start_shift, S| |exact R].
    intros [|x a'] n' g' x' C' S' E; [exfalso; exact (Z n' g' x' C' S' E)|]. cbn [append] in E. injection E as <- E. apply start_shift in S'. specialize (A a' n' g' x' C' S' E). cbn [String.length]. lia.
Qed.
Lemma sub_skip : forall s w c t, sub_calls (S (String.length s)) w (s ++ String c t) = sub_calls 0 (word_char c) t.
Proof. induction s as [|x s IH]; intros; [reflexivity|]. cbn [append String.length]. cbn [sub_calls]. exact (IH (word_char x) c t). Qed.
Lemma sub_renamed : forall s w, renamed_w w s (sub_calls 0 w s).
Proof.
  intros s. remember (String.length s) as n eqn:E. revert s E. induction n as [n IH] using lt_wf_ind. intros s -> w.
  destruct s as [|c t].
  { apply rw_none. intros [|x a] nm g r [[W _] _] _ E; [|discriminate]. destruct nm; [congruence|discriminate]. }
  cbn [sub_calls]. destruct (if w then None else call_at (String c t)) as [k|] eqn:K.
  - destruct w; [discriminate|]. apply call_at_spec in K as (nm & g & r & C & E & ->). rewrite E.
    assert (X : exists m, t = m ++ String ")" r /\ String.length (call nm g) = S (S (String.length m))).
    { destruct C as [[W _] _]. destruct nm as [|c0 nm]; [congruence|]. unfold call in *. cbn [append String.length] in *. injection E as -> E.
      exists (nm ++ "," ++ g ++ "arraysize(" ++ String c0 nm). split.
      - rewrite E. rewrite ?app_assoc_s. cbn [append]. rewrite ?app_assoc_s. cbn [append]. rewrite ?app_assoc_s. reflexivity.
      - rewrite ?app_len. cbn [String.length append]. rewrite ?app_len. cbn [String.length append]. rewrite ?app_len. cbn [String.length]. lia. }
    destruct X as (m & Em & Lm). rewrite Lm. replace (S (S (String.length m)) - 1)%nat with (S (String.length m)) by lia. rewrite Em, sub_skip.
    apply (rw_next false "" nm g r); [exact C| |intros; cbn; lia|].
    + split; [|reflexivity]. intros [|x b] d Q; discriminate.
    + change (word_char ")") with false. apply (IH (String.length r)); [|reflexivity]. rewrite Em. cbn [String.length]. rewrite app_len. cbn [String.length]. lia.
  - apply renamed_shift; [exact K|]. apply (IH (String.length t)); [cbn; lia|reflexivity].
Qed.
Lemma sub_calls_spec : forall s, renamed s (sub_calls 0 false s).
Proof. intros. eapply renamed_false; [apply sub_renamed|reflexivity]. Qed.
