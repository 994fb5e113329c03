(** Proofs about the model of fuzz/converter.py: words, different blocks and the code. *)
From Coq Require Import NArith Wf_nat List Bool String Ascii Lia.
From Verif Require Import Base PyText Converter SpecConverter ConverterProofs ConverterProofs3.
Import ListNotations.
Open Scope list_scope.
Open Scope string_scope.

Definition solid (c : ascii) : bool := negb (white c).
Lemma solid_spec : forall c, solid c = true <-> ~ blank_char c.
Proof. intros c. unfold solid. rewrite negb_true_iff. apply iff_false, white_spec. Qed.
Lemma every_solid : forall s, every solid s = true <-> Forall (fun c => ~ blank_char c) (chars_of s).
Proof. intros. apply every_spec, solid_spec. Qed.
Definition good_word (w : string) : Prop := w <> "" /\ every solid w = true.
Lemma starts_stops : forall r, starts_blank r <-> stops solid r.
Proof. intros [|c r]; cbn [starts_blank stops]; [tauto|]. unfold solid. rewrite negb_false_iff, white_spec. tauto. Qed.

Lemma squeeze_gap : forall g r, every white g = true -> squeeze true (g ++ r) = squeeze true r.
Proof. induction g as [|c g IH]; intros r H; [reflexivity|]. cbn [every append squeeze] in *. apply andb_true_iff in H as [-> H]. apply IH, H. Qed.
Lemma squeeze_word : forall w r b, w <> "" -> every solid w = true -> squeeze b (w ++ r) = w ++ squeeze false r.
Proof.
  induction w as [|c w IH]; intros r b N H; [congruence|]. cbn [every append squeeze] in *. apply andb_true_iff in H as [A H]. unfold solid in A. apply negb_true_iff in A. rewrite A.
  destruct w as [|d w]; [reflexivity|]. rewrite IH by (auto; discriminate). reflexivity.
Qed.
Lemma rstrip_word : forall w x, w <> "" -> every solid w = true -> rstrip white (w ++ x) = w ++ rstrip white x.
Proof.
  induction w as [|c w IH]; intros x N H; [congruence|]. cbn [every append rstrip] in *. apply andb_true_iff in H as [A H]. unfold solid in A. apply negb_true_iff in A.
  destruct w as [|d w].
  - cbn [append]. rewrite A. destruct (rstrip white x); reflexivity.
  - rewrite IH by (auto; discriminate). reflexivity.
Qed.
Fixpoint spaced (ws : list string) : string := match ws with [] => "" | w :: t => String " " (w ++ spaced t) end.
Lemma concat_spaced : forall w ws, String.concat " " (w :: ws) = w ++ spaced ws.
Proof.
  intros w ws. revert w. induction ws as [|v ws IH]; intros w; [cbn; rewrite app_nil_s; reflexivity|].
  change (String.concat " " (w :: v :: ws)) with (w ++ " " ++ String.concat " " (v :: ws)). rewrite IH. reflexivity.
Qed.
Lemma rest_spaced : forall r ws, words_of r ws -> starts_blank r -> rstrip white (squeeze false r) = spaced ws.
Proof.
  intros r ws H. induction H as [s B|g w r ws B N S R _ IH]; intros SB.
  - apply every_blank in B. destruct s as [|c s]; [reflexivity|]. cbn [every squeeze] in *. apply andb_true_iff in B as [-> B].
    rewrite <- (app_nil_s s), squeeze_gap by exact B. reflexivity.
  - apply every_blank in B. apply every_solid in S. destruct g as [|c g].
    { exfalso. destruct w as [|c w]; [congruence|]. cbn in SB, S. apply andb_true_iff in S as [S _]. apply solid_spec in S. contradiction. }
    cbn [every append squeeze] in *. apply andb_true_iff in B as [-> B]. rewrite squeeze_gap, squeeze_word by assumption. cbn [rstrip].
    rewrite rstrip_word by assumption. rewrite IH by exact R. destruct w; [congruence|reflexivity].
Qed.
Lemma key_words : forall s ws, words_of s ws -> key_of s = String.concat " " ws.
Proof.
  intros s ws H. unfold key_of, strip. inversion H as [s' B|g w r ws' B N S R W]; subst.
  - apply every_blank in B. destruct s as [|c s]; [reflexivity|]. cbn [every squeeze] in *. apply andb_true_iff in B as [-> B].
    rewrite <- (app_nil_s s), squeeze_gap by exact B. reflexivity.
  - apply every_blank in B. apply every_solid in S. rewrite concat_spaced.
    assert (E : lstrip white (squeeze false (g ++ w ++ r)) = w ++ squeeze false r).
    { assert (L : forall x, lstrip white (w ++ x) = w ++ x).
      { intros x. destruct w as [|c w]; [congruence|]. cbn [every append lstrip] in *. apply andb_true_iff in S as [S _]. unfold solid in S. apply negb_true_iff in S. rewrite S. reflexivity. }
      destruct g as [|c g]; cbn [append].
      - rewrite squeeze_word by assumption. apply L.
      - cbn [every squeeze] in *. apply andb_true_iff in B as [-> B]. rewrite squeeze_gap, squeeze_word by assumption. cbn [lstrip]. change (white " ") with true. cbv iota. apply L. }
    rewrite E, rstrip_word by assumption. rewrite (rest_spaced _ _ W R). reflexivity.
Qed.
Lemma words_good : forall s ws, words_of s ws -> Forall good_word ws.
Proof. intros s ws H. induction H as [|g w r ws _ N S _ _ IH]; constructor; [split; [exact N|apply every_solid, S]|exact IH]. Qed.
Lemma words_exist : forall s, exists ws, words_of s ws.
Proof.
  intros s. remember (String.length s) as n eqn:E. revert s E. induction n as [n IH] using lt_wf_ind. intros s ->.
  destruct (leading_split white s) as (E & B & R). set (g := leading white s) in *. set (r := dropped (String.length g) s) in *. clearbody g r.
  destruct r as [|c r].
  - exists []. apply words_end. rewrite E, app_nil_s. apply every_blank, B.
  - destruct (leading_split solid (String c r)) as (E2 & B2 & R2). set (w := leading solid (String c r)) in *. set (r2 := dropped (String.length w) (String c r)) in *.
    assert (N : w <> "") by (unfold w; cbn [leading]; unfold solid at 1; cbn in R; rewrite R; discriminate).
    destruct (IH (String.length r2)) with (s := r2) as (ws & W); [|reflexivity|].
    + rewrite E, app_len, E2, app_len. destruct w; [congruence|]. cbn [String.length]. lia.
    + exists (w :: ws). rewrite E, E2. apply words_cons; [apply every_blank, B|exact N|apply every_solid, B2|apply starts_stops, R2|exact W].
Qed.
Lemma spaced_inj : forall a b, Forall good_word a -> Forall good_word b -> spaced a = spaced b -> a = b.
Proof.
  induction a as [|x a IH]; intros [|y b] A B E; try discriminate; [reflexivity|]. cbn [spaced] in E. injection E as E.
  inversion A as [|? ? [X0 X] A']; inversion B as [|? ? [Y0 Y] B']; subst.
  assert (SX : forall l, stops solid (spaced l)) by (intros [|? ?]; reflexivity).
  assert (XY : x = y) by (rewrite <- (leading_is solid x (spaced a) X (SX a)), E; apply leading_is; [exact Y|apply SX]). subst y.
  apply app_inj in E. rewrite (IH b A' B' E). reflexivity.
Qed.
Lemma concat_inj : forall a b, Forall good_word a -> Forall good_word b -> String.concat " " a = String.concat " " b -> a = b.
Proof.
  intros [|x a] [|y b] A B E; [reflexivity| | |].
  - rewrite concat_spaced in E. inversion B as [|? ? [Y _] _]; subst. destruct y; [congruence|discriminate].
  - rewrite concat_spaced in E. inversion A as [|? ? [Y _] _]; subst. destruct x; [congruence|discriminate].
  - apply spaced_inj; [exact A|exact B|]. rewrite !concat_spaced in E. cbn [spaced]. rewrite E. reflexivity.
Qed.
Lemma unique_kept : forall codes seen, Forall (Forall good_word) seen -> kept seen codes (unique (map (String.concat " ") seen) codes).
Proof.
  induction codes as [|c t IH]; intros seen F; [constructor|]. cbn [unique]. destruct (words_exist c) as [ws W]. pose proof (words_good _ _ W) as G. rewrite (key_words _ _ W).
  destruct (existsb (String.eqb (String.concat " " ws)) (map (String.concat " ") seen)) eqn:X.
  - apply existsb_exists in X as (k & I & E). apply in_map_iff in I as (v & <- & I). apply String.eqb_eq in E. rewrite Forall_forall in F.
    assert (ws = v) by (apply concat_inj; auto). subst v. eapply kept_old; [exact W|exact I|]. apply IH. apply Forall_forall, F.
  - eapply kept_new; [exact W| |].
    + intros I. assert (Y : existsb (String.eqb (String.concat " " ws)) (map (String.concat " ") seen) = true); [|congruence].
      apply existsb_exists. exists (String.concat " " ws). split; [apply in_map, I|apply String.eqb_refl].
    + apply (IH (ws :: seen)). constructor; assumption.
Qed.
(** The line feed at the end of the code is removed, and nothing else *)
Lemma concat_cons : forall a l, String.concat "" (a :: l) = a ++ String.concat "" l.
Proof. intros a [|b l]; [cbn; rewrite app_nil_s; reflexivity|reflexivity]. Qed.
Lemma rstrip_frame : forall f a c x, f c = false -> rstrip f (a ++ String c x) = a ++ String c (rstrip f x).
Proof.
  intros f a c x H. induction a as [|d a IH]; cbn [append rstrip].
  - rewrite H. destruct (rstrip f x); reflexivity.
  - rewrite IH. destruct a; reflexivity.
Qed.
Lemma frames_end : forall l b, exists a, join (map frame (l ++ [b])%list) = a ++ "}" ++ String lf "".
Proof.
  induction l as [|c l IH]; intros b.
  - exists ("  {" ++ String lf (b ++ "  ")). unfold join, frame. cbn [map app String.concat append]. rewrite ?app_assoc_s. reflexivity.
  - destruct (IH b) as (a & E). cbn [app map]. unfold join in *. rewrite concat_cons, E. exists (frame c ++ a). rewrite app_assoc_s. reflexivity.
Qed.
Lemma frames_strip : forall l, strip (Ascii.eqb lf) (join (map frame l)) ++ (if l then "" else String lf "") = join (map frame l).
Proof.
  intros l. destruct l as [|b l] using rev_ind; [reflexivity|]. clear IHl. destruct (frames_end l b) as (a & E).
  assert (L : lstrip (Ascii.eqb lf) (join (map frame (l ++ [b])%list)) = join (map frame (l ++ [b])%list)).
  { destruct l as [|c l]; cbn [app map]; unfold join; rewrite concat_cons; reflexivity. }
  unfold strip. rewrite L, E. cbn [append]. rewrite rstrip_frame by reflexivity. change (rstrip (Ascii.eqb lf) (String lf "")) with "".
  destruct (l ++ [b])%list eqn:Q; [destruct l; discriminate|]. rewrite app_assoc_s. reflexivity.
Qed.
