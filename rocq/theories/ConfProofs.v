(** All matches of an expression in a text in which words are separated by single spaces. *)
From Coq Require Import NArith ZArith List Bool Lia ZifyBool ZifyNat ZifyN String Ascii.
From Verif Require Import Base SpecDump Dump DumpProofs PyText PyText2 PyTextProofs.
Import ListNotations.
Open Scope N_scope.
Open Scope list_scope.

(** * Matches at all positions *)
Definition opt {A} (o : option A) : list A := match o with Some a => [a] | None => [] end.
Fixpoint all_matches {A} (P : bool -> string -> option A) (w : bool) (s : string) : list A :=
  opt (P w s) ++ match s with EmptyString => [] | String c t => all_matches P (word_char c) t end.
Lemma search_b_all : forall A (m : string -> option A) s w,
  search_b m w s = hd_error (all_matches (fun w s => if w then None else m s) w s).
Proof.
  intros A m s. induction s as [|c s IH]; intros w; cbn [search_b all_matches].
  - destruct w; [reflexivity|]. destruct (m EmptyString); reflexivity.
  - destruct w; [cbn [opt app]; apply IH|]. destruct (m (String c s)); [reflexivity|]. apply IH.
Qed.
Lemma all_matches_ext : forall A (P Q : bool -> string -> option A) s w, (forall w s, P w s = Q w s) -> all_matches P w s = all_matches Q w s.
Proof.
  intros A P Q s. induction s as [|c s IH]; intros w E; cbn [all_matches]; rewrite E; [reflexivity|]. rewrite (IH _ E). reflexivity.
Qed.
Lemma all_matches_map : forall A B (f : A -> B) (P : bool -> string -> option A) s w,
  all_matches (fun w s => option_map f (P w s)) w s = map f (all_matches P w s).
Proof.
  intros A B f P s. induction s as [|c s IH]; intros w; cbn [all_matches].
  - destruct (P w EmptyString); reflexivity.
  - rewrite map_app, IH. destruct (P w (String c s)); reflexivity.
Qed.
(** Matches do not overlap. *)
Definition sparse (m : bool -> string -> option nat) : Prop :=
  forall w s k, m w s = Some k -> (0 < k)%nat /\ forall j w', (0 < j < k)%nat -> m w' (dropped j s) = None.
Lemma findall_all : forall m, sparse m -> (forall w, m w ""%string = None) -> forall s skip w,
  (forall j w', (j < skip)%nat -> m w' (dropped j s) = None) ->
  findall m skip w s = List.length (all_matches m w s).
Proof.
  intros m SP E s. induction s as [|c s IH]; intros skip w N; cbn [findall all_matches].
  - rewrite E. reflexivity.
  - destruct skip as [|k].
    + destruct (m w (String c s)) as [[|k]|] eqn:M; cbn [opt app List.length].
      * destruct (SP _ _ _ M) as [X _]. lia.
      * f_equal. apply IH. intros j w' J. destruct (SP _ _ _ M) as [_ X]. exact (X (S j) w' ltac:(lia)).
      * apply IH. intros; lia.
    + pose proof (N O w ltac:(lia)) as Z. cbn [dropped] in Z. rewrite Z. cbn [opt app]. apply IH.
      intros j w' J. exact (N (S j) w' ltac:(lia)).
Qed.
Lemma str_in_all : forall sub s w, str_in sub s =
  match all_matches (fun _ s => if prefix sub s then Some tt else None) w s with [] => false | _ => true end.
Proof.
  intros sub s. induction s as [|c s IH]; intros w; cbn [str_in all_matches].
  - destruct (prefix sub EmptyString); reflexivity.
  - destruct (prefix sub (String c s)); [reflexivity|]. apply IH.
Qed.

(** * A label, a space, and something *)
Definition pat {A} (b : bool) (lab : string) (m : string -> option A) (w : bool) (s : string) : option A :=
  if b && w then None else after (lab ++ " ") m s.
(** The word ends with the label; if [b], the character before it is not in \w. *)
Fixpoint bends (b : bool) (lab : string) (w0 : bool) (w : string) : bool :=
  (negb (b && w0) && String.eqb lab w) || match w with EmptyString => false | String c t => bends b lab (word_char c) t end.
Lemma bends_ends : forall b lab w w0, ends lab w = false -> bends b lab w0 w = false.
Proof.
  intros b lab w. induction w as [|c w IH]; intros w0 E; cbn [ends bends] in *; apply orb_false_iff in E; destruct E as [E1 E2];
    rewrite E1, andb_false_r; [reflexivity|]. apply IH, E2.
Qed.
Lemma bends_short : forall b lab w w0, (String.length w < String.length lab)%nat -> bends b lab w0 w = false.
Proof.
  intros b lab w. induction w as [|c w IH]; intros w0 H; cbn [bends String.length] in *.
  - destruct (String.eqb_spec lab ""); [subst; cbn in H; lia|]. rewrite andb_false_r. reflexivity.
  - destruct (String.eqb_spec lab (String c w)); [subst; cbn in H; lia|]. rewrite andb_false_r. apply IH. lia.
Qed.
Lemma white_not_word : forall c, is_white c = true -> word_char c = false.
Proof.
  intros c W. unfold is_white, is_newline, is_blank in W. apply orb_true_iff in W.
  destruct W as [W|W]; apply Ascii.eqb_eq in W; subst c; reflexivity.
Qed.

Section labelled.
  Context {A : Type} (b : bool) (lab : string) (m : string -> option A).
  Context (SL : all solid lab = true) (NL : lab <> EmptyString).
  Let P := pat b lab m.
  Lemma matches_white : forall c t w0, is_white c = true -> all_matches P w0 (String c t) = all_matches P false t.
  Proof.
    intros c t w0 W. cbn [all_matches]. unfold P at 1, pat, after.
    change (prefix (lab ++ " ") (String c t)) with (prefix (lab ++ " ") ("" ++ String c t)).
    rewrite prefix_word by auto. rewrite (white_not_word c W). destruct lab; [congruence|]. cbn [String.eqb]. rewrite ?andb_false_r.
    destruct (b && w0); reflexivity.
  Qed.
  Lemma matches_word : forall w w0 c t, all solid w = true -> is_white c = true ->
    all_matches P w0 (w ++ String c t) =
    (if Ascii.eqb c " " && bends b lab w0 w then opt (m t) else []) ++ all_matches P false t.
  Proof.
    intros w. induction w as [|x w IH]; intros w0 c t SW W.
    - cbn [append]. rewrite matches_white by exact W. cbn [bends]. destruct lab; [congruence|]. cbn [String.eqb orb].
      rewrite !andb_false_r. reflexivity.
    - cbn [all] in SW. pose proof SW as SW'. apply andb_true_iff in SW'. destruct SW' as [_ SW'].
      cbn [append all_matches bends]. rewrite IH by auto. unfold P at 1, pat, after.
      change (String x (w ++ String c t)) with (String x w ++ String c t)%string.
      rewrite prefix_word by auto. destruct (String.eqb_spec lab (String x w)) as [E|NE]; cbn [orb andb].
      + rewrite (bends_short b lab w) by (rewrite E; cbn [String.length]; lia). rewrite orb_false_r, andb_true_r, andb_false_r.
        destruct (Ascii.eqb_spec c " ") as [->|NC]; cbn [andb].
        * destruct (b && w0); cbn [negb opt app]; [reflexivity|].
          assert (D : dropped (String.length (lab ++ " ")) (String x w ++ String " " t) = t).
          { rewrite <- E. replace (lab ++ String " " t)%string with ((lab ++ " ") ++ t)%string by (rewrite app_assoc_s; reflexivity).
            apply dropped_app. }
          rewrite D. reflexivity.
        * destruct (b && w0); reflexivity.
      + rewrite andb_false_r. cbn [orb]. destruct (b && w0); reflexivity.
  Qed.
  Lemma matches_solid : forall w w0, all solid w = true -> all_matches P w0 w = [].
  Proof.
    assert (X : forall l v, all solid v = true -> prefix (l ++ " ") v = false).
    { induction l as [|x l IH]; intros [|y v] SV; cbn [append prefix]; auto.
      - cbn [all] in SV. apply andb_true_iff in SV. destruct SV as [SY _].
        destruct (ascii_dec " " y) as [<-|N]; [discriminate SY|reflexivity].
      - destruct (ascii_dec x y); [|reflexivity]. cbn [all] in SV. apply andb_true_iff in SV. apply IH, SV. }
    intros w. induction w as [|x w IH]; intros w0 SW; cbn [all_matches]; unfold P at 1, pat, after; rewrite X by exact SW.
    - destruct (b && w0); reflexivity.
    - cbn [all] in SW. apply andb_true_iff in SW. rewrite IH by apply SW. destruct (b && w0); reflexivity.
  Qed.
  (** The matches in a line of words, [r] is what follows *)
  Fixpoint wm (ws : list string) (r : string) : list A :=
    match ws with
    | w :: ((_ :: _) as t) => (if bends b lab false w then opt (m (String.concat " " t ++ r)) else []) ++ wm t r
    | _ => []
    end.
  Lemma matches_line : forall ws r, Forall (fun w => all solid w = true) ws -> newline_start r ->
    all_matches P false (String.concat " " ws ++ r) = wm ws r ++ all_matches P false r.
  Proof.
    intros ws r F N. induction F as [|w ws S F IH]; [reflexivity|].
    destruct ws as [|v ws].
    - cbn [String.concat wm]. destruct N as [->|(t & ->)].
      + rewrite app_nil_s, matches_solid by exact S. symmetry. exact (matches_solid "" false eq_refl).
      + rewrite matches_word by auto. cbn [andb app]. symmetry. apply matches_white. reflexivity.
    - change (String.concat " " (w :: v :: ws)) with (w ++ String space (String.concat " " (v :: ws)))%string.
      rewrite app_assoc_s. cbn [append]. rewrite matches_word by (auto; reflexivity).
      change (Ascii.eqb space " ") with true. cbn [andb]. rewrite IH.
      change (wm (w :: v :: ws) r) with ((if bends b lab false w then opt (m (String.concat " " (v :: ws) ++ r)) else []) ++ wm (v :: ws) r).
      rewrite app_assoc. reflexivity.
  Qed.
  Lemma wm_skip : forall a ws r, Forall (fun w => bends b lab false w = false) a -> wm (a ++ ws) r = wm ws r.
  Proof.
    intros a ws r F. induction F as [|w a E F IH]; [reflexivity|]. cbn [app].
    destruct (a ++ ws) as [|v t] eqn:X; [cbn [wm]; exact IH|].
    change (wm (w :: v :: t) r) with ((if bends b lab false w then opt (m (String.concat " " (v :: t) ++ r)) else []) ++ wm (v :: t) r).
    rewrite E. exact IH.
  Qed.
  (** What [m] says about a text depends on the first word. *)
  Context (LM : forall w c t, all solid w = true -> is_white c = true -> m (w ++ String c t)%string = m w).
  Fixpoint pm (ws : list string) : list A :=
    match ws with
    | w :: ((v :: _) as t) => (if bends b lab false w then opt (m v) else []) ++ pm t
    | _ => []
    end.
  Lemma wm_pm : forall ws r, Forall (fun w => all solid w = true) ws -> newline_start r -> wm ws r = pm ws.
  Proof.
    intros ws r F N. induction F as [|w ws S F IH]; [reflexivity|]. destruct ws as [|v ws]; [reflexivity|].
    change (wm (w :: v :: ws) r) with ((if bends b lab false w then opt (m (String.concat " " (v :: ws) ++ r)) else []) ++ wm (v :: ws) r).
    change (pm (w :: v :: ws)) with ((if bends b lab false w then opt (m v) else []) ++ pm (v :: ws)). rewrite IH.
    replace (m (String.concat " " (v :: ws) ++ r)) with (m v); [reflexivity|]. symmetry.
    inversion F as [|? ? V _]; subst. destruct ws as [|u ws].
    - cbn [String.concat]. destruct N as [->|(t & ->)]; [rewrite app_nil_s; reflexivity|]. apply LM; auto.
    - change (String.concat " " (v :: u :: ws)) with (v ++ String space (String.concat " " (u :: ws)))%string.
      rewrite app_assoc_s. cbn [append]. apply LM; auto.
  Qed.
End labelled.
