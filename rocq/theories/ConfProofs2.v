(** The words of a dump in one line, and what labels are in it. *)
From Coq Require Import NArith ZArith List Bool Lia ZifyBool ZifyNat ZifyN String Ascii.
From Verif Require Import Base SpecDump Dump DumpProofs PyText PyText2 PyTextProofs ConfProofs.
Import ListNotations.
Open Scope N_scope.
Open Scope list_scope.

(** * The words of a dump *)
Definition line_words (l : line) : list string :=
  match l with L _ [] => [""%string] | L _ ws => ws | Bad _ => [] end.
Definition fw (d : dump) : list string := flat_map line_words d.
Definition tail_text (ws : list string) : string := String.concat "" (map (String space) ws).
Lemma concat_tail : forall w ws, String.concat " " (w :: ws) = (w ++ tail_text ws)%string.
Proof.
  intros w ws. revert w. induction ws as [|v ws IH]; intros w; [cbn; rewrite app_nil_s; reflexivity|].
  change (String.concat " " (w :: v :: ws)) with (w ++ String space (String.concat " " (v :: ws)))%string. rewrite IH. f_equal.
  unfold tail_text. cbn [map]. destruct ws as [|u ws]; [cbn [map String.concat]; rewrite app_nil_s; reflexivity|]. reflexivity.
Qed.
Lemma concat_empty_cons : forall a l, String.concat "" (a :: l) = (a ++ String.concat "" l)%string.
Proof. intros a [|x l]; [cbn; rewrite app_nil_s; reflexivity|reflexivity]. Qed.
Lemma tail_app : forall a b, tail_text (a ++ b) = (tail_text a ++ tail_text b)%string.
Proof.
  intros a b. unfold tail_text. induction a as [|x a IH]; [reflexivity|]. cbn [app map]. rewrite !concat_empty_cons, IH, app_assoc_s. reflexivity.
Qed.
Lemma rest_words : forall d s, render_rest (-1) d = Ok s -> s = tail_text (fw d).
Proof.
  induction d as [|[k ws|k] d IH]; intros s R; cbn [render_rest] in R; [injection R as <-; reflexivity| |discriminate].
  destruct (render_rest (-1) d) as [s'| | | |]; try discriminate. injection R as <-. rewrite (IH s' eq_refl).
  change (fw (L k ws :: d)) with (line_words (L k ws) ++ fw d). rewrite tail_app. cbn [indent Z.eqb Pos.eqb append].
  destruct ws as [|w ws]; [reflexivity|]. cbn [line_words]. unfold tail_text at 2. cbn [map]. rewrite concat_empty_cons, concat_tail.
  change (String.concat "" (map (String space) ws)) with (tail_text ws). cbn [append]. rewrite !app_assoc_s. reflexivity.
Qed.
Lemma one_line_words : forall k w ws d s, render (-1) (L k (w :: ws) :: d) = Ok s -> s = String.concat " " (fw (L k (w :: ws) :: d)).
Proof.
  intros k w ws d s R. cbn [render] in R. destruct (render_rest (-1) d) as [s'| | | |] eqn:E; try discriminate. injection R as <-.
  rewrite (rest_words _ _ E). change (fw (L k (w :: ws) :: d)) with (w :: (ws ++ fw d)). rewrite (concat_tail w (ws ++ fw d)), tail_app, <- app_assoc_s, <- (concat_tail w ws). reflexivity.
Qed.

(** * Words that are no labels *)
Definition graphic (c : ascii) : bool := let n := N_of_ascii c in (33 <=? n) && (n <=? 126).
Fixpoint last_is (c : ascii) (s : string) : bool :=
  match s with
  | EmptyString => false
  | String x EmptyString => Ascii.eqb x c
  | String _ t => last_is c t
  end.
Definition still (w : string) : bool :=
  all graphic w && all (fun c => negb (Ascii.eqb c "_")) w && negb (last_is ":" w).
(** A label: it has an underscore or ends with a colon. *)
Definition labelish (lab : string) : bool :=
  negb (String.eqb lab "") && (negb (all (fun c => negb (Ascii.eqb c "_")) lab) || last_is ":" lab).
Lemma ends_underscore : forall lab w, all (fun c => negb (Ascii.eqb c "_")) w = true -> ends lab w = true ->
  all (fun c => negb (Ascii.eqb c "_")) lab = true.
Proof.
  intros lab w. induction w as [|x w IH]; intros A E; cbn [ends] in E; apply orb_true_iff in E; destruct E as [E|E];
    try (apply String.eqb_eq in E; subst; exact A); [discriminate|]. apply IH; [|exact E]. cbn [all] in A. apply andb_true_iff in A. apply A.
Qed.
Lemma ends_last : forall lab w, lab <> ""%string -> ends lab w = true -> last_is ":" w = last_is ":" lab.
Proof.
  intros lab w NL. induction w as [|x w IH]; intros E; cbn [ends] in E; apply orb_true_iff in E; destruct E as [E|E];
    try (apply String.eqb_eq in E; subst; reflexivity); [discriminate|]. rewrite <- (IH E).
  destruct w; [|reflexivity]. cbn [ends] in E. destruct (String.eqb_spec lab ""); [congruence|discriminate].
Qed.
Lemma still_ends : forall lab w, labelish lab = true -> still w = true -> ends lab w = false.
Proof.
  intros lab w LB S. destruct (ends lab w) eqn:E; [|reflexivity]. exfalso. unfold labelish in LB. unfold still in S.
  apply andb_true_iff in LB. destruct LB as [LB0 LB]. apply andb_true_iff in S. destruct S as [S S3]. apply andb_true_iff in S. destruct S as [_ S2].
  assert (NL : lab <> ""%string) by (destruct lab; discriminate).
  rewrite (ends_underscore _ _ S2 E) in LB. cbn [negb orb] in LB. rewrite (ends_last _ _ NL E), LB in S3. discriminate.
Qed.
Lemma graphic_solid : forall c, graphic c = true -> solid c = true.
Proof.
  intros c G. unfold solid, is_white, is_newline, is_blank. unfold graphic in G. cbv zeta in G.
  destruct (Ascii.eqb_spec c (ascii_of_N 10)) as [->|]; [discriminate G|]. destruct (Ascii.eqb_spec c (ascii_of_N 32)) as [->|]; [discriminate G|]. reflexivity.
Qed.
Lemma still_graphic : forall w, still w = true -> all graphic w = true.
Proof. intros w S. unfold still in S. destruct (all graphic w); [reflexivity|discriminate]. Qed.
Lemma graphic_word : forall w, all graphic w = true -> all solid w = true.
Proof. intros w. apply all_impl, graphic_solid. Qed.

(** * Lines with a label in front *)
Definition tidy_line (l : line) : Prop :=
  match l with
  | L _ [] => True
  | L _ [k] => still k = true
  | L _ (k :: vs) => all graphic k = true /\ Forall (fun v => still v = true) vs
  | Bad _ => False
  end.
Definition tidy (d : dump) : Prop := Forall tidy_line d.
Definition head_of (l : line) : list (string * string) := match l with L _ (k :: v :: _) => [(k, v)] | _ => [] end.
Definition heads (d : dump) : list (string * string) := flat_map head_of d.
Lemma tidy_graphic : forall d, tidy d -> Forall (fun w => all graphic w = true) (fw d).
Proof.
  intros d T. induction T as [|[k ws|k] d H T IH]; [constructor| |destruct H].
  change (fw (L k ws :: d)) with (line_words (L k ws) ++ fw d). apply Forall_app. split; [|exact IH].
  destruct ws as [|w [|v ws]]; cbn [line_words tidy_line] in *.
  - constructor; [reflexivity|constructor].
  - constructor; [apply still_graphic, H|constructor].
  - destruct H as [H1 H2]. constructor; [exact H1|]. eapply Forall_impl; [|exact H2]. intros x X. apply still_graphic, X.
Qed.
Lemma tidy_solid : forall d, tidy d -> Forall (fun w => all solid w = true) (fw d).
Proof. intros d T. eapply Forall_impl; [|exact (tidy_graphic d T)]. intros x X. apply graphic_word, X. Qed.

Section heads.
  Context {A : Type} (b : bool) (lab : string) (m : string -> option A).
  Context (LB : labelish lab = true).
  Definition hit (kv : string * string) : list A := if bends b lab false (fst kv) then opt (m (snd kv)) else [].
  Definition hits (d : dump) : list A := flat_map hit (heads d).
  Lemma pm_still : forall vs t, Forall (fun v => still v = true) vs -> pm b lab m (vs ++ t) = pm b lab m t.
  Proof.
    intros vs t F. induction F as [|v vs S F IH]; [reflexivity|]. cbn [app]. destruct (vs ++ t) as [|u r] eqn:E.
    - cbn [pm]. exact IH.
    - change (pm b lab m (v :: u :: r)) with ((if bends b lab false v then opt (m u) else []) ++ pm b lab m (u :: r)).
      rewrite (bends_ends b lab v false) by (apply still_ends; assumption). exact IH.
  Qed.
  Lemma pm_heads : forall d, tidy d -> pm b lab m (fw d) = hits d.
  Proof.
    intros d T. induction T as [|[k ws|k] d H T IH]; [reflexivity| |destruct H].
    change (fw (L k ws :: d)) with (line_words (L k ws) ++ fw d).
    unfold hits, heads. cbn [flat_map]. rewrite flat_map_app. change (flat_map hit (flat_map head_of d)) with (hits d). rewrite <- IH.
    destruct ws as [|w [|v ws]]; cbn [line_words tidy_line head_of flat_map app] in *.
    - exact (pm_still [""%string] (fw d) ltac:(constructor; [reflexivity|constructor])).
    - exact (pm_still [w] (fw d) ltac:(constructor; [exact H|constructor])).
    - destruct H as [_ H].
      change (pm b lab m (w :: v :: ws ++ fw d)) with ((if bends b lab false w then opt (m v) else []) ++ pm b lab m ((v :: ws) ++ fw d)).
      rewrite pm_still by exact H. rewrite app_nil_r. reflexivity.
  Qed.
  Lemma hits_app : forall x y, hits (x ++ y) = hits x ++ hits y.
  Proof. intros. unfold hits, heads. rewrite !flat_map_app. reflexivity. Qed.
  Lemma hits_deeper : forall x, hits (map deeper x) = hits x.
  Proof.
    intros x. unfold hits, heads. f_equal. induction x as [|[k ws|k] x IH]; cbn [map deeper flat_map]; [reflexivity| |exact IH].
    rewrite IH. destruct ws as [|? [|? ?]]; reflexivity.
  Qed.
  Lemma hits_block : forall n x, hits (block n x) = hit (n, "{"%string) ++ hits x.
  Proof.
    intros n x. unfold block. change (hits (L 0 [n; "{"%string] :: map deeper x ++ [L 0 ["}"%string]])) with
      (hit (n, "{"%string) ++ hits (map deeper x ++ [L 0 ["}"%string]])). rewrite hits_app, hits_deeper. cbn. rewrite app_nil_r. reflexivity.
  Qed.
  Lemma hits_fld : forall k v, hits (fld k v) = hit ((k ++ ":")%string, v).
  Proof. intros. unfold hits, heads. cbn. apply app_nil_r. Qed.
  Lemma hits_flist : forall k vs, hits (flist k vs) = hit (k, "{"%string).
  Proof. intros. unfold hits, heads. cbn. apply app_nil_r. Qed.
  Lemma hits_when : forall c x, hits (Dump.when c x) = if c then hits x else [].
  Proof. intros [] x; reflexivity. Qed.
End heads.

(** * Labels that the script does not count *)
Definition counted : list string := ["nal_unit"; "nal_unit_type:"; "slice_header"; "slice_header_in_scalable_extension"; "sps_data"]%string.
Definition dull_key (k : string) : bool := all graphic k && forallb (fun lab => negb (ends lab k)) counted.
Definition dull_line (l : line) : Prop :=
  match l with
  | L _ [] => True
  | L _ [k] => still k = true
  | L _ (k :: vs) => dull_key k = true /\ Forall (fun v => still v = true) vs
  | Bad _ => True
  end.
Definition dull (d : dump) : Prop := Forall dull_line d.
Lemma dull_tidy : forall d, dull d -> printable d -> tidy d.
Proof.
  intros d D P. induction D as [|[k ws|k] d H D IH]; apply Forall_cons_iff in P || constructor; destruct P as [P1 P2].
  - constructor; [|apply IH, P2]. destruct ws as [|w [|v ws]]; cbn [dull_line tidy_line] in *; auto. destruct H as [H1 H2]. split; [|exact H2].
    unfold dull_key in H1. destruct (all graphic w); [reflexivity|discriminate].
  - destruct P1.
Qed.
Lemma dull_hits : forall A b lab (m : string -> option A) d, In lab counted -> labelish lab = true -> dull d -> hits b lab m d = [].
Proof.
  intros A b lab m d I LB D. induction D as [|[k ws|k] d H D IH]; [reflexivity| |exact IH].
  change (hits b lab m (L k ws :: d)) with (flat_map (hit b lab m) (head_of (L k ws) ++ heads d)). rewrite flat_map_app.
  change (flat_map (hit b lab m) (heads d)) with (hits b lab m d). rewrite IH, app_nil_r.
  destruct ws as [|w [|v ws]]; cbn [head_of flat_map dull_line] in *; try reflexivity. destruct H as [H _].
  unfold dull_key in H. apply andb_true_iff in H. destruct H as [_ H]. rewrite forallb_forall in H. specialize (H lab I).
  unfold hit. cbn [fst snd]. rewrite bends_ends by (destruct (ends lab w); [discriminate|reflexivity]). reflexivity.
Qed.
(** Rules *)
Lemma dull_nil : dull [].
Proof. constructor. Qed.
Lemma dull_app : forall a b, dull a -> dull b -> dull (a ++ b).
Proof. intros. apply Forall_app. auto. Qed.
Lemma dull_deeper : forall a, dull a -> dull (map deeper a).
Proof. intros a H. induction H as [|[k ws|k] a H1 H IH]; cbn [map deeper]; constructor; auto. Qed.
Lemma dull_block : forall n d, dull_key n = true -> dull d -> dull (block n d).
Proof.
  intros n d K D. constructor; [split; [exact K|constructor; [reflexivity|constructor]]|]. apply dull_app; [apply dull_deeper, D|].
  constructor; [reflexivity|constructor].
Qed.
Lemma dull_fld : forall k v, dull_key (k ++ ":") = true -> still v = true -> dull (fld k v).
Proof. intros. constructor; [|constructor]. split; [assumption|]. constructor; [assumption|constructor]. Qed.
Lemma dull_flist : forall k vs, dull_key k = true -> Forall (fun v => still v = true) vs -> dull (flist k vs).
Proof.
  intros k vs K F. constructor; [|constructor]. split; [exact K|]. constructor; [reflexivity|]. apply Forall_app. split; [exact F|].
  constructor; [reflexivity|constructor].
Qed.
Lemma dull_when : forall c d, dull d -> dull (Dump.when c d).
Proof. intros [] d D; [exact D|constructor]. Qed.
Lemma dull_deref : forall A (o : option A) f, (forall a, dull (f a)) -> dull (deref o f).
Proof. intros A [a|] f F; [apply F|]. constructor; [exact I|constructor]. Qed.
Lemma dull_maybe : forall A (o : option A) f, (forall a, dull (f a)) -> dull (maybe o f).
Proof. intros A [a|] f F; [apply F|]. constructor; [exact I|constructor]. Qed.

Lemma digits_still : forall s, all digit10 s = true -> still s = true.
Proof.
  intros s D. unfold still. rewrite (all_impl digit10 graphic), (all_impl digit10 (fun c => negb (Ascii.eqb c "_"))); try exact D.
  - cbn [andb]. induction s as [|c s IH]; [reflexivity|]. cbn [all] in D. apply andb_true_iff in D. destruct D as [D1 D2].
    cbn [last_is]. destruct s; [|apply IH, D2]. destruct (Ascii.eqb_spec c ":") as [->|]; [discriminate|reflexivity].
  - intros c C. destruct (Ascii.eqb_spec c "_") as [->|]; [discriminate|reflexivity].
  - intros c C. unfold digit10, graphic in *. cbv zeta in *. lia.
Qed.
Lemma dec_still : forall n, still (dec n) = true.
Proof. intros n. apply digits_still, dec_digits. Qed.
Lemma dec_last : forall n, last_is ":" (dec n) = false.
Proof. intros n. pose proof (dec_still n) as S. unfold still in S. destruct (last_is ":" (dec n)); [|reflexivity]. rewrite andb_false_r in S. discriminate. Qed.
Lemma still_minus : forall s, still s = true -> still (String "-" s) = true.
Proof.
  intros s S. unfold still in *. cbn [all last_is]. destruct (all graphic s); [|discriminate]. destruct (all _ s); [|discriminate].
  destruct s; [reflexivity|]. exact S.
Qed.
Lemma deci_still : forall z, still (deci z) = true.
Proof.
  intros z. destruct (Z.to_int z) as [d|d] eqn:E; unfold deci; rewrite E; cbn [DecimalString.NilEmpty.string_of_int].
  - apply digits_still, digits.
  - apply still_minus, digits_still, digits.
Qed.
Lemma decs_still : forall l, Forall (fun v => still v = true) (map dec l).
Proof. intros. apply Forall_map, Forall_forall. intros. apply dec_still. Qed.
Lemma decis_still : forall l, Forall (fun v => still v = true) (map deci l).
Proof. intros. apply Forall_map, Forall_forall. intros. apply deci_still. Qed.
Lemma deciss_still : forall l, Forall (fun v => still v = true) (flat_map (fun v => "{"%string :: map deci v ++ ["}"%string]) l).
Proof.
  intros l. induction l as [|v l IH]; [constructor|]. cbn [flat_map app]. constructor; [reflexivity|]. apply Forall_app. split; [|exact IH].
  apply Forall_app. split; [apply decis_still|]. constructor; [reflexivity|constructor].
Qed.
Ltac dulls :=
  repeat first
  [ apply dull_nil | apply dull_app | apply dull_block; [reflexivity|] | apply dull_when | apply dull_deref; intros
  | apply dull_maybe; intros
  | unfold fus, fis, fiss; apply dull_flist; [reflexivity|first [apply decs_still|apply decis_still|apply deciss_still]]
  | unfold fiu, fu, fi; apply dull_fld; [reflexivity|first [apply dec_still|apply deci_still]]
  | match goal with |- dull (if ?c then _ else _) => destruct c end
  | match goal with |- dull (match ?c with Some _ => _ | None => _ end) => destruct c end ].
