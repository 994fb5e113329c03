(** What h264nal-dpb_parse.py reads from the dump of a unit: lists of numbers. *)
From Coq Require Import NArith ZArith List Bool Lia ZifyBool ZifyNat ZifyN String Ascii.
From Verif Require Import Base Parser TypesNal TypesNalUnit TypesSps Sps SpecDump Dump DumpProofs PyText PyText2 PyTextProofs SplitProofs ToolTextProofs Dpb.
Import ListNotations.
Open Scope N_scope.
Open Scope list_scope.

(** ** The words behind the first word that ends with a label *)
Section finding.
  Context {A : Type} (lab : string) (m : string -> option A).
  Context (SL : all solid lab = true) (NL : lab <> EmptyString).
  Fixpoint wfind (ws : list string) : option (list string) :=
    match ws with
    | [] => None
    | w1 :: t => match t with [] => None | _ => if ends lab w1 then Some t else wfind t end
    end.
  Fixpoint lfind (d : dump) : option (list string) :=
    match d with
    | L _ ws :: t => match wfind ws with Some x => Some x | None => lfind t end
    | Bad _ :: t => lfind t
    | [] => None
    end.
  Lemma find_words_none : forall ws r, Forall (fun w => token w = true) ws -> newline_start r -> wfind ws = None ->
    search (M lab m) (String.concat " " ws ++ r) = search (M lab m) r.
  Proof.
    intros ws r F NR. induction F as [|w ws T F IH]; intros E; [reflexivity|].
    unfold token in T. apply andb_true_iff in T. destruct T as [_ T]. destruct ws as [|v ws].
    - cbn [String.concat]. destruct NR as [->|(t & ->)].
      + rewrite app_nil_s. rewrite (search_solid lab m w T). symmetry. exact (search_solid lab m "" eq_refl).
      + rewrite (search_word lab m SL NL) by auto. cbn [andb]. rewrite (search_white lab m SL NL) by reflexivity. reflexivity.
    - change (String.concat " " (w :: v :: ws)) with (w ++ String space (String.concat " " (v :: ws)))%string.
      rewrite app_assoc_s. cbn [append]. rewrite (search_word lab m SL NL) by (auto; reflexivity).
      change (wfind (w :: v :: ws)) with (if ends lab w then Some (v :: ws) else wfind (v :: ws)) in E.
      destruct (ends lab w); [discriminate|]. rewrite andb_false_r. apply IH, E.
  Qed.
  Lemma find_words_some : forall ws r vs x, Forall (fun w => token w = true) ws -> wfind ws = Some vs ->
    m (String.concat " " vs ++ r) = Some x -> search (M lab m) (String.concat " " ws ++ r) = Some x.
  Proof.
    intros ws r vs x F. induction F as [|w ws T F IH]; intros E EM; [discriminate|].
    unfold token in T. apply andb_true_iff in T. destruct T as [_ T]. destruct ws as [|v ws]; [discriminate|].
    change (String.concat " " (w :: v :: ws)) with (w ++ String space (String.concat " " (v :: ws)))%string.
    rewrite app_assoc_s. cbn [append]. rewrite (search_word lab m SL NL) by (auto; reflexivity).
    change (wfind (w :: v :: ws)) with (if ends lab w then Some (v :: ws) else wfind (v :: ws)) in E.
    change (Ascii.eqb space " ") with true. cbn [andb]. destruct (ends lab w).
    - injection E as <-. rewrite EM. reflexivity.
    - apply IH; auto.
  Qed.
  Lemma find_rest_none : forall level d s r, (level <> -1)%Z -> printable d -> render_rest level d = Ok s -> newline_start r ->
    lfind d = None -> search (M lab m) (s ++ r) = search (M lab m) r.
  Proof.
    intros level d s r NL1 P. revert s. induction P as [|[k ws|k] d F P IH]; intros s R NR E; cbn [render_rest] in R.
    - injection R as <-. reflexivity.
    - destruct (render_rest level d) as [s'| | | |] eqn:ER; try discriminate. injection R as <-.
      unfold indent. destruct (level =? -1)%Z eqn:EL; [lia|]. rewrite !app_assoc_s. cbn [append].
      rewrite (search_white lab m SL NL) by reflexivity. rewrite (search_blanks lab m SL NL).
      cbn [lfind] in E. destruct (wfind ws) eqn:EW; [discriminate|].
      rewrite find_words_none; [apply IH; auto|exact F|exact (rest_newline lab num SL num_local d level s' r NL1 ER NR)|exact EW].
    - tauto.
  Qed.
  Lemma find_rest_some : forall level d s r vs x, (level <> -1)%Z -> printable d -> render_rest level d = Ok s -> newline_start r ->
    lfind d = Some vs -> (forall t, newline_start t -> m (String.concat " " vs ++ t) = Some x) -> search (M lab m) (s ++ r) = Some x.
  Proof.
    intros level d s r vs x NL1 P. revert s. induction P as [|[k ws|k] d F P IH]; intros s R NR E EM; cbn [render_rest] in R.
    - discriminate.
    - destruct (render_rest level d) as [s'| | | |] eqn:ER; try discriminate. injection R as <-.
      unfold indent. destruct (level =? -1)%Z eqn:EL; [lia|]. rewrite !app_assoc_s. cbn [append].
      rewrite (search_white lab m SL NL) by reflexivity. rewrite (search_blanks lab m SL NL).
      cbn [lfind] in E. destruct (wfind ws) eqn:EW.
      + injection E as ->. eapply find_words_some; eauto. apply EM. exact (rest_newline lab num SL num_local d level s' r NL1 ER NR).
      + rewrite find_words_none; [apply IH; auto|exact F|exact (rest_newline lab num SL num_local d level s' r NL1 ER NR)|exact EW].
    - tauto.
  Qed.
  Lemma lfind_app : forall a b, lfind (a ++ b) = match lfind a with Some x => Some x | None => lfind b end.
  Proof.
    intros a b. induction a as [|[k ws|k] a IH]; cbn [app lfind]; [reflexivity| |exact IH].
    destruct (wfind ws); [reflexivity|exact IH].
  Qed.
  Lemma lfind_deeper : forall a, lfind (map deeper a) = lfind a.
  Proof. induction a as [|[k ws|k] a IH]; cbn [map deeper lfind]; [reflexivity| |exact IH]. rewrite IH. reflexivity. Qed.
  Lemma lfind_block : forall n d, ends lab n = false -> lfind (block n d) = lfind d.
  Proof.
    intros n d B. unfold block. cbn [lfind wfind]. rewrite B. rewrite lfind_app, lfind_deeper. destruct (lfind d); reflexivity.
  Qed.
  Lemma lfind_fld : forall k v, ends lab (k ++ ":") = false -> lfind (fld k v) = None.
  Proof. intros k v B. cbn [fld lfind wfind]. rewrite B. reflexivity. Qed.
  Lemma lfind_when : forall c d, lfind (Dump.when c d) = if c then lfind d else None.
  Proof. intros [] d; reflexivity. Qed.
  Lemma wfind_none : forall c ws, Forall (fun w => all (fun x => negb (Ascii.eqb x c)) w = true) ws ->
    all (fun x => negb (Ascii.eqb x c)) lab = false -> wfind ws = None.
  Proof.
    intros c ws F NC. induction F as [|w ws H F IH]; [reflexivity|]. cbn [wfind]. destruct ws; [reflexivity|].
    rewrite (ends_char lab c) by auto. exact IH.
  Qed.
  Lemma lfind_flist : forall c k vs, Forall (fun w => all (fun x => negb (Ascii.eqb x c)) w = true) vs ->
    all (fun x => negb (Ascii.eqb x c)) lab = false -> Ascii.eqb c "{" = false -> Ascii.eqb c "}" = false ->
    lfind (flist k vs) = if ends lab k then Some ("{"%string :: vs ++ ["}"%string]) else None.
  Proof.
    intros c k vs F NC C1 C2. cbn [flist lfind]. 
    assert (E : wfind ("{"%string :: vs ++ ["}"%string]) = None).
    { apply (wfind_none c); [|exact NC]. constructor; [cbn [all]; rewrite Ascii.eqb_sym, C1; reflexivity|].
      apply Forall_app. split; [exact F|]. constructor; [cbn [all]; rewrite Ascii.eqb_sym, C2; reflexivity|constructor]. }
    change (wfind (k :: "{"%string :: vs ++ ["}"%string])) with
      (if ends lab k then Some ("{"%string :: vs ++ ["}"%string]) else wfind ("{"%string :: vs ++ ["}"%string])).
    rewrite E. destruct (ends lab k); reflexivity.
  Qed.
End finding.
Lemma barless : forall f s, all f s = true -> f "_"%char = false -> all (fun x => negb (Ascii.eqb x "_")) s = true.
Proof.
  intros f s A F. eapply all_impl; [|exact A]. intros c C. destruct (Ascii.eqb_spec c "_") as [->|]; [congruence|reflexivity].
Qed.
Lemma dec_barless : forall n, all (fun x => negb (Ascii.eqb x "_")) (dec n) = true.
Proof. intros n. eapply barless; [apply dec_digits|reflexivity]. Qed.
Lemma deci_barless : forall z, all (fun x => negb (Ascii.eqb x "_")) (deci z) = true.
Proof.
  intros z. destruct (Z.to_int z) as [d|d] eqn:E; unfold deci; rewrite E; cbn [DecimalString.NilEmpty.string_of_int all].
  - eapply barless; [apply digits|reflexivity].
  - cbn [Ascii.eqb negb andb]. eapply barless; [apply digits|reflexivity].
Qed.
Lemma fus_find : forall lab k l, lab <> ""%string -> all (fun x => negb (Ascii.eqb x "_")) lab = false ->
  lfind lab (fus k l) = if ends lab k then Some ("{"%string :: map dec l ++ ["}"%string]) else None.
Proof.
  intros lab k l NL C. apply (lfind_flist lab "_"%char); auto. apply Forall_map, Forall_forall. intros. apply dec_barless.
Qed.
Lemma fis_find : forall lab k l, lab <> ""%string -> all (fun x => negb (Ascii.eqb x "_")) lab = false ->
  lfind lab (fis k l) = if ends lab k then Some ("{"%string :: map deci l ++ ["}"%string]) else None.
Proof.
  intros lab k l NL C. apply (lfind_flist lab "_"%char); auto. apply Forall_map, Forall_forall. intros. apply deci_barless.
Qed.
Lemma fiss_words : forall c l, (forall z, all (fun x => negb (Ascii.eqb x c)) (deci z) = true) ->
  Ascii.eqb c "{" = false -> Ascii.eqb c "}" = false ->
  Forall (fun w => all (fun x => negb (Ascii.eqb x c)) w = true) (flat_map (fun v => "{"%string :: map deci v ++ ["}"%string]) l).
Proof.
  intros c l D C1 C2. apply Forall_flat_map, Forall_forall. intros v _.
  constructor; [cbn [all]; rewrite Ascii.eqb_sym, C1; reflexivity|]. apply Forall_app. split.
  - apply Forall_map, Forall_forall. intros. apply D.
  - constructor; [cbn [all]; rewrite Ascii.eqb_sym, C2; reflexivity|constructor].
Qed.
Lemma fiss_find : forall lab k l, lab <> ""%string -> all (fun x => negb (Ascii.eqb x "_")) lab = false -> ends lab k = false ->
  lfind lab (fiss k l) = None.
Proof.
  intros lab k l NL C E. unfold fiss. rewrite (lfind_flist lab "_"%char), E; auto. apply fiss_words; auto. apply deci_barless.
Qed.
(** ** Rules *)
Section rules.
  Context (lab : string).
  Lemma skip : forall a b r, lfind lab a = None -> lfind lab b = r -> lfind lab (a ++ b) = r.
  Proof. intros a b r A B. rewrite lfind_app, A. exact B. Qed.
  Lemma hit : forall a b r, lfind lab a = Some r -> lfind lab (a ++ b) = Some r.
  Proof. intros a b r A. rewrite lfind_app, A. reflexivity. Qed.
  Lemma in_block : forall n d r, ends lab n = false -> lfind lab d = r -> lfind lab (block n d) = r.
  Proof. intros n d r B D. rewrite lfind_block by exact B. exact D. Qed.
  Lemma not_when : forall c d, lfind lab d = None -> lfind lab (Dump.when c d) = None.
  Proof. intros [] d D; [exact D|reflexivity]. Qed.
  Lemma not_deref : forall A (o : option A) f, (forall x, lfind lab (f x) = None) -> lfind lab (deref o f) = None.
  Proof. intros A [x|] f H; [apply H|reflexivity]. Qed.
  Lemma not_if : forall (c : bool) a b, lfind lab a = None -> lfind lab b = None -> lfind lab (if c then a else b) = None.
  Proof. intros []; auto. Qed.
  Lemma not_fu : forall k n, ends lab (k ++ ":") = false -> lfind lab (fu k n) = None.
  Proof. intros. apply lfind_fld; assumption. Qed.
  Lemma not_fi : forall k n, ends lab (k ++ ":") = false -> lfind lab (fi k n) = None.
  Proof. intros. apply lfind_fld; assumption. Qed.
  Lemma not_fiu : forall k n, ends lab (k ++ ":") = false -> lfind lab (fiu k n) = None.
  Proof. intros. apply lfind_fld; assumption. Qed.
  Lemma at_fu : forall k n, ends lab (k ++ ":") = true -> lfind lab (fu k n) = Some [dec n].
  Proof. intros k n E. cbn [fu fld lfind wfind]. rewrite E. reflexivity. Qed.
  Context (NL : lab <> ""%string) (NB : all (fun x => negb (Ascii.eqb x "_")) lab = false).
  Lemma not_fus : forall k l, ends lab k = false -> lfind lab (fus k l) = None.
  Proof. intros k l E. rewrite fus_find by assumption. rewrite E. reflexivity. Qed.
  Lemma not_fis : forall k l, ends lab k = false -> lfind lab (fis k l) = None.
  Proof. intros k l E. rewrite fis_find by assumption. rewrite E. reflexivity. Qed.
  Lemma not_fiss : forall k l, ends lab k = false -> lfind lab (fiss k l) = None.
  Proof. intros. apply fiss_find; assumption. Qed.
  Lemma at_fus : forall k l, ends lab k = true -> lfind lab (fus k l) = Some ("{"%string :: map dec l ++ ["}"%string]).
  Proof. intros k l E. rewrite fus_find by assumption. rewrite E. reflexivity. Qed.
End rules.
(** Decides a dump that is not about the label *)
Ltac mute :=
  lazymatch goal with
  | |- lfind _ (_ ++ _) = None => apply skip; mute
  | |- lfind _ (Dump.when _ _) = None => apply not_when; mute
  | |- lfind _ (block _ _) = None => apply in_block; [vm_compute; reflexivity|mute]
  | |- lfind _ (fu _ _) = None => apply not_fu; vm_compute; reflexivity
  | |- lfind _ (fi _ _) = None => apply not_fi; vm_compute; reflexivity
  | |- lfind _ (fiu _ _) = None => apply not_fiu; vm_compute; reflexivity
  | |- lfind _ (fus _ _) = None => apply not_fus; [discriminate|reflexivity|vm_compute; reflexivity]
  | |- lfind _ (fis _ _) = None => apply not_fis; [discriminate|reflexivity|vm_compute; reflexivity]
  | |- lfind _ (fiss _ _) = None => apply not_fiss; [discriminate|reflexivity|vm_compute; reflexivity]
  | |- lfind _ (deref _ _) = None => apply not_deref; intros; mute
  | |- lfind _ (if _ then _ else _) = None => apply not_if; mute
  | |- lfind _ [] = None => reflexivity
  | _ => idtac
  end.

(** ** The numbers in braces *)
Lemma to_brace_word : forall w t, all solid w = true -> all (fun c => negb (Ascii.eqb c "}")) w = true ->
  to_brace (w ++ t)%string = option_map (append w) (to_brace t).
Proof.
  induction w as [|c w IH]; intros t S B; cbn [append to_brace].
  - destruct (to_brace t); reflexivity.
  - cbn [all] in S, B. apply andb_true_iff in S, B. destruct (Ascii.eqb c "}"); [destruct B; discriminate|].
    rewrite IH by tauto. destruct (to_brace t); reflexivity.
Qed.
Fixpoint listed (ws : list string) : string :=
  match ws with [] => ""%string | w :: t => (w ++ " " ++ listed t)%string end.
Lemma braces : forall l t, after "{ " to_brace (String.concat " " ("{"%string :: map dec l ++ ["}"%string]) ++ t) = Some (listed (map dec l)).
Proof.
  intros l t.
  assert (E : forall l, to_brace (String.concat " " (map dec l ++ ["}"%string]) ++ t) = Some (listed (map dec l))).
  { clear l. induction l as [|n l IH]; [reflexivity|]. cbn [map app listed].
    assert (C : String.concat " " (dec n :: map dec l ++ ["}"%string]) = (dec n ++ " " ++ String.concat " " (map dec l ++ ["}"%string]))%string).
    { destruct l; reflexivity. }
    rewrite C, app_assoc_s, to_brace_word.
    - cbn [append to_brace]. rewrite IH. reflexivity.
    - eapply all_impl; [|apply dec_digits]. apply digit10_solid.
    - eapply all_impl; [|apply dec_digits]. intros c D. destruct (Ascii.eqb_spec c "}") as [->|]; [discriminate D|reflexivity]. }
  replace (String.concat " " ("{"%string :: map dec l ++ ["}"%string])) with ("{ " ++ String.concat " " (map dec l ++ ["}"%string]))%string by (destruct l; reflexivity).
  rewrite app_assoc_s, <- (E l). generalize (String.concat " " (map dec l ++ ["}"%string]) ++ t)%string. intros x.
  unfold after. replace (prefix "{ " ("{ " ++ x)) with true by (destruct x; reflexivity). rewrite dropped_app. reflexivity.
Qed.
Lemma digit10_space : forall c, digit10 c = true -> py_space c = false.
Proof.
  intros c H. assert (X : implb (digit10 c) (negb (py_space c)) = true) by (apply (by_ascii (fun c => implb (digit10 c) (negb (py_space c)))); reflexivity).
  rewrite H in X. destruct (py_space c); [discriminate|reflexivity].
Qed.
Lemma py_words_word : forall w t, all digit10 w = true -> w <> ""%string -> py_words (w ++ String " " t) = w :: py_words t.
Proof.
  induction w as [|c w IH]; intros t D NE; [congruence|]. cbn [all] in D. apply andb_true_iff in D. destruct D as [DC D].
  destruct w as [|d w].
  - cbn [append py_words]. rewrite digit10_space by exact DC. reflexivity.
  - assert (IHt := IH t D ltac:(discriminate)).
    cbn [append] in *. cbn [all] in D. apply andb_true_iff in D. destruct D as [DD D].
    cbn [py_words]. cbn [py_words] in IHt. rewrite (digit10_space c DC), (digit10_space d DD). rewrite (digit10_space d DD) in IHt.
    rewrite IHt. reflexivity.
Qed.
Lemma listed_ints : forall l, map (int_of 10) (py_words (listed (map dec l))) = l.
Proof.
  induction l as [|n l IH]; [reflexivity|]. cbn [map listed append]. rewrite py_words_word.
  - cbn [map]. rewrite int_dec, IH. reflexivity.
  - apply dec_digits.
  - pose proof (dec_plain n) as P. destruct (dec n); [discriminate P|discriminate].
Qed.
