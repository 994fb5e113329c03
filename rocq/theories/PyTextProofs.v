(** Searching a dumped text is searching its words. *)
From Coq Require Import NArith ZArith List Bool Lia ZifyBool ZifyNat ZifyN String Ascii
  DecimalString HexadecimalString DecimalN DecimalZ HexadecimalN DecimalPos HexadecimalPos.
From Verif Require Import Base SpecDump Dump DumpProofs PyText.
Import ListNotations.
Open Scope N_scope.
Open Scope list_scope.

(** * Numbers *)
Fixpoint go10 (s : string) (acc : N) : N :=
  match s with
  | EmptyString => acc
  | String c t => go10 t (10 * acc + (if digit10 c then N_of_ascii c - 48 else N_of_ascii c - 87))
  end.
Fixpoint go16 (s : string) (acc : N) : N :=
  match s with
  | EmptyString => acc
  | String c t => go16 t (16 * acc + (if digit10 c then N_of_ascii c - 48 else N_of_ascii c - 87))
  end.
Lemma int_of_10 : forall s, int_of 10 s = go10 s 0.
Proof. reflexivity. Qed.
Lemma int_of_16 : forall s, int_of 16 s = go16 s 0.
Proof. reflexivity. Qed.
Lemma go10_pos : forall d p, go10 (DecimalString.NilEmpty.string_of_uint d) (Npos p) = Npos (Pos.of_uint_acc d p).
Proof.
  induction d; intros p; cbn [DecimalString.NilEmpty.string_of_uint go10 Pos.of_uint_acc]; [reflexivity|..];
    rewrite <- IHd; f_equal;
    match goal with |- 10 * _ + (if digit10 ?c then _ else _) = _ =>
      let b := eval vm_compute in (digit10 c) in let n := eval vm_compute in (N_of_ascii c) in
      change (digit10 c) with b; change (N_of_ascii c) with n end; cbv iota; lia.
Qed.
Lemma go10_uint : forall d, go10 (DecimalString.NilEmpty.string_of_uint d) 0 = N.of_uint d.
Proof.
  unfold N.of_uint.
  induction d; cbn [DecimalString.NilEmpty.string_of_uint go10 Pos.of_uint]; [reflexivity|exact IHd|..];
    match goal with |- go10 _ ?x = _ => let n := eval vm_compute in x in change x with n end; apply go10_pos.
Qed.
Lemma int_dec : forall n, int_of 10 (dec n) = n.
Proof. intros n. rewrite int_of_10. unfold dec. rewrite go10_uint. apply DecimalN.Unsigned.of_to. Qed.
Lemma go16_pos : forall d p, go16 (HexadecimalString.NilEmpty.string_of_uint d) (Npos p) = Npos (Pos.of_hex_uint_acc d p).
Proof.
  induction d; intros p; cbn [HexadecimalString.NilEmpty.string_of_uint go16 Pos.of_hex_uint_acc]; [reflexivity|..];
    rewrite <- IHd; f_equal;
    match goal with |- 16 * _ + (if digit10 ?c then _ else _) = _ =>
      let b := eval vm_compute in (digit10 c) in let n := eval vm_compute in (N_of_ascii c) in
      change (digit10 c) with b; change (N_of_ascii c) with n end; cbv iota; lia.
Qed.
Lemma go16_uint : forall d, go16 (HexadecimalString.NilEmpty.string_of_uint d) 0 = N.of_hex_uint d.
Proof.
  unfold N.of_hex_uint.
  induction d; cbn [HexadecimalString.NilEmpty.string_of_uint go16 Pos.of_hex_uint]; [reflexivity|exact IHd|..];
    match goal with |- go16 _ ?x = _ => let n := eval vm_compute in x in change x with n end; apply go16_pos.
Qed.

(** * Classes of characters *)
Lemma leading_all : forall f s, all f s = true -> leading f s = s.
Proof.
  induction s as [|c s IH]; intros H; cbn [all leading] in *; [reflexivity|].
  apply andb_true_iff in H. destruct H as [-> H]. rewrite IH by exact H. reflexivity.
Qed.
Lemma leading_stop : forall f w c t, all solid w = true -> is_white c = true -> (forall x, f x = true -> solid x = true) ->
  leading f (w ++ String c t)%string = leading f w.
Proof.
  intros f w c t S W F. induction w as [|x w IH]; cbn [append leading].
  - destruct (f c) eqn:E; [|reflexivity]. apply F in E. unfold solid in E. rewrite W in E. discriminate.
  - cbn [all] in S. apply andb_true_iff in S. destruct (f x); [|reflexivity]. rewrite IH by apply S. reflexivity.
Qed.
Lemma digit10_solid : forall c, digit10 c = true -> solid c = true.
Proof.
  intros c H. assert (X : implb (digit10 c) (solid c) = true) by (revert c H; intros c _; apply (by_ascii (fun c => implb (digit10 c) (solid c))); reflexivity).
  rewrite H in X. exact X.
Qed.
Lemma digit16_solid : forall c, digit16 c = true -> solid c = true.
Proof.
  intros c H. assert (X : implb (digit16 c) (solid c) = true) by (apply (by_ascii (fun c => implb (digit16 c) (solid c))); reflexivity).
  rewrite H in X. exact X.
Qed.

(** * Words *)
Fixpoint ends (lab w : string) : bool :=
  String.eqb lab w || match w with EmptyString => false | String _ t => ends lab t end.
Lemma white_not_solid : forall c x, is_white c = true -> solid x = true -> Ascii.eqb x c = false.
Proof.
  intros c x W S. destruct (Ascii.eqb_spec x c) as [->|]; [|reflexivity]. unfold solid in S. rewrite W in S. discriminate.
Qed.
Lemma prefix_word : forall lab w c t, all solid lab = true -> all solid w = true -> is_white c = true ->
  prefix (lab ++ " ") (w ++ String c t) = String.eqb lab w && Ascii.eqb c " ".
Proof.
  induction lab as [|x lab IH]; intros w c t SL SW W.
  - destruct w as [|y w]; cbn [append prefix String.eqb].
    + destruct (ascii_dec " " c) as [<-|N]; [destruct t; reflexivity|]. destruct (Ascii.eqb_spec c " "); [congruence|reflexivity].
    + cbn [all] in SW. apply andb_true_iff in SW. destruct SW as [SY _].
      destruct (ascii_dec " " y) as [<-|N]; [discriminate SY|reflexivity].
  - cbn [all] in SL. apply andb_true_iff in SL. destruct SL as [SX SL]. destruct w as [|y w]; cbn [append prefix String.eqb].
    + destruct (ascii_dec x c) as [->|N]; [|reflexivity]. unfold solid in SX. rewrite W in SX. discriminate.
    + cbn [all] in SW. apply andb_true_iff in SW. destruct SW as [_ SW].
      destruct (ascii_dec x y) as [->|N].
      * rewrite Ascii.eqb_refl. apply IH; auto.
      * destruct (Ascii.eqb_spec x y); [congruence|reflexivity].
Qed.
Lemma dropped_app : forall a b, dropped (String.length a) (a ++ b) = b.
Proof. induction a as [|x a IH]; intros b; cbn [String.length dropped append]; auto. Qed.
Lemma length_app_s : forall a b, String.length (a ++ b) = (String.length a + String.length b)%nat.
Proof. induction a as [|x a IH]; intros b; cbn [String.length append]; [reflexivity|]. rewrite IH. reflexivity. Qed.

Section searching.
  Context {A : Type} (lab : string) (m : string -> option A).
  Context (SL : all solid lab = true) (NL : lab <> EmptyString).
  Definition M : string -> option A := after (lab ++ " ") m.
  Lemma search_white : forall c t, is_white c = true -> search M (String c t) = search M t.
  Proof.
    intros c t W. cbn [search]. unfold M at 1, after.
    change (prefix (lab ++ " ") (String c t)) with (prefix (lab ++ " ") ("" ++ String c t)).
    rewrite prefix_word by auto. destruct lab; [congruence|reflexivity].
  Qed.
  Lemma search_blanks : forall n t, search M (chars n space ++ t) = search M t.
  Proof. induction n as [|n IH]; intros t; cbn [chars append]; [reflexivity|]. rewrite search_white by reflexivity. apply IH. Qed.
  Lemma search_word : forall w c t, all solid w = true -> is_white c = true ->
    search M (w ++ String c t) =
    match (if Ascii.eqb c " " && ends lab w then m t else None) with Some a => Some a | None => search M t end.
  Proof.
    intros w c t SW W. induction w as [|x w IH].
    - cbn [append]. rewrite search_white by exact W. cbn [ends]. destruct lab; [congruence|]. cbn [String.eqb orb].
      rewrite andb_false_r. reflexivity.
    - cbn [all] in SW. pose proof SW as SW'. apply andb_true_iff in SW'. destruct SW' as [_ SW'].
      cbn [append search ends]. unfold M at 1, after.
      change (String x (w ++ String c t)) with (String x w ++ String c t)%string.
      rewrite prefix_word by auto. destruct (String.eqb_spec lab (String x w)) as [E|NE]; cbn [orb andb].
      + destruct (Ascii.eqb_spec c " ") as [->|NC]; cbn [andb].
        * assert (D : dropped (String.length (lab ++ " ")) (String x w ++ String " " t) = t).
          { rewrite <- E. replace (lab ++ String " " t)%string with ((lab ++ " ") ++ t)%string by (rewrite app_assoc_s; reflexivity).
            apply dropped_app. }
          rewrite D. destruct (m t) as [a|] eqn:EM; [reflexivity|].
          rewrite IH by exact SW'. destruct (ends lab w); reflexivity.
        * rewrite IH by exact SW'. reflexivity.
      + rewrite IH by exact SW'. reflexivity.
  Qed.
  Lemma search_solid : forall w, all solid w = true -> search M w = None.
  Proof.
    intros w SW.
    assert (P : forall l v, all solid v = true -> prefix (l ++ " ") v = false).
    { induction l as [|x l IH]; intros [|y v] SV; cbn [append prefix]; auto.
      - cbn [all] in SV. apply andb_true_iff in SV. destruct SV as [SY _].
        destruct (ascii_dec " " y) as [<-|N]; [discriminate SY|reflexivity].
      - destruct (ascii_dec x y); [|reflexivity]. cbn [all] in SV. apply andb_true_iff in SV. apply IH, SV. }
    induction w as [|x w IH]; cbn [search]; unfold M at 1, after; rewrite P by exact SW; [reflexivity|].
    apply IH. cbn [all] in SW. apply andb_true_iff in SW. apply SW.
  Qed.
  (** What [m] says about a text depends on the first word. *)
  Context (LM : forall w c t, all solid w = true -> is_white c = true -> m (w ++ String c t)%string = m w).
  Fixpoint wsearch (ws : list string) : option A :=
    match ws with
    | [] => None
    | w1 :: t =>
        match t with
        | [] => None
        | w2 :: _ => match (if ends lab w1 then m w2 else None) with Some a => Some a | None => wsearch t end
        end
    end.
  Fixpoint lsearch (d : dump) : option A :=
    match d with
    | L _ ws :: t => match wsearch ws with Some a => Some a | None => lsearch t end
    | Bad _ :: t => lsearch t
    | [] => None
    end.
  Definition newline_start (s : string) : Prop := s = ""%string \/ exists t, s = String newline t.
  Lemma search_words : forall ws r, Forall (fun w => token w = true) ws -> newline_start r ->
    search M (String.concat " " ws ++ r) = match wsearch ws with Some a => Some a | None => search M r end.
  Proof.
    intros ws r F N. induction F as [|w ws T F IH]; [reflexivity|].
    unfold token in T. apply andb_true_iff in T. destruct T as [_ T]. destruct ws as [|v ws].
    - cbn [String.concat wsearch]. destruct N as [->|(t & ->)].
      + rewrite app_nil_s. rewrite search_solid by exact T. symmetry. exact (search_solid "" eq_refl).
      + rewrite search_word by auto. cbn [andb]. rewrite search_white by reflexivity. reflexivity.
    - change (String.concat " " (w :: v :: ws)) with (w ++ String space (String.concat " " (v :: ws)))%string.
      rewrite app_assoc_s. cbn [append]. rewrite search_word by (auto; reflexivity).
      change (Ascii.eqb space " ") with true. cbn [andb].
      assert (E : m (String.concat " " (v :: ws) ++ r) = m v).
      { inversion F as [|? ? V _]; subst. unfold token in V. apply andb_true_iff in V. destruct V as [_ V].
        destruct ws as [|u ws].
        - cbn [String.concat]. destruct N as [->|(t & ->)]; [rewrite app_nil_s; reflexivity|]. apply LM; auto.
        - change (String.concat " " (v :: u :: ws)) with (v ++ String space (String.concat " " (u :: ws)))%string.
          rewrite app_assoc_s. cbn [append]. apply LM; auto. }
      rewrite E. rewrite IH. change (wsearch (w :: v :: ws)) with
        (match (if ends lab w then m v else None) with Some a => Some a | None => wsearch (v :: ws) end).
      destruct (if ends lab w then m v else None); reflexivity.
  Qed.
  Lemma rest_newline : forall d level s r, (level <> -1)%Z -> render_rest level d = Ok s -> newline_start r -> newline_start (s ++ r).
  Proof.
    intros [|[k ws|k] d] level s r NL1 R N; cbn [render_rest] in R; [injection R as <-; exact N| |discriminate].
    destruct (render_rest level d) as [s'| | | |]; try discriminate. injection R as <-.
    right. unfold indent. destruct (level =? -1)%Z eqn:E; [lia|]. cbn [append]. eauto.
  Qed.
  Lemma search_rest : forall level d s r, (level <> -1)%Z -> printable d -> render_rest level d = Ok s -> newline_start r ->
    search M (s ++ r) = match lsearch d with Some a => Some a | None => search M r end.
  Proof.
    intros level d s r NL1 P. revert s. induction P as [|[k ws|k] d F P IH]; intros s R N; cbn [render_rest] in R.
    - injection R as <-. reflexivity.
    - destruct (render_rest level d) as [s'| | | |] eqn:E; try discriminate. injection R as <-.
      unfold indent. destruct (level =? -1)%Z eqn:EL; [lia|]. rewrite !app_assoc_s. cbn [append].
      rewrite search_white by reflexivity. rewrite search_blanks. rewrite search_words by (auto; eapply rest_newline; eauto).
      cbn [lsearch]. destruct (wsearch ws); [reflexivity|]. apply IH; auto.
    - tauto.
  Qed.
  (** Rules *)
  Lemma lsearch_app : forall a b, lsearch (a ++ b) = match lsearch a with Some x => Some x | None => lsearch b end.
  Proof.
    intros a b. induction a as [|[k ws|k] a IH]; cbn [app lsearch]; [reflexivity| |exact IH].
    destruct (wsearch ws); [reflexivity|exact IH].
  Qed.
  Lemma lsearch_deeper : forall a, lsearch (map deeper a) = lsearch a.
  Proof. induction a as [|[k ws|k] a IH]; cbn [map deeper lsearch]; [reflexivity| |exact IH]. rewrite IH. reflexivity. Qed.
  Lemma lsearch_block : forall n d, m "{" = None -> lsearch (block n d) = lsearch d.
  Proof.
    intros n d B. unfold block. cbn [lsearch wsearch]. rewrite B. destruct (ends lab n);
    rewrite lsearch_app, lsearch_deeper; destruct (lsearch d); reflexivity.
  Qed.
  Lemma lsearch_fld : forall k v, lsearch (fld k v) = if ends lab (k ++ ":") then m v else None.
  Proof. intros k v. cbn [fld lsearch wsearch]. destruct (if ends lab (k ++ ":") then m v else None); reflexivity. Qed.
  Lemma lsearch_when : forall c d, lsearch (Dump.when c d) = if c then lsearch d else None.
  Proof. intros [] d; reflexivity. Qed.
  (** A word without a character of the label does not end with it. *)
  Lemma ends_char : forall c w, all (fun x => negb (Ascii.eqb x c)) w = true -> all (fun x => negb (Ascii.eqb x c)) lab = false ->
    ends lab w = false.
  Proof.
    intros c w H N. induction w as [|x w IH]; cbn [ends].
    - destruct (String.eqb_spec lab ""); [congruence|reflexivity].
    - destruct (String.eqb_spec lab (String x w)) as [E|NE]; [rewrite E in N; congruence|].
      cbn [orb]. cbn [all] in H. apply andb_true_iff in H. apply IH, H.
  Qed.
  Lemma wsearch_none : forall c ws, Forall (fun w => all (fun x => negb (Ascii.eqb x c)) w = true) ws ->
    all (fun x => negb (Ascii.eqb x c)) lab = false -> wsearch ws = None.
  Proof.
    intros c ws F N. induction F as [|w ws H F IH]; [reflexivity|]. cbn [wsearch]. destruct ws; [reflexivity|].
    rewrite (ends_char c) by auto. exact IH.
  Qed.
  Lemma lsearch_flist : forall c k vs, Forall (fun w => all (fun x => negb (Ascii.eqb x c)) w = true) vs ->
    all (fun x => negb (Ascii.eqb x c)) lab = false -> m "{" = None -> Ascii.eqb c "{" = false -> Ascii.eqb c "}" = false ->
    lsearch (flist k vs) = None.
  Proof.
    intros c k vs F N B C1 C2. cbn [flist lsearch wsearch]. rewrite B.
    assert (E : wsearch ("{"%string :: vs ++ ["}"%string]) = None).
    { apply (wsearch_none c); [|exact N]. constructor; [cbn [all]; rewrite Ascii.eqb_sym, C1; reflexivity|].
      apply Forall_app. split; [exact F|]. constructor; [cbn [all]; rewrite Ascii.eqb_sym, C2; reflexivity|constructor]. }
    change (match vs ++ ["}"%string] with [] => None | w2 :: _ => match (if ends lab "{" then m w2 else None) with
      | Some a => Some a | None => wsearch (vs ++ ["}"%string]) end end) with (wsearch ("{"%string :: vs ++ ["}"%string])).
    rewrite E. destruct (ends lab k); reflexivity.
  Qed.
End searching.

(** The expressions that occur. *)
Lemma several_local : forall f w c t, (forall x, f x = true -> solid x = true) -> all solid w = true -> is_white c = true ->
  several f (w ++ String c t) = several f w.
Proof. intros f w c t F S W. unfold several. rewrite leading_stop by auto. reflexivity. Qed.
Lemma dec_digits : forall n, all digit10 (dec n) = true.
Proof. intros n. exact (digits (N.to_uint n)). Qed.
Lemma several_dec : forall n, several digit10 (dec n) = Some (dec n).
Proof.
  intros n. unfold several. rewrite leading_all by apply dec_digits. pose proof (dec_plain n) as P.
  destruct (dec n); [discriminate P|reflexivity].
Qed.

Lemma after_app : forall A a b (m : string -> option A) s, after (a ++ b) m s = after a (after b m) s.
Proof.
  intros A a b m. unfold after. induction a as [|x a IH]; intros s; cbn [append String.length].
  - destruct s; reflexivity.
  - destruct s as [|y s]; [reflexivity|]. cbn [prefix dropped]. destruct (ascii_dec x y); [|reflexivity]. apply IH.
Qed.
Lemma search_ext : forall A (m m' : string -> option A) s, (forall s, m s = m' s) -> search m s = search m' s.
Proof. intros A m m' s E. induction s as [|c s IH]; cbn [search]; rewrite E; [reflexivity|]. rewrite IH. reflexivity. Qed.
Lemma hex_local : forall w c t, all solid w = true -> is_white c = true ->
  after "0x" (several digit16) (w ++ String c t) = after "0x" (several digit16) w.
Proof.
  intros w c t S W. assert (D : forall x, solid x = true -> x <> c) by (intros x X ->; unfold solid in X; rewrite W in X; discriminate).
  assert (D0 : "0"%char <> c) by (apply D; reflexivity). assert (D1 : "x"%char <> c) by (apply D; reflexivity).
  unfold after. destruct w as [|x [|y w]]; cbn [append prefix String.length dropped].
  - destruct (ascii_dec "0" c); [congruence|reflexivity].
  - destruct (ascii_dec "0" x); [|reflexivity]. destruct (ascii_dec "x" c); [congruence|reflexivity].
  - cbn [all] in S. apply andb_true_iff in S. destruct S as [_ S]. apply andb_true_iff in S. destruct S as [_ S].
    destruct (ascii_dec "0" x); [|reflexivity]. destruct (ascii_dec "x" y); [|reflexivity].
    replace (prefix "" (w ++ String c t)) with true by (destruct (w ++ String c t)%string; reflexivity).
    replace (prefix "" w) with true by (destruct w; reflexivity).
    apply several_local; auto. apply digit16_solid.
Qed.
Lemma hex_digits : forall d, all digit16 (HexadecimalString.NilEmpty.string_of_uint d) = true.
Proof. induction d; cbn [HexadecimalString.NilEmpty.string_of_uint all]; try exact IHd; try (rewrite IHd); reflexivity. Qed.
Lemma hex_read : forall n, option_map (int_of 16) (after "0x" (several digit16) (hex8 n)) = Some n.
Proof.
  intros n. destruct (hex8_eq n) as (i & ->). unfold after.
  change ("0x" ++ ?s)%string with (String "0" (String "x" s)). cbn [prefix String.length dropped].
  destruct (ascii_dec "0" "0"); [|congruence]. destruct (ascii_dec "x" "x"); [|congruence].
  match goal with |- context [prefix "" ?s] => replace (prefix "" s) with true by (destruct s; reflexivity) end.
  unfold several. rewrite leading_all by apply hex_digits.
  destruct (HexadecimalString.NilEmpty.string_of_uint (zeros i (N.to_hex_uint n))) eqn:E.
  - exfalso. assert (Z : zeros i (N.to_hex_uint n) = Hexadecimal.Nil).
    { apply (f_equal HexadecimalString.NilEmpty.uint_of_string) in E. rewrite HexadecimalString.NilEmpty.usu in E.
      cbn in E. congruence. }
    destruct i; cbn [zeros] in Z; [|discriminate Z]. pose proof (HexadecimalN.Unsigned.of_to n) as O. rewrite Z in O.
    cbn in O. subst n. discriminate Z.
  - rewrite <- E. cbn [option_map]. rewrite int_of_16, go16_uint, zeros_value. f_equal. apply HexadecimalN.Unsigned.of_to.
Qed.
Lemma dec_read : forall n, option_map (int_of 10) (several digit10 (dec n)) = Some n.
Proof. intros n. rewrite several_dec. cbn [option_map]. rewrite int_dec. reflexivity. Qed.
Lemma deci_dec : forall z, (0 <= z)%Z -> deci z = dec (Z.to_N z).
Proof. intros [|p|p] H; try reflexivity. lia. Qed.
Lemma deci_read : forall z, (0 <= z)%Z -> option_map (int_of 10) (several digit10 (deci z)) = Some (Z.to_N z).
Proof. intros z H. rewrite deci_dec by exact H. apply dec_read. Qed.

(** * Splitting a text at the lines that start with a word *)
Fixpoint calm (sep0 : ascii) (bol : bool) (s : string) : Prop :=
  match s with
  | EmptyString => bol = false
  | String c t => (bol = true -> c <> sep0) /\ calm sep0 (Ascii.eqb c newline) t
  end.
Lemma split_nonempty : forall sep s k b, split_bol sep k b s <> [].
Proof.
  intros sep. induction s as [|c s IH]; intros k b; cbn [split_bol]; [discriminate|]. destruct k; [|apply IH].
  destruct (b && prefix sep (String c s)); [discriminate|]. destruct (split_bol sep 0 _ s); discriminate.
Qed.
Lemma calm_split : forall x sep s b rest p ps, calm x b s -> split_bol (String x sep) 0 true rest = p :: ps ->
  split_bol (String x sep) 0 b (s ++ String newline rest) = (s ++ String newline p)%string :: ps.
Proof.
  intros x sep. induction s as [|c s IH]; intros b rest p ps C E.
  - cbn [calm] in C. subst b. cbn [append split_bol andb]. change (Ascii.eqb newline (ascii_of_N 10)) with true.
    rewrite E. reflexivity.
  - cbn [calm] in C. destruct C as [C1 C2].
    change ((String c s) ++ String newline rest)%string with (String c (s ++ String newline rest)).
    cbn [split_bol]. replace (b && prefix (String x sep) (String c (s ++ String newline rest))) with false.
    + change (ascii_of_N 10) with newline. rewrite (IH _ _ _ _ C2 E). reflexivity.
    + destruct b; [|reflexivity]. cbn [andb prefix]. destruct (ascii_dec x c) as [->|]; [|reflexivity].
      exfalso. apply C1; reflexivity.
Qed.
Lemma calm_app : forall x a b0 s, calm x b0 a -> calm x false s -> calm x b0 (a ++ s).
Proof.
  intros x. induction a as [|c a IH]; intros b0 s A S; cbn [calm append] in *; [subst; exact S|].
  destruct A as [A1 A2]. split; auto.
Qed.
Lemma calm_unbroken : forall x a, all unbroken a = true -> calm x false a.
Proof.
  intros x. induction a as [|c a IH]; intros H; cbn [calm all] in *; [reflexivity|]. apply andb_true_iff in H.
  destruct H as [H1 H2]. split; [discriminate|]. unfold unbroken, is_newline in H1.
  destruct (Ascii.eqb_spec c newline) as [->|_]; [discriminate H1|]. apply IH, H2.
Qed.
(** The lines of a block are indented, but for the last one. *)
Definition indented_line (l : line) : Prop := match l with L (S _) _ => True | _ => False end.
Lemma calm_rest : forall x d s, x <> space -> printable d -> Forall indented_line d -> render_rest 0 d = Ok s -> calm x false s.
Proof.
  intros x d s X P. revert s. induction P as [|[k ws|k] d F P IH]; intros s I R; cbn [render_rest] in R; [injection R as <-; reflexivity| |tauto].
  inversion I as [|? ? I1 I2]; subst. destruct k as [|k]; [exfalso; exact I1|].
  destruct (render_rest 0 d) as [s'| | | |] eqn:E; try discriminate. injection R as <-.
  change (indent 0 (S k)) with (String newline (chars (2 * S k) space)).
  replace (2 * S k)%nat with (S (S (2 * k))) by lia. cbn [chars append calm]. split; [discriminate|].
  change (Ascii.eqb newline newline) with true. split; [intros _ Q; apply X; symmetry; exact Q|].
  change (Ascii.eqb space newline) with false.
  apply calm_app; [apply calm_unbroken, chars_unbroken|]. apply calm_app; [apply calm_unbroken, concat_unbroken, F|].
  apply IH; auto.
Qed.
Lemma deeper_indented : forall d, printable d -> Forall indented_line (map deeper d).
Proof. intros d P. induction P as [|[k ws|k] d F P IH]; cbn [map deeper]; constructor; auto; try tauto; exact I. Qed.
Lemma rest_app : forall level a b s, render_rest level (a ++ b) = Ok s ->
  exists sa sb, render_rest level a = Ok sa /\ render_rest level b = Ok sb /\ s = (sa ++ sb)%string.
Proof.
  intros level a b. induction a as [|[k ws|k] a IH]; intros s H; cbn [app render_rest] in *; [exists ""%string, s; auto| |discriminate].
  destruct (render_rest level (a ++ b)) as [r| | | |] eqn:E; try discriminate. injection H as <-.
  destruct (IH _ eq_refl) as (sa & sb & -> & E2 & ->). cbn [rbind]. eexists _, sb. split; [reflexivity|]. split; [exact E2|].
  rewrite !app_assoc_s. reflexivity.
Qed.
(** What follows the first line of a block. *)
Lemma calm_block : forall x d s, x <> space -> x <> "}"%char -> printable d ->
  render_rest 0 (map deeper d ++ [L 0 ["}"%string]]) = Ok s -> calm x false s.
Proof.
  intros x d s X1 X2 P R. apply rest_app in R. destruct R as (sa & sb & Ra & Rb & ->).
  apply calm_app.
  - eapply calm_rest; [exact X1| | |exact Ra]; [apply printable_deeper, P|apply deeper_indented, P].
  - cbn in Rb. injection Rb as <-. cbn [calm]. split; [discriminate|]. split; [intros _ Q; apply X2; symmetry; exact Q|reflexivity].
Qed.
