(** Proofs about the command line of the tool. *)
From Coq Require Import NArith ZArith List Bool String Ascii Lia.
From Verif Require Import Base Dump ToolText Files Cmdline SpecCmdline.
Import ListNotations.
Open Scope string_scope.

Lemma prefix_exists : forall s t, String.prefix s t = true <-> exists u, t = s ++ u.
Proof.
  induction s as [|c s IH]; intros t.
  - split; [intros _; exists t; reflexivity|intros _; destruct t; reflexivity].
  - destruct t as [|d t]; cbn [String.prefix]; [split; [discriminate|intros (u & E); discriminate]|].
    destruct (Ascii.ascii_dec c d) as [->|N].
    + rewrite IH. split; intros (u & E); exists u; [cbn; congruence|injection E as E; exact E].
    + split; [discriminate|intros (u & E); injection E as E _; congruence].
Qed.
Lemma append_nil : forall s, s ++ "" = s.
Proof. induction s as [|c s IH]; cbn; congruence. Qed.
Lemma append_assoc : forall a b c, (a ++ b) ++ c = a ++ (b ++ c).
Proof. induction a as [|x a IH]; intros; cbn; [reflexivity|f_equal; apply IH]. Qed.

Section Lookup.
  Context {K : Type}.
  Lemma filter_unique : forall (p : string * K -> bool) l e, NoDup (map fst l) -> In e l -> p e = true ->
    (forall x, In x l -> p x = true -> fst x = fst e) -> filter p l = [e].
  Proof.
    intros p l e. induction l as [|x l IH]; intros D I P U; [destruct I|]. cbn [map] in D. inversion D as [|? ? D1 D2]; subst.
    assert (R : forall y, fst y = fst e -> In y l -> x = e -> False) by (intros y E Y ->; apply D1; rewrite <- E; apply in_map, Y).
    cbn [filter]. destruct I as [->|I].
    - rewrite P. f_equal. assert (Z : forall l', (forall y, In y l' -> p y = false) -> filter p l' = []) by (clear; induction l' as [|y l' IH]; intros H; [reflexivity|]; cbn [filter]; rewrite (H y (or_introl eq_refl)); apply IH; intros; apply H; right; assumption). apply Z. intros y Y. destruct (p y) eqn:PY; [|reflexivity]. exfalso. apply (R y); auto. apply U; [right; exact Y|exact PY].
    - destruct (p x) eqn:PX.
      + exfalso. apply D1. rewrite (U x (or_introl eq_refl) PX). apply in_map, I.
      + apply IH; auto. intros y Y. apply U. right. exact Y.
  Qed.
  Lemma nodup_fst : forall (l : list (string * K)) n a b, NoDup (map fst l) -> In (n, a) l -> In (n, b) l -> a = b.
  Proof.
    induction l as [|x l IH]; intros n a b D A B; [destruct A|]. cbn [map] in D. inversion D as [|? ? D1 D2]; subst.
    destruct A as [->|A], B as [E|B].
    - congruence.
    - exfalso. apply D1. apply (in_map fst) in B. exact B.
    - subst x. exfalso. apply D1. apply (in_map fst) in A. exact A.
    - eauto.
  Qed.
End Lookup.

Lemma longopts_nodup : NoDup (map fst longopts).
Proof. cbn. repeat (constructor; [cbn; intuition discriminate|]). constructor. Qed.
Lemma longopts_names : forall n, In n names <-> exists k, In (n, k) longopts.
Proof.
  intros n. split.
  - intros I. cbn in I. repeat (destruct I as [<-|I]; [eexists; cbn; repeat ((left; reflexivity) || right)|]). destruct I.
  - intros (k & I). cbn in I. repeat (destruct I as [E|I]; [injection E as <- _; cbn; repeat ((left; reflexivity) || right)|]). destruct I.
Qed.
Lemma flag_entry : forall n i, In (n, Flag i) longopts <-> In (n, i) flag_names.
Proof.
  intros n i. split; intros I; cbn in I;
  repeat (destruct I as [E|I]; [first [discriminate E|injection E as <- <-; cbn; repeat ((left; reflexivity) || right)]|]); destruct I.
Qed.
Lemma arg_entry : forall n f, In (n, f) arg_names -> In (n, Arg (fun v => Other (f v))) longopts.
Proof. intros n f I. cbn in I. repeat (destruct I as [E|I]; [injection E as <- <-; cbn; repeat ((left; reflexivity) || right)|]). destruct I. Qed.
Lemma entry_arg : forall n k, In (n, Arg k) longopts -> exists f, In (n, f) arg_names /\ k = fun v => Other (f v).
Proof.
  intros n k I. cbn in I.
  repeat (destruct I as [E|I]; [first [discriminate E|injection E as <- <-; eexists; split; [cbn; repeat ((left; reflexivity) || right)|reflexivity]]|]). destruct I.
Qed.

Lemma find_long_some : forall s k, find_long s = Some k -> exists n, In (n, k) longopts /\ stands_for s n.
Proof.
  intros s k E. unfold find_long in E. destruct (find _ longopts) as [[n k']|] eqn:F.
  - injection E as <-. apply find_some in F. destruct F as [I Q]. apply String.eqb_eq in Q. cbn [fst] in Q. subst n.
    exists s. split; [exact I|]. split; [exists ""; symmetry; apply append_nil|left; reflexivity].
  - destruct (filter _ longopts) as [|e [|e' r]] eqn:L; try discriminate. injection E as <-. destruct e as [n k].
    assert (I : In (n, k) (filter (fun e => String.prefix s (fst e)) longopts)) by (rewrite L; left; reflexivity).
    apply filter_In in I. destruct I as [I P]. cbn [fst snd] in *. apply prefix_exists in P. exists n. split; [exact I|]. split; [exact P|]. right.
    intros other t O Q. apply longopts_names in O. destruct O as [k' O].
    assert (I' : In (other, k') (filter (fun e => String.prefix s (fst e)) longopts)) by (apply filter_In; split; [exact O|cbn [fst]; apply prefix_exists; exists t; exact Q]).
    rewrite L in I'. destruct I' as [X|[]]. congruence.
Qed.
Lemma find_long_in : forall s n k, In (n, k) longopts -> stands_for s n -> find_long s = Some k.
Proof.
  intros s n k I [[t P] U]. unfold find_long. destruct (find _ longopts) as [[n' k']|] eqn:F.
  - apply find_some in F. destruct F as [I' Q]. apply String.eqb_eq in Q. cbn [fst] in Q. subst n'. cbn [snd]. f_equal.
    assert (Q : s = n).
    { destruct U as [U|U]; [exact U|]. apply (U s ""); [apply longopts_names; exists k'; exact I'|symmetry; apply append_nil]. }
    rewrite <- Q in I. exact (nodup_fst _ _ _ _ longopts_nodup I' I).
  - destruct U as [U|U].
    + rewrite <- U in I. exfalso. apply (find_none _ _ F) in I. cbn [fst] in I. rewrite String.eqb_refl in I. discriminate.
    + rewrite (filter_unique _ _ (n, k) longopts_nodup I); [reflexivity|cbn [fst]; apply prefix_exists; exists t; exact P|].
      intros [n' k'] I' P'. cbn [fst] in *. apply prefix_exists in P'. destruct P' as [t' P']. apply (U n' t'); [apply longopts_names; exists k'; exact I'|exact P'].
Qed.

(** Names without '=' *)
Definition plain (s : string) : Prop := cut_eq s = (s, None).
Lemma cut_none : forall s n, cut_eq s = (n, None) -> s = n.
Proof.
  induction s as [|c s IH]; intros n E; cbn [cut_eq] in E; [congruence|]. destruct (Ascii.eqb c "="); [discriminate|].
  destruct (cut_eq s) as [a b]. injection E as <- ->. f_equal. apply IH. reflexivity.
Qed.
Lemma cut_some : forall s n v, cut_eq s = (n, Some v) -> s = n ++ "=" ++ v.
Proof.
  induction s as [|c s IH]; intros n v E; cbn [cut_eq] in E; [congruence|]. destruct (Ascii.eqb c "=") eqn:C.
  - injection E as <- <-. apply Ascii.eqb_eq in C. subst c. reflexivity.
  - destruct (cut_eq s) as [a b]. injection E as <- ->. cbn [append]. f_equal. apply IH. reflexivity.
Qed.
Lemma plain_prefix : forall s t, plain (s ++ t) -> plain s.
Proof.
  induction s as [|c s IH]; intros t P; [reflexivity|]. unfold plain in *. cbn [append cut_eq] in *. destruct (Ascii.eqb c "="); [discriminate|].
  destruct (cut_eq (s ++ t)) as [a b] eqn:E. injection P as -> ->. rewrite (IH t E). reflexivity.
Qed.
Lemma plain_value : forall s v, plain s -> cut_eq (s ++ "=" ++ v) = (s, Some v).
Proof.
  induction s as [|c s IH]; intros v P; [reflexivity|]. unfold plain in *. cbn [append cut_eq] in *. destruct (Ascii.eqb c "="); [discriminate|].
  destruct (cut_eq s) as [a b] eqn:E. injection P as -> ->. rewrite (IH v eq_refl). reflexivity.
Qed.
Lemma names_plain : forall n, In n names -> plain n.
Proof. intros n I. cbn in I. repeat (destruct I as [<-|I]; [reflexivity|]). destruct I. Qed.
Lemma stands_plain : forall s n k, In (n, k) longopts -> stands_for s n -> plain s.
Proof. intros s n k I [[t ->] _]. apply plain_prefix with t, names_plain, longopts_names. exists k. exact I. Qed.
Lemma stands_nonempty : forall s n k, In (n, k) longopts -> stands_for s n -> s <> "".
Proof.
  intros s n k I [_ U] ->. destruct U as [U|U].
  - subst n. cbn in I. repeat (destruct I as [E|I]; [discriminate E|]). destruct I.
  - assert (A : "debug" = n) by (apply (U "debug" "debug"); [apply longopts_names; eexists; left; reflexivity|reflexivity]).
    assert (B : "infile" = n) by (apply (U "infile" "infile"); [apply longopts_names; eexists; right; left; reflexivity|reflexivity]). congruence.
Qed.

(** Letters *)
Lemma find_short_some : forall c k, find_short c = Some k ->
  (exists i, k = Flag i /\ flag_letter c i) \/ exists f, k = Arg (fun v => Other (f v)) /\ arg_letter c f.
Proof.
  intros c k E. unfold find_short in E. destruct (find _ shortopts) as [[c' k']|] eqn:F; [|discriminate]. injection E as <-.
  apply find_some in F. destruct F as [I Q]. apply Ascii.eqb_eq in Q. cbn [fst] in Q. subst c'. cbn [snd]. cbn in I.
  repeat (destruct I as [E|I]; [injection E as <- <-; first [left; eexists; split; [reflexivity|constructor]|right; eexists; split; [reflexivity|constructor]]|]). destruct I.
Qed.
Lemma flag_letter_find : forall c i, flag_letter c i -> find_short c = Some (Flag i).
Proof. intros c i []; reflexivity. Qed.
Lemma arg_letter_find : forall c f, arg_letter c f -> find_short c = Some (Arg (fun v => Other (f v))).
Proof. intros c i []; reflexivity. Qed.
Lemma short_app : forall s is t, letters s is ->
  short_step (s ++ t) = match short_step t with Give js => Give (is ++ js) | Next js f => Next (is ++ js) f end%list.
Proof.
  intros s is t L. induction L as [|c i s is F L IH]; cbn [append app]; [destruct (short_step t); reflexivity|].
  cbn [short_step]. rewrite (flag_letter_find _ _ F), IH. destruct (short_step t); reflexivity.
Qed.
Lemma short_give : forall s is, short_step s = Give is -> ~ In unsupported is ->
  letters s is \/ exists p js c f v, s = p ++ String c v /\ v <> "" /\ letters p js /\ arg_letter c f /\ is = (js ++ [Other (f v)])%list.
Proof.
  induction s as [|c s IH]; intros is E N; cbn [short_step] in E; [injection E as <-; left; constructor|].
  destruct (find_short c) as [k|] eqn:F; [|injection E as <-; exfalso; apply N; left; reflexivity].
  destruct (find_short_some _ _ F) as [(i & -> & L)|(f & -> & L)].
  - destruct (short_step s) as [js|js g] eqn:SS; [|discriminate]. injection E as <-.
    destruct (IH js eq_refl) as [H|(p & js' & c' & f & v & -> & V & H & A & ->)]; [intros X; apply N; right; exact X|left; constructor; assumption|].
    right. exists (String c p), (i :: js')%list, c', f, v. repeat split; auto. constructor; assumption.
  - destruct s as [|c' s]; [discriminate|]. injection E as <-. right. exists "", [], c, f, (String c' s). repeat split; auto; [discriminate|constructor].
Qed.
Lemma short_next : forall s is g, short_step s = Next is g ->
  exists p c f, s = p ++ String c "" /\ letters p is /\ arg_letter c f /\ g = fun v => Other (f v).
Proof.
  induction s as [|c s IH]; intros is g E; cbn [short_step] in E; [discriminate|].
  destruct (find_short c) as [k|] eqn:F; [|discriminate].
  destruct (find_short_some _ _ F) as [(i & -> & L)|(f & -> & L)].
  - destruct (short_step s) as [js|js g'] eqn:SS; [discriminate|]. injection E as <- <-.
    destruct (IH js g' eq_refl) as (p & c' & f & -> & H & A & ->). exists (String c p), c', f. repeat split; auto. constructor; assumption.
  - destruct s as [|c' s]; [|discriminate]. injection E as <- <-. exists "", c, f. repeat split; auto. constructor.
Qed.

(** The two directions *)
Lemma getopt_long_long : forall s l, s <> "" -> getopt_long (("--" ++ s) :: l) =
  match long_step s with
  | Give is => is ++ getopt_long l
  | Next is f => match l with [] => is ++ [unsupported] | v :: l' => is ++ f v :: getopt_long l' end
  end%list.
Proof. intros s l N. destruct s as [|c s]; [congruence|]. reflexivity. Qed.
Lemma getopt_long_short : forall c s l, c <> "-"%char -> getopt_long (("-" ++ String c s) :: l) =
  match short_step (String c s) with
  | Give is => is ++ getopt_long l
  | Next is f => match l with [] => is ++ [unsupported] | v :: l' => is ++ f v :: getopt_long l' end
  end%list.
Proof. intros c s l N. apply Ascii.eqb_neq in N. cbn [append getopt_long]. rewrite N. reflexivity. Qed.
Lemma getopt_letters : forall s is t l, letters s is -> s ++ t <> "" -> (forall t', t <> String "-" t') -> getopt_long (("-" ++ s ++ t) :: l) =
  match short_step (s ++ t) with
  | Give is => is ++ getopt_long l
  | Next is f => match l with [] => is ++ [unsupported] | v :: l' => is ++ f v :: getopt_long l' end
  end%list.
Proof.
  intros s is t l L N D. destruct L as [|c i s is F L]; cbn [append] in *.
  - destruct t as [|c t]; [congruence|]. apply getopt_long_short. intros ->. exact (D t eq_refl).
  - apply getopt_long_short. destruct F; discriminate.
Qed.
Lemma getopt_operand : forall a l, ~ (exists s, s <> "" /\ a = "-" ++ s) -> getopt_long (a :: l) = getopt_long l.
Proof.
  intros a l N. destruct a as [|c1 [|c2 s]]; try reflexivity. cbn [getopt_long]. destruct (Ascii.eqb c1 "-") eqn:C; [|reflexivity].
  exfalso. apply N. apply Ascii.eqb_eq in C. subst c1. exists (String c2 s). split; [discriminate|reflexivity].
Qed.

Theorem written_getopt : forall argv is, written argv is -> getopt_long argv = is.
Proof.
  intros argv is W. induction W as [|a l is N W IH|l|s n i l is I Q W IH|s n f v l is I Q W IH|s n f v l is I Q W IH|s is l is' L N W IH|s is c f v l is' L A V W IH|s is c f v l is' L A W IH].
  - reflexivity.
  - rewrite getopt_operand by exact N. exact IH.
  - reflexivity.
  - apply flag_entry in I. rewrite getopt_long_long by exact (stands_nonempty _ _ _ I Q). unfold long_step.
    rewrite (stands_plain _ _ _ I Q), (find_long_in _ _ _ I Q), IH. reflexivity.
  - apply arg_entry in I. rewrite getopt_long_long by (destruct s; discriminate). unfold long_step.
    rewrite (plain_value _ v (stands_plain _ _ _ I Q)), (find_long_in _ _ _ I Q), IH. reflexivity.
  - apply arg_entry in I. rewrite getopt_long_long by exact (stands_nonempty _ _ _ I Q). unfold long_step.
    rewrite (stands_plain _ _ _ I Q), (find_long_in _ _ _ I Q), IH. reflexivity.
  - rewrite <- (append_nil s) at 1. rewrite (getopt_letters s is "" l L); [|rewrite append_nil; exact N|discriminate].
    rewrite (short_app _ _ _ L). cbn [short_step]. rewrite app_nil_r, IH. reflexivity.
  - rewrite (getopt_letters s is (String c v) l L); [|destruct s; discriminate|intros t' E; injection E as -> _; inversion A].
    rewrite (short_app _ _ _ L). cbn [short_step]. rewrite (arg_letter_find _ _ A). destruct v as [|x v]; [congruence|]. rewrite IH, <- app_assoc. reflexivity.
  - rewrite (getopt_letters s is (String c "") (v :: l) L); [|destruct s; discriminate|intros t' E; injection E as -> _; inversion A].
    rewrite (short_app _ _ _ L). cbn [short_step]. rewrite (arg_letter_find _ _ A). rewrite app_nil_r, IH. reflexivity.
Qed.
Theorem getopt_written : forall argv, ~ In unsupported (getopt_long argv) -> written argv (getopt_long argv).
Proof.
  intros argv. remember (List.length argv) as n eqn:LN. revert argv LN. induction n as [n IH] using (well_founded_induction Wf_nat.lt_wf). intros argv -> N.
  assert (R : forall l, (List.length l < List.length argv)%nat -> ~ In unsupported (getopt_long l) -> written l (getopt_long l)) by (intros l LL; exact (IH _ LL l eq_refl)). clear IH.
  destruct argv as [|a l]; [constructor|].
  assert (R1 : ~ In unsupported (getopt_long l) -> written l (getopt_long l)) by (apply R; cbn; lia).
  destruct a as [|c1 [|c2 s]].
  - apply written_operand; [intros (x & X & E); discriminate|apply R1, N].
  - apply written_operand; [intros (x & X & E); injection E as _ E; congruence|apply R1, N].
  - destruct (Ascii.eqb c1 "-") eqn:C1.
    + apply Ascii.eqb_eq in C1. subst c1. destruct (Ascii.eqb c2 "-") eqn:C2.
      * apply Ascii.eqb_eq in C2. subst c2. destruct s as [|c s]; [apply written_end|].
        change (String "-" (String "-" (String c s))) with ("--" ++ String c s) in *. set (t := String c s) in *.
        rewrite getopt_long_long in * by discriminate. unfold long_step in *. destruct (cut_eq t) as [nm v] eqn:CT.
        destruct (find_long nm) as [k|] eqn:F; [|exfalso; apply N; destruct v; left; reflexivity].
        destruct (find_long_some _ _ F) as (n' & I & Q). destruct k as [i|f].
        -- destruct v as [v|]; [exfalso; apply N; left; reflexivity|]. apply cut_none in CT. subst nm. cbn [app] in *.
           apply written_flag with n'; [apply flag_entry, I|exact Q|]. apply R1. intros X. apply N. right. exact X.
        -- destruct (entry_arg _ _ I) as (g & G & ->). destruct v as [v|].
           ++ apply cut_some in CT. rewrite CT. cbn [app] in *. apply written_value with n'; [exact G|exact Q|]. apply R1. intros X. apply N. right. exact X.
           ++ apply cut_none in CT. subst nm. destruct l as [|v l]; [exfalso; apply N; left; reflexivity|]. cbn [app] in *.
              apply written_next with n'; [exact G|exact Q|]. apply R; [cbn; lia|]. intros X. apply N. right. exact X.
      * apply Ascii.eqb_neq in C2. change (String "-" (String c2 s)) with ("-" ++ String c2 s) in *. rewrite getopt_long_short in * by exact C2.
        destruct (short_step (String c2 s)) as [is|is f] eqn:SS.
        -- destruct (short_give _ _ SS) as [L|(p & js & c & f & v & E & V & L & A & ->)]; [intros X; apply N; apply in_or_app; left; exact X| |].
           ++ apply written_letters; [exact L|discriminate|]. apply R1. intros X. apply N. apply in_or_app. right. exact X.
           ++ rewrite E. rewrite <- app_assoc. cbn [app]. apply written_letters_value; auto. apply R1. intros X. apply N. apply in_or_app. right. exact X.
        -- destruct (short_next _ _ _ SS) as (p & c & g & E & L & A & ->). destruct l as [|v l]; [exfalso; apply N; apply in_or_app; right; left; reflexivity|].
           rewrite E. apply written_letters_next; auto. apply R; [cbn; lia|]. intros X. apply N. apply in_or_app. right. right. exact X.
    + rewrite getopt_operand in * by (intros (x & X & E); injection E as -> _; discriminate).
      apply written_operand; [intros (x & X & E); injection E as -> _; discriminate|apply R1, N].
Qed.
Lemma written_supported : forall argv is, written argv is -> ~ In unsupported is.
Proof.
  assert (F : forall n i, In (n, i) flag_names -> i <> unsupported).
  { intros n i I. cbn in I. repeat (destruct I as [E|I]; [injection E as _ <-; discriminate|]). destruct I. }
  assert (A : forall n f v, In (n, f) arg_names -> Other (f v) <> unsupported).
  { intros n f v I. cbn in I. repeat (destruct I as [E|I]; [injection E as _ <-; discriminate|]). destruct I. }
  assert (A' : forall c f v, arg_letter c f -> Other (f v) <> unsupported) by (intros c f v []; discriminate).
  assert (L : forall s is, letters s is -> ~ In unsupported is).
  { intros s is L. induction L as [|c i s is X L IH]; [intros []|]. intros [E|E]; [destruct X; discriminate|auto]. }
  intros argv is W. induction W; try (intros []; fail); try assumption; try (intros [E|E]; [|auto]; first [eapply F; eassumption|eapply A; eassumption]).
  - intros E. apply in_app_or in E. destruct E as [E|E]; [exact (L _ _ H E)|auto].
  - intros E. apply in_app_or in E. destruct E as [E|[E|E]]; [exact (L _ _ H E)|exact (A' _ _ _ H0 E)|auto].
  - intros E. apply in_app_or in E. destruct E as [E|[E|E]]; [exact (L _ _ H E)|exact (A' _ _ _ H0 E)|auto].
Qed.
