(** Dumps: the words determine the values. *)
From Coq Require Import NArith ZArith List Bool Lia ZifyBool ZifyNat ZifyN String Ascii.
From Verif Require Import SpecBits Base BitBuffer SpecReader BitsLemmas BitBufferProofs
  ReaderProofs Rbsp RbspProofs ChecksumProofs Parser SpecSyntax ParserProofs TypesSps TypesPps SpecVui Vui VuiProofs
  SpecScaling SpecSps Sps SpsProofs SpecPps Pps PpsProofs TypesNal NalHeader SpecNalHeader NalHeaderProofs
  TypesExt Ext SpecExt ExtProofs TypesSlice SpecSliceParts TypesSliceHeader SliceHeader SpecSlice SliceProofs TypesSvcSlice
  SvcSlice SpecSvcSlice SvcSliceProofs TypesNalUnit NalUnit NalUnitProofs SpecNalUnit NalUnitProofs2 NalType Rtp RtpProofs
  SpecRbsp PropsNalUnit Tool PropsTool SpecDump SpecShown Dump DumpProofs DumpProofs2 DumpProofs3.
Import ListNotations.
Open Scope N_scope.
Open Scope list_scope.
Ltac Zify.zify_post_hook ::= Z.div_mod_to_equations.

(** * One field *)
Lemma fld_step : forall k v v' r r', flat (fld k v) ++ r = flat (fld k v') ++ r' -> v = v' /\ r = r'.
Proof. intros k v v' r r' H. cbn in H. injection H as H1 H2. auto. Qed.
Lemma fu_step : forall k n m r r', flat (fu k n) ++ r = flat (fu k m) ++ r' -> n = m /\ r = r'.
Proof. intros k n m r r' H. apply fld_step in H. destruct H as [H ?]. split; [apply dec_inj, H|auto]. Qed.
Lemma fi_step : forall k n m r r', flat (fi k n) ++ r = flat (fi k m) ++ r' -> n = m /\ r = r'.
Proof. intros k n m r r' H. apply fld_step in H. destruct H as [H ?]. split; [apply deci_inj, H|auto]. Qed.
Lemma of_i32_inj : forall a b, is_se a -> is_se b -> of_i32 a = of_i32 b -> a = b.
Proof. intros a b A B. unfold of_i32, is_se in *. lia. Qed.
Lemma fiu_step : forall k n m r r', is_se n -> is_se m -> flat (fiu k n) ++ r = flat (fiu k m) ++ r' -> n = m /\ r = r'.
Proof. intros k n m r r' A B H. apply fu_step in H. destruct H as [H ?]. split; [apply of_i32_inj; auto|auto]. Qed.
Lemma hex_step : forall k n m r r', flat (fld k (hex8 n)) ++ r = flat (fld k (hex8 m)) ++ r' -> n = m /\ r = r'.
Proof. intros k n m r r' H. apply fld_step in H. destruct H as [H ?]. split; [apply hex8_inj, H|auto]. Qed.
Lemma dec_brace : forall n, dec n <> "}"%string.
Proof. intros n H. pose proof (dec_plain n) as P. rewrite H in P. discriminate. Qed.
Lemma deci_brace : forall n, deci n <> "}"%string.
Proof. intros n H. pose proof (deci_plain n) as P. rewrite H in P. discriminate. Qed.
Lemma list_step : forall A (f : A -> string) l l' r r', (forall x, f x <> "}"%string) -> (forall x y, f x = f y -> x = y) ->
  map f l ++ "}"%string :: r = map f l' ++ "}"%string :: r' -> l = l' /\ r = r'.
Proof.
  intros A f l l' r r' NB I. revert l'. induction l as [|x l IH]; intros [|y l'] H; cbn [map app] in H.
  - injection H as <-. auto.
  - injection H as H _. symmetry in H. apply NB in H. tauto.
  - injection H as H _. apply NB in H. tauto.
  - pose proof (f_equal (hd ""%string) H) as H1. pose proof (f_equal (@tl string) H) as H2. cbn [hd tl] in *.
    apply I in H1. apply IH in H2. destruct H2 as [-> ->]. subst. auto.
Qed.
Lemma flist_step : forall k a b r r', flat (flist k a) ++ r = flat (flist k b) ++ r' ->
  a ++ "}"%string :: r = b ++ "}"%string :: r'.
Proof.
  intros k a b r r' H. unfold flist in H. cbn [flat flat_map app] in H. rewrite !app_nil_r, <- !app_assoc in H. cbn [app] in H.
  injection H as H. exact H.
Qed.
Lemma fus_step : forall k l l' r r', flat (fus k l) ++ r = flat (fus k l') ++ r' -> l = l' /\ r = r'.
Proof. intros k l l' r r' H. apply flist_step in H. apply list_step in H; auto using dec_brace, dec_inj. Qed.
Lemma fis_step : forall k l l' r r', flat (fis k l) ++ r = flat (fis k l') ++ r' -> l = l' /\ r = r'.
Proof. intros k l l' r r' H. apply flist_step in H. apply list_step in H; auto using deci_brace, deci_inj. Qed.
Lemma fiss_step : forall k l l' r r', flat (fiss k l) ++ r = flat (fiss k l') ++ r' -> l = l' /\ r = r'.
Proof.
  intros k l l' r r' H. apply flist_step in H. revert l' H. induction l as [|x l IH]; intros [|y l'] H; cbn [flat_map app] in H.
  - injection H as <-. auto.
  - injection H as H _. discriminate.
  - injection H as H _. discriminate.
  - rewrite <- !app_assoc in H. cbn [app] in H. injection H as H. rewrite <- ?app_assoc in H. cbn [app] in H.
    apply list_step in H; auto using deci_brace, deci_inj. destruct H as [-> H].
    apply IH in H. destruct H as [-> ->]. auto.
Qed.
Lemma block_step : forall n a b r r', flat (block n a) ++ r = flat (block n b) ++ r' ->
  flat a ++ "}"%string :: r = flat b ++ "}"%string :: r'.
Proof.
  intros n a b r r' H. rewrite !flat_block in H. cbn [app] in H. rewrite <- !app_assoc in H. cbn [app] in H.
  injection H as H. exact H.
Qed.

Lemma app_step : forall a d r a' d' r', flat (a ++ d) ++ r = flat (a' ++ d') ++ r' ->
  flat a ++ (flat d ++ r) = flat a' ++ (flat d' ++ r').
Proof. intros a d r a' d' r' H. rewrite !flat_app, <- !app_assoc in H. exact H. Qed.

Lemma scal_step : forall k a b r r', flat (dump_scal k a) ++ r = flat (dump_scal k b) ++ r' -> a = b /\ r = r'.
Proof.
  intros k a b r r' E. unfold dump_scal in E.
  do 5 (apply app_step in E; apply fus_step in E; destruct E as [? E]). apply fi_step in E. destruct E as [? E].
  split; [|exact E]. destruct a, b; cbn in *; congruence.
Qed.
Lemma profile_step : forall p q n m d d' r r',
  flat [L 0 ("profile:"%string :: profile_words p)] ++ (flat (fu "level_idc" n ++ d) ++ r) =
  flat [L 0 ("profile:"%string :: profile_words q)] ++ (flat (fu "level_idc" m ++ d') ++ r') ->
  p = q /\ flat (fu "level_idc" n ++ d) ++ r = flat (fu "level_idc" m ++ d') ++ r'.
Proof.
  intros p q n m d d' r r' E. rewrite !flat_app, <- !app_assoc in *.
  change (flat (fu "level_idc" n)) with ["level_idc:"%string; dec n] in *.
  change (flat (fu "level_idc" m)) with ["level_idc:"%string; dec m] in *.
  generalize dependent (flat d ++ r). generalize dependent (flat d' ++ r'). intros x y E.
  destruct p, q; cbn [profile_words flat flat_map app] in *;
    solve [discriminate | split; [reflexivity|]; injection E as E1 E2; rewrite E1, E2; reflexivity].
Qed.

(** [f] prints enough of the values in [V] to find [g] of them. *)
Definition shows {A B} (V : A -> Prop) (f : A -> dump) (g : A -> B) : Prop :=
  forall a b r r', V a -> V b -> flat (f a) ++ r = flat (f b) ++ r' -> g a = g b /\ r = r'.
Lemma opt_shows : forall A B V f (g : A -> B) (c : bool) o o' r r', shows V f g -> valid_opt c V o -> valid_opt c V o' ->
  flat (when c (deref o f)) ++ r = flat (when c (deref o' f)) ++ r' -> option_map g o = option_map g o' /\ r = r'.
Proof.
  intros A B V f g c o o' r r' S X Y H. destruct c; cbn [valid_opt when] in *.
  - destruct o as [a|]; [|tauto]. destruct o' as [b|]; [|tauto]. cbn [deref option_map] in *. apply S in H; auto.
    destruct H as [H1 H2]. rewrite H1. auto.
  - subst. auto.
Qed.

Create HintDb shows.
(** * Stepping through two dumps of the same form *)
(** Split the atoms of a condition, everywhere. *)
Ltac decide_atom c :=
  lazymatch c with
  | negb ?d => decide_atom d
  | ?d || ?e => decide_atom d; decide_atom e
  | ?d && ?e => decide_atom d; decide_atom e
  | true => idtac
  | false => idtac
  | _ => let C := fresh "C" in destruct c eqn:C;
         repeat match goal with H : context[c] |- _ => lazymatch H with C => fail | _ => rewrite C in H end end
  end.
Ltac tidy := cbn [negb andb orb when] in *; cbv beta iota in *.
Ltac conj0 := repeat match goal with H : _ /\ _ |- _ => destruct H end.
(** The pairs of values two dumps of the same form show. *)
Ltac pairs d d' :=
  lazymatch d with
  | fu _ ?x => lazymatch d' with fu _ ?y => constr:(x = y) end
  | fi _ ?x => lazymatch d' with fi _ ?y => constr:(x = y) end
  | fiu _ ?x => lazymatch d' with fiu _ ?y => constr:(x = y) end
  | fus _ ?x => lazymatch d' with fus _ ?y => constr:(x = y) end
  | fis _ ?x => lazymatch d' with fis _ ?y => constr:(x = y) end
  | dump_scal _ ?x => lazymatch d' with dump_scal _ ?y => constr:(x = y) end
  | fiss _ ?x => lazymatch d' with fiss _ ?y => constr:(x = y) end
  | ?a ++ ?b => lazymatch d' with ?a' ++ ?b' => let p := pairs a a' in let q := pairs b b' in constr:(p /\ q) end
  | when _ ?a => lazymatch d' with when _ ?b => pairs a b end
  | if _ then ?a else ?b => lazymatch d' with if _ then ?a' else ?b' => let p := pairs a a' in let q := pairs b b' in constr:(p /\ q) end
  | _ => constr:(True)
  end.
Ltac same H := first [is_var_eq H | idtac]
with is_var_eq H := match type of H with ?x = ?y => first [subst x | subst y] end.
Ltac use_eqs := repeat match goal with
  | H : ?x = ?y |- _ => first [subst x | subst y]
  | H : _ /\ _ |- _ => destruct H
  end.
Ltac finish := tidy; conj0; subst; repeat split; solve [auto | congruence | lia].
(** Decide the conditions of the validity of the values. *)
Ltac mentions H x y := match type of H with context[x] => idtac | context[y] => idtac end.
Ltac decide_rest :=
  lazymatch goal with |- ?x = ?y =>
    repeat match goal with H : if ?c then _ else _ |- _ => mentions H x y; decide_atom c; tidy; conj0 end;
    solve [auto | congruence | exfalso; lia]
  end.
Ltac step E :=
  lazymatch type of E with
  | flat (_ ++ _) ++ _ = _ => apply app_step in E
  | flat (fu _ _) ++ _ = _ => let H := fresh in apply fu_step in E; destruct E as [H E]; same H
  | flat (fi _ _) ++ _ = _ => let H := fresh in apply fi_step in E; destruct E as [H E]; same H
  | flat (fiu _ _) ++ _ = _ => let H := fresh in apply fiu_step in E; [destruct E as [H E]; same H|solve [tidy; conj0; auto]|solve [tidy; conj0; auto]]
  | flat (fus _ _) ++ _ = _ => let H := fresh in apply fus_step in E; destruct E as [H E]; same H
  | flat (fis _ _) ++ _ = _ => let H := fresh in apply fis_step in E; destruct E as [H E]; same H
  | flat (fiss _ _) ++ _ = _ => let H := fresh in apply fiss_step in E; destruct E as [H E]; same H
  | flat (dump_scal _ _) ++ _ = _ => let H := fresh in apply scal_step in E; destruct E as [H E]; same H
  | flat (block _ _) ++ _ = _ => apply block_step in E
  | flat [L 0 (_ :: profile_words _)] ++ (flat (fu "level_idc" _ ++ _) ++ _) = _ => let H := fresh in
      apply profile_step in E; destruct E as [H E]; same H
  | flat [] ++ _ = _ => cbn [flat flat_map app] in E
  | flat (when _ (dump_resolution _)) ++ _ = _ => fail
  | flat (when _ (deref _ _)) ++ _ = _ => let H := fresh in
      eapply opt_shows in E; [destruct E as [H E]|solve [eauto with shows nocore]|eassumption|eassumption]
  | flat (when ?c ?d) ++ ?r = flat (when _ ?d') ++ ?r' => cut_step E c d d' r r'
  | flat (if ?c then ?a else ?b) ++ ?r = flat (if _ then ?a' else ?b') ++ ?r' =>
      cut_step E c (if c then a else b) (if c then a' else b') r r'
  end
with steps E := repeat (step E)
with cut_step E c d d' r r' :=
  let q := pairs d d' in
  let K := fresh "K" in
  assert (K : q /\ r = r');
  [ revert E; generalize r r'; intros ? ? E; decide_atom c; tidy; conj0; subst; [..]; try (steps E); repeat split; try solve [auto | congruence | decide_rest]
  | clear E; destruct K as [K E]; use_eqs ].

(** * Structures *)
Lemma triples : forall l l' : list (N * N * N), map (fun x => fst (fst x)) l = map (fun x => fst (fst x)) l' ->
  map (fun x => snd (fst x)) l = map (fun x => snd (fst x)) l' -> map snd l = map snd l' -> l = l'.
Proof.
  induction l as [|[[a b] c] l IH]; intros [|[[a' b'] c'] l'] H1 H2 H3; cbn [map fst snd] in *; try discriminate; [reflexivity|].
  injection H1 as -> H1. injection H2 as -> H2. injection H3 as -> H3. f_equal. auto.
Qed.
Lemma hrd_shows : shows valid_hrd dump_hrd shown_hrd.
Proof.
  intros a b r r' _ _ E. unfold dump_hrd in E. steps E. injection E as <-. split; [|reflexivity].
  unfold shown_hrd. f_equal; auto using triples.
Qed.
#[export] Hint Resolve hrd_shows : shows.
Lemma vui_shows : shows valid_vui dump_vui shown_vui.
Proof.
  intros [] [] r r' VA VB E. unfold dump_vui in E. unfold valid_vui in *. unfold shown_vui.
  change tob with on in E. red_vui. red_vui in VA. red_vui in VB. red_vui in E. conj0.
  steps E. injection E as <-. split; [|reflexivity]. congruence.
Qed.
#[export] Hint Resolve vui_shows : shows.

Lemma prints_high : forall n, prints_chroma n = is_high n.
Proof.
  intros n. unfold prints_chroma, is_high, high_profiles. cbn [existsb].
  repeat match goal with |- context[n =? ?k] => let H := fresh in destruct (N.eqb_spec n k) as [H|H]; [subst; reflexivity|]; clear H end.
  reflexivity.
Qed.
Lemma resolution_shown : forall s, dump_resolution s = dump_resolution (shown_sps s).
Proof. destruct s. reflexivity. Qed.
Lemma sps_data_shows : forall o, shows ok_sps (dump_sps_data o) shown_sps.
Proof.
  intros o [] [] r r' [la VA] [lb VB] E. unfold dump_sps_data in E. unfold valid_sps in *. 
  change tob with on in E. rewrite !prints_high in E. red_sps in VA. red_sps in VB. red_sps in E. conj0.
  repeat match goal with H : _ = annex_a _ |- _ => clear H end.
  steps E. rewrite resolution_shown in E. symmetry in E. rewrite resolution_shown in E. symmetry in E.
  match type of E with flat (when _ (dump_resolution ?x)) ++ _ = flat (when _ (dump_resolution ?y)) ++ _ =>
    assert (X : x = y) by (unfold shown_sps; red_sps; congruence); rewrite X in E; split; [exact X|] end.
  apply app_inv_head in E. injection E as <-. reflexivity.
Qed.
#[export] Hint Resolve sps_data_shows : shows.
