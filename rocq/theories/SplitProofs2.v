(** Cutting a byte stream in front of start codes. *)
From Coq Require Import NArith ZArith List Bool Lia ZifyBool ZifyNat ZifyN.
From Verif Require Import Base BitBuffer BitsLemmas Framing SpecFraming FramingProofs FramingProofs2 PropsFraming Split SpecSplit.
Import ListNotations.
Open Scope N_scope.
Ltac Zify.zify_post_hook ::= Z.div_mod_to_equations.

Definition indices (l : list N) : list nalu_index := index_list l (size_of l) (poss l 0).
Definition unit_at (l : list N) (x : nalu_index) : list N := SpecFraming.slice (ni_payload x) (ni_size x) l.
Definition units (l : list N) : list (list N) := map (unit_at l) (indices l).
Definition shift (c : N) (x : nalu_index) : nalu_index := mkidx (ni_start x + c) (ni_payload x + c) (ni_size x).

(** [c] is where a start code starts, and no start code ends there. *)
Definition cut (l : list N) (q : N) : Prop :=
  sc_at l q = true /\ forall p, sc_at l p = true -> p < q -> p + 3 < start_of l q.

Lemma sc_app : forall a b, sc_head a = true -> sc_head (a ++ b) = true.
Proof. intros [|x [|y [|z [|w a]]]] b H; try discriminate. exact H. Qed.
Lemma sc_app4 : forall a b, (4 <= length a)%nat -> sc_head (a ++ b) = sc_head a.
Proof. intros [|x [|y [|z [|w a]]]] b H; cbn [length] in H; try lia. reflexivity. Qed.
Lemma sc_short : forall a, (length a < 4)%nat -> sc_head a = false.
Proof. intros [|x [|y [|z [|w a]]]] H; cbn [length] in H; try lia; reflexivity. Qed.
Lemma poss_app : forall a b o, (forall a1 a2, a = a1 ++ a2 -> a2 <> [] -> (length a2 < 4)%nat -> sc_head (a2 ++ b) = false) ->
  poss (a ++ b) o = poss a o ++ poss b (o + size_of a).
Proof.
  induction a as [|x a IH]; intros b o H.
  - cbn [app poss]. f_equal. unfold size_of. cbn. lia.
  - change ((x :: a) ++ b) with (x :: (a ++ b)). cbn [poss].
    rewrite (IH b (o + 1)).
    2: { intros a1 a2 E. apply (H (x :: a1) a2). cbn [app]. f_equal. exact E. }
    replace (o + 1 + size_of a) with (o + size_of (x :: a)) by (unfold size_of; cbn [length]; lia).
    assert (E : sc_head (x :: a ++ b) = sc_head (x :: a)).
    { destruct (Nat.lt_ge_cases (length (x :: a)) 4) as [L|L].
      - rewrite (sc_short (x :: a) L). apply (H [] (x :: a)); auto. discriminate.
      - apply (sc_app4 (x :: a) b L). }
    rewrite E. destruct (sc_head (x :: a)); reflexivity.
Qed.
Lemma poss_shift : forall l o k, poss l (o + k) = map (fun p => p + k) (poss l o).
Proof.
  induction l as [|x l IH]; intros o k; cbn [poss map]; [reflexivity|].
  replace (o + k + 1) with (o + 1 + k) by lia. rewrite IH. destruct (sc_head (x :: l)); reflexivity.
Qed.
Lemma index_list_app : forall l e ps q qs, index_list l e (ps ++ q :: qs) =
  index_list l (start_of l q) ps ++ index_list l e (q :: qs).
Proof.
  intros l e ps q qs. induction ps as [|p [|p' ps] IH]; [reflexivity|reflexivity|].
  cbn [app index_list] in *. rewrite IH. reflexivity.
Qed.
Lemma start_ext : forall l l' p, fetch l (p - 1) = fetch l' (p - 1) -> start_of l p = start_of l' p.
Proof. intros l l' p E. unfold start_of. rewrite E. reflexivity. Qed.
Lemma index_ext : forall l l' e ps, Forall (fun p => start_of l p = start_of l' p) ps -> index_list l e ps = index_list l' e ps.
Proof.
  intros l l' e ps F. induction F as [|p ps E F IH]; [reflexivity|]. cbn [index_list]. rewrite IH, E.
  inversion F as [|q qs EQ]; subst; [reflexivity|]. rewrite EQ. reflexivity.
Qed.
Lemma fetch_app1 : forall a b i, i < size_of a -> fetch (a ++ b) i = fetch a i.
Proof. intros a b i H. unfold size_of in H. rewrite !fetch_nth, nth_error_app1 by lia. reflexivity. Qed.
Lemma fetch_app2 : forall a b i, fetch (a ++ b) (size_of a + i) = fetch b i.
Proof.
  intros a b i. unfold size_of. rewrite !fetch_nth, nth_error_app2 by lia.
  replace (N.to_nat (N.of_nat (length a) + i) - length a)%nat with (N.to_nat i) by lia. reflexivity.
Qed.
Lemma sc_at_app2 : forall a b p, sc_at (a ++ b) (size_of a + p) = sc_at b p.
Proof.
  intros a b p. unfold sc_at, size_of. rewrite skipn_app, skipn_all2 by lia.
  replace (N.to_nat (N.of_nat (length a) + p) - length a)%nat with (N.to_nat p) by lia. reflexivity.
Qed.
Lemma cut_split : forall l q, cut l q -> exists a b, l = a ++ b /\ size_of a = start_of l q /\
  (b = 0 :: 0 :: 1 :: skipn 3 b /\ q = size_of a \/ b = 0 :: 0 :: 0 :: 1 :: skipn 4 b /\ q = size_of a + 1).
Proof.
  intros l q [S C]. pose proof (sc_room l q S) as R. pose proof (start_of_le l q) as LE.
  exists (firstn (N.to_nat (start_of l q)) l), (skipn (N.to_nat (start_of l q)) l).
  assert (SA : size_of (firstn (N.to_nat (start_of l q)) l) = start_of l q) by (unfold size_of; rewrite firstn_length; lia).
  split; [symmetry; apply firstn_skipn|]. split; [exact SA|].
  apply sc_at_iff in S. destruct S as (a & x & b & -> & <-).
  destruct (start_of_cases (a ++ [0; 0; 1] ++ x :: b) (N.of_nat (length a)) ltac:(lia)) as [[Z E]|[Z E]].
  - right. destruct Z as (a' & b' & EQ & L).
    assert (A : a = a' ++ [0]).
    { apply (f_equal (firstn (length a))) in EQ. rewrite firstn_app, firstn_all, Nat.sub_diag in EQ. cbn [firstn] in EQ.
      rewrite app_nil_r in EQ. rewrite EQ. replace (length a) with (length a' + 1)%nat by lia. rewrite firstn_app_2. reflexivity. }
    subst a. rewrite app_length in *. cbn [length] in *.
    replace (N.to_nat (start_of ((a' ++ [0]) ++ [0; 0; 1] ++ x :: b) (N.of_nat (length a' + 1)))) with (length a') by lia.
    rewrite <- app_assoc, skipn_app, skipn_all, Nat.sub_diag. cbn [app skipn]. split; [reflexivity|].
    unfold size_of. rewrite firstn_app, firstn_all, Nat.sub_diag, app_length. cbn. lia.
  - left. rewrite E. rewrite Nat2N.id, skipn_app, skipn_all, Nat.sub_diag. cbn [app skipn]. split; [reflexivity|].
    unfold size_of. rewrite firstn_app, firstn_all, Nat.sub_diag, app_length. cbn. lia.
Qed.
(** The entries of the parts are those of the whole. *)
Theorem cut_indices : forall a b q, cut (a ++ b) q -> size_of a = start_of (a ++ b) q ->
  indices (a ++ b) = indices a ++ map (shift (size_of a)) (indices b).
Proof.
  intros a b q C SA. destruct (cut_split _ _ C) as (a' & b' & E & SA' & K).
  assert (L : length a' = length a) by (unfold size_of in *; lia).
  assert (AB : a' = a /\ b' = b).
  { split; [apply (f_equal (firstn (length a))) in E; rewrite firstn_app, firstn_all, Nat.sub_diag in E;
      rewrite <- L, firstn_app, firstn_all, Nat.sub_diag in E; cbn [firstn] in E; rewrite !app_nil_r in E; congruence|].
    apply (f_equal (skipn (length a))) in E; rewrite skipn_app, skipn_all, Nat.sub_diag in E;
      rewrite <- L, skipn_app, skipn_all, Nat.sub_diag in E; cbn [skipn app] in E; congruence. }
  destruct AB as [-> ->]. clear E SA' L. destruct C as [S C].
  assert (PA : poss (a ++ b) 0 = poss a 0 ++ poss b (size_of a)).
  { rewrite poss_app; [rewrite N.add_0_l; reflexivity|]. intros a1 a2 E NE L4.
    destruct (sc_head (a2 ++ b)) eqn:SH; [|reflexivity]. exfalso.
    assert (P : sc_at (a ++ b) (size_of a1) = true).
    { unfold sc_at, size_of. rewrite Nat2N.id, E, <- app_assoc, skipn_app, skipn_all, Nat.sub_diag. exact SH. }
    apply C in P.
    - rewrite <- SA in P. subst a. unfold size_of in P. rewrite app_length in P. lia.
    - subst a. assert (0 < length a2)%nat by (destruct a2; [congruence|cbn; lia]).
      destruct K as [[_ ->]|[_ ->]]; unfold size_of; rewrite app_length; lia. }
  assert (HB : exists qs, poss b (size_of a) = q :: qs).
  { pose proof (sc_room _ _ S) as RM. assert (SB : sc_at b (q - size_of a) = true).
    { rewrite <- sc_at_app2 with (a := a). replace (size_of a + (q - size_of a)) with q; [exact S|].
      destruct K as [[_ ->]|[_ ->]]; lia. }
    unfold sc_at in SB. destruct K as [[EB ->]|[EB ->]].
    - replace (N.to_nat (size_of a - size_of a)) with 0%nat in SB by lia. cbn [skipn] in SB.
      remember (skipn 3 b) as b3. clear Heqb3. subst b. cbn [poss]. rewrite SB. eauto.
    - replace (N.to_nat (size_of a + 1 - size_of a)) with 1%nat in SB by lia.
      remember (skipn 4 b) as b4. clear Heqb4. subst b. cbn [skipn] in SB. cbn [poss]. rewrite SB.
      replace (sc_head (0 :: 0 :: 0 :: 1 :: b4)) with false by (destruct b4; reflexivity). eauto. }
  destruct HB as (qs & HB). unfold indices. rewrite PA, HB, index_list_app. f_equal.
  - rewrite <- SA. apply index_ext, Forall_forall. intros p IP. apply poss_in in IP.
    destruct IP as [_ IP]. rewrite N.sub_0_r in IP. apply sc_room in IP. apply start_ext, fetch_app1. unfold size_of. lia.
  - rewrite <- HB. replace (size_of a) with (0 + size_of a) at 1 by lia. rewrite poss_shift.
    assert (G : forall p, In p (poss b 0) -> start_of (a ++ b) (p + size_of a) = start_of b p + size_of a).
    { intros p IP. destruct (N.eq_dec p 0) as [->|NZ].
      - rewrite N.add_0_l. assert (Q : q = size_of a).
        { assert (X : In (size_of a) (poss b (size_of a))).
          { replace (size_of a) with (0 + size_of a) at 2 by lia. rewrite poss_shift. apply in_map_iff. exists 0. auto. }
          rewrite HB in X. destruct K as [[_ ->]|[_ ->]]; [reflexivity|]. exfalso. destruct X as [X|X]; [lia|].
          assert (Y : In (size_of a) (poss b (size_of a))) by (rewrite HB; right; exact X). 
          pose proof (poss_sorted b (size_of a)) as [SO _]. rewrite HB in SO.
          assert (Z : forall r, In r qs -> size_of a + 1 < r).
          { clear - SO. revert SO. generalize (size_of a + 1) as h. induction qs as [|r0 qs IH]; intros h SO r [].
            - subst. apply (SO [] h r qs). reflexivity.
            - assert (h < r0) by (apply (SO [] h r0 qs); reflexivity).
              assert (r0 < r); [|lia]. apply IH; auto. intros a0 p0 q0 b0 E0. apply (SO (h :: a0) p0 q0 b0). cbn. congruence. }
          apply Z in X. lia. }
        rewrite <- Q at 1. rewrite <- SA. unfold start_of. destruct (fetch b (0 - 1)); cbn; lia.
      - unfold start_of. replace (p + size_of a - 1) with (size_of a + (p - 1)) by lia. rewrite fetch_app2.
        destruct (fetch b (p - 1)) as [v| | | |]; try reflexivity.
        replace (0 <? p + size_of a) with true by lia. replace (0 <? p) with true by lia. destruct (true && (v =? 0)); lia. }
    assert (SZ : size_of (a ++ b) = size_of b + size_of a) by (unfold size_of; rewrite app_length; lia). rewrite SZ.
    clear - G. revert G. induction (poss b 0) as [|p ps IH]; intros G; [reflexivity|].
    cbn [map index_list]. rewrite IH by (intros; apply G; right; auto). unfold shift at 2. cbn [ni_start ni_payload ni_size].
    f_equal. rewrite (G p (or_introl eq_refl)). f_equal; [lia|]. destruct ps as [|q ps]; cbn [map]; [lia|].
    rewrite (G q (or_intror (or_introl eq_refl))). lia.
Qed.

Lemma indices_spec : forall l, size_of l < 2 ^ 64 -> FindNaluIndices l (size_of l) = Ok (indices l).
Proof. intros l H. exact (FindNaluIndices_spec l H). Qed.
Lemma indices_in : forall l x, size_of l < 2 ^ 64 -> In x (indices l) -> ni_payload x + ni_size x <= size_of l.
Proof.
  intros l x H I. destruct (C16_annexb_sound l H) as (r & E & _ & _ & _ & B). rewrite indices_spec in E by exact H.
  injection E as <-. apply B, I.
Qed.
Lemma slice_app1 : forall a b p n, p + n <= size_of a -> SpecFraming.slice p n (a ++ b) = SpecFraming.slice p n a.
Proof.
  intros a b p n H. unfold SpecFraming.slice, size_of in *. rewrite skipn_app, firstn_app.
  rewrite skipn_length. replace (N.to_nat n - (length a - N.to_nat p))%nat with 0%nat by lia. cbn [firstn]. apply app_nil_r.
Qed.
Lemma slice_app2 : forall a b p n, SpecFraming.slice (p + size_of a) n (a ++ b) = SpecFraming.slice p n b.
Proof.
  intros a b p n. unfold SpecFraming.slice, size_of. rewrite skipn_app, skipn_all2 by lia.
  replace (N.to_nat (p + N.of_nat (length a)) - length a)%nat with (N.to_nat p) by lia. reflexivity.
Qed.
Lemma cut_units : forall a b q, size_of (a ++ b) < 2 ^ 64 -> cut (a ++ b) q -> size_of a = start_of (a ++ b) q ->
  units (a ++ b) = units a ++ units b.
Proof.
  intros a b q L C SA. unfold units. rewrite (cut_indices a b q C SA), map_app, map_map. f_equal.
  - apply map_ext_in. intros x I. apply slice_app1, indices_in; [|exact I].
    unfold size_of in *. rewrite app_length in L. lia.
  - apply map_ext. intros x. apply slice_app2.
Qed.

(** No unit is empty. *)
Definition airy (l : list N) : Prop := forall p q, sc_at l p = true -> sc_at l q = true -> p < q -> p + 3 < start_of l q.
Lemma airy_cut : forall l q, airy l -> sc_at l q = true -> cut l q.
Proof. intros l q A S. split; auto. Qed.
Lemma start_app2 : forall a b p, 0 < p -> start_of (a ++ b) (size_of a + p) = size_of a + start_of b p.
Proof.
  intros a b p H. unfold start_of. replace (size_of a + p - 1) with (size_of a + (p - 1)) by lia. rewrite fetch_app2.
  destruct (fetch b (p - 1)) as [v| | | |]; try reflexivity.
  replace (0 <? size_of a + p) with true by lia. replace (0 <? p) with true by lia. destruct (true && (v =? 0)); lia.
Qed.
Lemma airy_app2 : forall a b, airy (a ++ b) -> airy b.
Proof.
  intros a b A p q P Q L. rewrite <- (sc_at_app2 a) in P, Q. pose proof (A _ _ P Q ltac:(lia)) as X.
  rewrite start_app2 in X by lia. lia.
Qed.
Lemma code_offset : forall l q, sc_at l q = true -> find_start_code_offset l (q + 3) = start_of l q.
Proof.
  intros l q S. pose proof (sc_room l q S) as R. apply sc_at_iff in S. destruct S as (a & x & b & -> & <-).
  unfold find_start_code_offset, same_bytes, bytes_between.
  assert (T3 : firstn (N.to_nat (N.of_nat (length a) + 3 - (N.of_nat (length a) + 3 - 3)))
    (skipn (N.to_nat (N.of_nat (length a) + 3 - 3)) (a ++ [0; 0; 1] ++ x :: b)) = [0; 0; 1]).
  { replace (N.to_nat (N.of_nat (length a) + 3 - 3)) with (length a) by lia. rewrite skipn_app, skipn_all, Nat.sub_diag.
    replace (N.to_nat (N.of_nat (length a) + 3 - (N.of_nat (length a) + 3 - 3))) with 3%nat by lia. reflexivity. }
  rewrite T3. destruct (list_eq_dec N.eq_dec [0; 0; 1] [0; 0; 1]) as [_|K]; [|congruence].
  replace (3 <=? N.of_nat (length a) + 3) with true by lia. cbn [andb].
  destruct (start_of_cases (a ++ [0; 0; 1] ++ x :: b) (N.of_nat (length a)) ltac:(lia)) as [[Z E]|[Z E]].
  - destruct Z as (a' & b' & EQ & L).
    assert (A : a = a' ++ [0]).
    { apply (f_equal (firstn (length a))) in EQ. rewrite firstn_app, firstn_all, Nat.sub_diag in EQ. cbn [firstn] in EQ.
      rewrite app_nil_r in EQ. rewrite EQ. replace (length a) with (length a' + 1)%nat by lia. rewrite firstn_app_2. reflexivity. }
    subst a. rewrite app_length in *. cbn [length] in *.
    replace (4 <=? N.of_nat (length a' + 1) + 3) with true by lia. cbn [andb].
    replace (N.to_nat (N.of_nat (length a' + 1) + 3 - 4)) with (length a') by lia.
    rewrite <- (app_assoc a' [0]), skipn_app, skipn_all, Nat.sub_diag.
    replace (N.to_nat (N.of_nat (length a' + 1) + 3 - (N.of_nat (length a' + 1) + 3 - 4))) with 4%nat by lia.
    cbn [app skipn firstn]. destruct (list_eq_dec N.eq_dec [0; 0; 0; 1] [0; 0; 0; 1]) as [_|K]; [|congruence].
    rewrite <- app_assoc in E. cbn [app] in E. lia.
  - rewrite E. destruct (N.leb_spec 4 (N.of_nat (length a) + 3)) as [L4|L4]; cbn [andb]; [|lia].
    destruct (list_eq_dec N.eq_dec _ [0; 0; 0; 1]) as [K|K]; [|lia]. exfalso. apply Z.
    replace (N.to_nat (N.of_nat (length a) + 3 - (N.of_nat (length a) + 3 - 4))) with 4%nat in K by lia.
    replace (N.to_nat (N.of_nat (length a) + 3 - 4)) with (length a - 1)%nat in K by lia.
    exists (firstn (length a - 1) a), ([0; 0; 1] ++ x :: b).
    assert (LA : (1 <= length a)%nat) by lia.
    rewrite skipn_app in K. replace (length a - 1 - length a)%nat with 0%nat in K by lia. cbn [skipn] in K.
    assert (SK : exists y, skipn (length a - 1) a = [y]).
    { assert (Y : length (skipn (length a - 1) a) = 1%nat) by (rewrite skipn_length; lia).
      destruct (skipn (length a - 1) a) as [|y [|z t]]; try discriminate. eauto. }
    destruct SK as (y & SK). rewrite SK in K. cbn [app firstn] in K. injection K as ->.
    split; [|rewrite firstn_length; lia].
    rewrite <- (firstn_skipn (length a - 1) a) at 1. rewrite SK, <- app_assoc. reflexivity.
Qed.

(** Many cuts *)
Fixpoint increasing (qs : list N) : Prop :=
  match qs with p :: ((q :: _) as t) => p < q /\ increasing t | _ => True end.
Lemma skip_more : forall (l : list N) s c, s <= c -> skipn (N.to_nat (c - s)) (skipn (N.to_nat s) l) = skipn (N.to_nat c) l.
Proof. intros l s c H. rewrite BitsLemmas.skipn_skipn'. f_equal. lia. Qed.
Definition placed (data : list N) (start : N) (qs : list N) : Prop :=
  Forall (fun q => sc_at data q = true /\ start <= start_of data q) qs /\ increasing qs.
Lemma placed_next : forall data start q qs, airy data -> placed data start (q :: qs) -> placed data (start_of data q) qs.
Proof.
  intros data start q qs A [F I]. apply Forall_cons_iff in F. destruct F as [[S L] F]. split.
  - clear L. revert q S I. induction F as [|r qs [R L] F IH]; intros q S I; constructor.
    + split; [exact R|]. destruct I as [I _]. pose proof (A q r S R I). pose proof (start_of_le data q). lia.
    + destruct I as [I1 I2]. eapply Forall_impl; [|exact (IH r R I2)]. intros x [X1 X2]. split; [exact X1|].
      pose proof (A q r S R I1). pose proof (start_of_le data q). lia.
  - destruct qs; [exact I|apply I].
Qed.
Lemma skip_split : forall (l : list N) s, s <= size_of l -> exists a, l = a ++ skipn (N.to_nat s) l /\ size_of a = s.
Proof.
  intros l s H. exists (firstn (N.to_nat s) l). split; [symmetry; apply firstn_skipn|]. unfold size_of in *.
  rewrite firstn_length. lia.
Qed.
Lemma segs_units : forall qs data start, size_of data < 2 ^ 64 -> airy data -> start <= size_of data -> placed data start qs ->
  flat_map units (segments start (map (start_of data) qs) data) = units (skipn (N.to_nat start) data).
Proof.
  induction qs as [|q qs IH]; intros data start L A ST P.
  - cbn [map segments flat_map]. rewrite app_nil_r. f_equal. unfold bytes_between. apply firstn_all2. rewrite skipn_length. lia.
  - pose proof P as [F I]. apply Forall_cons_iff in F. destruct F as [[S SL] F].
    pose proof (sc_room data q S) as RM. pose proof (start_of_le data q) as LE.
    cbn [map segments flat_map]. rewrite IH; [|exact L|exact A|unfold size_of; lia|eapply placed_next; eauto].
    destruct (skip_split data start ST) as (a & E & SA). set (b := skipn (N.to_nat start) data) in *.
    set (c := start_of data q) in *. unfold bytes_between. fold b.
    rewrite <- (skip_more data start c SL). fold b.
    assert (Q : sc_at b (q - start) = true).
    { rewrite <- (sc_at_app2 a), <- E, SA. replace (start + (q - start)) with q by lia. exact S. }
    assert (C : start_of b (q - start) = c - start).
    { destruct (N.eq_dec q start) as [EQ|NE].
      - replace (q - start) with 0 by lia. unfold c in *. unfold start_of at 1. destruct (fetch b (0 - 1)); cbn; lia.
      - pose proof (start_app2 a b (q - start) ltac:(lia)) as X. rewrite <- E, SA in X.
        replace (start + (q - start)) with q in X by lia. fold c in X. lia. }
    assert (AB : airy b) by (rewrite E in A; exact (airy_app2 _ _ A)).
    assert (LB : size_of b < 2 ^ 64) by (unfold b, size_of in *; rewrite skipn_length; lia).
    rewrite <- (firstn_skipn (N.to_nat (c - start)) b) at 3. symmetry. apply (cut_units _ _ (q - start)).
    + rewrite firstn_skipn. exact LB.
    + rewrite firstn_skipn. apply airy_cut; auto.
    + rewrite firstn_skipn, C. unfold size_of. rewrite firstn_length.
      apply sc_room in Q. assert (c - start <= q - start) by lia. lia.
Qed.
Lemma segs_concat : forall points data start, increasing points -> Forall (fun c => start <= c <= size_of data) points ->
  start <= size_of data -> concat (segments start points data) = skipn (N.to_nat start) data.
Proof.
  induction points as [|c points IH]; intros data start I F ST.
  - cbn [segments concat]. rewrite app_nil_r. unfold bytes_between. apply firstn_all2. rewrite skipn_length. lia.
  - apply Forall_cons_iff in F. destruct F as [[C1 C2] F]. cbn [segments concat]. rewrite IH.
    + unfold bytes_between. rewrite <- (skip_more data start c C1). apply firstn_skipn.
    + destruct points; [exact I|apply I].
    + clear - I F. revert c I. induction F as [|d points D F IH]; intros c I; constructor; [destruct I as [I _]; lia|].
      destruct I as [I1 I2]. eapply Forall_impl; [|exact (IH d I2)]. cbv beta. intros. lia.
    + exact C2.
Qed.
Definition upto (points : list N) (o : N) : nat := length (filter (fun c => c <=? o) points).
Lemma increasing_all : forall c points, increasing (c :: points) -> Forall (fun d => c < d) points.
Proof.
  intros c points. revert c. induction points as [|d points IH]; intros c I; constructor; [apply I|].
  destruct I as [I1 I2]. eapply Forall_impl; [|exact (IH d I2)]. cbv beta. intros. lia.
Qed.
Lemma upto_none : forall points o, Forall (fun d => o < d) points -> upto points o = 0%nat.
Proof.
  intros points o F. unfold upto. induction F as [|d points D F IH]; [reflexivity|]. cbn [filter].
  replace (d <=? o) with false by lia. exact IH.
Qed.
Lemma upto_all : forall points o, Forall (fun d => d <= o) points -> upto points o = length points.
Proof.
  intros points o F. unfold upto. induction F as [|d points D F IH]; [reflexivity|]. cbn [filter].
  replace (d <=? o) with true by lia. cbn [length]. rewrite IH. reflexivity.
Qed.
Lemma upto_app : forall a b o, upto (a ++ b) o = (upto a o + upto b o)%nat.
Proof. intros a b o. unfold upto. rewrite filter_app, app_length. reflexivity. Qed.
Lemma segs_file : forall points data start o, increasing points -> Forall (fun c => start <= c <= size_of data) points ->
  start <= o < size_of data -> file_of (segments start points data) (o - start) = upto points o.
Proof.
  induction points as [|c points IH]; intros data start o I F H.
  - cbn [segments file_of]. unfold bytes_between. rewrite firstn_length, skipn_length. unfold size_of in H.
    replace (o - start <? _) with true by lia. reflexivity.
  - apply Forall_cons_iff in F. destruct F as [[C1 C2] F]. cbn [segments file_of]. unfold bytes_between at 1 2.
    rewrite firstn_length, skipn_length. replace (N.of_nat (Nat.min _ _)) with (c - start) by (unfold size_of in *; lia).
    pose proof (increasing_all c points I) as G. destruct (N.ltb_spec (o - start) (c - start)) as [L|L].
    + rewrite upto_none; [reflexivity|]. constructor; [lia|]. eapply Forall_impl; [|exact G]. cbv beta. intros. lia.
    + replace (o - start - (c - start)) with (o - c) by lia. rewrite IH.
      * unfold upto. cbn [filter]. replace (c <=? o) with true by lia. reflexivity.
      * destruct points; [exact I|apply I].
      * clear - F G. induction F; inversion G; subst; constructor; auto. lia.
      * lia.
Qed.
(** Where the files start *)
Lemma segs_starts : forall points data start before f after, increasing points -> Forall (fun c => start <= c <= size_of data) points ->
  start <= size_of data -> segments start points data = before ++ f :: after -> before <> [] ->
  exists c rest, In c points /\ c = start + size_of (concat before) /\ skipn (N.to_nat c) data = f ++ rest /\
    size_of f = match hd_error (filter (fun d => c <? d) points) with Some d => d - c | None => size_of data - c end.
Proof.
  induction points as [|c points IH]; intros data start before f after I F ST E NB.
  - cbn [segments] in E. destruct before as [|x [|y before]]; [congruence|discriminate|discriminate].
  - apply Forall_cons_iff in F. destruct F as [[C1 C2] F]. cbn [segments] in E.
    assert (I2 : increasing points) by (destruct points; [exact Logic.I|apply I]).
    assert (F2 : Forall (fun d => c <= d <= size_of data) points).
    { pose proof (increasing_all c points I) as G. clear - F G. induction F; inversion G; subst; constructor; auto. lia. }
    assert (G : Forall (fun d => c < d) points) by (apply increasing_all, I).
    assert (SB : size_of (bytes_between start c data) = c - start).
    { unfold bytes_between, size_of in *. rewrite firstn_length, skipn_length. lia. }
    destruct before as [|x before]; [congruence|]. injection E as <- E. destruct before as [|y before].
    + cbn [concat app] in *. rewrite app_nil_r. rewrite SB. exists c.
      destruct points as [|d points]; cbn [segments] in E; injection E as <- <-.
      * exists []. split; [left; reflexivity|]. split; [lia|]. rewrite app_nil_r. unfold bytes_between, size_of in *. split.
        -- symmetry. apply firstn_all2. rewrite skipn_length. lia.
        -- cbn [filter]. rewrite N.ltb_irrefl. cbn [hd_error]. rewrite firstn_length, skipn_length. lia.
      * inversion F2 as [|? ? [D1 D2] F3]; subst. inversion G as [|? ? D3 G3]; subst. exists (skipn (N.to_nat (d - c)) (skipn (N.to_nat c) data)). split; [left; reflexivity|]. split; [lia|]. split.
        -- unfold bytes_between. symmetry. apply firstn_skipn.
        -- cbn [filter]. rewrite N.ltb_irrefl. replace (c <? d) with true by lia. cbn [hd_error].
           unfold bytes_between, size_of in *. rewrite firstn_length, skipn_length. lia.
    + destruct (IH data c (y :: before) f after I2 F2 C2 E ltac:(discriminate)) as (d & rest & D1 & D2 & D3 & D4).
      exists d, rest. split; [right; exact D1|]. split.
      { change (concat (bytes_between start c data :: y :: before)) with (bytes_between start c data ++ concat (y :: before)).
        unfold size_of in *. rewrite app_length. lia. }
      split; [exact D3|]. cbn [filter]. replace (d <? c) with false; [exact D4|].
      rewrite Forall_forall in G. apply G in D1. lia.
Qed.
