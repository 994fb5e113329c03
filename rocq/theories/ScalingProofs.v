(** Scaling list proofs. *)
From Coq Require Import NArith ZArith List Bool Lia ZifyBool ZifyNat ZifyN.
From Verif Require Import SpecBits Base BitBuffer SpecReader BitsLemmas BitBufferProofs
  Parser ParserProofs TypesSps ScalingList SpecScaling VuiProofs.
Import ListNotations.
Open Scope N_scope.
Ltac Zify.zify_post_hook ::= Z.div_mod_to_equations.

Lemma next_lt : forall l d, next l d < 256.
Proof. intros. unfold next. lia. Qed.

Lemma next_scale_spec : forall l d, l < 256 -> delta_ok d -> next_scale l d = Ok (next l d).
Proof.
  intros l d L D. unfold delta_ok in D. unfold next_scale, next, chk_i32, rbind.
  assert (E : to_i32 l = Z.of_N l).
  { unfold to_i32. replace (l <? 2 ^ 31) with true by lia. reflexivity. }
  rewrite E.
  replace (_ && _) with true by lia.
  replace ((- 2 ^ 31 <=? Z.of_N l + d + 256) && (Z.of_N l + d + 256 <? 2 ^ 31))%Z
    with true by lia.
  unfold of_i32. rewrite (Z.mod_small (_ + 256)%Z (2 ^ 32)) by lia. f_equal. lia.
Qed.

Lemma put_vset : forall i x v, vset (N.of_nat i) x v = put i x v.
Proof.
  intros i x. unfold vset, grow. rewrite Nat2N.id.
  induction i as [|i IH]; intros [|h t]; cbn [put app length].
  - reflexivity.
  - replace (1 - S (length t))%nat with 0%nat by lia. cbn [repeat firstn skipn app].
    rewrite app_nil_r. reflexivity.
  - specialize (IH []). cbn [app length] in IH.
    replace (S (S i) - 0)%nat with (S (S i - 0))%nat by lia.
    cbn [repeat firstn skipn app]. f_equal. exact IH.
  - specialize (IH t).
    replace (S (S i) - S (length t))%nat with (S i - length t)%nat by lia.
    cbn [firstn skipn app]. f_equal. exact IH.
Qed.

Lemma put_overlay : forall vals x v,
  put (length vals) x (overlay vals v) = overlay (vals ++ [x]) v.
Proof.
  unfold overlay. intros vals x v. rewrite app_length. cbn [length].
  replace (skipn (length vals + 1) v) with (tl (skipn (length vals) v)).
  - generalize (skipn (length vals) v) as w. induction vals as [|h t IH]; intros w.
    + destruct w; reflexivity.
    + cbn [length put app]. f_equal. apply IH.
  - rewrite Nat.add_comm. revert v. induction (length vals) as [|n IH]; intros [|y v];
      cbn [skipn tl Nat.add]; auto. apply IH.
Qed.

Lemma attempt_inv : forall A (p : P A) b o b', attempt p b = (Ok o, b') ->
  (exists a, p b = (Ok a, b') /\ o = Some a) \/ (p b = (Null, b') /\ o = None).
Proof.
  intros A p b o b' H. unfold attempt in H.
  destruct (p b) as [[a| |k| |] b1]; inversion H; subst; eauto.
Qed.
Lemma good_attempt : forall A (p : P A), good p -> good (attempt p).
Proof.
  intros A p G b W. specialize (G b W). unfold attempt.
  destruct (p b) as [[a| |k| |] b1]; auto.
Qed.

(** A failed Exp-Golomb read skips only zero bits. *)
Lemma firstn_lead0 : forall l, firstn (lead0 l) l = repeat false (lead0 l).
Proof. induction l as [|[] l IH]; cbn; auto. f_equal. exact IH. Qed.
Lemma se_null : forall b b', bb_wf b -> ReadSignedExponentialGolomb b = (Null, b') ->
  exists z, reads b (repeat false z) b'.
Proof.
  intros b b' W H. rewrite ReadSignedExponentialGolomb_spec in H by auto.
  destruct (ue_dec (bb_rem b)) as [[w n]|]; [discriminate|].
  inversion H as [H1]; clear H H1. destruct (bb_asserts b).
  - exists 0%nat. apply reads_refl; auto.
  - exists (lead0 (bb_rem b)). unfold reads. rewrite repeat_length.
    split; [auto|]. split; [|auto]. rewrite bb_adv_rem by apply lead0_le.
    rewrite <- firstn_lead0. symmetry. apply firstn_skipn.
Qed.

(** The filling phase once nextScale is 0: nothing is read. *)
Lemma loop_fill : forall n j i last v f d vals0,
  j = N.of_nat (length vals0) ->
  scaling_list_loop n j i last 0 (overlay vals0 v) f d =
  sret (true, (overlay (vals0 ++ repeat last n) v, f, d)).
Proof.
  induction n as [|n IH]; intros j i last v f d vals0 J; cbn [scaling_list_loop].
  - cbn [repeat]. rewrite app_nil_r. reflexivity.
  - change (tob 0) with false. cbv iota. unfold sbind at 1, sret at 1. cbn beta iota.
    change (0 =? 0) with true. cbv iota.
    subst j. rewrite put_vset, put_overlay.
    rewrite IH by (rewrite app_length; cbn [length]; lia).
    rewrite <- app_assoc. reflexivity.
Qed.

(** Deltas read so far leave this in the default flags. *)
Definition flag_after (k : nat) (j0 : bool) (ds : list Z) (last : N) (f : list N) : list N :=
  match ds with
  | [] => f
  | d :: _ => put k (if j0 then (if next last d =? 0 then 1 else 0) else 0) f
  end.

Lemma put_put : forall k x y v, put k x (put k y v) = put k x v.
Proof. induction k; intros x y [|h t]; cbn [put]; auto; f_equal; apply IHk. Qed.

Lemma loop_step : forall n j i last v f d b, bb_wf b -> last <> 0 -> last < 256 ->
  scaling_list_loop (S n) j i last last v f d b =
  match ReadSignedExponentialGolomb b with
  | (Ok x, b1) =>
      if ((x <? -128) || (127 <? x))%Z then (Ok (false, (v, f, x)), b1)
      else let nx := next last x in
           let s := if nx =? 0 then last else nx in
           scaling_list_loop n (j + 1) i s nx (vset j s v)
             (vset i (if (j =? 0) && (nx =? 0) then 1 else 0) f) x b1
  | (_, b1) => (Ok (false, (v, f, d)), b1)
  end.
Proof.
  intros n j i last v f d b W L0 L. cbn [scaling_list_loop].
  unfold tob. replace (negb (last =? 0)) with true by lia. cbv iota.
  unfold sbind at 1. unfold sbind at 1. unfold attempt.
  rewrite ReadSignedExponentialGolomb_spec by auto.
  destruct (ue_dec (bb_rem b)) as [[w m]|]; cbn beta iota.
  - destruct ((se_dec w <? -128) || (127 <? se_dec w))%Z eqn:E; [reflexivity|].
    unfold sbind at 1, sres. rewrite next_scale_spec by (unfold delta_ok; lia).
    reflexivity.
  - reflexivity.
Qed.

Lemma flag_after_step : forall k j0 d ds last f,
  (next last d = 0 -> ds = []) ->
  flag_after k false ds (next last d) (put k (if j0 && (next last d =? 0) then 1 else 0) f)
  = flag_after k j0 (d :: ds) last f.
Proof.
  intros k j0 d ds last f H. cbn [flag_after].
  destruct ds as [|d' ds']; cbn [flag_after].
  - destruct j0; reflexivity.
  - rewrite put_put. f_equal. destruct (next last d =? 0) eqn:E.
    + apply N.eqb_eq in E. apply H in E. discriminate.
    + destruct j0; reflexivity.
Qed.

Lemma last_cons : forall (ds : list Z) d d0, List.last (d :: ds) d0 = List.last ds d.
Proof.
  induction ds as [|x t IH]; intros d d0; [reflexivity|].
  change (List.last (d :: x :: t) d0) with (List.last (x :: t) d0).
  rewrite (IH x d0), (IH x d). reflexivity.
Qed.

(** What one call of the loop did. *)
Inductive loop_did (n : nat) (j0 : bool) (k : nat) (lst : N) (vals0 v f : list N) (d : Z)
    (b : bb) : bool -> list N * list N * Z -> bb -> Prop :=
| did_full : forall ds b', scale_full lst n ds ->
    reads b (flat_map se_bits ds) b' ->
    loop_did n j0 k lst vals0 v f d b true
      (overlay (vals0 ++ scale_vals lst n ds) v, flag_after k j0 ds lst f,
       List.last ds d) b'
| did_bad : forall ds x b', scale_open lst n ds -> (Z.abs x <= 2 ^ 31 - 1)%Z ->
    ~ delta_ok x -> reads b (flat_map se_bits ds ++ se_bits x) b' ->
    loop_did n j0 k lst vals0 v f d b false
      (overlay (vals0 ++ scale_vals lst n ds) v, flag_after k j0 ds lst f, x) b'
| did_cut : forall ds z b', scale_open lst n ds ->
    reads b (flat_map se_bits ds ++ repeat false z) b' ->
    loop_did n j0 k lst vals0 v f d b false
      (overlay (vals0 ++ scale_vals lst n ds) v, flag_after k j0 ds lst f,
       List.last ds d) b'.

Lemma loop_sound : forall n j k lst vals0 v f d b r t b', bb_wf b -> lst <> 0 -> lst < 256 ->
  j = N.of_nat (length vals0) ->
  scaling_list_loop n j (N.of_nat k) lst lst (overlay vals0 v) f d b = (Ok (r, t), b') ->
  loop_did n (j =? 0) k lst vals0 v f d b r t b'.
Proof.
  induction n as [|n IH]; intros j k lst vals0 v f d b r t b' W L0 L J H.
  - cbn [scaling_list_loop] in H. inv. pairinv.
    replace (overlay vals0 v) with (overlay (vals0 ++ scale_vals lst 0 []) v)
      by (cbn [scale_vals]; rewrite app_nil_r; reflexivity).
    apply (did_full 0 _ k lst vals0 v f d b []); [exact I|apply reads_refl; auto].
  - rewrite loop_step in H by auto.
    destruct (ReadSignedExponentialGolomb b) as [rr b1] eqn:E.
    assert (G := good_se b W). rewrite E in G. destruct rr as [x| |kk| |]; try contradiction.
    + apply se_sound in E; [|auto]. destruct E as [Rx R].
      pose proof (reads_wf _ _ _ R) as W1.
      destruct ((x <? -128) || (127 <? x))%Z eqn:EB.
      * injection H; intros; subst.
        replace (overlay vals0 v) with (overlay (vals0 ++ scale_vals lst (S n) []) v)
          by (cbn [scale_vals]; rewrite app_nil_r; reflexivity).
        apply (did_bad (S n) _ k lst vals0 v f d b []); [exact I|exact Rx| |exact R].
        unfold delta_ok. lia.
      * assert (D : delta_ok x) by (unfold delta_ok; lia).
        cbv zeta in H. subst j. rewrite !put_vset, put_overlay in H.
        destruct (next lst x =? 0) eqn:E0.
        -- assert (E1 : next lst x = 0) by lia. rewrite E1 in H.
           rewrite loop_fill in H by (rewrite app_length; cbn [length]; lia).
           inv. pairinv.
           replace (overlay ((vals0 ++ [lst]) ++ repeat lst n) v)
             with (overlay (vals0 ++ scale_vals lst (S n) [x]) v)
             by (cbn [scale_vals]; rewrite E0, <- app_assoc; reflexivity).
           replace (put k _ f) with (flag_after k (N.of_nat (length vals0) =? 0) [x] lst f)
             by (cbn [flag_after]; rewrite E0; destruct (N.of_nat (length vals0) =? 0);
                 reflexivity).
           change x with (List.last [x] d) at 3.
           apply (did_full (S n)).
           ++ cbn [scale_full]. rewrite E0. auto.
           ++ cbn [flat_map]. rewrite app_nil_r. exact R.
        -- pose proof (next_lt lst x) as NL.
           assert (N0 : next lst x <> 0) by lia.
           apply IH in H; auto; [|rewrite app_length; cbn [length]; lia].
           replace (N.of_nat (length vals0) + 1 =? 0) with false in H by lia.
           inversion H as [ds b2 F Rd|ds y b2 F Ry ND Rd|ds z b2 F Rd]; subst;
             pose proof (flag_after_step k (N.of_nat (length vals0) =? 0) x ds lst f
               ltac:(intro; congruence)) as FS; rewrite E0 in FS; rewrite FS; clear FS;
             replace (overlay ((vals0 ++ [next lst x]) ++ scale_vals (next lst x) n ds) v)
               with (overlay (vals0 ++ scale_vals lst (S n) (x :: ds)) v)
               by (cbn [scale_vals]; rewrite E0, <- app_assoc; reflexivity).
           ++ rewrite <- (last_cons ds x d).
              apply (did_full (S n)).
              ** cbn [scale_full]. rewrite E0. auto.
              ** cbn [flat_map]. eapply reads_app; eauto.
           ++ apply (did_bad (S n)); auto.
              ** cbn [scale_open]. auto.
              ** cbn [flat_map]. rewrite <- app_assoc. eapply reads_app; eauto.
           ++ rewrite <- (last_cons ds x d).
              apply (did_cut (S n)) with (z := z).
              ** cbn [scale_open]. auto.
              ** cbn [flat_map]. rewrite <- app_assoc. eapply reads_app; eauto.
    + apply se_null in E; [|auto]. destruct E as [z R].
      injection H; intros; subst.
      replace (overlay vals0 v) with (overlay (vals0 ++ scale_vals lst (S n) []) v)
        by (cbn [scale_vals]; rewrite app_nil_r; reflexivity).
      apply (did_cut (S n) _ k lst vals0 v f d b []) with (z := z); [exact I|exact R].
Qed.

Lemma loop_good : forall n j i lst nx v f d, lst < 256 -> nx < 256 ->
  good (scaling_list_loop n j i lst nx v f d).
Proof.
  induction n as [|n IH]; intros j i lst nx v f d L X; cbn [scaling_list_loop].
  - apply good_ret.
  - set (p := if tob nx then _ else _).
    assert (S : forall b go x f' d' b', bb_wf b -> p b = (Ok (go, x, f', d'), b') -> x < 256).
    { intros b go x f' d' b' W H. unfold p in H. destruct (tob nx).
      - apply sbind_inv in H. destruct H as (r & b1 & H1 & H).
        destruct r as [delta|]; [|inv; pairinv; auto].
        destruct ((delta <? -128) || (127 <? delta))%Z eqn:E; [inv; pairinv; auto|].
        rewrite next_scale_spec in H by (unfold delta_ok; lia).
        unfold sbind, sres, sret in H. injection H; intros; subst. apply next_lt.
      - inv. pairinv. auto. }
    assert (G : good p).
    { unfold p. apply good_if; [|apply good_ret].
      apply good_bind; [apply good_attempt, good_se|intros r].
      apply good_opt; [intros delta|apply good_ret].
      destruct ((delta <? -128) || (127 <? delta))%Z eqn:E; [apply good_ret|].
      rewrite next_scale_spec by (unfold delta_ok; lia).
      intros b W. unfold sbind, sres. apply (good_ret _ _ b W). }
    apply good_bind_ok; [exact G|]. intros [[[go x] f'] d'] b b1 W E.
    apply S in E; auto. destruct go; [|apply good_ret]. cbv zeta. apply IH; auto.
    destruct (x =? 0); auto.
Qed.
Lemma scaling_list_good : forall i v n f d, good (scaling_list i v n f d).
Proof. intros. unfold scaling_list. apply loop_good; lia. Qed.
#[export] Hint Resolve scaling_list_good : good.
Lemma scaling_entry_good : forall i s, good (scaling_entry i s).
Proof. intros. unfold scaling_entry. cbv zeta. good_tac. Qed.
#[export] Hint Resolve scaling_entry_good : good.
Lemma scaling_loop_good : forall n i s, good (scaling_loop n i s).
Proof.
  induction n; intros; cbn [scaling_loop]; [apply good_ret|].
  apply good_bind; auto with good.
Qed.
#[export] Hint Resolve scaling_loop_good : good.

Lemma reads_cons_inv : forall b c1 c2 rest, bb_wf b -> bb_rem b = (c1 ++ c2) ++ rest ->
  bb_wf (bb_adv b (length c1)) /\ bb_rem (bb_adv b (length c1)) = c2 ++ rest.
Proof.
  intros b c1 c2 rest W E. rewrite <- app_assoc in E.
  destruct (reads_split b c1 _ W E) as [R Er]. split; auto. eapply reads_wf; eauto.
Qed.

Lemma loop_complete_full : forall ds n j k lst vals0 v f d, lst <> 0 -> lst < 256 ->
  j = N.of_nat (length vals0) -> scale_full lst n ds ->
  parses (scaling_list_loop n j (N.of_nat k) lst lst (overlay vals0 v) f d)
    (flat_map se_bits ds)
    (true, (overlay (vals0 ++ scale_vals lst n ds) v, flag_after k (j =? 0) ds lst f,
            List.last ds d)).
Proof.
  induction ds as [|x ds IH]; intros n j k lst vals0 v f d L0 L J F; destruct n as [|n];
    cbn [scale_full] in F; try contradiction.
  - cbn [scaling_list_loop scale_vals flag_after flat_map List.last].
    rewrite app_nil_r. apply parses_ret.
  - destruct F as [D F]. intros b rest W E. cbn [flat_map] in *.
    rewrite loop_step by auto.
    destruct (reads_cons_inv _ _ _ _ W E) as [W1 E1].
    rewrite <- app_assoc in E.
    assert (Dr : (Z.abs x <= 2 ^ 31 - 1)%Z) by (unfold delta_ok in D; lia).
    rewrite (se_parses x Dr b _ W E).
    replace ((x <? -128) || (127 <? x))%Z with false by (unfold delta_ok in D; lia).
    cbv zeta. subst j. rewrite !put_vset, put_overlay, last_cons, app_length, <- bb_adv_adv.
    pose proof (flag_after_step k (N.of_nat (length vals0) =? 0) x ds lst f
               ltac:(intro X; rewrite X in F; auto)) as FS.
    rewrite <- FS. cbn [scale_vals].
    destruct (next lst x =? 0) eqn:E0.
    + subst ds. assert (X : next lst x = 0) by lia. rewrite X.
      rewrite loop_fill by (rewrite app_length; cbn [length]; lia).
      cbn [flat_map length flag_after List.last].
      rewrite adv0 by auto. rewrite <- app_assoc. reflexivity.
    + pose proof (next_lt lst x) as NL.
      rewrite (IH n (N.of_nat (length vals0) + 1) k (next lst x)
                 (vals0 ++ [next lst x]) v _ x) with (rest := rest); auto; try lia.
      * replace (N.of_nat (length vals0) + 1 =? 0) with false by lia.
        rewrite <- app_assoc. reflexivity.
      * rewrite app_length. cbn [length]. lia.
Qed.

Lemma loop_complete_bad : forall ds n j k lst vals0 v f d y, lst <> 0 -> lst < 256 ->
  j = N.of_nat (length vals0) -> scale_open lst n ds ->
  (Z.abs y <= 2 ^ 31 - 1)%Z -> ~ delta_ok y ->
  parses (scaling_list_loop n j (N.of_nat k) lst lst (overlay vals0 v) f d)
    (flat_map se_bits ds ++ se_bits y)
    (false, (overlay (vals0 ++ scale_vals lst n ds) v, flag_after k (j =? 0) ds lst f, y)).
Proof.
  induction ds as [|x ds IH]; intros n j k lst vals0 v f d y L0 L J F Ry Ny;
    destruct n as [|n]; cbn [scale_open] in F; try contradiction.
  - intros b rest W E. cbn [flat_map app] in *.
    rewrite loop_step by auto. rewrite (se_parses y Ry b _ W E).
    replace ((y <? -128) || (127 <? y))%Z with true by (unfold delta_ok in Ny; lia).
    cbn [scale_vals flag_after]. rewrite app_nil_r. reflexivity.
  - destruct F as (D & N0 & F). intros b rest W E. cbn [flat_map] in *.
    rewrite <- (app_assoc (se_bits x)) in E |- *.
    rewrite loop_step by auto.
    destruct (reads_cons_inv _ _ _ _ W E) as [W1 E1].
    rewrite <- app_assoc in E.
    assert (Dr : (Z.abs x <= 2 ^ 31 - 1)%Z) by (unfold delta_ok in D; lia).
    rewrite (se_parses x Dr b _ W E).
    replace ((x <? -128) || (127 <? x))%Z with false by (unfold delta_ok in D; lia).
    cbv zeta. subst j. rewrite !put_vset, put_overlay.
    rewrite (app_length (se_bits x)), <- bb_adv_adv.
    pose proof (flag_after_step k (N.of_nat (length vals0) =? 0) x ds lst f
               ltac:(intro; congruence)) as FS.
    rewrite <- FS. cbn [scale_vals].
    replace (next lst x =? 0) with false by lia.
    pose proof (next_lt lst x) as NL.
    rewrite (IH n (N.of_nat (length vals0) + 1) k (next lst x)
               (vals0 ++ [next lst x]) v _ x y) with (rest := rest); auto; try lia.
    + replace (N.of_nat (length vals0) + 1 =? 0) with false by lia.
      rewrite <- app_assoc. reflexivity.
    + rewrite app_length. cbn [length]. lia.
Qed.

Lemma flag_after_0 : forall k ds f, flag_after k true ds 8 f =
  match ds with [] => f | _ => put k (default_flag ds) f end.
Proof. intros k [|d ds] f; reflexivity. Qed.

Lemma scaling_list_sound : forall i v n f d b r t b', bb_wf b ->
  scaling_list (N.of_nat i) v n f d b = (Ok (r, t), b') ->
  exists l ds, slist_ok n l /\
    (l = FullList ds \/ (exists z, l = CutShort ds z) \/ exists y, l = BadDelta ds y) /\
    t = (overlay (scale_vals 8 n ds) v,
         match ds with [] => f | _ => put i (default_flag ds) f end,
         match l with BadDelta _ y => y | _ => List.last ds d end) /\
    forall b0, reads b0 (u_bits 1 1) b -> reads b0 (enc_slist l) b'.
Proof.
  intros i v n f d b r t b' W H. unfold scaling_list in H.
  change v with (overlay [] v) in H. apply loop_sound in H; auto; try lia.
  inversion H as [ds b3 F Rd|ds y b3 F Ry ND Rd|ds z b3 F Rd]; subst;
    change (0 =? 0) with true; rewrite flag_after_0; cbn [app].
  - exists (FullList ds), ds. split; [exact F|]. split; [auto|]. split; [reflexivity|].
    intros b0 R. cbn [enc_slist]. eapply reads_app; eauto.
  - exists (BadDelta ds y), ds. split; [cbn [slist_ok]; auto|]. split; [eauto|].
    split; [reflexivity|]. intros b0 R. cbn [enc_slist]. eapply reads_app; eauto.
  - exists (CutShort ds z), ds. split; [exact F|]. split; [eauto|]. split; [reflexivity|].
    intros b0 R. cbn [enc_slist]. eapply reads_app; eauto.
Qed.

Lemma pair3 : forall A B C (a x : A) (b y : B) (c z : C), (a, b, c) = (x, y, z) ->
  a = x /\ b = y /\ c = z.
Proof. intros. injection H; auto. Qed.

Lemma scaling_entry_sound : forall i s b s' b', bb_wf b ->
  scaling_entry (N.of_nat i) s b = (Ok s', b') ->
  exists l, slist_ok (size_of i) l /\ s' = store i l s /\ reads b (enc_slist l) b'.
Proof.
  intros i s b s' b' W H. unfold scaling_entry in H.
  apply sbind_inv in H. destruct H as (flag & b1 & H1 & H).
  apply ReadBits_sound in H1; [|auto]. destruct H1 as [[_ Fl] R].
  pose proof (reads_wf _ _ _ R) as W1. cbv zeta in H. unfold tob in H.
  destruct (flag =? 0) eqn:EF; cbn [negb] in H; cbv iota in H.
  - apply N.eqb_eq in EF. subst flag. inv. exists NoList. split; [exact I|]. split; auto.
  - assert (flag = 1) by (change (2 ^ 1) with 2 in Fl; lia). subst flag.
    unfold size_of, store, store_list, size_of.
    destruct (N.of_nat i <? 6) eqn:EI; apply sbind_inv in H;
      destruct H as ([r [[v f] d]] & b2 & H2 & H);
      cbn beta iota in H; apply sret_inv in H; destruct H as [-> ->].
    + replace (i <? 6)%nat with true by lia.
      apply scaling_list_sound in H2; auto. destruct H2 as (l & ds & O & C & E & Rd).
      exists l. split; [exact O|]. split; [|auto].
      apply pair3 in E. destruct E as (-> & -> & ->).
      destruct C as [->|[[z ->]|[y ->]]]; reflexivity.
    + replace (i <? 6)%nat with false by lia.
      replace (N.of_nat i - 6) with (N.of_nat (i - 6)) in H2 by lia.
      apply scaling_list_sound in H2; auto. destruct H2 as (l & ds & O & C & E & Rd).
      exists l. split; [exact O|]. split; [|auto].
      apply pair3 in E. destruct E as (-> & -> & ->).
      destruct C as [->|[[z ->]|[y ->]]]; reflexivity.
Qed.

Lemma scaling_list_complete : forall i v n f d l, slist_ok n l -> slist_readable l ->
  match l with
  | NoList => True
  | FullList ds =>
      parses (scaling_list (N.of_nat i) v n f d) (flat_map se_bits ds)
        (true, (overlay (scale_vals 8 n ds) v,
                match ds with [] => f | _ => put i (default_flag ds) f end, List.last ds d))
  | BadDelta ds y =>
      parses (scaling_list (N.of_nat i) v n f d) (flat_map se_bits ds ++ se_bits y)
        (false, (overlay (scale_vals 8 n ds) v,
                match ds with [] => f | _ => put i (default_flag ds) f end, y))
  | CutShort _ _ => True
  end.
Proof.
  intros i v n f d [|ds|ds y|ds z] O R; cbn [slist_ok] in O; auto; rewrite <- flag_after_0;
    unfold scaling_list; change v with (overlay [] v) at 1.
  - apply (loop_complete_full ds n 0 i 8 [] v f d); auto; lia.
  - apply (loop_complete_bad ds n 0 i 8 [] v f d y); try tauto; lia.
Qed.

Lemma scaling_entry_complete : forall i s l, slist_ok (size_of i) l -> slist_readable l ->
  parses (scaling_entry (N.of_nat i) s) (enc_slist l) (store i l s).
Proof.
  intros i s l O R. unfold scaling_entry.
  destruct l as [|ds|ds y|ds z]; [| | |contradiction]; cbn [enc_slist].
  - eapply parses_bind1; [apply ReadBits_parses; lia|]. apply parses_ret.
  - eapply parses_bind; [apply ReadBits_parses; lia|]. cbv zeta.
    change (tob 1) with true. cbv iota. unfold size_of in O.
    unfold store, store_list, size_of. cbv zeta.
    destruct (N.of_nat i <? 6) eqn:E.
    + replace (i <? 6)%nat with true in * by lia.
      eapply parses_bind1.
      * exact (scaling_list_complete i (ScalingList4x4 s) 16
                 (UseDefaultScalingMatrix4x4Flag s) (delta_scale s) (FullList ds) O R).
      * apply parses_ret.
    + replace (i <? 6)%nat with false in * by lia.
      replace (N.of_nat i - 6) with (N.of_nat (i - 6)) by lia.
      eapply parses_bind1.
      * exact (scaling_list_complete (i - 6) (ScalingList8x8 s) 64
                 (UseDefaultScalingMatrix4x4Flag s) (delta_scale s) (FullList ds) O R).
      * apply parses_ret.
  - eapply parses_bind; [apply ReadBits_parses; lia|]. cbv zeta.
    change (tob 1) with true. cbv iota. unfold size_of in O.
    unfold store, store_list, size_of. cbv zeta.
    destruct (N.of_nat i <? 6) eqn:E.
    + replace (i <? 6)%nat with true in * by lia.
      eapply parses_bind1.
      * exact (scaling_list_complete i (ScalingList4x4 s) 16
                 (UseDefaultScalingMatrix4x4Flag s) (delta_scale s) (BadDelta ds y) O R).
      * apply parses_ret.
    + replace (i <? 6)%nat with false in * by lia.
      replace (N.of_nat i - 6) with (N.of_nat (i - 6)) by lia.
      eapply parses_bind1.
      * exact (scaling_list_complete (i - 6) (ScalingList8x8 s) 64
                 (UseDefaultScalingMatrix4x4Flag s) (delta_scale s) (BadDelta ds y) O R).
      * apply parses_ret.
Qed.

Lemma scaling_loop_sound : forall n i s b s' b', bb_wf b ->
  scaling_loop n (N.of_nat i) s b = (Ok s', b') ->
  exists ls, length ls = n /\ slists_ok i ls /\ s' = store_all i ls s /\
             reads b (enc_slists ls) b'.
Proof.
  induction n as [|n IH]; intros i s b s' b' W H; cbn [scaling_loop] in H.
  - inv. exists []. split; [reflexivity|]. split; [exact I|]. split; [reflexivity|].
    apply reads_refl; auto.
  - apply sbind_inv in H. destruct H as (s1 & b1 & H1 & H).
    apply scaling_entry_sound in H1; auto. destruct H1 as (l & O & -> & R).
    replace (N.of_nat i + 1) with (N.of_nat (S i)) in H by lia.
    apply IH in H; [|eapply reads_wf; eauto].
    destruct H as (ls & L & Os & -> & Rs). exists (l :: ls).
    cbn [length slists_ok store_all]. unfold enc_slists in *. cbn [flat_map].
    split; [lia|]. split; [auto|]. split; [auto|]. eapply reads_app; eauto.
Qed.

Lemma scaling_loop_complete : forall ls i s, slists_ok i ls -> Forall slist_readable ls ->
  parses (scaling_loop (length ls) (N.of_nat i) s) (enc_slists ls) (store_all i ls s).
Proof.
  induction ls as [|l ls IH]; intros i s O F; cbn [scaling_loop length].
  - apply parses_ret.
  - cbn [slists_ok store_all] in *. destruct O as [O Os].
    unfold enc_slists in *. cbn [flat_map].
    apply Forall_cons_iff in F. destruct F as [Fl Fs].
    eapply parses_bind; [apply scaling_entry_complete; auto|].
    replace (N.of_nat i + 1) with (N.of_nat (S i)) by lia. apply IH; auto.
Qed.
