(** Proofs about unescaping, trailing bits and the checksum. *)
From Coq Require Import NArith ZArith List Bool Lia ZifyBool ZifyNat ZifyN Permutation.
From Verif Require Import SpecBits Base BitBuffer SpecReader BitsLemmas BitBufferProofs
  ReaderProofs Rbsp SpecRbsp.
Import ListNotations.
Open Scope N_scope.
Ltac Zify.zify_post_hook ::= Z.div_mod_to_equations.

(** * Unescaping *)
Fixpoint unesc (l : list N) : list N :=
  match l with
  | 0 :: ((0 :: 3 :: t) as r) => 0 :: 0 :: unesc t
  | x :: t => x :: unesc t
  | [] => []
  end.

Definition is_triple (l : list N) : bool :=
  match l with
  | a :: b :: c :: _ => (a =? 0) && (b =? 0) && (c =? 3)
  | _ => false
  end.

Lemma is_triple_true : forall l, is_triple l = true -> exists t, l = 0 :: 0 :: 3 :: t.
Proof.
  intros [|a [|b [|c t]]] H; cbn in H; try discriminate.
  exists t. assert (a = 0 /\ b = 0 /\ c = 3) by lia. intuition congruence.
Qed.
Lemma is_triple_false : forall l, is_triple l = false -> forall t, l <> 0 :: 0 :: 3 :: t.
Proof. intros l H t ->. discriminate. Qed.

Lemma unesc_triple : forall t, unesc (0 :: 0 :: 3 :: t) = 0 :: 0 :: unesc t.
Proof. reflexivity. Qed.
Lemma unesc_other : forall x t, is_triple (x :: t) = false -> unesc (x :: t) = x :: unesc t.
Proof.
  intros x t H. destruct x as [|p]; [|reflexivity].
  destruct t as [|y t]; [reflexivity|]. destruct y as [|p]; [|reflexivity].
  destruct t as [|w t]; [reflexivity|].
  destruct w as [|p]; [reflexivity|]. destruct p as [[p|p|]|[p|p|]|]; try reflexivity.
  discriminate.
Qed.
Opaque unesc.

Lemma fetch_skipn : forall data i v t, skipn (N.to_nat i) data = v :: t -> fetch data i = Ok v.
Proof.
  intros data i v t H. unfold fetch.
  replace (nth_error data (N.to_nat i)) with (nth_error (skipn (N.to_nat i) data) 0).
  - now rewrite H.
  - rewrite <- (firstn_skipn (N.to_nat i) data) at 2.
    assert (L : (N.to_nat i < length data)%nat).
    { assert (length (skipn (N.to_nat i) data) = S (length t)) by now rewrite H.
      rewrite skipn_length in *. lia. }
    rewrite nth_error_app2 by (rewrite firstn_length; lia).
    f_equal. rewrite firstn_length. lia.
Qed.

Lemma skipn_tail : forall (data : list N) k x t, skipn k data = x :: t -> skipn (S k) data = t.
Proof.
  intros data k x t H. change (S k) with (1 + k)%nat. rewrite <- skipn_skipn'. now rewrite H.
Qed.

Lemma Unescape_loop_spec : forall fuel data i out,
  (length (skipn (N.to_nat i) data) <= fuel)%nat -> i <= N.of_nat (length data) ->
  Unescape_loop fuel data (N.of_nat (length data)) i out =
  Ok (rev out ++ unesc (skipn (N.to_nat i) data)).
Proof.
  induction fuel as [|f IH]; intros data i out H Hi; cbn [Unescape_loop].
  - destruct (skipn (N.to_nat i) data) as [|x t] eqn:E; [|cbn in H; lia].
    assert (L : length (skipn (N.to_nat i) data) = 0%nat) by now rewrite E.
    rewrite skipn_length in L. replace (_ <? _) with false by lia.
    now rewrite app_nil_r.
  - destruct (skipn (N.to_nat i) data) as [|x t] eqn:E.
    { assert (L : length (skipn (N.to_nat i) data) = 0%nat) by now rewrite E.
      rewrite skipn_length in L. replace (_ <? _) with false by lia.
      now rewrite app_nil_r. }
    assert (L : length (skipn (N.to_nat i) data) = S (length t)) by now rewrite E.
    rewrite skipn_length in L. replace (i <? N.of_nat (length data)) with true by lia.
    assert (F0 : fetch data i = Ok x) by (eapply fetch_skipn; eauto).
    assert (S1 : skipn (N.to_nat (i + 1)) data = t)
      by (replace (N.to_nat (i + 1)) with (S (N.to_nat i)) by lia; eapply skipn_tail; eauto).
    assert (T : (if 3 <=? N.of_nat (length data) - i
                 then rbind (fetch data i) (fun a =>
                      if a =? 0 then rbind (fetch data (i + 1)) (fun b =>
                        if b =? 0 then rbind (fetch data (i + 2)) (fun c => Ok (c =? 3))
                        else Ok false) else Ok false)
                 else Ok false) = Ok (is_triple (x :: t))).
    { rewrite F0. cbn [rbind].
      destruct t as [|y t].
      { cbn [length] in L. replace (3 <=? _) with false by lia. reflexivity. }
      assert (F1 : fetch data (i + 1) = Ok y) by (eapply fetch_skipn; eauto).
      assert (S2 : skipn (N.to_nat (i + 2)) data = t)
        by (replace (N.to_nat (i + 2)) with (S (N.to_nat (i + 1))) by lia; eapply skipn_tail; eauto).
      destruct t as [|z t].
      { cbn [length] in L. replace (3 <=? _) with false by lia. reflexivity. }
      cbn [length] in L. replace (3 <=? _) with true by lia.
      assert (F2 : fetch data (i + 2) = Ok z) by (eapply fetch_skipn; eauto).
      rewrite F1. cbn [rbind]. rewrite F2. cbn [rbind is_triple].
      destruct (x =? 0); [|reflexivity]. destruct (y =? 0); [|reflexivity].
      destruct (z =? 3); reflexivity. }
    rewrite T. clear T. cbn [rbind].
    destruct (is_triple (x :: t)) eqn:TR.
    + apply is_triple_true in TR. destruct TR as [t' TR]. injection TR as -> ->.
      rewrite F0. cbn [rbind].
      assert (F1 : fetch data (i + 1) = Ok 0) by (eapply fetch_skipn; eauto).
      rewrite F1. cbn [rbind].
      assert (S2 : skipn (N.to_nat (i + 3)) data = t').
      { replace (N.to_nat (i + 3)) with (S (S (N.to_nat (i + 1)))) by lia.
        eapply skipn_tail. eapply skipn_tail. eauto. }
      cbn [length] in L, H.
      rewrite IH by (rewrite ?S2; lia). rewrite S2, unesc_triple.
      cbn [rev]. rewrite <- !app_assoc. reflexivity.
    + rewrite F0. cbn [rbind]. cbn [length] in H.
      rewrite IH by (rewrite ?S1; lia). rewrite S1, unesc_other by auto.
      cbn [rev]. rewrite <- app_assoc. reflexivity.
Qed.

Lemma UnescapeRbsp_spec : forall data, N.of_nat (length data) < 2 ^ 63 ->
  UnescapeRbsp data (N.of_nat (length data)) = Ok (unesc data).
Proof.
  intros data H. unfold UnescapeRbsp. replace (_ <? _) with false by lia.
  rewrite Unescape_loop_spec; auto; cbn [N.to_nat skipn]; lia.
Qed.

Lemma unesc_ind : forall P : list N -> Prop,
  P [] -> (forall t, P t -> P (0 :: 0 :: 3 :: t)) ->
  (forall x t, is_triple (x :: t) = false -> P t -> P (x :: t)) -> forall l, P l.
Proof.
  intros P H0 H1 H2 l. remember (length l) as n eqn:E. revert l E.
  induction n as [n IH] using lt_wf_ind. intros l E.
  destruct l as [|x t]; auto. destruct (is_triple (x :: t)) eqn:T.
  - apply is_triple_true in T. destruct T as [t' T]. injection T as -> ->. apply H1.
    eapply IH; [|reflexivity]. cbn in E. lia.
  - apply H2; auto. eapply IH; [|reflexivity]. cbn in E. lia.
Qed.

Lemma unesc_strips : forall l, strips l (unesc l).
Proof.
  apply unesc_ind.
  - constructor.
  - intros t H. rewrite unesc_triple. now constructor.
  - intros x t T H. rewrite unesc_other by auto. constructor; auto. now apply is_triple_false.
Qed.

Lemma strips_unesc : forall l u, strips l u -> u = unesc l.
Proof.
  induction 1 as [|t u S IH|x t u N S IH].
  - reflexivity.
  - rewrite unesc_triple. now subst.
  - rewrite unesc_other; [now subst|].
    destruct (is_triple (x :: t)) eqn:T; auto.
    apply is_triple_true in T. destruct T as [t' T]. destruct (N t' T).
Qed.

Lemma unesc_length : forall l, (length (unesc l) <= length l)%nat.
Proof.
  apply unesc_ind; auto.
  - intros t H. rewrite unesc_triple. cbn. lia.
  - intros x t T H. rewrite unesc_other by auto. cbn. lia.
Qed.

Lemma unesc_ok : forall l, bytes_ok l -> bytes_ok (unesc l).
Proof.
  apply (unesc_ind (fun l => bytes_ok l -> bytes_ok (unesc l))); auto.
  - intros t H B. rewrite unesc_triple. inversion B as [|? ? ? B1]; subst.
    inversion B1 as [|? ? ? B2]; subst. inversion B2; subst. repeat constructor; auto. now apply H.
  - intros x t T H B. rewrite unesc_other by auto. inversion B; subst. constructor; auto. now apply H.
Qed.

Lemma unesc_id : forall l, ~ contains [0; 0; 3] l -> unesc l = l.
Proof.
  apply (unesc_ind (fun l => ~ contains [0; 0; 3] l -> unesc l = l)); auto.
  - intros t H C. destruct C. exists [], t. reflexivity.
  - intros x t T H C. rewrite unesc_other by auto. f_equal. apply H.
    intros (a & b & E). apply C. exists (x :: a), b. now rewrite E.
Qed.

(** escape then unescape; [z] zeros are pending in front. *)
Lemma unesc_escape_from : forall l,
  (unesc (escape_from 0 l) = l) /\
  (unesc (0 :: escape_from 1 l) = 0 :: l) /\
  (unesc (0 :: 0 :: escape_from 2 l) = 0 :: 0 :: l).
Proof.
  induction l as [|x t (I0 & I1 & I2)].
  - repeat split; reflexivity.
  - assert (Z0 : forall y s, y <> 0 -> unesc (y :: s) = y :: unesc s).
    { intros y s H. apply unesc_other. destruct s as [|b [|c s]]; auto.
      cbn. replace (y =? 0) with false by lia. reflexivity. }
    assert (Z1 : forall y s, y <> 0 -> unesc (0 :: y :: s) = 0 :: y :: unesc s).
    { intros y s H. rewrite unesc_other.
      - f_equal. now apply Z0.
      - destruct s as [|c s]; auto. cbn. replace (y =? 0) with false by lia. reflexivity. }
    assert (Z2 : forall y s, y <> 0 -> y <> 3 -> unesc (0 :: 0 :: y :: s) = 0 :: 0 :: y :: unesc s).
    { intros y s H H3. rewrite unesc_other.
      - f_equal. now apply Z1.
      - cbn. replace (y =? 3) with false by lia. reflexivity. }
    cbn [escape_from]. cbn [Nat.leb andb].
    destruct (x =? 0) eqn:X.
    + assert (x = 0) by lia. subst x. change (0 <=? 3) with true. cbn iota.
      repeat split.
      * exact I1.
      * exact I2.
      * rewrite unesc_triple. do 2 f_equal. exact I1.
    + assert (XN : x <> 0) by lia. repeat split.
      * rewrite Z0 by auto. now rewrite I0.
      * rewrite Z1 by auto. now rewrite I0.
      * destruct (x <=? 3) eqn:X3.
        -- rewrite unesc_triple. do 2 f_equal. rewrite Z0 by auto. now rewrite I0.
        -- rewrite Z2 by lia. now rewrite I0.
Qed.

(** The other direction, for conforming payloads. *)
Lemma conforming_tail : forall x l, conforming (x :: l) -> conforming l.
Proof.
  intros x l (C1 & C2 & C3). repeat split.
  - intros a y b E. apply (C1 (x :: a) y b). now rewrite E.
  - intros a y b E. apply (C2 (x :: a) y b). now rewrite E.
  - intros a E. apply (C3 (x :: a)). now rewrite E.
Qed.

Lemma escape_unesc : forall l, conforming l -> escape_from 0 (unesc l) = l.
Proof.
  apply (unesc_ind (fun l => conforming l -> escape_from 0 (unesc l) = l)).
  - reflexivity.
  - intros t IH C. rewrite unesc_triple.
    change (escape_from 0 (0 :: 0 :: unesc t)) with (0 :: 0 :: escape_from 2 (unesc t)).
    do 2 f_equal.
    assert (Ct : conforming t) by (repeat apply conforming_tail in C; exact C).
    specialize (IH Ct).
    destruct t as [|x t]; [reflexivity|].
    destruct C as (_ & C2 & _). pose proof (C2 [] x t eq_refl) as X3.
    assert (H : exists u, unesc (x :: t) = x :: u).
    { destruct (is_triple (x :: t)) eqn:T.
      - apply is_triple_true in T. destruct T as [t' T]. injection T as -> ->.
        rewrite unesc_triple. eauto.
      - rewrite unesc_other by auto. eauto. }
    destruct H as [u H]. rewrite H in *. cbn [escape_from Nat.leb andb] in *.
    replace (x <=? 3) with true by lia. congruence.
  - intros x t T IH C. rewrite unesc_other by auto.
    pose proof (conforming_tail _ _ C) as Ct. specialize (IH Ct).
    cbn [escape_from Nat.leb andb]. f_equal.
    destruct (x =? 0) eqn:X; [|exact IH]. assert (x = 0) by lia. subst x.
    destruct t as [|y t]; [reflexivity|].
    destruct (is_triple (y :: t)) eqn:T2.
    + (* 0 0 0 3: excluded *)
      apply is_triple_true in T2. destruct T2 as [t' T2]. injection T2 as -> ->.
      destruct C as (C1 & _). pose proof (C1 [] 0 (3 :: t') eq_refl). lia.
    + rewrite unesc_other in * by auto.
      destruct (y =? 0) eqn:Y.
      * assert (y = 0) by lia. subst y.
        destruct t as [|w t].
        { destruct C as (_ & _ & C3). destruct (C3 [] eq_refl). }
        destruct C as (C1 & _). pose proof (C1 [] w t eq_refl) as W3.
        assert (w <> 3) by (intros ->; discriminate T).
        rewrite (unesc_other w) in *; auto.
        2:{ destruct t as [|? [|? ?]]; auto. cbn. replace (w =? 0) with false by lia. reflexivity. }
        2:{ destruct t as [|? [|? ?]]; auto. cbn. replace (w =? 0) with false by lia. reflexivity. }
        cbn [escape_from Nat.leb andb N.eqb] in *.
        replace (w <=? 3) with false by lia. replace (w =? 0) with false in * by lia. exact IH.
      * cbn [escape_from Nat.leb andb] in *. rewrite Y in *. exact IH.
Qed.

Lemma conforming_nil : conforming [].
Proof.
  repeat split.
  - intros [|? ?] ? ? E; discriminate.
  - intros [|? ?] ? ? E; discriminate.
  - intros [|? ?] E; discriminate.
Qed.
Lemma conforming_cons : forall x l, conforming l ->
  (forall y b, x :: l = 0 :: 0 :: y :: b -> 3 <= y) ->
  (forall y b, x :: l = 0 :: 0 :: 3 :: y :: b -> y <= 3) ->
  x :: l <> [0; 0] -> conforming (x :: l).
Proof.
  intros x l (C1 & C2 & C3) H1 H2 H3. repeat split.
  - intros [|a0 a] y b E; [eauto|]. injection E as _ E. eauto.
  - intros [|a0 a] y b E; [eauto|]. injection E as _ E. eauto.
  - intros [|a0 a] E; [eauto|]. injection E as _ E. eapply C3; eauto.
Qed.

Lemma escape_conforming : forall l,
  conforming (escape_from 0 l) /\ conforming (0 :: escape_from 1 l) /\
  conforming (0 :: 0 :: escape_from 2 l).
Proof.
  assert (CC := conforming_cons). assert (C0 := conforming_nil).
  Local Ltac fin :=
    match goal with
    | |- forall _, _ => intros ? ? E; injection E; intros; subst; try discriminate; lia
    | |- _ => let E := fresh in intros E; try discriminate E; injection E; intros; subst; try discriminate; lia
    end.
  Local Ltac cc CC := apply CC; [ | try (intros ? ? E; discriminate E); fin
    | try (intros ? ? E; discriminate E); fin | try discriminate; fin].
  induction l as [|x t (I0 & I1 & I2)].
  - cbn [escape_from Nat.leb]. split; [exact C0|split].
    + cc CC. exact C0.
    + cc CC. cc CC. cc CC. exact C0.
  - cbn [escape_from Nat.leb andb]. destruct (x =? 0) eqn:X.
    + assert (x = 0) by lia. subst x. change (0 <=? 3) with true. cbn iota.
      split; [exact I1|split; [exact I2|]].
      cc CC. cc CC. cc CC. exact I1.
    + assert (XN : x <> 0) by lia.
      assert (I0x : conforming (x :: escape_from 0 t)) by (cc CC; exact I0).
      assert (I0x' : conforming (0 :: x :: escape_from 0 t)) by (cc CC; exact I0x).
      split; [exact I0x|split; [exact I0x'|]].
      destruct (x <=? 3) eqn:X3.
      * cc CC. cc CC. cc CC. exact I0x.
      * cc CC. exact I0x'.
Qed.

(** * more_rbsp_data *)
Lemma bval_stop : forall l, l <> [] ->
  (bval l = 2 ^ N.of_nat (length l - 1) <-> l = stop_bits (length l - 1)).
Proof.
  intros [|b t] H; [congruence|]. cbn [length]. replace (S (length t) - 1)%nat with (length t) by lia.
  split.
  - intros E. apply bval_inj.
    + unfold stop_bits. cbn [length]. now rewrite repeat_length.
    + rewrite E. unfold stop_bits. cbn [bval]. rewrite repeat_length, bval_repeat_false. lia.
  - intros E. rewrite E at 1. unfold stop_bits. cbn [bval]. rewrite repeat_length, bval_repeat_false. lia.
Qed.

Definition is_stop (l : list bool) : bool :=
  (1 <=? length l)%nat && (length l <=? 8)%nat && (bval l =? 2 ^ N.of_nat (length l - 1)).

Lemma is_stop_iff : forall l, is_stop l = true <-> exists k, (k < 8)%nat /\ l = stop_bits k.
Proof.
  intros l. unfold is_stop. split.
  - intros H. exists (length l - 1)%nat. split; [lia|].
    apply bval_stop; [|lia]. intros ->. cbn in H. lia.
  - intros (k & Hk & ->). unfold stop_bits. cbn [length]. rewrite repeat_length.
    replace (S k - 1)%nat with k by lia. cbn [bval]. rewrite repeat_length, bval_repeat_false. lia.
Qed.

Lemma more_rbsp_data_spec : forall b, bb_wf b ->
  more_rbsp_data b = Ok (negb (match bb_rem b with [] => true | l => is_stop l end)).
Proof.
  intros b W. unfold more_rbsp_data. rewrite RemainingBitCount_spec by auto.
  destruct (bb_rem b) as [|x t] eqn:E; [reflexivity|]. rewrite <- E in *.
  assert (L : (1 <= length (bb_rem b))%nat) by (rewrite E; cbn; lia).
  replace (N.of_nat (length (bb_rem b)) =? 0) with false by lia.
  destruct (8 <? N.of_nat (length (bb_rem b))) eqn:E8.
  - replace (match bb_rem b with [] => true | _ => is_stop (bb_rem b) end) with (is_stop (bb_rem b))
      by now rewrite E.
    unfold is_stop. replace (length (bb_rem b) <=? 8)%nat with false by lia.
    rewrite andb_false_r. reflexivity.
  - unfold PeekBits. rewrite PeekBitsW_spec by (auto; lia).
    replace (_ || _) with false by lia.
    rewrite sub64_small by lia. replace (31 <=? _) with false by lia.
    rewrite Nat2N.id, firstn_all, N.shiftl_1_l.
    replace (match bb_rem b with [] => true | _ => is_stop (bb_rem b) end) with (is_stop (bb_rem b))
      by now rewrite E.
    unfold is_stop. replace (1 <=? length (bb_rem b))%nat with true by lia.
    replace (length (bb_rem b) <=? 8)%nat with true by lia. cbn [andb].
    replace (N.of_nat (length (bb_rem b)) - 1) with (N.of_nat (length (bb_rem b) - 1)) by lia.
    reflexivity.
Qed.

(** * rbsp_trailing_bits *)
Lemma ReadBit_spec : forall b, bb_wf b ->
  ReadBits 1 b = match bb_rem b with
                 | [] => (Null, b)
                 | x :: _ => (Ok (if x : bool then 1 else 0), bb_adv b 1)
                 end.
Proof.
  intros b W. rewrite ReadBits_spec by auto. unfold rd_ok.
  destruct (bb_rem b) as [|x t]; [reflexivity|].
  replace (negb _) with true by (cbn [length]; lia).
  change (N.to_nat 1) with 1%nat. cbn [firstn]. now rewrite bval_single.
Qed.

Lemma rem_aligned : forall b, bb_wf b -> bb_rem b <> [] ->
  (8 - N.to_nat (bb_bit b) <= length (bb_rem b))%nat.
Proof.
  intros b W H. pose proof (bb_rem_length b W) as L. destruct W as (H1 & H2 & H3 & H4).
  destruct (bb_rem b); [congruence|]. cbn [length] in *. unfold bb_count in *. lia.
Qed.

Lemma trailing_loop_spec : forall fuel b k, bb_wf b ->
  k = (N.to_nat ((8 - bb_bit b) mod 8))%nat -> (k <= fuel)%nat ->
  (k <= length (bb_rem b))%nat ->
  (firstn k (bb_rem b) = repeat false k /\ trailing_loop fuel b = (Ok tt, bb_adv b k)) \/
  (firstn k (bb_rem b) <> repeat false k /\
   exists m, (m <= k)%nat /\ trailing_loop fuel b = (Null, bb_adv b m)).
Proof.
  induction fuel as [|f IH]; intros b k W K F L; cbn [trailing_loop]; unfold byte_aligned.
  - assert (k = 0%nat) by lia. pose proof W as (H1 & H2 & H3 & H4).
    replace (bb_bit b =? 0) with true by lia. left.
    subst k. rewrite H. rewrite bb_adv_0 by auto. auto.
  - pose proof W as (H1 & H2 & H3 & H4).
    destruct (bb_bit b =? 0) eqn:E.
    { left. assert (k = 0%nat) by lia. rewrite H. rewrite bb_adv_0 by auto. auto. }
    unfold sbind. rewrite ReadBit_spec by auto.
    destruct (bb_rem b) as [|x t] eqn:R; [cbn in L; lia|].
    destruct k as [|k]; [lia|].
    assert (L1 : (1 <= length (bb_rem b))%nat) by (rewrite R; cbn; lia).
    assert (R1 : bb_rem (bb_adv b 1) = t) by (rewrite bb_adv_rem, R; auto).
    destruct x.
    + change (1 =? 0) with false. cbn iota. right. split; [discriminate|].
      exists 1%nat. split; [lia|]. reflexivity.
    + change (0 =? 0) with true. cbn iota.
      destruct (IH (bb_adv b 1) k) as [[E1 E2]|[E1 (m & Hm & E2)]].
      * apply bb_adv_wf; auto.
      * unfold bb_adv. cbn [bb_bit]. lia.
      * lia.
      * rewrite R1. cbn in L. lia.
      * left. rewrite R1 in E1. cbn [firstn repeat]. rewrite E1, E2, bb_adv_adv. auto.
      * right. rewrite R1 in E1. cbn [firstn repeat]. split; [congruence|].
        exists (S m). rewrite E2, bb_adv_adv. split; [lia|reflexivity].
Qed.

Definition tb_len (b : bb) : nat := 8 - N.to_nat (bb_bit b).

Lemma rbsp_trailing_bits_spec : forall b, bb_wf b ->
  (firstn (tb_len b) (bb_rem b) = stop_bits (tb_len b - 1) /\
   rbsp_trailing_bits b = (Ok tt, bb_adv b (tb_len b))) \/
  (firstn (tb_len b) (bb_rem b) <> stop_bits (tb_len b - 1) /\
   exists m, (m <= length (bb_rem b))%nat /\ rbsp_trailing_bits b = (Null, bb_adv b m)).
Proof.
  intros b W. pose proof W as (H1 & H2 & H3 & H4).
  unfold rbsp_trailing_bits, sbind. rewrite ReadBit_spec by auto.
  destruct (bb_rem b) as [|x t] eqn:R.
  { right. rewrite firstn_nil. split; [discriminate|]. exists 0%nat.
    rewrite bb_adv_0 by auto. split; auto. }
  assert (L1 : (1 <= length (bb_rem b))%nat) by (rewrite R; cbn; lia).
  assert (L2 : (tb_len b <= length (bb_rem b))%nat).
  { unfold tb_len. apply rem_aligned; auto. rewrite R. discriminate. }
  assert (R1 : bb_rem (bb_adv b 1) = t) by (rewrite bb_adv_rem, R; auto).
  assert (T : tb_len b = S (tb_len b - 1)) by (unfold tb_len; lia).
  assert (FT : firstn (tb_len b) (x :: t) = x :: firstn (tb_len b - 1) t)
    by (rewrite T at 1; reflexivity).
  rewrite FT. unfold stop_bits.
  assert (Lt : (tb_len b - 1 <= length t)%nat) by (rewrite R in L2; cbn [length] in L2; lia).
  destruct x.
  - change (1 =? 1) with true. cbn iota.
    destruct (trailing_loop_spec 8 (bb_adv b 1) (tb_len b - 1)) as [[E1 E2]|[E1 (m & Hm & E2)]].
    + apply bb_adv_wf; auto.
    + unfold bb_adv, tb_len. cbn [bb_bit]. lia.
    + unfold tb_len. lia.
    + rewrite R1. lia.
    + left. rewrite R1 in E1. rewrite E1, E2, bb_adv_adv. split; auto. do 2 f_equal. lia.
    + right. rewrite R1 in E1. split; [congruence|]. exists (S m).
      rewrite E2, bb_adv_adv. split; [|reflexivity]. cbn [length]. lia.
  - right. split; [congruence|]. exists 1%nat. split; [cbn; lia|reflexivity].
Qed.

(** * Checksum *)
Lemma oc_add_comm : forall a b, oc_add a b = oc_add b a.
Proof. intros. unfold oc_add. now rewrite N.add_comm. Qed.

Definition nsum (l : list N) : N := fold_right N.add 0 l.

(** The end-around-carry sum is the residue modulo 2^32-1 in 1..2^32-1, or 0 for zero. *)
Definition oc_of (s : N) : N := if s =? 0 then 0 else (s - 1) mod (2 ^ 32 - 1) + 1.

Lemma oc_of_add : forall s v, v < 2 ^ 32 -> oc_add (oc_of s) v = oc_of (s + v).
Proof.
  intros s v H. unfold oc_add, oc_of.
  destruct (s =? 0) eqn:S0.
  - assert (s = 0) by lia. subst. rewrite N.add_0_l.
    replace (v <? 2 ^ 32) with true by lia. destruct (v =? 0) eqn:V; [lia|].
    rewrite N.mod_small by lia. lia.
  - replace (s + v =? 0) with false by lia.
    pose proof (N.div_mod (s - 1) (2 ^ 32 - 1) ltac:(lia)) as D.
    pose proof (N.mod_lt (s - 1) (2 ^ 32 - 1) ltac:(lia)) as M.
    set (q := (s - 1) / (2 ^ 32 - 1)) in *. set (r := (s - 1) mod (2 ^ 32 - 1)) in *.
    clearbody q r.
    destruct (r + 1 + v <? 2 ^ 32) eqn:E.
    + rewrite <- (N.mod_unique (s + v - 1) (2 ^ 32 - 1) q (r + v)); lia.
    + rewrite <- (N.mod_unique (s + v - 1) (2 ^ 32 - 1) (q + 1) (r + v - (2 ^ 32 - 1))); lia.
Qed.

Lemma oc_sum_of : forall l s, Forall (fun v => v < 2 ^ 32) l ->
  fold_left oc_add l (oc_of s) = oc_of (s + nsum l).
Proof.
  induction l as [|v l IH]; intros s F; cbn [fold_left nsum fold_right].
  - now rewrite N.add_0_r.
  - inversion F; subst. rewrite oc_of_add by auto. rewrite IH by auto. f_equal. unfold nsum. lia.
Qed.

Lemma oc_sum_spec : forall l, Forall (fun v => v < 2 ^ 32) l -> oc_sum l = oc_of (nsum l).
Proof. intros l F. unfold oc_sum. apply (oc_sum_of l 0 F). Qed.

Lemma oc_sum_perm : forall l l', Forall (fun v => v < 2 ^ 32) l -> Permutation l l' ->
  oc_sum l = oc_sum l'.
Proof.
  intros l l' F P. rewrite !oc_sum_spec; auto.
  - f_equal. clear F. induction P; cbn [nsum fold_right] in *; unfold nsum in *; lia.
  - rewrite Forall_forall in *. intros x H. apply F.
    apply Permutation_in with (l := l'); auto. now apply Permutation_sym.
Qed.

(** The folding at the end of GetNaluChecksum. *)
Lemma fold_spec : forall s, s < 2 ^ 64 ->
  let t := u64 (N.shiftr s 32 + N.land s (2 ^ 32 - 1)) in
  u32 (2 ^ 64 - 1 - u64 (t + N.shiftr t 32)) = 2 ^ 32 - 1 - oc_of s.
Proof.
  intros s H. cbv zeta.
  replace (N.land s (2 ^ 32 - 1)) with (s mod 2 ^ 32) by (symmetry; apply (N.land_ones s 32)).
  rewrite !N.shiftr_div_pow2. unfold oc_of.
  rewrite (u64_small (s / 2 ^ 32 + s mod 2 ^ 32)) by lia.
  set (h := s / 2 ^ 32). set (l := s mod 2 ^ 32).
  assert (E : s = 2 ^ 32 * h + l) by (apply N.div_mod; lia).
  assert (Hl : l < 2 ^ 32) by (apply N.mod_lt; lia).
  assert (Hh : h < 2 ^ 32) by (apply N.div_lt_upper_bound; lia).
  clearbody h l.
  destruct (s =? 0) eqn:S0.
  - assert (h = 0) by lia. assert (l = 0) by lia. subst. reflexivity.
  - destruct (N.ltb_spec (h + l) (2 ^ 32)) as [L|L].
    + rewrite (N.div_small (h + l)) by lia. rewrite N.add_0_r.
      rewrite (u64_small (h + l)) by lia. unfold u32.
      rewrite <- (N.mod_unique (s - 1) (2 ^ 32 - 1) h (h + l - 1)) by lia.
      rewrite <- (N.mod_unique (2 ^ 64 - 1 - (h + l)) (2 ^ 32) (2 ^ 32 - 1) (2 ^ 32 - 1 - (h + l))); lia.
    + replace ((h + l) / 2 ^ 32) with 1
        by (apply (N.div_unique (h + l) (2 ^ 32) 1 (h + l - 2 ^ 32)); lia).
      rewrite (u64_small (h + l + 1)) by lia. unfold u32.
      rewrite <- (N.mod_unique (s - 1) (2 ^ 32 - 1) (h + 1) (h + l - 2 ^ 32)) by lia.
      rewrite <- (N.mod_unique (2 ^ 64 - 1 - (h + l + 1)) (2 ^ 32) (2 ^ 32 - 2)
                 (2 ^ 32 - 1 - (h + l - 2 ^ 32 + 1))); lia.
Qed.
