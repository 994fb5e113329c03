(** The writer overwrites exactly the addressed bits. *)
From Coq Require Import NArith ZArith List Bool Lia ZifyBool ZifyNat ZifyN.
From Verif Require Import SpecBits Base BitBuffer SpecReader BitsLemmas BitBufferProofs
  ReaderProofs Writer SpecWriter.
Import ListNotations.
Open Scope N_scope.
Ltac Zify.zify_post_hook ::= Z.div_mod_to_equations.

Lemma update_length : forall l i v, length (update l i v) = length l.
Proof. induction l; intros [|i] v; cbn; auto. Qed.
Lemma update_split : forall l i v, (i < length l)%nat ->
  update l i v = firstn i l ++ v :: skipn (S i) l.
Proof.
  induction l as [|x t IH]; intros [|i] v H; cbn [length] in H; try lia; cbn; auto.
  f_equal. apply IH. lia.
Qed.
Lemma update_ok : forall l i v, bytes_ok l -> v < 256 -> bytes_ok (update l i v).
Proof.
  induction l as [|x t IH]; intros [|i] v H Hv; cbn; auto; inversion H; subst; constructor; auto.
  now apply IH.
Qed.

Lemma patch_length : forall p l s, (p + length l <= length s)%nat ->
  length (patch p l s) = length s.
Proof.
  intros. unfold patch. rewrite !app_length, skipn_length, firstn_length. lia.
Qed.

Lemma patch_patch : forall p a b s, (p + length a + length b <= length s)%nat ->
  patch (p + length a) b (patch p a s) = patch p (a ++ b) s.
Proof.
  intros p a b s H. unfold patch.
  assert (L : length (firstn p s) = p) by (rewrite firstn_length; lia).
  assert (L2 : length (firstn p s ++ a) = (p + length a)%nat) by (rewrite app_length; lia).
  replace (firstn (p + length a) (firstn p s ++ a ++ skipn (p + length a) s))
    with (firstn p s ++ a).
  2:{ rewrite app_assoc. rewrite firstn_app_exact' by lia. reflexivity. }
  rewrite app_assoc, (app_assoc (firstn p s) a).
  replace (skipn (p + length a + length b) ((firstn p s ++ a) ++ skipn (p + length a) s))
    with (skipn (p + length (a ++ b)) s).
  2:{ rewrite skipn_app, L2. rewrite (skipn_all2 (firstn p s ++ a)) by (rewrite L2; lia). cbn [app].
      rewrite skipn_skipn'. f_equal. rewrite app_length. lia. }
  rewrite <- !app_assoc. reflexivity.
Qed.

Lemma patch_nil : forall p s, patch p [] s = s.
Proof. intros. unfold patch. cbn. rewrite Nat.add_0_r. apply firstn_skipn. Qed.

Lemma firstn_bits_of : forall k bs, firstn (8 * k) (bits_of bs) = bits_of (firstn k bs).
Proof.
  induction k as [|k IH]; intros bs; [reflexivity|].
  destruct bs as [|b t].
  - now rewrite !firstn_nil.
  - cbn [firstn]. rewrite !bits_of_cons.
    replace (8 * S k)%nat with (length (byte_bits b) + 8 * k)%nat by (rewrite byte_bits_length; lia).
    rewrite firstn_app_2. now rewrite IH.
Qed.

Lemma update_bits : forall B i off l v t, nth_error B i = Some t ->
  (off + length l <= 8)%nat ->
  byte_bits v = patch off l (byte_bits t) ->
  bits_of (update B i v) = patch (8 * i + off) l (bits_of B).
Proof.
  intros B i off l v t N H E.
  assert (Hi : (i < length B)%nat) by (apply nth_error_Some; congruence).
  rewrite update_split by auto. rewrite bits_of_app, bits_of_cons, E.
  assert (SP : bits_of B = bits_of (firstn i B) ++ byte_bits t ++ bits_of (skipn (S i) B)).
  { rewrite <- bits_of_cons, <- bits_of_app. f_equal.
    rewrite <- (firstn_skipn i B) at 1. f_equal. now apply nth_error_skipn_cons. }
  rewrite SP. unfold patch.
  set (P := bits_of (firstn i B)).
  assert (LP : length P = (8 * i)%nat).
  { unfold P. rewrite bits_of_length, firstn_length. lia. }
  assert (LT : length (byte_bits t) = 8%nat) by apply byte_bits_length.
  rewrite <- !app_assoc.
  replace (firstn (8 * i + off) (P ++ byte_bits t ++ bits_of (skipn (S i) B)))
    with (P ++ firstn off (byte_bits t)).
  2:{ rewrite <- LP, firstn_app_2. f_equal. rewrite firstn_app.
      replace (off - length (byte_bits t))%nat with 0%nat by lia. now rewrite firstn_O, app_nil_r. }
  rewrite <- app_assoc. do 3 f_equal.
  replace (8 * i + off + length l)%nat with (length P + (off + length l))%nat by lia.
  rewrite skipn_app. rewrite (skipn_all2 P) by lia.
  replace (length P + (off + length l) - length P)%nat with (off + length l)%nat by lia.
  cbn [app]. rewrite skipn_app.
  replace (off + length l - length (byte_bits t))%nat with 0%nat by lia. reflexivity.
Qed.

(** [nbits 8] of the pieces, bit by bit. *)
Lemma testbit_small : forall v k i, v < 2 ^ k -> k <= i -> N.testbit v i = false.
Proof.
  intros v k i H L. destruct (N.eq_dec v 0) as [->|Z]; [apply N.bits_0|].
  apply N.bits_above_log2. apply N.log2_lt_pow2 in H; lia.
Qed.

Lemma WritePartialByte_spec : forall a src c tgt off,
  src < 256 -> tgt < 256 -> off < 8 -> 0 < c -> c <= 8 - off ->
  (c = 8 - off \/ src mod 2 ^ (8 - c) = 0) ->
  exists v, WritePartialByte a src c tgt off = Ok v /\ v < 256 /\
    byte_bits v = patch (N.to_nat off) (firstn (N.to_nat c) (byte_bits src)) (byte_bits tgt).
Proof.
  intros a src c tgt off Hs Ht Ho H0 Hc Hz. unfold WritePartialByte, dcheck.
  rewrite !sub64_small by lia.
  replace (off <? 8) with true by lia. replace (c <? 9) with true by lia.
  replace (c <=? 8 - off) with true by lia. cbn [negb]. rewrite !andb_false_r.
  replace (24 <=? 8 - c) with false by lia. replace (32 <=? off) with false by lia.
  eexists. split; [reflexivity|]. split; [apply N.mod_lt; lia|].
  assert (Z : forall i, i < 8 - c -> c <> 8 - off -> N.testbit src i = false).
  { intros i Hi NE. destruct Hz as [|Hz]; [contradiction|].
    rewrite <- (N.mod_pow2_bits_low src (8 - c) i) by auto. rewrite Hz. apply N.bits_0. }
  assert (A : forall i, 8 <= i -> N.testbit src i = false)
    by (intros; apply (testbit_small src 8); [exact Hs|auto]).
  unfold byte_bits, u8.
  assert (OC : (off = 0 \/ off = 1 \/ off = 2 \/ off = 3 \/ off = 4 \/ off = 5 \/ off = 6 \/ off = 7)) by lia.
  assert (CC : (c = 1 \/ c = 2 \/ c = 3 \/ c = 4 \/ c = 5 \/ c = 6 \/ c = 7 \/ c = 8)) by lia.
  assert (T : forall m i, i < 8 -> N.testbit (N.lor (N.ldiff tgt m) (N.shiftr src off) mod 2 ^ 8) i
            = (N.testbit tgt i && negb (N.testbit m i)) || N.testbit src (i + off)).
  { intros m i Hi. rewrite N.mod_pow2_bits_low by auto.
    rewrite N.lor_spec, N.ldiff_spec, N.shiftr_spec'. reflexivity. }
  cbn [map]. rewrite !T by lia. clear T.
  destruct OC as [->|[->|[->|[->|[->|[->|[->| ->]]]]]]];
  destruct CC as [->|[->|[->|[->|[->|[->|[->| ->]]]]]]]; try lia; clear Hz Hs Ht Hc Ho H0;
  cbn -[N.testbit]; cbn [N.add]; unfold patch; cbn -[N.testbit];
  try rewrite (A 8) by lia; try rewrite (A 9) by lia; try rewrite (A 10) by lia;
  try rewrite (A 11) by lia; try rewrite (A 12) by lia; try rewrite (A 13) by lia;
  try rewrite (A 14) by lia;
  try rewrite (Z 0) by lia; try rewrite (Z 1) by lia; try rewrite (Z 2) by lia;
  try rewrite (Z 3) by lia; try rewrite (Z 4) by lia; try rewrite (Z 5) by lia;
  try rewrite (Z 6) by lia;
  rewrite ?andb_true_r, ?andb_false_r, ?orb_false_r; reflexivity.
Qed.
