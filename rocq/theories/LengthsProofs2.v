(** Proofs about the lengths computed in double arithmetic: the logarithm. *)
From Coq Require Import NArith ZArith QArith Qabs Qpower Qround Lia Lqa SpecFloat.
From Verif Require Import Base Framerate SpecFramerate FloatProofs Lengths SpecLengths LengthsProofs.
Open Scope Q_scope.

Definition q33 : positive := (2 ^ 33)%positive.
Definition q34 : positive := (2 ^ 34)%positive.
Definition placed (x : Q) (n : Z) : Prop := x == p2 n \/ p2 (n - 1) * (1 + (1 # q33)) <= x /\ x * (1 + (1 # q34)) <= p2 n /\ 1 <= x.
Lemma log_ceil : forall log2 m e n, accurate log2 -> placed (dyadic (Zpos m) e) n -> ceil_of (log2 (S754_finite false m e)) = Some n.
Proof.
  intros log2 m e n A [E|(L & U & O)].
  - destruct (log2_power _ A m e n E) as (y & V & Y). apply (ceil_is _ y); [exact V|split; lra].
  - destruct (log2_near _ A m e O) as (y & V & Y1 & Y2). apply (ceil_is _ y); [exact V|].
    assert (S : slack == 1 # (2 ^ 40)) by reflexivity.
    specialize (Y1 _ _ (just_above _ _ _ L)). specialize (Y2 _ _ (just_below n (dyadic (Zpos m) e) q34 ltac:(lra) U)).
    assert (E1 : ((n - 1) * Zpos q33 + 1 # q33) == inject_Z n - 1 + (1 # q33)).
    { unfold Qeq, inject_Z. cbn [Qnum Qden Qminus Qplus Qopp]. rewrite !Pos.mul_1_l. lia. }
    assert (E2 : (n * Zpos q34 - 1 # q34) == inject_Z n - (1 # q34)).
    { unfold Qeq, inject_Z. cbn [Qnum Qden Qminus Qplus Qopp]. rewrite !Pos.mul_1_l. lia. }
    rewrite E1 in Y1. rewrite E2 in Y2. rewrite S in Y1, Y2. unfold q33, q34 in *. cbn in Y1, Y2. split; lra.
Qed.

Lemma iz_minus : forall a b, inject_Z (a - b) == inject_Z a - inject_Z b.
Proof. intros. unfold Zminus. rewrite inject_Z_plus, inject_Z_opp. reflexivity. Qed.
Lemma short_pow : forall n, (0 <= n <= 33)%Z -> short (p2 n) /\ ((1 <= n)%Z -> short (p2 n - 1)).
Proof.
  intros n H. split; [exists 1%Z, n; split; [lia|]; rewrite dy; change (inject_Z 1) with 1; ring|]. intros H'.
  exists (2 ^ n - 1)%Z, 0%Z. split.
  - pose proof (Z.pow_le_mono_r 2 1 n). pose proof (Z.pow_le_mono_r 2 n 33). lia.
  - rewrite p2_Z by lia. rewrite dy. change (p2 0) with 1. unfold Zminus. rewrite inject_Z_plus, inject_Z_opp. change (inject_Z 1) with 1. ring.
Qed.
Lemma short_above : forall j, (0 <= j <= 32)%Z -> short (p2 j * (1 + (1 # q33))) /\ short (p2 j * (1 + (1 # q33)) - 1).
Proof.
  intros j H. assert (P : p2 (j - 33) == p2 j * (1 # q33)).
  { replace (j - 33)%Z with (j + -33)%Z by lia. rewrite p2_plus. reflexivity. }
  assert (Q : p2 j == inject_Z (2 ^ 33) * p2 (j - 33)).
  { rewrite <- p2_Z, <- p2_plus by lia. replace (33 + (j - 33))%Z with j by lia. reflexivity. }
  assert (I : 1 == inject_Z (2 ^ (33 - j)) * p2 (j - 33)).
  { rewrite <- p2_Z, <- p2_plus by lia. replace (33 - j + (j - 33))%Z with 0%Z by lia. reflexivity. }
  assert (C : p2 j * (1 + (1 # q33)) == inject_Z (2 ^ 33 + 1) * p2 (j - 33)).
  { rewrite Qmult_plus_distr_r, <- P, inject_Z_plus. rewrite Qmult_1_r, Q at 1. change (inject_Z 1) with 1. ring. }
  split.
  - exists (2 ^ 33 + 1)%Z, (j - 33)%Z. split; [lia|exact C].
  - exists (2 ^ 33 + 1 - 2 ^ (33 - j))%Z, (j - 33)%Z. split.
    + pose proof (Z.pow_le_mono_r 2 (33 - j) 33). pose proof (Z.pow_pos_nonneg 2 (33 - j)). lia.
    + rewrite C, dy. rewrite (iz_minus (2 ^ 33 + 1)). rewrite I at 1. ring.
Qed.
Lemma short_below : forall j, (1 <= j <= 33)%Z -> short (p2 j * (1 - (1 # q34))) /\ short (p2 j * (1 - (1 # q34)) - 1).
Proof.
  intros j H. assert (P : p2 (j - 34) == p2 j * (1 # q34)).
  { replace (j - 34)%Z with (j + -34)%Z by lia. rewrite p2_plus. reflexivity. }
  assert (Q : p2 j == inject_Z (2 ^ 34) * p2 (j - 34)).
  { rewrite <- p2_Z, <- p2_plus by lia. replace (34 + (j - 34))%Z with j by lia. reflexivity. }
  assert (I : 1 == inject_Z (2 ^ (34 - j)) * p2 (j - 34)).
  { rewrite <- p2_Z, <- p2_plus by lia. replace (34 - j + (j - 34))%Z with 0%Z by lia. reflexivity. }
  assert (C : p2 j * (1 - (1 # q34)) == inject_Z (2 ^ 34 - 1) * p2 (j - 34)).
  { unfold Qminus. rewrite Qmult_plus_distr_r. setoid_replace (p2 j * - (1 # q34)) with (- (p2 j * (1 # q34))) by ring. rewrite <- P.
    rewrite Qmult_1_r, Q at 1. rewrite (iz_minus (2 ^ 34)). change (inject_Z 1) with 1. ring. }
  split.
  - exists (2 ^ 34 - 1)%Z, (j - 34)%Z. split; [lia|exact C].
  - exists (2 ^ 34 - 1 - 2 ^ (34 - j))%Z, (j - 34)%Z. split.
    + pose proof (Z.pow_le_mono_r 2 (34 - j) 33). pose proof (Z.pow_pos_nonneg 2 (34 - j)). lia.
    + rewrite C, dy. rewrite (iz_minus (2 ^ 34 - 1)). rewrite I at 1. ring.
Qed.

Section Quotient.
Context (S R : N) (HS : (0 < S < 2 ^ 32)%N) (HR : (0 < R < 2 ^ 32)%N).
Lemma exact_cmp : let r := inject_Z (Z.of_N R) in let t := inject_Z (Z.of_N (S + R)) in
  0 < r /\ (forall c, c * r <= t -> c <= exact S R) /\ (forall c, t <= c * r -> exact S R <= c) /\ exact S R * r == t.
Proof.
  intros r t. assert (P : 0 < r) by (change 0 with (inject_Z 0); apply iz_lt; lia).
  assert (E : exact S R * r == t).
  { unfold exact, t. rewrite N2Z.inj_add, inject_Z_plus. fold r. field. lra. }
  split; [exact P|]. split; [|split; [|exact E]]; intros c H; apply (Qmult_le_r _ _ r P); lra.
Qed.
Lemma quotient_placed : forall n, (1 <= n)%Z -> (Z.of_N R * 2 ^ (n - 1) < Z.of_N (S + R) <= Z.of_N R * 2 ^ n)%Z ->
  exists m e, dadd (ddiv (dmul (double_of 1) (double_of S)) (double_of R)) (double_of 1) = S754_finite false m e /\ placed (dyadic (Zpos m) e) n.
Proof.
  intros n N1 [L U]. destruct (quotient S R HS HR) as (m & e & E & LO & HI). exists m, e. split; [exact E|].
  destruct exact_cmp as (P & GE & LE & V). set (r := inject_Z (Z.of_N R)) in *. set (t := inject_Z (Z.of_N (S + R))) in *.
  assert (N2 : (n <= 33)%Z).
  { apply Znot_gt_le. intros C. pose proof (Z.pow_le_mono_r 2 33 (n - 1)). nia. }
  assert (PW : (2 ^ n = 2 * 2 ^ (n - 1))%Z) by (rewrite <- Z.pow_succ_r by lia; f_equal; lia).
  assert (XN : p2 n * r == inject_Z (Z.of_N R * 2 ^ n)) by (rewrite p2_Z, inject_Z_mult by lia; unfold r; ring).
  assert (X1 : p2 (n - 1) * r == inject_Z (Z.of_N R * 2 ^ (n - 1))) by (rewrite p2_Z, inject_Z_mult by lia; unfold r; ring).
  destruct (Z.eq_dec (Z.of_N (S + R)) (Z.of_N R * 2 ^ n)) as [Q|Q].
  - left. destruct (short_pow n ltac:(lia)) as [S1 S2]. specialize (S2 N1). apply Qle_antisym.
    + apply (HI _ S1 S2). apply LE. rewrite XN. unfold t. rewrite Q. lra.
    + apply (LO _ S1 S2). apply GE. rewrite XN. unfold t. rewrite Q. lra.
  - right. set (A := (Z.of_N R * 2 ^ (n - 1))%Z) in *. set (B := (Z.of_N R * 2 ^ n)%Z) in *. assert (BA : B = (2 * A)%Z) by (unfold A, B; rewrite PW; ring).
    assert (A1 : inject_Z A + 1 <= t) by (unfold t; rewrite <- iz_succ; apply iz_le; lia).
    assert (A2 : inject_Z A <= inject_Z (2 ^ 33)) by (apply iz_le; lia).
    assert (B1 : t + 1 <= inject_Z B) by (unfold t; rewrite <- iz_succ; apply iz_le; lia).
    assert (B2 : inject_Z B <= inject_Z (2 ^ 34)) by (apply iz_le; lia).
    change (inject_Z (2 ^ 33)) with (8589934592 # 1) in A2. change (inject_Z (2 ^ 34)) with (17179869184 # 1) in B2.
    destruct (short_above (n - 1) ltac:(lia)) as [S1 S2]. destruct (short_below n ltac:(lia)) as [S3 S4].
    assert (LX : p2 (n - 1) * (1 + (1 # q33)) <= dyadic (Zpos m) e).
    { apply (LO _ S1 S2). apply GE. setoid_replace (p2 (n - 1) * (1 + (1 # q33)) * r) with (p2 (n - 1) * r * (1 + (1 # q33))) by ring. rewrite X1. unfold q33. cbn [Pos.pow Pos.iter Pos.mul]. lra. }
    assert (HX : dyadic (Zpos m) e <= p2 n * (1 - (1 # q34))).
    { apply (HI _ S3 S4). apply LE. setoid_replace (p2 n * (1 - (1 # q34)) * r) with (p2 n * r * (1 - (1 # q34))) by ring. rewrite XN. unfold q34. cbn [Pos.pow Pos.iter Pos.mul]. lra. }
    pose proof (p2_pos n) as Pn. pose proof (p2_le 0 (n - 1) ltac:(lia)) as P1. change (p2 0) with 1 in P1.
    split; [exact LX|]. split.
    + apply Qle_trans with (p2 n * (1 - (1 # q34)) * (1 + (1 # q34))); [apply Qmult_le_compat_r; [exact HX|unfold q34; cbn; lra]|].
      setoid_replace (p2 n * (1 - (1 # q34)) * (1 + (1 # q34))) with (p2 n - p2 n * ((1 # q34) * (1 # q34))) by ring.
      assert (0 <= p2 n * ((1 # q34) * (1 # q34))) by (apply Qmult_le_0_compat; [lra|discriminate]). lra.
    + apply Qle_trans with (p2 (n - 1) * (1 + (1 # q33))); [|exact LX]. apply Qle_trans with (p2 (n - 1) * 1); [lra|]. apply Qmult_le_l; [lra|]. unfold q33. cbn. lra.
Qed.
End Quotient.
