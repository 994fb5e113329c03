(** Proofs about the lengths computed in double arithmetic. *)
From Coq Require Import NArith ZArith QArith Qabs Qpower Qround Lia Lqa SpecFloat.
From Verif Require Import Base Framerate SpecFramerate FloatProofs Lengths SpecLengths.
Open Scope Q_scope.

(** * Rounding keeps the order with numbers of at most 53 bits *)
Definition short (x : Q) : Prop := exists a e, (0 < a < 2 ^ 53)%Z /\ x == dyadic a e.
Lemma short_normal : forall x, short x -> exists m e, normal 53 m /\ x == dyadic m e.
Proof.
  intros x (a & e & [A1 A2] & E). destruct (Zdigits2_spec a A1) as [[D1 D2] D3]. set (d := Zdigits2 a) in *.
  assert (D : (d <= 53)%Z) by (apply Znot_gt_le; intros C; pose proof (Z.pow_le_mono_r 2 53 (d - 1)); lia).
  exists (a * 2 ^ (53 - d))%Z, (e - (53 - d))%Z. split.
  - unfold normal. assert (P : (0 < 2 ^ (53 - d))%Z) by (apply Z.pow_pos_nonneg; lia). split.
    + replace (53 - 1)%Z with ((d - 1) + (53 - d))%Z by lia. rewrite Z.pow_add_r by lia. apply Z.mul_le_mono_nonneg_r; lia.
    + replace 53%Z with (d + (53 - d))%Z at 2 by lia. rewrite Z.pow_add_r by lia. apply Zmult_lt_compat_r; lia.
  - rewrite E, dy_shift by lia. replace (e - (53 - d) + (53 - d))%Z with e by lia. reflexivity.
Qed.
Lemma near_lo : forall x m e c, nearest 53 x m e -> short c -> c <= x -> c <= dyadic m e.
Proof.
  intros x m e c [_ N] S L. destruct (short_normal c S) as (m' & e' & M & E). destruct (N m' e' M) as [A _]. rewrite E in *. absolute; lra.
Qed.
Lemma near_hi : forall x m e c, nearest 53 x m e -> short c -> x <= c -> dyadic m e <= c.
Proof.
  intros x m e c [_ N] S L. destruct (short_normal c S) as (m' & e' & M & E). destruct (N m' e' M) as [A _]. rewrite E in *. absolute; lra.
Qed.

(** * Addition *)
Lemma align : forall m e e', (e' <= e)%Z -> dyadic (Zpos (fst (shl_align m e e'))) e' == dyadic (Zpos m) e.
Proof.
  intros m e e' L. unfold shl_align. destruct (e' - e)%Z as [|n|n] eqn:X.
  - replace e' with e by lia. reflexivity.
  - lia.
  - cbn [fst]. assert (SP : Zpos (shift_pos n m) = (Zpos m * 2 ^ Zpos n)%Z) by (rewrite shift_pos_correct; change (Z.pow_pos 2 n) with (2 ^ Zpos n)%Z; ring).
    rewrite SP, dy_shift by lia. replace (e' + Zpos n)%Z with e by lia. reflexivity.
Qed.
Lemma add53 : forall m1 e1 m2 e2, let x := dyadic (Zpos m1) e1 + dyadic (Zpos m2) e2 in p2 (-100) <= x < p2 100 ->
  exists m e, dadd (S754_finite false m1 e1) (S754_finite false m2 e2) = S754_finite false m e /\ nearest 53 x (Zpos m) e.
Proof.
  intros m1 e1 m2 e2 x B. unfold dadd. cbn [SFadd cond_Zopp]. set (ez := Z.min e1 e2).
  set (a := fst (shl_align m1 e1 ez)). set (b := fst (shl_align m2 e2 ez)).
  change (Zpos a + Zpos b)%Z with (Zpos (a + b)).
  assert (V : dyadic (Zpos (a + b)) ez == x).
  { unfold x. rewrite <- (align m1 e1 ez), <- (align m2 e2 ez) by lia. fold a b. rewrite !dy, Pos2Z.inj_add, inject_Z_plus. ring. }
  rewrite <- V in B. pose proof (digits_range (a + b) ez (-100) 100 ltac:(lia) B) as D.
  destruct (normalize dprec demax ltac:(unfold dprec; lia) (a + b) ez) as (m & e & E & N); [unfold emin, dprec, demax; lia|unfold demax; lia|].
  exists m, e. split; [exact E|]. apply (nearest_proper 53 _ _ _ _ V N).
Qed.

(** * Powers *)
Lemma pow_succ : forall a n, ~ a == 0 -> a ^ Zpos (Pos.succ n) == a ^ Zpos n * a.
Proof. intros a n N. rewrite Pos2Z.inj_succ. unfold Z.succ. rewrite Qpower_plus by exact N. change (a ^ 1) with a. reflexivity. Qed.
Lemma pow_pos : forall a n, 0 < a -> 0 < a ^ n.
Proof. intros. apply Qpower_0_lt. assumption. Qed.
Lemma pow_mono : forall a b n, 0 < a -> a <= b -> a ^ Zpos n <= b ^ Zpos n.
Proof.
  intros a b n P L. induction n as [|n IH] using Pos.peano_ind; [exact L|]. rewrite !pow_succ by lra.
  apply Qle_trans with (b ^ Zpos n * a); [apply Qmult_le_compat_r; lra|]. apply Qmult_le_l; [apply pow_pos; lra|exact L].
Qed.
Lemma bernoulli : forall t n, 0 < t -> 1 + inject_Z (Zpos n) * t <= (1 + t) ^ Zpos n.
Proof.
  intros t n P. induction n as [|n IH] using Pos.peano_ind; [change ((1 + t) ^ 1) with (1 + t); change (inject_Z 1) with 1; lra|].
  rewrite pow_succ by lra. rewrite Pos2Z.inj_succ. unfold Z.succ. rewrite iz_succ. set (N := inject_Z (Zpos n)) in *.
  assert (PN : 0 < N) by (change 0 with (inject_Z 0); apply iz_lt; lia).
  apply Qle_trans with ((1 + N * t) * (1 + t)); [|apply Qmult_le_compat_r; lra].
  assert (0 <= N * t * t) by (apply Qmult_le_0_compat; [apply Qmult_le_0_compat; lra|lra]).
  setoid_replace ((1 + N * t) * (1 + t)) with (1 + (N + 1) * t + N * t * t) by ring. lra.
Qed.
Lemma p2_def : forall k, (2 # 1) ^ k = p2 k.
Proof. reflexivity. Qed.
Lemma p2_mul_pos : forall k q, p2 (k * Zpos q) == p2 k ^ Zpos q.
Proof. intros. unfold p2. apply Qpower_mult. Qed.
Lemma p2_lt_inv : forall a b, p2 a < p2 b -> (a < b)%Z.
Proof. intros a b L. apply Znot_ge_lt. intros C. pose proof (p2_le b a ltac:(lia)). lra. Qed.
Lemma p2_le_inv : forall a b, p2 a <= p2 b -> (a <= b)%Z.
Proof. intros a b L. apply Znot_gt_le. intros C. assert (b + 1 <= a)%Z by lia. pose proof (p2_le _ _ H). rewrite p2_succ in H0. pose proof (p2_pos b). lra. Qed.

(** Just above and just below a power of two *)
Lemma just_above : forall n x q, p2 n * (1 + (1 # q)) <= x -> p2 (n * Zpos q + 1) <= x ^ Zpos q.
Proof.
  intros n x q L. pose proof (p2_pos n) as P. assert (T : 0 < 1 # q) by reflexivity.
  apply Qle_trans with ((p2 n * (1 + (1 # q))) ^ Zpos q).
  - rewrite Qmult_power, p2_plus, p2_mul_pos. change (p2 1) with (2 # 1). apply Qmult_le_l; [apply pow_pos; exact P|].
    pose proof (bernoulli (1 # q) q T) as B. assert (E : inject_Z (Zpos q) * (1 # q) == 1) by (unfold Qeq; cbn; lia). rewrite E in B. lra.
  - apply pow_mono; [|exact L]. apply Qlt_le_trans with (p2 n * 1); [lra|apply Qmult_le_l; lra].
Qed.
Lemma just_below : forall n x q, 0 < x -> x * (1 + (1 # q)) <= p2 n -> x ^ Zpos q <= p2 (n * Zpos q - 1).
Proof.
  intros n x q X L. assert (T : 0 < 1 # q) by reflexivity.
  assert (A : (x * (1 + (1 # q))) ^ Zpos q <= p2 n ^ Zpos q) by (apply pow_mono; [|exact L]; apply Qlt_le_trans with (x * 1); [lra|apply Qmult_le_l; lra]).
  rewrite Qmult_power in A. pose proof (bernoulli (1 # q) q T) as B. assert (E : inject_Z (Zpos q) * (1 # q) == 1) by (unfold Qeq; cbn; lia). rewrite E in B.
  pose proof (pow_pos x (Zpos q) X) as PX.
  assert (C : x ^ Zpos q * 2 <= p2 n ^ Zpos q) by (apply Qle_trans with (x ^ Zpos q * (1 + (1 # q)) ^ Zpos q); [apply Qmult_le_l; lra|exact A]).
  rewrite <- p2_mul_pos in C. replace (n * Zpos q)%Z with (n * Zpos q - 1 + 1)%Z in C by lia. rewrite p2_succ in C. lra.
Qed.

(** * Ceilings *)
Lemma ceil_value : forall x y, value x = Some y -> exists z, ceil_of x = Some z /\ inject_Z z - 1 < y <= inject_Z z.
Proof.
  intros x y V. destruct x as [s|s| |s m e]; try discriminate; cbn [value ceil_of] in *; injection V as <-.
  - exists 0%Z. split; [reflexivity|]. change (inject_Z 0) with 0. lra.
  - eexists. split; [reflexivity|]. replace (if s then Zneg m else Zpos m) with (cond_Zopp s (Zpos m)) by (destruct s; reflexivity).
    set (v := cond_Zopp s (Zpos m)). destruct (0 <=? e)%Z eqn:E.
    + apply Z.leb_le in E. rewrite inject_Z_mult, <- p2_Z by exact E. rewrite dy. lra.
    + apply Z.leb_gt in E. assert (P : (0 < 2 ^ (- e))%Z) by (apply Z.pow_pos_nonneg; lia). set (D := (2 ^ (- e))%Z) in *.
      pose proof (Z.div_mod (- v) D ltac:(lia)) as DM. pose proof (Z.mod_pos_bound (- v) D P) as MB. set (q := ((- v) / D)%Z) in *. set (r := ((- v) mod D)%Z) in *.
      assert (DE : p2 (- e) == inject_Z D) by (apply p2_Z; lia). assert (ED : p2 e * inject_Z D == 1).
      { rewrite <- DE, <- p2_plus. replace (e + - e)%Z with 0%Z by lia. reflexivity. }
      assert (PD : 0 < inject_Z D) by (change 0 with (inject_Z 0); apply iz_lt; exact P).
      assert (VE : dyadic v e * inject_Z D == inject_Z v) by (rewrite dy, <- Qmult_assoc, ED; ring).
      assert (VV : v = (- q * D - r)%Z) by lia.
      assert (VQ : inject_Z v == inject_Z (- q) * inject_Z D - inject_Z r).
      { rewrite VV. unfold Zminus. rewrite inject_Z_plus, inject_Z_mult, !inject_Z_opp. ring. }
      assert (R1 : 0 <= inject_Z r) by (change 0 with (inject_Z 0); apply iz_le; lia).
      assert (R2 : inject_Z r < inject_Z D) by (apply iz_lt; lia).
      split.
      * apply (Qmult_lt_r _ _ (inject_Z D) PD). rewrite VE, VQ. ring_simplify. lra.
      * apply (Qmult_le_r _ _ (inject_Z D) PD). rewrite VE, VQ. lra.
Qed.
Lemma ceil_is : forall x y n, value x = Some y -> inject_Z n - 1 < y <= inject_Z n -> ceil_of x = Some n.
Proof.
  intros x y n V [A B]. destruct (ceil_value x y V) as (z & E & C & D). rewrite E. f_equal.
  assert (inject_Z z < inject_Z (n + 1)) as H by (rewrite iz_succ; lra). rewrite <- Zlt_Qlt in H.
  assert (inject_Z n < inject_Z (z + 1)) as H' by (rewrite iz_succ; lra). rewrite <- Zlt_Qlt in H'. lia.
Qed.

(** * The quotient plus one *)
Lemma one_double : exists m e, double_of 1 = S754_finite false m e /\ normal 53 (Zpos m) /\ dyadic (Zpos m) e == 1.
Proof. destruct (double_exact 1 ltac:(lia)) as (m & e & A & B & C). exists m, e. auto. Qed.
Lemma mul_one : forall n, (0 < n < 2 ^ 32)%N ->
  exists m e, dmul (double_of 1) (double_of n) = S754_finite false m e /\ normal 53 (Zpos m) /\ dyadic (Zpos m) e == inject_Z (Z.of_N n).
Proof.
  intros n H. destruct one_double as (m1 & e1 & -> & N1 & V1). destruct (double_exact n H) as (m2 & e2 & -> & N2 & V2).
  assert (V : dyadic (Zpos (m1 * m2)) (e1 + e2) == inject_Z (Z.of_N n)).
  { rewrite <- V2. transitivity (dyadic (Zpos m1) e1 * dyadic (Zpos m2) e2); [|rewrite V1; ring]. rewrite !dy, p2_plus, Pos2Z.inj_mul, inject_Z_mult. ring. }
  assert (D : (0 < Zpos (digits2_pos (m1 * m2)) + (e1 + e2) <= 32)%Z).
  { apply digits_range; [lia|]. rewrite V. split; [apply (p2_int 0); lia|apply p2_int'; lia]. }
  unfold dmul. destruct (mul dprec demax ltac:(unfold dprec; lia) m1 e1 m2 e2) as (m & e & E & N); [exact N1|unfold emin, dprec, demax; cbn [Zdigits2]; lia|unfold demax; cbn [Zdigits2]; lia|].
  exists m, e. split; [exact E|]. split; [apply N|]. rewrite (nearest_exact 53 _ _ _ (Zpos m2) e2 N N2); rewrite V1, V2; ring.
Qed.
Section Quotient.
Context (S R : N) (HS : (0 < S < 2 ^ 32)%N) (HR : (0 < R < 2 ^ 32)%N).
Definition exact : Q := inject_Z (Z.of_N S) / inject_Z (Z.of_N R) + 1.
Lemma quotient_bounds : p2 (-32) <= inject_Z (Z.of_N S) / inject_Z (Z.of_N R) < p2 32.
Proof.
  pose proof (p2_int 0 S ltac:(lia) ltac:(lia)) as S1. pose proof (p2_int' 32 S ltac:(lia) ltac:(lia)) as S2.
  pose proof (p2_int 0 R ltac:(lia) ltac:(lia)) as R1. pose proof (p2_int' 32 R ltac:(lia) ltac:(lia)) as R2.
  change (p2 0) with 1 in *. set (s := inject_Z (Z.of_N S)) in *. set (r := inject_Z (Z.of_N R)) in *. split.
  - apply Qle_shift_div_l; [lra|]. assert (P : p2 (-32) * p2 32 == 1) by reflexivity. pose proof (p2_pos (-32)).
    apply Qle_trans with (p2 (-32) * p2 32); [apply Qmult_le_l; lra|lra].
  - apply Qlt_shift_div_r; [lra|]. pose proof (p2_pos 32). apply Qlt_le_trans with (p2 32 * 1); [lra|apply Qmult_le_l; lra].
Qed.
Lemma quotient : exists m e, dadd (ddiv (dmul (double_of 1) (double_of S)) (double_of R)) (double_of 1) = S754_finite false m e /\
  (forall c, short c -> short (c - 1) -> c <= exact -> c <= dyadic (Zpos m) e) /\
  (forall c, short c -> short (c - 1) -> exact <= c -> dyadic (Zpos m) e <= c).
Proof.
  destruct (mul_one S HS) as (m1 & e1 & -> & N1 & V1). destruct (double_exact R HR) as (m2 & e2 & -> & N2 & V2). destruct one_double as (m0 & e0 & -> & N0 & V0).
  pose proof quotient_bounds as B. set (q := inject_Z (Z.of_N S) / inject_Z (Z.of_N R)) in *.
  pose proof (digits_range m1 e1 0 32 ltac:(lia)) as D1. rewrite V1 in D1. specialize (D1 (conj (p2_int 0 S ltac:(lia) ltac:(lia)) (p2_int' 32 S ltac:(lia) ltac:(lia)))).
  pose proof (digits_range m2 e2 0 32 ltac:(lia)) as D2. rewrite V2 in D2. specialize (D2 (conj (p2_int 0 R ltac:(lia) ltac:(lia)) (p2_int' 32 R ltac:(lia) ltac:(lia)))).
  destruct (div dprec demax ltac:(unfold dprec; lia) m1 e1 m2 e2) as (m3 & e3 & E3 & N3); [unfold emin, dprec, demax; lia|unfold demax; lia|].
  unfold ddiv. rewrite E3. apply (nearest_proper 53 _ q) in N3; [|rewrite V1, V2; reflexivity].
  assert (B3 : p2 (-32) <= dyadic (Zpos m3) e3 <= p2 32).
  { split; [apply (near_lo q _ _ _ N3); [exists 1%Z, (-32)%Z; split; [lia|reflexivity]|lra]|apply (near_hi q _ _ _ N3); [exists 1%Z, 32%Z; split; [lia|reflexivity]|lra]]. }
  destruct (add53 m3 e3 m0 e0) as (m & e & E & N).
  { rewrite V0. assert (p2 (-100) <= 1) by (unfold Qle; cbn; lia). assert (p2 32 + 1 < p2 100) by (unfold Qlt; cbn; lia). pose proof (p2_pos (-32)). lra. }
  exists m, e. split; [exact E|]. apply (nearest_proper 53 _ (dyadic (Zpos m3) e3 + 1)) in N; [|rewrite V0; reflexivity]. unfold exact. fold q.
  split; intros c C1 C2 L.
  - apply (near_lo _ _ _ _ N C1). pose proof (near_lo q _ _ _ N3 C2 ltac:(lra)). lra.
  - apply (near_hi _ _ _ _ N C1). pose proof (near_hi q _ _ _ N3 C2 ltac:(lra)). lra.
Qed.
End Quotient.
