(** Proofs about rounding of binary numbers. *)
From Coq Require Import NArith ZArith QArith Qabs Qpower Qround Lia Lqa SpecFloat.
From Verif Require Import TypesSps Framerate SpecFramerate.
Open Scope Q_scope.

(** * Powers of two *)
Definition p2 (e : Z) : Q := (2 # 1) ^ e.
Lemma p2_pos : forall e, 0 < p2 e.
Proof. intros e. unfold p2. apply Qpower_0_lt. reflexivity. Qed.
Lemma p2_plus : forall a b, p2 (a + b) == p2 a * p2 b.
Proof. intros. unfold p2. apply Qpower_plus. discriminate. Qed.
Lemma p2_succ : forall e, p2 (e + 1) == 2 * p2 e.
Proof. intros. rewrite p2_plus. change (p2 1) with (2 # 1). ring. Qed.
Lemma p2_Z : forall n, (0 <= n)%Z -> p2 n == inject_Z (2 ^ n).
Proof.
  intros n H. pattern n. apply natlike_ind; [reflexivity| |exact H]. clear n H. intros n H E.
  rewrite <- Z.add_1_r. rewrite p2_succ, E. rewrite Z.pow_add_r, inject_Z_mult by lia.
  change (inject_Z (2 ^ 1)) with (2 # 1). ring.
Qed.
Lemma dy : forall m e, dyadic m e = inject_Z m * p2 e.
Proof. reflexivity. Qed.
Lemma iz_le : forall a b, (a <= b)%Z -> inject_Z a <= inject_Z b.
Proof. intros. rewrite <- Zle_Qle. auto. Qed.
Lemma iz_lt : forall a b, (a < b)%Z -> inject_Z a < inject_Z b.
Proof. intros. rewrite <- Zlt_Qlt. auto. Qed.
Lemma iz_succ : forall a, inject_Z (a + 1) == inject_Z a + 1.
Proof. intros. rewrite inject_Z_plus. reflexivity. Qed.
Lemma dy_le : forall a b e, (a <= b)%Z -> dyadic a e <= dyadic b e.
Proof. intros. rewrite !dy. apply Qmult_le_compat_r; [apply iz_le; auto|apply Qlt_le_weak, p2_pos]. Qed.
Lemma dy_lt : forall a b e, (a < b)%Z -> dyadic a e < dyadic b e.
Proof. intros. rewrite !dy. apply Qmult_lt_r; [apply p2_pos|apply iz_lt; auto]. Qed.
Lemma dy_succ : forall a e, dyadic (a + 1) e == dyadic a e + p2 e.
Proof. intros. rewrite !dy, iz_succ. ring. Qed.
Lemma dy_shift : forall a e k, (0 <= k)%Z -> dyadic (a * 2 ^ k) e == dyadic a (e + k).
Proof. intros. rewrite !dy, inject_Z_mult, p2_plus, (p2_Z k) by auto. ring. Qed.
Lemma dy_pow : forall k e, (0 <= k)%Z -> dyadic (2 ^ k) e == p2 (e + k).
Proof. intros. rewrite dy, p2_plus, (p2_Z k) by auto. ring. Qed.
Lemma p2_le : forall a b, (a <= b)%Z -> p2 a <= p2 b.
Proof.
  intros a b H. replace b with (a + (b - a))%Z by lia. rewrite <- dy_pow by lia.
  apply Qle_trans with (dyadic 1 a). { rewrite dy. change (inject_Z 1) with 1. lra. }
  apply dy_le. pose proof (Z.pow_pos_nonneg 2 (b - a)). lia.
Qed.
Ltac absolute := repeat (match goal with
  | |- context [Qabs ?x] => let A := fresh "A" in destruct (Qlt_le_dec x 0) as [A|A];
      [rewrite (Qabs_neg x) by lra|rewrite (Qabs_pos x) by lra]
  | H : context [Qabs ?x] |- _ => let A := fresh "A" in destruct (Qlt_le_dec x 0) as [A|A];
      [rewrite (Qabs_neg x) in H by lra|rewrite (Qabs_pos x) in H by lra]
  end).

(** * Rounding on a grid gives the nearest *)
Lemma normal_even : forall p, (2 <= p)%Z -> normal p (2 ^ (p - 1)) /\ Z.even (2 ^ (p - 1)) = true.
Proof.
  intros p H. unfold normal. assert (A : (2 ^ (p - 1) = 2 * 2 ^ (p - 2))%Z).
  { replace (p - 1)%Z with (1 + (p - 2))%Z by lia. rewrite Z.pow_add_r by lia. reflexivity. }
  assert (B : (2 ^ p = 4 * 2 ^ (p - 2))%Z).
  { replace p with (2 + (p - 2))%Z at 1 by lia. rewrite Z.pow_add_r by lia. reflexivity. }
  pose proof (Z.pow_pos_nonneg 2 (p - 2)). rewrite A, B. split; [lia|]. rewrite Z.even_mul. reflexivity.
Qed.
Definition on_grid (x : Q) (E k : Z) : Prop :=
  Qabs (x - dyadic k E) <= (1 # 2) * p2 E /\ (Qabs (x - dyadic k E) == (1 # 2) * p2 E -> Z.even k = true).
Lemma grid_min : forall x E k k', on_grid x E k ->
  Qabs (x - dyadic k E) <= Qabs (x - dyadic k' E) /\
  (Qabs (x - dyadic k E) == Qabs (x - dyadic k' E) -> k = k' \/ Z.even k = true).
Proof.
  intros x E k k' [G T]. pose proof (p2_pos E) as P. destruct (Z.lt_trichotomy k k') as [L|[->|L]].
  - pose proof (dy_le (k + 1) k' E ltac:(lia)) as D. rewrite dy_succ in D. split.
    + absolute; lra.
    + intros Q. right. apply T. absolute; lra.
  - split; [lra|auto].
  - pose proof (dy_le (k' + 1) k E ltac:(lia)) as D. rewrite dy_succ in D. split.
    + absolute; lra.
    + intros Q. right. apply T. absolute; lra.
Qed.
Lemma grid_nearest : forall p x E k, (2 <= p)%Z -> p2 (E + (p - 1)) <= x < p2 (E + p) -> on_grid x E k ->
  exists m e, nearest p x m e /\ dyadic m e == dyadic k E /\
    ((k < 2 ^ p)%Z /\ m = k /\ e = E \/ (k = 2 ^ p)%Z /\ m = (2 ^ (p - 1))%Z /\ e = (E + 1)%Z).
Proof.
  intros p x E k P [L H] G. pose proof (p2_pos E) as PE. pose proof G as [GA _].
  rewrite <- dy_pow in L by lia. rewrite <- dy_pow in H by lia.
  assert (K : (2 ^ (p - 1) <= k <= 2 ^ p)%Z).
  { split.
    - apply Znot_gt_le. intros C. pose proof (dy_le (k + 1) (2 ^ (p - 1)) E ltac:(lia)) as D. rewrite dy_succ in D.
      absolute; lra.
    - apply Znot_gt_le. intros C. pose proof (dy_le (2 ^ p + 1) k E ltac:(lia)) as D. rewrite dy_succ in D.
      absolute; lra. }
  assert (N : forall m' e', normal p m' -> Qabs (x - dyadic k E) <= Qabs (x - dyadic m' e') /\
    (Qabs (x - dyadic k E) == Qabs (x - dyadic m' e') -> dyadic k E == dyadic m' e' \/ Z.even k = true)).
  { intros m' e' [M1 M2]. destruct (Z_lt_le_dec e' E) as [C|C].
    - assert (B : dyadic m' e' < dyadic (2 ^ (p - 1)) E).
      { apply Qlt_le_trans with (dyadic (2 ^ p) e'); [apply dy_lt; auto|]. rewrite !dy_pow by lia. apply p2_le. lia. }
      destruct (grid_min x E k (2 ^ (p - 1)) G) as [X _].
      assert (Y : Qabs (x - dyadic (2 ^ (p - 1)) E) < Qabs (x - dyadic m' e')) by (absolute; lra).
      split; [lra|]. intros Z. lra.
    - assert (B : dyadic m' e' == dyadic (m' * 2 ^ (e' - E)) E).
      { rewrite dy_shift by lia. replace (E + (e' - E))%Z with e' by lia. reflexivity. }
      rewrite B. destruct (grid_min x E k (m' * 2 ^ (e' - E)) G) as [X Y]. split; [exact X|].
      intros Z. destruct (Y Z) as [->|Y']; [left; reflexivity|auto]. }
  destruct (Z_lt_le_dec k (2 ^ p)) as [C|C].
  - exists k, E. split; [split; [unfold normal; lia|exact N]|]. split; [reflexivity|]. auto.
  - assert (k = 2 ^ p)%Z as -> by lia. destruct (normal_even p P) as [NM EV].
    assert (B : dyadic (2 ^ (p - 1)) (E + 1) == dyadic (2 ^ p) E).
    { rewrite !dy_pow by lia. replace (E + 1 + (p - 1))%Z with (E + p)%Z by lia. reflexivity. }
    exists (2 ^ (p - 1))%Z, (E + 1)%Z. split; [|split; [exact B|right; auto]]. split; [exact NM|].
    intros m' e' M. rewrite B. destruct (N m' e' M) as [X Y]. split; [exact X|]. intros Z. right. exact EV.
Qed.

(** * The operations of SpecFloat *)
Definition rec_at (x : Q) (r : shr_record) (e : Z) : Prop :=
  (0 <= shr_m r)%Z /\
  match shr_r r, shr_s r with
  | false, false => x == dyadic (shr_m r) e
  | false, true => dyadic (shr_m r) e < x < dyadic (shr_m r) e + (1 # 2) * p2 e
  | true, false => x == dyadic (shr_m r) e + (1 # 2) * p2 e
  | true, true => dyadic (shr_m r) e + (1 # 2) * p2 e < x < dyadic (shr_m r) e + p2 e
  end.
Lemma dy_double : forall m e, dyadic (2 * m) e == dyadic m (e + 1).
Proof. intros. rewrite !dy, p2_succ, inject_Z_mult. change (inject_Z 2) with (2 # 1). ring. Qed.
Lemma rec_shr_1 : forall x r e, rec_at x r e -> rec_at x (shr_1 r) (e + 1).
Proof.
  intros x [m r s] e [P H]. cbn [shr_m shr_r shr_s] in *. pose proof (p2_pos e) as PE.
  assert (D : forall q b, m = (2 * q + b)%Z -> (b = 0 \/ b = 1)%Z -> dyadic m e == dyadic q (e + 1) + inject_Z b * p2 e).
  { intros q b -> [-> | ->].
    - rewrite Z.add_0_r, dy_double. change (inject_Z 0) with 0. ring.
    - rewrite dy_succ, dy_double. change (inject_Z 1) with 1. ring. }
  destruct m as [|[q|q|]|q]; [| | | |lia]; unfold shr_1, rec_at; cbn [shr_m shr_r shr_s].
  - split; [lia|]. specialize (D 0 0 eq_refl (or_introl eq_refl))%Z. change (inject_Z 0) with 0 in D.
    pose proof (p2_succ e) as PS. destruct r, s; cbn [orb]; lra.
  - split; [lia|]. specialize (D (Zpos q) 1 ltac:(lia) (or_intror eq_refl))%Z. change (inject_Z 1) with 1 in D.
    pose proof (p2_succ e) as PS. destruct r, s; cbn [orb]; lra.
  - split; [lia|]. specialize (D (Zpos q) 0 ltac:(lia) (or_introl eq_refl))%Z. change (inject_Z 0) with 0 in D.
    pose proof (p2_succ e) as PS. destruct r, s; cbn [orb]; lra.
  - split; [lia|]. specialize (D 0 1 eq_refl (or_intror eq_refl))%Z. change (inject_Z 1) with 1 in D.
    pose proof (p2_succ e) as PS. destruct r, s; cbn [orb]; lra.
Qed.
Lemma rec_iter : forall n x r e, rec_at x r e -> rec_at x (iter_pos shr_1 n r) (e + Zpos n).
Proof.
  induction n as [n IH|n IH|]; intros x r e H; cbn [iter_pos].
  - replace (e + Zpos n~1)%Z with (e + 1 + Zpos n + Zpos n)%Z by lia. auto using rec_shr_1.
  - replace (e + Zpos n~0)%Z with (e + Zpos n + Zpos n)%Z by lia. auto.
  - apply rec_shr_1. exact H.
Qed.
Lemma digits2_spec : forall m, (2 ^ (Zpos (digits2_pos m) - 1) <= Zpos m < 2 ^ Zpos (digits2_pos m))%Z.
Proof.
  induction m as [m IH|m IH|]; cbn [digits2_pos]; [| |cbn; lia]; rewrite Pos2Z.inj_succ;
    set (d := Zpos (digits2_pos m)) in *; assert (1 <= d)%Z by lia;
    replace (2 ^ (Z.succ d - 1))%Z with (2 * 2 ^ (d - 1))%Z by (rewrite <- Z.pow_succ_r by lia; f_equal; lia);
    rewrite Z.pow_succ_r by lia; lia.
Qed.
Lemma Zdigits2_spec : forall m, (0 < m)%Z -> (2 ^ (Zdigits2 m - 1) <= m < 2 ^ Zdigits2 m)%Z /\ (0 < Zdigits2 m)%Z.
Proof. intros [|m|m] H; try lia. split; [apply digits2_spec|]. cbn. lia. Qed.
Lemma digits_unique : forall m d, (0 < d)%Z -> (2 ^ (d - 1) <= m < 2 ^ d)%Z -> Zdigits2 m = d.
Proof.
  intros m d D H. assert (0 < m)%Z by (pose proof (Z.pow_pos_nonneg 2 (d - 1)); lia).
  destruct (Zdigits2_spec m) as [S P]; auto.
  destruct (Z.lt_trichotomy (Zdigits2 m) d) as [C|[C|C]]; auto.
  - pose proof (Z.pow_le_mono_r 2 (Zdigits2 m) (d - 1)). lia.
  - pose proof (Z.pow_le_mono_r 2 d (Zdigits2 m - 1)). lia.
Qed.
Lemma digits_ge : forall m p, (0 < p)%Z -> (2 ^ (p - 1) <= m)%Z -> (p <= Zdigits2 m)%Z.
Proof.
  intros m p D H. assert (0 < m)%Z by (pose proof (Z.pow_pos_nonneg 2 (p - 1)); lia).
  destruct (Zdigits2_spec m) as [S P]; auto.
  apply Znot_gt_le. intros C. pose proof (Z.pow_le_mono_r 2 (Zdigits2 m) (p - 1)). lia.
Qed.
(** What a mantissa, an exponent and a location say about a number. *)
Definition at_loc (x : Q) (m e : Z) (l : location) : Prop := rec_at x (shr_record_of_loc m l) e.
Lemma round_grid : forall x r e, rec_at x r e ->
  on_grid x e (round_nearest_even (shr_m r) (loc_of_shr_record r)).
Proof.
  intros x [m r s] e [P H]. cbn [shr_m shr_r shr_s] in *. pose proof (p2_pos e) as PE. unfold on_grid.
  destruct r, s; cbn [loc_of_shr_record round_nearest_even shr_m].
  - rewrite dy_succ. split; [absolute; lra|]. intros C. exfalso. absolute; lra.
  - destruct (Z.even m) eqn:EV.
    + split; [absolute; lra|auto].
    + rewrite dy_succ. split; [absolute; lra|]. intros _. rewrite Z.even_add, EV. reflexivity.
  - split; [absolute; lra|]. intros C. exfalso. absolute; lra.
  - split; [absolute; lra|]. intros C. exfalso. absolute; lra.
Qed.
Lemma rec_bounds : forall x r e, rec_at x r e -> dyadic (shr_m r) e <= x < dyadic (shr_m r + 1) e.
Proof.
  intros x [m r s] e [P H]. cbn [shr_m shr_r shr_s] in *. pose proof (p2_pos e) as PE. rewrite dy_succ. destruct r, s; lra.
Qed.
Lemma loc_m : forall m l, shr_m (shr_record_of_loc m l) = m.
Proof. intros m [|[| |]]; reflexivity. Qed.
Lemma shr_at : forall x r e n, (0 <= n)%Z -> rec_at x r e ->
  exists r', shr r e n = (r', (e + n)%Z) /\ rec_at x r' (e + n).
Proof.
  intros x r e [|n|n] N H; [| |lia]; cbn [shr].
  - exists r. rewrite Z.add_0_r. auto.
  - eexists. split; [reflexivity|]. apply rec_iter. exact H.
Qed.
Section Fmt.
Context (prec emax : Z) (P2 : (2 <= prec)%Z).
Lemma round_aux : forall x mx ex lx, at_loc x mx ex lx ->
  (0 < mx)%Z -> (prec <= Zdigits2 mx)%Z -> (emin prec emax <= Zdigits2 mx + ex - prec)%Z -> (Zdigits2 mx + ex + 1 <= emax)%Z ->
  exists m e, binary_round_aux prec emax false mx ex lx = S754_finite false m e /\ nearest prec x (Zpos m) e.
Proof.
  intros x mx ex lx A M D LO HI. set (d := Zdigits2 mx) in *. destruct (Zdigits2_spec mx M) as [S PD]. fold d in S, PD.
  unfold binary_round_aux, shr_fexp, fexp. fold d.
  replace (Z.max (d + ex - prec) (emin prec emax) - ex)%Z with (d - prec)%Z by lia.
  destruct (shr_at x _ ex (d - prec) ltac:(lia) A) as (r & -> & R). set (E := (ex + (d - prec))%Z) in *.
  pose proof (round_grid x r E R) as G. set (k := round_nearest_even (shr_m r) (loc_of_shr_record r)) in *.
  assert (B : p2 (E + (prec - 1)) <= x < p2 (E + prec)).
  { pose proof (rec_bounds x _ ex A) as [B1 B2]. rewrite loc_m in B1, B2. split.
    - replace (E + (prec - 1))%Z with (ex + (d - 1))%Z by lia. rewrite <- dy_pow by lia.
      apply Qle_trans with (dyadic mx ex); [apply dy_le; lia|exact B1].
    - replace (E + prec)%Z with (ex + d)%Z by lia. rewrite <- dy_pow by lia.
      apply Qlt_le_trans with (dyadic (mx + 1) ex); [exact B2|apply dy_le; lia]. }
  destruct (grid_nearest prec x E k P2 B G) as (m & e & N & V & C).
  assert (NM : normal prec m) by apply N. unfold normal in NM.
  assert (PP : (0 < 2 ^ (prec - 1))%Z) by (apply Z.pow_pos_nonneg; lia).
  destruct C as [(C & -> & ->)|(C & -> & ->)].
  - rewrite (digits_unique k prec) by lia.
    replace (Z.max (prec + E - prec) (emin prec emax) - E)%Z with 0%Z by lia. cbn [shr shr_record_of_loc shr_m].
    destruct k as [|q|q]; [lia| |lia]. replace (Zle_bool E (emax - prec)) with true.
    + exists q, E. auto.
    + symmetry. apply Z.leb_le. lia.
  - assert (PW : (2 ^ prec = 2 * 2 ^ (prec - 1))%Z) by (rewrite <- Z.pow_succ_r by lia; f_equal; lia).
    rewrite C, (digits_unique (2 ^ prec) (prec + 1)).
    2: lia. 2: { replace (prec + 1 - 1)%Z with prec by lia. rewrite Z.pow_add_r by lia. change (2 ^ 1)%Z with 2%Z. lia. }
    replace (Z.max (prec + 1 + E - prec) (emin prec emax) - E)%Z with 1%Z by lia. cbn [shr shr_record_of_loc iter_pos].
    rewrite PW. destruct (2 ^ (prec - 1))%Z as [|q|q] eqn:Q; [lia| |lia].
    change (2 * Zpos q)%Z with (Zpos q~0). cbn [shr_1 shr_m]. replace (Zle_bool (E + 1) (emax - prec)) with true.
    + exists q, (E + 1)%Z. auto.
    + symmetry. apply Z.leb_le. lia.
Qed.
Lemma normalize : forall m e, let d := Zpos (digits2_pos m) in
  (emin prec emax <= d + e - prec)%Z -> (d + e + 1 <= emax)%Z ->
  exists m' e', binary_normalize prec emax (Zpos m) e false = S754_finite false m' e' /\
    nearest prec (dyadic (Zpos m) e) (Zpos m') e'.
Proof.
  intros m e d LO HI. unfold binary_normalize, binary_round, shl_align, fexp. fold d.
  destruct (digits2_spec m) as [S1 S2]. fold d in S1, S2.
  replace (Z.max (d + e - prec) (emin prec emax)) with (d + e - prec)%Z by lia.
  destruct (d + e - prec - e)%Z as [|n|n] eqn:X.
  - apply round_aux; cbn [Zdigits2]; fold d; try lia. split; [cbn; lia|reflexivity].
  - apply round_aux; cbn [Zdigits2]; fold d; try lia. split; [cbn; lia|reflexivity].
  - assert (SP : Zpos (shift_pos n m) = (Zpos m * 2 ^ Zpos n)%Z) by (rewrite shift_pos_correct; change (Z.pow_pos 2 n) with (2 ^ Zpos n)%Z; ring).
    assert (DD : Zdigits2 (Zpos (shift_pos n m)) = prec).
    { apply digits_unique; [lia|]. rewrite SP. replace (prec - 1)%Z with (d - 1 + Zpos n)%Z by lia. replace prec with (d + Zpos n)%Z by lia.
      rewrite !Z.pow_add_r by lia. pose proof (Z.pow_pos_nonneg 2 (Zpos n)). nia. }
    apply round_aux; rewrite ?DD; try lia. split; [cbn; lia|].
    cbn [shr_record_of_loc shr_r shr_s shr_m]. rewrite SP, dy_shift by lia.
    replace (d + e - prec + Zpos n)%Z with e by lia. reflexivity.
Qed.
Lemma mul : forall m1 e1 m2 e2, let d := Zdigits2 (Zpos (m1 * m2)) in
  normal prec (Zpos m1) -> (emin prec emax <= d + (e1 + e2) - prec)%Z -> (d + (e1 + e2) + 1 <= emax)%Z ->
  exists m e, SFmul prec emax (S754_finite false m1 e1) (S754_finite false m2 e2) = S754_finite false m e /\
    nearest prec (dyadic (Zpos m1) e1 * dyadic (Zpos m2) e2) (Zpos m) e.
Proof.
  intros m1 e1 m2 e2 d [N1 _] LO HI. cbn [SFmul xorb].
  apply round_aux; try assumption; [|lia|].
  - split; [cbn; lia|]. cbn [shr_record_of_loc shr_r shr_s shr_m]. rewrite !dy, p2_plus, Pos2Z.inj_mul, inject_Z_mult. ring.
  - apply digits_ge; [lia|]. rewrite Pos2Z.inj_mul. nia.
Qed.
Lemma div : forall m1 e1 m2 e2,
  let d := (Zpos (digits2_pos m1) + e1 - (Zpos (digits2_pos m2) + e2))%Z in
  (emin prec emax <= d - prec)%Z -> (d + 2 <= emax)%Z ->
  exists m e, SFdiv prec emax (S754_finite false m1 e1) (S754_finite false m2 e2) = S754_finite false m e /\
    nearest prec (dyadic (Zpos m1) e1 / dyadic (Zpos m2) e2) (Zpos m) e.
Proof.
  intros m1 e1 m2 e2 d LO HI. cbn [SFdiv xorb]. unfold SFdiv_core_binary, fexp. cbn [Zdigits2].
  destruct (digits2_spec m1) as [A1 A2]. destruct (digits2_spec m2) as [B1 B2].
  set (d1 := Zpos (digits2_pos m1)) in *. set (d2 := Zpos (digits2_pos m2)) in *. fold d.
  assert (D1 : (0 < d1)%Z) by lia. assert (D2 : (0 < d2)%Z) by lia.
  replace (Z.max (d - prec) (emin prec emax)) with (d - prec)%Z by lia.
  set (e' := Z.min (d - prec) (e1 - e2)). set (s := (e1 - e2 - e')%Z). assert (SN : (0 <= s)%Z) by lia.
  assert (MM : match s with 0%Z => Zpos m1 | Zpos _ => Z.shiftl (Zpos m1) s | Zneg _ => 0%Z end = (Zpos m1 * 2 ^ s)%Z).
  { destruct s as [|s'|s']; [cbn; lia| |lia]. apply Z.shiftl_mul_pow2. lia. }
  rewrite MM. clear MM. pose proof (Z_div_mod (Zpos m1 * 2 ^ s) (Zpos m2) ltac:(lia)) as DM.
  destruct (Z.div_eucl (Zpos m1 * 2 ^ s) (Zpos m2)) as [q r]. destruct DM as [EQ RR].
  set (x := dyadic (Zpos m1) e1 / dyadic (Zpos m2) e2).
  assert (PM : 0 < inject_Z (Zpos m2)) by (change 0 with (inject_Z 0); apply iz_lt; lia).
  assert (X : x * inject_Z (Zpos m2) == inject_Z (Zpos m2 * q + r) * p2 e').
  { unfold x. rewrite <- EQ, inject_Z_mult, <- p2_Z, !dy by lia.
    replace e1 with (e2 + (e' + s))%Z by (unfold s; lia). rewrite !p2_plus.
    pose proof (p2_pos e2) as PE2. field. split; lra. }
  rewrite inject_Z_plus, inject_Z_mult in X. pose proof (p2_pos e') as PE.
  assert (QL : (2 ^ (prec - 1) <= q)%Z).
  { apply Z.lt_succ_r. unfold Z.succ. apply (Zmult_lt_reg_r _ _ (Zpos m2)); [lia|].
    apply Z.le_lt_trans with (Zpos m1 * 2 ^ s)%Z; [|lia].
    apply Z.le_trans with (2 ^ (prec - 1) * 2 ^ d2)%Z; [apply Z.mul_le_mono_nonneg_l; [apply Z.pow_nonneg; lia|lia]|].
    apply Z.le_trans with (2 ^ (d1 - 1) * 2 ^ s)%Z; [|apply Z.mul_le_mono_nonneg_r; [apply Z.pow_nonneg; lia|lia]].
    rewrite <- !Z.pow_add_r by lia. apply Z.pow_le_mono_r; [lia|]. unfold s, e', d. lia. }
  assert (PP : (0 < 2 ^ (prec - 1))%Z) by (apply Z.pow_pos_nonneg; lia).
  assert (QU : (q < 2 ^ (d1 + s - d2 + 1))%Z).
  { apply (Zmult_lt_reg_r _ _ (2 ^ (d2 - 1))); [apply Z.pow_pos_nonneg; lia|].
    apply Z.le_lt_trans with (Zpos m1 * 2 ^ s)%Z; [nia|].
    rewrite <- Z.pow_add_r by (unfold s, e', d; lia). replace (d1 + s - d2 + 1 + (d2 - 1))%Z with (d1 + s)%Z by lia.
    rewrite Z.pow_add_r by lia. apply Zmult_lt_compat_r; [apply Z.pow_pos_nonneg; lia|lia]. }
  assert (DQ1 : (prec <= Zdigits2 q)%Z) by (apply digits_ge; lia).
  assert (DQ2 : (Zdigits2 q <= d1 + s - d2 + 1)%Z).
  { destruct (Zdigits2_spec q ltac:(lia)) as [S _]. apply Znot_gt_le. intros C.
    pose proof (Z.pow_le_mono_r 2 (d1 + s - d2 + 1) (Zdigits2 q - 1)). lia. }
  assert (DQ3 : (d1 + s - d2 <= Zdigits2 q)%Z).
  { destruct (Z_le_gt_dec (d1 + s - d2) prec); [lia|]. apply digits_ge; [lia|].
    apply Z.lt_succ_r. unfold Z.succ. apply (Zmult_lt_reg_r _ _ (Zpos m2)); [lia|].
    apply Z.le_lt_trans with (Zpos m1 * 2 ^ s)%Z; [|lia].
    apply Z.le_trans with (2 ^ (d1 + s - d2 - 1) * 2 ^ d2)%Z; [apply Z.mul_le_mono_nonneg_l; [apply Z.pow_nonneg; lia|lia]|].
    apply Z.le_trans with (2 ^ (d1 - 1) * 2 ^ s)%Z; [|apply Z.mul_le_mono_nonneg_r; [apply Z.pow_nonneg; lia|lia]].
    rewrite <- !Z.pow_add_r by lia. apply Z.pow_le_mono_r; lia. }
  apply round_aux; [|lia|exact DQ1|unfold s, d in *; lia|unfold s, d in *; lia].
  unfold at_loc. set (M := inject_Z (Zpos m2)) in *. set (z := inject_Z r / M).
  assert (XZ : x == dyadic q e' + z * p2 e').
  { rewrite dy. unfold z. apply (Qmult_inj_r _ _ M); [lra|]. rewrite X. field. lra. }
  assert (ZM : z * M == inject_Z r) by (unfold z; field; lra).
  assert (ZC : forall a b, (a * r < b * Zpos m2)%Z -> inject_Z a * z < inject_Z b).
  { intros a b L. apply (Qmult_lt_r _ _ M PM). rewrite <- Qmult_assoc, ZM. unfold M. rewrite <- !inject_Z_mult. apply iz_lt. exact L. }
  assert (ZD : forall a b, (a * Zpos m2 < b * r)%Z -> inject_Z a < inject_Z b * z).
  { intros a b L. apply (Qmult_lt_r _ _ M PM). rewrite <- Qmult_assoc, ZM. unfold M. rewrite <- !inject_Z_mult. apply iz_lt. exact L. }
  clearbody z x.
  assert (L1 : z < 1) by (specialize (ZC 1 1 ltac:(lia))%Z; change (inject_Z 1) with 1 in ZC; lra).
  set (u := p2 e') in *.
  assert (U1 : z * u < u) by (rewrite <- (Qmult_1_l u) at 2; apply Qmult_lt_r; auto).
  assert (CASES : (r = 0)%Z /\ z == 0 \/ (0 < r /\ 2 * r < Zpos m2)%Z /\ 0 < z * u < (1 # 2) * u \/
    (0 < r /\ 2 * r = Zpos m2)%Z /\ z * u == (1 # 2) * u \/ (0 < r /\ 2 * r > Zpos m2)%Z /\ (1 # 2) * u < z * u).
  { assert (Z0 : (0 < r)%Z -> 0 < z * u).
    { intros H. specialize (ZD 0 1 ltac:(lia))%Z. change (inject_Z 1) with 1 in ZD. change (inject_Z 0) with 0 in ZD.
      rewrite <- (Qmult_0_l u). apply Qmult_lt_r; [auto|lra]. }
    destruct (Z.eq_dec r 0) as [->|NZ].
    - left. split; [reflexivity|]. apply (Qmult_inj_r _ _ M); [lra|]. rewrite ZM. change (inject_Z 0) with 0. ring.
    - right. specialize (Z0 ltac:(lia)). destruct (Z.lt_trichotomy (2 * r) (Zpos m2)) as [C|[C|C]].
      + left. split; [lia|]. split; [exact Z0|]. specialize (ZC 2 1 ltac:(lia))%Z.
        change (inject_Z 1) with 1 in ZC. change (inject_Z 2) with (2 # 1) in ZC. apply Qmult_lt_r; [auto|lra].
      + right. left. split; [lia|]. assert (z == 1 # 2) as ->; [|reflexivity].
        apply (Qmult_inj_r _ _ M); [lra|]. rewrite ZM. unfold M. rewrite <- C, inject_Z_mult. change (inject_Z 2) with (2 # 1). ring.
      + right. right. split; [lia|]. specialize (ZD 1 2 ltac:(lia))%Z.
        change (inject_Z 1) with 1 in ZD. change (inject_Z 2) with (2 # 1) in ZD. apply Qmult_lt_r; [auto|lra]. }
  assert (LOC : new_location (Zpos m2) r = if (r =? 0)%Z then loc_Exact else loc_Inexact (2 * r ?= Zpos m2)%Z).
  { unfold new_location, new_location_even, new_location_odd. destruct (Z.even (Zpos m2)) eqn:EV.
    - destruct (r =? 0)%Z eqn:Z0; [apply Z.eqb_eq in Z0; subst r; reflexivity|].
      replace (Zeq_bool r 0) with false; [reflexivity|]. destruct (Zeq_bool r 0) eqn:ZB; [apply Zeq_bool_eq in ZB; lia|reflexivity].
    - destruct (r =? 0)%Z eqn:Z0; [apply Z.eqb_eq in Z0; subst r; reflexivity|].
      replace (Zeq_bool r 0) with false. 2: { destruct (Zeq_bool r 0) eqn:ZB; [apply Zeq_bool_eq in ZB; lia|reflexivity]. }
      f_equal. assert (OD : exists h, Zpos m2 = (2 * h + 1)%Z).
      { rewrite <- Z.negb_odd in EV. apply Bool.negb_false_iff, Z.odd_spec in EV. destruct EV as [h EV]. exists h. lia. }
      destruct OD as [h OD]. rewrite OD. destruct (Z.compare_spec (2 * r + 1) (2 * h + 1)); destruct (Z.compare_spec (2 * r) (2 * h + 1)); try reflexivity; lia. }
  rewrite LOC. clear LOC ZC ZD X. destruct CASES as [[C V]|[[C V]|[[C V]|[C V]]]].
  - replace (r =? 0)%Z with true by lia. split; [cbn; lia|]. cbn [shr_record_of_loc shr_r shr_s shr_m].
    rewrite XZ, V. ring.
  - replace (r =? 0)%Z with false by lia. replace (2 * r ?= Zpos m2)%Z with Lt by (symmetry; apply Z.compare_lt_iff; lia).
    split; [cbn; lia|]. cbn [shr_record_of_loc shr_r shr_s shr_m]. fold u. lra.
  - replace (r =? 0)%Z with false by lia. replace (2 * r ?= Zpos m2)%Z with Eq by (symmetry; apply Z.compare_eq_iff; lia).
    split; [cbn; lia|]. cbn [shr_record_of_loc shr_r shr_s shr_m]. fold u. lra.
  - replace (r =? 0)%Z with false by lia. replace (2 * r ?= Zpos m2)%Z with Gt by (symmetry; apply Z.compare_gt_iff; lia).
    split; [cbn; lia|]. cbn [shr_record_of_loc shr_r shr_s shr_m]. fold u. lra.
Qed.
End Fmt.

(** * Consequences of being nearest *)
Lemma nearest_exact : forall p x m e m0 e0, nearest p x m e -> normal p m0 -> x == dyadic m0 e0 -> dyadic m e == x.
Proof. intros p x m e m0 e0 [_ N] M X. destruct (N m0 e0 M) as [A _]. absolute; lra. Qed.
Lemma below : forall p m e m' e', (1 <= p)%Z -> normal p m -> normal p m' -> (e' < e)%Z -> dyadic m' e' < dyadic (m' + 1) e' <= dyadic m e.
Proof.
  intros p m e m' e' P [M1 _] [_ M2] L. split; [apply dy_lt; lia|].
  apply Qle_trans with (dyadic (2 ^ p) e'); [apply dy_le; lia|].
  apply Qle_trans with (dyadic (2 ^ (p - 1)) e); [|apply dy_le; lia]. rewrite !dy_pow by lia. apply p2_le. lia.
Qed.
Lemma dyadic_inj : forall p m e m' e', (1 <= p)%Z -> normal p m -> normal p m' -> dyadic m e == dyadic m' e' -> m = m' /\ e = e'.
Proof.
  intros p m e m' e' P M M' E. destruct (Z.lt_trichotomy e e') as [C|[C|C]].
  - pose proof (below p m' e' m e P M' M C). lra.
  - subst e'. split; [|reflexivity]. destruct (Z.lt_trichotomy m m') as [L|[L|L]]; auto.
    + pose proof (dy_lt m m' e L). lra.
    + pose proof (dy_lt m' m e L). lra.
  - pose proof (below p m e m' e' P M M' C). lra.
Qed.
Lemma even_gap : forall p m e m' e', (2 <= p)%Z -> normal p m -> normal p m' -> Z.even m = true -> Z.even m' = true ->
  dyadic m' e' < dyadic m e -> exists m1, normal p m1 /\ dyadic m' e' < dyadic m1 e' < dyadic m e.
Proof.
  intros p m e m' e' P M M' V V' L. pose proof M as [M1 M2]. pose proof M' as [M1' M2'].
  assert (EP : Z.even (2 ^ p) = true).
  { replace p with (1 + (p - 1))%Z by lia. rewrite Z.pow_add_r, Z.even_mul by lia. reflexivity. }
  apply Z.even_spec in V, V', EP. destruct V as [a V], V' as [b V'], EP as [c EP].
  assert (N1 : normal p (m' + 1)) by (unfold normal; lia).
  exists (m' + 1)%Z. split; [exact N1|]. split; [apply dy_lt; lia|].
  destruct (Z.lt_trichotomy e' e) as [C|[C|C]].
  - pose proof (below p m e (m' + 1) e' ltac:(lia) M N1 C). lra.
  - subst e'. apply dy_lt. assert (m' < m)%Z; [|lia]. apply Znot_ge_lt. intros G. pose proof (dy_le m m' e ltac:(lia)). lra.
  - pose proof (below p m' e' m e ltac:(lia) M' M C). lra.
Qed.
Lemma nearest_mono : forall p x y m e m' e', (2 <= p)%Z -> nearest p x m e -> nearest p y m' e' -> x <= y ->
  dyadic m e <= dyadic m' e'.
Proof.
  intros p x y m e m' e' P [M N] [M' N'] L. apply Qnot_lt_le. intros C.
  destruct (N m' e' M') as [A T]. destruct (N' m e M) as [A' T'].
  assert (X : x == (1 # 2) * (dyadic m e + dyadic m' e')) by (clear T T'; absolute; lra).
  assert (Y : y == (1 # 2) * (dyadic m e + dyadic m' e')) by (clear T T'; absolute; lra).
  destruct T as [T|T]; [absolute; lra|lra|]. destruct T' as [T'|T']; [clear T; absolute; lra|lra|].
  destruct (even_gap p m e m' e' P M M' T T' C) as (m1 & N1 & G1 & G2). destruct (N m1 e' N1) as [B _].
  absolute; lra.
Qed.
Lemma nearest_unique : forall p x y m e m' e', (2 <= p)%Z -> nearest p x m e -> nearest p y m' e' -> x == y -> m = m' /\ e = e'.
Proof.
  intros p x y m e m' e' P N N' E. apply (dyadic_inj p); try apply N; try apply N'; [lia|].
  pose proof (nearest_mono p x y m e m' e' P N N' ltac:(lra)). pose proof (nearest_mono p y x m' e' m e P N' N ltac:(lra)). lra.
Qed.
Lemma nearest_proper : forall p x y m e, x == y -> nearest p x m e -> nearest p y m e.
Proof. intros p x y m e E [M N]. split; [exact M|]. intros m' e' M'. rewrite <- E. apply N. exact M'. Qed.
Lemma nearest_error : forall p x m e, (2 <= p)%Z -> nearest p x m e -> Qabs (x - dyadic m e) * inject_Z (2 ^ p) <= x.
Proof.
  intros p x m e P [M N]. pose proof M as [M1 M2]. pose proof (p2_pos e) as PE.
  assert (PW : (2 ^ p = 2 * 2 ^ (p - 1))%Z) by (rewrite <- Z.pow_succ_r by lia; f_equal; lia).
  destruct (normal_even p P) as [NL _]. pose proof (dy_le _ _ e M1) as D1.
  set (F := dyadic m e) in *. set (u := p2 e) in *. set (B := dyadic (2 ^ (p - 1)) e) in *.
  assert (BU : u * inject_Z (2 ^ p) == 2 * B).
  { unfold B, u. rewrite dy, PW, inject_Z_mult. change (inject_Z 2) with (2 # 1). ring. }
  assert (IP : 0 < inject_Z (2 ^ p)) by (change 0 with (inject_Z 0); apply iz_lt; apply Z.pow_pos_nonneg; lia).
  assert (K : forall c, Qabs (x - F) <= c * u -> Qabs (x - F) * inject_Z (2 ^ p) <= 2 * c * B).
  { intros c H. apply Qle_trans with (c * u * inject_Z (2 ^ p)); [apply Qmult_le_compat_r; lra|].
    rewrite <- Qmult_assoc, BU. lra. }
  destruct (Qlt_le_dec x F) as [C|C].
  - destruct (Z.eq_dec m (2 ^ (p - 1))) as [EM|NM].
    + destruct (N (2 ^ p - 1) (e - 1))%Z as [A _]; [unfold normal; lia|].
      assert (V : dyadic (2 ^ p - 1) (e - 1) == F - (1 # 2) * u).
      { pose proof (dy_succ (2 ^ p - 1) (e - 1)) as S. replace (2 ^ p - 1 + 1)%Z with (2 ^ p)%Z in S by lia.
        pose proof (p2_succ (e - 1)) as S2. replace (e - 1 + 1)%Z with e in S2 by lia. fold u in S2.
        assert (dyadic (2 ^ p) (e - 1) == F); [|lra]. unfold F. rewrite EM, !dy_pow by lia.
        replace (e - 1 + p)%Z with (e + (p - 1))%Z by lia. reflexivity. }
      rewrite V in A. assert (Q : Qabs (x - F) <= (1 # 4) * u) by (absolute; lra).
      specialize (K _ Q). assert (F == B) by (unfold F, B; rewrite EM; reflexivity).
      assert (u <= B). { unfold B. rewrite dy. fold u. apply Qle_trans with (1 * u); [lra|]. apply Qmult_le_compat_r; [|lra].
        change 1 with (inject_Z 1). apply iz_le. pose proof (Z.pow_pos_nonneg 2 (p - 1)). lia. }
      clear N. absolute; lra.
    + destruct (N (m - 1) e)%Z as [A _]; [unfold normal; lia|].
      pose proof (dy_succ (m - 1) e) as S. replace (m - 1 + 1)%Z with m in S by lia. fold u in S. fold F in S.
      assert (V : dyadic (m - 1) e == F - u) by lra. rewrite V in A.
      assert (Q : Qabs (x - F) <= (1 # 2) * u) by (absolute; lra). specialize (K _ Q).
      pose proof (dy_le (2 ^ (p - 1)) (m - 1) e ltac:(lia)) as D2. fold B in D2. clear N. absolute; lra.
  - assert (A : Qabs (x - F) <= Qabs (x - (F + u))).
    { destruct (Z.eq_dec m (2 ^ p - 1)) as [EM|NM].
      - destruct (N (2 ^ (p - 1)) (e + 1) NL)%Z as [A _].
        assert (V : dyadic (2 ^ (p - 1)) (e + 1) == F + u).
        { pose proof (dy_succ m e) as S. fold u in S. fold F in S. rewrite <- S, EM. replace (2 ^ p - 1 + 1)%Z with (2 ^ p)%Z by lia.
          rewrite !dy_pow by lia. replace (e + 1 + (p - 1))%Z with (e + p)%Z by lia. reflexivity. }
        rewrite V in A. exact A.
      - destruct (N (m + 1) e)%Z as [A _]; [unfold normal; lia|]. pose proof (dy_succ m e) as S. fold u in S. fold F in S.
        rewrite S in A. exact A. }
    assert (Q : Qabs (x - F) <= (1 # 2) * u) by (clear N; absolute; lra). specialize (K _ Q). lra.
Qed.

(** * Every number has a place on the grid *)
Lemma exists_grid : forall x E, exists k, on_grid x E k.
Proof.
  intros x E. set (X := x * p2 (- E)). pose proof (p2_pos E) as PE.
  assert (XE : x == X * p2 E).
  { unfold X. rewrite <- Qmult_assoc, <- p2_plus. replace (- E + E)%Z with 0%Z by lia. change (p2 0) with 1. ring. }
  pose proof (Qfloor_le X) as F1. pose proof (Qlt_floor X) as F2. rewrite iz_succ in F2. set (q := Qfloor X) in *.
  assert (L : dyadic q E <= x) by (rewrite XE, dy; apply Qmult_le_compat_r; lra).
  assert (H : x < dyadic q E + p2 E) by (rewrite <- dy_succ, XE, dy, iz_succ; apply Qmult_lt_r; lra).
  clear F1 F2 XE. destruct (Qlt_le_dec x (dyadic q E + (1 # 2) * p2 E)) as [C|C].
  - exists q. split; [absolute; lra|]. intros T. exfalso. absolute; lra.
  - destruct (Qlt_le_dec (dyadic q E + (1 # 2) * p2 E) x) as [C'|C'].
    + exists (q + 1)%Z. unfold on_grid. rewrite dy_succ. split; [absolute; lra|]. intros T. exfalso. absolute; lra.
    + destruct (Z.even q) eqn:V.
      * exists q. split; [absolute; lra|auto].
      * exists (q + 1)%Z. unfold on_grid. rewrite dy_succ. split; [absolute; lra|]. intros _. rewrite Z.even_add, V. reflexivity.
Qed.
Lemma exists_binade : forall n d, (0 < n)%Z -> (0 < d)%Z -> exists E, p2 E <= inject_Z n / inject_Z d < p2 (E + 1).
Proof.
  intros n d N D. destruct (Zdigits2_spec n N) as [[N1 N2] NP]. destruct (Zdigits2_spec d D) as [[D1 D2] DP].
  set (a := Zdigits2 n) in *. set (b := Zdigits2 d) in *.
  assert (PD : 0 < inject_Z d) by (change 0 with (inject_Z 0); apply iz_lt; lia).
  assert (L : forall E, p2 E * inject_Z d <= inject_Z n -> p2 E <= inject_Z n / inject_Z d)
    by (intros; apply Qle_shift_div_l; auto).
  assert (U : forall E, inject_Z n < p2 E * inject_Z d -> inject_Z n / inject_Z d < p2 E)
    by (intros; apply Qlt_shift_div_r; auto).
  assert (IN1 : p2 (a - 1) <= inject_Z n) by (rewrite p2_Z by lia; apply iz_le; auto).
  assert (IN2 : inject_Z n < p2 a) by (rewrite p2_Z by lia; apply iz_lt; auto).
  assert (ID1 : p2 (b - 1) <= inject_Z d) by (rewrite p2_Z by lia; apply iz_le; auto).
  assert (ID2 : inject_Z d < p2 b) by (rewrite p2_Z by lia; apply iz_lt; auto).
  destruct (Qlt_le_dec (inject_Z n / inject_Z d) (p2 (a - b))) as [C|C].
  - exists (a - b - 1)%Z. replace (a - b - 1 + 1)%Z with (a - b)%Z by lia. split; [|exact C].
    apply L. apply Qle_trans with (p2 (a - b - 1) * p2 b).
    + rewrite !(Qmult_comm (p2 (a - b - 1))). apply Qmult_le_compat_r; [lra|apply Qlt_le_weak, p2_pos].
    + rewrite <- p2_plus. replace (a - b - 1 + b)%Z with (a - 1)%Z by lia. exact IN1.
  - exists (a - b)%Z. split; [exact C|]. apply U. apply Qlt_le_trans with (p2 (a - b + 1) * p2 (b - 1)).
    + rewrite <- p2_plus. replace (a - b + 1 + (b - 1))%Z with a by lia. exact IN2.
    + rewrite !(Qmult_comm (p2 (a - b + 1))). apply Qmult_le_compat_r; [exact ID1|apply Qlt_le_weak, p2_pos].
Qed.

(** * The conversions and the division of the frame rate *)
Lemma double_exact : forall n, (0 < n < 2 ^ 32)%N ->
  exists m e, double_of n = S754_finite false m e /\ normal dprec (Zpos m) /\ dyadic (Zpos m) e == inject_Z (Z.of_N n).
Proof.
  intros n H. unfold double_of. destruct (Z.of_N n) as [|p|p] eqn:E; [lia| |lia].
  assert (B : (Zpos (digits2_pos p) <= 32)%Z).
  { destruct (digits2_spec p) as [L _]. apply Znot_gt_le. intros C. pose proof (Z.pow_le_mono_r 2 32 (Zpos (digits2_pos p) - 1)). lia. }
  assert (B1 : (1 <= Zpos (digits2_pos p))%Z) by lia.
  destruct (normalize dprec demax ltac:(unfold dprec; lia) p 0) as (m & e & -> & N);
    [unfold emin, dprec, demax in *; lia|unfold demax in *; lia|].
  exists m, e. split; [reflexivity|]. split; [apply N|].
  rewrite (nearest_exact _ _ _ _ (Zpos p * 2 ^ (dprec - Zpos (digits2_pos p))) (Zpos (digits2_pos p) - dprec) N).
  - rewrite dy. change (p2 0) with 1. ring.
  - destruct (digits2_spec p) as [L U]. unfold normal.
    replace (dprec - 1)%Z with (Zpos (digits2_pos p) - 1 + (dprec - Zpos (digits2_pos p)))%Z by lia.
    replace (2 ^ dprec)%Z with (2 ^ (Zpos (digits2_pos p) + (dprec - Zpos (digits2_pos p))))%Z by (f_equal; lia).
    rewrite !Z.pow_add_r by (unfold dprec; lia).
    pose proof (Z.pow_pos_nonneg 2 (dprec - Zpos (digits2_pos p)) ltac:(lia) ltac:(unfold dprec; lia)). nia.
  - rewrite dy_shift by (unfold dprec; lia). replace (Zpos (digits2_pos p) - dprec + (dprec - Zpos (digits2_pos p)))%Z with 0%Z by lia. reflexivity.
Qed.
(** Exponents from values *)
Lemma digits_range : forall m e a b, (0 <= b - a)%Z -> p2 a <= dyadic (Zpos m) e < p2 b -> (a < Zpos (digits2_pos m) + e <= b)%Z.
Proof.
  intros m e a b AB [L U]. destruct (digits2_spec m) as [D1 D2]. set (d := Zpos (digits2_pos m)) in *. assert (1 <= d)%Z by lia.
  pose proof (dy_le _ _ e D1) as X1. pose proof (dy_lt _ _ e D2) as X2. rewrite dy_pow in X1, X2 by lia. split.
  - apply Znot_ge_lt. intros C. pose proof (p2_le (e + d) a ltac:(lia)). lra.
  - apply Znot_gt_le. intros C. pose proof (p2_le b (e + (d - 1)) ltac:(lia)). lra.
Qed.
Lemma p2_int : forall a n, (0 <= a)%Z -> (2 ^ a <= Z.of_N n)%Z -> p2 a <= inject_Z (Z.of_N n).
Proof. intros a n A H. rewrite p2_Z by auto. apply iz_le. exact H. Qed.
Lemma p2_int' : forall a n, (0 <= a)%Z -> (Z.of_N n < 2 ^ a)%Z -> inject_Z (Z.of_N n) < p2 a.
Proof. intros a n A H. rewrite p2_Z by auto. apply iz_lt. exact H. Qed.
Lemma rate_bounds : forall v, (0 < num_units_in_tick v < 2 ^ 32)%N -> (0 < time_scale v < 2 ^ 32)%N ->
  p2 (-33) < frame_rate v < p2 32.
Proof.
  intros v T S. unfold frame_rate.
  pose proof (p2_int 0 (time_scale v) ltac:(lia) ltac:(cbn; lia)) as S1.
  pose proof (p2_int' 32 (time_scale v) ltac:(lia) ltac:(lia)) as S2.
  pose proof (p2_int 0 (num_units_in_tick v) ltac:(lia) ltac:(cbn; lia)) as T1.
  pose proof (p2_int' 32 (num_units_in_tick v) ltac:(lia) ltac:(lia)) as T2.
  change (p2 0) with 1 in *. split.
  - apply Qlt_shift_div_l; [lra|]. change (p2 (-33)) with (1 # 8589934592). change (p2 32) with 4294967296 in *. lra.
  - apply Qlt_shift_div_r; [lra|]. change (p2 32) with 4294967296 in *. lra.
Qed.
Lemma rate_rounded : forall v, (0 < num_units_in_tick v < 2 ^ 32)%N -> (0 < time_scale v < 2 ^ 32)%N ->
  exists md ed m e, getFramerate v = S754_finite false m e /\ nearest dprec (frame_rate v) md ed /\
    nearest fprec (dyadic md ed) (Zpos m) e.
Proof.
  intros v T S. pose proof (rate_bounds v T S) as RB. unfold getFramerate.
  destruct (double_exact (time_scale v) S) as (m1 & e1 & -> & N1 & V1).
  destruct (double_exact 2 ltac:(lia)) as (m0 & e0 & -> & N0 & V0). change (inject_Z (Z.of_N 2)) with 2 in V0.
  destruct (double_exact (num_units_in_tick v) T) as (m2 & e2 & -> & N2 & V2).
  pose proof (p2_int 0 (time_scale v) ltac:(lia) ltac:(cbn; lia)) as S1.
  pose proof (p2_int' 32 (time_scale v) ltac:(lia) ltac:(lia)) as S2.
  pose proof (p2_int 0 (num_units_in_tick v) ltac:(lia) ltac:(cbn; lia)) as T1.
  pose proof (p2_int' 32 (num_units_in_tick v) ltac:(lia) ltac:(lia)) as T2.
  change (p2 0) with 1 in S1, T1. change (p2 32) with 4294967296 in S2, T2.
  assert (VP : dyadic (Zpos (m0 * m2)) (e0 + e2) == 2 * inject_Z (Z.of_N (num_units_in_tick v))).
  { rewrite <- V0, <- V2, !dy, p2_plus, Pos2Z.inj_mul, inject_Z_mult. ring. }
  pose proof (digits_range (m0 * m2) (e0 + e2) 1 33 ltac:(lia)) as DP.
  change (p2 1) with 2 in DP. change (p2 33) with 8589934592 in DP. specialize (DP ltac:(lra)).
  destruct (mul dprec demax ltac:(unfold dprec; lia) m0 e0 m2 e2 N0) as (mp & ep & -> & NP);
    [cbn [Zdigits2]; unfold emin, demax, dprec; lia|cbn [Zdigits2]; unfold demax; lia|].
  assert (VQ : dyadic (Zpos mp) ep == 2 * inject_Z (Z.of_N (num_units_in_tick v))).
  { assert (X : dyadic (Zpos m0) e0 * dyadic (Zpos m2) e2 == dyadic (Zpos m2) (e2 + 1)).
    { rewrite V0, !dy, p2_succ. ring. }
    rewrite (nearest_exact _ _ _ _ _ _ NP N2 X). rewrite V0, V2. reflexivity. }
  pose proof (digits_range m1 e1 0 32 ltac:(lia)) as D1. change (p2 0) with 1 in D1. change (p2 32) with 4294967296 in D1.
  specialize (D1 ltac:(lra)).
  pose proof (digits_range mp ep 1 33 ltac:(lia)) as D2. change (p2 1) with 2 in D2. change (p2 33) with 8589934592 in D2.
  specialize (D2 ltac:(lra)).
  destruct (div dprec demax ltac:(unfold dprec; lia) m1 e1 mp ep) as (md & ed & -> & ND);
    [unfold emin, demax, dprec; lia|unfold demax; lia|].
  assert (NR : nearest dprec (frame_rate v) (Zpos md) ed).
  { eapply nearest_proper; [|exact ND]. rewrite V1, VQ. reflexivity. }
  pose proof (nearest_error dprec _ _ _ ltac:(unfold dprec; lia) NR) as ER. change (inject_Z (2 ^ dprec)) with 9007199254740992 in ER.
  change (p2 (-33)) with (1 # 8589934592) in RB. change (p2 32) with 4294967296 in RB.
  pose proof (digits_range md ed (-34) 33 ltac:(lia)) as DD.
  change (p2 (-34)) with (1 # 17179869184) in DD. change (p2 33) with 8589934592 in DD.
  assert (YB : (1 # 17179869184) <= dyadic (Zpos md) ed < 8589934592).
  { clear DD D1 D2 DP. absolute; lra. }
  specialize (DD YB). unfold float_of. cbn [cond_Zopp].
  destruct (normalize fprec femax ltac:(unfold fprec; lia) md ed) as (m & e & -> & NF);
    [unfold emin, femax, fprec; lia|unfold femax; lia|].
  exists (Zpos md), ed, m, e. auto.
Qed.

(** * When rounding twice is rounding once *)
(** A quotient that is not half-way between two points of the grid is not too near to it. *)
Lemma off_half : forall n t E j, (0 < n < 2 ^ 32)%Z -> (0 < t < 2 ^ 29)%Z ->
  p2 (E + 23) <= inject_Z n / (2 * inject_Z t) ->
  let x := inject_Z n / (2 * inject_Z t) in let h := dyadic j E + (1 # 2) * p2 E in
  x == h \/ x + p2 (E - 30) < h \/ h < x - p2 (E - 30).
Proof.
  intros n t E j N T L x h.
  assert (PT : 1 <= inject_Z t) by (change 1 with (inject_Z 1); apply iz_le; lia).
  assert (LT : inject_Z t < 536870912) by (change 536870912 with (inject_Z 536870912); apply iz_lt; lia).
  assert (LN : inject_Z n < 4294967296) by (change 4294967296 with (inject_Z 4294967296); apply iz_lt; lia).
  pose proof (p2_pos E) as PE. pose proof (p2_plus (E - 30) 30) as P30. replace (E - 30 + 30)%Z with E in P30 by lia.
  change (p2 30) with 1073741824 in P30. set (w := p2 (E - 30)) in *.
  assert (XV : x * (2 * inject_Z t) == inject_Z n) by (unfold x; field; lra).
  fold x in L. clearbody x.
  (* both sides times 2t and a power of two are integers *)
  assert (KEY : exists s : Q, 0 < s /\ s * w * (2 * inject_Z t) < 1 /\
    exists a b : Z, x * (2 * inject_Z t) * s == inject_Z a /\ h * (2 * inject_Z t) * s == inject_Z b).
  { destruct (Z_le_gt_dec E 0) as [C|C].
    - exists (p2 (- E)). split; [apply p2_pos|]. split.
      + assert (SW : p2 (- E) * w == 1 # 1073741824).
        { unfold w. rewrite <- p2_plus. replace (- E + (E - 30))%Z with (-30)%Z by lia. reflexivity. }
        rewrite SW. lra.
      + exists (n * 2 ^ (- E))%Z, ((2 * j + 1) * t)%Z. split.
        * rewrite XV, inject_Z_mult, <- p2_Z by lia. reflexivity.
        * unfold h. rewrite dy. assert (SE : p2 E * p2 (- E) == 1).
          { rewrite <- p2_plus. replace (E + - E)%Z with 0%Z by lia. reflexivity. }
          transitivity ((2 * inject_Z j + 1) * inject_Z t * (p2 E * p2 (- E))); [ring|].
          rewrite SE, inject_Z_mult, iz_succ, inject_Z_mult. change (inject_Z 2) with 2. ring.
    - exists 1. split; [lra|]. split.
      + rewrite p2_plus in L. change (p2 23) with 8388608 in L.
        assert (Y : p2 E * 8388608 * (2 * inject_Z t) <= inject_Z n) by (rewrite <- XV; apply Qmult_le_compat_r; lra).
        assert (W : 1 * w * (2 * inject_Z t) == (1 # 1073741824) * (p2 E * (2 * inject_Z t))) by (rewrite P30; ring).
        rewrite W. assert (Z : p2 E * 8388608 * (2 * inject_Z t) == 8388608 * (p2 E * (2 * inject_Z t))) by ring.
        rewrite Z in Y. lra.
      + exists n, ((2 * j + 1) * t * 2 ^ E)%Z. split; [rewrite XV; ring|].
        unfold h. rewrite dy, !inject_Z_mult, iz_succ, inject_Z_mult, <- p2_Z by lia. change (inject_Z 2) with 2. ring. }
  destruct KEY as (s & PS & SW & a & b & A & B).
  assert (PTS : 0 < 2 * inject_Z t * s) by (apply Qmult_lt_0_compat; lra).
  set (c := 2 * inject_Z t * s) in *.
  assert (A' : x * c == inject_Z a) by (unfold c; rewrite <- A; ring).
  assert (B' : h * c == inject_Z b) by (unfold c; rewrite <- B; ring).
  assert (WC : w * c < 1) by (apply Qle_lt_trans with (s * w * (2 * inject_Z t)); [unfold c; apply Qle_lteq; right; ring|exact SW]).
  destruct (Z.lt_trichotomy a b) as [C|[C|C]].
  - right. left. apply (Qmult_lt_r _ _ c PTS). rewrite Qmult_plus_distr_l, A', B'.
    pose proof (iz_le (a + 1) b ltac:(lia)) as I. rewrite iz_succ in I. lra.
  - left. apply (Qmult_inj_r _ _ c); [lra|]. rewrite A', B', C. reflexivity.
  - right. right. apply (Qmult_lt_r _ _ c PTS). unfold Qminus. rewrite Qmult_plus_distr_l, A', B'.
    pose proof (iz_le (b + 1) a ltac:(lia)) as I. rewrite iz_succ in I. lra.
Qed.
Lemma rounded_once : forall n t md ed m e, (0 < n < 2 ^ 32)%Z -> (0 < t < 2 ^ 29)%Z ->
  let x := inject_Z n / (2 * inject_Z t) in
  nearest 53 x md ed -> nearest 24 (dyadic md ed) m e -> nearest 24 x m e.
Proof.
  intros n t md ed m e N T x ND NF.
  destruct (exists_binade n (2 * t) ltac:(lia) ltac:(lia)) as [E0 B].
  rewrite inject_Z_mult in B. change (inject_Z 2) with 2 in B. fold x in B.
  set (E := (E0 - 23)%Z). replace E0 with (E + (24 - 1))%Z in B by lia. replace (E + (24 - 1) + 1)%Z with (E + 24)%Z in B by lia.
  destruct (exists_grid x E) as [k G]. destruct (grid_nearest 24 x E k ltac:(lia) B G) as (m1 & e1 & N1 & V1 & _).
  pose proof (fun j => off_half n t E j N T) as OH. fold x in OH. cbn zeta in OH.
  replace (E + 23)%Z with (E + (24 - 1))%Z in OH by lia.
  (* the double *)
  destruct (exists_grid x (E - 29)) as [k2 G2].
  destruct (grid_nearest 53 x (E - 29) k2 ltac:(lia)) as (m2 & e2 & N2 & V2 & K2).
  { replace (E - 29 + (53 - 1))%Z with (E + (24 - 1))%Z by lia. replace (E - 29 + 53)%Z with (E + 24)%Z by lia. exact B. }
  { exact G2. }
  destruct (nearest_unique 53 x x md ed m2 e2 ltac:(lia) ND N2 ltac:(reflexivity)) as [-> ->]. clear ND.
  set (y := dyadic m2 e2) in *. pose proof (p2_pos E) as PE.
  assert (PW : p2 E == 1073741824 * p2 (E - 30)).
  { pose proof (p2_plus (E - 30) 30) as P30. replace (E - 30 + 30)%Z with E in P30 by lia. rewrite P30. change (p2 30) with 1073741824. ring. }
  assert (XY : Qabs (x - y) <= p2 (E - 30)).
  { rewrite V2. destruct G2 as [G2 _]. pose proof (p2_succ (E - 30)) as PS. replace (E - 30 + 1)%Z with (E - 29)%Z in PS by lia. lra. }
  (* powers of two are doubles *)
  assert (YL : p2 (E + (24 - 1)) <= y).
  { destruct (normal_even 53 ltac:(lia)) as [NE _].
    destruct (exists_grid (p2 (E + (24 - 1))) (E - 29)) as [kk Gk].
    destruct (N2 : nearest 53 x m2 e2) as [M2 _].
    assert (PP : p2 (E + (24 - 1)) == dyadic (2 ^ (53 - 1)) (E - 29)).
    { rewrite dy_pow by lia. replace (E - 29 + (53 - 1))%Z with (E + (24 - 1))%Z by lia. reflexivity. }
    rewrite V2, PP. apply dy_le. destruct K2 as [(K & KM & _)|(K & _)].
    - rewrite KM in M2. apply M2.
    - rewrite K. cbn. lia. }
  destruct G as [GA GT].
  assert (YU : y < p2 (E + 24) \/ y == p2 (E + 24)).
  { destruct K2 as [(K & -> & ->)|(K & _)].
    - left. unfold y. replace (E + 24)%Z with (E - 29 + 53)%Z by lia. rewrite <- dy_pow by lia. apply dy_lt. exact K.
    - right. rewrite V2, K, dy_pow by lia. replace (E - 29 + 53)%Z with (E + 24)%Z by lia. reflexivity. }
  assert (NY : nearest 24 y m1 e1).
  { destruct YU as [YU|YU].
    - assert (GY : on_grid y E k).
      { (* x strictly inside stays inside; x at half-way is a double *)
        pose proof (dy_succ (k - 1) E) as SK. replace (k - 1 + 1)%Z with k in SK by lia.
        assert (XD : (x == dyadic k E + (1 # 2) * p2 E \/ x == dyadic (k - 1) E + (1 # 2) * p2 E) -> y == x).
        { intros HH. assert (KB : exists q, x == dyadic q (E - 29) ).
          { assert (PE29 : p2 E == 536870912 * p2 (E - 29)).
            { pose proof (p2_plus (E - 29) 29) as P29. replace (E - 29 + 29)%Z with E in P29 by lia. rewrite P29. change (p2 29) with 536870912. ring. }
            destruct HH as [HH|HH].
            - exists (k * 536870912 + 268435456)%Z. rewrite HH, !dy, inject_Z_plus, inject_Z_mult, PE29.
              change (inject_Z 536870912) with 536870912. change (inject_Z 268435456) with 268435456. ring.
            - exists ((k - 1) * 536870912 + 268435456)%Z. rewrite HH, !dy, inject_Z_plus, inject_Z_mult, PE29.
              change (inject_Z 536870912) with 536870912. change (inject_Z 268435456) with 268435456. ring. }
          destruct KB as [q KB]. apply (nearest_exact 53 x m2 e2 q (E - 29) N2); [|exact KB].
          unfold normal. split; apply Znot_gt_le || apply Znot_ge_lt; intros C.
          - pose proof (dy_lt q (2 ^ (53 - 1)) (E - 29) ltac:(lia)) as D. rewrite dy_pow in D by lia.
            replace (E - 29 + (53 - 1))%Z with (E + (24 - 1))%Z in D by lia. lra.
          - pose proof (dy_le (2 ^ 53) q (E - 29) ltac:(lia)) as D. rewrite dy_pow in D by lia.
            replace (E - 29 + 53)%Z with (E + 24)%Z in D by lia. lra. }
        destruct (OH k ltac:(lra)) as [H1|[H1|H1]].
        - specialize (XD (or_introl H1)). split.
          + rewrite XD. exact GA.
          + rewrite XD. exact GT.
        - destruct (OH (k - 1)%Z ltac:(lra)) as [H2|[H2|H2]].
          + specialize (XD (or_intror H2)). split; rewrite XD; [exact GA|exact GT].
          + exfalso. clear GT OH. pose proof (p2_pos (E - 30)). absolute; lra.
          + clear GT OH XD. pose proof (p2_pos (E - 30)). split; [absolute; lra|]. intros C. exfalso. absolute; lra.
        - exfalso. clear GT OH XD. pose proof (p2_pos (E - 30)). absolute; lra. }
      destruct (grid_nearest 24 y E k ltac:(lia) (conj YL YU) GY) as (m3 & e3 & N3 & V3 & _).
      destruct (dyadic_inj 24 m3 e3 m1 e1 ltac:(lia)) as [-> ->]; [apply N3|apply N1|rewrite V3, V1; reflexivity|exact N3].
    - (* y is a power of two, and so is the float *)
      assert (KV : k = (2 ^ 24)%Z).
      { clear OH GT. apply Z.le_antisymm.
        - apply Znot_gt_le. intros C. pose proof (dy_le (2 ^ 24 + 1) k E ltac:(lia)) as D. rewrite dy_succ, dy_pow in D by lia. absolute; lra.
        - apply Znot_gt_le. intros C. pose proof (dy_le (k + 1) (2 ^ 24) E ltac:(lia)) as D. rewrite dy_succ, dy_pow in D by lia.
          pose proof (p2_pos (E - 30)). absolute; lra. }
      assert (FY : dyadic m1 e1 == y) by (rewrite V1, YU, KV, dy_pow by lia; reflexivity).
      split; [apply N1|]. intros m' e' M'. rewrite FY. split; [absolute; lra|].
      intros C. left. absolute; lra. }
  destruct (nearest_unique 24 y y m e m1 e1 ltac:(lia) NF NY ltac:(reflexivity)) as [-> ->]. exact N1.
Qed.
