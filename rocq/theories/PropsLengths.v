(** Property C74: lengths computed with floating-point logarithms. *)
From Coq Require Import NArith ZArith QArith Qabs Qpower Qround Lia Lqa SpecFloat.
From Verif Require Import Base Framerate SpecFramerate FloatProofs TypesSps TypesPps Pps SliceHeader SpecSlice SliceProofs Lengths SpecLengths LengthsProofs LengthsProofs2.
Open Scope Q_scope.

Lemma double_zero : double_of 0 = S754_zero false.
Proof. reflexivity. Qed.
Lemma ceil_u32_ok : forall x n, ceil_of x = Some (Z.of_N n) -> (n < 2 ^ 32)%N -> ceil_u32 x = Ok n.
Proof.
  intros x n E B. unfold ceil_u32. rewrite E. replace ((0 <=? Z.of_N n) && (Z.of_N n <? 2 ^ 32))%Z with true.
  - rewrite N2Z.id. reflexivity.
  - symmetry. apply andb_true_intro. split; [apply Z.leb_le|apply Z.ltb_lt]; lia.
Qed.
Lemma log_one : forall log2, accurate log2 -> ceil_u32 (log2 (dadd (S754_zero false) (double_of 1))) = Ok 0%N.
Proof.
  intros log2 A. apply ceil_u32_ok; [|lia]. destruct one_double as (m & e & -> & _ & V). change (dadd (S754_zero false) (S754_finite false m e)) with (S754_finite false m e).
  apply (log_ceil log2 m e 0 A). left. exact V.
Qed.
(** The smallest power of two that is not below a fraction *)
Lemma log2_up_fraction : forall S R, (0 < S < 2 ^ 32)%N -> (0 < R < 2 ^ 32)%N -> let n := N.log2_up ((S + R + (R - 1)) / R) in
  (1 <= n <= 33)%N /\ (Z.of_N R * 2 ^ (Z.of_N n - 1) < Z.of_N (S + R) <= Z.of_N R * 2 ^ Z.of_N n)%Z.
Proof.
  intros S R HS HR n. set (c := ((S + R + (R - 1)) / R)%N) in *.
  pose proof (N.div_mod (S + R + (R - 1)) R ltac:(lia)) as D. fold c in D. pose proof (N.mod_lt (S + R + (R - 1)) R ltac:(lia)) as M.
  set (k := ((S + R + (R - 1)) mod R)%N) in *.
  assert (C : (1 < c)%N) by nia. assert (C2 : (c <= 2 ^ 33)%N) by (change (2 ^ 33)%N with (2 * 2 ^ 32)%N; nia).
  pose proof (N.log2_up_spec c C) as [L U]. fold n in L, U. pose proof (N.log2_up_pos c C) as P. fold n in P.
  pose proof (N.log2_up_le_mono _ _ C2) as N33. fold n in N33. rewrite N.log2_up_pow2 in N33 by lia. split; [lia|].
  rewrite N.pred_sub in L. assert (Z1 : Z.of_N (2 ^ (n - 1)) = (2 ^ (Z.of_N n - 1))%Z) by (rewrite N2Z.inj_pow, N2Z.inj_sub by lia; reflexivity).
  assert (Z2 : Z.of_N (2 ^ n) = (2 ^ Z.of_N n)%Z) by (rewrite N2Z.inj_pow; reflexivity).
  rewrite <- Z1, <- Z2. rewrite <- !N2Z.inj_mul. split; [apply N2Z.inj_lt|apply N2Z.inj_le]; nia.
Qed.

(** With any logarithm that is exact for powers of two and off by 2^-40 at most, the result is that
    of the integer formula, for all 32-bit numbers; also where the conversion is undefined. *)
Theorem C74_cycle : forall log2, accurate log2 -> forall w h r,
  cycle_len_double log2 w h r = getSliceGroupChangeCycleLen w h r.
Proof.
  intros log2 A w h r. unfold cycle_len_double, getSliceGroupChangeCycleLen. cbv zeta.
  set (S := u32 (u32 (w + 1) * u32 (h + 1))). set (R := u32 (r + 1)).
  assert (BS : (S < 2 ^ 32)%N) by (apply N.mod_lt; lia). assert (BR : (R < 2 ^ 32)%N) by (apply N.mod_lt; lia). clearbody S R.
  destruct (N.eqb_spec R 0) as [ER|ER].
  - subst R. rewrite double_zero. destruct one_double as (m1 & e1 & E1 & _). destruct (N.eq_dec S 0) as [->|NS].
    + rewrite double_zero, E1. change (dadd _ _) with S754_nan. rewrite (log2_nan _ A). reflexivity.
    + destruct (mul_one S ltac:(lia)) as (m & e & -> & _). rewrite E1. change (dadd _ _) with (S754_infinity false). rewrite (log2_infinity _ A). reflexivity.
  - destruct (N.eq_dec S 0) as [->|NS].
    + rewrite double_zero. destruct one_double as (m1 & e1 & E1 & _). destruct (double_exact R ltac:(lia)) as (m2 & e2 & -> & _).
      replace (ddiv (dmul (double_of 1) (S754_zero false)) (S754_finite false m2 e2)) with (S754_zero false) by (rewrite E1; reflexivity).
      rewrite (log_one log2 A). f_equal. rewrite N.add_0_l. replace ((R + (R - 1)) / R)%N with 1%N; [reflexivity|].
      apply (N.div_unique _ _ 1 (R - 1)); lia.
    + destruct (log2_up_fraction S R ltac:(lia) ltac:(lia)) as [B P]. set (n := N.log2_up ((S + R + (R - 1)) / R)) in *.
      destruct (quotient_placed S R ltac:(lia) ltac:(lia) (Z.of_N n) ltac:(lia) P) as (m & e & -> & Q).
      apply ceil_u32_ok; [|lia]. exact (log_ceil log2 m e _ A Q).
Qed.
Theorem C74_id : forall log2, accurate log2 -> forall n, (n < 2 ^ 32)%N -> id_len_double log2 n = Ok (getSliceGroupIdLen n).
Proof.
  intros log2 A n B. unfold id_len_double, getSliceGroupIdLen. destruct (N.eq_dec n 0) as [->|NZ].
  - rewrite double_zero. destruct one_double as (m1 & e1 & E1 & _).
    replace (dmul (double_of 1) (S754_zero false)) with (S754_zero false) by (rewrite E1; reflexivity). apply (log_one log2 A).
  - destruct (mul_one n ltac:(lia)) as (m1 & e1 & -> & _ & V1). destruct one_double as (m0 & e0 & -> & _ & V0).
    assert (T : inject_Z (Z.of_N n) + 1 == inject_Z (Z.of_N (n + 1))) by (rewrite N2Z.inj_add; symmetry; apply iz_succ).
    destruct (add53 m1 e1 m0 e0) as (m & e & E & NE).
    { rewrite V1, V0, T. assert (p2 (-100) <= 1) by (unfold Qle; cbn; lia). assert (p2 33 < p2 100) by (unfold Qlt; cbn; lia).
      pose proof (p2_int 0 (n + 1) ltac:(lia) ltac:(lia)). pose proof (p2_int' 33 (n + 1) ltac:(lia) ltac:(lia)). change (p2 0) with 1 in *. lra. }
    rewrite E. apply (nearest_proper 53 _ (inject_Z (Z.of_N (n + 1)))) in NE; [|rewrite V1, V0; exact T].
    assert (SH : short (inject_Z (Z.of_N (n + 1)))) by (exists (Z.of_N (n + 1)), 0%Z; split; [lia|rewrite dy; change (p2 0) with 1; ring]).
    assert (X : dyadic (Zpos m) e == inject_Z (Z.of_N (n + 1))).
    { pose proof (near_lo _ _ _ _ NE SH ltac:(lra)). pose proof (near_hi _ _ _ _ NE SH ltac:(lra)). lra. }
    destruct (log2_up_fraction n 1 ltac:(lia) ltac:(lia)) as [K P]. rewrite N.div_1_r, N.add_0_r in K, P. set (k := N.log2_up (n + 1)) in *.
    change (Z.of_N 1) with 1%Z in P. rewrite !Z.mul_1_l in P. destruct P as [L U].
    apply ceil_u32_ok; [|lia]. apply (log_ceil log2 m e _ A).
    assert (P1 : p2 (Z.of_N k - 1) == inject_Z (2 ^ (Z.of_N k - 1))) by (apply p2_Z; lia).
    assert (P2 : p2 (Z.of_N k) == inject_Z (2 ^ Z.of_N k)) by (apply p2_Z; lia).
    destruct (Z.eq_dec (Z.of_N (n + 1)) (2 ^ Z.of_N k)) as [Q|Q]; [left; rewrite X, P2, Q; reflexivity|right].
    assert (A1 : inject_Z (2 ^ (Z.of_N k - 1)) + 1 <= inject_Z (Z.of_N (n + 1))) by (rewrite <- iz_succ; apply iz_le; lia).
    assert (A2 : inject_Z (Z.of_N (n + 1)) + 1 <= inject_Z (2 ^ Z.of_N k)) by (rewrite <- iz_succ; apply iz_le; lia).
    assert (A3 : inject_Z (Z.of_N (n + 1)) <= inject_Z (2 ^ 32)) by (apply iz_le; lia). change (inject_Z (2 ^ 32)) with (4294967296 # 1) in A3.
    assert (A4 : inject_Z 1 <= inject_Z (Z.of_N (n + 1))) by (apply iz_le; lia). change (inject_Z 1) with 1 in A4.
    rewrite X, P1, P2. unfold q33, q34. cbn [Pos.pow Pos.iter Pos.mul]. split; [lra|split; lra].
Qed.
(** It is the formula 7-21 of the standard, without rounding. *)
Theorem C74_formula : forall log2, accurate log2 -> forall w h r,
  let S := (((w + 1) mod 2 ^ 32) * ((h + 1) mod 2 ^ 32) mod 2 ^ 32)%N in let R := ((r + 1) mod 2 ^ 32)%N in R <> 0%N ->
  exists n, cycle_len_double log2 w h r = Ok n /\ ceil_log2 (inject_Z (Z.of_N S) / inject_Z (Z.of_N R) + 1) (Z.of_N n).
Proof.
  intros log2 A w h r S R NR. rewrite (C74_cycle log2 A). unfold getSliceGroupChangeCycleLen. cbv zeta.
  change (u32 (u32 (w + 1) * u32 (h + 1))) with S. change (u32 (r + 1)) with R.
  assert (BS : (S < 2 ^ 32)%N) by (apply N.mod_lt; lia). assert (BR : (R < 2 ^ 32)%N) by (apply N.mod_lt; lia). clearbody S R.
  destruct (N.eqb_spec R 0) as [ER|_]; [contradiction|]. eexists. split; [reflexivity|]. unfold ceil_log2.
  assert (P : 0 < inject_Z (Z.of_N R)) by (change 0 with (inject_Z 0); apply iz_lt; lia).
  destruct (N.eq_dec S 0) as [->|NS].
  - rewrite N.add_0_l. replace ((R + (R - 1)) / R)%N with 1%N by (apply (N.div_unique _ _ 1 (R - 1)); lia). change (Z.of_N (N.log2_up 1)) with 0%Z. change (Z.of_N 0) with 0%Z.
    change (inject_Z 0) with 0. setoid_replace (0 / inject_Z (Z.of_N R) + 1) with 1 by (field; lra). split; [reflexivity|discriminate].
  - destruct (log2_up_fraction S R ltac:(lia) ltac:(lia)) as [B [L U]]. set (n := N.log2_up ((S + R + (R - 1)) / R)) in *.
    destruct (exact_cmp S R ltac:(lia) ltac:(lia)) as (_ & _ & LE & V). fold (exact S R). rewrite !p2_def. split.
    + apply (Qmult_lt_r _ _ _ P). rewrite V, p2_Z, <- inject_Z_mult by lia. apply iz_lt. lia.
    + apply LE. rewrite p2_Z, <- inject_Z_mult by lia. apply iz_le. lia.
Qed.

(** For the parameter sets that slices are specified for, it is the length in the specification. *)
Theorem C74_standard : forall log2, accurate log2 -> forall s p, ok_sps s -> ok_pps p ->
  let w := pic_width_in_mbs_minus1 s in let h := pic_height_in_map_units_minus1 s in let r := pps_slice_group_change_rate_minus1 p in
  cycle_len_double log2 w h r = Ok (cycle_bits s p) /\
  ceil_log2 (inject_Z (Z.of_N ((w + 1) * (h + 1))) / inject_Z (Z.of_N (r + 1)) + 1) (Z.of_N (cycle_bits s p)).
Proof.
  intros log2 A s p HS HP w h r. apply ok_sps_use in HS. apply ok_pps_use in HP. pose proof (cycle_len s p HS HP) as [E _]. fold w h r in E. split; [rewrite (C74_cycle log2 A); exact E|].
  destruct HS as (_ & _ & _ & LW & LH). unfold pps_use, SpecVui.is_ue in HP. fold w in LW. fold h in LH. fold r in HP.
  destruct (C74_formula log2 A w h r) as (n & F & C).
  - rewrite N.mod_small by lia. lia.
  - rewrite (C74_cycle log2 A), E in F. injection F as <-. rewrite (N.mod_small (w + 1)), (N.mod_small (h + 1)), (N.mod_small (r + 1)) in C by lia.
    rewrite N.mod_small in C by nia. exact C.
Qed.

(** There is such a logarithm: the next smaller multiple of 2^-d, for a large d. *)
Definition multiple (p d : Z) : spec_float :=
  match p with Z0 => S754_zero false | Zpos a => S754_finite false a (- d) | Zneg a => S754_finite true a (- d) end.
Definition floor_log2 (d : Z) (x : spec_float) : spec_float :=
  match x with
  | S754_finite false m e => multiple (Z.log2 (Zpos m ^ 2 ^ d) + e * 2 ^ d) d
  | _ => x
  end.
Lemma multiple_value : forall p d, exists y, value (multiple p d) = Some y /\ y == inject_Z p * p2 (- d).
Proof. intros [|a|a] d; eexists; (split; [reflexivity|]); cbn [value multiple]; rewrite ?dy; reflexivity. Qed.
Lemma floor_bounds : forall d m e, (0 <= d)%Z -> let p := (Z.log2 (Zpos m ^ 2 ^ d) + e * 2 ^ d)%Z in
  p2 p <= dyadic (Zpos m) e ^ (2 ^ d) < p2 (p + 1).
Proof.
  intros d m e D p. assert (PQ : (0 < 2 ^ d)%Z) by (apply Z.pow_pos_nonneg; lia). set (q := (2 ^ d)%Z) in *. clearbody q.
  assert (PM : (0 < Zpos m ^ q)%Z) by (apply Z.pow_pos_nonneg; lia). destruct (Z.log2_spec _ PM) as [L U]. set (l := Z.log2 (Zpos m ^ q)) in *.
  assert (LN : (0 <= l)%Z) by apply Z.log2_nonneg.
  assert (E : dyadic (Zpos m) e ^ q == inject_Z (Zpos m ^ q) * p2 (e * q)).
  { rewrite dy, Qmult_power. destruct q as [|q|q]; try lia. rewrite p2_mul_pos. rewrite Zpower_Qpower by lia. reflexivity. }
  pose proof (p2_pos (e * q)) as PE. rewrite E. unfold p. split.
  - rewrite (p2_plus l (e * q)), (p2_Z l) by lia. apply Qmult_le_compat_r; [apply iz_le; exact L|lra].
  - replace (l + e * q + 1)%Z with (l + 1 + e * q)%Z by lia. rewrite (p2_plus (l + 1) (e * q)), (p2_Z (l + 1)) by lia. apply Qmult_lt_r; [exact PE|apply iz_lt; exact U].
Qed.
Theorem C74_exists : exists log2, accurate log2.
Proof.
  exists (floor_log2 50). remember 50%Z as d eqn:ED. assert (D : (0 <= d)%Z) by lia. assert (D40 : p2 (- d) <= slack) by (subst d; unfold slack, Qle; cbn; lia).
  clear ED. assert (PQ : (0 < 2 ^ d)%Z) by (apply Z.pow_pos_nonneg; lia). 
  assert (DD : p2 (- d) * inject_Z (2 ^ d) == 1) by (rewrite <- p2_Z, <- p2_plus by lia; replace (- d + d)%Z with 0%Z by lia; reflexivity).
  assert (PI : 0 < inject_Z (2 ^ d)) by (change 0 with (inject_Z 0); apply iz_lt; exact PQ).
  split; [| |reflexivity|reflexivity].
  - intros m e k E. cbn [floor_log2]. destruct (multiple_value (Z.log2 (Zpos m ^ 2 ^ d) + e * 2 ^ d) d) as (y & V & Y). exists y. split; [exact V|]. rewrite Y.
    pose proof (floor_bounds d m e D) as [L U]. set (p := (Z.log2 (Zpos m ^ 2 ^ d) + e * 2 ^ d)%Z) in *. rewrite p2_def in E.
    assert (X : dyadic (Zpos m) e ^ (2 ^ d) == p2 (k * 2 ^ d)).
    { rewrite E. destruct (2 ^ d)%Z as [|q|q]; try lia. rewrite p2_mul_pos. reflexivity. }
    rewrite X in L, U. apply p2_le_inv in L. apply p2_lt_inv in U. replace p with (k * 2 ^ d)%Z by lia. rewrite inject_Z_mult.
    setoid_replace (inject_Z k * inject_Z (2 ^ d) * p2 (- d)) with (inject_Z k * (p2 (- d) * inject_Z (2 ^ d))) by ring. rewrite DD. ring.
  - intros m e x O. cbn [floor_log2]. destruct (multiple_value (Z.log2 (Zpos m ^ 2 ^ d) + e * 2 ^ d) d) as (y & V & Y). exists y. split; [exact V|].
    pose proof (floor_bounds d m e D) as [L U]. fold x in L, U. set (p := (Z.log2 (Zpos m ^ 2 ^ d) + e * 2 ^ d)%Z) in *. clearbody p x.
    assert (YD : y * inject_Z (2 ^ d) == inject_Z p) by (rewrite Y; setoid_replace (inject_Z p * p2 (- d) * inject_Z (2 ^ d)) with (inject_Z p * (p2 (- d) * inject_Z (2 ^ d))) by ring; rewrite DD; ring).
    assert (FR : forall a b, (a # b) * inject_Z (Zpos b) == inject_Z a) by (intros; unfold Qeq; cbn; lia).
    destruct (2 ^ d)%Z as [|q|q]; try lia.
    assert (XX : forall Q', (x ^ Zpos q) ^ Zpos Q' == (x ^ Zpos Q') ^ Zpos q) by (intros; rewrite <- !Qpower_mult; rewrite Z.mul_comm; reflexivity).
    assert (PX : 0 < x) by lra. split; intros P Q' H; rewrite p2_def in H; assert (PB : 0 < inject_Z (Zpos Q')) by (change 0 with (inject_Z 0); apply iz_lt; lia).
    + assert (K : (P * Zpos q < (p + 1) * Zpos Q')%Z).
      { apply p2_lt_inv. rewrite !p2_mul_pos. apply Qle_lt_trans with ((x ^ Zpos Q') ^ Zpos q); [apply pow_mono; [apply p2_pos|exact H]|].
        rewrite <- XX. clear - U PX. pose proof (pow_pos x (Zpos q) PX) as PP. set (a := x ^ Zpos q) in *. set (b := p2 (p + 1)) in *. clearbody a b.
        induction Q' as [|n IH] using Pos.peano_ind; [exact U|]. rewrite !pow_succ by lra. pose proof (pow_pos a (Zpos n) PP). 
        apply Qlt_trans with (a ^ Zpos n * b); [apply Qmult_lt_l; assumption|apply Qmult_lt_r; [lra|exact IH]]. }
      apply Qle_trans with (y + p2 (- d)); [|lra].
      assert (M : inject_Z (P * Zpos q) < inject_Z ((p + 1) * Zpos Q')) by (apply iz_lt; exact K). rewrite !inject_Z_mult, iz_succ in M.
      rewrite <- (FR P Q'), <- YD in M.
      apply Qlt_le_weak. apply (Qmult_lt_r _ _ (inject_Z (Zpos q)) PI). apply (Qmult_lt_r _ _ (inject_Z (Zpos Q')) PB).
      setoid_replace ((y + p2 (- d)) * inject_Z (Zpos q) * inject_Z (Zpos Q')) with ((y * inject_Z (Zpos q) + p2 (- d) * inject_Z (Zpos q)) * inject_Z (Zpos Q')) by ring. rewrite DD.
      setoid_replace ((P # Q') * inject_Z (Zpos q) * inject_Z (Zpos Q')) with ((P # Q') * inject_Z (Zpos Q') * inject_Z (Zpos q)) by ring. exact M.
    + assert (K : (p * Zpos Q' <= P * Zpos q)%Z).
      { apply p2_le_inv. rewrite !p2_mul_pos. apply Qle_trans with ((x ^ Zpos q) ^ Zpos Q'); [apply pow_mono; [apply p2_pos|exact L]|].
        rewrite XX. apply pow_mono; [apply pow_pos; exact PX|exact H]. }
      assert (SL : 0 <= slack) by discriminate. apply Qle_trans with (P # Q'); [|lra].
      assert (M : inject_Z (p * Zpos Q') <= inject_Z (P * Zpos q)) by (apply iz_le; exact K). rewrite !inject_Z_mult in M.
      rewrite <- (FR P Q'), <- YD in M.
      apply (Qmult_le_r _ _ (inject_Z (Zpos q)) PI). apply (Qmult_le_r _ _ (inject_Z (Zpos Q')) PB).
      setoid_replace ((P # Q') * inject_Z (Zpos q) * inject_Z (Zpos Q')) with ((P # Q') * inject_Z (Zpos Q') * inject_Z (Zpos q)) by ring. exact M.
Qed.

(** A picture of 11 x 9 map units with change rate 1, and one whose quotient is 2^-32. *)
Example C74_ex : forall log2, accurate log2 -> cycle_len_double log2 10 8 0 = Ok 7%N /\ cycle_len_double log2 0 0 (2 ^ 32 - 2) = Ok 1%N /\
  cycle_len_double log2 10 8 (2 ^ 32 - 1) = UB BadCast /\ id_len_double log2 4 = Ok 3%N.
Proof. intros log2 A. rewrite !(C74_cycle log2 A), (C74_id log2 A) by lia. repeat split. Qed.

Print Assumptions C74_cycle.
Print Assumptions C74_id.
Print Assumptions C74_formula.
Print Assumptions C74_standard.
Print Assumptions C74_exists.
