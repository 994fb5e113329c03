(** Equations for the remaining reader operations, and operation histories. *)
From Coq Require Import NArith ZArith List Bool Lia ZifyBool ZifyNat ZifyN.
From Verif Require Import SpecBits Base BitBuffer SpecReader BitsLemmas BitBufferProofs.
Import ListNotations.
Open Scope N_scope.
Ltac Zify.zify_post_hook ::= Z.div_mod_to_equations.

Lemma CountBits_loop_spec : forall fuel v c, v < 2 ^ N.of_nat fuel ->
  CountBits_loop fuel v c = Ok (c + if v =? 0 then 0 else N.log2 v + 1).
Proof.
  induction fuel as [|f IH]; intros v c H.
  - cbn [N.of_nat] in H. change (2 ^ 0) with 1 in H.
    assert (v = 0) by lia. subst. cbn. f_equal. lia.
  - cbn [CountBits_loop]. destruct (v =? 0) eqn:E; [f_equal; lia|].
    rewrite pow_of_S in H. rewrite IH by (rewrite N.shiftr_div_pow2; change (2 ^ 1) with 2; lia).
    f_equal. rewrite N.log2_shiftr.
    destruct (N.shiftr v 1 =? 0) eqn:E2.
    + rewrite N.shiftr_div_pow2 in E2. change (2 ^ 1) with 2 in E2.
      assert (v = 1) by lia. subst. cbn. lia.
    + rewrite N.shiftr_div_pow2 in E2. change (2 ^ 1) with 2 in E2.
      assert (1 <= N.log2 v) by (apply N.log2_le_pow2; try lia; change (2 ^ 1) with 2; lia).
      lia.
Qed.

Lemma CountBits_spec : forall v, v < 2 ^ 64 ->
  CountBits v = Ok (if v =? 0 then 0 else N.log2 v + 1).
Proof. intros. unfold CountBits. rewrite CountBits_loop_spec; auto. Qed.

Lemma ConsumeBytes_spec : forall n b, bb_wf b -> n < 2 ^ 64 ->
  ConsumeBytes n b =
  if N.of_nat (length (bb_rem b)) <? 8 * n then (Null, b)
  else (Ok tt, bb_adv b (N.to_nat (8 * n))).
Proof.
  intros n b W H. unfold ConsumeBytes. pose proof (bb_rem_length b W) as L.
  pose proof W as (H1 & H2 & H3 & H4).
  destruct ((2 ^ 64 - 1) / 8 <? n) eqn:E.
  - change ((2 ^ 64 - 1) / 8) with 2305843009213693951 in E.
    replace (_ <? 8 * n) with true by lia. reflexivity.
  - change ((2 ^ 64 - 1) / 8) with 2305843009213693951 in E.
    rewrite u64_small by lia. rewrite ConsumeBits_spec by auto.
    now rewrite (N.mul_comm n 8).
Qed.

Lemma ns_width_range : forall n, 2 <= n -> n < 2 ^ 31 -> 2 <= ns_width n <= 31 /\
  n < 2 ^ ns_width n <= 2 * n.
Proof.
  intros n H1 H2. unfold ns_width.
  assert (1 <= N.log2 n) by (apply N.log2_le_pow2; try lia; change (2 ^ 1) with 2; lia).
  assert (N.log2 n < 31) by (apply N.log2_lt_pow2; lia).
  split; [lia|]. rewrite N.add_1_r, N.pow_succ_r'.
  pose proof (N.log2_spec n ltac:(lia)). rewrite N.pow_succ_r' in *. lia.
Qed.

Lemma bval_firstn_S : forall l k, (S k <= length l)%nat ->
  bval (firstn (S k) l) = 2 * bval (firstn k l) + bval (firstn 1 (skipn k l)).
Proof.
  intros l k H. rewrite <- (firstn_skipn k (firstn (S k) l)), bval_app.
  rewrite firstn_firstn, skipn_firstn_comm, Nat.min_l by lia.
  replace (S k - k)%nat with 1%nat by lia.
  rewrite (firstn_length_le' _ (skipn k l) 1) by (rewrite skipn_length; lia).
  change (2 ^ N.of_nat 1) with 2. lia.
Qed.

Lemma ReadNonSymmetric_spec : forall n b, bb_wf b -> 2 <= n -> n < 2 ^ 31 ->
  ReadNonSymmetric n b =
  let w := N.to_nat (ns_width n) in
  let l := bb_rem b in
  if (length l <? w - 1)%nat then (Null, b)
  else if bval (firstn (w - 1) l) <? ns_short n then
    (Ok (bval (firstn (w - 1) l)), bb_adv b (w - 1))
  else if (length l <? w)%nat then (Null, bb_adv b (w - 1))
  else (Ok (bval (firstn w l) - ns_short n), bb_adv b w).
Proof.
  intros n b W H1 H2. pose proof (ns_width_range n H1 H2) as [R1 R2].
  unfold ReadNonSymmetric, sbind, sres, dcheck.
  rewrite CountBits_spec by lia. replace (n =? 0) with false by lia.
  replace ((0 <? n) && (n <=? 2 ^ 31)) with true by lia. rewrite andb_false_r.
  fold (ns_width n). set (w := ns_width n) in *.
  replace (32 <=? w) with false by lia.
  assert (P : 2 ^ w <= 2 ^ 31) by (apply N.pow_le_mono_r; lia).
  assert (P' : 0 < 2 ^ w) by lia.
  rewrite N.shiftl_1_l, u32_small by lia. rewrite sub32_small by lia.
  rewrite sub64_small by lia. fold (ns_short n). fold w.
  assert (SH : 2 ^ w - n = ns_short n) by reflexivity. rewrite SH.
  rewrite ReadBits_spec by auto. unfold rd_ok.
  cbv zeta. set (l := bb_rem b).
  replace (N.to_nat w - 1)%nat with (N.to_nat (w - 1)) by lia.
  destruct (length l <? N.to_nat (w - 1))%nat eqn:E1.
  { replace (negb _) with false by lia. reflexivity. }
  replace (negb _) with true by lia.
  set (v := bval (firstn (N.to_nat (w - 1)) l)).
  assert (Bv : v < 2 ^ (w - 1)).
  { pose proof (bval_bound (firstn (N.to_nat (w - 1)) l)) as B.
    rewrite firstn_length_le' in B by lia. now rewrite N2Nat.id in B. }
  assert (PW : 2 ^ w = 2 * 2 ^ (w - 1)).
  { replace w with (N.succ (w - 1)) at 1 by lia. now rewrite N.pow_succ_r'. }
  destruct (v <? ns_short n) eqn:E2; [reflexivity|].
  assert (L : (N.to_nat (w - 1) <= length (bb_rem b))%nat) by (fold l; lia).
  rewrite ReadBits_spec by (apply bb_adv_wf; auto). unfold rd_ok.
  rewrite bb_adv_rem by auto. rewrite skipn_length. fold l.
  destruct (length l <? N.to_nat w)%nat eqn:E3.
  { replace (negb _) with false by lia. reflexivity. }
  replace (negb _) with true by lia. rewrite bb_adv_adv.
  unfold sret. change (N.to_nat 1) with 1%nat.
  replace (N.to_nat (w - 1) + 1)%nat with (N.to_nat w) by lia.
  f_equal. f_equal.
  replace (N.to_nat w) with (S (N.to_nat (w - 1))) by lia.
  rewrite (bval_firstn_S l (N.to_nat (w - 1))) by lia. fold v.
  set (e := bval (firstn 1 (skipn (N.to_nat (w - 1)) l))).
  assert (Be : e < 2).
  { pose proof (bval_bound (firstn 1 (skipn (N.to_nat (w - 1)) l))) as B.
    rewrite firstn_length_le' in B by (rewrite skipn_length; lia). exact B. }
  rewrite N.shiftl_mul_pow2. change (2 ^ 1) with 2.
  rewrite !(u32_small (v * 2)) by lia. rewrite u32_small by lia.
  assert (ns_short n <= v) by lia.
  rewrite sub32_small by lia. lia.
Qed.

Lemma ns_sound : forall n b v b', bb_wf b -> 2 <= n -> n < 2 ^ 31 ->
  ReadNonSymmetric n b = (Ok v, b') ->
  v < n /\ exists rest, bb_rem b = ns_bits n v ++ rest /\ b' = bb_adv b (length (ns_bits n v)).
Proof.
  intros n b v b' W H1 H2 E. rewrite ReadNonSymmetric_spec in E by auto. cbv zeta in E.
  pose proof (ns_width_range n H1 H2) as [R1 R2].
  assert (SHd : ns_short n = 2 ^ ns_width n - n) by reflexivity.
  set (w := ns_width n) in *. set (l := bb_rem b) in *.
  assert (PW : 2 ^ w = 2 * 2 ^ (w - 1)).
  { replace w with (N.succ (w - 1)) at 1 by lia. now rewrite N.pow_succ_r'. }
  destruct (length l <? N.to_nat w - 1)%nat eqn:E1; [discriminate|].
  destruct (bval (firstn (N.to_nat w - 1) l) <? ns_short n) eqn:E2.
  - assert (Ev : v = bval (firstn (N.to_nat w - 1) l)) by congruence.
    assert (Eb : b' = bb_adv b (N.to_nat w - 1)) by congruence.
    split; [lia|].
    exists (skipn (N.to_nat w - 1) l). unfold ns_bits. fold w.
    replace (v <? ns_short n) with true by lia.
    unfold u_bits. rewrite nbits_length.
    replace (N.to_nat (w - 1)) with (N.to_nat w - 1)%nat by lia.
    split; auto. rewrite <- (firstn_skipn (N.to_nat w - 1) l) at 1. f_equal.
    rewrite Ev. rewrite <- (nbits_bval (firstn (N.to_nat w - 1) l)) at 1.
    rewrite firstn_length_le' by lia. reflexivity.
  - destruct (length l <? N.to_nat w)%nat eqn:E3; [discriminate|].
    assert (Ev : v = bval (firstn (N.to_nat w) l) - ns_short n) by congruence.
    assert (Eb : b' = bb_adv b (N.to_nat w)) by congruence.
    replace (N.to_nat w) with (S (N.to_nat w - 1)) in Ev by lia.
    rewrite bval_firstn_S in Ev by lia.
    replace (S (N.to_nat w - 1)) with (N.to_nat w) in Ev by lia.
    set (a := bval (firstn (N.to_nat w - 1) l)) in *.
    assert (Ba : a < 2 ^ (w - 1)).
    { pose proof (bval_bound (firstn (N.to_nat w - 1) l)) as B.
      rewrite firstn_length_le' in B by lia.
      replace (N.of_nat (N.to_nat w - 1)) with (w - 1) in B by lia. exact B. }
    set (e := bval (firstn 1 (skipn (N.to_nat w - 1) l))) in *.
    assert (Be : e < 2).
    { pose proof (bval_bound (firstn 1 (skipn (N.to_nat w - 1) l))) as B.
      rewrite firstn_length_le' in B by (rewrite skipn_length; lia). exact B. }
    assert (ns_short n <= a) by lia.
    split; [lia|].
    exists (skipn (N.to_nat w) l). unfold ns_bits. fold w.
    replace (v <? ns_short n) with false by lia.
    unfold u_bits. rewrite nbits_length. split; auto.
    rewrite <- (firstn_skipn (N.to_nat w) l) at 1. f_equal.
    replace (v + ns_short n) with (bval (firstn (N.to_nat w) l)).
    + rewrite <- (nbits_bval (firstn (N.to_nat w) l)) at 1.
      rewrite firstn_length_le' by lia. reflexivity.
    + replace (N.to_nat w) with (S (N.to_nat w - 1)) by lia.
      rewrite bval_firstn_S by lia. fold a e. lia.
Qed.

Lemma firstn_app_exact : forall A (a b : list A), firstn (length a) (a ++ b) = a.
Proof. intros. rewrite firstn_app, Nat.sub_diag, firstn_all, app_nil_r. reflexivity. Qed.
Lemma firstn_app_exact' : forall A (a b : list A) n, n = length a -> firstn n (a ++ b) = a.
Proof. intros. subst. apply firstn_app_exact. Qed.
Lemma skipn_app_exact : forall A (a b : list A), skipn (length a) (a ++ b) = b.
Proof. intros. rewrite skipn_app, Nat.sub_diag, skipn_all. reflexivity. Qed.

Lemma ns_complete : forall n b v rest, bb_wf b -> 2 <= n -> n < 2 ^ 31 -> v < n ->
  bb_rem b = ns_bits n v ++ rest ->
  ReadNonSymmetric n b = (Ok v, bb_adv b (length (ns_bits n v))).
Proof.
  intros n b v rest W H1 H2 Hv E. rewrite ReadNonSymmetric_spec by auto. cbv zeta.
  pose proof (ns_width_range n H1 H2) as [R1 R2].
  assert (SHd : ns_short n = 2 ^ ns_width n - n) by reflexivity.
  rewrite E. unfold ns_bits in *. set (w := ns_width n) in *.
  assert (PW : 2 ^ w = 2 * 2 ^ (w - 1)).
  { replace w with (N.succ (w - 1)) at 1 by lia. now rewrite N.pow_succ_r'. }
  replace (N.to_nat w - 1)%nat with (N.to_nat (w - 1)) by lia.
  destruct (v <? ns_short n) eqn:E2; unfold u_bits in *.
  - rewrite app_length, nbits_length.
    replace (_ <? N.to_nat (w - 1))%nat with false by lia.
    rewrite firstn_app_exact' by (now rewrite nbits_length).
    rewrite bval_nbits_small by (rewrite N2Nat.id; lia). rewrite E2. reflexivity.
  - rewrite app_length, nbits_length.
    replace (_ <? N.to_nat (w - 1))%nat with false by lia.
    replace (_ <? N.to_nat w)%nat with false by lia.
    rewrite (firstn_app_exact' _ (nbits (N.to_nat w) (v + ns_short n)) rest (N.to_nat w)) by (now rewrite nbits_length).
    rewrite (bval_nbits_small (N.to_nat w)) by (rewrite N2Nat.id; lia).
    assert (L : (N.to_nat (w - 1) <= length (nbits (N.to_nat w) (v + ns_short n)))%nat)
      by (rewrite nbits_length; lia).
    rewrite firstn_app.
    replace (N.to_nat (w - 1) - length (nbits (N.to_nat w) (v + ns_short n)))%nat with 0%nat
      by (rewrite nbits_length; lia).
    rewrite firstn_O, app_nil_r, bval_firstn by auto.
    rewrite bval_nbits_small by (rewrite N2Nat.id; lia). rewrite nbits_length.
    replace (N.of_nat (N.to_nat w - N.to_nat (w - 1))) with 1 by lia. change (2 ^ 1) with 2.
    replace ((v + ns_short n) / 2 <? ns_short n) with false by lia.
    f_equal. f_equal. lia.
Qed.

(** Every operation keeps the invariant and only moves the position. *)
Definition kept (b b' : bb) : Prop :=
  bb_wf b' /\ bb_bytes b' = bb_bytes b /\ bb_asserts b' = bb_asserts b.

Lemma kept_refl : forall b, bb_wf b -> kept b b.
Proof. unfold kept; auto. Qed.
Lemma kept_adv : forall b n, bb_wf b -> (n <= length (bb_rem b))%nat -> kept b (bb_adv b n).
Proof. unfold kept. intros. split; auto using bb_adv_wf. Qed.
Lemma kept_trans : forall a b c, kept a b -> kept b c -> kept a c.
Proof. unfold kept. intuition congruence. Qed.

(** Outcomes that a correct program sees. *)
Definition plain {A} (r : res A) : Prop := match r with Ok _ | Null => True | _ => False end.

Lemma ReadBitsW_kept : forall w n b, bb_wf b -> w <= 64 -> 8 <= w ->
  plain (fst (ReadBitsW w n b)) /\ kept b (snd (ReadBitsW w n b)).
Proof.
  intros. rewrite ReadBitsW_spec by auto.
  destruct ((n =? 0) || (w <? n) || (N.of_nat (length (bb_rem b)) <? n)) eqn:E; cbn [fst snd plain].
  - auto using kept_refl.
  - split; auto. apply kept_adv; auto. lia.
Qed.

Lemma ReadUe_kept : forall b, bb_wf b ->
  plain (fst (ReadExponentialGolomb b)) /\ kept b (snd (ReadExponentialGolomb b)).
Proof.
  intros b W. rewrite ReadExponentialGolomb_spec by auto.
  destruct (ue_dec (bb_rem b)) as [[v n]|] eqn:E; cbn [fst snd plain]; split; auto.
  - apply ue_dec_sound in E. apply kept_adv; auto. tauto.
  - destruct (bb_asserts b); auto using kept_refl. apply kept_adv; auto. apply lead0_le.
Qed.

Lemma ReadSe_kept : forall b, bb_wf b ->
  plain (fst (ReadSignedExponentialGolomb b)) /\ kept b (snd (ReadSignedExponentialGolomb b)).
Proof.
  intros b W. rewrite ReadSignedExponentialGolomb_spec by auto.
  destruct (ue_dec (bb_rem b)) as [[v n]|] eqn:E; cbn [fst snd plain]; split; auto.
  - apply ue_dec_sound in E. apply kept_adv; auto. tauto.
  - destruct (bb_asserts b); auto using kept_refl. apply kept_adv; auto. apply lead0_le.
Qed.

Lemma ReadNonSymmetric_1 : forall b, bb_wf b -> ReadNonSymmetric 1 b = (Null, b).
Proof.
  intros b W. unfold ReadNonSymmetric, sbind, sres, dcheck. cbn [negb andb].
  replace (bb_asserts b && _) with false by (destruct (bb_asserts b); auto).
  change (CountBits 1) with (@Ok N 1). change (32 <=? 1) with false. cbn iota.
  change (sub64 1 1) with 0. rewrite ReadBits_spec by auto. reflexivity.
Qed.

Lemma ReadNonSymmetric_0 : forall b, bb_wf b ->
  ReadNonSymmetric 0 b = ((if bb_asserts b then Abort else Null), b).
Proof.
  intros b W. unfold ReadNonSymmetric, sbind, sres, dcheck. cbn [negb andb].
  destruct (bb_asserts b) eqn:A; [reflexivity|].
  change (false && _) with false. cbv iota.
  change (CountBits 0) with (@Ok N 0). change (32 <=? 0) with false. cbv iota.
  change (sub64 0 1) with (2 ^ 64 - 1). rewrite ReadBits_spec by auto.
  unfold rd_ok. replace (32 <? 2 ^ 64 - 1) with true by reflexivity.
  rewrite orb_true_r. reflexivity.
Qed.

Lemma ReadNonSymmetric_big : forall n b, bb_wf b -> 2 ^ 31 <= n -> n < 2 ^ 32 ->
  ReadNonSymmetric n b =
  ((if bb_asserts b && (2 ^ 31 <? n) then Abort else UB BadShift), b).
Proof.
  intros n b W H1 H2. unfold ReadNonSymmetric, sbind, sres, dcheck.
  replace ((0 <? n) && (n <=? 2 ^ 31)) with (negb (2 ^ 31 <? n)) by lia.
  rewrite negb_involutive.
  destruct (bb_asserts b && (2 ^ 31 <? n)); auto.
  rewrite CountBits_spec by lia. replace (n =? 0) with false by lia.
  assert (N.log2 n = 31) by (apply N.log2_unique; lia).
  replace (32 <=? N.log2 n + 1) with true by lia. reflexivity.
Qed.

Definition ns_arg_ok (o : reader_op) : Prop :=
  match o with OReadNonSymmetric n => 1 <= n < 2 ^ 31 | _ => True end.

Lemma as_z_fst : forall A S (f : A -> Z) (r : res A * S), plain (fst r) -> plain (fst (as_z f r)).
Proof. intros A S f [[] s]; cbn; auto. Qed.
Lemma as_z_snd : forall A S (f : A -> Z) (r : res A * S), snd (as_z f r) = snd r.
Proof. intros A S f [[] s]; cbn; auto. Qed.
Lemma as_z_oob : forall A S (f : A -> Z) (r : res A * S) k, fst (as_z f r) = UB k -> fst r = UB k.
Proof. intros A S f [[] s] k0; cbn; try discriminate; congruence. Qed.

Lemma ReadU_kept : forall w lim (cast : N -> N) b, bb_wf b -> 0 < w -> w <= 32 -> lim = 2 ^ w - 1 ->
  let p := sbind (ReadBits w) (fun v b => (dcheck (bb_asserts b) (v <=? lim) (Ok (cast v)), b)) in
  plain (fst (p b)) /\ kept b (snd (p b)).
Proof.
  intros w lim cast b W H0 H1 ->. unfold sbind. cbv zeta. rewrite ReadBits_spec by auto.
  unfold rd_ok.
  destruct (negb _) eqn:E; cbn [fst snd].
  - unfold dcheck. pose proof (bval_bound (firstn (N.to_nat w) (bb_rem b))) as B.
    rewrite firstn_length_le' in B by lia. rewrite N2Nat.id in B.
    replace (_ <=? 2 ^ w - 1) with true by lia. rewrite andb_false_r. split; [exact I|].
    apply kept_adv; auto. lia.
  - split; [exact I|]. auto using kept_refl.
Qed.

Lemma run_op_kept : forall o b, bb_wf b -> op_ok o ->
  kept b (snd (run_op o b)) /\ fst (run_op o b) <> UB OutOfBounds /\
  (ns_arg_ok o -> plain (fst (run_op o b))).
Proof.
  intros o b W O.
  assert (G : forall A (f : A -> Z) (r : res A * bb),
             plain (fst r) /\ kept b (snd r) ->
             kept b (snd (as_z f r)) /\ fst (as_z f r) <> UB OutOfBounds /\
             (ns_arg_ok o -> plain (fst (as_z f r)))).
  { intros A f r [P K]. rewrite as_z_snd. split; auto.
    split; [|intros _; now apply as_z_fst].
    intros E. apply as_z_oob in E. rewrite E in P. exact P. }
  destruct o; cbn [run_op op_ok ns_arg_ok] in *; 
    lazymatch goal with |- context [ReadNonSymmetric] => idtac | _ => apply G; clear G end.
  - apply (ReadU_kept 8); auto; lia.
  - apply (ReadU_kept 16); auto; lia.
  - apply ReadBitsW_kept; auto; lia.
  - apply ReadBitsW_kept; auto; lia.
  - apply ReadBitsW_kept; auto; lia.
  - cbn [fst snd]. unfold PeekBits. rewrite PeekBitsW_spec by (auto; lia).
    destruct (_ || _); cbn; auto using kept_refl.
  - cbn [fst snd]. unfold PeekBits64. rewrite PeekBitsW_spec by (auto; lia).
    destruct (_ || _); cbn; auto using kept_refl.
  - rewrite ConsumeBytes_spec by auto. destruct (_ <? _) eqn:E; cbn [fst snd plain].
    + auto using kept_refl.
    + split; auto. apply kept_adv; auto; lia.
  - rewrite ConsumeBits_spec by auto. destruct (_ <? _) eqn:E; cbn [fst snd plain].
    + auto using kept_refl.
    + split; auto. apply kept_adv; auto; lia.
  - destruct (N.eq_dec n 0) as [->|N0].
    { rewrite ReadNonSymmetric_0 by auto.
      destruct (bb_asserts b); cbn [as_z fst snd plain];
        (split; [apply kept_refl; auto|]); (split; [discriminate|]); intros; lia. }
    destruct (N.eq_dec n 1) as [->|N1].
    { apply G. rewrite ReadNonSymmetric_1 by auto. cbn; auto using kept_refl. }
    destruct (N.ltb_spec n (2 ^ 31)) as [L|L].
    { apply G. rewrite ReadNonSymmetric_spec by (auto; lia). cbv zeta.
      destruct (length (bb_rem b) <? _)%nat eqn:E1; [cbn; auto using kept_refl|].
      destruct (_ <? ns_short n) eqn:E2; [cbn [fst snd]; split; [exact I|]; apply kept_adv; auto; lia|].
      destruct (length (bb_rem b) <? N.to_nat (ns_width n))%nat eqn:E3; cbn [fst snd];
        (split; [exact I|]; apply kept_adv; auto; lia). }
    rewrite ReadNonSymmetric_big by (auto; lia).
    destruct (bb_asserts b && _); cbn [as_z fst snd plain];
      (split; [apply kept_refl; auto|]); (split; [discriminate|]); intros; lia.
  - apply ReadUe_kept; auto.
  - apply ReadSe_kept; auto.
  - rewrite Seek_spec by auto. destruct (_ && _) eqn:E; cbn [fst snd plain].
    + split; auto. destruct W as (H1 & H2 & H3 & H4). unfold kept, bb_wf, bb_count in *.
      cbn [bb_bytes bb_byte bb_bit bb_asserts]. repeat split; auto; lia.
    + auto using kept_refl.
Qed.

Lemma bb_new_wf : forall a bytes b, bytes_ok bytes -> N.of_nat (length bytes) < 2 ^ 61 ->
  bb_new a bytes = Ok b -> bb_wf b /\ b = mkbb bytes 0 0 a.
Proof.
  intros a bytes b H1 H2 E. unfold bb_new, dcheck in E.
  destruct (a && _); [discriminate|]. injection E as <-.
  unfold bb_wf, bb_count. cbn [bb_bytes bb_byte bb_bit]. repeat split; auto; lia.
Qed.

Lemma reachable_wf : forall b, reachable b -> bb_wf b.
Proof.
  induction 1 as [a bytes b H1 H2 E|b o r b' R IH O E].
  - now apply bb_new_wf in E.
  - pose proof (run_op_kept o b IH O) as [K _]. rewrite E in K. apply K.
Qed.

Lemma run_ops_kept : forall l b, bb_wf b -> Forall op_ok l -> kept b (run_ops l b).
Proof.
  induction l as [|o l IH]; intros b W F; cbn [run_ops fold_left].
  - now apply kept_refl.
  - inversion F as [|? ? O F']; subst.
    pose proof (run_op_kept o b W O) as [K _].
    eapply kept_trans; [exact K|]. apply IH; auto. apply K.
Qed.

Lemma seek_back : forall b b2, bb_wf b -> kept b b2 ->
  Seek (bb_byte b) (bb_bit b) b2 = (Ok tt, b).
Proof.
  intros b b2 (H1 & H2 & H3 & H4) (W2 & EB & EA). rewrite Seek_spec by auto.
  unfold bb_count in *. rewrite EB, EA. replace (_ && _) with true by lia.
  destruct b; reflexivity.
Qed.
