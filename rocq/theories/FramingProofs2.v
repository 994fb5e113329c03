(** Round trips of the framing functions. *)
From Coq Require Import NArith ZArith List Bool Lia ZifyBool ZifyNat ZifyN.
From Verif Require Import SpecBits Base BitBuffer BitsLemmas BitBufferProofs RbspProofs
  Framing SpecFraming FramingProofs.
Import ListNotations.
Open Scope N_scope.
Ltac Zify.zify_post_hook ::= Z.div_mod_to_equations.

(** * Annex B *)
Lemma nal_tail : forall x y s, nal_bytes (x :: y :: s) -> nal_bytes (y :: s).
Proof.
  intros x y s (H1 & H2 & H3). split; [discriminate|]. split.
  - intros a z b E. apply (H2 (x :: a) z b). now rewrite E.
  - intros a E. apply (H3 (x :: a)). now rewrite E.
Qed.
Lemma poss_nal : forall s rest o, nal_bytes s ->
  poss (s ++ rest) o = poss rest (o + N.of_nat (length s)).
Proof.
  induction s as [|x s IH]; intros rest o H; [destruct H; congruence|].
  assert (S0 : sc_head ((x :: s) ++ rest) = false).
  { destruct H as (_ & H2 & H3). destruct s as [|y [|z t]]; cbn [app].
    - assert (x <> 0) by (intros ->; apply (H3 []); auto).
      destruct rest as [|? [|? [|? ?]]]; cbn [sc_head]; auto. lia.
    - assert (y <> 0) by (intros ->; apply (H3 [x]); auto).
      destruct rest as [|? [|? ?]]; cbn [sc_head]; auto. lia.
    - cbn [sc_head]. destruct (t ++ rest); auto.
      destruct (N.eqb_spec x 0) as [->|]; auto. destruct (N.eqb_spec y 0) as [->|]; auto.
      pose proof (H2 [] z t eq_refl). cbn [andb]. lia. }
  change ((x :: s) ++ rest) with (x :: (s ++ rest)) in *. cbn [poss]. rewrite S0.
  destruct s as [|y s].
  - cbn [length app]. reflexivity.
  - rewrite IH by (eapply nal_tail; eauto). f_equal. cbn [length]. lia.
Qed.

Lemma poss_yes : forall x t o, sc_head (x :: t) = true -> poss (x :: t) o = o :: poss t (o + 1).
Proof. intros x t o H. cbn [poss]. now rewrite H. Qed.
Lemma poss_no : forall x t o, sc_head (x :: t) = false -> poss (x :: t) o = poss t (o + 1).
Proof. intros x t o H. cbn [poss]. now rewrite H. Qed.

Lemma poss_unit : forall lg u rest o, nal_bytes u ->
  poss (code lg ++ u ++ rest) o =
  (o + if lg then 1 else 0) :: poss rest (o + N.of_nat (length (code lg)) + N.of_nat (length u)).
Proof.
  intros lg u rest o H. pose proof H as (H1 & _ & _). destruct u as [|x u]; [congruence|].
  assert (E : forall o, poss (0 :: 0 :: 1 :: (x :: u) ++ rest) o =
              o :: poss rest (o + 3 + N.of_nat (length (x :: u)))).
  { intros o'. rewrite poss_yes by reflexivity.
    rewrite (poss_no 0) by (cbn [app sc_head]; destruct (u ++ rest); reflexivity). rewrite (poss_no 1).
    2:{ cbn [app sc_head]. destruct (u ++ rest) as [|? [|? ?]]; reflexivity. }
    rewrite poss_nal by auto. do 2 f_equal. lia. }
  destruct lg; cbn [code].
  - change ([0; 0; 0; 1] ++ (x :: u) ++ rest) with (0 :: (0 :: 0 :: 1 :: (x :: u) ++ rest)).
    rewrite poss_no by reflexivity. rewrite E. do 2 f_equal. cbn [length]. lia.
  - change ([0; 0; 1] ++ (x :: u) ++ rest) with (0 :: 0 :: 1 :: (x :: u) ++ rest).
    rewrite E, N.add_0_r. reflexivity.
Qed.

Lemma slice_app : forall a b c, slice (N.of_nat (length a)) (N.of_nat (length b)) (a ++ b ++ c) = b.
Proof.
  intros a b c. unfold slice. rewrite !Nat2N.id, skipn_app, skipn_all, Nat.sub_diag. cbn [skipn app].
  rewrite firstn_app, firstn_all, Nat.sub_diag. cbn [firstn]. apply app_nil_r.
Qed.

Lemma start_of_unit : forall pre lg u rest, (forall a, pre <> a ++ [0]) ->
  start_of (pre ++ code lg ++ u ++ rest) (N.of_nat (length pre) + if lg then 1 else 0) =
  N.of_nat (length pre).
Proof.
  intros pre lg u rest H.
  pose proof (start_of_cases (pre ++ code lg ++ u ++ rest)
                (N.of_nat (length pre) + if lg then 1 else 0)) as C.
  destruct lg.
  - destruct C as [[Z S]|[Z S]].
    + rewrite !app_length. cbn. lia.
    + lia.
    + exfalso. apply Z. exists pre, ([0; 0; 1] ++ u ++ rest). split; auto.
  - rewrite N.add_0_r in *. destruct C as [[Z S]|[Z S]].
    + rewrite !app_length. cbn. lia.
    + exfalso. destruct Z as (a & b & E & L).
      assert (E' : firstn (length pre) (pre ++ code false ++ u ++ rest) = firstn (length pre) (a ++ 0 :: b))
        by now rewrite E.
      rewrite firstn_app, firstn_all, Nat.sub_diag in E'. cbn [firstn] in E'. rewrite app_nil_r in E'.
      apply (H a). rewrite E'. replace (length pre) with (length a + 1)%nat by lia.
      rewrite firstn_app, firstn_all2 by lia. replace (length a + 1 - length a)%nat with 1%nat by lia.
      reflexivity.
    + auto.
Qed.

Lemma annexb_places : forall us pre full, full = pre ++ annexb us ->
  Forall (fun u => nal_bytes (snd u)) us -> (forall a, pre <> a ++ [0]) ->
  map (fun x => (slice (ni_start x) (ni_payload x - ni_start x) full,
                 slice (ni_payload x) (ni_size x) full))
    (index_list full (N.of_nat (length full)) (poss (annexb us) (N.of_nat (length pre)))) =
  map (fun u => (code (fst u), snd u)) us.
Proof.
  induction us as [|[lg u] us IH]; intros pre full E F P; [reflexivity|].
  inversion F as [|? ? NU FU]; subst x l. cbn [snd] in NU.
  cbn [annexb flat_map fst snd] in E |- *. fold (annexb us) in *. rewrite <- app_assoc in *.
  rewrite poss_unit by auto.
  set (o' := N.of_nat (length pre) + N.of_nat (length (code lg)) + N.of_nat (length u)).
  assert (O' : o' = N.of_nat (length (pre ++ code lg ++ u))) by (rewrite !app_length; unfold o'; lia).
  assert (P' : forall a, pre ++ code lg ++ u <> a ++ [0]).
  { intros a EA. destruct NU as (N1 & _ & N3).
    destruct (@exists_last _ u N1) as (u' & z & ->). rewrite !app_assoc in EA.
    apply app_inj_tail in EA. destruct EA as [_ ->]. apply (N3 u'). reflexivity. }
  cbn [index_list map ni_start ni_payload ni_size].
  assert (ST : start_of full (N.of_nat (length pre) + if lg then 1 else 0) = N.of_nat (length pre))
    by (rewrite E; apply start_of_unit; auto).
  rewrite ST. f_equal.
  - f_equal.
    + replace (_ - N.of_nat (length pre)) with (N.of_nat (length (code lg))) by (destruct lg; cbn; lia).
      rewrite E. apply slice_app.
    + replace (N.of_nat (length pre) + (if lg then 1 else 0) + 3)
        with (N.of_nat (length (pre ++ code lg))) by (rewrite app_length; destruct lg; cbn; lia).
      assert (SZ : (match poss (annexb us) o' with
                | [] => N.of_nat (length full) | q :: _ => start_of full q end) = o').
      { destruct us as [|[lg2 u2] us2].
        - cbn [annexb flat_map poss]. rewrite E. cbn [annexb flat_map]. rewrite app_nil_r. auto.
        - inversion FU as [|? ? NU2 _]; subst x l.
          cbn [annexb flat_map fst snd] in *. fold (annexb us2) in *. rewrite <- app_assoc in *.
          rewrite poss_unit by auto. rewrite O', E.
          replace (pre ++ code lg ++ u ++ code lg2 ++ u2 ++ annexb us2) with
            ((pre ++ code lg ++ u) ++ code lg2 ++ u2 ++ annexb us2) by now rewrite <- !app_assoc.
          apply start_of_unit; auto. }
      rewrite SZ. replace (o' - N.of_nat (length (pre ++ code lg))) with (N.of_nat (length u))
        by (rewrite app_length; unfold o'; lia).
      rewrite E, app_assoc. apply slice_app.
  - rewrite O'. apply (IH (pre ++ code lg ++ u)); auto. rewrite E, <- !app_assoc. reflexivity.
Qed.

(** * Length fields *)
Lemma be_bytes_length : forall n v, length (be_bytes n v) = n.
Proof. induction n; intros; cbn; auto. Qed.
Lemma be_bytes_ok : forall n v, bytes_ok (be_bytes n v).
Proof.
  induction n; intros v; cbn [be_bytes]; constructor; [|apply IHn].
  change (2 ^ 8) with 256. apply N.mod_lt. lia.
Qed.

Definition beval (l : list N) : N := fold_left (fun a x => 256 * a + x) l 0.
Lemma beval_from : forall l a, fold_left (fun a x => 256 * a + x) l a =
  a * 2 ^ (8 * N.of_nat (length l)) + beval l.
Proof.
  unfold beval. induction l as [|x l IH]; intros a; cbn [fold_left length].
  - rewrite N.mul_1_r. lia.
  - rewrite (IH (256 * a + x)), (IH (256 * 0 + x)).
    replace (8 * N.of_nat (S (length l))) with (8 + 8 * N.of_nat (length l)) by lia.
    rewrite N.pow_add_r. change (2 ^ 8) with 256. ring.
Qed.
Lemma beval_cons : forall x l, beval (x :: l) = x * 2 ^ (8 * N.of_nat (length l)) + beval l.
Proof. intros. unfold beval at 1. cbn [fold_left]. rewrite beval_from. f_equal. Qed.
Lemma beval_bound : forall l, bytes_ok l -> beval l < 2 ^ (8 * N.of_nat (length l)).
Proof.
  induction l as [|x l IH]; intros H; [cbn; lia|].
  inversion H; subst. rewrite beval_cons. specialize (IH H3).
  replace (8 * N.of_nat (length (x :: l))) with (8 + 8 * N.of_nat (length l)) by (cbn [length]; lia).
  rewrite N.pow_add_r. change (2 ^ 8) with 256 in *. nia.
Qed.
Lemma be_bytes_beval : forall l, bytes_ok l -> be_bytes (length l) (beval l) = l.
Proof.
  assert (G : forall l a, bytes_ok l ->
    be_bytes (length l) (a * 2 ^ (8 * N.of_nat (length l)) + beval l) = l).
  { induction l as [|x l IH]; intros a H; [reflexivity|].
    inversion H; subst. cbn [length be_bytes]. rewrite beval_cons.
    replace (8 * N.of_nat (S (length l))) with (8 + 8 * N.of_nat (length l)) by lia.
    rewrite N.pow_add_r. change (2 ^ 8) with 256 in *.
    pose proof (beval_bound l H3) as B. set (P := 2 ^ (8 * N.of_nat (length l))) in *.
    replace (a * (256 * P) + (x * P + beval l)) with ((a * 256 + x) * P + beval l) by ring.
    f_equal.
    - rewrite N.div_add_l by lia. rewrite (N.div_small (beval l)) by auto.
      rewrite N.add_0_r, N.add_comm, N.mod_add, N.mod_small by lia. reflexivity.
    - apply IH; auto. }
  intros l H. specialize (G l 0 H). now rewrite N.mul_0_l, N.add_0_l in G.
Qed.
Lemma beval_be_bytes : forall n v, v < 2 ^ (8 * N.of_nat n) -> beval (be_bytes n v) = v.
Proof.
  assert (G : forall n v, beval (be_bytes n v) = v mod 2 ^ (8 * N.of_nat n)).
  { induction n as [|n IH]; intros v; [cbn; now rewrite N.mod_1_r|].
    cbn [be_bytes]. rewrite beval_cons, be_bytes_length, IH.
    replace (8 * N.of_nat (S n)) with (8 * N.of_nat n + 8) by lia.
    rewrite N.pow_add_r, N.mod_mul_r by (try apply N.pow_nonzero; lia).
    change (2 ^ 8) with 256. ring. }
  intros n v H. rewrite G. now apply N.mod_small.
Qed.

(** Every byte string is a sequence of complete units and a stuck tail. *)
Lemma framed_split : forall k n nz l, (length l <= k)%nat -> (0 < n)%nat -> bytes_ok l ->
  exists us t, l = framed n us ++ t /\ stuck n nz t /\
    Forall (fun u => N.of_nat (length u) < 2 ^ (8 * N.of_nat n) /\ (nz = true -> u <> [])) us.
Proof.
  induction k as [|k IH]; intros n nz l K N0 B.
  - exists [], l. split; [reflexivity|]. split; [left; lia|constructor].
  - destruct (Nat.ltb_spec (length l) n) as [L|L].
    { exists [], l. split; [reflexivity|]. split; [left; lia|constructor]. }
    set (h := firstn n l). set (b := skipn n l).
    assert (HB : l = h ++ b) by (symmetry; apply firstn_skipn).
    assert (LH : length h = n) by (apply firstn_length_le; auto).
    assert (BB : bytes_ok h /\ bytes_ok b).
    { rewrite HB in B. apply Forall_app in B. auto. }
    destruct BB as [Bh Bb].
    pose proof (be_bytes_beval h Bh) as EH. rewrite LH in EH.
    pose proof (beval_bound h Bh) as BH. rewrite LH in BH.
    set (v := beval h) in *.
    assert (SP : N.of_nat (length b) < v \/ (nz = true /\ v = 0) \/
                 (v <= N.of_nat (length b) /\ (nz = true -> v <> 0))).
    { destruct nz; [destruct (N.eq_dec v 0)|]; destruct (N.lt_ge_cases (N.of_nat (length b)) v); auto;
      right; right; split; auto; discriminate. }
    destruct SP as [SP|[SP|[SP NZ]]].
    + exists [], l. split; [reflexivity|]. split; [|constructor]. right. exists v, b. rewrite EH. auto.
    + exists [], l. split; [reflexivity|]. split; [|constructor]. right. exists v, b. rewrite EH. auto.
    + set (u := firstn (N.to_nat v) b). set (r := skipn (N.to_nat v) b).
      assert (LU : N.of_nat (length u) = v) by (unfold u; rewrite firstn_length_le by lia; lia).
      assert (UR : b = u ++ r) by (symmetry; apply firstn_skipn).
      destruct (IH n nz r) as (us & t & E & ST & F).
      * rewrite HB, UR in K. rewrite !app_length in K. lia.
      * auto.
      * rewrite UR in Bb. apply Forall_app in Bb. tauto.
      * exists (u :: us), t. split; [|split; auto].
        { cbn [framed flat_map]. fold (framed n us). rewrite LU, EH, <- !app_assoc, <- E, <- UR. auto. }
        constructor; auto. rewrite LU. split; auto. intros Z ->. apply NZ; auto.
Qed.

Lemma framed_unique : forall n nz us us' t t', (0 < n)%nat ->
  Forall (fun u => N.of_nat (length u) < 2 ^ (8 * N.of_nat n) /\ (nz = true -> u <> [])) us ->
  Forall (fun u => N.of_nat (length u) < 2 ^ (8 * N.of_nat n) /\ (nz = true -> u <> [])) us' ->
  stuck n nz t -> stuck n nz t' -> framed n us ++ t = framed n us' ++ t' -> us = us' /\ t = t'.
Proof.
  intros n nz us us' t t' N0.
  assert (AP : forall (a b c d : list N), length a = length c -> a ++ b = c ++ d -> a = c /\ b = d).
  { induction a as [|x a IH]; intros b [|y c] d L E; try discriminate L; auto.
    injection E as -> E. injection L as L. destruct (IH b c d L E). subst. auto. }
  assert (NS : forall u us t t', N.of_nat (length u) < 2 ^ (8 * N.of_nat n) -> (nz = true -> u <> []) ->
    stuck n nz t' -> framed n (u :: us) ++ t = t' -> False).
  { intros u us0 t0 t1 H1 H2 ST E. cbn [framed flat_map] in E. rewrite <- !app_assoc in E.
    destruct ST as [ST|(v & b & -> & V & ST)].
    - rewrite <- E, app_length, be_bytes_length in ST. lia.
    - apply AP in E; [|now rewrite !be_bytes_length]. destruct E as [E1 E2].
      apply (f_equal beval) in E1. rewrite !beval_be_bytes in E1 by auto. subst v.
      destruct ST as [ST|[-> ST]].
      + rewrite <- E2, app_length in ST. lia.
      + destruct u; [apply H2; auto|cbn in ST; lia]. }
  revert us'. induction us as [|u us IH]; intros [|u' us'] F F' S S' E.
  - auto.
  - exfalso. inversion F'; subst. destruct H1. symmetry in E. cbn [framed flat_map app] in E.
    eapply NS with (t' := t); eauto.
  - exfalso. inversion F; subst. destruct H1. cbn [framed flat_map app] in E.
    eapply NS with (t' := t'); eauto.
  - inversion F; inversion F'; subst. destruct H1, H5.
    cbn [framed flat_map] in E. rewrite <- !app_assoc in E.
    apply AP in E; [|now rewrite !be_bytes_length]. destruct E as [E1 E2].
    apply (f_equal beval) in E1. rewrite !beval_be_bytes in E1 by auto.
    apply AP in E2; [|lia]. destruct E2 as [-> E2].
    destruct (IH us' H2 H6 S S' E2). subst. auto.
Qed.
