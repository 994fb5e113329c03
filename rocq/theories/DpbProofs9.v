(** Proofs about the lists of B pictures (C76). *)
From Coq Require Import NArith ZArith List Bool Lia ZifyBool ZifyNat ZifyN String Ascii Sorting.Sorted Sorting.Permutation.
From Verif Require Import SpecBits Base TypesSliceHeader SpecVui SpecSliceParts SpecSlice Dump Dpb DpbProofs3 DpbProofs4 DpbProofs5 SpecDpb DpbProofs6 DpbProofs7 SpecDpbB.
Import ListNotations.
Open Scope N_scope.
Open Scope list_scope.

(** The script treats the types 0 and 1 in the same way. *)
Lemma refs_eq_b : forall M c dpb xs l, let v := pc_slice c in let cur := frame_num (s_pic v) in
  s_type v = 1 -> cur < M -> distinct cur (map ref_of dpb) -> (forall cs, s_rpl0 v = Some cs -> Forall (cmd_in_range M) cs) -> NoDup xs ->
  list_of M cur (map ref_of dpb) (N.to_nat (active_refs c)) (s_rpl0 v) xs l ->
  exists r, refs_of (Z.of_N M) (pict_frame c) dpb = Ok r /\ map ref_of r = l.
Proof.
  intros M c dpb xs l v cur T CM DI RC ND (l0 & I0 & LO). unfold refs_of. destruct dpb as [|e dpb'] eqn:ED.
  { exists []. split; [reflexivity|]. destruct I0 as (a & b & -> & PA & _ & PB & _). cbn [map filter] in PA, PB.
    apply Permutation_sym, Permutation_nil in PA. apply Permutation_sym, Permutation_nil in PB. subst a b. cbn [app map] in *. rewrite firstn_nil in LO.
    destruct (s_rpl0 v) as [cs|]; [|destruct LO as [_ ->]; reflexivity]. inversion LO as [|? ? ? ? ? ? ? ? IX]; subst; [reflexivity|destruct IX]. }
  rewrite <- ED in *. clear ED e dpb'. replace (f_slice_type (pict_frame c)) with 1 by (symmetry; exact T). cbn [N.eqb Pos.eqb orb].
  pose proof (initial_eq M cur dpb l0 (proj1 DI) I0) as E0.
  change (f_num_ref_idx_l0_active (pict_frame c)) with (active_refs c). change (f_frame_num (pict_frame c)) with cur.
  change (s_rpl0 (pc_slice c)) with (s_rpl0 v) in *. destruct (s_rpl0 v) as [cs|] eqn:ER.
  - destruct (frame_rplm c cs ER) as (t1 & t2 & t3 & -> & -> & ->).
    replace (f_rplm_l0 (pict_frame c)) with 1 by (unfold pict_frame, frame_of; cbn [f_rplm_l0]; unfold v in ER; rewrite ER; reflexivity). cbn [N.eqb].
    destruct (modify_eq M cur dpb (N.to_nat (active_refs c)) CM DI cs (Z.of_N cur) 0 (firstn (N.to_nat (active_refs c)) l0) xs l LO (RC cs eq_refl)) with (F := build_ref_pic_list0 dpb) (done := @nil refpic) (t1 := t1) (t2 := t2) (t3 := t3) as (l' & EL & EE).
    + lia.
    + apply build_perm.
    + rewrite E0. reflexivity.
    + reflexivity.
    + reflexivity.
    + exact ND.
    + rewrite EL. cbn [rbind]. eexists. split; [reflexivity|]. rewrite <- EE. rewrite firstn_map. reflexivity.
  - replace (f_rplm_l0 (pict_frame c)) with 0 by (unfold pict_frame, frame_of; cbn [f_rplm_l0]; unfold v in ER; rewrite ER; reflexivity). cbn [N.eqb rbind].
    eexists. split; [reflexivity|]. destruct LO as [_ ->]. rewrite <- E0. rewrite firstn_map. reflexivity.
Qed.
(** A B picture gets the list of a P picture. *)
Definition list_as_p (M : N) (c : pict) (r : drow) : Prop :=
  let v := pc_slice c in let cur := frame_num (s_pic v) in let refs := map ref_of (t_before r) in
  s_type v = 1 -> cur < M -> distinct cur refs -> (forall cs, s_rpl0 v = Some cs -> Forall (cmd_in_range M) cs) ->
  forall xs l, NoDup xs -> list_of M cur refs (N.to_nat (active_refs c)) (s_rpl0 v) xs l -> map ref_of (t_refs_used r) = l.
Lemma simulate_lists_b : forall M max ps abs gop gf dpb rows, simulate_from (Z.of_N M) max (map pict_frame ps) abs gop gf dpb = Ok rows ->
  Forall2 (list_as_p M) ps rows.
Proof.
  intros M max ps. induction ps as [|c ps IH]; intros abs gop gf dpb rows H; cbn [map simulate_from] in H; [injection H as <-; constructor|].
  destruct (refs_of (Z.of_N M) (pict_frame c) _) as [r| | | |] eqn:ER; try discriminate. cbn [rbind] in H.
  destruct (mmco_str (pict_frame c)) as [s| | | |]; try discriminate. cbn [rbind] in H.
  destruct (update_dpb max abs (pict_frame c) _) as [l| | | |]; try discriminate. cbn [rbind] in H.
  destruct (simulate_from _ max (map pict_frame ps) _ _ _ _) as [rs| | | |] eqn:E; try discriminate. cbn [rbind] in H.
  injection H as <-. constructor; [|exact (IH _ _ _ _ _ E)].
  unfold list_as_p. cbv zeta. intros T CM DI RC xs l' ND LO. cbn [t_before t_refs_used] in *.
  destruct (refs_eq_b M c _ xs l' T CM DI RC ND LO) as (r' & E1 & E2). rewrite ER in E1. injection E1 as <-. exact E2.
Qed.

(** The list of a B picture is right if all short-term frames are shown before it, in order. *)
Lemma initial_b : forall poc cnt M cur refs l, distinct cur refs -> shown_before poc cnt M cur refs -> initial_list_b poc cnt refs l -> initial_list M cur refs l.
Proof.
  intros poc cnt M cur refs l (F & ND & _ & _) (SB & SO) (a & b & c & -> & PA & SA & PB & SSB & PC & SC). exists a, c.
  assert (EB : filter (fun e => is_short e && (cnt <? poc e)%Z) refs = []).
  { clear - SB. induction SB as [|e refs H SB IH]; [reflexivity|]. cbn [filter]. destruct (is_short e); [|exact IH]. specialize (H eq_refl).
    destruct (Z.ltb_spec cnt (poc e)); [lia|exact IH]. }
  assert (EA : filter (fun e => is_short e && (poc e <? cnt)%Z) refs = filter is_short refs).
  { clear - SB. induction SB as [|e refs H SB IH]; [reflexivity|]. cbn [filter]. destruct (is_short e); [|exact IH]. specialize (H eq_refl).
    destruct (Z.ltb_spec (poc e) cnt); [|lia]. cbn [andb]. rewrite IH. reflexivity. }
  rewrite EB in PB. apply Permutation_sym, Permutation_nil in PB. subst b. rewrite EA in PA. cbn [app].
  split; [reflexivity|]. split; [exact PA|]. split; [|split; [exact PC|exact SC]].
  eapply StronglySorted_impl; [|exact SA]. intros x y IX IY R. cbv beta in *.
  apply (Permutation_in _ PA) in IX. apply (Permutation_in _ PA) in IY.
  pose proof (proj1 (filter_In _ _ _) IX) as [IX1 SX]. pose proof (proj1 (filter_In _ _ _) IY) as [IY1 SY].
  rewrite Forall_forall in F. pose proof (F x IX1 SX). pose proof (F y IY1 SY).
  assert (EX : pic_num M cur x = Z.of_N (r_num x)) by (unfold pic_num; destruct (N.ltb_spec cur (r_num x)); [lia|reflexivity]).
  assert (EY : pic_num M cur y = Z.of_N (r_num y)) by (unfold pic_num; destruct (N.ltb_spec cur (r_num y)); [lia|reflexivity]).
  destruct (Z.lt_trichotomy (pic_num M cur x) (pic_num M cur y)) as [LT|[EQ|GT]]; [|exfalso|exact GT].
  - pose proof (SO x y IX1 IY1 SX SY LT). lia.
  - assert (x = y) by (apply (unique_by _ r_num (filter is_short refs)); [exact ND|exact IX|exact IY|lia]). subst y. lia.
Qed.
Lemma list_b : forall poc cnt M cur refs n cs xs l, distinct cur refs -> shown_before poc cnt M cur refs -> list_of_b poc cnt M cur refs n cs xs l -> list_of M cur refs n cs xs l.
Proof. intros poc cnt M cur refs n cs xs l D SB (l0 & I0 & H). exists l0. split; [exact (initial_b _ _ _ _ _ _ D SB I0)|exact H]. Qed.

(** The first entry of a list without commands *)
Lemma initial_b_head : forall poc cnt refs l y, In y refs -> is_short y = true -> (poc y < cnt)%Z -> initial_list_b poc cnt refs l ->
  exists z t, l = z :: t /\ (poc z < cnt)%Z.
Proof.
  intros poc cnt refs l y IY SY LY (a & b & c & -> & PA & _). destruct a as [|z a].
  - exfalso. apply Permutation_nil in PA. apply (in_nil (a := y)). rewrite <- PA. apply filter_In. split; [exact IY|]. rewrite SY. lia.
  - exists z, (a ++ b ++ c). split; [reflexivity|]. assert (I : In z (z :: a)) by (left; reflexivity). apply (Permutation_in _ PA), filter_In in I. lia.
Qed.
Lemma initial_head : forall M cur refs l x, In x refs -> is_short x = true -> NoDup (map r_num (filter is_short refs)) ->
  Forall (fun e => is_short e = true -> r_num e <= cur) refs ->
  Forall (fun e => is_short e = true -> (pic_num M cur e <= pic_num M cur x)%Z) refs -> initial_list M cur refs l -> exists t, l = x :: t.
Proof.
  intros M cur refs l x IX SX ND F MX (a & b & -> & PA & SA & _).
  assert (IA : In x a) by (apply (Permutation_in _ (Permutation_sym PA)), filter_In; auto).
  destruct a as [|z a]; [destruct IA|]. assert (z = x); [|subst z; exists (a ++ b); reflexivity]. destruct IA as [E|IA]; [exact E|].
  inversion SA as [|? ? _ FA]; subst. rewrite Forall_forall in FA, MX. specialize (FA x IA).
  assert (IZ : In z (z :: a)) by (left; reflexivity). apply (Permutation_in _ PA), filter_In in IZ. pose proof (MX z (proj1 IZ) (proj2 IZ)). lia.
Qed.
(** The initial list of a P picture exists. *)
Lemma sorted_strict : forall A (key : A -> N) (f : N -> Z) l, (forall m n, f m = f n -> m = n) -> StronglySorted (fun x y => (f (key x) <= f (key y))%Z) l -> NoDup (map key l) ->
  StronglySorted (fun x y => (f (key x) < f (key y))%Z) l.
Proof.
  intros A key f l INJ SS. induction SS as [|x l SS IH F]; intros D; [constructor|]. cbn [map] in D. inversion D as [|? ? D1 D2]; subst. constructor; [exact (IH D2)|].
  rewrite Forall_forall in *. intros y IY. specialize (F y IY). cbv beta in *. assert (f (key x) <> f (key y)); [|lia].
  intros E. apply D1. rewrite (INJ _ _ E). apply in_map, IY.
Qed.
Lemma initial_exists : forall M cur dpb, distinct cur (map ref_of dpb) -> initial_list M cur (map ref_of dpb) (map ref_of (build_ref_pic_list0 dpb)).
Proof.
  intros M cur dpb (F & D1 & D2 & _). unfold build_ref_pic_list0. rewrite map_app. eexists. eexists. split; [reflexivity|].
  assert (P1 : Permutation (map ref_of (sorted_by (fun x y => d_num y <=? d_num x) (filter short dpb))) (filter is_short (map ref_of dpb))).
  { eapply perm_trans; [apply Permutation_map, sorted_perm|]. rewrite filter_map. apply Permutation_refl. }
  assert (P2 : Permutation (map ref_of (sorted_by (fun x y => or_zero (d_ltr x) <=? or_zero (d_ltr y)) (filter (fun e => negb (short e)) dpb))) (filter (fun e => negb (is_short e)) (map ref_of dpb))).
  { eapply perm_trans; [apply Permutation_map, sorted_perm|]. rewrite filter_map. apply Permutation_refl. }
  split; [exact P1|]. split; [|split; [exact P2|]].
  - eapply StronglySorted_impl; [|apply (sorted_strict _ r_num (fun n => - Z.of_N n)%Z)].
    + intros x y IX IY H. cbv beta in *. apply (Permutation_in _ P1), filter_In in IX. apply (Permutation_in _ P1), filter_In in IY. rewrite Forall_forall in F.
      rewrite (no_wrap M cur x), (no_wrap M cur y) by (try apply F; tauto). lia.
    + intros. lia.
    + apply StronglySorted_map, (sorted_sorted (fun e => - Z.of_N (d_num e))%Z). intros. lia.
    + eapply Permutation_NoDup; [apply Permutation_map, Permutation_sym, P1|exact D1].
  - eapply StronglySorted_impl; [|apply (sorted_strict _ long_idx (fun n => Z.of_N n)%Z)].
    + intros x y _ _ H. cbv beta in *. lia.
    + intros. lia.
    + apply StronglySorted_map, (sorted_sorted (fun e => Z.of_N (or_zero (d_ltr e)))). intros. lia.
    + eapply Permutation_NoDup; [apply Permutation_map, Permutation_sym, P2|exact D2].
Qed.
(** The list is wrong if the frame that was decoded last is shown after the B picture. *)
Lemma wrong_b : forall M c r poc cnt, let v := pc_slice c in let cur := frame_num (s_pic v) in let refs := map ref_of (t_before r) in
  list_as_p M c r -> s_type v = 1 -> cur < M -> distinct cur refs -> s_rpl0 v = None -> last_shown_after poc cnt M cur refs ->
  forall xs l, list_of_b poc cnt M cur refs (N.to_nat (active_refs c)) None xs l -> map ref_of (t_refs_used r) <> l.
Proof.
  intros M c r poc cnt v cur refs LP T CM DI RN (x & y & IX & SX & LX & MX & IY & SY & LY) xs l (l0 & I0 & _ & ->).
  assert (LO : list_of M cur refs (N.to_nat (active_refs c)) (s_rpl0 v) [] (firstn (N.to_nat (active_refs c)) (map ref_of (build_ref_pic_list0 (t_before r))))).
  { rewrite RN. exists (map ref_of (build_ref_pic_list0 (t_before r))). split; [exact (initial_exists M cur _ DI)|auto]. }
  rewrite (LP T CM DI (fun cs H => ltac:(fold v in H; rewrite RN in H; discriminate)) [] _ (NoDup_nil _) LO).
  destruct (initial_b_head _ _ _ _ _ IY SY LY I0) as (z & t & -> & LZ).
  destruct (initial_head M cur refs _ x IX SX (proj1 (proj2 DI)) (proj1 DI) MX (initial_exists M cur _ DI)) as (t' & ->).
  assert (exists m, N.to_nat (active_refs c) = S m) as (m & ->) by (exists (N.to_nat (active_refs c) - 1)%nat; unfold active_refs; lia).
  cbn [firstn]. intros E. injection E as -> _. lia.
Qed.
