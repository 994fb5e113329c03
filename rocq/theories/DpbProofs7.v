(** h264nal-dpb_parse.py: streams with the sliding window only, and the reference lists. *)
From Coq Require Import NArith ZArith List Bool Lia ZifyBool ZifyNat ZifyN String Sorting.Sorted Sorting.Permutation.
From Verif Require Import SpecBits Base TypesSliceHeader SpecVui SpecSliceParts SpecSlice Dump Dpb DpbProofs3 DpbProofs4 DpbProofs5 SpecDpb DpbProofs6.
Import ListNotations.
Open Scope N_scope.
Open Scope list_scope.
Ltac Zify.zify_post_hook ::= Z.div_mod_to_equations.

(** ** The sliding window *)
Section window.
  Context (M max : N) (M1 : 1 <= max) (MM : max < M).
  Fixpoint in_run (b : N) (l : list refpic) : Prop :=
    match l with [] => True | x :: t => is_short x = true /\ r_num x = b mod M /\ in_run (b + 1) t end.
  Lemma run_app : forall l b x, in_run b l -> is_short x = true -> r_num x = (b + N.of_nat (List.length l)) mod M -> in_run b (l ++ [x]).
  Proof.
    induction l as [|y l IH]; intros b x R S E; cbn [app in_run List.length] in *.
    - rewrite N.add_0_r in E. auto.
    - destruct R as (R1 & R2 & R3). split; [exact R1|]. split; [exact R2|]. apply IH; auto. rewrite E. f_equal. lia.
  Qed.
  Lemma run_short : forall l b, in_run b l -> Forall (fun x => is_short x = true) l.
  Proof. induction l as [|x l IH]; intros b R; [constructor|]. destruct R as (R1 & _ & R). constructor; eauto. Qed.
  Lemma run_sorted : forall l b e, in_run b l -> e = (b + N.of_nat (List.length l)) mod M -> N.of_nat (List.length l) < M ->
    StronglySorted Z.lt (map (pic_num M e) l) /\ Forall (fun z => (Z.of_N e - Z.of_N (N.of_nat (List.length l)) <= z)%Z) (map (pic_num M e) l).
  Proof.
    induction l as [|x l IH]; intros b e R E L; cbn [map]; [split; constructor|]. cbn [in_run List.length] in *. destruct R as (R1 & R2 & R3).
    destruct (IH (b + 1) e R3) as [SS F]; [rewrite E; f_equal; lia|lia|].
    assert (X : pic_num M e x = (Z.of_N e - Z.of_N (N.of_nat (S (List.length l))))%Z).
    { unfold pic_num. rewrite R2. remember (N.of_nat (S (List.length l))) as j.
      assert (D : (b + j) mod M = if b mod M + j <? M then b mod M + j else b mod M + j - M).
      { pose proof (N.mod_upper_bound b M). rewrite <- N.add_mod_idemp_l by lia. destruct (N.ltb_spec (b mod M + j) M); [apply N.mod_small; assumption|].
        rewrite <- (N.mod_small (b mod M + j - M) M) by lia. rewrite <- (N.mod_add (b mod M + j - M) 1 M) by lia. f_equal. lia. }
      rewrite E, D. pose proof (N.mod_upper_bound b M). destruct (N.ltb_spec (b mod M + j) M); match goal with |- context [?x <? ?y] => destruct (N.ltb_spec x y) end; lia. }
    split; constructor; auto.
    - eapply Forall_impl; [|exact F]. intros z H. cbv beta in H. rewrite X. lia.
    - rewrite X. lia.
    - eapply Forall_impl; [|exact F]. intros z H. cbv beta in H. lia.
  Qed.
  Definition window (e : N) (refs : list refpic) : Prop :=
    exists L S b, refs = L ++ S /\ filter is_short L = [] /\ N.of_nat (List.length L) < max /\ in_run b S /\
      N.of_nat (List.length refs) <= max /\ e = (b + N.of_nat (List.length S)) mod M.
  Definition sliding_only (c : cpic) : Prop :=
    match c_marking c with
    | Some (IdrMarking _ b) => b = 0 \/ 2 <= max
    | Some (Marking (Some _)) => False
    | _ => True
    end.
  Lemma window_step : forall e id c refs, window e refs -> sliding_only c -> c_marking c = Some (Marking None) -> c_num c = e ->
    exists s, next M max id c refs s /\ window ((e + 1) mod M) s /\ plain M max c refs.
  Proof.
    intros e id c refs (L & S & b & E & LL & L1 & R & LE & EE) SO K C. unfold next, plain. rewrite K. rewrite C.
    assert (LS : N.of_nat (List.length S) < M) by (subst refs; rewrite app_length in LE; lia).
    assert (FS : filter is_short S = S) by (apply filter_all, (run_short S b R)).
    destruct (run_sorted S b e R EE LS) as [SS SF].
    assert (O : in_order M e refs) by (unfold in_order; subst refs; rewrite filter_app, LL, FS; exact SS).
    assert (EN : (e + 1) mod M = (b + N.of_nat (List.length S) + 1) mod M) by (rewrite EE, N.add_mod_idemp_l by lia; reflexivity).
    assert (EX : exists r, slid M max e refs r /\ window ((e + 1) mod M) (r ++ [mkref e None id])).
    { unfold slid. replace (N.max max 1) with max by lia. destruct (N.ltb_spec (N.of_nat (List.length refs)) max) as [H|H].
      - exists refs. split; [reflexivity|]. exists L, (S ++ [mkref e None id]), b. subst refs. rewrite app_assoc. split; [reflexivity|]. split; [exact LL|]. split; [exact L1|].
        split; [apply run_app; auto|]. rewrite app_length in *. cbn [List.length] in *. split; [rewrite app_length; lia|]. rewrite EN. f_equal. rewrite app_length. cbn [List.length]. lia.
      - destruct S as [|x S]; [subst refs; rewrite app_nil_r in *; lia|]. exists (L ++ S). cbn [in_run] in R. destruct R as (R1 & R2 & R3). split.
        + exists L, x, S. split; [exact E|]. split; [reflexivity|]. split; [exact R1|]. subst refs. apply Forall_forall. intros y IY SY.
          assert (IY' : In y (x :: S)).
          { apply in_app_or in IY. destruct IY as [IY|IY]; [|exact IY]. exfalso. assert (In y (filter is_short L)) by (apply filter_In; auto). rewrite LL in *. auto. }
          destruct IY' as [->|IY']; [lia|]. cbn [map] in SS. inversion SS as [|? ? _ SX]; subst. rewrite Forall_forall in SX.
          specialize (SX (pic_num M ((b + N.of_nat (List.length (x :: S))) mod M) y)). apply Z.lt_le_incl, SX, in_map, IY'.
        + exists L, (S ++ [mkref e None id]), (b + 1). rewrite app_assoc. split; [reflexivity|]. split; [exact LL|]. split; [exact L1|]. cbn [List.length] in *.
          split; [apply run_app; auto; cbn [r_num]; rewrite EE; f_equal; lia|].
          subst refs. rewrite !app_length in *. cbn [List.length] in *. split; [lia|]. rewrite EN. f_equal. lia. }
    destruct EX as (r & H1 & H2). exists (r ++ [mkref e None id]). split; [eauto|]. split; [exact H2|]. auto.
  Qed.
  Lemma window_states : forall cs e id refs, window e refs -> numbered M e cs -> Forall sliding_only cs ->
    exists ss, states M max id refs cs ss /\ all_plain M max refs cs ss.
  Proof.
    induction cs as [|c cs IH]; intros e id refs W NU F; [exists []; split; exact I|].
    apply Forall_cons_iff in F. destruct F as [F1 F]. cbn [numbered] in NU. destruct (c_marking c) as [[a b|[ops|]]|] eqn:K.
    - destruct NU as [NU1 NU].
      assert (W' : window 1 [mkref (c_num c) (if b =? 0 then None else Some 0) id]).
      { unfold sliding_only in F1. rewrite K in F1. rewrite NU1. destruct (N.eqb_spec b 0) as [B|B].
        - exists [], [mkref 0 None id], 0. cbn. repeat split; try lia. rewrite N.mod_small; lia.
        - exists [mkref 0 (Some 0) id], [], 1. cbn. repeat split; try lia. rewrite N.mod_small; lia. }
      destruct (IH 1 (id + 1) _ W' NU F) as (ss & S1 & S2). eexists (_ :: ss). cbn [states all_plain]. unfold next at 1, plain at 1. rewrite K. split; (split; [|eassumption]); auto.
    - unfold sliding_only in F1. rewrite K in F1. destruct F1.
    - destruct NU as [NU1 NU]. destruct (window_step e id c refs W F1 K NU1) as (s & H1 & H2 & H3).
      destruct (IH _ (id + 1) s H2 NU F) as (ss & S1 & S2). exists (s :: ss). cbn [states all_plain]. auto.
    - destruct NU as [NU1 NU]. destruct (IH _ (id + 1) refs W NU F) as (ss & S1 & S2). exists (refs :: ss). cbn [states all_plain]. unfold next at 1, plain at 1. rewrite K. auto.
  Qed.
End window.

(** ** Lists *)
Lemma insert_perm : forall le x l, Permutation (insert_by le x l) (x :: l).
Proof.
  induction l as [|y l IH]; cbn [insert_by]; [apply Permutation_refl|]. destruct (le x y); [apply Permutation_refl|].
  eapply perm_trans; [apply perm_skip, IH|apply perm_swap].
Qed.
Lemma sorted_perm : forall le l, Permutation (sorted_by le l) l.
Proof. induction l as [|x l IH]; cbn [sorted_by fold_right]; [constructor|]. eapply perm_trans; [apply insert_perm|]. apply perm_skip, IH. Qed.
Section sort.
  Context (key : dent -> Z) (le : dent -> dent -> bool) (LE : forall x y, le x y = (key x <=? key y)%Z).
  Let ord := StronglySorted (fun x y => (key x <= key y)%Z).
  Lemma insert_sorted : forall x l, ord l -> ord (insert_by le x l).
  Proof.
    unfold ord. intros x l S. induction S as [|y l S IH F]; cbn [insert_by]; [repeat constructor|]. rewrite LE. destruct (Z.leb_spec (key x) (key y)).
    - constructor; [constructor; assumption|]. constructor; [assumption|]. eapply Forall_impl; [|exact F]. intros z H1. cbv beta in *. lia.
    - constructor; [exact IH|]. eapply Permutation_Forall; [apply Permutation_sym, insert_perm|]. constructor; [lia|exact F].
  Qed.
  Lemma sorted_sorted : forall l, ord (sorted_by le l).
  Proof. induction l as [|x l IH]; cbn [sorted_by fold_right]; [constructor|]. apply insert_sorted, IH. Qed.
End sort.
Lemma sorted_unique : forall (key : refpic -> Z) s a,
  StronglySorted (fun x y => (key x <= key y)%Z) s -> StronglySorted (fun x y => (key x < key y)%Z) a -> Permutation s a -> s = a.
Proof.
  intros key s a. revert s. induction a as [|x a IH]; intros s S A P; [apply Permutation_sym, Permutation_nil in P; exact P|].
  destruct s as [|y s]; [apply Permutation_nil in P; discriminate|]. inversion S as [|? ? S1 S2]; inversion A as [|? ? A1 A2]; subst.
  assert (y = x).
  { assert (IY : In y (x :: a)) by (eapply Permutation_in; [exact P|left; reflexivity]). destruct IY as [IY|IY]; [auto|].
    assert (IX : In x (y :: s)) by (eapply Permutation_in; [apply Permutation_sym, P|left; reflexivity]). destruct IX as [IX|IX]; [auto|].
    rewrite Forall_forall in S2, A2. specialize (S2 x IX). specialize (A2 y IY). cbv beta in *. lia. }
  subst y. f_equal. apply IH; auto. eapply Permutation_cons_inv, P.
Qed.
Lemma StronglySorted_map : forall A B (f : A -> B) (R : B -> B -> Prop) l, StronglySorted (fun x y => R (f x) (f y)) l -> StronglySorted R (map f l).
Proof. intros A B f R l S. induction S as [|x l S IH F]; cbn [map]; constructor; auto. apply Forall_map. exact F. Qed.
Lemma StronglySorted_impl : forall A (P Q : A -> A -> Prop) l, (forall x y, In x l -> In y l -> P x y -> Q x y) -> StronglySorted P l -> StronglySorted Q l.
Proof.
  intros A P Q l H S. induction S as [|x l S IH F]; constructor.
  - apply IH. intros a b IA IB. apply H; right; assumption.
  - rewrite Forall_forall in *. intros y IY. apply H; [left; reflexivity|right; exact IY|apply F, IY].
Qed.
Lemma initial_eq : forall M cur dpb l, Forall (fun e => is_short e = true -> r_num e <= cur) (map ref_of dpb) -> initial_list M cur (map ref_of dpb) l ->
  map ref_of (build_ref_pic_list0 dpb) = l.
Proof.
  intros M cur dpb l F (a & b & -> & PA & SA & PB & SB). unfold build_ref_pic_list0. rewrite map_app. f_equal.
  - apply (sorted_unique (fun e => - Z.of_N (r_num e))%Z).
    + apply StronglySorted_map, (sorted_sorted (fun e => - Z.of_N (d_num e))%Z). intros. lia.
    + eapply StronglySorted_impl; [|exact SA]. intros x y IX IY H. cbv beta in *.
      apply (Permutation_in _ PA), filter_In in IX. apply (Permutation_in _ PA), filter_In in IY. rewrite Forall_forall in F.
      rewrite (no_wrap M cur x), (no_wrap M cur y) in H by (try apply F; tauto). lia.
    + eapply perm_trans; [apply Permutation_map, sorted_perm|]. eapply perm_trans; [|apply Permutation_sym, PA]. rewrite filter_map. apply Permutation_refl.
  - apply (sorted_unique (fun e => Z.of_N (long_idx e))).
    + apply StronglySorted_map, (sorted_sorted (fun e => Z.of_N (or_zero (d_ltr e)))). intros. lia.
    + eapply StronglySorted_impl; [|exact SB]. intros x y _ _ H. cbv beta in *. lia.
    + eapply perm_trans; [apply Permutation_map, sorted_perm|]. eapply perm_trans; [|apply Permutation_sym, PB]. rewrite filter_map. apply Permutation_refl.
Qed.
Lemma build_perm : forall dpb, Permutation (build_ref_pic_list0 dpb) dpb.
Proof.
  intros dpb. unfold build_ref_pic_list0. eapply perm_trans; [apply Permutation_app; apply sorted_perm|].
  induction dpb as [|x l IH]; [constructor|]. cbn [filter]. destruct (short x); cbn [negb app]; [apply perm_skip, IH|].
  eapply perm_trans; [apply Permutation_sym, Permutation_middle|]. apply perm_skip, IH.
Qed.
(** *** Moving *)
Lemma take_first_split : forall f l p x q, l = p ++ x :: q -> f x = true -> Forall (fun y => f y = false) p -> take_first f l = Some (x, p ++ q).
Proof.
  intros f l p x q -> X F. induction F as [|y p H F IH]; cbn [app take_first]; [rewrite X; reflexivity|]. rewrite H, IH. reflexivity.
Qed.
Lemma filter_first : forall x q m p, NoDup (map r_id (p ++ x :: q)) ->
  firstn m (filter (fun e => negb (r_id e =? r_id x)) (firstn (S m) (p ++ x :: q))) = firstn m (p ++ q).
Proof.
  intros x q m p. revert m. induction p as [|y p IH]; intros m D; cbn [app map] in *.
  - inversion D as [|? ? D1 D2]; subst. cbn [firstn filter]. rewrite N.eqb_refl. cbn [negb].
    rewrite filter_all, firstn_firstn, Nat.min_id; [reflexivity|]. apply Forall_forall. intros z IZ. destruct (N.eqb_spec (r_id z) (r_id x)) as [E|E]; [|reflexivity].
    exfalso. apply D1. rewrite <- E. apply in_map. rewrite <- (firstn_skipn m q). apply in_or_app. left. exact IZ.
  - inversion D as [|? ? D1 D2]; subst. destruct m as [|m]; [reflexivity|]. cbn [firstn filter].
    destruct (N.eqb_spec (r_id y) (r_id x)) as [E|E].
    + exfalso. apply D1. rewrite E. apply in_map, in_or_app. right. left. reflexivity.
    + cbn [negb firstn]. f_equal. apply (IH m D2).
Qed.
Lemma put_eq : forall n idx x p1 p2 q, List.length p1 = idx -> NoDup (map r_id (p1 ++ p2 ++ x :: q)) ->
  put n idx x (firstn n (p1 ++ p2 ++ x :: q)) = firstn n (p1 ++ x :: p2 ++ q).
Proof.
  intros n idx x p1 p2 q <- D. unfold put. destruct (Nat.leb_spec n (List.length p1)) as [H|H].
  - rewrite firstn_firstn, Nat.min_r by lia. rewrite (firstn_app n p1). replace (n - List.length p1)%nat with 0%nat by lia. rewrite firstn_O, app_nil_r.
    rewrite (firstn_app n p1). replace (n - List.length p1)%nat with 0%nat by lia. rewrite firstn_O, app_nil_r.
    rewrite firstn_app, firstn_firstn, Nat.min_id. rewrite firstn_length, Nat.min_l by lia. rewrite Nat.sub_diag, firstn_O, app_nil_r. reflexivity.
  - assert (exists m, n = (List.length p1 + S m)%nat) as (m & ->) by (exists (n - List.length p1 - 1)%nat; lia).
    rewrite (firstn_app_2 (S m) p1 (p2 ++ x :: q)). rewrite (firstn_app (List.length p1) p1), firstn_all, Nat.sub_diag, firstn_O, app_nil_r.
    rewrite (skipn_app (List.length p1) p1), skipn_all, Nat.sub_diag. cbn [app]. rewrite skipn_O. rewrite !firstn_app_2. cbn [firstn]. f_equal. f_equal.
    apply filter_first. clear - D. induction p1 as [|y p1 IH]; [exact D|]. inversion D; auto.
Qed.
Lemma unique_by : forall A (k : A -> N) l x y, NoDup (map k l) -> In x l -> In y l -> k x = k y -> x = y.
Proof.
  intros A k l x y D. induction l as [|z l IH]; intros IX IY E; [destruct IX|]. cbn [map] in D. inversion D as [|? ? D1 D2]; subst.
  destruct IX as [->|IX], IY as [->|IY]; auto; exfalso; apply D1; [rewrite E|rewrite <- E]; apply in_map; assumption.
Qed.
Section lists.
  Context (M cur : N) (dpb : list dent) (n : nat) (C : cur < M) (DI : distinct cur (map ref_of dpb)).
  Let refs := map ref_of dpb.
  Definition finder (pred' : Z) (c : rpl_cmd) (e : dent) : bool :=
    match c with LongTermPic i => long_at i e | _ => short e && num_is pred' e end.
  Lemma pred_mod : forall pred c, (0 <= pred < Z.of_N M)%Z -> cmd_in_range M c ->
    (0 <= pred_next M pred c < Z.of_N M)%Z /\
    match c with
    | SubPicNum d => ((pred - (Z.of_N d + 1)) mod Z.of_N M = pred_next M pred c)%Z
    | AddPicNum d => ((pred + (Z.of_N d + 1)) mod Z.of_N M = pred_next M pred c)%Z
    | LongTermPic _ => True
    end.
  Proof.
    intros pred c R K. destruct c as [d|d|i]; cbn [pred_next cmd_in_range] in *; cbv zeta; [| |auto].
    - destruct (Z.ltb_spec (pred - (Z.of_N d + 1)) 0); (split; [lia|]).
      + symmetry. apply (Z.mod_unique _ _ (-1)); lia.
      + apply Z.mod_small. lia.
    - destruct (Z.leb_spec (Z.of_N M) (pred + (Z.of_N d + 1))); (split; [lia|]).
      + symmetry. apply (Z.mod_unique _ _ 1); lia.
      + apply Z.mod_small. lia.
  Qed.
  Lemma find_named : forall pred' c x, (0 <= pred' < Z.of_N M)%Z -> In x dpb -> named M cur pred' c (ref_of x) ->
    finder pred' c x = true /\ forall y, In y dpb -> finder pred' c y = true -> y = x.
  Proof.
    intros pred' c x R IX NM. destruct DI as (F & D1 & D2 & _).
    assert (SH : is_short (ref_of x) = true -> pic_num M cur (ref_of x) = (if Z.of_N cur <? pred' then pred' - Z.of_N M else pred')%Z ->
                 (short x && num_is pred' x = true) /\ forall y, In y dpb -> short y && num_is pred' y = true -> y = x).
    { intros SX PX. rewrite no_wrap in PX; [|rewrite Forall_forall in F; apply F, in_map, IX|exact SX]. cbn [ref_of r_num] in PX.
      assert (EX : Z.of_N (d_num x) = pred') by (destruct (Z.ltb_spec (Z.of_N cur) pred'); lia).
      change (is_short (ref_of x)) with (short x) in SX. rewrite SX. unfold num_is. split; [lia|].
      intros y IY E. apply andb_true_iff in E. destruct E as [SY E].
      rewrite filter_map, map_map in D1. cbn [ref_of r_num] in D1.
      apply (unique_by _ d_num (filter short dpb)); [exact D1|apply filter_In; auto|apply filter_In; auto|lia]. }
    destruct c as [d|d|i]; cbn [named finder] in *; [apply SH; tauto|apply SH; tauto|]. cbn [ref_of r_long] in NM. unfold long_at.
    split; [rewrite NM; apply N.eqb_refl|]. intros y IY E. destruct (d_ltr y) as [j|] eqn:EY; [|discriminate].
    rewrite filter_map, map_map in D2.
    apply (unique_by _ (fun e => long_idx (ref_of e)) (filter (fun e => negb (is_short (ref_of e))) dpb)); [exact D2| | |].
    - apply filter_In. split; [exact IY|]. unfold is_short. cbn [ref_of r_long]. rewrite EY. reflexivity.
    - apply filter_In. split; [exact IX|]. unfold is_short. cbn [ref_of r_long]. rewrite NM. reflexivity.
    - unfold long_idx. cbn [ref_of r_long]. rewrite EY, NM. lia.
  Qed.
  Lemma modify_eq : forall cs pred idx lw xs l, modified M cur refs n cs pred idx lw xs l -> Forall (cmd_in_range M) cs -> (0 <= pred < Z.of_N M)%Z ->
    forall F done t1 t2 t3, Permutation F dpb -> lw = firstn n (map ref_of F) -> map ref_of (firstn idx F) = done -> List.length done = idx -> NoDup (done ++ xs) ->
    exists l', apply_rplm (map rpl_idc cs ++ 3 :: t1) (flat_map rpl_abs cs ++ t2) (flat_map rpl_long cs ++ t3) (Z.of_N M) pred idx F = Ok l' /\
      firstn n (map ref_of l') = l.
  Proof.
    intros cs pred idx lw xs l MO. induction MO as [pred idx lw|c cs pred idx lw x xs l IX NM MO IH]; intros RC RP F done t1 t2 t3 PF LW DN LD ND.
    { exists F. split; [reflexivity|]. symmetry. exact LW. }
    apply Forall_cons_iff in RC. destruct RC as [RC1 RC]. destruct (pred_mod pred c RP RC1) as [RP' MOD].
    apply in_map_iff in IX. destruct IX as (dx & <- & IX). destruct (find_named _ c dx RP' IX NM) as [FX FU].
    assert (IF : In dx F) by (eapply Permutation_in; [apply Permutation_sym, PF|exact IX]).
    assert (IS : In dx (skipn idx F)).
    { rewrite <- (firstn_skipn idx F) in IF. apply in_app_or in IF. destruct IF as [IF|IF]; [|exact IF]. exfalso.
      apply NoDup_remove_2 in ND. apply ND, in_or_app. left. rewrite <- DN. apply in_map, IF. }
    apply in_split in IS. destruct IS as (p2 & q & EQ).
    assert (EF : F = firstn idx F ++ p2 ++ dx :: q) by (rewrite <- EQ; symmetry; apply firstn_skipn).
    remember (firstn idx F) as p1 eqn:EP.
    assert (L1 : List.length p1 = idx) by (rewrite <- LD, <- DN; rewrite map_length; reflexivity).
    assert (NI : NoDup (map r_id (map ref_of F))).
    { destruct DI as (_ & _ & _ & NI). eapply Permutation_NoDup; [|exact NI]. apply Permutation_map, Permutation_map, Permutation_sym, PF. }
    assert (NOT : Forall (fun y => finder (pred_next M pred c) c y = false) (p1 ++ p2)).
    { apply Forall_forall. intros y IY. destruct (finder (pred_next M pred c) c y) eqn:EY; [|reflexivity]. exfalso.
      assert (y = dx). { apply FU; [|exact EY]. eapply Permutation_in; [exact PF|]. rewrite EF, app_assoc. apply in_or_app. left. exact IY. }
      subst y. rewrite EF, app_assoc in NI. rewrite !map_app in NI. cbn [map] in NI. apply NoDup_remove_2 in NI. apply NI. apply in_or_app. left.
      rewrite <- !map_app. apply in_map, in_map, IY. }
    assert (MV : move_to (finder (pred_next M pred c) c) idx F = (S idx, p1 ++ dx :: p2 ++ q)).
    { unfold move_to. rewrite (take_first_split _ F (p1 ++ p2) dx q); [|rewrite EF, <- app_assoc; reflexivity|exact FX|exact NOT].
      rewrite <- app_assoc. rewrite firstn_app, skipn_app, <- L1, firstn_all, skipn_all, Nat.sub_diag, firstn_O, app_nil_r, skipn_O. reflexivity. }
    assert (NXT : exists l', apply_rplm (map rpl_idc cs ++ 3 :: t1) (flat_map rpl_abs cs ++ t2) (flat_map rpl_long cs ++ t3) (Z.of_N M) (pred_next M pred c) (S idx) (p1 ++ dx :: p2 ++ q) = Ok l' /\
      firstn n (map ref_of l') = l).
    { apply (IH RC RP' (p1 ++ dx :: p2 ++ q) (done ++ [ref_of dx]) t1 t2 t3).
      - eapply perm_trans; [|exact PF]. rewrite EF. apply Permutation_app_head. apply Permutation_middle.
      - rewrite LW. rewrite EF. rewrite !map_app. cbn [map]. rewrite map_app. apply put_eq; [rewrite map_length; exact L1|].
        rewrite EF in NI. rewrite !map_app in NI. cbn [map] in NI. rewrite !map_app. cbn [map]. exact NI.
      - replace (S idx) with (List.length p1 + 1)%nat by lia. rewrite firstn_app_2. cbn [firstn]. rewrite map_app, DN. reflexivity.
      - rewrite app_length. cbn [List.length]. lia.
      - rewrite <- app_assoc. exact ND. }
    destruct NXT as (l' & NXT & EL). exists l'. split; [|exact EL].
    cbn [map flat_map app]. rewrite <- !app_assoc. destruct c as [d|d|i]; cbn [rpl_idc rpl_abs rpl_long app apply_rplm N.eqb Pos.eqb orb]; unfold finder in MV; cbv iota beta in MV.
    - rewrite MOD. rewrite MV. exact NXT.
    - rewrite MOD. rewrite MV. exact NXT.
    - change (move_to (long_at i) idx F) with (move_to (fun e => long_at i e) idx F). rewrite MV. exact NXT.
  Qed.
End lists.
(** The list column of a P picture *)
Definition active_refs (c : pict) : N :=
  (if num_ref_idx_active_override_flag (s_refs (pc_slice c)) =? 1 then num_ref_idx_l0_active_minus1 (s_refs (pc_slice c)) else pc_default c) + 1.
Lemma refs_eq : forall M c dpb xs l, let v := pc_slice c in let cur := frame_num (s_pic v) in
  s_type v = 0 -> cur < M -> distinct cur (map ref_of dpb) -> (forall cs, s_rpl0 v = Some cs -> Forall (cmd_in_range M) cs) -> NoDup xs ->
  list_of M cur (map ref_of dpb) (N.to_nat (active_refs c)) (s_rpl0 v) xs l ->
  exists r, refs_of (Z.of_N M) (pict_frame c) dpb = Ok r /\ map ref_of r = l.
Proof.
  intros M c dpb xs l v cur T CM DI RC ND (l0 & I0 & LO). unfold refs_of. destruct dpb as [|e dpb'] eqn:ED.
  { exists []. split; [reflexivity|]. destruct I0 as (a & b & -> & PA & _ & PB & _). cbn [map filter] in PA, PB.
    apply Permutation_sym, Permutation_nil in PA. apply Permutation_sym, Permutation_nil in PB. subst a b. cbn [app map] in *. rewrite firstn_nil in LO.
    destruct (s_rpl0 v) as [cs|]; [|destruct LO as [_ ->]; reflexivity]. inversion LO as [|? ? ? ? ? ? ? ? IX]; subst; [reflexivity|destruct IX]. }
  rewrite <- ED in *. clear ED e dpb'. replace (f_slice_type (pict_frame c)) with 0 by (symmetry; exact T). cbn [N.eqb orb].
  pose proof (initial_eq M cur dpb l0 (proj1 DI) I0) as E0.
  change (f_num_ref_idx_l0_active (pict_frame c)) with (active_refs c). change (f_frame_num (pict_frame c)) with cur.
  change (s_rpl0 (pc_slice c)) with (s_rpl0 v) in *. destruct (s_rpl0 v) as [cs|] eqn:ER.
  - destruct (frame_rplm c cs ER) as (t1 & t2 & t3 & -> & -> & ->).
    replace (f_rplm_l0 (pict_frame c)) with 1 by (unfold pict_frame, frame_of; cbn [f_rplm_l0]; unfold v in ER; rewrite ER; reflexivity). cbn [N.eqb].
    destruct (modify_eq M cur dpb (N.to_nat (active_refs c)) CM DI cs (Z.of_N cur) 0 (firstn (N.to_nat (active_refs c)) l0) xs l LO (RC cs eq_refl)) with (F := build_ref_pic_list0 dpb) (done := @nil refpic) (t1 := t1) (t2 := t2) (t3 := t3) as (l' & EL & EE).
    + lia.
    + apply build_perm.
    + rewrite E0. reflexivity.
    + reflexivity.
    + reflexivity.
    + exact ND.
    + rewrite EL. cbn [rbind]. eexists. split; [reflexivity|]. rewrite <- EE. rewrite firstn_map. reflexivity.
  - replace (f_rplm_l0 (pict_frame c)) with 0 by (unfold pict_frame, frame_of; cbn [f_rplm_l0]; unfold v in ER; rewrite ER; reflexivity). cbn [N.eqb rbind].
    eexists. split; [reflexivity|]. destruct LO as [_ ->]. rewrite <- E0. rewrite firstn_map. reflexivity.
Qed.
Definition list_about (M : N) (c : pict) (r : drow) : Prop :=
  let v := pc_slice c in let cur := frame_num (s_pic v) in let refs := map ref_of (t_before r) in
  s_type v = 0 -> cur < M -> distinct cur refs -> (forall cs, s_rpl0 v = Some cs -> Forall (cmd_in_range M) cs) ->
  forall xs l, NoDup xs -> list_of M cur refs (N.to_nat (active_refs c)) (s_rpl0 v) xs l -> map ref_of (t_refs_used r) = l.
Lemma simulate_lists : forall M max ps abs gop gf dpb rows, simulate_from (Z.of_N M) max (map pict_frame ps) abs gop gf dpb = Ok rows ->
  Forall2 (list_about M) ps rows.
Proof.
  intros M max ps. induction ps as [|c ps IH]; intros abs gop gf dpb rows H; cbn [map simulate_from] in H; [injection H as <-; constructor|].
  destruct (refs_of (Z.of_N M) (pict_frame c) _) as [r| | | |] eqn:ER; try discriminate. cbn [rbind] in H.
  destruct (mmco_str (pict_frame c)) as [s| | | |]; try discriminate. cbn [rbind] in H.
  destruct (update_dpb max abs (pict_frame c) _) as [l| | | |]; try discriminate. cbn [rbind] in H.
  destruct (simulate_from _ max (map pict_frame ps) _ _ _ _) as [rs| | | |] eqn:E; try discriminate. cbn [rbind] in H.
  injection H as <-. constructor; [|exact (IH _ _ _ _ _ E)].
  unfold list_about. cbv zeta. intros T CM DI RC xs l' ND LO. cbn [t_before t_refs_used] in *.
  destruct (refs_eq M c _ xs l' T CM DI RC ND LO) as (r' & E1 & E2). rewrite ER in E1. injection E1 as <-. exact E2.
Qed.
(** A row shows the buffer that the picture before has left. *)
Fixpoint chained (before : list dent) (ps : list pict) (rows : list drow) : Prop :=
  match ps, rows with
  | c :: ps, r :: rows => t_before r = (if pc_nut c =? 5 then [] else before) /\ chained (t_after r) ps rows
  | [], [] => True
  | _, _ => False
  end.
Lemma simulate_chained : forall M max ps abs gop gf dpb rows, simulate_from M max (map pict_frame ps) abs gop gf dpb = Ok rows -> chained dpb ps rows.
Proof.
  intros M max ps. induction ps as [|c ps IH]; intros abs gop gf dpb rows H; cbn [map simulate_from] in H; [injection H as <-; exact I|].
  destruct (refs_of M (pict_frame c) _) as [r| | | |]; try discriminate. cbn [rbind] in H.
  destruct (mmco_str (pict_frame c)) as [s| | | |]; try discriminate. cbn [rbind] in H.
  destruct (update_dpb max abs (pict_frame c) _) as [l| | | |]; try discriminate. cbn [rbind] in H.
  destruct (simulate_from M max (map pict_frame ps) _ _ _ _) as [rs| | | |] eqn:E; try discriminate. cbn [rbind] in H.
  injection H as <-. split; [reflexivity|]. exact (IH _ _ _ _ _ E).
Qed.
