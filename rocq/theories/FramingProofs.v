(** Proofs about Annex B splitting. *)
From Coq Require Import NArith ZArith List Bool Lia ZifyBool ZifyNat ZifyN.
From Verif Require Import SpecBits Base BitBuffer BitsLemmas BitBufferProofs RbspProofs
  Framing SpecFraming.
Import ListNotations.
Open Scope N_scope.
Ltac Zify.zify_post_hook ::= Z.div_mod_to_equations.

(** Executable forms. *)
Definition sc_head (l : list N) : bool :=
  match l with
  | a :: b :: c :: _ :: _ => (a =? 0) && (b =? 0) && (c =? 1)
  | _ => false
  end.
Definition sc_at (l : list N) (p : N) : bool := sc_head (skipn (N.to_nat p) l).
Definition start_of (l : list N) (p : N) : N :=
  match fetch l (p - 1) with
  | Ok v => if (0 <? p) && (v =? 0) then p - 1 else p
  | _ => p
  end.
(** All start codes, by scanning every offset. *)
Fixpoint poss (l : list N) (o : N) : list N :=
  match l with
  | [] => []
  | _ :: t => if sc_head l then o :: poss t (o + 1) else poss t (o + 1)
  end.
Fixpoint index_list (l : list N) (e : N) (ps : list N) : list nalu_index :=
  match ps with
  | [] => []
  | p :: r =>
      mkidx (start_of l p) (p + 3)
        (match r with [] => e | q :: _ => start_of l q end - (p + 3)) :: index_list l e r
  end.

Lemma index_list_snoc : forall l e p ps,
  index_list l e (ps ++ [p]) =
  index_list l (start_of l p) ps ++ [mkidx (start_of l p) (p + 3) (e - (p + 3))].
Proof.
  intros l e p. induction ps as [|a [|b t] IH]; [reflexivity|reflexivity|].
  cbn [app index_list] in *. rewrite IH. reflexivity.
Qed.

(** Offsets in a list of positions leave room for the code and for the next start. *)
Fixpoint spaced (l : list N) (e : N) (rps : list N) : Prop :=
  match rps with
  | [] => True
  | p :: r => p + 3 <= e /\ spaced l (start_of l p) r
  end.

(** What the loop accumulates for the reversed list of positions [rps]. *)
Fixpoint racc (l : list N) (rps : list N) : list nalu_index :=
  match rps with
  | [] => []
  | p :: r => mkidx (start_of l p) (p + 3) 0 :: set_last_size (start_of l p) (racc l r)
  end.
Lemma start_of_le : forall l p, start_of l p <= p.
Proof. intros. unfold start_of. destruct (fetch l (p - 1)); try destruct (_ && _); lia. Qed.

Lemma racc_index : forall l rps e, spaced l e rps -> e < 2 ^ 64 ->
  rev (set_last_size e (racc l rps)) = index_list l e (rev rps).
Proof.
  intros l. induction rps as [|p r IH]; intros e S E; [reflexivity|].
  destruct S as [S1 S2].
  cbn [racc set_last_size rev ni_start ni_payload].
  pose proof (start_of_le l p). rewrite IH by (auto; lia). rewrite index_list_snoc.
  rewrite sub64_small by lia. reflexivity.
Qed.

Lemma fetch_nth : forall l i, fetch l i = match nth_error l (N.to_nat i) with
  | Some v => Ok v | None => UB OutOfBounds end.
Proof. reflexivity. Qed.

Lemma fetch_in : forall l i, i < N.of_nat (length l) -> exists v, fetch l i = Ok v.
Proof.
  intros l i H. unfold fetch. destruct (nth_error l (N.to_nat i)) eqn:E; eauto.
  apply nth_error_None in E. lia.
Qed.
Lemma fetch_out : forall l i, N.of_nat (length l) <= i -> fetch l i = UB OutOfBounds.
Proof.
  intros l i H. unfold fetch. replace (nth_error l (N.to_nat i)) with (@None N); auto.
  symmetry. apply nth_error_None. lia.
Qed.

Lemma skipn_fetch : forall l i v, fetch l i = Ok v ->
  skipn (N.to_nat i) l = v :: skipn (N.to_nat (i + 1)) l.
Proof.
  intros l i v H. unfold fetch in H. destruct (nth_error l (N.to_nat i)) eqn:E; [|discriminate].
  injection H as ->. replace (N.to_nat (i + 1)) with (S (N.to_nat i)) by lia.
  now apply nth_error_skipn_cons.
Qed.

Lemma sc_at_fetch : forall l p, sc_at l p =
  match fetch l p, fetch l (p + 1), fetch l (p + 2), fetch l (p + 3) with
  | Ok a, Ok b, Ok c, Ok _ => (a =? 0) && (b =? 0) && (c =? 1)
  | _, _, _, _ => false
  end.
Proof.
  intros l p. unfold sc_at, sc_head.
  destruct (N.ltb_spec p (N.of_nat (length l))) as [H|H].
  2:{ rewrite (fetch_out l p), skipn_all2 by lia. reflexivity. }
  destruct (fetch_in l p H) as [a A]. rewrite A, (skipn_fetch _ _ _ A).
  destruct (N.ltb_spec (p + 1) (N.of_nat (length l))) as [H1|H1].
  2:{ rewrite (fetch_out l (p + 1)), skipn_all2 by lia. reflexivity. }
  destruct (fetch_in l (p + 1) H1) as [b B]. rewrite B, (skipn_fetch _ _ _ B).
  replace (p + 1 + 1) with (p + 2) by lia.
  destruct (N.ltb_spec (p + 2) (N.of_nat (length l))) as [H2|H2].
  2:{ rewrite (fetch_out l (p + 2)), skipn_all2 by lia. reflexivity. }
  destruct (fetch_in l (p + 2) H2) as [c C]. rewrite C, (skipn_fetch _ _ _ C).
  replace (p + 2 + 1) with (p + 3) by lia.
  destruct (N.ltb_spec (p + 3) (N.of_nat (length l))) as [H3|H3].
  2:{ rewrite (fetch_out l (p + 3)), skipn_all2 by lia. reflexivity. }
  destruct (fetch_in l (p + 3) H3) as [d D]. rewrite D, (skipn_fetch _ _ _ D). reflexivity.
Qed.

Lemma sc_at_true : forall l p, sc_at l p = true ->
  fetch l p = Ok 0 /\ fetch l (p + 1) = Ok 0 /\ fetch l (p + 2) = Ok 1 /\
  exists d, fetch l (p + 3) = Ok d.
Proof.
  intros l p H. rewrite sc_at_fetch in H.
  destruct (fetch l p) as [a| | | |]; try discriminate H.
  destruct (fetch l (p + 1)) as [b| | | |]; try discriminate H.
  destruct (fetch l (p + 2)) as [c| | | |]; try discriminate H.
  destruct (fetch l (p + 3)) as [d| | | |]; try discriminate H.
  assert (a = 0 /\ b = 0 /\ c = 1) as (-> & -> & ->) by lia. eauto.
Qed.

(** Remaining positions from offset [i]. *)
Definition pfrom (l : list N) (i : N) : list N := poss (skipn (N.to_nat i) l) i.
Lemma pfrom_step : forall l i,
  pfrom l i = (if sc_at l i then [i] else []) ++ pfrom l (i + 1).
Proof.
  intros l i. unfold pfrom, sc_at.
  destruct (skipn (N.to_nat i) l) as [|x t] eqn:E.
  - assert (length l <= N.to_nat i)%nat.
    { apply (f_equal (@length N)) in E. rewrite skipn_length in E. cbn in E. lia. }
    rewrite (skipn_all2 l) by lia. reflexivity.
  - replace (N.to_nat (i + 1)) with (S (N.to_nat i)) by lia. rewrite (skipn_tail _ _ _ _ E).
    cbn [poss]. destruct (sc_head (x :: t)); reflexivity.
Qed.
Lemma pfrom_end : forall l i, N.of_nat (length l) <= i + 3 -> pfrom l i = [].
Proof.
  intros l i H. remember (N.to_nat (N.of_nat (length l) - i)) as n eqn:E. revert i H E.
  induction n as [|n IH]; intros i H E.
  - unfold pfrom. rewrite skipn_all2 by lia. reflexivity.
  - rewrite pfrom_step, (IH (i + 1)) by lia. rewrite app_nil_r.
    rewrite sc_at_fetch, (fetch_out l (i + 3)) by lia.
    destruct (fetch l i), (fetch l (i + 1)), (fetch l (i + 2)); reflexivity.
Qed.

Lemma find_loop_spec : forall fuel l i rps, (length l <= fuel + N.to_nat i)%nat ->
  N.of_nat (length l) < 2 ^ 64 -> 3 <= N.of_nat (length l) ->
  spaced l i rps -> (forall p r, rps = p :: r -> sc_at l p = true) ->
  exists rps', find_loop fuel l (N.of_nat (length l) - 3) i (racc l rps) = Ok (racc l rps') /\
    rev rps' = rev rps ++ pfrom l i /\ spaced l (N.of_nat (length l)) rps'.
Proof.
  induction fuel as [|f IH]; intros l i rps F L3 L S SC; cbn [find_loop].
  - replace (i <? _) with false by lia. exists rps. split; [auto|].
    rewrite pfrom_end, app_nil_r by lia. split; auto.
    destruct rps; auto. cbn in *. destruct S. split; auto.
    specialize (SC n rps eq_refl). apply sc_at_true in SC. destruct SC as (_ & _ & _ & d & SC).
    destruct (N.ltb_spec (n + 3) (N.of_nat (length l))); [lia|].
    rewrite (fetch_out l (n + 3)) in SC by lia. discriminate.
  - destruct (N.ltb_spec i (N.of_nat (length l) - 3)) as [H|H].
    2:{ exists rps. split; [auto|]. rewrite pfrom_end, app_nil_r by lia. split; auto.
      destruct rps; auto. cbn in *. destruct S. split; auto.
      specialize (SC n rps eq_refl). apply sc_at_true in SC. destruct SC as (_ & _ & _ & d & SC).
      destruct (N.ltb_spec (n + 3) (N.of_nat (length l))); [lia|].
      rewrite (fetch_out l (n + 3)) in SC by lia. discriminate. }
    destruct (fetch_in l i ltac:(lia)) as [a A].
    destruct (fetch_in l (i + 1) ltac:(lia)) as [b B].
    destruct (fetch_in l (i + 2) ltac:(lia)) as [c C].
    destruct (fetch_in l (i + 3) ltac:(lia)) as [d D].
    rewrite C. cbn [rbind].
    assert (SC0 : sc_at l i = (a =? 0) && (b =? 0) && (c =? 1))
      by now rewrite sc_at_fetch, A, B, C, D.
    assert (SC1 : (c =? 0) = false -> sc_at l (i + 1) = false).
    { intros C0. rewrite sc_at_fetch. replace (i + 1 + 1) with (i + 2) by lia. rewrite B, C, C0.
      rewrite andb_false_r. destruct (fetch l (i + 1 + 2)), (fetch l (i + 1 + 3)); reflexivity. }
    assert (SC2 : (c =? 0) = false -> sc_at l (i + 2) = false).
    { intros C0. rewrite sc_at_fetch. rewrite C, C0.
      destruct (fetch l (i + 2 + 1)), (fetch l (i + 2 + 2)), (fetch l (i + 2 + 3)); reflexivity. }
    assert (P3 : pfrom l i = (if sc_at l i then [i] else []) ++ (if sc_at l (i + 1) then [i + 1] else []) ++
      (if sc_at l (i + 2) then [i + 2] else []) ++ pfrom l (i + 3)).
    { rewrite (pfrom_step l i), (pfrom_step l (i + 1)).
      replace (i + 1 + 1) with (i + 2) by lia. rewrite (pfrom_step l (i + 2)).
      replace (i + 2 + 1) with (i + 3) by lia. reflexivity. }
    assert (SP : forall j rps, i <= j -> spaced l i rps -> spaced l j rps).
    { intros j [|p0 r0] J HS; auto. cbn in *. destruct HS. split; auto. lia. }
    destruct (1 <? c) eqn:C1.
    + destruct (IH l (i + 3) rps) as (r & E1 & E2 & E3); auto; try lia.
      { apply SP; auto; lia. }
      exists r. split; auto. split; auto. rewrite E2, P3.
      replace (c =? 1) with false in SC0 by lia. rewrite andb_false_r in SC0.
      rewrite SC0, SC1, SC2 by lia. reflexivity.
    + rewrite B, A. cbn [rbind].
      replace (if c =? 1 then if b =? 0 then Ok (a =? 0) else Ok false else Ok false)
        with (Ok ((a =? 0) && (b =? 0) && (c =? 1)))
        by (destruct (a =? 0), (b =? 0), (c =? 1); reflexivity).
      rewrite <- SC0. cbn [rbind]. destruct (sc_at l i) eqn:HIT.
      * assert (Z : (if 0 <? i then rbind (fetch l (i - 1)) (fun p => Ok (p =? 0)) else Ok false) =
                    Ok ((0 <? i) && match fetch l (i - 1) with Ok v => v =? 0 | _ => false end)).
        { destruct (0 <? i) eqn:I0; auto.
          destruct (fetch_in l (i - 1) ltac:(lia)) as [v V]. rewrite V. reflexivity. }
        rewrite Z. cbn [rbind].
        assert (ST : (if (0 <? i) && match fetch l (i - 1) with Ok v => v =? 0 | _ => false end
                      then i - 1 else i) = start_of l i).
        { unfold start_of. destruct (fetch l (i - 1)); rewrite ?andb_false_r; reflexivity. }
        rewrite ST.
        change (mkidx (start_of l i) (i + 3) 0 :: set_last_size (start_of l i) (racc l rps))
          with (racc l (i :: rps)).
        assert (SS : spaced l (i + 3) (i :: rps)).
        { cbn. split; [lia|]. destruct rps as [|p r]; auto. cbn in S |- *. destruct S as [S1 S2].
          split; auto. specialize (SC p r eq_refl).
          unfold start_of. destruct (fetch l (i - 1)) as [v| | | |] eqn:V; auto.
          destruct ((0 <? i) && (v =? 0)) eqn:Z0; auto.
          destruct (N.eqb_spec i (p + 3)) as [->|]; [|lia].
          apply sc_at_true in SC. destruct SC as (_ & _ & SCc & _).
          replace (p + 3 - 1) with (p + 2) in V by lia. rewrite V in SCc. injection SCc as ->. lia. }
        destruct (IH l (i + 3) (i :: rps)) as (r & E1 & E2 & E3); auto; try lia.
        { intros p r0 E. injection E as <- <-. auto. }
        exists r. split; auto. split; auto. rewrite E2, P3, SC1, SC2 by lia.
        cbn [rev]. rewrite <- app_assoc. reflexivity.
      * destruct (IH l (i + 1) rps) as (r & E1 & E2 & E3); auto; try lia.
        { apply SP; auto; lia. }
        exists r. split; auto. split; auto. rewrite E2, (pfrom_step l i), HIT. reflexivity.
Qed.

Lemma FindNaluIndices_spec : forall l, N.of_nat (length l) < 2 ^ 64 ->
  FindNaluIndices l (N.of_nat (length l)) =
  Ok (index_list l (N.of_nat (length l)) (poss l 0)).
Proof.
  intros l H. unfold FindNaluIndices.
  change (poss l 0) with (pfrom l 0).
  destruct (N.ltb_spec (N.of_nat (length l)) 3).
  { rewrite pfrom_end by lia. reflexivity. }
  destruct (find_loop_spec (length l) l 0 []) as (r & E1 & E2 & E3); auto; try lia.
  { cbn. auto. }
  { discriminate. }
  cbn [racc] in E1. rewrite E1. cbn [rbind]. rewrite racc_index by auto. rewrite E2. reflexivity.
Qed.

(** * Declarative consequences *)
Lemma sc_at_iff : forall l p, sc_at l p = true <-> start_code_at l p.
Proof.
  intros l p. unfold sc_at, start_code_at. split.
  - intros H. pose proof (firstn_skipn (N.to_nat p) l) as E.
    destruct (skipn (N.to_nat p) l) as [|a [|b [|c [|d t]]]] eqn:K; try discriminate.
    cbn in H. exists (firstn (N.to_nat p) l), d, t.
    assert (a = 0) by lia. assert (b = 0) by lia. assert (c = 1) by lia. subst.
    split; [symmetry; exact E|]. rewrite firstn_length_le; [lia|].
    apply (f_equal (@length N)) in K. rewrite skipn_length in K. cbn in K. lia.
  - intros (a & x & b & -> & <-). rewrite Nat2N.id, skipn_app, skipn_all, Nat.sub_diag. reflexivity.
Qed.

Lemma poss_in : forall l o p, In p (poss l o) <-> o <= p /\ sc_at l (p - o) = true.
Proof.
  induction l as [|x t IH]; intros o p.
  - cbn [poss In]. split; [tauto|]. intros [_ H]. unfold sc_at in H. rewrite skipn_nil in H. discriminate.
  - assert (E : In p (poss (x :: t) o) <->
      (sc_head (x :: t) = true /\ p = o) \/ In p (poss t (o + 1))).
    { cbn [poss]. destruct (sc_head (x :: t)); cbn [In]; intuition congruence. }
    rewrite E, IH. unfold sc_at. split.
    + intros [[H ->]|[H1 H2]].
      * split; [lia|]. rewrite N.sub_diag. auto.
      * split; [lia|]. replace (N.to_nat (p - o)) with (S (N.to_nat (p - (o + 1)))) by lia. auto.
    + intros [H1 H2]. destruct (N.eqb_spec p o) as [->|].
      * left. rewrite N.sub_diag in H2. auto.
      * right. split; [lia|].
        replace (N.to_nat (p - o)) with (S (N.to_nat (p - (o + 1)))) in H2 by lia. auto.
Qed.

Lemma poss_sorted : forall l o,
  (forall a p q b, poss l o = a ++ p :: q :: b -> p < q) /\ NoDup (poss l o).
Proof.
  induction l as [|x t IH]; intros o; cbn [poss].
  - split; [intros [|? [|? ?]] p q b E; discriminate|constructor].
  - destruct (IH (o + 1)) as [I1 I2]. destruct (sc_head (x :: t)); [|split; auto].
    split.
    + intros [|a0 a] p q b E; cbn in E.
      * injection E as -> E. assert (In q (poss t (p + 1))) by (rewrite E; left; auto).
        apply poss_in in H. lia.
      * injection E as _ E. eauto.
    + constructor; auto. intros H. apply poss_in in H. lia.
Qed.

Lemma index_list_payloads : forall l e ps, map ni_payload (index_list l e ps) = map (fun p => p + 3) ps.
Proof. induction ps; cbn [index_list map]; auto. now rewrite IHps. Qed.
Lemma index_list_in : forall l e ps x, In x (index_list l e ps) ->
  exists p, In p ps /\ ni_start x = start_of l p /\ ni_payload x = p + 3.
Proof.
  induction ps as [|p r IH]; intros x H; cbn [index_list In] in *; [tauto|].
  destruct H as [<-|H]; [exists p; cbn; auto|].
  destruct (IH x H) as (q & ? & ?). exists q. auto.
Qed.
Lemma index_list_split : forall l e ps a x b, index_list l e ps = a ++ x :: b ->
  exists pa p pb, ps = pa ++ p :: pb /\ index_list l e (p :: pb) = x :: b.
Proof.
  induction ps as [|p r IH]; intros a x b E.
  - destruct a; discriminate.
  - destruct a as [|a0 a].
    + exists [], p, r. split; auto.
    + cbn [index_list app] in E. injection E as _ E.
      destruct (IH _ _ _ E) as (pa & p' & pb & -> & E'). exists (p :: pa), p', pb. auto.
Qed.

Lemma start_of_cases : forall l p, p < N.of_nat (length l) ->
  (zero_before l p /\ start_of l p + 1 = p) \/ (~ zero_before l p /\ start_of l p = p).
Proof.
  intros l p H. unfold start_of.
  assert (ZB : zero_before l p <-> 0 < p /\ fetch l (p - 1) = Ok 0).
  { unfold zero_before. split.
    - intros (a & b & -> & <-). split; [lia|].
      apply fetch_skipn with (t := b). replace (N.to_nat (N.of_nat (length a) + 1 - 1)) with (length a) by lia.
      rewrite skipn_app, skipn_all, Nat.sub_diag. reflexivity.
    - intros [H0 F]. apply skipn_fetch in F.
      exists (firstn (N.to_nat (p - 1)) l), (skipn (N.to_nat (p - 1 + 1)) l).
      rewrite <- F, firstn_skipn. split; auto. rewrite firstn_length_le by lia. lia. }
  destruct (N.eqb_spec p 0) as [->|P0].
  - right. split; [rewrite ZB; lia|]. destruct (fetch l (0 - 1)); auto.
  - destruct (fetch_in l (p - 1) ltac:(lia)) as [v V]. rewrite V in *.
    replace (0 <? p) with true by lia. cbn [andb].
    destruct (v =? 0) eqn:E.
    + left. rewrite ZB. split; [|lia]. split; [lia|]. f_equal. lia.
    + right. rewrite ZB. split; auto. intros [_ V0]. injection V0 as ->. discriminate.
Qed.

(** Consecutive start codes leave room. *)
Lemma sc_gap : forall l p q, sc_at l p = true -> sc_at l q = true -> p < q ->
  p + 3 <= start_of l q.
Proof.
  intros l p q P Q H.
  apply sc_at_true in P. destruct P as (P0 & P1 & P2 & d & P3).
  apply sc_at_true in Q. destruct Q as (Q0 & Q1 & Q2 & e & Q3).
  assert (q <> p + 1).
  { intros ->. replace (p + 1 + 1) with (p + 2) in Q1 by lia. congruence. }
  assert (q <> p + 2) by (intros ->; congruence).
  unfold start_of. destruct (fetch l (q - 1)) as [v| | | |] eqn:V; try lia.
  destruct ((0 <? q) && (v =? 0)) eqn:Z; [|lia].
  destruct (N.eqb_spec q (p + 3)) as [->|]; [|lia].
  replace (p + 3 - 1) with (p + 2) in V by lia. rewrite P2 in V. injection V as <-. lia.
Qed.
Lemma sc_room : forall l p, sc_at l p = true -> p + 3 < N.of_nat (length l).
Proof.
  intros l p H. apply sc_at_iff in H. destruct H as (a & x & b & -> & <-).
  rewrite app_length. cbn. lia.
Qed.
