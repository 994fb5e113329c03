(** Proof rules for the parser vocabulary. *)
From Coq Require Import NArith ZArith List Bool Lia ZifyBool ZifyNat ZifyN.
From Verif Require Import SpecBits Base BitBuffer SpecReader BitsLemmas BitBufferProofs
  ReaderProofs Parser SpecSyntax.
Import ListNotations.
Open Scope N_scope.
Ltac Zify.zify_post_hook ::= Z.div_mod_to_equations.

(** [b'] is [b] after consuming exactly the bits [c]. *)
Definition reads (b : bb) (c : list bool) (b' : bb) : Prop :=
  bb_wf b /\ bb_rem b = c ++ bb_rem b' /\ b' = bb_adv b (length c).

(** A parser that never crashes and only moves forward. *)
Definition good {A} (p : P A) : Prop := forall b, bb_wf b ->
  match p b with
  | (Ok _, b') | (Null, b') => exists m, (m <= length (bb_rem b))%nat /\ b' = bb_adv b m
  | _ => False
  end.

(** Everything accepted is the encoding of a valid value. *)
Definition sound {A} (p : P A) (ok : A -> Prop) (enc : A -> list bool) : Prop :=
  forall b v b', bb_wf b -> p b = (Ok v, b') -> ok v /\ reads b (enc v) b'.

(** [p] run on anything starting with [c] reads exactly [c] and returns [v]. *)
Definition parses {A} (p : P A) (c : list bool) (v : A) : Prop :=
  forall b rest, bb_wf b -> bb_rem b = c ++ rest -> p b = (Ok v, bb_adv b (length c)).

Definition complete {A} (p : P A) (ok : A -> Prop) (enc : A -> list bool) : Prop :=
  forall v, ok v -> parses p (enc v) v.

Lemma adv0 : forall b, bb_wf b -> bb_adv b 0 = b.
Proof. intros b W. apply bb_adv_0. apply W. Qed.

(** * reads *)
Lemma reads_wf : forall b c b', reads b c b' -> bb_wf b'.
Proof.
  intros b c b' (W & E & ->). apply bb_adv_wf; auto.
  rewrite E, app_length. lia.
Qed.
Lemma reads_refl : forall b, bb_wf b -> reads b [] b.
Proof.
  intros b W. unfold reads. split; [auto|]. split; [reflexivity|].
  cbn [length]. symmetry. apply adv0; auto.
Qed.
Lemma reads_app : forall b b1 b2 c1 c2, reads b c1 b1 -> reads b1 c2 b2 ->
  reads b (c1 ++ c2) b2.
Proof.
  intros b b1 b2 c1 c2 (W & E & ->) (W1 & E1 & ->). unfold reads.
  split; [auto|]. split.
  - rewrite E, E1, app_assoc. reflexivity.
  - rewrite app_length. apply bb_adv_adv.
Qed.
Lemma reads_split : forall b c rest, bb_wf b -> bb_rem b = c ++ rest ->
  reads b c (bb_adv b (length c)) /\ bb_rem (bb_adv b (length c)) = rest.
Proof.
  intros b c rest W E. assert (bb_rem (bb_adv b (length c)) = rest).
  { rewrite bb_adv_rem by (rewrite E, app_length; lia). rewrite E. apply skipn_app_exact. }
  unfold reads. rewrite H. auto.
Qed.

(** * inversion *)
Lemma sbind_inv : forall S A B (p : S -> res A * S) (f : A -> S -> res B * S) s v s',
  sbind p f s = (Ok v, s') -> exists a s1, p s = (Ok a, s1) /\ f a s1 = (Ok v, s').
Proof.
  intros S A B p f s v s' H. unfold sbind in H.
  destruct (p s) as [[a| |k| |] s1]; try discriminate. eauto.
Qed.
Lemma guard_inv : forall c b u b', guard c b = (Ok u, b') -> c = true /\ b' = b.
Proof. intros [] b u b' H; inversion H; auto. Qed.
Lemma sret_inv : forall S A (a : A) (b : S) v b', sret a b = (Ok v, b') -> v = a /\ b' = b.
Proof. intros. inversion H; auto. Qed.

(** * good *)
Lemma good_bind : forall A B (p : P A) (f : A -> P B),
  good p -> (forall a, good (f a)) -> good (sbind p f).
Proof.
  intros A B p f G F b W. unfold sbind. specialize (G b W).
  destruct (p b) as [[a| |k| |] b1]; auto.
  destruct G as (m & L & ->). specialize (F a (bb_adv b m)).
  assert (W1 : bb_wf (bb_adv b m)) by (apply bb_adv_wf; auto).
  specialize (F W1).
  destruct (f a (bb_adv b m)) as [[v| |k| |] b2]; auto;
    destruct F as (m2 & L2 & ->); exists (m + m2)%nat;
    rewrite bb_adv_rem, skipn_length in L2 by auto;
    (split; [lia|apply bb_adv_adv]).
Qed.
Lemma good_bind_ok : forall A B (p : P A) (f : A -> P B), good p ->
  (forall a b b1, bb_wf b -> p b = (Ok a, b1) -> good (f a)) -> good (sbind p f).
Proof.
  intros A B p f G F b W. unfold sbind. specialize (G b W).
  destruct (p b) as [[a| |k| |] b1] eqn:E; auto.
  destruct G as (m & L & ->).
  assert (W1 : bb_wf (bb_adv b m)) by (apply bb_adv_wf; auto).
  pose proof (F a b _ W E _ W1) as F1.
  destruct (f a (bb_adv b m)) as [[v| |k| |] b2]; auto;
    destruct F1 as (m2 & L2 & ->); exists (m + m2)%nat;
    rewrite bb_adv_rem, skipn_length in L2 by auto;
    (split; [lia|apply bb_adv_adv]).
Qed.
Lemma good_ret : forall A (a : A), good (sret a).
Proof. intros A a b W. cbn. exists 0%nat. rewrite adv0 by auto. split; [lia|auto]. Qed.
Lemma good_fail : forall A, good (@sfail bb A).
Proof. intros A b W. cbn. exists 0%nat. rewrite adv0 by auto. split; [lia|auto]. Qed.
Lemma good_guard : forall c, good (guard c).
Proof. intros []; [apply good_ret|apply good_fail]. Qed.
Lemma good_if : forall A (c : bool) (p q : P A), good p -> good q ->
  good (if c then p else q).
Proof. intros A [] p q Gp Gq; auto. Qed.
Lemma good_cond : forall A (c : bool) (p : P A) d, good p -> good (cond c p d).
Proof. intros A [] p d G; [exact G|apply good_ret]. Qed.
Lemma good_pair : forall A B C (x : A * B) (f : A -> B -> P C),
  (forall a b, good (f a b)) -> good (let (a, b) := x in f a b).
Proof. intros A B C [a b] f G. apply G. Qed.
Lemma good_opt : forall A C (x : option A) (f : A -> P C) q,
  (forall a, good (f a)) -> good q -> good (match x with Some a => f a | None => q end).
Proof. intros A C [a|] f q G Q; auto. Qed.
Lemma good_rep : forall A n (p : P A), good p -> good (rep n p).
Proof.
  induction n; intros p G; cbn [rep]; [apply good_ret|].
  apply good_bind; [auto|intros v]. apply good_bind; [auto|intros l]. apply good_ret.
Qed.
Lemma good_repi : forall A n i (p : N -> P A), (forall j, good (p j)) -> good (repi n i p).
Proof.
  induction n; intros i p G; cbn [repi]; [apply good_ret|].
  apply good_bind; [auto|intros v]. apply good_bind; [auto|intros l]. apply good_ret.
Qed.
Lemma good_ReadBits : forall n, good (ReadBits n).
Proof.
  intros n b W. rewrite ReadBits_spec by auto. unfold rd_ok.
  destruct (negb _) eqn:E.
  - exists (N.to_nat n). split; [|auto]. lia.
  - exists 0%nat. rewrite adv0 by auto. split; [lia|auto].
Qed.
Lemma lead0_le : forall l, (lead0 l <= length l)%nat.
Proof. induction l as [|[] l IH]; cbn; lia. Qed.
Lemma good_ue : good ReadExponentialGolomb.
Proof.
  intros b W. rewrite ReadExponentialGolomb_spec by auto.
  destruct (ue_dec (bb_rem b)) as [[v n]|] eqn:E.
  - exists n. split; [|auto]. apply ue_dec_sound in E. lia.
  - destruct (bb_asserts b).
    + exists 0%nat. rewrite adv0 by auto. split; [lia|auto].
    + exists (lead0 (bb_rem b)). split; [apply lead0_le|auto].
Qed.
Lemma good_se : good ReadSignedExponentialGolomb.
Proof.
  intros b W. rewrite ReadSignedExponentialGolomb_spec by auto.
  destruct (ue_dec (bb_rem b)) as [[v n]|] eqn:E.
  - exists n. split; [|auto]. apply ue_dec_sound in E. lia.
  - destruct (bb_asserts b).
    + exists 0%nat. rewrite adv0 by auto. split; [lia|auto].
    + exists (lead0 (bb_rem b)). split; [apply lead0_le|auto].
Qed.
Lemma good_ue_max : forall m, good (ue_max m).
Proof.
  intros. apply good_bind; [apply good_ue|intros].
  apply good_bind; [apply good_guard|intros; apply good_ret].
Qed.
Lemma good_se_rng : forall lo hi, good (se_rng lo hi).
Proof.
  intros. apply good_bind; [apply good_se|intros].
  apply good_bind; [apply good_guard|intros; apply good_ret].
Qed.
Lemma good_wf : forall A (p : P A) b r b', good p -> bb_wf b -> p b = (r, b') -> bb_wf b'.
Proof.
  intros A p b r b' G W E. specialize (G b W). rewrite E in G.
  destruct r; try contradiction; destruct G as (m & L & ->); apply bb_adv_wf; auto.
Qed.

Create HintDb good discriminated.
#[export] Hint Resolve good_ret good_fail good_guard good_ReadBits good_ue good_se
  good_ue_max good_se_rng : good.

Ltac good_tac :=
  repeat match goal with
  | |- good (sbind _ _) => apply good_bind; [|intros ?]
  | |- good (cond _ _ _) => apply good_cond
  | |- good (rep _ _) => apply good_rep
  | |- good (repi _ _ _) => apply good_repi; intros ?
  | |- good (if _ then _ else _) => apply good_if
  | |- good (let (_, _) := _ in _) => apply good_pair; intros ? ?
  | |- good (match _ with Some _ => _ | None => _ end) => apply good_opt; [intros ?|]
  | |- good _ => solve [auto with good]
  end.

(** * primitives *)
Lemma ReadBits_sound : forall n b v b', bb_wf b -> ReadBits n b = (Ok v, b') ->
  (0 < n <= 32 /\ v < 2 ^ n) /\ reads b (u_bits n v) b'.
Proof.
  intros n b v b' W H. rewrite ReadBits_spec in H by auto.
  destruct (rd_ok n b) eqn:E; [|discriminate]. unfold rd_ok in E.
  inversion H; subst; clear H.
  set (w := firstn (N.to_nat n) (bb_rem b)).
  assert (L : length w = N.to_nat n) by (unfold w; rewrite firstn_length; lia).
  assert (Hn : u_bits n (bval w) = w).
  { unfold u_bits. rewrite <- L. apply nbits_bval. }
  split.
  - split; [lia|]. replace n with (N.of_nat (length w)) by lia. apply bval_bound.
  - unfold reads. rewrite Hn, L. split; [auto|]. split; [|auto].
    rewrite bb_adv_rem by (auto; lia). unfold w. symmetry. apply firstn_skipn.
Qed.
Lemma ReadBits_parses : forall n v, 0 < n <= 32 -> v < 2 ^ n ->
  parses (ReadBits n) (u_bits n v) v.
Proof.
  intros n v Hn Hv b rest W E. rewrite ReadBits_spec by auto.
  assert (L : length (u_bits n v) = N.to_nat n) by (unfold u_bits; apply nbits_length).
  unfold rd_ok. rewrite E, app_length, L.
  replace (negb _) with true by lia.
  rewrite <- L at 1. rewrite firstn_app_exact. unfold u_bits at 1.
  rewrite bval_nbits. f_equal. f_equal. apply N.mod_small. rewrite N2Nat.id. auto.
Qed.
Lemma ue_sound : forall b v b', bb_wf b -> ReadExponentialGolomb b = (Ok v, b') ->
  v < 2 ^ 32 - 1 /\ reads b (ue_bits v) b'.
Proof.
  intros b v b' W H. rewrite ReadExponentialGolomb_spec in H by auto.
  destruct (ue_dec (bb_rem b)) as [[w n]|] eqn:E; [|discriminate].
  inversion H; subst; clear H. apply ue_dec_sound in E. destruct E as (Hv & Hn & Hf & Hl).
  split; [lia|]. unfold reads. split; [auto|]. split; [|rewrite Hn; auto].
  rewrite bb_adv_rem by auto. rewrite <- Hf. symmetry. apply firstn_skipn.
Qed.
Lemma ue_parses : forall v, v < 2 ^ 32 - 1 -> parses ReadExponentialGolomb (ue_bits v) v.
Proof.
  intros v Hv b rest W E. rewrite ReadExponentialGolomb_spec by auto.
  rewrite E, ue_dec_complete by lia. reflexivity.
Qed.
Lemma se_code_range : forall v, (Z.abs v <= 2 ^ 31 - 1)%Z <-> se_code v < 2 ^ 32 - 1.
Proof. intros v. unfold se_code. destruct (0 <? v)%Z eqn:E; lia. Qed.
Lemma se_sound : forall b v b', bb_wf b -> ReadSignedExponentialGolomb b = (Ok v, b') ->
  (Z.abs v <= 2 ^ 31 - 1)%Z /\ reads b (se_bits v) b'.
Proof.
  intros b v b' W H. rewrite ReadSignedExponentialGolomb_spec in H by auto.
  destruct (ue_dec (bb_rem b)) as [[w n]|] eqn:E; [|discriminate].
  inversion H; subst; clear H. apply ue_dec_sound in E. destruct E as (Hv & Hn & Hf & Hl).
  split; [apply se_code_range; rewrite se_code_dec; lia|].
  unfold reads, se_bits. rewrite se_code_dec. split; [auto|]. split; [|rewrite Hn; auto].
  rewrite bb_adv_rem by auto. rewrite <- Hf. symmetry. apply firstn_skipn.
Qed.
Lemma se_parses : forall v, (Z.abs v <= 2 ^ 31 - 1)%Z ->
  parses ReadSignedExponentialGolomb (se_bits v) v.
Proof.
  intros v Hv b rest W E. rewrite ReadSignedExponentialGolomb_spec by auto.
  unfold se_bits in *. rewrite E, ue_dec_complete by (apply se_code_range in Hv; lia).
  rewrite se_dec_code. reflexivity.
Qed.

Lemma ue_max_sound : forall m b v b', bb_wf b -> ue_max m b = (Ok v, b') ->
  (v < 2 ^ 32 - 1 /\ v <= m) /\ reads b (ue_bits v) b'.
Proof.
  intros m b v b' W H. unfold ue_max in H.
  apply sbind_inv in H. destruct H as (x & b1 & H1 & H).
  apply sbind_inv in H. destruct H as (y & b2 & H2 & H).
  apply guard_inv in H2. apply sret_inv in H. destruct H2, H. subst.
  apply ue_sound in H1; auto. destruct H1. split; [split; [auto|lia]|auto].
Qed.
Lemma se_rng_sound : forall lo hi b v b', bb_wf b -> se_rng lo hi b = (Ok v, b') ->
  (Z.abs v <= 2 ^ 31 - 1 /\ lo <= v <= hi)%Z /\ reads b (se_bits v) b'.
Proof.
  intros lo hi b v b' W H. unfold se_rng in H.
  apply sbind_inv in H. destruct H as (x & b1 & H1 & H).
  apply sbind_inv in H. destruct H as (y & b2 & H2 & H).
  apply guard_inv in H2. apply sret_inv in H. destruct H2, H. subst.
  apply se_sound in H1; auto. destruct H1. split; [split; [auto|lia]|auto].
Qed.

(** * composing [parses] *)
Lemma parses_bind : forall A B (p : P A) (f : A -> P B) c1 c2 a v,
  parses p c1 a -> parses (f a) c2 v -> parses (sbind p f) (c1 ++ c2) v.
Proof.
  intros A B p f c1 c2 a v H1 H2 b rest W E. unfold sbind.
  rewrite <- app_assoc in E. rewrite (H1 b _ W E).
  destruct (reads_split b c1 _ W E) as [R Er].
  rewrite (H2 _ _ (reads_wf _ _ _ R) Er). f_equal.
  rewrite app_length. apply bb_adv_adv.
Qed.
Lemma parses_bind0 : forall A B (p : P A) (f : A -> P B) c a v,
  parses p [] a -> parses (f a) c v -> parses (sbind p f) c v.
Proof. intros. change c with ([] ++ c). eapply parses_bind; eauto. Qed.
Lemma parses_bind1 : forall A B (p : P A) (f : A -> P B) c a v,
  parses p c a -> parses (f a) [] v -> parses (sbind p f) c v.
Proof. intros. rewrite <- (app_nil_r c). eapply parses_bind; eauto. Qed.
Lemma parses_ret : forall A (a : A), parses (sret a) [] a.
Proof. intros A a b rest W E. cbn. rewrite adv0 by auto. reflexivity. Qed.
Lemma parses_guard : forall c, c = true -> parses (guard c) [] tt.
Proof. intros c ->. apply parses_ret. Qed.
Lemma parses_cond : forall A (c : bool) (p : P A) d code v,
  (c = true -> parses p code v) -> (c = false -> v = d) ->
  parses (cond c p d) (if c then code else []) v.
Proof.
  intros A [] p d code v H1 H2; cbn [cond]; [auto|].
  rewrite H2 by auto. apply parses_ret.
Qed.
Lemma parses_ue_max : forall m v, v < 2 ^ 32 - 1 -> v <= m -> parses (ue_max m) (ue_bits v) v.
Proof.
  intros. unfold ue_max. eapply parses_bind1; [apply ue_parses; auto|].
  eapply parses_bind0; [apply parses_guard; lia|apply parses_ret].
Qed.
Lemma parses_se_rng : forall lo hi v, (Z.abs v <= 2 ^ 31 - 1)%Z -> (lo <= v <= hi)%Z ->
  parses (se_rng lo hi) (se_bits v) v.
Proof.
  intros. unfold se_rng. eapply parses_bind1; [apply se_parses; auto|].
  eapply parses_bind0; [apply parses_guard; lia|apply parses_ret].
Qed.
Lemma parses_rep : forall A (p : P A) enc l,
  (forall v, In v l -> parses p (enc v) v) ->
  parses (rep (length l) p) (flat_map enc l) l.
Proof.
  induction l as [|v l IH]; intros H; cbn [rep length flat_map]; [apply parses_ret|].
  eapply parses_bind; [apply H; left; auto|].
  eapply parses_bind1; [apply IH; intros; apply H; right; auto|]. apply parses_ret.
Qed.

(** Counted loops. *)
Lemma rep_sound : forall A (p : P A) ok enc, sound p ok enc ->
  forall n b l b', bb_wf b -> rep n p b = (Ok l, b') ->
  (length l = n /\ Forall ok l) /\ reads b (flat_map enc l) b'.
Proof.
  intros A p ok enc S. induction n as [|n IH]; intros b l b' W H; cbn [rep] in H.
  - apply sret_inv in H. destruct H as [-> ->]. cbn. split; [auto|]. apply reads_refl; auto.
  - apply sbind_inv in H. destruct H as (v & b1 & H1 & H).
    apply sbind_inv in H. destruct H as (t & b2 & H2 & H).
    apply sret_inv in H. destruct H as [-> ->].
    apply S in H1; auto. destruct H1 as [O1 R1].
    apply IH in H2; [|eapply reads_wf; eauto]. destruct H2 as ((L & F) & R2).
    cbn [length flat_map]. split; [split; [lia|auto]|]. eapply reads_app; eauto.
Qed.

(** What [p] does on any state, from its three facts: it accepts exactly the encodings of
    valid values, reading exactly them, and otherwise returns null. *)
Lemma exact_of : forall A (p : P A) ok enc, good p -> sound p ok enc -> complete p ok enc ->
  forall b, bb_wf b ->
  (exists v rest, ok v /\ bb_rem b = enc v ++ rest /\ p b = (Ok v, bb_adv b (length (enc v)))) \/
  ((forall v rest, ok v -> bb_rem b <> enc v ++ rest) /\
   exists m, (m <= length (bb_rem b))%nat /\ p b = (Null, bb_adv b m)).
Proof.
  intros A p ok enc G S C b W. specialize (G b W).
  destruct (p b) as [[v| |k| |] b'] eqn:E; try contradiction.
  - left. destruct (S b v b' W E) as [O (_ & R & Eb)]. exists v, (bb_rem b').
    split; [auto|]. split; [auto|]. subst b'. auto.
  - right. split.
    + intros v rest O R. rewrite (C v O b rest W R) in E. discriminate.
    + destruct G as (m & L & ->). eauto.
Qed.

(** The same facts in the vocabulary of SpecSyntax. *)
Lemma reads_consumed : forall b c b', reads b c b' -> consumed b c b'.
Proof.
  intros b c b' (W & E & ->). unfold consumed. split; [exact E|].
  rewrite bb_adv_pos. repeat split; auto. unfold bb_adv. cbn [bb_bit]. lia.
Qed.
Lemma parses_consumed : forall A (p : P A) c v b rest, parses p c v -> bb_wf b ->
  bb_rem b = c ++ rest -> exists b', p b = (Ok v, b') /\ consumed b c b' /\ bb_rem b' = rest.
Proof.
  intros A p c v b rest H W E. exists (bb_adv b (length c)).
  destruct (reads_split b c rest W E) as [R Er].
  split; [eapply H; eauto|]. split; [apply reads_consumed; auto|auto].
Qed.
Lemma decodes_of : forall A (p : P A) ok enc, good p -> sound p ok enc -> complete p ok enc ->
  decodes p ok enc.
Proof.
  intros A p ok enc G S C b R. apply reachable_wf in R. split; [|split].
  - intros v rest V E. eapply parses_consumed; eauto.
  - intros v b' H. destruct (S b v b' R H). split; [auto|apply reads_consumed; auto].
  - specialize (G b R). destruct (p b) as [[v| |k| |] b']; try contradiction; eauto.
Qed.
Lemma never_crashes_of : forall A (p : P A), good p -> never_crashes p.
Proof.
  intros A p G b R. apply reachable_wf in R. specialize (G b R).
  destruct (p b) as [r b'] eqn:E. exists r, b'. split; [auto|].
  destruct r as [v| |k| |]; try contradiction; destruct G as (m & L & ->);
    rewrite bb_adv_pos; (split; [eauto|split; [reflexivity|lia]]).
Qed.

(** Forward symbolic execution of a successful parse. *)
Ltac inv1 :=
  match goal with
  | H : sbind _ _ _ = (Ok _, _) |- _ =>
      apply sbind_inv in H; destruct H as (? & ? & ? & ?)
  | H : guard _ _ = (Ok _, _) |- _ =>
      apply guard_inv in H; destruct H as [? ?]; subst
  | H : sret _ _ = (Ok _, _) |- _ =>
      apply sret_inv in H; destruct H as [? ?]; subst
  | W : bb_wf ?b, H : ReadBits _ ?b = (Ok _, _) |- _ =>
      apply ReadBits_sound in H; [|exact W]; destruct H as [[? ?] H];
      pose proof (reads_wf _ _ _ H)
  | W : bb_wf ?b, H : ReadExponentialGolomb ?b = (Ok _, _) |- _ =>
      apply ue_sound in H; [|exact W]; destruct H as [? H]; pose proof (reads_wf _ _ _ H)
  | W : bb_wf ?b, H : ReadSignedExponentialGolomb ?b = (Ok _, _) |- _ =>
      apply se_sound in H; [|exact W]; destruct H as [? H]; pose proof (reads_wf _ _ _ H)
  | W : bb_wf ?b, H : ue_max _ ?b = (Ok _, _) |- _ =>
      apply ue_max_sound in H; [|exact W]; destruct H as [[? ?] H];
      pose proof (reads_wf _ _ _ H)
  | W : bb_wf ?b, H : se_rng _ _ ?b = (Ok _, _) |- _ =>
      apply se_rng_sound in H; [|exact W]; destruct H as [[? ?] H];
      pose proof (reads_wf _ _ _ H)
  | H : (let (_, _) := ?x in _) _ = (Ok _, _) |- _ => destruct x; cbn beta iota in H
  end.
