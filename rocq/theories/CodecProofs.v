(** Writing a NAL unit and reading it back: bytes, bits and escaping. *)
From Coq Require Import NArith ZArith List Bool Lia ZifyBool ZifyNat ZifyN.
From Verif Require Import SpecBits Base BitBuffer SpecReader BitsLemmas BitBufferProofs
  ReaderProofs Rbsp SpecRbsp RbspProofs ChecksumProofs Parser ParserProofs SpecVui SpecFraming
  TypesSps SpsProofs PpsProofs TypesNal SpecNalHeader NalHeaderProofs.
Import ListNotations.
Open Scope N_scope.
Ltac Zify.zify_post_hook ::= Z.div_mod_to_equations.

(** * Whole bytes *)
Lemma byte_bits_bval : forall l, length l = 8%nat -> byte_bits (bval l) = l.
Proof.
  intros l L. rewrite <- (nbits_bval l) at 2. rewrite L. reflexivity.
Qed.
Lemma bits_of_octets : forall l, (length l mod 8 = 0)%nat -> bits_of (octets l) = l.
Proof.
  intros l. remember (length l) as n eqn:E. revert l E.
  induction n as [n IH] using lt_wf_ind. intros l E M. subst.
  destruct (Nat.ltb_spec (length l) 8) as [H|H].
  - destruct l; [reflexivity|]. cbn [length] in *. lia.
  - rewrite octets_step by auto. change (bits_of (?x :: ?t)) with (byte_bits x ++ bits_of t).
    rewrite (IH (length (skipn 8 l))); rewrite ?skipn_length; auto; try lia.
    rewrite byte_bits_bval by (rewrite firstn_length; lia). apply firstn_skipn.
Qed.
Lemma octets_app : forall a b, (length a mod 8 = 0)%nat -> octets (a ++ b) = octets a ++ octets b.
Proof.
  intros a. remember (length a) as n eqn:E. revert a E.
  induction n as [n IH] using lt_wf_ind. intros a E b M. subst.
  destruct (Nat.ltb_spec (length a) 8) as [H|H].
  - destruct a; [reflexivity|]. cbn [length] in *. lia.
  - rewrite octets_step by (rewrite app_length; lia). rewrite (octets_step a) by auto.
    rewrite firstn_app, skipn_app. replace (8 - length a)%nat with 0%nat by lia.
    change (firstn 0 b) with (@nil bool). change (skipn 0 b) with b. rewrite app_nil_r.
    rewrite <- app_comm_cons. f_equal.
    apply (IH (length (skipn 8 a))); rewrite ?skipn_length; auto; lia.
Qed.
Lemma rbsp_length : forall l, (length (rbsp l) = 8 * (length l / 8 + 1))%nat.
Proof.
  intros l. unfold rbsp, stop_bits. rewrite app_length. cbn [length]. rewrite repeat_length.
  pose proof (Nat.mod_upper_bound (length l) 8). lia.
Qed.
Lemma rbsp_mod : forall l, (length (rbsp l) mod 8 = 0)%nat.
Proof. intros l. rewrite rbsp_length. lia. Qed.
Lemma rbsp_bits : forall l, bits_of (octets (rbsp l)) = rbsp l.
Proof. intros l. apply bits_of_octets, rbsp_mod. Qed.

(** The last byte of an RBSP is not 0. *)
Lemma octets_last : forall l a, (length l mod 8 = 0)%nat -> octets l = a ++ [0] ->
  exists m, l = m ++ repeat false 8.
Proof.
  intros l a M E. apply (f_equal bits_of) in E. rewrite bits_of_octets in E by auto.
  rewrite bits_of_app in E. exists (bits_of a). exact E.
Qed.
Lemma rbsp_last : forall l a, octets (rbsp l) <> a ++ [0].
Proof.
  intros l a E. apply octets_last in E; [|apply rbsp_mod]. destruct E as (m & E).
  unfold rbsp, stop_bits in E. set (k := (7 - length l mod 8)%nat) in *.
  assert (K : (k < 8)%nat) by (unfold k; lia).
  apply (f_equal (@rev bool)) in E. rewrite !rev_app_distr in E. cbn [rev] in E.
  assert (RR : forall n, rev (repeat false n) = repeat false n).
  { induction n as [|n IH]; auto. cbn [repeat rev]. rewrite IH. symmetry. apply repeat_cons. }
  rewrite !RR in E. rewrite <- !app_assoc in E.
  apply (f_equal (fun x => nth k x false)) in E.
  rewrite app_nth2 in E by (rewrite repeat_length; lia). rewrite repeat_length, Nat.sub_diag in E.
  cbn [nth app] in E. rewrite app_nth1 in E by (rewrite repeat_length; lia).
  rewrite nth_repeat in E. discriminate.
Qed.

(** * Escaping after a header *)
(** A header: not empty, and its last byte is not 0, and it has no two adjacent zeros. *)
Definition solid (h : list N) : Prop :=
  match h with
  | [x] => x <> 0
  | [x; y; z; t] => x <> 0 /\ y <> 0 /\ t <> 0
  | _ => False
  end.
Lemma unesc_nz : forall x t, x <> 0 -> unesc (x :: t) = x :: unesc t.
Proof.
  intros x t X. apply unesc_other. destruct t as [|b [|c s]]; auto.
  cbn. replace (x =? 0) with false by lia. reflexivity.
Qed.
Lemma unesc_mid : forall z x t, x <> 0 -> unesc (z :: x :: t) = z :: x :: unesc t.
Proof.
  intros z x t X. rewrite unesc_other.
  - f_equal. now apply unesc_nz.
  - destruct t as [|c s]; auto. cbn. replace (x =? 0) with false by lia. now rewrite andb_false_r.
Qed.
Lemma solid_unesc : forall h l, solid h -> unesc (h ++ escape l) = h ++ l.
Proof.
  intros h l S. pose proof (proj1 (unesc_escape_from l)) as U. fold (escape l) in U.
  destruct h as [|x [|y [|z [|t [|q h]]]]]; try contradiction; cbn [solid app] in *.
  - rewrite unesc_nz by auto. now rewrite U.
  - destruct S as (X & Y & T). rewrite unesc_nz, unesc_nz, unesc_mid by auto. now rewrite U.
Qed.
(** Appending to a header keeps the absence of start codes. *)
Lemma nal_bytes_cons : forall x l, x <> 0 -> l = [] \/ nal_bytes l -> nal_bytes (x :: l).
Proof.
  intros x l X [->|(N & S & E)].
  - split; [discriminate|]. split.
    + intros [|a0 [|a1 a]] y b EQ; discriminate.
    + intros [|a0 [|a1 a]] EQ; inversion EQ; congruence.
  - split; [discriminate|]. split.
    + intros [|a0 a] y b EQ; injection EQ; intros; subst; [congruence|]. eapply S; eauto.
    + intros [|a0 a] EQ; injection EQ; intros; subst; [congruence|]. eapply E; eauto.
Qed.
Lemma nal_bytes_mid : forall z x l, x <> 0 -> l = [] \/ nal_bytes l -> nal_bytes (z :: x :: l).
Proof.
  intros z x l X L. pose proof (nal_bytes_cons x l X L) as (N & S & E).
  split; [discriminate|]. split.
  - intros [|a0 a] y b EQ; injection EQ; intros; subst; [congruence|]. eapply S; eauto.
  - intros [|a0 a] EQ; injection EQ; intros; subst; [discriminate|]. eapply E; eauto.
Qed.
Lemma solid_nal_bytes : forall h l, solid h -> l = [] \/ nal_bytes l -> nal_bytes (h ++ l).
Proof.
  intros h l S N. destruct h as [|x [|y [|z [|t [|q h]]]]]; try contradiction; cbn [solid app] in *.
  - apply nal_bytes_cons; auto.
  - destruct S as (X & Y & T). do 2 (apply nal_bytes_cons; [auto|right]). apply nal_bytes_mid; auto.
Qed.
(** The escaped payload: the last byte is kept unless 00 00 comes before it. *)
Lemma escape_last : forall l z a, (z <= 1)%nat \/ l <> [] -> (forall a, l <> a ++ [0]) -> escape_from z l <> a ++ [0].
Proof.
  induction l as [|x t IH]; intros z a Z L.
  - cbn [escape_from]. destruct Z as [Z|Z]; [|congruence].
    replace (2 <=? z)%nat with false by lia. destruct a; discriminate.
  - assert (Lt : forall a, t <> a ++ [0]) by (intros b ->; apply (L (x :: b)); reflexivity).
    assert (X : t = [] -> x <> 0) by (intros -> ->; apply (L []); reflexivity).
    cbn [escape_from]. intros E.
    assert (Q : forall w, (w <= 1)%nat \/ t <> [] -> forall a, escape_from w t <> a ++ [0]) by (intros; apply IH; auto).
    assert (Z0 : escape_from 0 t <> [] -> t = [] -> False).
    { intros H ->. apply H. reflexivity. }
    destruct ((2 <=? z)%nat && (x <=? 3)).
    + destruct a as [|a0 [|a1 a]]; [discriminate| |].
      * injection E as _ Ex Et. destruct (x =? 0) eqn:X0; [|lia].
        destruct t as [|y t]; [apply X; lia|]. cbn [escape_from Nat.leb andb] in Et. discriminate.
      * injection E as _ _ Et. apply Q in Et; [auto|]. left. destruct (x =? 0); lia.
    + destruct a as [|a0 a].
      * injection E as Ex Et. destruct t as [|y t]; [apply X; auto|].
        cbn [escape_from] in Et. destruct (_ && _); discriminate.
      * injection E as _ Et. apply Q in Et; [auto|]. destruct t as [|y t]; [|right; discriminate].
        left. replace (x =? 0) with false by (specialize (X eq_refl); lia). lia.
Qed.
Lemma escape_nal_bytes : forall l, (forall a, l <> a ++ [0]) -> escape l = [] \/ nal_bytes (escape l).
Proof.
  intros l L. destruct l as [|x t]; [left; reflexivity|]. right.
  destruct (escape_conforming (x :: t)) as ((C & _ & _) & _). split; [|split].
  - unfold escape. cbn [escape_from Nat.leb andb]. discriminate.
  - intros a y b E. specialize (C a y b E). lia.
  - intros a. apply escape_last; [right; discriminate|auto].
Qed.

(** * NAL unit headers *)
Lemma enc_nalh_length : forall h, length (enc_nalh h) = match nal_svc h with Some _ => 32%nat | None => 8%nat end.
Proof.
  intros h. unfold enc_nalh, enc_nal_byte, u_bits. rewrite !app_length, !nbits_length.
  destruct (nal_svc h) as [e|]; [|reflexivity]. unfold enc_svc_ext, u_bits.
  rewrite !app_length, !nbits_length. reflexivity.
Qed.
Lemma enc_nalh_mod : forall h, (length (enc_nalh h) mod 8 = 0)%nat.
Proof. intros h. rewrite enc_nalh_length. destruct (nal_svc h); reflexivity. Qed.
Lemma enc_nalh_bits : forall h, bits_of (octets (enc_nalh h)) = enc_nalh h.
Proof. intros h. apply bits_of_octets, enc_nalh_mod. Qed.

(** * Trailing bits at the end of an aligned structure *)
Lemma after_trailing_stop : forall b k rest, bb_wf b -> bb_rem b = stop_bits k ++ rest ->
  tb_len b = S k -> after_trailing b = bb_adv b (S k).
Proof.
  intros b k rest W E T. unfold after_trailing.
  assert (L : length (stop_bits k) = S k) by (unfold stop_bits; cbn [length]; now rewrite repeat_length).
  destruct (rbsp_trailing_bits_spec b W) as [[_ ->]|[X _]].
  - now rewrite T.
  - exfalso. apply X. rewrite E, T, firstn_app, L, Nat.sub_diag, firstn_all2 by (rewrite L; lia).
    cbn [firstn]. rewrite app_nil_r. f_equal. lia.
Qed.
Lemma after_rbsp : forall b l rest, bb_wf b -> bb_bit b = 0 -> bb_rem b = rbsp l ++ rest ->
  after_trailing (bb_adv b (length l)) = bb_adv b (length (rbsp l)).
Proof.
  intros b l rest W A E. unfold rbsp in E. rewrite <- app_assoc in E.
  assert (L : (length l <= length (bb_rem b))%nat) by (rewrite E, app_length; lia).
  rewrite (after_trailing_stop _ (7 - length l mod 8) rest).
  - rewrite bb_adv_adv. f_equal. unfold rbsp, stop_bits. rewrite app_length. cbn [length].
    rewrite repeat_length. lia.
  - apply bb_adv_wf; auto.
  - rewrite bb_adv_rem by auto. rewrite E. apply skipn_app_exact; auto.
  - unfold tb_len, bb_adv. cbn [bb_bit]. rewrite A. lia.
Qed.
