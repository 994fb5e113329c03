(** C11-C15: emulation prevention, RBSP trailing bits, checksum. *)
From Coq Require Import NArith ZArith List Bool Lia ZifyBool ZifyNat ZifyN Permutation.
From Verif Require Import SpecBits Base BitBuffer SpecReader BitsLemmas BitBufferProofs
  ReaderProofs Rbsp SpecRbsp RbspProofs ChecksumProofs.
Import ListNotations.
Open Scope N_scope.
Ltac Zify.zify_post_hook ::= Z.div_mod_to_equations.

(** * C11: UnescapeRbsp inverts the standard's emulation prevention *)
(** Every byte string that can be held in a std::vector (at most 2^63-1 bytes). *)
Theorem C11_unescape_escape : forall l, N.of_nat (length (escape l)) < 2 ^ 63 ->
  UnescapeRbsp (escape l) (N.of_nat (length (escape l))) = Ok l.
Proof.
  intros l H. rewrite UnescapeRbsp_spec by auto. f_equal. apply (unesc_escape_from l).
Qed.
(** On the payloads an encoder can produce, the two are mutually inverse. *)
Theorem C11_escape_unescape : forall l, conforming l -> N.of_nat (length l) < 2 ^ 63 ->
  exists r, UnescapeRbsp l (N.of_nat (length l)) = Ok r /\ escape r = l.
Proof.
  intros l C H. exists (unesc l). rewrite UnescapeRbsp_spec by auto. split; auto.
  now apply escape_unesc.
Qed.
(** The encoder side used above really is emulation prevention: no start code survives. *)
Theorem C11_escape_conforming : forall l, conforming (escape l).
Proof. intros l. apply (escape_conforming l). Qed.
Example C11_ex : escape [0; 0; 0; 0; 1; 7; 0; 0] = [0; 0; 3; 0; 0; 3; 1; 7; 0; 0; 3] /\
  UnescapeRbsp [0; 0; 3; 0; 0; 3; 1; 7; 0; 0; 3] 11 = Ok [0; 0; 0; 0; 1; 7; 0; 0].
Proof. vm_compute. auto. Qed.

(** * C12: UnescapeRbsp removes exactly the emulation-prevention bytes *)
Theorem C12_unescape_strips : forall l, N.of_nat (length l) < 2 ^ 63 ->
  exists r, UnescapeRbsp l (N.of_nat (length l)) = Ok r /\
    forall r', strips l r' <-> r' = r.
Proof.
  intros l H. exists (unesc l). rewrite UnescapeRbsp_spec by auto. split; auto.
  intros r'. split; [apply strips_unesc|]. intros ->. apply unesc_strips.
Qed.
Theorem C12_unescape_bytes : forall l r, bytes_ok l -> N.of_nat (length l) < 2 ^ 63 ->
  UnescapeRbsp l (N.of_nat (length l)) = Ok r ->
  (length r <= length l)%nat /\ bytes_ok r.
Proof.
  intros l r B H E. rewrite UnescapeRbsp_spec in E by auto. injection E as <-.
  split; [apply unesc_length|now apply unesc_ok].
Qed.
Theorem C12_unescape_identity : forall l, N.of_nat (length l) < 2 ^ 63 ->
  ~ contains [0; 0; 3] l -> UnescapeRbsp l (N.of_nat (length l)) = Ok l.
Proof. intros l H N. rewrite UnescapeRbsp_spec by auto. now rewrite unesc_id. Qed.
Example C12_ex : UnescapeRbsp [0; 0; 3; 0; 3; 3] 6 = Ok [0; 0; 0; 3; 3] /\
  UnescapeRbsp [0; 0; 0; 3] 4 = Ok [0; 0; 0] /\ UnescapeRbsp [0; 0] 2 = Ok [0; 0].
Proof. vm_compute. auto. Qed.

(** * C13: more_rbsp_data *)
(** Exact behaviour: no more data iff nothing is left, or what is left is one stop bit
    followed by at most seven zero bits.  (The buffer is an argument by value here: the
    modelled function cannot move it, as only PeekBits is called.) *)
Theorem C13_more_data_exact : forall b, reachable b ->
  exists v, more_rbsp_data b = Ok v /\
    (v = false <-> bb_rem b = [] \/ exists k, (k < 8)%nat /\ bb_rem b = stop_bits k).
Proof.
  intros b R. apply reachable_wf in R. rewrite more_rbsp_data_spec by auto.
  eexists. split; [reflexivity|]. rewrite <- is_stop_iff.
  destruct (bb_rem b) as [|x t].
  - cbn. tauto.
  - destruct (is_stop (x :: t)); cbn [negb]; intuition congruence.
Qed.
(** At any position of an RBSP (data, stop bit, zero alignment) the answer is the
    standard's: is there data before the trailing bits? *)
Theorem C13_more_data_standard : forall b data k, reachable b ->
  bits_of (bb_bytes b) = data ++ stop_bits k -> (k < 8)%nat ->
  (bb_pos b <= length data)%nat ->
  more_rbsp_data b = Ok (bb_pos b <? length data)%nat.
Proof.
  intros b data k R E K P. destruct (C13_more_data_exact b R) as (v & EV & IFF).
  rewrite EV. f_equal.
  assert (RM : bb_rem b = skipn (bb_pos b) data ++ stop_bits k).
  { unfold bb_rem. rewrite E, skipn_app. replace (bb_pos b - length data)%nat with 0%nat by lia.
    reflexivity. }
  destruct (Nat.ltb_spec (bb_pos b) (length data)) as [L|L].
  - destruct v; auto. exfalso. destruct (proj1 IFF eq_refl) as [E0|(k' & K' & E')].
    + rewrite E0 in RM. destruct (skipn (bb_pos b) data); discriminate.
    + rewrite E' in RM. pose proof (skipn_length (bb_pos b) data) as SL.
      destruct (skipn (bb_pos b) data) as [|x t]; [cbn in SL; lia|].
      unfold stop_bits in RM. injection RM as _ RM.
      assert (I : In true (repeat false k')).
      { rewrite RM. apply in_or_app. right. left. reflexivity. }
      apply repeat_spec in I. discriminate.
  - apply IFF. right. exists k. split; auto.
    rewrite RM, skipn_all2 by lia. reflexivity.
Qed.
(** With zero bytes after the trailing bits (e.g. cabac_zero_words, or the zero byte of the
    next 4-byte start code) the function claims more data although there is none. *)
Theorem C13_more_data_trailing_zeros_refuted : forall b data k z, reachable b ->
  bits_of (bb_bytes b) = data ++ stop_bits k ++ repeat false (8 * z) -> (0 < z)%nat ->
  bb_pos b = length data -> more_rbsp_data b = Ok true.
Proof.
  intros b data k z R E Z P. destruct (C13_more_data_exact b R) as (v & EV & IFF).
  rewrite EV. f_equal. destruct v; auto. exfalso.
  assert (RM : bb_rem b = stop_bits k ++ repeat false (8 * z)).
  { unfold bb_rem. rewrite E, P, skipn_app, skipn_all, Nat.sub_diag. reflexivity. }
  destruct (proj1 IFF eq_refl) as [E0|(k' & K' & E')].
  - rewrite E0 in RM. discriminate.
  - apply (f_equal (@length bool)) in E'. rewrite RM in E'. unfold stop_bits in E'.
    rewrite app_length in E'. cbn [length] in E'. rewrite !repeat_length in E'. lia.
Qed.
Definition ex_r : bb := run_ops [OReadBits 5] (mkbb [255; 128] 0 0 true).
Example ex_r_reachable : reachable ex_r.
Proof.
  eapply reach_op with (b := mkbb [255; 128] 0 0 true) (o := OReadBits 5).
  - apply (reach_new true [255; 128]); [|reflexivity|reflexivity]. repeat constructor.
  - reflexivity.
  - reflexivity.
Qed.
Example C13_ex : bits_of (bb_bytes ex_r) = nbits 8 255 ++ stop_bits 7 /\
  more_rbsp_data ex_r = Ok true /\ more_rbsp_data (snd (ReadBits 3 ex_r)) = Ok false /\
  more_rbsp_data (mkbb [128; 0] 0 0 true) = Ok true.
Proof. vm_compute. auto. Qed.

(** * C14: rbsp_trailing_bits *)
Theorem C14_trailing_bits_exact : forall b, reachable b ->
  let n := (8 - bb_pos b mod 8)%nat in
  (fst (rbsp_trailing_bits b) = Ok tt <-> exists rest, bb_rem b = stop_bits (n - 1) ++ rest) /\
  (fst (rbsp_trailing_bits b) = Ok tt ->
     bb_pos (snd (rbsp_trailing_bits b)) = (bb_pos b + n)%nat /\
     (bb_pos (snd (rbsp_trailing_bits b)) mod 8 = 0)%nat) /\
  (fst (rbsp_trailing_bits b) <> Ok tt -> fst (rbsp_trailing_bits b) = Null) /\
  reachable (snd (rbsp_trailing_bits b)) /\
  bb_bytes (snd (rbsp_trailing_bits b)) = bb_bytes b.
Proof.
  intros b R n. pose proof (reachable_wf b R) as W. pose proof W as (H1 & H2 & H3 & H4).
  assert (N8 : n = tb_len b) by (unfold n, tb_len, bb_pos; lia).
  assert (L : (1 <= n <= 8)%nat) by (unfold n; lia).
  destruct (rbsp_trailing_bits_spec b W) as [[E1 E2]|[E1 (m & Hm & E2)]]; rewrite <- N8 in *; rewrite E2.
  - cbn [fst snd].
    assert (Ln : (n <= length (bb_rem b))%nat).
    { apply (f_equal (@length bool)) in E1. rewrite firstn_length in E1. unfold stop_bits in E1.
      cbn [length] in E1. rewrite repeat_length in E1. lia. }
    pose proof (bb_adv_pos b n) as P.
    split; [|split; [|split; [|split]]].
    + split; auto. intros _. exists (skipn n (bb_rem b)). rewrite <- E1. symmetry. apply firstn_skipn.
    + intros _. rewrite P. split; [reflexivity|]. unfold n. lia.
    + congruence.
    + eapply reachable_kept; eauto. now apply kept_adv.
    + apply bb_adv_bytes.
  - cbn [fst snd]. split; [|split; [|split; [|split]]].
    + split; [discriminate|]. intros (rest & E). exfalso. apply E1. rewrite E.
      rewrite firstn_app_exact'; auto. unfold stop_bits. cbn [length]. rewrite repeat_length. lia.
    + discriminate.
    + auto.
    + eapply reachable_kept; eauto. now apply kept_adv.
    + apply bb_adv_bytes.
Qed.
Example C14_ex : rbsp_trailing_bits (snd (ReadBits 3 (mkbb [240; 1] 0 0 true))) =
  (Ok tt, mkbb [240; 1] 1 0 true).
Proof. reflexivity. Qed.

(** * C15: NALU checksum *)
Theorem C15_checksum : forall b, reachable b -> N.of_nat (length (bb_bytes b)) <= 2 ^ 34 ->
  GetNaluChecksum b =
  (Ok (bytes_of_u32 (2 ^ 32 - 1 - oc_sum (words32 (octets (bb_rem b))))), b).
Proof.
  intros b R H. apply reachable_wf in R. apply GetNaluChecksum_spec; auto.
  now apply checksum_sum_small.
Qed.
(** It terminates and leaves the position alone whatever the size. *)
Theorem C15_checksum_total : forall b, reachable b ->
  exists v, GetNaluChecksum b = (Ok v, b) /\ length v = 4%nat.
Proof.
  intros b R. apply reachable_wf in R. rewrite GetNaluChecksum_gen by auto. eauto.
Qed.
(** What the sum is: the residue modulo 2^32-1 (with 2^32-1 rather than 0 for a non-zero
    sum), hence independent of the order of the words. *)
Theorem C15_sum_is_residue : forall l, Forall (fun v => v < 2 ^ 32) l ->
  oc_sum l < 2 ^ 32 /\ (oc_sum l = 0 <-> Forall (eq 0) l) /\
  oc_sum l mod (2 ^ 32 - 1) = fold_right N.add 0 l mod (2 ^ 32 - 1).
Proof.
  intros l F. rewrite oc_sum_spec by auto. split; [apply oc_of_bound|]. split.
  - rewrite nsum_zero. unfold oc_of. destruct (nsum l =? 0) eqn:E; lia.
  - change (fold_right N.add 0 l) with (nsum l). unfold oc_of.
    destruct (nsum l =? 0) eqn:E; [lia|].
    rewrite N.add_mod_idemp_l by lia. f_equal. lia.
Qed.
Theorem C15_order_independent : forall b b', reachable b -> reachable b' ->
  N.of_nat (length (bb_bytes b)) <= 2 ^ 34 -> N.of_nat (length (bb_bytes b')) <= 2 ^ 34 ->
  Permutation (words32 (octets (bb_rem b))) (words32 (octets (bb_rem b'))) ->
  fst (GetNaluChecksum b) = fst (GetNaluChecksum b').
Proof.
  intros b b' R R' H H' P. rewrite !C15_checksum by auto. cbn [fst]. do 3 f_equal.
  apply oc_sum_perm; auto. apply words32_ok, octets_ok.
Qed.
Example C15_ex : GetNaluChecksum (mkbb [0; 1; 2; 3; 255] 0 0 true) =
  (Ok [0; 254; 253; 252], mkbb [0; 1; 2; 3; 255] 0 0 true) /\
  GetNaluChecksum ex_r = (Ok [15; 255; 255; 255], ex_r).
Proof. vm_compute. auto. Qed.

Print Assumptions C11_unescape_escape.
Print Assumptions C11_escape_unescape.
Print Assumptions C11_escape_conforming.
Print Assumptions C12_unescape_strips.
Print Assumptions C12_unescape_bytes.
Print Assumptions C12_unescape_identity.
Print Assumptions C13_more_data_exact.
Print Assumptions C13_more_data_standard.
Print Assumptions C13_more_data_trailing_zeros_refuted.
Print Assumptions C14_trailing_bits_exact.
Print Assumptions C15_checksum.
Print Assumptions C15_checksum_total.
Print Assumptions C15_sum_is_residue.
Print Assumptions C15_order_independent.
