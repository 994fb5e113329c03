(** NAL unit header parser: safety, soundness, completeness. *)
From Coq Require Import NArith ZArith List Bool Lia ZifyBool ZifyNat ZifyN.
From Verif Require Import SpecBits Base BitBuffer SpecReader BitsLemmas BitBufferProofs
  Parser ParserProofs SpecVui VuiProofs TypesNal NalHeader SpecNalHeader.
Import ListNotations.
Open Scope N_scope.
Ltac Zify.zify_post_hook ::= Z.div_mod_to_equations.

Ltac red_svc_ext := cbn [
  svc_idr_flag svc_priority_id svc_no_inter_layer_pred_flag svc_dependency_id
   svc_quality_id svc_temporal_id svc_use_ref_base_pic_flag svc_discardable_flag
   svc_output_flag svc_reserved_three_2bits].
Tactic Notation "red_svc_ext" "in" hyp(H) := cbn [
  svc_idr_flag svc_priority_id svc_no_inter_layer_pred_flag svc_dependency_id
   svc_quality_id svc_temporal_id svc_use_ref_base_pic_flag svc_discardable_flag
   svc_output_flag svc_reserved_three_2bits] in H.
Ltac red_nalh := cbn [
  forbidden_zero_bit nal_ref_idc nal_unit_type svc_extension_flag
   avc_3d_extension_flag nal_svc].
Tactic Notation "red_nalh" "in" hyp(H) := cbn [
  forbidden_zero_bit nal_ref_idc nal_unit_type svc_extension_flag
   avc_3d_extension_flag nal_svc] in H.

Lemma svc_ext_good : good ParseNalUnitHeaderSvcExtension.
Proof. unfold ParseNalUnitHeaderSvcExtension. good_tac. Qed.
#[export] Hint Resolve svc_ext_good : good.
Lemma svc_ext_sound : sound ParseNalUnitHeaderSvcExtension valid_svc_ext enc_svc_ext.
Proof.
  intros b v b' W H. unfold ParseNalUnitHeaderSvcExtension in H. inv.
  unfold valid_svc_ext, enc_svc_ext. red_svc_ext. fin.
Qed.
Lemma svc_ext_complete : complete ParseNalUnitHeaderSvcExtension valid_svc_ext enc_svc_ext.
Proof.
  intros v V. destruct v. unfold valid_svc_ext in V. red_svc_ext in V. conj.
  unfold enc_svc_ext, ParseNalUnitHeaderSvcExtension. red_svc_ext. walk.
Qed.
#[export] Hint Resolve svc_ext_sound : snd.
#[export] Hint Resolve svc_ext_complete : prs.

Lemma ParseNalUnitHeader_good : good ParseNalUnitHeader.
Proof. unfold ParseNalUnitHeader. good_tac. Qed.
#[export] Hint Resolve ParseNalUnitHeader_good : good.

Ltac rd :=
  match goal with
  | W : bb_wf ?b, H : ReadBits _ ?b = (Ok _, _) |- _ =>
      apply ReadBits_sound in H; [|exact W]; destruct H as [[? ?] H];
      pose proof (reads_wf _ _ _ H)
  end.
Lemma u1_bit : forall x, is_u 1 x -> u_bits 1 x = [tob x].
Proof.
  intros x H. unfold is_u in H. assert (x = 0 \/ x = 1) as [->| ->] by lia; reflexivity.
Qed.

Lemma ParseNalUnitHeader_sound : forall b r b', bb_wf b ->
  ParseNalUnitHeader b = (Ok r, b') ->
  match r with
  | Some h => valid_nalh h /\ reads b (enc_nalh h) b'
  | None => exists c, announces_other_ext c /\ reads b c b'
  end.
Proof.
  intros b r b' W H. unfold ParseNalUnitHeader in H.
  apply sbind_inv in H. destruct H as (f & b1 & Q1 & H). rd.
  apply sbind_inv in H. destruct H as (rr & b2 & Q2 & H). rd.
  apply sbind_inv in H. destruct H as (t & b3 & Q3 & H). rd.
  assert (R : reads b (enc_nal_byte f rr t) b3).
  { unfold enc_nal_byte. fin. }
  destruct ((t =? 14) || (t =? 20) || (t =? 21)) eqn:Et.
  - apply sbind_inv in H. destruct H as (svc & b4 & Q4 & H).
    apply sbind_inv in H. destruct H as (avc & b5 & Q5 & H).
    destruct (t =? 21) eqn:E21; cbn [cond negb] in Q4, Q5.
    + apply sret_inv in Q4. destruct Q4 as [-> ->]. rd. change (tob 0) with false in H. cbv iota in H.
      assert (H' : sret None b5 = (Ok r, b')) by (destruct (tob avc); exact H).
      apply sret_inv in H'. destruct H' as [-> ->].
      exists (enc_nal_byte f rr t ++ [tob avc]). split.
      * exists f, rr, t, (tob avc). repeat (split; [assumption || reflexivity|]). right. right. lia.
      * eapply reads_app; [exact R|]. rewrite <- u1_bit; auto.
    + rd. apply sret_inv in Q5. destruct Q5 as [-> ->]. cbn [tob] in H. change (tob 0) with false in H. cbv iota in H.
      destruct (tob svc) eqn:Es.
      * inv. unfold valid_nalh, enc_nalh. red_nalh. split.
        -- repeat (split; [assumption || reflexivity|]). split; [lia|].
           split; [|assumption]. unfold is_u, tob in *. lia.
        -- eapply reads_app; [exact R|]. eapply reads_app; [|eassumption].
           rewrite <- Es, <- u1_bit; auto.
      * apply sret_inv in H. destruct H as [-> ->].
        exists (enc_nal_byte f rr t ++ [false]). split.
        -- exists f, rr, t, false. repeat (split; [assumption || reflexivity|]). lia.
        -- eapply reads_app; [exact R|]. rewrite <- Es, <- u1_bit; auto.
  - apply sret_inv in H. destruct H as [-> ->]. unfold valid_nalh, enc_nalh. red_nalh.
    rewrite app_nil_r. split; [|exact R].
    repeat (split; [assumption || reflexivity|]). lia.
Qed.

Lemma ParseNalUnitHeader_complete : forall h, valid_nalh h ->
  parses ParseNalUnitHeader (enc_nalh h) (Some h).
Proof.
  intros h V. destruct h as [f r t s a e]. unfold valid_nalh in V. red_nalh in V. conj.
  unfold enc_nalh, enc_nal_byte, ParseNalUnitHeader. red_nalh. rewrite <- !app_assoc. subst.
  destruct e as [e|].
  - conj. subst. eapply parses_bind; [walk|]. eapply parses_bind; [walk|].
    eapply parses_bind; [walk|].
    replace ((t =? 14) || (t =? 20) || (t =? 21)) with true by lia.
    replace (t =? 21) with false by lia. cbn [negb cond].
    change [true] with (u_bits 1 1). eapply parses_bind; [walk|].
    eapply parses_bind0; [apply parses_ret|]. change (tob 1) with true. cbv iota. walk.
  - conj. subst. eapply parses_bind; [walk|]. eapply parses_bind; [walk|].
    eapply parses_bind; [walk|].
    replace ((t =? 14) || (t =? 20) || (t =? 21)) with false by lia. walk.
Qed.
Lemma ParseNalUnitHeader_unimpl : forall c, announces_other_ext c ->
  parses ParseNalUnitHeader c None.
Proof.
  intros c (f & r & t & x & Hf & Hr & -> & Ht). unfold enc_nal_byte, ParseNalUnitHeader.
  rewrite <- !app_assoc.
  eapply parses_bind; [walk|]. eapply parses_bind; [walk|].
  eapply parses_bind; [apply ReadBits_parses; lia|].
  replace ((t =? 14) || (t =? 20) || (t =? 21)) with true by lia.
  replace [x] with (u_bits 1 (N.b2n x)) by (destruct x; reflexivity).
  assert (is_u 1 (N.b2n x)) by (destruct x; reflexivity).
  destruct (t =? 21) eqn:E; cbn [negb cond].
  - eapply parses_bind0; [apply parses_ret|]. change (tob 0) with false. cbv iota.
    eapply parses_bind1; [walk|]. destruct (tob (N.b2n x)); walk.
  - eapply parses_bind1; [walk|]. eapply parses_bind0; [apply parses_ret|].
    replace x with false by (destruct x; lia). change (tob (N.b2n false)) with false.
    change (tob 0) with false. cbv iota. walk.
Qed.

(** ** Failure means the data was cut short *)
Definition short {A} (p : P A) (n : nat) : Prop :=
  forall b b', bb_wf b -> p b = (Null, b') -> (length (bb_rem b) < n)%nat.
Lemma short_read : forall A k (f : N -> P A) n, 1 <= k <= 32 -> (forall v, short (f v) n) ->
  short (sbind (ReadBits k) f) (N.to_nat k + n).
Proof.
  intros A k f n K F b b' W H. unfold sbind in H. rewrite ReadBits_spec in H by auto.
  destruct (rd_ok k b) eqn:E; unfold rd_ok in E.
  - apply F in H.
    + rewrite bb_adv_rem, skipn_length in H by lia. lia.
    + apply bb_adv_wf; auto. lia.
  - lia.
Qed.
Lemma short_ret : forall A (a : A) n, short (sret a) n.
Proof. intros A a n b b' W H. discriminate. Qed.
Lemma short_mono : forall A (p : P A) n m, short p n -> (n <= m)%nat -> short p m.
Proof. intros A p n m H L b b' W E. specialize (H b b' W E). lia. Qed.
Ltac short_tac :=
  repeat first
    [ apply short_ret
    | eapply short_read; [lia|intros ?] ].
Lemma short_svc : short ParseNalUnitHeaderSvcExtension 23.
Proof.
  eapply short_mono; [unfold ParseNalUnitHeaderSvcExtension; short_tac|].
  instantiate (1 := 0%nat). cbn. lia.
Qed.
Lemma short_bind_last : forall A B (p : P A) (g : A -> B) n, short p n ->
  short (sbind p (fun e => sret (g e))) n.
Proof.
  intros A B p g n S b b' W H. unfold sbind in H.
  destruct (p b) as [[a| |k| |] b1] eqn:E; try discriminate. eapply S; eauto.
Qed.
Lemma short_header : short ParseNalUnitHeader 32.
Proof.
  change 32%nat with (N.to_nat 1 + (N.to_nat 2 + (N.to_nat 5 + 24)))%nat.
  unfold ParseNalUnitHeader. apply short_read; [lia|intros f]. apply short_read; [lia|intros r].
  apply short_read; [lia|intros t].
  destruct ((t =? 14) || (t =? 20) || (t =? 21)); [|apply short_ret].
  change 24%nat with (N.to_nat 1 + 23)%nat.
  destruct (t =? 21); cbn [negb cond].
  - change (short (sbind (ReadBits 1) (fun avc => if tob avc then sret None else @sret bb (option nalh) None)) (N.to_nat 1 + 23)).
    apply short_read; [lia|intros avc]. destruct (tob avc); apply short_ret.
  - apply short_read; [lia|intros svc].
    change (short (if tob svc then sbind ParseNalUnitHeaderSvcExtension
      (fun e => sret (Some (mknalh f r t svc 0 (Some e)))) else sret None) 23).
    destruct (tob svc); [|apply short_ret]. apply short_bind_last. apply short_svc.
Qed.
Lemma header_null : forall b b', bb_wf b -> ParseNalUnitHeader b = (Null, b') ->
  (8 <= length (bb_rem b))%nat -> exists f r t rest, is_u 1 f /\ is_u 2 r /\
  (t = 14 \/ t = 20 \/ t = 21) /\ bb_rem b = enc_nal_byte f r t ++ rest.
Proof.
  intros b b' W H L.
  assert (T : forall k a, bb_wf a -> 1 <= k <= 32 -> (N.to_nat k <= length (bb_rem a))%nat ->
    exists v a', ReadBits k a = (Ok v, a') /\ is_u k v /\ reads a (u_bits k v) a').
  { intros k a Wa K La. rewrite ReadBits_spec by auto. replace (rd_ok k a) with true.
    - eexists. eexists. split; [reflexivity|].
      assert (Hs : ReadBits k a = (Ok (bval (firstn (N.to_nat k) (bb_rem a))), bb_adv a (N.to_nat k))).
      { rewrite ReadBits_spec by auto. replace (rd_ok k a) with true; [reflexivity|].
        unfold rd_ok. lia. }
      apply ReadBits_sound in Hs; [|auto]. destruct Hs as [[_ Hu] Hr]. split; auto.
    - unfold rd_ok. lia. }
  assert (Len : forall a k v a', reads a (u_bits k v) a' ->
    length (bb_rem a) = (N.to_nat k + length (bb_rem a'))%nat).
  { intros a k v a' (_ & E & _). rewrite E, app_length. f_equal. unfold u_bits. apply nbits_length. }
  unfold ParseNalUnitHeader in H.
  destruct (T 1 b) as (f & b1 & E1 & Uf & R1); [auto|lia|lia|].
  unfold sbind at 1 in H. rewrite E1 in H. pose proof (reads_wf _ _ _ R1) as W1.
  pose proof (Len _ _ _ _ R1) as L1.
  destruct (T 2 b1) as (r & b2 & E2 & Ur & R2); [auto|lia|lia|].
  unfold sbind at 1 in H. rewrite E2 in H. pose proof (reads_wf _ _ _ R2) as W2.
  pose proof (Len _ _ _ _ R2) as L2.
  destruct (T 5 b2) as (t & b3 & E3 & Ut & R3); [auto|lia|lia|].
  unfold sbind at 1 in H. rewrite E3 in H.
  destruct ((t =? 14) || (t =? 20) || (t =? 21)) eqn:Et; [|discriminate].
  exists f, r, t, (bb_rem b3). repeat (split; [assumption || lia|]).
  unfold enc_nal_byte. rewrite <- !app_assoc.
  destruct R1 as (_ & -> & _). destruct R2 as (_ & -> & _). destruct R3 as (_ & -> & _).
  reflexivity.
Qed.
