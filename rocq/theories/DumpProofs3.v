(** Dumps of NAL units and RTP packets. *)
From Coq Require Import NArith ZArith List Bool Lia ZifyBool ZifyNat ZifyN String Ascii.
From Verif Require Import SpecBits Base BitBuffer SpecReader BitsLemmas BitBufferProofs
  ReaderProofs Rbsp RbspProofs ChecksumProofs Parser SpecSyntax ParserProofs TypesSps TypesPps SpecVui Vui VuiProofs
  SpecSps Sps SpsProofs SpecPps Pps PpsProofs TypesNal NalHeader SpecNalHeader NalHeaderProofs
  TypesExt Ext SpecExt ExtProofs TypesSlice SpecSliceParts TypesSliceHeader SliceHeader SpecSlice SliceProofs TypesSvcSlice
  SvcSlice SpecSvcSlice SvcSliceProofs TypesNalUnit NalUnit NalUnitProofs SpecNalUnit NalUnitProofs2 NalType Rtp RtpProofs
  SpecRbsp PropsNalUnit Tool PropsTool SpecDump Dump DumpProofs DumpProofs2.
Import ListNotations.
Open Scope N_scope.
Open Scope list_scope.
Ltac Zify.zify_post_hook ::= Z.div_mod_to_equations.

(** * The checksum *)
Definition is_checksum (c : list N) : Prop := List.length c = 4%nat /\ Forall (fun b => b < 256) c.
Lemma checksum_bytes : forall b, is_checksum (checksum_of b).
Proof.
  intros b. unfold checksum_of. split; [reflexivity|].
  match goal with |- context[bytes_of_u32 ?v] => assert (V : v < 2 ^ 32) by (clear; lia); set (V0 := v) in * end. clearbody V0.
  unfold bytes_of_u32. repeat (apply Forall_cons; [first [apply N.mod_lt; lia | lia]|]). apply Forall_nil.
Qed.
Lemma dump_checksum_eq : forall c, is_checksum c ->
  dump_checksum c = fld "checksum" ("0x" ++ text_of (hex_of c)).
Proof.
  intros c [L F]. unfold dump_checksum. destruct (fdump_spec c [] 64 F) as (rest & E); [lia|].
  cbn [List.length app] in E. rewrite E. cbn [rbind]. rewrite c_string_spec by (apply hex_of_nonzero, F). reflexivity.
Qed.
Lemma hex_digit_char : forall d, d < 16 -> number_char (ascii_of_N (nth (N.to_nat d) hex_digits 0)) = true.
Proof.
  intros d H. assert (K : forallb (fun d => number_char (ascii_of_N (nth (N.to_nat d) hex_digits 0))) (map N.of_nat (seq 0 16)) = true) by reflexivity.
  rewrite forallb_forall in K. apply K. apply in_map_iff. exists (N.to_nat d). split; [lia|]. apply in_seq. lia.
Qed.
Lemma hex_of_char : forall c, Forall (fun b => b < 256) c -> all number_char (text_of (hex_of c)) = true.
Proof.
  intros c F. induction F as [|b c B F IH]; [reflexivity|]. cbn [hex_of flat_map app text_of all].
  rewrite !hex_digit_char by lia. cbn [andb]. exact IH.
Qed.
Lemma nice_checksum : forall c, is_checksum c -> nice (dump_checksum c).
Proof.
  intros c C. rewrite dump_checksum_eq by exact C. apply nice_fld; [reflexivity|]. apply number_plain; [discriminate|].
  cbn [append all]. rewrite hex_of_char by apply C. reflexivity.
Qed.

(** * NAL units *)
(** What parsing a unit returns. *)
Record good_unit (st : pstate) (ck : bool) (x : nalu) : Prop := mk_good_unit {
  gu_header : valid_nalh (nu_header x);
  gu_payload : good_payload st (nu_header x) (nu_payload x);
  gu_checksum : if ck then exists c, nu_checksum x = Some c /\ is_checksum c else nu_checksum x = None
}.
Lemma parse_good_unit : forall a ck u w x w', fits a u -> ok_state (w_st w) ->
  parse_unit a ck u w = (Ok x, w') -> good_unit (w_st w) ck x.
Proof.
  intros a ck u w x w' F O E.
  destruct (unit_cases a ck u w F O) as [(h & p & b1 & b2 & w2 & H1 & H2 & MV & _ & _ & _ & _ & E')|[(_ & _ & E')|(_ & _ & E')]];
    change (unit_parser a ck u w) with (parse_unit a ck u w) in E'; rewrite E in E'; try discriminate.
  assert (X : x = mknalu h p (get_current_offset b2) (if ck then Some (checksum_of (start a (unesc u))) else None)) by congruence.
  pose proof (start_wf _ _ (fits_unesc _ _ F)) as W. clear E E'. subst x. split; cbn [nu_header nu_payload nu_checksum].
  - apply ParseNalUnitHeader_sound in H1; [|auto]. tauto.
  - eapply (payload_good h b1); [eapply moves_wf; eauto|exact O|exact H2].
  - destruct ck; [|reflexivity]. eexists. split; [reflexivity|]. apply checksum_bytes.
Qed.
Lemma nice_nalu : forall o off len st ck x, (add_checksum o = true -> ck = true) -> good_unit st ck x ->
  nice (dump_nalu o off len x).
Proof.
  intros o off len st ck x C [_ G K]. unfold dump_nalu. nice1. repeat apply nice_app.
  - nices.
  - nices.
  - nices.
  - apply nice_when. intros A. rewrite (C A) in K. destruct K as (c & E & I). apply nice_deref.
    exists c. split; [exact E|]. apply nice_checksum, I.
  - apply nice_nalh.
  - eapply nice_payload; eauto.
Qed.

(** * RTP packets *)
(** What a parser returns when it succeeds. *)
Definition gives {A} (m : M A) (Q : A -> Prop) : Prop := forall b w v b' w', bb_wf b -> ok_state (w_st w) ->
  m (b, w) = (Ok v, (b', w')) -> Q v.
Lemma gives_bind : forall A B (p : M A) (f : A -> M B) Q R, wsafe p -> gives p Q ->
  (forall a, Q a -> gives (f a) R) -> gives (sbind p f) R.
Proof.
  intros A B p f Q R S G F b w v b' w' W O H. apply sbind_inv in H. destruct H as (a & [b1 w1] & H1 & H2).
  pose proof (S b w W O) as K. rewrite H1 in K. destruct K as [K1 K2].
  exact (F a (G _ _ _ _ _ W O H1) _ _ _ _ _ (proj1 K1) K2 H2).
Qed.
Lemma gives_ret : forall A (a : A) (Q : A -> Prop), Q a -> gives (sret a) Q.
Proof. intros A a Q H b w v b' w' _ _ E. apply sret_inv in E. destruct E as [-> _]. exact H. Qed.
Lemma gives_any : forall A (m : M A), gives m (fun _ => True).
Proof. intros A m b w v b' w' _ _ _. exact I. Qed.
Lemma gives_header : gives nal_header valid_nalh.
Proof.
  intros b w v b' w' W O H. unfold nal_header in H. apply sbind_inv in H. destruct H as (o & s1 & H1 & H2).
  destruct o as [h|]; [|discriminate]. apply sret_inv in H2. destruct H2 as [-> _].
  eapply storedu_inv in H1; [|reflexivity]. destruct H1 as (b1 & H1 & _). apply ParseNalUnitHeader_sound in H1; [|auto]. tauto.
Qed.
Definition some_good (h : nalh) (p : payload) : Prop := exists st, ok_state st /\ good_payload st h p.
Lemma gives_payload : forall h, gives (ParseNalUnitPayload h) (some_good h).
Proof. intros h b w p b' w' W O H. exists (w_st w). split; [auto|]. eapply payload_good; eauto. Qed.
Definition good_single (v : rtp_single) : Prop :=
  valid_nalh (rs_header v) /\ some_good (rs_header v) (rs_payload v).
Lemma gives_single : gives ParseRtpSingle good_single.
Proof.
  unfold ParseRtpSingle. eapply gives_bind; [apply wsafe_of, header_mgood|apply gives_header|]. intros h H.
  eapply gives_bind; [apply wsafe_of, payload_mgood|apply gives_payload|]. intros p K.
  apply gives_ret. split; auto.
Qed.
(** The three vectors of an aggregate. *)
Inductive good_agg : list N -> list nalh -> list payload -> Prop :=
| agg_nil : good_agg [] [] []
| agg_cons : forall n h p ns hs ps, valid_nalh h -> some_good h p -> good_agg ns hs ps -> good_agg (n :: ns) (h :: hs) (p :: ps).
Lemma good_agg_snoc : forall ns hs ps n h p, good_agg ns hs ps -> valid_nalh h -> some_good h p ->
  good_agg (ns ++ [n]) (hs ++ [h]) (ps ++ [p]).
Proof. intros ns hs ps n h p G V S. induction G; cbn [app]; constructor; auto. constructor. Qed.
Lemma gives_round : gives stapa_round (fun '(n, h, p) => valid_nalh h /\ some_good h p).
Proof.
  intros b w [[n h] p] b' w' W O H. apply round_inv in H; auto. destruct H as (L & _ & _ & H).
  eapply gives_single in H; eauto. apply bb_adv_wf; auto.
Qed.
Lemma gives_loop : forall f ss hs ps, good_agg (rev ss) (rev hs) (rev ps) ->
  gives (stapa_loop f ss hs ps) (fun '(a, b, c) => good_agg a b c).
Proof.
  induction f as [|f IH]; intros ss hs ps G b w v b' w' W O H.
  - cbn [stapa_loop] in H. destruct (0 <? _); [discriminate|]. injection H as <- _ _. exact G.
  - rewrite stapa_step in H by auto. destruct (_ =? 0)%nat.
    { injection H as <- _ _. exact G. }
    refine (gives_bind _ _ _ _ _ (fun '(a, b, c) => good_agg a b c) (wsafe_of _ _ round_mgood) gives_round _ _ _ _ _ _ W O H).
    intros [[n h] p] [V S]. apply IH. cbn [rev]. apply good_agg_snoc; auto.
Qed.
Definition good_stapa (v : rtp_stapa) : Prop :=
  valid_nalh (ra_header v) /\ good_agg (ra_nal_unit_sizes v) (ra_nal_unit_headers v) (ra_nal_unit_payloads v).
Lemma gives_stapa : gives ParseRtpStapA good_stapa.
Proof.
  unfold ParseRtpStapA. eapply gives_bind; [apply wsafe_of, header_mgood|apply gives_header|]. intros h H.
  eapply (gives_bind _ _ _ _ (fun '(a, b, c) => good_agg a b c)).
  - intros b w W O.
    pose proof (stapa_loop_good (S (List.length (bb_bytes b))) [] [] [] b w W O) as K.
    pose proof (bb_rem_length b W) as L. unfold bb_count in *. specialize (K ltac:(lia)).
    destruct (stapa_loop _ _ _ _ _) as [[v| |k| |] [b2 w2]]; auto; (split; [apply moves_kept; tauto|tauto]).
  - intros b w. apply gives_loop. constructor.
  - intros [[ss hs] ps] K. apply gives_ret. split; auto.
Qed.
Definition good_fua (v : rtp_fua) : Prop :=
  valid_nalh (rf_header v) /\ rf_s_bit v < 2 /\
  if rf_s_bit v =? 0 then rf_payload v = None
  else exists p, rf_payload v = Some p /\ some_good (mknalh 0 (rf_nal_ref_idc v) (rf_fu_type v) 0 0 None) p.
Lemma gives_fua : forall ref, gives (ParseRtpFuA ref) good_fua.
Proof.
  intros ref. unfold ParseRtpFuA. eapply gives_bind; [apply wsafe_of, header_mgood|apply gives_header|]. intros h H.
  eapply (gives_bind _ _ _ _ (fun s => s < 2)); [apply wsafe_of, mgood_onbuf, good_ReadBits| |intros s S].
  { intros b w v b' w' W O E. unfold onbuf in E. destruct (ReadBits 1 b) as [[x| |k| |] b1] eqn:R; try discriminate.
    injection E as <- _ _. apply u_snd in R; [|auto]. destruct R as [R _]. exact R. }
  do 3 (eapply gives_bind; [apply wsafe_of, mgood_onbuf, good_ReadBits|apply gives_any|intros ? _]).
  destruct (s =? 0) eqn:Z.
  - apply gives_ret. unfold good_fua. cbn. rewrite Z. auto.
  - eapply gives_bind; [apply wsafe_of, payload_mgood|apply gives_payload|]. intros p K.
    apply gives_ret. unfold good_fua. cbn. rewrite Z. eauto.
Qed.
Definition good_rtp (v : rtp) : Prop :=
  valid_nalh (rp_header v) /\
  let t := nal_unit_type (rp_header v) in
  if t <=? 23 then exists x, rp_single v = Some x /\ good_single x
  else if t =? 24 then exists x, rp_stapa v = Some x /\ good_stapa x
  else if t =? 28 then exists x, rp_fua v = Some x /\ good_fua x
  else True.
Lemma gives_rtp : gives ParseRtp good_rtp.
Proof.
  unfold ParseRtp. eapply gives_bind; [apply wsafe_of, header_mgood|apply gives_header|]. intros h H.
  eapply gives_bind; [|apply gives_any|intros _ _].
  { intros b w W O. unfold onbuf. rewrite seek0 by auto. cbn [snd]. split; [|auto].
    destruct W as (W1 & W2 & W3 & W4). repeat split; auto; cbn; lia. }
  cbv zeta. unfold good_rtp. destruct (_ <=? 23) eqn:T1.
  { eapply gives_bind; [apply wsafe_of, single_mgood|apply gives_single|]. intros p K. apply gives_ret.
    cbn. rewrite T1. eauto. }
  destruct (_ =? 24) eqn:T2.
  { eapply gives_bind; [apply wsafe_of, stapa_mgood|apply gives_stapa|]. intros p K. apply gives_ret.
    cbn. rewrite T1, T2. eauto. }
  destruct (_ =? 28) eqn:T3.
  { eapply gives_bind; [apply wsafe_of, fua_mgood|apply gives_fua|]. intros p K. apply gives_ret.
    cbn. rewrite T1, T2, T3. eauto. }
  apply gives_ret. cbn. rewrite T1, T2, T3. auto.
Qed.

Lemma nice_single : forall o v, good_single v -> nice (dump_rtp_single o v).
Proof.
  intros o v (_ & st & _ & G). unfold dump_rtp_single. nice1. apply nice_app; [apply nice_nalh|]. eapply nice_payload; eauto.
Qed.
Lemma nice_stapa : forall o v, good_stapa v -> nice (dump_rtp_stapa o v).
Proof.
  intros o v (_ & G). unfold dump_rtp_stapa. nice1. apply nice_app; [apply nice_nalh|].
  induction G as [|n h p ns hs ps V (st & _ & S) G IH]; cbn [dump_aggregated]; [apply nice_nil|].
  apply nice_app; [nices|]. apply nice_app; [apply nice_nalh|]. apply nice_app; [|exact IH]. eapply nice_payload; eauto.
Qed.
Lemma nice_fua : forall o v, good_fua v -> nice (dump_rtp_fua o v).
Proof.
  intros o v (_ & _ & G). unfold dump_rtp_fua. nice1. repeat (apply nice_app; [first [apply nice_nalh | solve [nices]]|]).
  apply nice_when. intros S. replace (rf_s_bit v =? 0) with false in G by lia. destruct G as (p & E & st & _ & G).
  apply nice_deref. exists p. split; [exact E|]. apply nice_payload with (o := o) in G. exact G.
Qed.
Lemma printable_rtp : forall o v, good_rtp v -> printable (dump_rtp o v).
Proof.
  intros o v (_ & G). unfold dump_rtp. cbv zeta in *. apply printable_block; [reflexivity|].
  assert (H : printable (dump_nalh (rp_header v))) by apply nice_printable, nice_nalh.
  destruct (_ <=? 23). { destruct G as (x & E & G). apply printable_glue; auto. rewrite E. apply nice_printable, nice_single, G. }
  destruct (_ =? 24). { destruct G as (x & E & G). apply printable_glue; auto. rewrite E. apply nice_printable, nice_stapa, G. }
  destruct (_ =? 28). { destruct G as (x & E & G). apply printable_glue; auto. rewrite E. apply nice_printable, nice_fua, G. }
  exact H.
Qed.
