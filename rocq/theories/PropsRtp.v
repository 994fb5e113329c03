(** Properties C45, C46 and C47: RTP packets. *)
From Coq Require Import NArith ZArith List Bool Lia ZifyBool ZifyNat ZifyN.
From Verif Require Import SpecBits Base BitBuffer SpecReader BitsLemmas BitBufferProofs
  ReaderProofs Rbsp SpecRbsp RbspProofs ChecksumProofs Parser SpecSyntax ParserProofs SpecVui SpecScaling SpecFraming
  Framing FramingProofs FramingProofs2 FramingProofs3 PropsFraming
  TypesSps Sps SpecSps SpsProofs TypesPps Pps SpecPps PpsProofs PropsSps PropsPps
  TypesNal NalHeader SpecNalHeader NalHeaderProofs TypesExt Ext SpecExt ExtProofs PropsExt
  TypesSlice TypesSliceHeader SliceHeader SpecSlice SliceProofs PropsSlice
  TypesSvcSlice SvcSlice SpecSvcSlice SvcSliceProofs PropsSvcSlice
  TypesNalUnit NalUnit NalUnitProofs SpecNalUnit NalUnitProofs2 NalUnitProofs3 PropsNalUnit PropsNalUnit2
  CodecProofs SpecMux MuxProofs PropsMux Rtp RtpProofs LocalProofs.
Import ListNotations.
Open Scope N_scope.
Ltac Zify.zify_post_hook ::= Z.div_mod_to_equations.

Definition parse_rtp (asserts : bool) (u : list N) (w : world) : res rtp * world :=
  ParseRtpBytes asserts u (size_of u) w.

(** * The first byte decides *)
Lemma unesc_hd : forall u, hd 0 (unesc u) = hd 0 u.
Proof.
  intros [|x t]; [reflexivity|]. destruct (is_triple (x :: t)) eqn:T.
  - destruct t as [|y [|z t]]; try discriminate. cbn in T. assert (x = 0 /\ y = 0 /\ z = 3) as (-> & -> & ->) by lia.
    rewrite unesc_triple. reflexivity.
  - rewrite unesc_other by auto. reflexivity.
Qed.
Lemma unesc_type : forall u, type_of (unesc u) = type_of u.
Proof. intros u. unfold type_of. now rewrite unesc_hd. Qed.
(** What ParseRtp does after looking at the header. *)
Definition rtp_rest (h : nalh) : M rtp := (
  let t := nal_unit_type h in
  if t <=? 23 then p <- ParseRtpSingle ;; sret (mkrtp h (Some p) None None)
  else if t =? 24 then p <- ParseRtpStapA ;; sret (mkrtp h None (Some p) None)
  else if t =? 28 then p <- ParseRtpFuA (nal_ref_idc h) ;; sret (mkrtp h None None (Some p))
  else sret (mkrtp h None None None))%m.
Lemma rtp_eq : forall a r w, fits a r -> ParseRtp (start a r, w) =
  match ParseNalUnitHeader (start a r) with
  | (Ok (Some h), b1) => rtp_rest h (start a r, w)
  | (Ok None, b1) => (Null, (b1, report w))
  | (Null, b1) => (Null, (b1, w))
  | (UB k, b1) => (UB k, (b1, w)) | (Abort, b1) => (Abort, (b1, w)) | (NoFuel, b1) => (NoFuel, (b1, w))
  end.
Proof.
  intros a r w F. pose proof (start_wf a r F) as W. unfold ParseRtp, nal_header, sbind, storedu, nonnull, sret, sfail.
  pose proof (ParseNalUnitHeader_good _ W) as G.
  destruct (ParseNalUnitHeader (start a r)) as [[[h|]| |k| |] b1]; try contradiction; try reflexivity.
  destruct G as (m & Lm & ->). unfold onbuf. rewrite seek0 by (apply bb_adv_wf; auto). reflexivity.
Qed.
Lemma single_eq : forall b w, ParseRtpSingle (b, w) =
  match ParseNalUnitHeader b with
  | (Ok (Some h), b1) =>
      match ParseNalUnitPayload h (b1, w) with
      | (Ok p, s) => (Ok (mkrtp_single h p), s)
      | (Null, s) => (Null, s) | (UB k, s) => (UB k, s) | (Abort, s) => (Abort, s)
      | (NoFuel, s) => (NoFuel, s)
      end
  | (Ok None, b1) => (Null, (b1, report w))
  | (Null, b1) => (Null, (b1, w))
  | (UB k, b1) => (UB k, (b1, w)) | (Abort, b1) => (Abort, (b1, w)) | (NoFuel, b1) => (NoFuel, (b1, w))
  end.
Proof.
  intros b w. unfold ParseRtpSingle, nal_header, sbind, storedu, nonnull, sret, sfail.
  destruct (ParseNalUnitHeader b) as [[[h|]| |k| |] b1]; try reflexivity.
Qed.

(** * C45: a packet with one unit *)
Definition as_single (x : nalu) : rtp :=
  mkrtp (nu_header x) (Some (mkrtp_single (nu_header x) (nu_payload x))) None None.
Theorem C45_same_as_nal_unit : forall a ck u w, history a w -> fits a u -> type_of u <= 23 ->
  fst (parse_rtp a u w) = res_map as_single (fst (parse_unit a ck u w)) /\
  snd (parse_rtp a u w) = snd (parse_unit a ck u w).
Proof.
  intros a ck u w H F T. change parse_unit with unit_parser. unfold unit_parser, parse_rtp, ParseRtpBytes.
  change (unescaping a ParseRtp u (size_of u) w) with (on_unit a ParseRtp u w).
  rewrite !on_unit_eq by auto. pose proof (fits_unesc _ _ F) as F'. pose proof (start_wf _ _ F') as W.
  rewrite rtp_eq, nalunit_eq by auto.
  destruct (ParseNalUnitHeader (start a (unesc u))) as [r b1] eqn:HE.
  pose proof (header_bytes a _ F' _ _ HE) as HB.
  destruct r as [[h|]| |k| |]; try tauto; try (split; reflexivity).
  destruct HB as (_ & _ & _ & _ & HT & _). rewrite unesc_type in HT.
  unfold rtp_rest. cbv zeta. rewrite HT. replace (type_of u <=? 23) with true by lia.
  unfold sbind. rewrite single_eq, HE.
  destruct (ParseNalUnitPayload h (b1, w)) as [[p| |k| |] [b2 w2]]; split; reflexivity.
Qed.
(** The other types of packet: neither single nor aggregate nor fragment is reported, and no
    state is touched. *)
Theorem C45_other_types : forall a u w, history a w -> fits a u -> type_of u > 24 -> type_of u <> 28 ->
  exists h, parse_rtp a u w = (Ok (mkrtp h None None None), w) /\
    nal_unit_type h = type_of u /\ nal_ref_idc h = hd 0 u / 32 mod 4 /\ forbidden_zero_bit h = hd 0 u / 128.
Proof.
  intros a u w H F T T28. unfold parse_rtp, ParseRtpBytes.
  change (unescaping a ParseRtp u (size_of u) w) with (on_unit a ParseRtp u w).
  rewrite on_unit_eq by auto. pose proof (fits_unesc _ _ F) as F'. pose proof (start_wf _ _ F') as W.
  rewrite rtp_eq by auto.
  destruct (ParseNalUnitHeader (start a (unesc u))) as [r b1] eqn:HE.
  pose proof (header_bytes a _ F' _ _ HE) as HB.
  assert (HR : header_read (unesc u)).
  { split; [|rewrite unesc_type; split; [lia|intros [?|?]; lia]].
    intros E. unfold type_of in T. rewrite <- unesc_hd, E in T. cbn in T. lia. }
  destruct r as [[h|]| |k| |]; try tauto.
  destruct HB as (_ & _ & H1 & H2 & HT & _). rewrite unesc_type in HT. rewrite unesc_hd in H1, H2.
  unfold rtp_rest. cbv zeta. rewrite HT. replace (type_of u <=? 23) with false by lia.
  replace (type_of u =? 24) with false by lia. replace (type_of u =? 28) with false by lia.
  exists h. auto.
Qed.
Example C45_ex : type_of ex_u_sps <= 23 /\ fits true ex_u_sps /\
  exists x, parse_rtp true ex_u_sps (mkw new_state 0) = (Ok x, mkw (mkst [(3, ex_slice_sps)] [] []) 0) /\
  rp_single x = Some (mkrtp_single (ex_h 3 7) (mkpayload None (Some ex_slice_sps) None None None None)).
Proof.
  split; [vm_compute; discriminate|]. split; [fits_tac|]. eexists. split; [vm_compute; reflexivity|]. vm_compute. reflexivity.
Qed.

(** * C46: aggregation packets *)
(** Two bytes further on. *)
Definition skip2 (b : bb) : bb := mkbb (bb_bytes b) (bb_byte b + 2) (bb_bit b) (bb_asserts b).
(** The bits of a packet as the parser takes them: 16 bits of size, no more than what is
    ahead; then header and payload, as in a packet of their own but with the rest of the
    aggregate visible behind them; the next unit starts where the payload parser stopped. *)
Inductive rounds : bb -> world -> list (N * nalh * payload) -> world -> Prop :=
| rounds_nil : forall b w, bb_rem b = [] -> rounds b w [] w
| rounds_cons : forall b w size ahead h p b1 w1 l w2,
    size < 2 ^ 16 -> bb_rem b = u_bits 16 size ++ ahead -> 8 * size <= N.of_nat (length ahead) ->
    ParseRtpSingle (skip2 b, w) = (Ok (mkrtp_single h p), (b1, w1)) ->
    rounds b1 w1 l w2 -> rounds b w ((size, h, p) :: l) w2.
Lemma skip2_adv : forall b, bb_wf b -> bb_adv b 16 = skip2 b.
Proof.
  intros b (_ & W1 & _). unfold bb_adv, skip2. cbv zeta. change (N.of_nat 16) with 16.
  replace ((8 * bb_byte b + bb_bit b + 16) / 8) with (bb_byte b + 2) by lia.
  replace ((8 * bb_byte b + bb_bit b + 16) mod 8) with (bb_bit b) by lia. reflexivity.
Qed.
Lemma size_bits : forall l size ahead, size < 2 ^ 16 ->
  l = u_bits 16 size ++ ahead -> bval (firstn 16 l) = size /\ length l = (16 + length ahead)%nat.
Proof.
  intros l size ahead S ->. unfold u_bits. change (N.to_nat 16) with 16%nat.
  rewrite app_length, nbits_length. split; [|reflexivity].
  rewrite firstn_app, nbits_length, Nat.sub_diag, firstn_all2 by (rewrite nbits_length; lia).
  cbn [firstn]. rewrite app_nil_r. apply bval_nbits_small. exact S.
Qed.
Lemma size_bits_inv : forall l, (16 <= length l)%nat ->
  bval (firstn 16 l) < 2 ^ 16 /\ l = u_bits 16 (bval (firstn 16 l)) ++ skipn 16 l.
Proof.
  intros l L. assert (L16 : length (firstn 16 l) = 16%nat) by (rewrite firstn_length; lia). split.
  - pose proof (bval_bound (firstn 16 l)) as B. rewrite L16 in B. exact B.
  - unfold u_bits. change (N.to_nat 16) with 16%nat. rewrite <- L16 at 1. rewrite nbits_bval.
    symmetry. apply firstn_skipn.
Qed.
Definition sizes (l : list (N * nalh * payload)) : list N := map (fun e => fst (fst e)) l.
Definition headers (l : list (N * nalh * payload)) : list nalh := map (fun e => snd (fst e)) l.
Definition payloads (l : list (N * nalh * payload)) : list payload := map snd l.
Lemma loop_rounds : forall fuel ss hs ps b w r w', bb_wf b -> ok_state (w_st w) ->
  (length (bb_rem b) <= 16 * fuel)%nat ->
  (exists b', stapa_loop fuel ss hs ps (b, w) = (Ok r, (b', w'))) <->
  (exists l, rounds b w l w' /\ r = (rev ss ++ sizes l, rev hs ++ headers l, rev ps ++ payloads l)).
Proof.
  induction fuel as [|f IH]; intros ss hs ps b w r w' W O L.
  - assert (L0 : length (bb_rem b) = 0%nat) by lia. rewrite stapa_end by auto. split.
    + intros (b' & E). injection E as <- <- <-. exists []. split; [constructor; destruct (bb_rem b); [auto|discriminate]|].
      cbn. rewrite !app_nil_r. reflexivity.
    + intros (l & R & ->). inversion R as [? ? ? E1 E2 E3|? ? size ahead ? ? ? ? ? ? S E]; subst.
      * eexists. cbn. rewrite !app_nil_r. reflexivity.
      * rewrite E, app_length in L0. unfold u_bits in L0. rewrite nbits_length in L0. lia.
  - rewrite stapa_step by auto. destruct (Nat.eqb_spec (length (bb_rem b)) 0) as [L0|L0].
    + split.
      * intros (b' & E). injection E as <- <- <-. exists []. split; [constructor; destruct (bb_rem b); [auto|discriminate]|].
        cbn. rewrite !app_nil_r. reflexivity.
      * intros (l & R & ->). inversion R as [? ? ? E1 E2 E3|? ? size ahead ? ? ? ? ? ? S E]; subst.
        -- eexists. cbn. rewrite !app_nil_r. reflexivity.
        -- rewrite E, app_length in L0. unfold u_bits in L0. rewrite nbits_length in L0. lia.
    + unfold sbind. pose proof (round_mgood b w W O) as G. split.
      * intros (b' & E).
        destruct (stapa_round (b, w)) as [[[[s h] p]| |k| |] [b1 w1]] eqn:R; try discriminate.
        destruct G as [MV O1]. pose proof (moves_wf _ _ W MV) as W1.
        apply round_inv in R; auto. destruct R as (L16 & Es & Fit & R).
        pose proof (single_mgood (bb_adv b 16) w (bb_adv_wf _ _ W L16) O) as G2. rewrite R in G2.
        pose proof (moves_len _ _ (bb_adv_wf _ _ W L16) (proj1 G2)) as L2.
        rewrite bb_adv_rem, skipn_length in L2 by auto.
        destruct (IH (s :: ss) (h :: hs) (p :: ps) b1 w1 r w' W1 O1 ltac:(lia)) as [I _].
        destruct (I (ex_intro _ b' E)) as (l & Rl & ->).
        destruct (size_bits_inv _ L16) as [B1 B2]. rewrite <- Es in B1, B2.
        exists ((s, h, p) :: l). split.
        -- eapply rounds_cons; [exact B1|exact B2| |rewrite <- skip2_adv by auto; exact R|exact Rl].
           rewrite skipn_length. lia.
        -- cbn [sizes headers payloads map fst snd rev]. rewrite <- !app_assoc. reflexivity.
      * intros (l & Rl & ->). inversion Rl as [? ? E1 E2 E3|? ? size ahead h p b1 w1 l' ? S E A P Rl' E2 E3]; subst.
        { rewrite E1 in L0. cbn in L0. lia. }
        destruct (size_bits _ _ _ S E) as [B1 B2].
        rewrite <- skip2_adv in P by auto.
        assert (R : stapa_round (b, w) = (Ok (size, h, p), (b1, w1))).
        { rewrite <- B1. apply round_ok; auto; [lia|]. rewrite B1. lia. }
        rewrite R in G |- *. destruct G as [MV O1]. pose proof (moves_wf _ _ W MV) as W1.
        assert (L16 : (16 <= length (bb_rem b))%nat) by lia.
        pose proof (single_mgood (bb_adv b 16) w (bb_adv_wf _ _ W L16) O) as G2. rewrite P in G2.
        pose proof (moves_len _ _ (bb_adv_wf _ _ W L16) (proj1 G2)) as L2.
        rewrite bb_adv_rem, skipn_length in L2 by auto.
        apply (IH (size :: ss) (h :: hs) (p :: ps) b1 w1 _ w' W1 O1 ltac:(lia)).
        exists l'. split; [exact Rl'|]. cbn [sizes headers payloads map fst snd rev]. rewrite <- !app_assoc. reflexivity.
Qed.
(** One-byte headers. *)
Definition plain_header (x : N) : nalh := mknalh (x / 128) (x / 32 mod 4) (x mod 32) 0 0 None.
Lemma plain_head_gen : forall a r, fits a r -> r <> [] -> ~ In (type_of r) [14; 20; 21] ->
  exists t, r = hd 0 r :: t /\
  ParseNalUnitHeader (start a r) = (Ok (Some (plain_header (hd 0 r))), mkbb r 1 0 a).
Proof.
  intros a r F NE T. pose proof (start_wf _ _ F) as W.
  destruct (ParseNalUnitHeader (start a r)) as [x b1] eqn:HE.
  pose proof (header_bytes a _ F _ _ HE) as HB.
  assert (HR : header_read r).
  { cbn [In] in T. split; [exact NE|split; [lia|intros [?|?]; lia]]. }
  destruct x as [[h|]| |k| |]; try tauto.
  destruct HB as (_ & _ & H1 & H2 & HT & V & X & R). cbn [In] in T.
  destruct r as [|x0 t]; [destruct HR; congruence|]. exists t. split; [reflexivity|].
  replace ((type_of (x0 :: t) =? 14) || (type_of (x0 :: t) =? 20)) with false in X by lia. destruct X as [X1 X2].
  destruct V as (_ & _ & _ & V3 & _). f_equal.
  - do 2 f_equal. destruct h as [f rf ty sv av e].
    cbn [forbidden_zero_bit nal_ref_idc nal_unit_type svc_extension_flag avc_3d_extension_flag nal_svc] in *.
    subst. reflexivity.
  - destruct R as (_ & _ & ->). rewrite enc_nalh_length, X2. reflexivity.
Qed.
Lemma plain_head : forall a r, fits a r -> 24 <= type_of r ->
  exists t, r = hd 0 r :: t /\
  ParseNalUnitHeader (start a r) = (Ok (Some (plain_header (hd 0 r))), mkbb r 1 0 a).
Proof.
  intros a r F T. apply plain_head_gen; auto.
  - intros ->. cbn in T. lia.
  - cbn [In]. lia.
Qed.
(** The result of a type 24 packet, in terms of the rounds; [r] is the packet without
    emulation prevention bytes. *)
Theorem C46_exact : forall a u w r, history a w -> fits a u -> type_of u = 24 -> strips u r ->
  forall x w', parse_rtp a u w = (Ok x, w') <->
    exists l, rounds (mkbb r 1 0 a) w l w' /\
      x = mkrtp (plain_header (hd 0 u)) None
            (Some (mkrtp_stapa (plain_header (hd 0 u)) (sizes l) (headers l) (payloads l))) None.
Proof.
  intros a u w r H F T S x w'. apply strips_unesc in S. subst r.
  unfold parse_rtp, ParseRtpBytes. change (unescaping a ParseRtp u (size_of u) w) with (on_unit a ParseRtp u w).
  rewrite on_unit_eq by auto. pose proof (fits_unesc _ _ F) as F'. pose proof (start_wf _ _ F') as W.
  rewrite rtp_eq by auto.
  destruct (plain_head a (unesc u) F' ltac:(rewrite unesc_type; lia)) as (t & E & HE). rewrite HE.
  rewrite unesc_hd in *. unfold rtp_rest. cbv zeta. cbn [nal_unit_type plain_header].
  fold (type_of u). rewrite T. cbn [N.leb N.eqb N.compare Pos.compare Pos.compare_cont Pos.eqb].
  unfold sbind at 1. unfold ParseRtpStapA. unfold sbind at 1, nal_header. unfold sbind at 1, storedu. rewrite HE.
  cbn [nonnull]. unfold sret at 1. unfold sbind.
  set (b1 := mkbb (unesc u) 1 0 a).
  assert (W1 : bb_wf b1).
  { pose proof (ParseNalUnitHeader_good _ W) as G. rewrite HE in G. destruct G as (m & Lm & Em). unfold b1. rewrite Em. apply bb_adv_wf; auto. }
  assert (LB : (length (bb_rem b1) <= 16 * S (length (bb_bytes b1)))%nat).
  { pose proof (bb_rem_length b1 W1). unfold bb_count in *. lia. }
  pose proof (loop_rounds (S (length (bb_bytes b1))) [] [] [] b1 w) as LR.
  split.
  - destruct (stapa_loop _ [] [] [] (b1, w)) as [[[[ss hs] ps]| |k| |] [b2 w2]] eqn:SL; try discriminate.
    unfold sret. intros EQ. injection EQ as <- <-.
    destruct (LR (ss, hs, ps) w2 W1 (history_ok a w H) LB) as [I _].
    destruct I as (l & Rl & El); [eauto|]. injection El as -> -> ->. exists l. split; [exact Rl|reflexivity].
  - intros (l & Rl & ->).
    destruct (LR (sizes l, headers l, payloads l) w' W1 (history_ok a w H) LB) as [_ I].
    destruct I as (b' & SL); [exists l; split; [exact Rl|reflexivity]|]. rewrite SL. reflexivity.
Qed.
(** Always a result or nullptr; the three vectors have one length; every size fits the packet. *)
Theorem C46_total : forall a u w, history a w -> fits a u ->
  exists x w', parse_rtp a u w = (x, w') /\ (x = Null \/ exists p, x = Ok p).
Proof.
  intros a u w H F. destruct (C23_no_crash a w (CallRtp u) H F) as (w' & E).
  cbn [run_call] in E. unfold parse_rtp.
  destruct (ParseRtpBytes a u (size_of u) w) as [[p| |k| |] w2]; cbn in E;
    destruct E as [E|E]; try discriminate; eauto 6.
Qed.
Lemma rounds_sizes : forall b w l w', rounds b w l w' -> bb_wf b -> ok_state (w_st w) -> Forall (fun s => 16 + 8 * s <= N.of_nat (length (bb_rem b))) (sizes l).
Proof.
  intros b w l w' R. induction R as [b w E|b w size ahead h p b1 w1 l w2 S E A P R IH]; intros W O; [constructor|].
  destruct (size_bits _ _ _ S E) as [_ B2]. cbn [sizes map fst]. constructor; [lia|].
  rewrite <- skip2_adv in P by auto.
  assert (W16 : bb_wf (bb_adv b 16)) by (apply bb_adv_wf; auto; lia).
  pose proof (single_mgood (bb_adv b 16) w W16 O) as G. rewrite P in G. destruct G as [MV O1].
  pose proof (moves_len _ _ W16 MV) as L2. rewrite bb_adv_rem, skipn_length in L2 by (auto; lia).
  eapply Forall_impl; [|apply IH; auto; eapply moves_wf; eauto]. intros s Hs. cbv beta in Hs. lia.
Qed.
Theorem C46_shape : forall a u w r x w', history a w -> fits a u -> type_of u = 24 -> strips u r ->
  parse_rtp a u w = (Ok x, w') ->
  exists s, rp_stapa x = Some s /\ rp_single x = None /\ rp_fua x = None /\
    ra_header s = plain_header (hd 0 u) /\
    length (ra_nal_unit_sizes s) = length (ra_nal_unit_headers s) /\
    length (ra_nal_unit_payloads s) = length (ra_nal_unit_headers s) /\
    Forall (fun n => n < 2 ^ 16 /\ n + 3 <= size_of r) (ra_nal_unit_sizes s).
Proof.
  intros a u w r x w' H F T S E. apply (C46_exact a u w r H F T S) in E. destruct E as (l & R & ->).
  eexists. split; [reflexivity|]. split; [reflexivity|]. split; [reflexivity|].
  cbn [ra_header ra_nal_unit_sizes ra_nal_unit_headers ra_nal_unit_payloads]. split; [reflexivity|].
  unfold sizes at 1, headers, payloads. rewrite !map_length. split; [reflexivity|]. split; [reflexivity|].
  apply strips_unesc in S. subst r. pose proof (fits_unesc _ _ F) as F'.
  destruct (plain_head a (unesc u) F' ltac:(rewrite unesc_type; lia)) as (t & Et & HE).
  assert (W1 : bb_wf (mkbb (unesc u) 1 0 a)).
  { pose proof (ParseNalUnitHeader_good _ (start_wf _ _ F')) as G. rewrite HE in G. destruct G as (m & Lm & ->).
    apply bb_adv_wf; [apply start_wf; auto|auto]. }
  pose proof (rounds_sizes _ _ _ _ R W1 (history_ok a w H)) as FS.
  pose proof (bb_rem_length _ W1) as LB. unfold bb_count in LB. cbn [bb_bytes bb_byte bb_bit] in LB.
  assert (B : Forall (fun s => s < 2 ^ 16) (sizes l)).
  { clear - R. induction R; cbn [sizes map fst]; constructor; auto. }
  rewrite Forall_forall in *. intros n I. split; [auto|]. apply FS in I. unfold size_of. lia.
Qed.

(** Which aggregates come back as they were packed: SPS units, and as the last one an SPS, PPS
    or subset SPS.  Sizes count bytes without emulation prevention, since the parser removes
    emulation prevention from the packet before it looks at the sizes. *)
Definition raw_unit (h : nalh) (l : list N) : list N := octets (enc_nalh h) ++ l.
Inductive packed : pstate -> list (list N) -> list (nalh * payload) -> pstate -> Prop :=
| packed_last : forall st h l p st', header_std h -> coded st h l p -> next_sets st p st' ->
    In (nal_unit_type h) [7; 8; 15] -> packed st [raw_unit h l] [(h, p)] st'
| packed_cons : forall st h l p st1 us r st', header_std h -> coded st h l p -> next_sets st p st1 ->
    nal_unit_type h = 7 -> packed st1 us r st' -> packed st (raw_unit h l :: us) ((h, p) :: r) st'.

Lemma be2_bits : forall n, n < 2 ^ 16 -> bits_of (be_bytes 2 n) = u_bits 16 n.
Proof.
  intros n L. cbn [be_bytes bits_of flat_map]. rewrite app_nil_r.
  apply bval_inj; [rewrite app_length, !byte_bits_length; unfold u_bits; rewrite nbits_length; reflexivity|].
  rewrite bval_app, !bval_byte, byte_bits_length by lia. unfold u_bits. change (N.to_nat 16) with 16%nat.
  rewrite bval_nbits_small by exact L.
  change (8 * N.of_nat 1) with 8. change (8 * N.of_nat 0) with 0. change (N.of_nat 8) with 8.
  change (2 ^ 16) with 65536 in L. change (2 ^ 8) with 256. change (2 ^ 0) with 1. lia.
Qed.
Lemma set_types : forall st h l p, coded st h l p -> In (nal_unit_type h) [7; 8; 15] -> set_of p = true.
Proof. intros st h l p C T. cbn [In] in T. destruct C; try reflexivity; cbn [In] in *; lia. Qed.
Lemma round_coded : forall h l p b w us, header_std h -> ok_state (w_st w) -> coded (w_st w) h l p ->
  In (nal_unit_type h) [7; 8; 15] -> us = [] \/ nal_unit_type h = 7 ->
  size_of (raw_unit h l) < 2 ^ 16 -> bb_wf b -> bb_bit b = 0 ->
  bb_rem b = bits_of (framed 2 (raw_unit h l :: us)) ->
  exists b1 w1, (forall r w2, rounds b1 w1 r w2 -> rounds b w ((size_of (raw_unit h l), h, p) :: r) w2) /\
    bb_wf b1 /\ bb_bit b1 = 0 /\ bb_rem b1 = bits_of (framed 2 us) /\
    w1 = mkw (after_unit (w_st w) p) (w_unimplemented w) /\ ok_state (w_st w1).
Proof.
  intros h l p b w us H O C T RT SZ W A E.
  unfold framed in E. cbn [flat_map] in E. fold (framed 2 us) in E.
  rewrite !bits_of_app, be2_bits, <- app_assoc in E by exact SZ.
  set (u16 := u_bits 16 (N.of_nat (length (raw_unit h l)))) in *.
  assert (Lu : length u16 = 16%nat) by (unfold u16, u_bits; rewrite nbits_length; reflexivity).
  assert (L16 : (16 <= length (bb_rem b))%nat) by (rewrite E, app_length; lia).
  pose proof (bb_adv_wf _ _ W L16) as W2.
  assert (R2 : bb_rem (bb_adv b 16) = enc_nalh h ++ bits_of l ++ bits_of (framed 2 us)).
  { rewrite bb_adv_rem by auto. rewrite E, <- Lu, skipn_app_exact by auto.
    unfold raw_unit. rewrite bits_of_app, enc_nalh_bits, <- app_assoc. reflexivity. }
  assert (P := ParseNalUnitHeader_complete h (proj1 H) _ _ W2 R2).
  rewrite bb_adv_adv in P. set (b1 := bb_adv b (16 + length (enc_nalh h))) in *.
  assert (L1 : (16 + length (enc_nalh h) <= length (bb_rem b))%nat).
  { rewrite E, app_length, Lu. unfold raw_unit. rewrite bits_of_app, enc_nalh_bits, !app_length. lia. }
  assert (W1 : bb_wf b1) by (apply bb_adv_wf; auto).
  assert (R1 : bb_rem b1 = bits_of l ++ bits_of (framed 2 us)).
  { unfold b1. rewrite <- bb_adv_adv, bb_adv_rem; auto. 
    - rewrite R2. apply skipn_app_exact.
    - rewrite R2, app_length. lia. }
  pose proof (enc_nalh_mod h) as M.
  assert (A1 : bb_bit b1 = 0) by (unfold b1, bb_adv; cbn [bb_bit]; lia).
  destruct (payload_coded h l p b1 w (bits_of (framed 2 us)) H O C W1 A1 R1) as (m & Lm & PP & S).
  { destruct RT as [->|RT]; auto. }
  specialize (S (set_types _ _ _ _ C T)). subst m.
  assert (PS : ParseRtpSingle (skip2 b, w) = (Ok (mkrtp_single h p),
     (bb_adv b1 (length (bits_of l)), mkw (after_unit (w_st w) p) (w_unimplemented w)))).
  { rewrite <- skip2_adv by auto. rewrite single_eq, P, PP. reflexivity. }
  exists (bb_adv b1 (length (bits_of l))), (mkw (after_unit (w_st w) p) (w_unimplemented w)).
  split; [|split; [|split; [|split; [|split]]]].
  - intros r w2 R. eapply rounds_cons; [exact SZ|exact E| |exact PS|exact R].
    rewrite app_length, bits_of_length. unfold size_of. lia.
  - apply bb_adv_wf; auto.
  - rewrite bits_of_length. unfold bb_adv. cbn [bb_bit]. rewrite A1. lia.
  - rewrite bb_adv_rem by auto. rewrite R1. now apply skipn_app_exact.
  - reflexivity.
  - pose proof (payload_mgood h b1 w W1 O) as G. rewrite PP in G. apply G.
Qed.
Lemma rounds_packed : forall st us r st', packed st us r st' -> forall b w,
  same_sets st (w_st w) -> ok_state (w_st w) -> bb_wf b -> bb_bit b = 0 ->
  bb_rem b = bits_of (framed 2 us) -> Forall (fun u => size_of u < 2 ^ 16) us ->
  exists l w', rounds b w l w' /\ combine (headers l) (payloads l) = r /\ sizes l = map size_of us /\
    same_sets st' (w_st w') /\ w_unimplemented w' = w_unimplemented w.
Proof.
  intros st us r st' P. induction P as [st h l p st' H C N T|st h l p st1 us r st' H C N T P IH];
    intros b w S O W A E SZ; inversion SZ as [|? ? Z1 Z2]; subst;
    pose proof (coded_same _ _ _ _ _ S C) as Cw;
    pose proof (next_same _ _ _ _ _ S N (after_next _ _ _ _ Cw)) as S1.
  - destruct (round_coded h l p b w [] H O Cw T (or_introl eq_refl) Z1 W A E) as (b1 & w1 & R & W1 & A1 & E1 & -> & O1).
    eexists. eexists. split; [apply R; apply rounds_nil; exact E1|]. auto.
  - destruct (round_coded h l p b w us H O Cw ltac:(rewrite T; cbn; auto) (or_intror T) Z1 W A E)
      as (b1 & w1 & R & W1 & A1 & E1 & -> & O1).
    destruct (IH b1 (mkw (after_unit (w_st w) p) (w_unimplemented w)) S1 O1 W1 A1 E1 Z2) as (l' & w' & R' & <- & Es & Ss & Eu).
    eexists. eexists. split; [apply R; exact R'|]. cbn [headers payloads sizes map fst snd combine].
    split; [reflexivity|]. split; [f_equal; exact Es|]. auto.
Qed.
Theorem C46_parameter_sets_recovered : forall a w u x us r st', history a w -> fits a u ->
  strips u (x :: framed 2 us) -> x mod 32 = 24 -> packed (w_st w) us r st' ->
  Forall (fun u => size_of u < 2 ^ 16) us ->
  exists s w', parse_rtp a u w = (Ok (mkrtp (plain_header x) None (Some s) None), w') /\
    ra_header s = plain_header x /\
    ra_nal_unit_sizes s = map size_of us /\
    combine (ra_nal_unit_headers s) (ra_nal_unit_payloads s) = r /\
    same_sets st' (w_st w') /\ w_unimplemented w' = w_unimplemented w.
Proof.
  intros a w u x us r st' H F S X P SZ.
  assert (Ex : hd 0 u = x).
  { apply strips_unesc in S. pose proof (unesc_hd u) as Hh. rewrite <- S in Hh. cbn in Hh. auto. }
  assert (T : type_of u = 24) by (unfold type_of; rewrite Ex; exact X).
  pose proof (fits_unesc _ _ F) as F'. pose proof S as S0. apply strips_unesc in S0. rewrite <- S0 in F'.
  pose proof (start_wf _ _ F') as W.
  assert (L8 : (8 <= length (bb_rem (start a (x :: framed 2 us))))%nat).
  { rewrite start_rem, bits_of_length. cbn [length]. lia. }
  assert (E8 : mkbb (x :: framed 2 us) 1 0 a = bb_adv (start a (x :: framed 2 us)) 8) by reflexivity.
  destruct (rounds_packed _ _ _ _ P (mkbb (x :: framed 2 us) 1 0 a) w) as (l & w' & R & E1 & E2 & E3 & E4); auto.
  - intros id; auto.
  - apply (history_ok a w H).
  - rewrite E8. apply bb_adv_wf; auto.
  - eexists. exists w'. split; [apply (C46_exact a u w _ H F T S); exists l; split; [exact R|rewrite Ex; reflexivity]|].
    auto.
Qed.

(** An SPS and a PPS in one packet. *)
Definition ex_sps_rbsp : list N := octets (rbsp (enc_sps ex_slice_sps ex_sps_lists)).
Definition ex_pps_rbsp : list N := octets (rbsp (enc_pps ex_slice_pps None)).
Definition ex_packet : list N :=
  120 :: framed 2 [raw_unit (ex_h 3 7) ex_sps_rbsp; raw_unit (ex_h 3 8) ex_pps_rbsp].
Lemma ex_sps_coded : forall st, coded st (ex_h 3 7) ex_sps_rbsp (mkpayload None (Some ex_slice_sps) None None None None).
Proof. intros st. apply coded_sps; [reflexivity|apply ex_slice_sps_valid|apply C24_ex_valid]. Qed.
Lemma ex_pps_coded : forall st, coded st (ex_h 3 8) ex_pps_rbsp (mkpayload None None (Some ex_slice_pps) None None None).
Proof. intros st. apply coded_pps; [reflexivity|apply ex_slice_pps_valid|exact I]. Qed.
Example C46_ex : fits true ex_packet /\ strips ex_packet ex_packet /\ type_of ex_packet = 24 /\
  packed new_state [raw_unit (ex_h 3 7) ex_sps_rbsp; raw_unit (ex_h 3 8) ex_pps_rbsp]
    [(ex_h 3 7, mkpayload None (Some ex_slice_sps) None None None None);
     (ex_h 3 8, mkpayload None None (Some ex_slice_pps) None None None)] ex_st2 /\
  exists s, parse_rtp true ex_packet (mkw new_state 0) =
    (Ok (mkrtp (plain_header 120) None (Some s) None), mkw ex_st2 0) /\
    ra_nal_unit_sizes s = [57; 8].
Proof.
  split; [fits_tac|]. split; [assert (E : unesc ex_packet = ex_packet) by (vm_compute; reflexivity); rewrite <- E at 2; apply unesc_strips|]. split; [reflexivity|]. split.
  - apply packed_cons with (st1 := ex_st1); [apply ex_header; [lia|lia|cbn; lia]|apply ex_sps_coded| |reflexivity|].
    { intros id. repeat split. unfold lookup, ex_st1. cbn [pl_sps st_sps find fst option_map].
      change (seq_parameter_set_id ex_slice_sps) with 3. destruct (3 =? id); reflexivity. }
    apply packed_last; [apply ex_header; [lia|lia|cbn; lia]|apply ex_pps_coded| |cbn; auto].
    intros id. repeat split. unfold lookup, ex_st2. cbn [pl_pps st_pps find fst option_map].
    change (pps_pic_parameter_set_id ex_slice_pps) with 9. destruct (9 =? id); reflexivity.
  - eexists. split; [vm_compute; reflexivity|]. reflexivity.
Qed.
(** What RFC 6184 has in an aggregate is not recovered in general.  The units of an aggregate
    keep their emulation prevention bytes, and the sizes count them: the parser rejects. *)
Definition ex_zero_pps : pps :=
  mkpps 1 9 3 1 1 1 4 [] [] 1 16777215 0 [] 0 0 0 1 0 0 12 1 1 1 0 0 scal0 0%Z.
Theorem C46_emulation_prevention_refuted :
  let l := octets (rbsp (enc_pps ex_zero_pps None)) in
  header_std (ex_h 3 8) /\
  coded new_state (ex_h 3 8) l (mkpayload None None (Some ex_zero_pps) None None None) /\
  parse_rtp true (120 :: framed 2 [nal_unit (ex_h 3 8) l]) (mkw new_state 0) = (Null, mkw new_state 0).
Proof.
  cbv zeta. split; [apply ex_header; [lia|lia|cbn; lia]|]. split.
  - apply coded_pps; [reflexivity|valid_tac|exact I].
  - vm_compute. reflexivity.
Qed.
(** A PPS that is not the last unit: more_rbsp_data() sees the units behind it.  The packet is
    rejected, and the PPS that was remembered before is replaced by a wrong one. *)
Theorem C46_pps_not_last_refuted : exists w' q,
  parse_rtp true (120 :: framed 2 [raw_unit (ex_h 3 8) ex_pps_rbsp; raw_unit (ex_h 3 7) ex_sps_rbsp])
    (mkw ex_st2 0) = (Null, w') /\
  lookup 9 (st_pps ex_st2) = Some ex_slice_pps /\ lookup 9 (st_pps (w_st w')) = Some q /\
  pps_transform_8x8_mode_flag ex_slice_pps = 0 /\ pps_transform_8x8_mode_flag q = 1.
Proof. eexists. eexists. split; [vm_compute; reflexivity|]. repeat split. Qed.
(** A unit the payload parser does not look into, such as an access unit delimiter: its
    payload is taken for the size of the next unit. *)
Theorem C46_delimiter_refuted :
  parse_rtp true (120 :: framed 2 [raw_unit (ex_h 0 9) [240]]) (mkw new_state 0) = (Null, mkw new_state 0).
Proof. vm_compute. reflexivity. Qed.
(** One slice: the slice data is taken for two more units. *)
Theorem C46_slice_refuted : exists s w',
  let l := octets (rbsp (enc_in 1 5 ex_st4 ex_slice ++ ex_data)) in
  (exists p, coded ex_st4 (ex_h 1 5) l p) /\
  parse_rtp true (120 :: framed 2 [raw_unit (ex_h 1 5) l]) (mkw ex_st4 0) =
    (Ok (mkrtp (plain_header 120) None (Some s) None), w') /\
  ra_nal_unit_sizes s = [25; 0; 0] /\ map nal_unit_type (ra_nal_unit_headers s) = [5; 0; 16].
Proof.
  eexists. eexists. cbv zeta. split.
  { assert (X : forall A (a : A) b, Some a = Some b -> a = b) by congruence.
    eexists. eapply coded_slice; [right; reflexivity| |reflexivity].
    destruct C34_ex_valid as (s & p & A & V). exists ex_slice_sps, ex_slice_pps. split; [reflexivity|].
    change (Some (ex_slice_sps, ex_slice_pps) = Some (s, p)) in A. apply X in A.
    pose proof (f_equal fst A) as A1. pose proof (f_equal snd A) as A2. cbn [fst snd] in A1, A2. rewrite A1, A2. exact V. }
  split; [vm_compute; reflexivity|]. split; reflexivity.
Qed.

(** * C47: fragmentation units *)
(** The report on FU indicator [x0], FU header [x1] and payload [p]. *)
Definition fua_of (x0 x1 : N) (p : option payload) : rtp :=
  mkrtp (plain_header x0) None None
    (Some (mkrtp_fua (x0 / 32 mod 4) (plain_header x0) (x1 / 128) (x1 / 64 mod 2) (x1 / 32 mod 2) (x1 mod 32) p)).
Lemma read_byte : forall b x rest, bb_wf b -> x < 256 -> bb_rem b = byte_bits x ++ rest ->
  ReadBits 1 b = (Ok (x / 128), bb_adv b 1) /\
  ReadBits 1 (bb_adv b 1) = (Ok (x / 64 mod 2), bb_adv b 2) /\
  ReadBits 1 (bb_adv b 2) = (Ok (x / 32 mod 2), bb_adv b 3) /\
  ReadBits 5 (bb_adv b 3) = (Ok (x mod 32), bb_adv b 8).
Proof.
  intros b x rest W X R.
  assert (L : (8 <= length (bb_rem b))%nat) by (rewrite R, app_length, byte_bits_length; lia).
  assert (RD : forall k n, (k + N.to_nat n <= 8)%nat -> 0 < n -> ReadBits n (bb_adv b k) =
    (Ok (bval (firstn (N.to_nat n) (skipn k (byte_bits x)))), bb_adv b (k + N.to_nat n))).
  { intros k n K N0. rewrite ReadBits_spec by (apply bb_adv_wf; auto; lia). unfold rd_ok.
    rewrite bb_adv_rem, skipn_length by (auto; lia). 
    replace ((n =? 0) || (32 <? n) || (N.of_nat (length (bb_rem b) - k) <? n)) with false by lia. cbn [negb].
    rewrite bb_adv_adv. do 3 f_equal. rewrite R, skipn_app, firstn_app, skipn_length, byte_bits_length.
    replace (N.to_nat n - (8 - k))%nat with 0%nat by lia. cbn [firstn]. apply app_nil_r. }
  assert (A0 : bb_adv b 0 = b) by (apply adv0; auto).
  pose proof (RD 0%nat 1 ltac:(lia) ltac:(lia)) as R0. rewrite A0 in R0.
  pose proof (RD 1%nat 1 ltac:(lia) ltac:(lia)) as R1.
  pose proof (RD 2%nat 1 ltac:(lia) ltac:(lia)) as R2.
  pose proof (RD 3%nat 5 ltac:(lia) ltac:(lia)) as R3.
  assert (V : forall k n, (k + n <= 8)%nat ->
    bval (firstn n (skipn k (byte_bits x))) = x / 2 ^ (8 - N.of_nat k - N.of_nat n) mod 2 ^ N.of_nat n).
  { intros k n K. rewrite bval_firstn by (rewrite skipn_length, byte_bits_length; lia).
    rewrite bval_skipn by (rewrite byte_bits_length; lia). rewrite bval_byte by auto.
    rewrite skipn_length, byte_bits_length.
    replace (N.of_nat (8 - k)) with (8 - N.of_nat k) by lia.
    replace (N.of_nat (8 - k - n)) with (8 - N.of_nat k - N.of_nat n) by lia.
    set (m := 8 - N.of_nat k - N.of_nat n). replace (8 - N.of_nat k) with (m + N.of_nat n) by lia.
    rewrite N.pow_add_r. rewrite N.mod_mul_r by (apply N.pow_nonzero; lia).
    rewrite N.mul_comm, N.div_add by (apply N.pow_nonzero; lia).
    rewrite (N.div_small (x mod 2 ^ m)) by (apply N.mod_lt, N.pow_nonzero; lia). reflexivity. }
  change (N.to_nat 1) with 1%nat in *. change (N.to_nat 5) with 5%nat in *.
  rewrite R0, R1, R2, R3, !V by lia.
  change (2 ^ (8 - N.of_nat 0 - N.of_nat 1)) with 128. change (2 ^ (8 - N.of_nat 1 - N.of_nat 1)) with 64.
  change (2 ^ (8 - N.of_nat 2 - N.of_nat 1)) with 32. change (2 ^ (8 - N.of_nat 3 - N.of_nat 5)) with 1.
  change (2 ^ N.of_nat 1) with 2. change (2 ^ N.of_nat 5) with 32. cbn [Nat.add].
  replace (x / 128 mod 2) with (x / 128) by lia. rewrite N.div_1_r. auto.
Qed.
Lemma fua_head : forall a u w, fits a u -> type_of u = 28 ->
  exists t, unesc u = hd 0 u :: t /\ bb_wf (mkbb (unesc u) 1 0 a) /\ bb_rem (mkbb (unesc u) 1 0 a) = bits_of t /\
  parse_rtp a u w =
    (let '(r, (_, w')) := (p <- (s <- onbuf (ReadBits 1) ;;
       e <- onbuf (ReadBits 1) ;;
       rb <- onbuf (ReadBits 1) ;;
       t <- onbuf (ReadBits 5) ;;
       if s =? 0 then sret (mkrtp_fua (hd 0 u / 32 mod 4) (plain_header (hd 0 u)) s e rb t None)
       else p <- ParseNalUnitPayloadType (hd 0 u / 32 mod 4) t ;;
         sret (mkrtp_fua (hd 0 u / 32 mod 4) (plain_header (hd 0 u)) s e rb t (Some p))) ;;
       sret (mkrtp (plain_header (hd 0 u)) None None (Some p)))%m (mkbb (unesc u) 1 0 a, w)
     in (r, w')).
Proof.
  intros a u w F T. pose proof (fits_unesc _ _ F) as F'. pose proof (start_wf _ _ F') as W.
  destruct (plain_head a (unesc u) F' ltac:(rewrite unesc_type; lia)) as (t & E & HE).
  rewrite unesc_hd in E, HE. exists t. split; [exact E|].
  assert (L8 : (8 <= length (bb_rem (start a (unesc u))))%nat).
  { rewrite start_rem, bits_of_length, E. cbn [length]. lia. }
  assert (E8 : mkbb (unesc u) 1 0 a = bb_adv (start a (unesc u)) 8) by reflexivity.
  split; [rewrite E8; apply bb_adv_wf; auto|].
  split; [rewrite E8, bb_adv_rem by auto; rewrite start_rem, E; reflexivity|].
  unfold parse_rtp, ParseRtpBytes. change (unescaping a ParseRtp u (size_of u) w) with (on_unit a ParseRtp u w).
  rewrite on_unit_eq by auto. rewrite rtp_eq by auto. rewrite HE.
  unfold rtp_rest. cbv zeta. cbn [nal_unit_type nal_ref_idc plain_header]. fold (type_of u). rewrite T.
  cbn [N.leb N.eqb N.compare Pos.compare Pos.compare_cont Pos.eqb].
  unfold ParseRtpFuA. unfold nal_header, storedu. unfold sbind at 1. unfold sbind at 1. unfold sbind at 1. rewrite HE.
  reflexivity.
Qed.
Theorem C47_short : forall a u w x0, history a w -> fits a u -> strips u [x0] -> x0 mod 32 = 28 ->
  parse_rtp a u w = (Null, w).
Proof.
  intros a u w x0 H F S T. apply strips_unesc in S.
  assert (E0 : hd 0 u = x0) by (rewrite <- unesc_hd, <- S; reflexivity).
  destruct (fua_head a u w F) as (t & E & W & R & ->); [unfold type_of; rewrite E0; exact T|].
  rewrite <- S in E. injection E as _ <-.
  unfold sbind at 1. unfold sbind at 1. unfold onbuf at 1. rewrite ReadBits_spec by auto. unfold rd_ok. rewrite R.
  reflexivity.
Qed.
Lemma fua_read : forall a u w x0 x1 t, fits a u -> strips u (x0 :: x1 :: t) -> x0 mod 32 = 28 ->
  bb_wf (mkbb (x0 :: x1 :: t) 2 0 a) /\ bb_rem (mkbb (x0 :: x1 :: t) 2 0 a) = bits_of t /\
  parse_rtp a u w =
    (if x1 / 128 =? 0 then (Ok (fua_of x0 x1 None), w)
     else match ParseNalUnitPayloadType (x0 / 32 mod 4) (x1 mod 32) (mkbb (x0 :: x1 :: t) 2 0 a, w) with
          | (Ok p, (_, w')) => (Ok (fua_of x0 x1 (Some p)), w')
          | (Null, (_, w')) => (Null, w') | (UB k, (_, w')) => (UB k, w')
          | (Abort, (_, w')) => (Abort, w') | (NoFuel, (_, w')) => (NoFuel, w')
          end).
Proof.
  intros a u w x0 x1 t F S T. apply strips_unesc in S.
  assert (E0 : hd 0 u = x0) by (rewrite <- unesc_hd, <- S; reflexivity).
  destruct (fua_head a u w F) as (t' & E & W & R & ->); [unfold type_of; rewrite E0; exact T|].
  rewrite E0 in *. rewrite <- S in E. injection E as <-. rewrite <- S in W, R |- *.
  assert (X1 : x1 < 256).
  { pose proof (fits_unesc _ _ F) as (B & _). rewrite <- S in B. inversion B as [|? ? _ B']. inversion B'. auto. }
  rewrite bits_of_cons in R. destruct (read_byte _ x1 _ W X1 R) as (R0 & R1 & R2 & R3).
  assert (E8 : bb_adv (mkbb (x0 :: x1 :: t) 1 0 a) 8 = mkbb (x0 :: x1 :: t) 2 0 a) by reflexivity.
  assert (L8 : (8 <= length (bb_rem (mkbb (x0 :: x1 :: t) 1 0 a)))%nat) by (rewrite R, app_length, byte_bits_length; lia).
  split; [rewrite <- E8; apply bb_adv_wf; auto|].
  split; [rewrite <- E8, bb_adv_rem by auto; rewrite R, <- (byte_bits_length x1); apply skipn_app_exact|].
  unfold onbuf, sbind. rewrite R0. rewrite R1. rewrite R2. rewrite R3, E8.
  destruct (x1 / 128 =? 0) eqn:Z.
  - unfold sret, fua_of. replace (x1 / 128) with 0 by lia. reflexivity.
  - destruct (ParseNalUnitPayloadType _ _ _) as [[p| |k| |] [b' w']]; reflexivity.
Qed.
(** A fragment that is not the first one: indicator and header are reported, nothing else
    happens. *)
Theorem C47_continuation : forall a u w x0 x1 t, history a w -> fits a u -> strips u (x0 :: x1 :: t) ->
  x0 mod 32 = 28 -> x1 < 128 -> parse_rtp a u w = (Ok (fua_of x0 x1 None), w).
Proof.
  intros a u w x0 x1 t H F S T X. destruct (fua_read a u w x0 x1 t F S T) as (_ & _ & ->).
  replace (x1 / 128) with 0 by lia. reflexivity.
Qed.
(** The first fragment: its payload is that of the unit it starts, as far as it goes, with the
    same effect on the state.  Not for types 14, 20 and 21, whose headers go on. *)
Theorem C47_start : forall a ck w x0 x1 e, history a w -> fits a (x0 :: x1 :: e) ->
  x0 mod 32 = 28 -> 128 <= x1 -> ~ In (x1 mod 32) [0; 14; 20; 21] ->
  let u := x0 / 32 mod 4 * 32 + x1 mod 32 in
  fst (parse_rtp a (x0 :: x1 :: e) w) =
    res_map (fun x => fua_of x0 x1 (Some (nu_payload x))) (fst (parse_unit a ck (u :: e) w)) /\
  snd (parse_rtp a (x0 :: x1 :: e) w) = snd (parse_unit a ck (u :: e) w).
Proof.
  intros a ck w x0 x1 e H F T X NI u.
  assert (Ue : unesc (x0 :: x1 :: e) = x0 :: x1 :: unesc e).
  { rewrite !unesc_nz by lia. reflexivity. }
  pose proof (unesc_strips (x0 :: x1 :: e)) as S. rewrite Ue in S.
  destruct (fua_read a _ w x0 x1 (unesc e) F S T) as (W & R & ->).
  replace (x1 / 128 =? 0) with false by lia.
  assert (Nz : u <> 0) by (cbn [In] in NI; unfold u; lia).
  assert (Fu : fits a (u :: e)).
  { destruct F as (B & L & D). inversion B as [|? ? B0 B1]. inversion B1 as [|? ? B2 B3]. subst. cbn [length] in *.
    split; [constructor; [unfold u; lia|exact B3]|]. split; [cbn [length]; lia|]. intros A. specialize (D A). cbn [length]. lia. }
  change parse_unit with unit_parser. unfold unit_parser. rewrite on_unit_eq by auto.
  pose proof (fits_unesc _ _ Fu) as F'. rewrite unesc_nz in F' |- * by auto.
  pose proof (start_wf _ _ F') as Wu. rewrite nalunit_eq by auto.
  assert (Tu : type_of (u :: unesc e) = x1 mod 32) by (unfold type_of; cbn [hd]; unfold u; lia).
  destruct (plain_head_gen a (u :: unesc e) F' ltac:(discriminate) ltac:(rewrite Tu; cbn [In] in *; tauto)) as (t & _ & HE).
  rewrite HE. cbn [hd]. 
  replace (plain_header u) with (mknalh 0 (x0 / 32 mod 4) (x1 mod 32) 0 0 None).
  2:{ unfold plain_header. f_equal; unfold u; lia. }
  unfold ParseNalUnitPayloadType.
  assert (E8 : mkbb (u :: unesc e) 1 0 a = bb_adv (start a (u :: unesc e)) 8) by reflexivity.
  assert (L8 : (8 <= length (bb_rem (start a (u :: unesc e))))%nat).
  { rewrite start_rem, bits_of_length. cbn [length]. lia. }
  assert (AL : alike (mkbb (x0 :: x1 :: unesc e) 2 0 a) (mkbb (u :: unesc e) 1 0 a)).
  { split; [exact W|]. split; [rewrite E8; apply bb_adv_wf; auto|]. split; [rewrite R; reflexivity|]. auto. }
  destruct (payload_local (mknalh 0 (x0 / 32 mod 4) (x1 mod 32) 0 0 None) _ _ w AL) as (E1 & _ & E2).
  destruct (ParseNalUnitPayload _ (mkbb (x0 :: _) _ _ _, w)) as [r1 [b1 w1]],
           (ParseNalUnitPayload _ (mkbb (u :: _) _ _ _, w)) as [r2 [b2 w2]]. cbn [fst snd] in *. subst r2 w2.
  destruct r1; split; reflexivity.
Qed.
(** The first 21 bytes of a slice: enough for the slice header. *)
Definition ex_slice_unit : list N := nal_unit (ex_h 1 5) (octets (rbsp (enc_in 1 5 ex_st4 ex_slice ++ ex_data))).
Definition ex_fua : list N := 60 :: 133 :: firstn 20 (tl ex_slice_unit).
Example C47_ex : fits true ex_fua /\ ~ In (133 mod 32) [0; 14; 20; 21] /\
  exists s p, parse_rtp true ex_fua (mkw ex_st4 0) = (Ok (fua_of 60 133 (Some p)), mkw ex_st4 0) /\
    pl_slice p = Some s /\ first_mb_in_slice (sh_lead (sl_slice_header s)) = 17 /\
  parse_rtp true [60; 69; 1; 2; 3] (mkw ex_st4 0) = (Ok (fua_of 60 69 None), mkw ex_st4 0).
Proof.
  split; [fits_tac|]. split; [cbn; lia|]. eexists. eexists.
  split; [vm_compute; reflexivity|]. split; [reflexivity|]. split; [reflexivity|]. vm_compute. reflexivity.
Qed.
(** The fragments of prefix NAL units and of slices in scalable extension: the header of the
    unit goes on after its first byte, which the parser does not take into account. *)
Theorem C47_svc_refuted :
  let rest h l := 128 + nal_unit_type h :: tl (nal_unit h l) in
  let l14 := octets (rbsp (enc_prefsvc ex_prefsvc [false; false; true])) in
  let l20 := octets (rbsp (svc_enc_in (ex_hsvc 1 20) ex_st4 ex_svcv ++ ex_data)) in
  (exists x w', parse_unit true false (nal_unit (ex_hsvc 2 14) l14) (mkw ex_st4 0) = (Ok x, w') /\
     IsPayloadParsed (nu_payload x) 14 = true) /\
  (exists p w', parse_rtp true (92 :: rest (ex_hsvc 2 14) l14) (mkw ex_st4 0) =
     (Ok (fua_of 92 142 (Some p)), w') /\ IsPayloadParsed p 14 = false) /\
  (exists x w', parse_unit true false (nal_unit (ex_hsvc 1 20) l20) (mkw ex_st4 0) = (Ok x, w') /\
     IsPayloadParsed (nu_payload x) 20 = true) /\
  (exists p w', parse_rtp true (60 :: rest (ex_hsvc 1 20) l20) (mkw ex_st4 0) =
     (Ok (fua_of 60 148 (Some p)), w') /\ IsPayloadParsed p 20 = false).
Proof.
  cbv zeta. split; [|split; [|split]]; eexists; eexists; (split; [vm_compute; reflexivity|reflexivity]).
Qed.

Print Assumptions C45_same_as_nal_unit.
Print Assumptions C45_other_types.
Print Assumptions C46_exact.
Print Assumptions C46_total.
Print Assumptions C46_shape.
Print Assumptions C46_parameter_sets_recovered.
Print Assumptions C46_emulation_prevention_refuted.
Print Assumptions C46_pps_not_last_refuted.
Print Assumptions C46_delimiter_refuted.
Print Assumptions C46_slice_refuted.
Print Assumptions C47_short.
Print Assumptions C47_continuation.
Print Assumptions C47_start.
Print Assumptions C47_svc_refuted.
