(** Proofs about the byte-level entry points and the bitstream parsers. *)
From Coq Require Import NArith ZArith List Bool Lia ZifyBool ZifyNat ZifyN.
From Verif Require Import SpecBits Base BitBuffer SpecReader BitsLemmas BitBufferProofs
  ReaderProofs SpecRbsp Rbsp RbspProofs ChecksumProofs Parser SpecSyntax ParserProofs TypesSps TypesPps Vui VuiProofs
  SpecVui SpecSps Sps SpsProofs SpecPps Pps PpsProofs TypesNal NalHeader SpecNalHeader NalHeaderProofs
  TypesExt Ext SpecExt ExtProofs TypesSliceHeader SliceHeader SpecSlice SliceProofs TypesSvcSlice
  SvcSlice SpecSvcSlice SvcSliceProofs Framing SpecFraming FramingProofs FramingProofs2 FramingProofs3
  TypesNalUnit NalUnit NalUnitProofs SpecNalUnit.
Import ListNotations.
Open Scope N_scope.
Ltac Zify.zify_post_hook ::= Z.div_mod_to_equations.

(** * Unescaping a part of the buffer *)
Lemma nth_error_firstn' : forall A k n (l : list A), (k < n)%nat -> nth_error (firstn n l) k = nth_error l k.
Proof.
  induction k; intros [|n] [|x l] H; try lia; try reflexivity. cbn. apply IHk. lia.
Qed.
Lemma fetch_firstn : forall data n i, i < n -> fetch (firstn (N.to_nat n) data) i = fetch data i.
Proof. intros. unfold fetch. rewrite nth_error_firstn' by lia. reflexivity. Qed.
Lemma Unescape_loop_firstn : forall fuel data n i out,
  Unescape_loop fuel (firstn (N.to_nat n) data) n i out = Unescape_loop fuel data n i out.
Proof.
  induction fuel as [|f IH]; intros data n i out; cbn [Unescape_loop]; [reflexivity|].
  destruct (N.ltb_spec i n) as [L|L]; [|reflexivity].
  rewrite (fetch_firstn data n i) by lia.
  destruct (N.leb_spec 3 (n - i)) as [L3|L3].
  - rewrite !(fetch_firstn data n (i + 1)), (fetch_firstn data n (i + 2)) by lia.
    destruct (fetch data i) as [a| |k| |]; cbn [rbind]; auto.
    destruct (fetch data (i + 1)) as [c| |k| |]; cbn [rbind]; auto;
      destruct (a =? 0); cbn [rbind]; auto.
    destruct (c =? 0); cbn [rbind]; auto.
    destruct (fetch data (i + 2)) as [d| |k| |]; cbn [rbind]; auto.
    destruct (d =? 3); auto.
  - cbn [rbind]. destruct (fetch data i); cbn [rbind]; auto.
Qed.
Lemma UnescapeRbsp_slice : forall data i n, i + n <= N.of_nat (length data) -> n < 2 ^ 63 ->
  UnescapeRbsp (at_offset data i) n = Ok (unesc (slice i n data)).
Proof.
  intros data i n H B. unfold UnescapeRbsp. replace (_ <? n) with false by lia.
  rewrite <- Unescape_loop_firstn. fold (at_offset data i). unfold slice. fold (at_offset data i).
  set (d := firstn (N.to_nat n) (at_offset data i)).
  assert (L : length d = N.to_nat n).
  { unfold d, at_offset. rewrite firstn_length, skipn_length. lia. }
  replace n with (N.of_nat (length d)) at 1 by lia.
  rewrite Unescape_loop_spec; [reflexivity| |lia].
  cbn [N.to_nat skipn]. unfold at_offset. rewrite L, skipn_length. lia.
Qed.

(** * Byte-level entry points *)
(** A buffer just constructed. *)
Definition start (asserts : bool) (bytes : list N) : bb := mkbb bytes 0 0 asserts.
Lemma start_new : forall a l, fits a l -> bb_new a l = Ok (start a l).
Proof.
  intros a l (_ & _ & H). unfold bb_new, dcheck. destruct a; [|reflexivity].
  specialize (H eq_refl). replace (_ <=? _) with true by lia. reflexivity.
Qed.
Lemma start_wf : forall a l, fits a l -> bb_wf (start a l).
Proof.
  intros a l F. eapply bb_new_wf; [| |apply start_new; eauto]; apply F.
Qed.
Lemma start_reachable : forall a l, fits a l -> reachable (start a l).
Proof. intros a l F. eapply reach_new; [| |apply start_new; eauto]; apply F. Qed.
Lemma start_rem : forall a l, bb_rem (start a l) = bits_of l.
Proof. reflexivity. Qed.
Lemma fits_unesc : forall a l, fits a l -> fits a (unesc l).
Proof.
  intros a l (B & L & H). pose proof (unesc_length l). split; [|split].
  - apply unesc_ok; auto.
  - lia.
  - intros A. specialize (H A). lia.
Qed.
Lemma with_buffer_eq : forall A a (m : M A) l w, fits a l ->
  with_buffer a m l w = let '(r, (_, w')) := m (start a l, w) in (r, w').
Proof. intros A a m l w F. unfold with_buffer. rewrite start_new by auto. reflexivity. Qed.
Lemma slice_ok : forall a data i n, fits a data -> fits a (slice i n data).
Proof.
  intros a data i n (B & L & H).
  assert (K : (length (slice i n data) <= length data)%nat).
  { unfold slice. rewrite firstn_length, skipn_length. lia. }
  split; [|split].
  - unfold slice. apply Forall_forall. intros x I. unfold bytes_ok in B. rewrite Forall_forall in B.
    apply B. rewrite <- (firstn_skipn (N.to_nat i) data). apply in_or_app. right.
    rewrite <- (firstn_skipn (N.to_nat n) (skipn (N.to_nat i) data)). apply in_or_app. left. exact I.
  - lia.
  - intros A. specialize (H A). lia.
Qed.
(** Everything a byte-level entry point does depends on the bytes of the unit only. *)
Definition on_unit {A} (a : bool) (m : M A) (u : list N) (w : world) : res A * world :=
  unescaping a m u (N.of_nat (length u)) w.
Lemma on_unit_eq : forall A a (m : M A) u w, fits a u ->
  on_unit a m u w = let '(r, (_, w')) := m (start a (unesc u), w) in (r, w').
Proof.
  intros A a m u w F. unfold on_unit, unescaping. rewrite UnescapeRbsp_spec by (destruct F as (_ & ? & _); lia).
  apply with_buffer_eq. apply fits_unesc; auto.
Qed.
Lemma slice_length : forall i n data, i + n <= N.of_nat (length data) -> length (slice i n data) = N.to_nat n.
Proof. intros. unfold slice. rewrite firstn_length, skipn_length. lia. Qed.
Lemma unescaping_slice : forall A a (m : M A) data i n w, fits a data ->
  i + n <= N.of_nat (length data) ->
  unescaping a m (at_offset data i) n w = on_unit a m (slice i n data) w.
Proof.
  intros A a m data i n w F H. unfold on_unit, unescaping.
  pose proof F as (_ & L & _).
  rewrite UnescapeRbsp_slice by lia. rewrite UnescapeRbsp_spec; [reflexivity|].
  rewrite slice_length by lia. lia.
Qed.
Lemma on_unit_good : forall A a (m : M A) u w, mgood m -> fits a u -> ok_state (w_st w) ->
  match on_unit a m u w with
  | (Ok _, w') | (Null, w') => ok_state (w_st w')
  | _ => False
  end.
Proof.
  intros A a m u w G F O. rewrite on_unit_eq by auto.
  specialize (G (start a (unesc u)) w (start_wf _ _ (fits_unesc _ _ F)) O).
  destruct (m (start a (unesc u), w)) as [[v| |k| |] [b' w']]; tauto.
Qed.

(** * The bitstream loops *)
Section loop.
  Context (a ck : bool).
  Definition unit_parser : list N -> world -> res nalu * world := on_unit a (ParseNalUnit ck).
  Lemma loop_runs : forall data ix w, fits a data -> ok_state (w_st w) ->
    (forall x, In x ix -> ni_payload x + ni_size x <= N.of_nat (length data)) ->
    exists l w', bitstream_loop a ck data ix w = (Ok l, w') /\ ok_state (w_st w') /\
      runs unit_parser (map (fun x => (ni_payload x, slice (ni_payload x) (ni_size x) data)) ix) w l w'.
  Proof.
    intros data ix. induction ix as [|x ix IH]; intros w F O I.
    { exists [], w. split; [reflexivity|]. split; [auto|]. constructor. }
    cbn [bitstream_loop map]. unfold ParseNalUnitBytes.
    assert (Ix : ni_payload x + ni_size x <= N.of_nat (length data)) by (apply I; left; auto).
    rewrite unescaping_slice by auto. fold unit_parser.
    pose proof (on_unit_good _ a (ParseNalUnit ck) (slice (ni_payload x) (ni_size x) data) w
      (nalunit_mgood ck) (slice_ok _ _ _ _ F) O) as G.
    fold unit_parser in G.
    destruct (unit_parser (slice (ni_payload x) (ni_size x) data) w) as [[u| |k| |] w1] eqn:E; try tauto.
    - destruct (IH w1 F G) as (l & w2 & E2 & O2 & R2); [intros; apply I; right; auto|].
      rewrite E2. eexists. exists w2. split; [reflexivity|]. split; [auto|].
      replace (ni_size x) with (N.of_nat (length (slice (ni_payload x) (ni_size x) data))) at 2
        by (rewrite slice_length by auto; lia).
      eapply runs_kept; eauto.
    - destruct (IH w1 F G) as (l & w2 & E2 & O2 & R2); [intros; apply I; right; auto|].
      exists l, w2. split; [auto|]. split; [auto|]. eapply runs_dropped; eauto.
  Qed.
  Lemma visit_runs : forall data tag pl w, fits a data -> ok_state (w_st w) ->
    (forall i n, In (i, n) pl -> i + n <= N.of_nat (length data)) ->
    exists l w', visit_all (fun i n => ParseNalUnitBytes a ck (at_offset data i) n) tag pl w =
        (Ok (map (fun '(u, o, _) => (u, o, tag)) l), w') /\ ok_state (w_st w') /\
      runs unit_parser (map (fun '(i, n) => (i, slice i n data)) pl) w l w'.
  Proof.
    intros data tag pl. induction pl as [|[i n] pl IH]; intros w F O I.
    { exists [], w. split; [reflexivity|]. split; [auto|]. constructor. }
    cbn [visit_all map]. unfold ParseNalUnitBytes at 1.
    assert (Ix : i + n <= N.of_nat (length data)) by (apply I; left; auto).
    rewrite unescaping_slice by auto. fold unit_parser.
    pose proof (on_unit_good _ a (ParseNalUnit ck) (slice i n data) w
      (nalunit_mgood ck) (slice_ok _ _ _ _ F) O) as G.
    fold unit_parser in G.
    destruct (unit_parser (slice i n data) w) as [[u| |k| |] w1] eqn:E; try tauto.
    - destruct (IH w1 F G) as (l & w2 & E2 & O2 & R2); [intros; apply I; right; auto|].
      rewrite E2. exists ((u, i, N.of_nat (length (slice i n data))) :: l), w2. split; [reflexivity|].
      split; [auto|]. eapply runs_kept; eauto.
    - destruct (IH w1 F G) as (l & w2 & E2 & O2 & R2); [intros; apply I; right; auto|].
      rewrite E2. exists l, w2. split; [auto|]. split; [auto|]. eapply runs_dropped; eauto.
  Qed.
End loop.

(** * The header, byte by byte *)
Lemma enc_nal_byte_length : forall f r t, length (enc_nal_byte f r t) = 8%nat.
Proof. intros. unfold enc_nal_byte, u_bits. rewrite !app_length, !nbits_length. reflexivity. Qed.
Lemma enc_nal_byte_val : forall f r t, is_u 1 f -> is_u 2 r -> is_u 5 t ->
  bval (enc_nal_byte f r t) = 128 * f + 32 * r + t.
Proof.
  intros f r t F R T. unfold enc_nal_byte, u_bits. rewrite !bval_app, app_length, !nbits_length.
  rewrite (bval_nbits_small (N.to_nat 1)), (bval_nbits_small (N.to_nat 2)), (bval_nbits_small (N.to_nat 5));
    [|exact T|exact R|exact F].
  change (2 ^ N.of_nat (N.to_nat 2 + N.to_nat 5)) with 128. change (2 ^ N.of_nat (N.to_nat 5)) with 32. lia.
Qed.
Lemma enc_nal_byte_inv : forall f r t x rest rest', x < 256 -> is_u 1 f -> is_u 2 r -> is_u 5 t ->
  byte_bits x ++ rest = enc_nal_byte f r t ++ rest' ->
  f = x / 128 /\ r = x / 32 mod 4 /\ t = x mod 32 /\ rest = rest'.
Proof.
  intros f r t x rest rest' X F R T E. unfold is_u in *.
  assert (B : byte_bits x = enc_nal_byte f r t /\ rest = rest').
  { pose proof (byte_bits_length x) as L1. pose proof (enc_nal_byte_length f r t) as L2.
    assert (firstn 8 (byte_bits x ++ rest) = firstn 8 (enc_nal_byte f r t ++ rest')) by now rewrite E.
    assert (skipn 8 (byte_bits x ++ rest) = skipn 8 (enc_nal_byte f r t ++ rest')) by now rewrite E.
    rewrite <- L1 in H at 1, H0 at 1. rewrite <- L2 in H, H0.
    rewrite !firstn_app_exact in H. rewrite !skipn_app_exact in H0. auto. }
  destruct B as [B ->].
  assert (V : x = 128 * f + 32 * r + t).
  { rewrite <- (bval_byte x X), B. apply enc_nal_byte_val; auto. }
  assert (f < 2) by lia. assert (r < 4) by lia. assert (t < 32) by lia.
  repeat split; try lia.
Qed.
Lemma bits_pos : forall x y, x < 256 -> hd false (byte_bits x ++ y) = (128 <=? x).
Proof.
  intros x y X. unfold byte_bits. cbn [map app hd].
  destruct (N.leb_spec 128 x).
  - apply N.testbit_true. change (2 ^ 7) with 128. lia.
  - apply N.testbit_false. change (2 ^ 7) with 128. lia.
Qed.
Lemma header_bytes : forall a r, fits a r -> forall res b', ParseNalUnitHeader (start a r) = (res, b') ->
  match res with
  | Ok (Some h) => header_read r /\ ~ header_other_ext r /\
      forbidden_zero_bit h = hd 0 r / 128 /\ nal_ref_idc h = hd 0 r / 32 mod 4 /\
      nal_unit_type h = type_of r /\ valid_nalh h /\
      (if (type_of r =? 14) || (type_of r =? 20) then svc_extension_flag h = 1 /\ nal_svc h <> None
       else svc_extension_flag h = 0 /\ nal_svc h = None) /\
      reads (start a r) (enc_nalh h) b'
  | Ok None => header_other_ext r /\ ~ header_read r
  | Null => ~ header_other_ext r /\ ~ header_read r
  | _ => False
  end.
Proof.
  intros a r F res b' H. pose proof (start_wf a r F) as W.
  pose proof (ParseNalUnitHeader_good _ W) as G. rewrite H in G.
  assert (Bx : forall x t, r = x :: t -> x < 256).
  { intros x t ->. destruct F as (B & _). inversion B; auto. }
  assert (By : forall x y t, r = x :: y :: t -> y < 256).
  { intros x y t ->. destruct F as (B & _). inversion B as [|? ? _ B1]. inversion B1; auto. }
  destruct res as [[h|]| |k| |]; auto.
  - apply ParseNalUnitHeader_sound in H; auto. destruct H as (V & R).
    pose proof V as (V1 & V2 & V3 & V4 & V5). pose proof R as (_ & E & _).
    rewrite start_rem in E. unfold enc_nalh in E. rewrite <- app_assoc in E.
    destruct r as [|x t].
    { exfalso. apply (f_equal (@length bool)) in E. rewrite app_length, enc_nal_byte_length in E.
      cbn in E. lia. }
    rewrite bits_of_cons in E. apply enc_nal_byte_inv in E; auto; [|eapply Bx; reflexivity].
    destruct E as (E1 & E2 & E3 & E). change (type_of (x :: t)) with (x mod 32).
    cbn [hd]. rewrite <- E3.
    assert (K : header_read (x :: t) /\ ~ header_other_ext (x :: t)).
    { unfold header_read, header_other_ext. change (type_of (x :: t)) with (x mod 32). rewrite <- E3.
      destruct (nal_svc h) as [e|].
      - destruct V5 as (T & S1 & S2).
        assert (L : (4 <= length (x :: t))%nat).
        { apply (f_equal (@length bool)) in E. rewrite bits_of_length in E.
          rewrite !app_length in E. unfold enc_svc_ext, u_bits in E. rewrite !app_length, !nbits_length in E.
          cbn [length] in *. lia. }
        assert (N1 : 128 <= nth 1 (x :: t) 0).
        { destruct t as [|y t]; [cbn in L; lia|]. cbn [nth].
          apply (f_equal (hd false)) in E. rewrite bits_of_cons, bits_pos in E by (eapply By; reflexivity).
          cbn in E. lia. }
        split; [|intros [_ O]; lia]. split; [discriminate|]. split; [lia|]. intros _. auto.
      - destruct V5 as (T1 & T2 & T3 & _). split; [|intros [_ O]; lia].
        split; [discriminate|]. split; [lia|]. lia. }
    destruct K as [K1 K2]. repeat (split; [assumption || reflexivity|]). split; [|exact R].
    destruct (nal_svc h) as [e|].
    + destruct V5 as (T & S1 & S2). replace (_ || _) with true by lia. split; [auto|discriminate].
    + destruct V5 as (T1 & T2 & T3 & S1). replace (_ || _) with false by lia. auto.
  - apply ParseNalUnitHeader_sound in H; auto.
    destruct H as (c & (f & rr & t & x & Uf & Ur & -> & T) & R).
    destruct R as (_ & E & _). rewrite start_rem, <- app_assoc in E.
    destruct r as [|y r].
    { exfalso. apply (f_equal (@length bool)) in E. rewrite app_length, enc_nal_byte_length in E.
      cbn in E. lia. }
    rewrite bits_of_cons in E. apply enc_nal_byte_inv in E; auto;
      [|eapply Bx; reflexivity|unfold is_u; lia].
    destruct E as (_ & _ & E3 & E). unfold header_read, header_other_ext.
    change (type_of (y :: r)) with (y mod 32). rewrite <- E3.
    destruct r as [|z r]; [discriminate E|].
    apply (f_equal (hd false)) in E. rewrite bits_of_cons, bits_pos in E by (eapply By; reflexivity).
    cbn [app hd] in E. cbn [nth length]. split.
    + split; [lia|]. destruct T as [[T ->]|[[T ->]|T]]; lia.
    + intros (_ & H1 & H2). destruct T as [[T ->]|[[T ->]|T]]; lia.
  - assert (NE : (length r < 4)%nat).
    { apply short_header in H; auto. rewrite start_rem, bits_of_length in H. lia. }
    assert (NT : r = [] \/ type_of r = 14 \/ type_of r = 20 \/ type_of r = 21).
    { destruct r as [|y r]; [auto|right].
      apply header_null in H; auto.
      - destruct H as (f & rr & t & rest & Uf & Ur & T & E). rewrite start_rem, bits_of_cons in E.
        apply enc_nal_byte_inv in E; auto; [|eapply Bx; reflexivity|unfold is_u; lia].
        destruct E as (_ & _ & E & _). change (type_of (y :: r)) with (y mod 32). lia.
      - rewrite start_rem, bits_of_length. cbn [length]. lia. }
    split.
    + intros (L & T). destruct r as [|x [|y r]]; cbn [length] in L; try lia. cbn [nth] in T.
      assert (x < 256) by (eapply Bx; reflexivity). assert (y < 256) by (eapply By; reflexivity).
      change (type_of (x :: y :: r)) with (x mod 32) in *.
      assert (P : parses ParseNalUnitHeader (enc_nal_byte (x / 128) (x / 32 mod 4) (x mod 32) ++ [128 <=? y]) None).
      { apply ParseNalUnitHeader_unimpl. exists (x / 128), (x / 32 mod 4), (x mod 32), (128 <=? y).
        unfold is_u. split; [lia|]. split; [lia|]. split; [reflexivity|]. lia. }
      specialize (P (start a (x :: y :: r))). rewrite H in P.
      assert (E : exists rest, bb_rem (start a (x :: y :: r)) =
        (enc_nal_byte (x / 128) (x / 32 mod 4) (x mod 32) ++ [128 <=? y]) ++ rest).
      { rewrite start_rem, !bits_of_cons. exists (tl (byte_bits y ++ bits_of r)).
        rewrite <- app_assoc. f_equal.
        - apply bval_inj; [rewrite byte_bits_length, enc_nal_byte_length; reflexivity|].
          rewrite bval_byte, enc_nal_byte_val by (auto; unfold is_u; lia). lia.
        - rewrite <- (bits_pos y (bits_of r)) by auto. reflexivity. }
      destruct E as (rest & E). specialize (P rest W E). discriminate P.
    + intros (N0 & T21 & T). destruct NT as [->|NT]; [congruence|]. lia.
Qed.

(** * One NAL unit *)
Definition never_null {A} (m : M A) : Prop := forall s, fst (m s) <> Null.
Lemma nn_bind : forall A B (p : M A) (f : A -> M B), never_null p -> (forall a, never_null (f a)) ->
  never_null (sbind p f).
Proof.
  intros A B p f G F s. unfold sbind. specialize (G s). destruct (p s) as [[x| |k| |] s1]; cbn in *;
    try congruence; apply F.
Qed.
Lemma nn_ret : forall A (x : A), never_null (sret x).
Proof. intros A x s. discriminate. Qed.
Lemma nn_stored : forall A (p : P A), never_null (stored p).
Proof. intros A p [b w]. unfold stored. destruct (p b) as [[x| |k| |] b']; discriminate. Qed.
Lemma nn_storedu : forall A (p : pstate -> P (option A)), never_null (storedu p).
Proof. intros A p [b w]. unfold storedu. destruct (p (w_st w) b) as [[[x|]| |k| |] b']; discriminate. Qed.
Lemma nn_change : forall f, never_null (change f).
Proof. intros f [b w]. discriminate. Qed.
Lemma nn_slice_ext : forall h, never_null (ParseSliceLayerExtensionRbsp h).
Proof.
  intros h. unfold ParseSliceLayerExtensionRbsp. destruct (tob _).
  { apply nn_bind; [apply nn_storedu|intros; apply nn_ret]. }
  destruct (tob _); [apply nn_ret|].
  apply nn_bind; [apply nn_storedu|intros; apply nn_ret].
Qed.
Lemma nn_payload : forall h, never_null (ParseNalUnitPayload h).
Proof.
  intros h. unfold ParseNalUnitPayload. cbv zeta.
  assert (U : forall A (o : option A) f, never_null (match o with Some s => change (f s) | None => sret tt end)).
  { intros A [s|] f; [apply nn_change|apply nn_ret]. }
  repeat match goal with
  | |- never_null (if ?c then _ else _) => destruct c
  | |- never_null (match ?c with Some _ => _ | None => _ end) => first [apply U|destruct c]
  | |- never_null (sbind _ _) => apply nn_bind; [|intros]
  | |- never_null (sret _) => apply nn_ret
  | |- never_null (stored _) => apply nn_stored
  | |- never_null (storedu _) => apply nn_storedu
  | |- never_null (ParseSliceLayerExtensionRbsp _) => apply nn_slice_ext
  end.
Qed.
(** The payload parser always returns an object. *)
Lemma payload_ok : forall h b w, bb_wf b -> ok_state (w_st w) ->
  exists p b' w', ParseNalUnitPayload h (b, w) = (Ok p, (b', w')) /\ moves b b' /\ ok_state (w_st w').
Proof.
  intros h b w W O. pose proof (payload_mgood h b w W O) as G. pose proof (nn_payload h (b, w)) as NN.
  destruct (ParseNalUnitPayload h (b, w)) as [[p| |k| |] [b' w']]; try tauto; try (cbn in NN; congruence).
  exists p, b', w'. tauto.
Qed.
Definition checksum_of (b : bb) : list N :=
  bytes_of_u32 (2 ^ 32 - 1 - oc_of (nsum (words32 (octets (bb_rem b))) mod 2 ^ 64)).
Lemma nalunit_eq : forall ck b w, bb_wf b -> ParseNalUnit ck (b, w) =
  match ParseNalUnitHeader b with
  | (Ok (Some h), b1) =>
      match ParseNalUnitPayload h (b1, w) with
      | (Ok p, (b2, w2)) => (Ok (mknalu h p (get_current_offset b2)
                                  (if ck then Some (checksum_of b) else None)), (b2, w2))
      | (Null, s) => (Null, s) | (UB k, s) => (UB k, s) | (Abort, s) => (Abort, s)
      | (NoFuel, s) => (NoFuel, s)
      end
  | (Ok None, b1) => (Null, (b1, report w))
  | (Null, b1) => (Null, (b1, w))
  | (UB k, b1) => (UB k, (b1, w)) | (Abort, b1) => (Abort, (b1, w)) | (NoFuel, b1) => (NoFuel, (b1, w))
  end.
Proof.
  intros ck b w W. unfold ParseNalUnit, nal_header, storedu, onbuf, nonnull, sbind, sret, sfail.
  destruct ck; cbv beta iota; rewrite ?GetNaluChecksum_gen by auto; fold (checksum_of b); cbv beta iota;
  (destruct (ParseNalUnitHeader b) as [[[h|]| |k| |] b1]; try reflexivity; cbv beta iota;
   destruct (ParseNalUnitPayload h (b1, w)) as [[p| |k| |] [b2 w2]]; reflexivity).
Qed.
(** Everything about one unit. *)
Lemma unit_cases : forall a ck u w, fits a u -> ok_state (w_st w) ->
  (exists h p b1 b2 w2,
     ParseNalUnitHeader (start a (unesc u)) = (Ok (Some h), b1) /\
     ParseNalUnitPayload h (b1, w) = (Ok p, (b2, w2)) /\
     moves (start a (unesc u)) b1 /\ moves b1 b2 /\ ok_state (w_st w2) /\
     header_read (unesc u) /\ nal_unit_type h = type_of (unesc u) /\
     unit_parser a ck u w = (Ok (mknalu h p (get_current_offset b2)
       (if ck then Some (checksum_of (start a (unesc u))) else None)), w2)) \/
  (header_other_ext (unesc u) /\ ~ header_read (unesc u) /\ unit_parser a ck u w = (Null, report w)) \/
  (~ header_other_ext (unesc u) /\ ~ header_read (unesc u) /\ unit_parser a ck u w = (Null, w)).
Proof.
  intros a ck u w F O. unfold unit_parser. rewrite on_unit_eq by auto.
  pose proof (fits_unesc _ _ F) as F'. pose proof (start_wf _ _ F') as W. rewrite nalunit_eq by auto.
  destruct (ParseNalUnitHeader (start a (unesc u))) as [r b1] eqn:H.
  pose proof (header_bytes a _ F' _ _ H) as HB.
  pose proof (ParseNalUnitHeader_good _ W) as G. rewrite H in G.
  destruct r as [[h|]| |k| |]; try tauto.
  left. destruct (payload_ok h b1 w) as (p & b2 & w2 & E & MV & O2); auto.
  { eapply moves_wf; eauto. }
  rewrite E. exists h, p, b1, b2, w2. tauto.
Qed.
