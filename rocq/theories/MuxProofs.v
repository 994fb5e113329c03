(** Whole NAL units are read back. *)
From Coq Require Import NArith ZArith List Bool Lia ZifyBool ZifyNat ZifyN.
From Verif Require Import SpecBits Base BitBuffer SpecReader BitsLemmas BitBufferProofs
  ReaderProofs Rbsp SpecRbsp RbspProofs ChecksumProofs Parser SpecSyntax ParserProofs SpecVui SpecScaling SpecFraming
  TypesSps Sps SpecSps SpsProofs TypesPps Pps SpecPps PpsProofs PropsSps PropsPps
  TypesNal NalHeader SpecNalHeader NalHeaderProofs TypesExt Ext SpecExt ExtProofs PropsExt
  TypesSlice TypesSliceHeader SliceHeader SpecSlice SliceProofs PropsSlice
  TypesSvcSlice SvcSlice SpecSvcSlice SvcSliceProofs PropsSvcSlice
  TypesNalUnit NalUnit NalUnitProofs SpecNalUnit NalUnitProofs2 CodecProofs SpecMux.
Import ListNotations.
Open Scope N_scope.
Ltac Zify.zify_post_hook ::= Z.div_mod_to_equations.

(** * The bytes *)
Lemma head_byte : forall h r, enc_nalh h = r -> octets (enc_nalh h) = octets r.
Proof. intros; subst; reflexivity. Qed.
Lemma octet_nz : forall l i, length l = 8%nat -> nth i l false = true -> bval l <> 0.
Proof.
  intros l i L N Z. assert (E : l = nbits 8 0) by (rewrite <- (nbits_bval l), L, Z; reflexivity).
  subst l. do 8 (destruct i as [|i]; [discriminate|]). destruct i; discriminate.
Qed.
Lemma header_solid : forall h, header_std h -> solid (octets (enc_nalh h)).
Proof.
  intros h ((F & R & T & A & V) & NZ & X).
  pose proof (enc_nalh_length h) as L.
  assert (B0 : bval (enc_nal_byte (forbidden_zero_bit h) (nal_ref_idc h) (nal_unit_type h)) <> 0).
  { rewrite enc_nal_byte_val by auto. lia. }
  assert (L0 : length (enc_nal_byte (forbidden_zero_bit h) (nal_ref_idc h) (nal_unit_type h)) = 8%nat)
    by apply enc_nal_byte_length.
  unfold enc_nalh. rewrite octets_app by (rewrite L0; reflexivity).
  rewrite octets_step by lia. rewrite firstn_all2 by lia. rewrite (octets_short (skipn 8 _)) by (rewrite skipn_length; lia).
  destruct (nal_svc h) as [e|]; [|exact B0].
  unfold enc_svc_ext, u_bits. cbn [nbits N.to_nat Pos.to_nat Pos.iter_op Nat.add app octets solid].
  split; [exact B0|]. split.
  - apply octet_nz with 0%nat; reflexivity.
  - apply octet_nz with 7%nat; [reflexivity|]. cbn [nth]. rewrite X. reflexivity.
Qed.
Lemma unit_nal_bytes : forall h l, header_std h -> (forall a, l <> a ++ [0]) -> nal_bytes (nal_unit h l).
Proof. intros h l H L. apply solid_nal_bytes; [apply header_solid; auto|apply escape_nal_bytes; auto]. Qed.
Lemma unit_unesc : forall h l, header_std h -> unesc (nal_unit h l) = octets (enc_nalh h) ++ l.
Proof. intros h l H. apply solid_unesc, header_solid; auto. Qed.
Lemma coded_last : forall st h l p a, coded st h l p -> l <> a ++ [0].
Proof. intros st h l p a C. destruct C; auto using rbsp_last. Qed.
Lemma coded_ok : forall st h l p, coded st h l p -> bytes_ok l.
Proof. intros st h l p C. destruct C; auto using octets_ok. Qed.

(** * The payload parser *)
Lemma readable : forall ls, Forall slist_std ls -> Forall slist_readable ls.
Proof. intros ls F. eapply Forall_impl; [|exact F]. intros [] Hs; cbn in *; auto. Qed.

(** Aligned, with the RBSP ahead, and then [rest]. *)
Definition at_rbsp (b : bb) (l : list bool) (rest : list bool) : Prop :=
  bb_wf b /\ bb_bit b = 0 /\ bb_rem b = rbsp l ++ rest.
Lemma sps_rbsp : forall b s ls rest, at_rbsp b (enc_sps s ls) rest -> valid_sps s ls ->
  Forall slist_std ls -> ParseSps b = (Ok s, bb_adv b (length (rbsp (enc_sps s ls)))).
Proof.
  intros b s ls rest (W & A & E) V F.
  assert (E' := E). unfold rbsp in E'. rewrite <- app_assoc in E'.
  pose proof (ParseSpsData_complete s ls V (readable _ F) b _ W E') as H.
  unfold ParseSps, sbind. rewrite H. rewrite <- (after_rbsp b _ rest W A E).
  rewrite ignored_trailing; [reflexivity|].
  apply bb_adv_wf; auto; rewrite E', app_length; lia.
Qed.
Lemma gives_rbsp : forall X (p : P X) c v b, at_rbsp b c [] ->
  gives p c (stop_bits (7 - length c mod 8)) v -> p b = (Ok v, bb_adv b (length (rbsp c))).
Proof.
  intros X p c v b (W & A & E) G. rewrite <- (after_rbsp b c [] W A E). apply G; auto.
  rewrite E, app_nil_r. reflexivity.
Qed.
Lemma pps_rbsp : forall b p ext, at_rbsp b (enc_pps p ext) [] -> valid_pps 1 p ext ->
  ext_std ext -> ParsePps 1 b = (Ok p, bb_adv b (length (rbsp (enc_pps p ext)))).
Proof.
  intros b p ext A V F. apply gives_rbsp; auto. apply ParsePps_complete; auto.
  set (k := (7 - _)%nat). assert (K : (k <= 7)%nat) by lia.
  destruct ext as [ls|].
  - split; [apply readable; auto|]. intros N. apply ended_iff in N.
    rewrite not_ended_app in N; [discriminate| |auto]. unfold enc_pps_ext. discriminate.
  - right. eauto.
Qed.
Lemma subsps_rbsp : forall b v ls ds, at_rbsp b (enc_subsps v ls ds) [] -> valid_subsps v ls ds ->
  Forall slist_std ls -> ParseSubsetSps b = (Ok v, bb_adv b (length (rbsp (enc_subsps v ls ds)))).
Proof.
  intros b v ls ds A V F. apply gives_rbsp; auto. apply ParseSubsetSps_complete; auto using readable. lia.
Qed.

(** What the payload parser does with a coded unit; [Some n]: it reads all the [n] bits. *)
Definition set_of (p : payload) : bool := some (pl_sps p) || some (pl_pps p) || some (pl_subset_sps p).
Definition after_unit (st : pstate) (p : payload) : pstate :=
  let st := match pl_sps p with Some s => add_sps s st | None => st end in
  let st := match pl_pps p with Some s => add_pps s st | None => st end in
  match pl_subset_sps p with Some s => add_subset_sps s st | None => st end.
Lemma payload_coded : forall h l p b w rest, header_std h -> ok_state (w_st w) ->
  coded (w_st w) h l p -> bb_wf b -> bb_bit b = 0 -> bb_rem b = bits_of l ++ rest ->
  rest = [] \/ nal_unit_type h = 7 ->
  exists m, (m <= length (bb_rem b))%nat /\
    ParseNalUnitPayload h (b, w) =
      (Ok p, (bb_adv b m, mkw (after_unit (w_st w) p) (w_unimplemented w))) /\
    (set_of p = true -> m = length (bits_of l)).
Proof.
  intros h l p b w rest H O C W A E RT.
  assert (LE : (length (bits_of l) <= length (bb_rem b))%nat) by (rewrite E, app_length; lia).
  unfold ParseNalUnitPayload. cbv zeta.
  destruct C as [s ls T V F|s ext T V F|v ls ds T V Vf F|v x data T V X|e v ds T Ne V Z|v x data T V X|l T Bl Ll];
    rewrite ?rbsp_bits in *.
  - rewrite T. cbn [N.eqb Pos.eqb orb]. unfold sbind, stored, sret.
    rewrite (sps_rbsp b s ls rest) by (auto; split; auto).
    eexists. split; [exact LE|]. split; [reflexivity|auto].
  - rewrite T. cbn [N.eqb Pos.eqb orb]. unfold sbind, stored, sret.
    assert (rest = []) by (destruct RT; [auto|lia]). subst rest.
    rewrite (pps_rbsp b s ext) by (auto; split; auto).
    eexists. split; [exact LE|]. split; [reflexivity|auto].
  - rewrite T. cbn [N.eqb Pos.eqb orb]. unfold sbind, stored, sret.
    assert (rest = []) by (destruct RT; [auto|lia]). subst rest.
    rewrite (subsps_rbsp b v ls ds) by (auto; split; auto).
    eexists. split; [exact LE|]. split; [reflexivity|auto].
  - replace (_ || _) with true by lia. unfold sbind, storedu, sret, ParseSliceLayerWithoutPartitioningRbsp, sbind, sret.
    destruct V as (s & q & Ac & V).
    unfold enc_in, reported_in in *. rewrite Ac in *.
    assert (E' : exists r, bb_rem b = enc_slice (nal_ref_idc h) (nal_unit_type h) s q v ++ r).
    { unfold rbsp in E. rewrite <- !app_assoc in E. eauto. }
    destruct E' as (r & E').
    pose proof (slice_complete (nal_ref_idc h) (nal_unit_type h) (w_st w) s q v (ok_use_state _ O)
      ltac:(lia) Ac V b r W E') as P. rewrite P.
    eexists. split; [|split; [|discriminate]].
    2:{ injection X as <-. destruct w. reflexivity. }
    rewrite E', app_length. lia.
  - rewrite T. cbn [N.eqb Pos.eqb orb]. destruct H as ((_ & _ & _ & _ & Hs) & _). rewrite Ne in *.
    destruct Hs as (_ & -> & _). change (tob 1) with true. cbv iota.
    assert (rest = []) by (destruct RT; [auto|lia]). subst rest. rewrite app_nil_r in E.
    unfold sbind, storedu, sret, ParsePrefixNalUnitRbsp. change (1 =? 1) with true. cbv iota.
    unfold sbind.
    destruct (prefsvc_complete _ _ _ v ds (7 - length (enc_prefsvc v ds) mod 8) V ltac:(lia) Z b W E)
      as (m & Lm & P). rewrite P.
    exists m. split; [exact Lm|]. split; [|discriminate]. destruct w. reflexivity.
  - rewrite T. cbn [N.eqb Pos.eqb orb]. destruct H as ((_ & _ & _ & A3 & Hs) & _).
    destruct V as (c & Ac & V). pose proof Ac as Ac'. unfold svc_active in Ac'.
    unfold svc_reported_in, svc_enc_in in *. rewrite Ac in *.
    assert (Fl : svc_extension_flag h = 1).
    { destruct (nal_svc h); [tauto|]. repeat match type of Ac' with match ?x with _ => _ end = _ => destruct x end; discriminate. }
    unfold ParseSliceLayerExtensionRbsp, sbind, storedu, sret. rewrite Fl, A3, T. change (tob 1) with true. cbv zeta iota.
    assert (E' : exists r, bb_rem b = enc_svc_slice c v ++ r).
    { unfold rbsp in E. rewrite <- !app_assoc in E. eauto. }
    destruct E' as (r & E').
    pose proof (svc_complete h (w_st w) c v (ok_svc_use_state _ O) Ac V b r W E') as P. rewrite P, X.
    eexists. split; [|split; [|discriminate]].
    2:{ destruct w. reflexivity. }
    rewrite E', app_length. lia.
  - exists 0%nat. split; [lia|].
    assert (T2 : forall n, In n [1; 5; 7; 8; 14; 15; 20; 21] -> nal_unit_type h =? n = false).
    { intros n I. apply N.eqb_neq. intros <-. auto. }
    rewrite !T2 by (cbn; tauto). cbn [orb]. split; [|discriminate]. rewrite adv0 by auto.
    destruct w; reflexivity.
Qed.

(** * Units *)
Lemma unit_coded : forall a ck w h l p, header_std h -> ok_state (w_st w) ->
  coded (w_st w) h l p -> fits a (nal_unit h l) ->
  exists x, unit_parser a ck (nal_unit h l) w =
      (Ok x, mkw (after_unit (w_st w) p) (w_unimplemented w)) /\
    nu_header x = h /\ nu_payload x = p /\
    nu_checksum x = (if ck then Some (checksum_of (start a (octets (enc_nalh h) ++ l))) else None) /\
    (set_of p = true -> nu_parsed_length x = N.of_nat (length (octets (enc_nalh h) ++ l))).
Proof.
  intros a ck w h l p H O C F. unfold unit_parser. rewrite on_unit_eq by auto.
  pose proof (fits_unesc _ _ F) as F'. rewrite unit_unesc in * by auto.
  pose proof (start_wf _ _ F') as W. rewrite nalunit_eq by auto.
  assert (R : bb_rem (start a (octets (enc_nalh h) ++ l)) = enc_nalh h ++ bits_of l).
  { rewrite start_rem, bits_of_app, enc_nalh_bits. reflexivity. }
  rewrite (ParseNalUnitHeader_complete h (proj1 H) _ _ W R).
  set (b := start a _) in *. set (b1 := bb_adv b (length (enc_nalh h))).
  assert (L1 : (length (enc_nalh h) <= length (bb_rem b))%nat) by (rewrite R, app_length; lia).
  assert (W1 : bb_wf b1) by (apply bb_adv_wf; auto).
  assert (R1 : bb_rem b1 = bits_of l).
  { unfold b1. rewrite bb_adv_rem by auto. rewrite R. now apply skipn_app_exact. }
  assert (A1 : bb_bit b1 = 0).
  { unfold b1, bb_adv, b, start. cbn [bb_byte bb_bit]. pose proof (enc_nalh_mod h). lia. }
  destruct (payload_coded h l p b1 w [] H O C W1 A1) as (m & Lm & P & S); [rewrite app_nil_r; auto|auto|].
  rewrite P. eexists. split; [reflexivity|]. cbn [nu_header nu_payload nu_checksum nu_parsed_length].
  split; [auto|]. split; [auto|]. split; [reflexivity|]. intros Sp. specialize (S Sp). subst m.
  unfold b1. rewrite bb_adv_adv. unfold get_current_offset, bb_adv, b, start. cbn [bb_byte bb_bit].
  rewrite app_length, octets_length, bits_of_length. pose proof (enc_nalh_mod h) as M.
  destruct F' as (_ & L61 & _). rewrite app_length, octets_length in L61.
  set (n := length (enc_nalh h)) in *. set (k := length l) in *.
  replace (8 * 0 + 0 + N.of_nat (n + 8 * k)) with (8 * N.of_nat (n / 8 + k)) by lia.
  replace (8 * N.of_nat (n / 8 + k) / 8) with (N.of_nat (n / 8 + k)) by lia.
  replace (8 * N.of_nat (n / 8 + k) mod 8) with 0 by lia.
  unfold u64. cbn [N.eqb]. rewrite N.mod_small by lia. lia.
Qed.

Lemma after_next : forall st h l p, coded st h l p -> next_sets st p (after_unit st p).
Proof.
  intros st h l p C id. destruct C; unfold after_unit; cbn [pl_sps pl_pps pl_subset_sps no_parts st_sps st_pps st_subset_sps add_sps add_pps add_subset_sps];
    rewrite ?lookup_minsert; auto.
Qed.
(** Only what can be looked up matters. *)
Definition same_sets (st st' : pstate) : Prop := forall id,
  lookup id (st_sps st) = lookup id (st_sps st') /\
  lookup id (st_pps st) = lookup id (st_pps st') /\
  lookup id (st_subset_sps st) = lookup id (st_subset_sps st').
Lemma same_active : forall st st' id, same_sets st st' -> active st id = active st' id.
Proof.
  intros st st' id S. unfold active. destruct (S id) as (_ & -> & _).
  destruct (lookup id (st_pps st')) as [p|]; auto.
  destruct (S (pps_seq_parameter_set_id p)) as (-> & _). reflexivity.
Qed.
Lemma same_svc_active : forall h st st' id, same_sets st st' -> svc_active h st id = svc_active h st' id.
Proof.
  intros h st st' id S. unfold svc_active. destruct (S id) as (_ & -> & _).
  destruct (lookup id (st_pps st')) as [p|]; auto.
  destruct (S (pps_seq_parameter_set_id p)) as (_ & _ & ->). reflexivity.
Qed.
Lemma coded_same : forall st st' h l p, same_sets st st' -> coded st h l p -> coded st' h l p.
Proof.
  intros st st' h l p S C.
  destruct C as [s ls T V F|s ext T V F|v ls ds T V Vf F|v x data T V X|e v ds T Ne V Z|v x data T V X|l T Bl Ll].
  - apply coded_sps; auto.
  - apply coded_pps; auto.
  - apply coded_subset_sps; auto.
  - replace (enc_in (nal_ref_idc h) (nal_unit_type h) st v) with (enc_in (nal_ref_idc h) (nal_unit_type h) st' v).
    + apply coded_slice; auto.
      * unfold valid_in in *. rewrite <- (same_active st st') by auto. exact V.
      * unfold reported_in in *. rewrite <- (same_active st st') by auto. exact X.
    + unfold enc_in. rewrite (same_active st st') by auto. reflexivity.
  - apply coded_prefix; auto.
  - replace (svc_enc_in h st v) with (svc_enc_in h st' v).
    + apply coded_svc_slice; auto.
      * unfold svc_valid_in in *. rewrite <- (same_svc_active h st st') by auto. exact V.
      * unfold svc_reported_in in *. rewrite <- (same_svc_active h st st') by auto. exact X.
    + unfold svc_enc_in. rewrite (same_svc_active h st st') by auto. reflexivity.
  - apply coded_other; auto.
Qed.
Lemma next_same : forall st st' p s s', same_sets st st' -> next_sets st p s -> next_sets st' p s' -> same_sets s s'.
Proof.
  intros st st' p s s' S N N' id. destruct (S id) as (S1 & S2 & S3).
  destruct (N id) as (-> & -> & ->). destruct (N' id) as (-> & -> & ->). rewrite S1, S2, S3. auto.
Qed.
(** * Streams *)
Lemma stream_coded : forall a ck us r st, coded_stream st us r -> forall w os,
  same_sets st (w_st w) -> ok_state (w_st w) -> map snd os = us -> Forall (fun e => fits a (snd e)) os ->
  exists l w', runs (unit_parser a ck) os w l w' /\
    map (fun e => (nu_header (fst (fst e)), nu_payload (fst (fst e)))) l = r /\
    map (fun '(x, o, n) => (o, n)) l = map (fun '(o, u) => (o, N.of_nat (length u))) os /\
    w_unimplemented w' = w_unimplemented w.
Proof.
  intros a ck us r st C. induction C as [st|st h l p st' us r H Cd Nx C IH]; intros w os S O M F.
  - destruct os; [|discriminate]. exists [], w. repeat split. constructor.
  - destruct os as [|[o u] os]; [discriminate|]. cbn [map snd] in M. injection M as -> M.
    inversion F as [|? ? F1 F2]. subst. cbn [snd] in F1.
    pose proof (coded_same _ _ _ _ _ S Cd) as Cw.
    destruct (unit_coded a ck w h l p H O Cw F1) as (x & E & Hh & Hp & _).
    pose proof (unit_cases a ck _ w F1 O) as UC.
    assert (O' : ok_state (after_unit (w_st w) p)).
    { pose proof (on_unit_good _ a (ParseNalUnit ck) _ w (nalunit_mgood ck) F1 O) as G.
      unfold unit_parser in E. rewrite E in G. exact G. }
    destruct (IH (mkw (after_unit (w_st w) p) (w_unimplemented w)) os) as (l' & w' & R & E1 & E2 & E3); auto.
    { eapply next_same; [exact S|exact Nx|eapply after_next; exact Cw]. }
    exists ((x, o, N.of_nat (length (nal_unit h l))) :: l'), w'. split; [econstructor; eauto|].
    cbn [map fst]. rewrite Hh, Hp, E1, E2. auto.
Qed.
Lemma stream_nal_bytes : forall st us r, coded_stream st us r -> Forall nal_bytes us.
Proof.
  intros st us r C. induction C as [st|st h l p st' us r H Cd Nx C IH]; constructor; auto.
  apply unit_nal_bytes; auto. intros a. eapply coded_last; eauto.
Qed.
