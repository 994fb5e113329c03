(** Properties C44, C48, C50, C54 and C55: the command line tool and the NAL unit type helpers. *)
From Coq Require Import NArith ZArith List Bool String Lia ZifyBool ZifyNat ZifyN.
From Verif Require Import SpecBits Base BitBuffer SpecReader BitsLemmas BitBufferProofs
  ReaderProofs SpecRbsp Rbsp RbspProofs ChecksumProofs Parser SpecSyntax ParserProofs TypesSps TypesPps SpecSps
  SpecPps Sps Pps TypesNal NalHeader TypesExt Ext TypesSlice TypesSliceHeader SliceHeader TypesSvcSlice
  SvcSlice PropsSps PropsPps PropsSlice Framing SpecFraming FramingProofs FramingProofs2 FramingProofs3
  PropsFraming SpecSlice SliceProofs TypesNalUnit NalUnit NalUnitProofs SpecNalUnit NalUnitProofs2 NalUnitProofs3
  Rtp RtpProofs PropsNalUnit PropsNalUnit2 NalType Tool SpecTool ToolProofs.
Import ListNotations.
Open Scope N_scope.
Ltac Zify.zify_post_hook ::= Z.div_mod_to_equations.

(** * C48: classification of NAL unit types *)
Theorem C48_slices : forall t, IsSliceSegment t = true <-> class_of t = Some Slice.
Proof. intros t. rewrite slice_class. apply is_class_iff. Qed.
Theorem C48_reserved : forall t, IsNalUnitTypeReserved t = true <-> class_of t = Some Reserved.
Proof. intros t. rewrite reserved_class. apply is_class_iff. Qed.
Theorem C48_unspecified : forall t, t <> 0 ->
  (IsNalUnitTypeUnspecified t = true <-> class_of t = Some Unspecified).
Proof. intros t Z. rewrite unspecified_class by auto. apply is_class_iff. Qed.
(** The table calls type 0 unspecified too. *)
Theorem C48_type_0_refuted : class_of 0 = Some Unspecified /\ IsNalUnitTypeUnspecified 0 = false.
Proof. split; reflexivity. Qed.
Theorem C48_exclusive : forall t,
  (IsSliceSegment t = true -> IsNalUnitTypeReserved t = false /\ IsNalUnitTypeUnspecified t = false) /\
  (IsNalUnitTypeReserved t = true -> IsNalUnitTypeUnspecified t = false).
Proof.
  intros t. assert (U : IsNalUnitTypeUnspecified t = true -> class_of t = Some Unspecified).
  { intros H. destruct (N.eq_dec t 0) as [->|Z]; [discriminate|]. apply C48_unspecified; auto. }
  pose proof (C48_slices t). pose proof (C48_reserved t).
  destruct (IsSliceSegment t), (IsNalUnitTypeReserved t), (IsNalUnitTypeUnspecified t); split;
    try split; intros; try reflexivity; try discriminate; exfalso; intuition congruence.
Qed.
(** Values that are no NAL unit type belong to no class. *)
Theorem C48_out_of_range : forall t, 32 <= t -> class_of t = None /\ IsSliceSegment t = false /\
  IsNalUnitTypeReserved t = false /\ IsNalUnitTypeUnspecified t = false /\
  NalUnitTypeToString t = "unknown"%string.
Proof.
  intros t H. rewrite class_big, slice_big, reserved_big, unspecified_big, name_big by auto. auto.
Qed.
(** Names are distinct. *)
Theorem C48_names_distinct : forall t t', t < 32 -> NalUnitTypeToString t = NalUnitTypeToString t' -> t = t'.
Proof.
  intros t t' L E. destruct (N.lt_ge_cases t' 32) as [L'|L'].
  - assert (K : forallb (fun t => forallb (fun t' => negb (String.eqb (NalUnitTypeToString t) (NalUnitTypeToString t')) || (t =? t'))
       (map N.of_nat (seq 0 32))) (map N.of_nat (seq 0 32)) = true) by (vm_compute; reflexivity).
    pose proof (types_forall _ K t L) as K1. pose proof (types_forall _ K1 t' L') as K2. cbv beta in K2.
    rewrite E, String.eqb_refl in K2. cbn [negb orb] in K2. lia.
  - rewrite (name_big t' L') in E. exfalso.
    assert (K : forallb (fun t => negb (String.eqb (NalUnitTypeToString t) "unknown")) (map N.of_nat (seq 0 32)) = true)
      by (vm_compute; reflexivity).
    pose proof (types_forall _ K t L) as K1. cbv beta in K1. rewrite E in K1. discriminate.
Qed.
Example C48_ex : class_of 5 = Some Slice /\ class_of 17 = Some Reserved /\ class_of 24 = Some Unspecified /\
  class_of 7 = Some NonVcl /\ NalUnitTypeToString 19 = "coded_slice_of_auxiliary_coded_picture"%string.
Proof. repeat split. Qed.

(** * C44: exit status *)
(** Some unit is dropped, or kept without its payload. *)
Definition some_rejected (a ck : bool) (us : list (N * list N)) (w : world) : Prop :=
  exists pre o u post l1 w1, us = pre ++ (o, u) :: post /\ runs (parse_unit a ck) pre w l1 w1 /\
    rejected (fst (parse_unit a ck u w1)).
(** Some unit is kept without its payload. *)
Definition some_unparsed (a ck : bool) (us : list (N * list N)) (w : world) : Prop :=
  exists pre o u post l1 w1 x, us = pre ++ (o, u) :: post /\ runs (parse_unit a ck) pre w l1 w1 /\
    fst (parse_unit a ck u w1) = Ok x /\ IsPayloadParsed (nu_payload x) (nal_unit_type (nu_header x)) = false.
(** How many units call report_unimplemented. *)
Fixpoint reports (a ck : bool) (us : list (N * list N)) (st : pstate) : N :=
  match us with
  | [] => 0
  | (_, u) :: t => let '(_, w') := parse_unit a ck u (mkw st 0) in
                   w_unimplemented w' + reports a ck t (w_st w')
  end.
Definition unparsed_entry (e : nalu * N * N) : bool :=
  negb (IsPayloadParsed (nu_payload (fst (fst e))) (nal_unit_type (nu_header (fst (fst e))))).
Definition n_unparsed (l : list (nalu * N * N)) : N := N.of_nat (List.length (filter unparsed_entry l)).
Lemma count_unparsed_eq : forall l n, n + N.of_nat (List.length l) < 2 ^ 64 -> count_unparsed l n = n + n_unparsed l.
Proof.
  unfold n_unparsed. induction l as [|[[x o] k] l IH]; intros n H; cbn [count_unparsed filter List.length] in *; [lia|].
  unfold unparsed_entry at 1. cbn [fst]. destruct (IsPayloadParsed _ _); cbn [negb List.length].
  - rewrite IH by lia. reflexivity.
  - unfold u64. rewrite N.mod_small by lia. rewrite IH by lia. lia.
Qed.
Lemma runs_kept_le : forall A S (p : list N -> S -> res A * S) us s l s', runs p us s l s' ->
  (List.length l <= List.length us)%nat.
Proof. intros A S p us s l s' H. induction H; cbn [List.length]; lia. Qed.
Lemma rejected_cons : forall a ck o u t w r w', parse_unit a ck u w = (r, w') -> (r = Null \/ exists x, r = Ok x) ->
  (some_rejected a ck ((o, u) :: t) w <-> rejected r \/ some_rejected a ck t w').
Proof.
  intros a ck o u t w r w' E OK. split.
  - intros (pre & o' & u' & post & l1 & w1 & EQ & R & J). destruct pre as [|p pre]; cbn [app] in EQ.
    + injection EQ as <- <- <-. inversion R; subst. left. rewrite E in J. exact J.
    + injection EQ as <- ->. right. inversion R; subst;
      match goal with H : parse_unit a ck u w = _ |- _ => rewrite E in H; injection H as -> <- end;
      unfold some_rejected; eauto 10.
  - intros [J|(pre & o' & u' & post & l1 & w1 & -> & R & J)].
    + exists [], o, u, t, [], w. split; [reflexivity|]. split; [constructor|]. now rewrite E.
    + destruct OK as [->|(x & ->)].
      * exists ((o, u) :: pre), o', u', post, l1, w1. split; [reflexivity|]. split; [|exact J].
        eapply runs_dropped; eauto.
      * exists ((o, u) :: pre), o', u', post, ((x, o, N.of_nat (List.length u)) :: l1), w1. split; [reflexivity|]. split; [|exact J].
        eapply runs_kept; eauto.
Qed.
Lemma unparsed_cons : forall a ck o u t w r w', parse_unit a ck u w = (r, w') -> (r = Null \/ exists x, r = Ok x) ->
  (some_unparsed a ck ((o, u) :: t) w <->
   (exists x, r = Ok x /\ IsPayloadParsed (nu_payload x) (nal_unit_type (nu_header x)) = false) \/ some_unparsed a ck t w').
Proof.
  intros a ck o u t w r w' E OK. split.
  - intros (pre & o' & u' & post & l1 & w1 & y & EQ & R & J & V). destruct pre as [|p pre]; cbn [app] in EQ.
    + injection EQ as <- <- <-. inversion R; subst. left. rewrite E in J. cbn [fst] in J. eauto.
    + injection EQ as <- ->. right. inversion R; subst;
      match goal with H : parse_unit a ck u w = _ |- _ => rewrite E in H; injection H as -> <- end;
      unfold some_unparsed; eauto 12.
  - intros [(y & -> & V)|(pre & o' & u' & post & l1 & w1 & y & -> & R & J & V)].
    + exists [], o, u, t, [], w, y. split; [reflexivity|]. split; [constructor|]. rewrite E. auto.
    + destruct OK as [->|(x & ->)].
      * exists ((o, u) :: pre), o', u', post, l1, w1, y. split; [reflexivity|]. split; [|auto].
        eapply runs_dropped; eauto.
      * exists ((o, u) :: pre), o', u', post, ((x, o, N.of_nat (List.length u)) :: l1), w1, y. split; [reflexivity|]. split; [|auto].
        eapply runs_kept; eauto.
Qed.
Lemma rejected_ok : forall x, rejected (Ok x) <-> IsPayloadParsed (nu_payload x) (nal_unit_type (nu_header x)) = false.
Proof.
  intros x. unfold rejected. split.
  - intros [K|(y & K & V)]; [discriminate|]. injection K as <-. exact V.
  - eauto.
Qed.
Lemma rejected_null : rejected Null.
Proof. left. reflexivity. Qed.
Lemma n_unparsed_cons : forall e l, n_unparsed (e :: l) = (if unparsed_entry e then 1 else 0) + n_unparsed l.
Proof. intros e l. unfold n_unparsed. cbn [filter]. destruct (unparsed_entry e); cbn [List.length]; lia. Qed.
Lemma runs_rejected : forall a ck us w l w', runs (parse_unit a ck) us w l w' ->
  (some_rejected a ck us w <-> 0 < N.of_nat (List.length us) - N.of_nat (List.length l) + n_unparsed l) /\
  (some_unparsed a ck us w <-> 0 < n_unparsed l).
Proof.
  intros a ck us w l w' H. induction H as [s|o u t s x s' l s'' E R IH|o u t s s' l s'' E R IH].
  - unfold n_unparsed. cbn [filter List.length]. split; (split; [|lia]).
    + intros (pre & o & u & post & l1 & w1 & EQ & _). destruct pre; discriminate.
    + intros (pre & o & u & post & l1 & w1 & x & EQ & _). destruct pre; discriminate.
  - pose proof (runs_kept_le _ _ _ _ _ _ _ R) as LE.
    rewrite (rejected_cons _ _ _ _ _ _ _ _ E), (unparsed_cons _ _ _ _ _ _ _ _ E) by eauto.
    destruct IH as [IH1 IH2]. rewrite IH1, IH2, rejected_ok, n_unparsed_cons. cbn [List.length].
    assert (V : (exists x0, Ok x = Ok x0 /\ IsPayloadParsed (nu_payload x0) (nal_unit_type (nu_header x0)) = false) <->
      unparsed_entry (x, o, N.of_nat (List.length u)) = true).
    { unfold unparsed_entry. cbn [fst]. split.
      - intros (y & K & V). injection K as <-. now rewrite V.
      - intros V. exists x. split; auto. now apply negb_true_iff. }
    rewrite V. assert (V' : IsPayloadParsed (nu_payload x) (nal_unit_type (nu_header x)) = false <->
      unparsed_entry (x, o, N.of_nat (List.length u)) = true).
    { unfold unparsed_entry. cbn [fst]. now rewrite negb_true_iff. }
    rewrite V'. destruct (unparsed_entry _); split; split; intros; try lia; auto.
  - pose proof (runs_kept_le _ _ _ _ _ _ _ R) as LE.
    rewrite (rejected_cons _ _ _ _ _ _ _ _ E), (unparsed_cons _ _ _ _ _ _ _ _ E) by eauto.
    destruct IH as [IH1 IH2]. rewrite IH1, IH2. cbn [List.length]. split.
    + split; intros; [lia|]. left. apply rejected_null.
    + split; [intros [(y & K & _)|K]; [discriminate|auto]|auto].
Qed.
Lemma runs_reports : forall a ck us w l w', runs (parse_unit a ck) us w l w' -> Forall (fun e => fits a (snd e)) us ->
  w_unimplemented w < 2 ^ 32 ->
  w_unimplemented w' = (w_unimplemented w + reports a ck us (w_st w)) mod 2 ^ 32.
Proof.
  intros a ck us w l w' H.
  assert (STEP : forall u st c r s', fits a u -> c < 2 ^ 32 -> parse_unit a ck u (mkw st c) = (r, s') ->
    w_unimplemented s' < 2 ^ 32 /\
    w_unimplemented s' = (c + w_unimplemented (snd (parse_unit a ck u (mkw st 0)))) mod 2 ^ 32 /\
    w_st s' = w_st (snd (parse_unit a ck u (mkw st 0)))).
  { intros u st c r s' F C E. change parse_unit with unit_parser in *. rewrite unit_counter in E by auto.
    destruct (unit_parser a ck u (mkw st 0)) as [r0 w0]. injection E as <- <-. cbn. unfold u32.
    repeat split. apply N.mod_lt. lia. }
  induction H as [s|o u t s x s' l s'' E R IH|o u t s s' l s'' E R IH]; intros F C.
  - cbn [reports]. rewrite N.add_0_r, N.mod_small; auto.
  - inversion F as [|? ? F1 F2]; subst. cbn [snd] in F1. destruct s as [st c]. cbn [w_unimplemented] in C.
    destruct (STEP _ _ _ _ _ F1 C E) as (B & N1 & S1). rewrite IH by auto. cbn [reports w_st w_unimplemented].
    destruct (parse_unit a ck u (mkw st 0)) as [r0 w0]. cbn [snd] in N1, S1. rewrite N1, S1. lia.
  - inversion F as [|? ? F1 F2]; subst. cbn [snd] in F1. destruct s as [st c]. cbn [w_unimplemented] in C.
    destruct (STEP _ _ _ _ _ F1 C E) as (B & N1 & S1). rewrite IH by auto. cbn [reports w_st w_unimplemented].
    destruct (parse_unit a ck u (mkw st 0)) as [r0 w0]. cbn [snd] in N1, S1. rewrite N1, S1. lia.
Qed.
(** What makes a unit call report_unimplemented (at most once): a header announcing the MVC
    or 3D-AVC extension, or unimplemented syntax in a prefix NAL unit or an SVC slice. *)
Definition unimplemented_syntax (a : bool) (r : list N) (st : pstate) : Prop :=
  header_other_ext r \/
  exists h b, ParseNalUnitHeader (mkbb r 0 0 a) = (Ok (Some h), b) /\
    ((type_of r = 14 /\ exists e b', nal_svc h = Some e /\
        ParsePrefixNalUnitRbsp 1 (nal_ref_idc h) (svc_use_ref_base_pic_flag e) (svc_idr_flag e) b = (Ok None, b')) \/
     (type_of r = 20 /\ exists b', ParseSliceHeaderInScalableExtension h st b = (Ok None, b'))).
Lemma stored_count : forall A (p : P A) s o s', stored p s = (Ok o, s') -> snd s' = snd s.
Proof.
  intros A p [b w] o s' E. unfold stored in E.
  destruct (p b) as [[v| |k| |] b']; try discriminate; injection E as _ <-; auto.
Qed.
Lemma storedu_count : forall A (p : pstate -> P (option A)) s o s', storedu p s = (Ok o, s') ->
  (snd s' = report (snd s) /\ exists b', p (w_st (snd s)) (fst s) = (Ok None, b')) \/
  (snd s' = snd s /\ forall b', p (w_st (snd s)) (fst s) <> (Ok None, b')).
Proof.
  intros A p [b w] o s' E. unfold storedu in E. cbn [fst snd].
  destruct (p (w_st w) b) as [[[v|]| |k| |] b'] eqn:Q; try discriminate; injection E as _ <-; cbn [snd]; eauto;
    right; split; auto; intros; congruence.
Qed.
Theorem C44_unit_reports : forall a ck u w r, history a w -> fits a u -> strips u r ->
  (unimplemented_syntax a r (w_st w) ->
     w_unimplemented (snd (parse_unit a ck u w)) = (w_unimplemented w + 1) mod 2 ^ 32) /\
  (~ unimplemented_syntax a r (w_st w) ->
     w_unimplemented (snd (parse_unit a ck u w)) = w_unimplemented w).
Proof.
  intros a ck u w r H F S. apply strips_unesc in S. subst r.
  change (mkbb (unesc u) 0 0 a) with (start a (unesc u)) in *.
  unfold unimplemented_syntax. change (mkbb (unesc u) 0 0 a) with (start a (unesc u)).
  destruct (unit_cases a ck u w F (history_ok a w H))
    as [(h & p & b1 & b2 & w2 & E1 & E2 & M1 & M2 & _ & HR & HT & E3)|[(X & _ & E3)|(X & HR & E3)]];
    change (unit_parser a ck u w) with (parse_unit a ck u w) in E3; rewrite E3; cbn [snd].
  2: { split; [reflexivity|tauto]. }
  2: { split; [|reflexivity]. intros [K|(h & b & K & _)]; [tauto|].
       exfalso. apply HR. pose proof (header_bytes a _ (fits_unesc _ _ F) _ _ K) as B. cbv beta iota in B. tauto. }
  assert (NX : ~ header_other_ext (unesc u)).
  { intros (L & [T|[T T2]]); destruct HR as (_ & T21 & HR); [congruence|]. specialize (HR T). lia. }
  pose proof (header_bytes a _ (fits_unesc _ _ F) _ _ E1) as B. cbv beta iota in B.
  destruct B as (_ & _ & _ & _ & _ & V & SV & _). rewrite <- HT in SV.
  destruct V as (_ & _ & _ & V3 & _).
  assert (KEY : (w2 = report w /\ ((type_of (unesc u) = 14 /\ exists e b', nal_svc h = Some e /\
        ParsePrefixNalUnitRbsp 1 (nal_ref_idc h) (svc_use_ref_base_pic_flag e) (svc_idr_flag e) b1 = (Ok None, b')) \/
     (type_of (unesc u) = 20 /\ exists b', ParseSliceHeaderInScalableExtension h (w_st w) b1 = (Ok None, b')))) \/
   (w_unimplemented w2 = w_unimplemented w /\ ~ ((type_of (unesc u) = 14 /\ exists e b', nal_svc h = Some e /\
        ParsePrefixNalUnitRbsp 1 (nal_ref_idc h) (svc_use_ref_base_pic_flag e) (svc_idr_flag e) b1 = (Ok None, b')) \/
     (type_of (unesc u) = 20 /\ exists b', ParseSliceHeaderInScalableExtension h (w_st w) b1 = (Ok None, b'))))).
  { rewrite <- HT in *. unfold ParseNalUnitPayload in E2. cbv zeta in E2.
    destruct ((nal_unit_type h =? 1) || (nal_unit_type h =? 5)) eqn:T15.
    { apply sbind_inv in E2. destruct E2 as (o & s1 & K & E2). apply sret_inv in E2. destruct E2 as [_ <-].
      apply storedu_count in K. cbn [fst snd] in K. right. split; [|lia].
      destruct K as [[_ (b' & K)]|[K _]]; [|congruence].
      unfold ParseSliceLayerWithoutPartitioningRbsp in K. apply sbind_inv in K. destruct K as (o2 & s3 & K & K2).
      apply sret_inv in K2. destruct o2; destruct K2 as [K2 _]; [discriminate|].
      unfold ParseSliceHeader in K. replace ((nal_unit_type h =? 20) || (nal_unit_type h =? 21)) with false in K by lia.
      bsteps K. apply sret_inv in K. destruct K. discriminate. }
    assert (ST : forall A (p0 : P A) (k : A -> M unit) (f : option A -> payload), (forall v s, snd (snd (k v s)) = snd s \/
        w_unimplemented (snd (snd (k v s))) = w_unimplemented (snd s)) ->
      sbind (stored p0) (fun o => sbind (match o with Some v => k v | None => sret tt end) (fun _ => sret (f o))) (b1, w) = (Ok p, (b2, w2)) ->
      w_unimplemented w2 = w_unimplemented w).
    { intros A p0 k f KK K. apply sbind_inv in K. destruct K as (o & s1 & K & E). apply stored_count in K. cbn [snd] in K.
      apply sbind_inv in E. destruct E as (? & s2 & E & E'). apply sret_inv in E'. destruct E' as [_ E'].
      subst s2. destruct o as [v|].
      - specialize (KK v s1). rewrite E in KK. cbn [snd] in KK. rewrite <- K. destruct KK as [KK|KK]; [now rewrite KK|exact KK].
      - apply sret_inv in E. destruct E as [_ E]. rewrite <- E in K. cbn [snd] in K. now rewrite K. }
    assert (CH : forall g s, snd (snd (change g s)) = snd s \/ w_unimplemented (snd (snd (change g s))) = w_unimplemented (snd s)).
    { intros g [b0 w0]. right. reflexivity. }
    destruct (N.eqb_spec (nal_unit_type h) 7) as [T|_].
    { right. split; [|lia]. apply (ST sps ParseSps (fun s => change (add_sps s))) in E2; auto. }
    destruct (N.eqb_spec (nal_unit_type h) 8) as [T|_].
    { right. split; [|lia]. apply (ST pps (ParsePps 1) (fun s => change (add_pps s))) in E2; auto. }
    destruct (N.eqb_spec (nal_unit_type h) 14) as [T|T14].
    { cbn [orb] in SV. replace (nal_unit_type h =? 14) with true in SV by lia. cbn [orb] in SV.
      destruct SV as [SF SN]. rewrite SF in E2. change (tob 1) with true in E2. cbv iota in E2.
      destruct (nal_svc h) as [e|] eqn:SE; [|congruence].
      apply sbind_inv in E2. destruct E2 as (o & s1 & K & E2). apply sret_inv in E2. destruct E2 as [_ <-].
      apply storedu_count in K. cbn [fst snd] in K. destruct K as [[-> (b' & K)]|[-> K]].
      - left. split; [auto|]. left. split; [auto|]. exists e, b'. auto.
      - right. split; [auto|]. intros [[_ (e' & b' & Q & K')]|[T' _]]; [|lia]. injection Q as <-. eapply K; eauto. }
    destruct (N.eqb_spec (nal_unit_type h) 15) as [T|_].
    { right. split; [|lia]. apply (ST subsps ParseSubsetSps (fun s => change (add_subset_sps s))) in E2; auto. }
    destruct (N.eqb_spec (nal_unit_type h) 20) as [T|T20].
    { replace (nal_unit_type h =? 20) with true in SV by lia. rewrite orb_true_r in SV.
      destruct SV as [SF SN]. apply sbind_inv in E2. destruct E2 as (o & s1 & K & E2). apply sret_inv in E2. destruct E2 as [_ E2]. subst s1.
      unfold ParseSliceLayerExtensionRbsp in K. rewrite SF in K. change (tob 1) with true in K. cbv iota in K.
      apply sbind_inv in K. destruct K as (v & s2 & K & K2). apply sret_inv in K2. destruct K2 as [_ <-].
      apply storedu_count in K. cbn [fst snd] in K. destruct K as [[-> (b' & K)]|[-> K]].
      - left. split; [auto|]. right. eauto.
      - right. split; [auto|]. intros [[T' _]|[_ (b' & K')]]; [lia|]. eapply K; eauto. }
    apply sret_inv in E2. destruct E2 as [_ E2]. injection E2 as _ ->. right. split; [auto|]. lia. }
  destruct KEY as [[-> K]|[K1 K2]].
  - split; [reflexivity|]. intros N. exfalso. apply N. right. eauto.
  - split; [|auto]. intros [N|(h' & b' & Q & N)]; [tauto|]. rewrite E1 in Q. injection Q as <- <-. tauto.
Qed.

(** Parsed units as the length dump sees them. *)
Lemma slice_first_mb : forall ref nut st b h b', bb_wf b -> ParseSliceHeader ref nut st b = (Ok (Some h), b') ->
  first_mb_in_slice (sh_lead h) < 139264.
Proof.
  intros ref nut st b h b' W H. unfold ParseSliceHeader in H.
  bstep H ld b1 H1. apply slice_lead_sound in H1; auto. destruct H1 as [(V & _) _].
  bstep H p b2 H2. bstep H s b3 H3. bstep H pic b4 H4. bstep H idr b5 H5. bstep H po b6 H6. bstep H red b7 H7. bstep H rf b8 H8.
  destruct ((nut =? 20) || (nut =? 21)); [apply sret_inv in H; destruct H; discriminate|].
  bstep H h' b9 H9. apply sret_inv in H. destruct H as [E ->]. injection E as ->.
  unfold slice_rest in H9. cbv zeta in H9. bsteps H9.
  apply sret_inv in H9. destruct H9 as [-> ->]. exact V.
Qed.
Lemma kept_entry : forall a ck o u w x w', history a w -> fits a u -> parse_unit a ck u w = (Ok x, w') ->
  let e := (x, o, size_of u) in
  1 <= e_length e /\ e_type e = type_of u /\ e_type e < 32 /\ forall n, e_first_mb e = Some n -> n < 2 ^ 31.
Proof.
  intros a ck o u w x w' H F E e. pose proof (unesc_strips u) as S.
  destruct (C39_dropped a ck u w _ H F S) as [D1 D2].
  destruct (C43_payload a ck u w x w' _ H F S E) as (b & HB & PF).
  pose proof (header_bytes a _ (fits_unesc _ _ F) _ _ HB) as HH. cbv beta iota in HH.
  destruct HH as (HR & _). destruct (D1 HR) as (x' & w2 & E' & T & _). rewrite E in E'. injection E' as <- <-.
  assert (NE : u <> []) by (intros ->; apply (proj1 HR); reflexivity).
  unfold e_length, e_type, e. cbn [fst snd]. split.
  { unfold size_of. destruct u; [congruence|]. cbn [List.length]. lia. }
  split; [auto|]. split. { rewrite T. unfold type_of. apply N.mod_lt. lia. }
  intros n K. unfold e_first_mb in K. cbn [fst] in K.
  destruct (pl_slice (nu_payload x)) as [s|] eqn:PS; [|discriminate]. injection K as <-.
  assert (W : bb_wf b).
  { destruct (unit_cases a ck u w F (history_ok a w H))
    as [(h & p & b1 & b2 & w3 & E1 & E2 & M1 & M2 & _ & _ & _ & E3)|[(_ & _ & E3)|(_ & _ & E3)]];
    change (unit_parser a ck u w) with (parse_unit a ck u w) in E3; rewrite E in E3; try discriminate.
    change (mkbb (unesc u) 0 0 a) with (start a (unesc u)) in HB. rewrite E1 in HB. injection HB as _ <-.
    pose proof (start_wf _ _ (fits_unesc _ _ F)) as W0. destruct M1 as (m & LM & ->). apply bb_adv_wf; auto. }
  unfold payload_from in PF. cbv zeta in PF.
  destruct ((nal_unit_type (nu_header x) =? 1) || (nal_unit_type (nu_header x) =? 5)).
  - destruct PF as (q & PQ & G). rewrite PQ in PS. cbn [pl_slice] in PS. subst q.
    unfold givesu, ParseSliceLayerWithoutPartitioningRbsp, sbind in G.
    destruct (ParseSliceHeader (nal_ref_idc (nu_header x)) (nal_unit_type (nu_header x)) (w_st w) b)
      as [[[h|]| |k| |] b'] eqn:Q; cbn in G; try contradiction; try discriminate.
    injection G as ->. cbn [sl_slice_header]. apply slice_first_mb in Q; auto. lia.
  - exfalso.
    destruct (nal_unit_type (nu_header x) =? 7). { destruct PF as (q & PQ & _). rewrite PQ in PS. discriminate. }
    destruct (nal_unit_type (nu_header x) =? 8). { destruct PF as (q & PQ & _). rewrite PQ in PS. discriminate. }
    destruct (nal_unit_type (nu_header x) =? 14). { destruct PF as (? & q & _ & PQ & _). rewrite PQ in PS. discriminate. }
    destruct (nal_unit_type (nu_header x) =? 15). { destruct PF as (q & PQ & _). rewrite PQ in PS. discriminate. }
    destruct (nal_unit_type (nu_header x) =? 20). { destruct PF as (q & PQ & _). rewrite PQ in PS. discriminate. }
    rewrite PF in PS. discriminate.
Qed.

(** The length dump counts in ints: files below 2 GiB, and bit rates below 2^63. *)
Definition dump_fits (o : options) (data : list N) : Prop :=
  (0 <= opt_frames_per_second o)%Z /\
  (opt_dump_length o = true -> size_of data < 2 ^ 31 /\
     size_of data * 8 * Z.to_N (opt_frames_per_second o) < 2 ^ 63).
Definition annexb_mode (o : options) : Prop := (opt_nalu_length_bytes o < 0)%Z.
Definition found_units (data : list N) (ix : list nalu_index) : list (N * list N) :=
  map (fun x => (ni_payload x, SpecFraming.slice (ni_payload x) (ni_size x) data)) ix.
Definition bytes_in (us : list (N * list N)) : N := fold_right (fun e n => size_of (snd e) + n) 0 us.

Lemma found_fit : forall a data ix, fits a data -> Forall (fun e => fits a (snd e)) (found_units data ix).
Proof.
  intros a data ix F. apply Forall_forall. intros e I. apply in_map_iff in I. destruct I as (x & <- & _).
  cbn [snd]. apply slice_ok; auto.
Qed.
Lemma found_bytes : forall data ix, size_of data < 2 ^ 64 -> FindNaluIndices data (size_of data) = Ok ix ->
  bytes_in (found_units data ix) <= size_of data /\ N.of_nat (List.length ix) <= size_of data.
Proof.
  intros data ix L E. destruct (C16_annexb_sound data L) as (r & E' & _ & ADJ & LAST & IN).
  rewrite E in E'. injection E' as <-. clear E.
  assert (K : forall pre x r, ix = pre ++ x :: r ->
    bytes_in (found_units data (x :: r)) + ni_payload x <= size_of data /\
    N.of_nat (List.length (x :: r)) + ni_payload x <= size_of data).
  { intros pre x r. revert pre x. induction r as [|y r IH]; intros pre x E.
    - destruct (LAST _ _ E) as [L1 L2]. cbn [found_units map bytes_in fold_right snd List.length]. unfold size_of at 1.
      rewrite slice_length by (unfold size_of in L1; lia). lia.
    - destruct (ADJ _ _ _ _ E) as [A1 A2].
      destruct (IH (pre ++ [x]) y) as [I1 I2]. { rewrite <- app_assoc. exact E. }
      assert (B : ni_payload x + ni_size x <= size_of data) by (apply IN; rewrite E; apply in_or_app; right; left; auto).
      cbn [List.length] in *. change (found_units data (x :: y :: r)) with
        ((ni_payload x, SpecFraming.slice (ni_payload x) (ni_size x) data) :: found_units data (y :: r)).
      cbn [bytes_in fold_right snd]. fold (bytes_in (found_units data (y :: r))). unfold size_of at 1.
      rewrite slice_length by (unfold size_of in B; lia). lia. }
  destruct ix as [|x r]; [cbn; lia|]. destruct (K [] x r eq_refl). lia.
Qed.
Lemma runs_entries : forall a ck us w l w', runs (parse_unit a ck) us w l w' -> history a w ->
  Forall (fun e => fits a (snd e)) us -> bytes_in us < 2 ^ 31 ->
  Forall e_ok l /\ slice_bytes l <= bytes_in us.
Proof.
  intros a ck us w l w' R. induction R as [s|o u t s x s' l s'' E R IH|o u t s s' l s'' E R IH]; intros H F B.
  - split; [constructor|]. cbn. lia.
  - inversion F as [|? ? F1 F2]; subst. cbn [snd] in F1. cbn [bytes_in fold_right snd] in *. fold (bytes_in t) in *.
    destruct IH as [I1 I2]; [|auto|lia|].
    { eapply (hist_call a s (CallNalUnit ck u)); [auto|exact F1|]. cbn [run_call]. unfold parse_unit in E. rewrite E. reflexivity. }
    destruct (kept_entry a ck o u s x s' H F1 E) as (K1 & K2 & K3 & K4).
    change (N.of_nat (List.length u)) with (size_of u). split.
    + constructor; auto. split; [|auto]. split; [exact K1|]. unfold e_length. cbn [snd]. lia.
    + cbn [slice_bytes]. unfold e_length at 1. cbn [snd]. destruct (is_slice _); lia.
  - inversion F as [|? ? F1 F2]; subst. cbn [snd] in F1. cbn [bytes_in fold_right snd] in *. fold (bytes_in t) in *.
    destruct IH as [I1 I2]; [|auto|lia|].
    { eapply (hist_call a s (CallNalUnit ck u)); [auto|exact F1|]. cbn [run_call]. unfold parse_unit in E. rewrite E. reflexivity. }
    split; [auto|]. lia.
Qed.
Lemma all_bytes_in : forall f fs, In f fs -> slice_bytes f <= all_bytes fs.
Proof.
  induction fs as [|g fs IH]; intros I; [destruct I|]. cbn [all_bytes]. destruct I as [->|I]; [lia|]. specialize (IH I). lia.
Qed.
(** Rows of entries that fit. *)
Lemma rows_fit : forall fps us n, Forall e_ok us -> slice_bytes us <= n -> N.of_nat (List.length us) <= n ->
  n < 2 ^ 31 -> n * 8 * fps < 2 ^ 63 -> forall before fs, cut before fs us ->
  dump_length (Z.of_N fps) us = Ok (nal_rows 0 0 before ++ frame_rows fps (N.of_nat (List.length before)) 0 fs).
Proof.
  intros fps us n K B L N1 N2 before fs C. apply rows_spec; auto; [|lia].
  rewrite (cut_bytes _ _ _ C) in B. apply Forall_forall. intros f I. pose proof (all_bytes_in f fs I). nia.
Qed.
Lemma new_history : forall a, history a (mkw new_state 0).
Proof. intros. constructor. Qed.
Lemma annexb_run : forall a o data, fits a data -> dump_fits o data -> annexb_mode o ->
  exists ix l w, FindNaluIndices data (size_of data) = Ok ix /\
    tool_parse a o data = (Ok l, w) /\
    runs (parse_unit a (opt_add_checksum o)) (found_units data ix) (mkw new_state 0) l w /\
    (opt_dump_length o = true -> Forall e_ok l /\ slice_bytes l <= size_of data /\
       N.of_nat (List.length l) <= size_of data) /\
    unparsed_nal_units o data l = Ok (N.of_nat (List.length ix) - N.of_nat (List.length l) + n_unparsed l).
Proof.
  intros a o data F (DF0 & DF) AM.
  destruct (C39_in_order a (opt_add_checksum o) data _ (new_history a) F) as (ix & l & w & E1 & E2 & R).
  fold (found_units data ix) in R. exists ix, l, w. split; [auto|].
  pose proof F as (_ & L61 & _). assert (L64 : size_of data < 2 ^ 64) by (unfold size_of; lia).
  destruct (found_bytes data ix L64 E1) as [FB FL].
  pose proof (runs_kept_le _ _ _ _ _ _ _ R) as LE. unfold found_units in LE. rewrite map_length in LE.
  split; [|split; [auto|split]].
  - unfold tool_parse. replace (opt_nalu_length_bytes o <? 0)%Z with true by (unfold annexb_mode in AM; lia).
    exact E2.
  - intros D. destruct (DF D) as [D1 D2].
    destruct (runs_entries _ _ _ _ _ _ R (new_history a) (found_fit _ _ _ F)) as [K1 K2]; [lia|].
    split; [auto|]. lia.
  - unfold unparsed_nal_units. replace (opt_nalu_length_bytes o <? 0)%Z with true by (unfold annexb_mode in AM; lia).
    change (N.of_nat (List.length data)) with (size_of data). rewrite E1. cbn [rbind]. f_equal.
    rewrite count_unparsed_eq; unfold sub64; lia.
Qed.
Lemma exit_cases : forall n c, let e := exit_status n c in
  (e = 2 <-> c <> 0) /\ (e = 1 <-> c = 0 /\ n <> 0) /\ (e = 0 <-> c = 0 /\ n = 0).
Proof.
  intros n c. unfold exit_status. destruct (N.ltb_spec 0 c), (N.ltb_spec 0 n); cbv zeta; repeat split; intros; try lia.
Qed.
(** Annex B files.  The status is 2 if the number of reports is not a multiple of 2^32;
    otherwise 1 if some unit was dropped or has no payload; otherwise 0. *)
Theorem C44_annexb : forall a o data, fits a data -> dump_fits o data -> annexb_mode o ->
  exists ix rows e, FindNaluIndices data (size_of data) = Ok ix /\ tool a o data = Ok (rows, e) /\
    let us := found_units data ix in
    let ck := opt_add_checksum o in
    let unimplemented := reports a ck us new_state mod 2 ^ 32 in
    (e = 2 <-> unimplemented <> 0) /\
    (e = 1 <-> unimplemented = 0 /\ some_rejected a ck us (mkw new_state 0)) /\
    (e = 0 <-> unimplemented = 0 /\ ~ some_rejected a ck us (mkw new_state 0)).
Proof.
  intros a o data F DF AM. destruct (annexb_run a o data F DF AM) as (ix & l & w & E1 & E2 & R & D & U).
  pose proof (runs_reports _ _ _ _ _ _ R (found_fit _ _ _ F) ltac:(reflexivity)) as RP. cbn [w_unimplemented w_st] in RP.
  rewrite N.add_0_l in RP.
  destruct (runs_rejected _ _ _ _ _ _ R) as [RJ _]. unfold found_units in RJ at 2. rewrite map_length in RJ.
  assert (X : exists rows, (if opt_dump_length o then dump_length (opt_frames_per_second o) l else Ok []) = Ok rows).
  { destruct (opt_dump_length o) eqn:O; [|eauto]. destruct (D eq_refl) as (K1 & K2 & K3). destruct DF as (D0 & DF).
    destruct (DF O) as [D1 D2]. destruct (cut_exists l) as (before & fs & C).
    rewrite <- (Z2N.id (opt_frames_per_second o)) by auto. erewrite rows_fit; eauto. }
  destruct X as (rows & X).
  exists ix, rows, (exit_status (N.of_nat (List.length ix) - N.of_nat (List.length l) + n_unparsed l) (w_unimplemented w)).
  split; [auto|]. split. { unfold tool. rewrite E2, X. cbn [rbind]. rewrite U. reflexivity. }
  cbv zeta. rewrite <- RP. pose proof (exit_cases (N.of_nat (List.length ix) - N.of_nat (List.length l) + n_unparsed l) (w_unimplemented w)) as EC.
  cbv zeta in EC. destruct EC as (EC2 & EC1 & EC0). rewrite EC2, EC1, EC0, RJ.
  repeat split; intros; try lia.
Qed.

(** Files of length-prefixed units: the units before the first incomplete one; with length
    fields of no bytes the file is one unit. *)
Definition prefixed_units (nlb : N) (data : list N) (us : list (N * list N)) : Prop :=
  if nlb =? 0 then us = match data with [] => [] | _ => [(0, data)] end
  else exists bs t, data = framed (N.to_nat nlb) bs ++ t /\ stuck (N.to_nat nlb) true t /\
         Forall (fun u => u <> []) bs /\ us = framed_units (N.to_nat nlb) 0 bs.
Definition length_mode (o : options) : Prop := (0 <= opt_nalu_length_bytes o < 8)%Z.
(** Every entry with the length the parser records in this mode (C21). *)
Definition with_length (n : N) (l : list (nalu * N * N)) : list (nalu * N * N) := map (fun '(x, o, _) => (x, o, n)) l.

Lemma single_run : forall a ck data w, history a w -> fits a data ->
  exists l w', ParseBitstreamNALULength a ck data (size_of data) 0 w = (Ok (with_length 0 l), w') /\
    runs (parse_unit a ck) (match data with [] => [] | _ => [(0, data)] end) w l w'.
Proof.
  intros a ck data w H F. unfold ParseBitstreamNALULength. destruct data as [|c t].
  - exists [], w. split; [reflexivity|constructor].
  - set (data := c :: t) in *. pose proof F as (_ & L & _).
    assert (E : forall f i acc s, i = size_of data -> nalu_length_loop (fun i n => ParseNalUnitBytes a ck (at_offset data i) n)
       f data (size_of data) 0 i acc s = (Ok (rev acc), s)).
    { intros f i acc s ->. destruct f; cbn [nalu_length_loop]; rewrite N.ltb_irrefl; reflexivity. }
    change (List.length data) with (S (List.length t)). cbn [nalu_length_loop].
    replace (0 <? size_of data) with true by (unfold size_of, data; cbn [List.length]; lia).
    replace (0 <? 0) with false by reflexivity. change (at_offset data 0) with data.
    change (ParseNalUnitBytes a ck data (size_of data) w) with (parse_unit a ck data w).
    destruct (unit_cases a ck data w F (history_ok a w H))
      as [(h & p & b1 & b2 & w2 & _ & _ & _ & _ & _ & _ & _ & E3)|[(_ & _ & E3)|(_ & _ & E3)]];
      change (unit_parser a ck data w) with (parse_unit a ck data w) in E3; rewrite E3;
      rewrite E by (unfold u64, size_of; rewrite N.mod_small; lia).
    + eexists [(_, 0, _)], w2. split; [reflexivity|]. eapply runs_kept; [exact E3|constructor].
    + exists [], (report w). split; [reflexivity|]. eapply runs_dropped; [exact E3|constructor].
    + exists [], w. split; [reflexivity|]. eapply runs_dropped; [exact E3|constructor].
Qed.
Lemma with_length_unparsed : forall n l, n_unparsed (with_length n l) = n_unparsed l.
Proof.
  intros n. induction l as [|[[x o] k] l IH]; [reflexivity|]. cbn [with_length map]. fold (with_length n l).
  rewrite !n_unparsed_cons, IH. reflexivity.
Qed.
Lemma with_length_types : forall n l, Forall (fun e => e_type e < 32 /\ forall m, e_first_mb e = Some m -> m < 2 ^ 31) l ->
  Forall (fun e => e_length e = n /\ e_type e < 32 /\ forall m, e_first_mb e = Some m -> m < 2 ^ 31) (with_length n l).
Proof.
  intros n l H. induction H as [|[[x o] k] l K _ IH]; cbn [with_length map]; constructor; auto.
Qed.
Lemma runs_types : forall a ck us w l w', runs (parse_unit a ck) us w l w' -> history a w ->
  Forall (fun e => fits a (snd e)) us ->
  Forall (fun e => e_type e < 32 /\ forall m, e_first_mb e = Some m -> m < 2 ^ 31) l.
Proof.
  intros a ck us w l w' R. induction R as [s|o u t s x s' l s'' E R IH|o u t s s' l s'' E R IH]; intros H F.
  - constructor.
  - inversion F as [|? ? F1 F2]; subst. cbn [snd] in F1.
    destruct (kept_entry a ck o u s x s' H F1 E) as (K1 & K2 & K3 & K4).
    constructor; auto. apply IH; auto.
    eapply (hist_call a s (CallNalUnit ck u)); [auto|exact F1|]. cbn [run_call]. unfold parse_unit in E. rewrite E. reflexivity.
  - inversion F as [|? ? F1 F2]; subst. cbn [snd] in F1. apply IH; auto.
    eapply (hist_call a s (CallNalUnit ck u)); [auto|exact F1|]. cbn [run_call]. unfold parse_unit in E. rewrite E. reflexivity.
Qed.
Lemma framed_units_bytes : forall n us o, Forall (fun u => u <> []) us ->
  N.of_nat (List.length (framed_units n o us)) * (N.of_nat n + 1) <= size_of (framed n us).
Proof.
  intros n us o F. revert o. induction F as [|u us U F IH]; intros o.
  - cbn. lia.
  - cbn [framed_units List.length]. unfold framed, size_of in *. cbn [flat_map]. rewrite !app_length, be_bytes_length.
    specialize (IH (o + N.of_nat n + N.of_nat (List.length u))). destruct u; [congruence|]. cbn [List.length] in *. lia.
Qed.
Lemma slice_bytes_const : forall n l, Forall (fun e => e_length e = n) l -> slice_bytes l <= n * N.of_nat (List.length l).
Proof.
  intros n l H. induction H as [|e l E _ IH]; cbn [slice_bytes List.length]; [lia|]. destruct (is_slice e); lia.
Qed.
Lemma prefixed_run : forall a o data, fits a data -> length_mode o ->
  let nlb := Z.to_N (opt_nalu_length_bytes o) in
  exists us l w, prefixed_units nlb data us /\ Forall (fun e => fits a (snd e)) us /\
    N.of_nat (List.length us) * (nlb + 1) <= size_of data /\
    tool_parse a o data = (Ok (with_length nlb l), w) /\
    runs (parse_unit a (opt_add_checksum o)) us (mkw new_state 0) l w.
Proof.
  intros a o data F LM nlb. unfold length_mode in LM. unfold tool_parse.
  replace (opt_nalu_length_bytes o <? 0)%Z with false by lia. fold nlb.
  change (N.of_nat (List.length data)) with (size_of data).
  change (reset_unimplemented_count (mkw new_state 0)) with (mkw new_state 0). unfold prefixed_units.
  destruct (N.eqb_spec nlb 0) as [Z|NZ].
  - rewrite Z. destruct (single_run a (opt_add_checksum o) data _ (new_history a) F) as (l & w & E & R).
    eexists. exists l, w. split; [reflexivity|]. split; [|split; [|split; [exact E|exact R]]].
    + destruct data; constructor; auto.
    + unfold size_of. destruct data; cbn [List.length]; lia.
  - destruct (C39_length_prefixed a (opt_add_checksum o) data nlb _ (new_history a) F) as (bs & t & l & w & E & ST & NE & P & R).
    { unfold nlb in *. lia. }
    exists (framed_units (N.to_nat nlb) 0 bs), l, w. split; [eauto 8|]. split; [|split; [|split; [exact P|exact R]]].
    + pose proof F as (B & L & A). rewrite E in B, L, A. clear - B L A. apply Forall_app in B. destruct B as [B _].
      rewrite app_length in L, A. generalize 0 at 1. revert B L A.
      induction bs as [|u bs IH]; intros B L A o2; cbn [framed_units]; constructor.
      * cbn [snd]. unfold framed in *. cbn [flat_map] in *. apply Forall_app in B. destruct B as [B _]. apply Forall_app in B.
        destruct B as [_ B]. rewrite !app_length in L, A. split; [exact B|]. split; [lia|]. intros AA. specialize (A AA). lia.
      * unfold framed in *. cbn [flat_map] in *. apply Forall_app in B. destruct B as [_ B]. rewrite !app_length in L, A.
        apply IH; auto; [lia|]. intros AA. specialize (A AA). lia.
    + pose proof (framed_units_bytes (N.to_nat nlb) bs 0 NE) as FB. rewrite E. unfold size_of in *. rewrite app_length. lia.
Qed.
(** A unit recorded with length 0 gives a row, but opens no frame. *)
Lemma dump_zero : forall fps l, (List.length l <= 1)%nat ->
  Forall (fun e => e_length e = 0 /\ e_type e < 32 /\ forall m, e_first_mb e = Some m -> m < 2 ^ 31) l ->
  exists rows, dump_length fps l = Ok rows.
Proof.
  intros fps l L F. unfold dump_length. destruct l as [|[[x o] k] [|]]; cbn [List.length] in L; [eexists; reflexivity| |lia].
  inversion F as [|? ? (Z & _) _]; subst. unfold e_length in Z. cbn [snd] in Z. subst k. cbn [dump_loop].
  destruct (IsSliceSegment _); [|eexists; reflexivity]. rewrite andb_false_r. eexists. reflexivity.
Qed.
(** Dropped units do not count here, only kept ones without a payload. *)
Theorem C44_length_prefixed : forall a o data, fits a data -> dump_fits o data -> length_mode o ->
  exists us rows e, prefixed_units (Z.to_N (opt_nalu_length_bytes o)) data us /\ tool a o data = Ok (rows, e) /\
    let ck := opt_add_checksum o in
    let unimplemented := reports a ck us new_state mod 2 ^ 32 in
    (e = 2 <-> unimplemented <> 0) /\
    (e = 1 <-> unimplemented = 0 /\ some_unparsed a ck us (mkw new_state 0)) /\
    (e = 0 <-> unimplemented = 0 /\ ~ some_unparsed a ck us (mkw new_state 0)).
Proof.
  intros a o data F DF LM. pose proof (prefixed_run a o data F LM) as PR. cbv zeta in PR.
  set (nlb := Z.to_N (opt_nalu_length_bytes o)) in *.
  destruct PR as (us & l & w & PU & UF & UL & E2 & R).
  pose proof (runs_reports _ _ _ _ _ _ R UF ltac:(reflexivity)) as RP. cbn [w_unimplemented w_st] in RP.
  rewrite N.add_0_l in RP.
  destruct (runs_rejected _ _ _ _ _ _ R) as [_ RU]. pose proof (runs_kept_le _ _ _ _ _ _ _ R) as LE.
  pose proof (with_length_types nlb l (runs_types _ _ _ _ _ _ R (new_history a) UF)) as WT.
  assert (WL : List.length (with_length nlb l) = List.length l) by apply map_length.
  assert (X : exists rows, (if opt_dump_length o then dump_length (opt_frames_per_second o) (with_length nlb l) else Ok []) = Ok rows).
  { destruct (opt_dump_length o) eqn:O; [|eauto]. destruct DF as (D0 & DF). destruct (DF O) as [D1 D2].
    destruct (N.eq_dec nlb 0) as [Z|NZ].
    - rewrite Z in *. apply dump_zero; auto. unfold prefixed_units in PU. cbn [N.eqb] in PU. subst us.
      unfold entry. rewrite WL. clear - LE. destruct data; cbn [List.length] in LE; lia.
    - destruct (cut_exists (with_length nlb l)) as (before & fs & C).
      rewrite <- (Z2N.id (opt_frames_per_second o)) by auto.
      assert (Forall (fun e => e_length e = nlb) (with_length nlb l)) as FL.
      { eapply Forall_impl; [|exact WT]. intros e (K & _). exact K. }
      pose proof (slice_bytes_const _ _ FL) as SB. unfold entry in SB. unfold length_mode in LM.
      assert (Q0 : N.of_nat (List.length l) <= N.of_nat (List.length us)) by lia.
      assert (Q1 : nlb * N.of_nat (List.length l) <= size_of data) by (clearbody nlb; nia).
      assert (Q2 : N.of_nat (List.length l) <= size_of data) by (clearbody nlb; nia).
      erewrite (rows_fit _ _ (size_of data)); eauto; unfold entry; rewrite ?WL in *; try lia.
      eapply Forall_impl; [|exact WT]. intros e (K & T & M). split; [|auto]. unfold nlb in *. lia. }
  destruct X as (rows & X).
  exists us, rows, (exit_status (n_unparsed l) (w_unimplemented w)). split; [auto|]. split.
  { unfold tool. rewrite E2, X. cbn [rbind]. unfold unparsed_nal_units.
    replace (opt_nalu_length_bytes o <? 0)%Z with false by (unfold length_mode in LM; lia). cbn [rbind].
    rewrite count_unparsed_eq, with_length_unparsed; [reflexivity|]. rewrite WL. pose proof F as (_ & L61 & _).
    unfold size_of in UL. nia. }
  cbv zeta. rewrite <- RP. pose proof (exit_cases (n_unparsed l) (w_unimplemented w)) as EC.
  cbv zeta in EC. destruct EC as (EC2 & EC1 & EC0). rewrite EC2, EC1, EC0, RU.
  repeat split; intros; lia.
Qed.

(** Exit status 0 means that everything was parsed (unless 2^32 reports came in). *)
Theorem C44_zero_means_parsed : forall a o data rows, fits a data -> dump_fits o data -> annexb_mode o ->
  tool a o data = Ok (rows, 0) ->
  exists ix l w, FindNaluIndices data (size_of data) = Ok ix /\
    runs (parse_unit a (opt_add_checksum o)) (found_units data ix) (mkw new_state 0) l w /\
    List.length l = List.length ix /\
    Forall (fun e => IsPayloadParsed (nu_payload (fst (fst e))) (e_type e) = true) l.
Proof.
  intros a o data rows F DF AM E. destruct (annexb_run a o data F DF AM) as (ix & l & w & E1 & E2 & R & D & U).
  exists ix, l, w. split; [auto|]. split; [auto|].
  pose proof (runs_kept_le _ _ _ _ _ _ _ R) as LE. unfold found_units in LE. rewrite map_length in LE.
  unfold tool in E. rewrite E2 in E. destruct (if opt_dump_length o then _ else _) as [rs| | | |]; try discriminate.
  cbn [rbind] in E. rewrite U in E. cbn [rbind] in E. injection E as _ E.
  pose proof (exit_cases (N.of_nat (List.length ix) - N.of_nat (List.length l) + n_unparsed l) (w_unimplemented w)) as (_ & _ & EC).
  apply EC in E. split; [lia|]. destruct E as [_ E]. assert (Z : n_unparsed l = 0) by lia. unfold n_unparsed in Z.
  clear - Z. induction l as [|e l IH]; constructor; cbn [filter] in Z; unfold unparsed_entry at 1 in Z;
    fold (e_type e) in Z; destruct (IsPayloadParsed (nu_payload (fst (fst e))) (e_type e)); cbn [negb List.length] in Z; auto; lia.
Qed.
(** In length-prefixed mode a dropped unit goes unnoticed. *)
Theorem C44_dropped_unnoticed_refuted : exists data us, fits true data /\ data = framed 4 us /\
  some_rejected true false (framed_units 4 0 us) (mkw new_state 0) /\
  tool true (mkopt false false 4 30) data = Ok ([], 0).
Proof.
  exists [0; 0; 0; 1; 14], [[14]]. split; [fits_tac|]. split; [reflexivity|]. split; [|vm_compute; reflexivity].
  exists [], 4, [14], [], [], (mkw new_state 0). split; [reflexivity|]. split; [constructor|]. left. vm_compute. reflexivity.
Qed.
(** 2^32 reports look like none: every unit of this file needs unimplemented syntax. *)
Lemma reports_repeat : forall ck n o st, reports false ck (annexb_units o (repeat (false, [21; 1]) n)) st = N.of_nat n.
Proof.
  intros ck. induction n as [|n IH]; intros o st; [reflexivity|]. cbn [repeat annexb_units reports].
  assert (E : parse_unit false ck [21; 1] (mkw st 0) = (Null, mkw st 1)) by (destruct ck; vm_compute; reflexivity).
  rewrite E. cbn [w_unimplemented w_st]. rewrite IH. lia.
Qed.
Lemma counter_wraps : forall n, N.of_nat n = 2 ^ 32 -> exists data ix, fits false data /\
  FindNaluIndices data (size_of data) = Ok ix /\
  reports false false (found_units data ix) new_state = N.of_nat (List.length ix) /\ ix <> [] /\
  tool false (mkopt false false (-1) 30) data = Ok ([], 1).
Proof.
  intros n Hn.
  set (us := repeat (false, [21; 1]) n).
  assert (LD : forall k, size_of (annexb (repeat (false, [21; 1]) k)) = 5 * N.of_nat k).
  { induction k as [|k IH]; [reflexivity|]. cbn [repeat]. unfold annexb, size_of in *. cbn [flat_map].
    rewrite !app_length. cbn [code fst snd List.length]. lia. }
  assert (F : fits false (annexb us)).
  { split; [|split; [|discriminate]].
    - unfold us. clear. induction n as [|n IH]; [constructor|]. cbn [repeat annexb flat_map].
      apply Forall_app. split; [|exact IH]. repeat constructor.
    - fold (size_of (annexb us)). unfold us. rewrite LD, Hn. lia. }
  assert (NB : Forall (fun u => nal_bytes (snd u)) us).
  { apply Forall_forall. intros u I. apply repeat_spec in I. subst u. cbn [snd]. split; [discriminate|]. split.
    - intros [|? [|? [|? ?]]] ? ? E; discriminate.
    - intros [|? [|? [|? ?]]] E; discriminate. }
  destruct (annexb_found us NB) as (ix & E1 & E2). { destruct F as (_ & L & _). lia. }
  change (N.of_nat (List.length (annexb us))) with (size_of (annexb us)) in E1.
  assert (FU : found_units (annexb us) ix = annexb_units 0 us) by exact E2.
  assert (LX : List.length ix = n).
  { pose proof (f_equal (@List.length _) FU) as E3. unfold found_units in E3. rewrite map_length in E3. rewrite E3. unfold us. clear. generalize 0 at 1.
    induction n as [|n IH]; intros o; cbn [repeat annexb_units List.length]; auto. }
  exists (annexb us), ix. split; [auto|]. split; [auto|]. rewrite FU. unfold us at 1. rewrite reports_repeat, LX.
  split; [auto|]. split. { destruct ix; [|discriminate]. cbn in LX. lia. }
  destruct (C44_annexb false (mkopt false false (-1) 30) (annexb us) F) as (ix' & rows & e & E1' & ET & K).
  { split; [cbn; lia|discriminate]. } { unfold annexb_mode. cbn. lia. }
  rewrite E1 in E1'. injection E1' as <-. rewrite FU in K. cbv zeta in K. cbn [opt_add_checksum] in K.
  assert (RR : reports false false (annexb_units 0 us) new_state = 2 ^ 32) by (unfold us; rewrite reports_repeat; exact Hn).
  rewrite RR in K. destruct K as (_ & K & _).
  rewrite ET. f_equal. f_equal.
  - unfold tool in ET. cbn [opt_dump_length] in ET. destruct (tool_parse _ _ _) as [[l| |k| |] w]; try discriminate.
    cbn [rbind] in ET. destruct (unparsed_nal_units _ _ _); try discriminate. cbn [rbind] in ET. injection ET. auto.
  - apply K. split; [reflexivity|]. exists [], 3, [21; 1], (tl (annexb_units 0 us)), [], (mkw new_state 0).
    split.
    + unfold us. destruct n; [discriminate|]. reflexivity.
    + split; [constructor|]. left. vm_compute. reflexivity.
Qed.
Theorem C44_counter_wraps_refuted : exists data ix, fits false data /\
  FindNaluIndices data (size_of data) = Ok ix /\
  reports false false (found_units data ix) new_state = N.of_nat (List.length ix) /\ ix <> [] /\
  tool false (mkopt false false (-1) 30) data = Ok ([], 1).
Proof. exact (counter_wraps (N.to_nat (2 ^ 32)) (N2Nat.id (2 ^ 32))). Qed.
Example C44_ex : fits true ex_stream /\ dump_fits (mkopt true false (-1) 30) ex_stream /\
  (exists rows, tool true (mkopt true false (-1) 30) ex_stream = Ok (rows, 1)) /\
  (exists rows, tool true (mkopt true false (-1) 30) (annexb (firstn 3 ex_units)) = Ok (rows, 0)) /\
  (exists rows, tool true (mkopt true false (-1) 30) (annexb [(true, [21; 1])]) = Ok (rows, 2)).
Proof.
  split; [fits_tac|]. split. { split; [cbn; lia|]. intros _. vm_compute. auto. }
  split; [eexists; vm_compute; reflexivity|]. split; eexists; vm_compute; reflexivity.
Qed.

(** * C50: the length dump *)
(** The rows, for any way of cutting the kept units into frames: the units before the first
    slice; then for every frame its units, numbered in order, and one line with its bit rate. *)
Theorem C50_rows : forall a o data, fits a data -> dump_fits o data -> annexb_mode o -> opt_dump_length o = true ->
  exists ix l w e, FindNaluIndices data (size_of data) = Ok ix /\
    runs (parse_unit a (opt_add_checksum o)) (found_units data ix) (mkw new_state 0) l w /\
    (exists before fs, cut before fs l) /\
    forall before fs, cut before fs l ->
      tool a o data = Ok (nal_rows 0 0 before ++
        frame_rows (Z.to_N (opt_frames_per_second o)) (N.of_nat (List.length before)) 0 fs, e).
Proof.
  intros a o data F DF AM OD. destruct (annexb_run a o data F DF AM) as (ix & l & w & E1 & E2 & R & D & U).
  destruct (D OD) as (K1 & K2 & K3). pose proof DF as (D0 & DF'). destruct (DF' OD) as [D1 D2].
  exists ix, l, w, (exit_status (N.of_nat (List.length ix) - N.of_nat (List.length l) + n_unparsed l) (w_unimplemented w)).
  split; [auto|]. split; [auto|]. split; [apply cut_exists|].
  intros before fs C. unfold tool. rewrite E2, OD.
  rewrite <- (Z2N.id (opt_frames_per_second o)) at 1 by auto.
  rewrite (rows_fit _ l (size_of data) K1 K2 K3 D1 D2 _ _ C). cbn [rbind]. rewrite U. reflexivity.
Qed.
(** The bit rates of the frame rows add up to that of all slices. *)
Fixpoint total_bitrate (rs : list row) : Z :=
  match rs with
  | [] => 0
  | FrameRow _ _ r :: t => r + total_bitrate t
  | NalRow _ _ _ _ _ _ :: t => total_bitrate t
  end%Z.
Lemma total_bitrate_app : forall a b, total_bitrate (a ++ b) = (total_bitrate a + total_bitrate b)%Z.
Proof. induction a as [|[] a IH]; intros b; cbn [app total_bitrate]; rewrite ?IH; lia. Qed.
Lemma total_bitrate_nal : forall us k f, total_bitrate (nal_rows k f us) = 0%Z.
Proof. induction us as [|e us IH]; intros k f; cbn [nal_rows total_bitrate]; auto. Qed.
Lemma total_bitrate_frames : forall fps fs k f, total_bitrate (frame_rows fps k f fs) = Z.of_N (all_bytes fs * 8 * fps).
Proof.
  intros fps. induction fs as [|us fs IH]; intros k f; cbn [frame_rows all_bytes]; [reflexivity|].
  rewrite total_bitrate_app, total_bitrate_nal. cbn [total_bitrate frame_row]. rewrite IH. lia.
Qed.
Theorem C50_total : forall a o data rows e, fits a data -> dump_fits o data -> annexb_mode o -> opt_dump_length o = true ->
  tool a o data = Ok (rows, e) ->
  exists ix l w, FindNaluIndices data (size_of data) = Ok ix /\
    runs (parse_unit a (opt_add_checksum o)) (found_units data ix) (mkw new_state 0) l w /\
    total_bitrate rows = (8 * opt_frames_per_second o * Z.of_N (slice_bytes l))%Z.
Proof.
  intros a o data rows e F DF AM OD E.
  destruct (C50_rows a o data F DF AM OD) as (ix & l & w & e' & E1 & R & (before & fs & C) & K).
  exists ix, l, w. split; [auto|]. split; [auto|]. rewrite (K _ _ C) in E. injection E as <- _.
  rewrite total_bitrate_app, total_bitrate_nal, total_bitrate_frames, (cut_bytes _ _ _ C). destruct DF as [D0 _]. lia.
Qed.
(** Length-prefixed files: the recorded lengths, and so the bit rates, are those of the
    length fields. *)
Theorem C50_length_prefixed_refuted : exists us rows r, fits true (framed 4 us) /\
  Forall (fun u => type_of u = 5 -> size_of u > 4) us /\
  tool true (mkopt true false 4 30) (framed 4 us) = Ok (rows ++ [FrameRow 0 5 r], 0) /\ r = (4 * 8 * 30)%Z.
Proof.
  exists [ex_u_sps; ex_u_pps; ex_u_slice]. eexists. eexists. split; [fits_tac|]. split.
  - repeat constructor; vm_compute; congruence.
  - split; [|reflexivity]. instantiate (1 := removelast
      (match tool true (mkopt true false 4 30) (framed 4 [ex_u_sps; ex_u_pps; ex_u_slice]) with Ok (rs, _) => rs | _ => [] end)).
    vm_compute. reflexivity.
Qed.
(** A file that is one slice has no frame row. *)
Theorem C50_single_unit_refuted : exists u rows, fits true u /\ type_of u = 1 /\
  tool true (mkopt true false 0 30) u = Ok (rows, 1) /\ total_bitrate rows = 0%Z.
Proof. exists [1; 255]. eexists. split; [fits_tac|]. split; [reflexivity|]. split; [vm_compute; reflexivity|]. reflexivity. Qed.
(** The bit rate can overflow: one slice of 1 GiB at INT_MAX frames per second. *)
Lemma bitrate_overflow : forall n, N.of_nat n = 2 ^ 30 -> exists data, fits true data /\
  tool true (mkopt true false (-1) (2 ^ 31 - 1)) data = UB SignedOverflow.
Proof.
  intros n Hn.
  set (u := 1 :: repeat 255 n). set (us := [(false, u)]). exists (annexb us).
  assert (LU : size_of u = 2 ^ 30 + 1) by (unfold size_of, u; cbn [List.length]; rewrite repeat_length; lia).
  assert (LD : size_of (annexb us) = 2 ^ 30 + 4).
  { unfold us, annexb, size_of in *. cbn [flat_map fst snd code]. rewrite !app_length. cbn [List.length] in *. lia. }
  assert (BU : bytes_ok u).
  { unfold u. constructor; [lia|]. apply Forall_forall. intros x I. apply repeat_spec in I. subst x. reflexivity. }
  assert (F : fits true (annexb us)).
  { split; [|split; [|intros _]]; fold (size_of (annexb us)); [|lia|lia].
    unfold us, annexb. cbn [flat_map fst snd code]. rewrite app_nil_r. apply Forall_app. split; [repeat constructor|exact BU]. }
  assert (FU : fits true u). { split; [exact BU|]. fold (size_of u). split; [lia|intros _; lia]. }
  assert (NZ : ~ In 0 u). { intros [I|I]; [discriminate|]. apply repeat_spec in I. discriminate. }
  assert (NB : Forall (fun u => nal_bytes (snd u)) us).
  { constructor; [|constructor]. cbn [snd]. split; [discriminate|]. split.
    - intros x y z E. exfalso. apply NZ. rewrite E. apply in_or_app. right. left. reflexivity.
    - intros x E. apply NZ. rewrite E. apply in_or_app. right. left. reflexivity. }
  split; [exact F|].
  destruct (C39_annexb true false us _ (new_history true) NB F) as (l & w & E & R).
  unfold tool, tool_parse. cbn [opt_nalu_length_bytes opt_add_checksum opt_dump_length opt_frames_per_second].
  change (-1 <? 0)%Z with true. cbv iota. change (N.of_nat (List.length (annexb us))) with (size_of (annexb us)).
  change (reset_unimplemented_count (mkw new_state 0)) with (mkw new_state 0). rewrite E.
  assert (NT : unesc u = u).
  { symmetry. apply strips_unesc. clear - NZ. clearbody u. induction u as [|x t IH]; [constructor|].
    apply SpecRbsp.strips_byte.
    - intros t' Q. apply NZ. rewrite Q. left. reflexivity.
    - apply IH. intros I. apply NZ. right. exact I. }
  destruct (C39_dropped true false u (mkw new_state 0) u (new_history true) FU) as [D _].
  { rewrite <- NT at 2. apply unesc_strips. }
  destruct D as (x & w' & P & T & _). { split; [discriminate|]. unfold type_of, u. cbn. split; [discriminate|intros [?|?]; discriminate]. }
  unfold us in R. cbn [annexb_units] in R. inversion R as [|? ? ? ? x' ? ? ? P' R'|? ? ? ? ? ? ? P' R']; subst;
    rewrite P in P'; [|discriminate]. injection P' as <- <-. inversion R'; subst.
  change (N.of_nat (List.length u)) with (size_of u). rewrite LU. unfold dump_length. cbn [dump_loop].
  rewrite T. change (type_of u) with 1. change (IsSliceSegment 1) with true. cbv iota.
  rewrite andb_false_r. vm_compute. reflexivity.
Qed.
Theorem C50_bitrate_overflow_refuted : exists data, fits true data /\
  tool true (mkopt true false (-1) (2 ^ 31 - 1)) data = UB SignedOverflow.
Proof. exact (bitrate_overflow (N.to_nat (2 ^ 30)) (N2Nat.id (2 ^ 30))). Qed.
Example C50_ex : fits true ex_stream /\ dump_fits (mkopt true false (-1) 30) ex_stream /\
  exists rows e, tool true (mkopt true false (-1) 30) (ex_stream ++ annexb [(true, ex_u_slice)]) = Ok (rows, e) /\
  List.length rows = 8%nat /\
  total_bitrate rows = (240 * Z.of_N (2 * size_of ex_u_slice + 3))%Z.
Proof.
  split; [fits_tac|]. split. { split; [cbn; lia|]. intros _. vm_compute. auto. }
  eexists. eexists. split; [vm_compute; reflexivity|]. split; vm_compute; reflexivity.
Qed.

(** * C54: --add-contents *)
Lemma skipn_cons_nth : forall (l : list N) i, (i < List.length l)%nat -> exists c, nth_error l i = Some c /\ skipn i l = c :: skipn (S i) l.
Proof.
  induction l as [|x l IH]; intros i H; cbn [List.length] in H; [lia|]. destruct i as [|i].
  - exists x. auto.
  - destruct (IH i) as (c & E1 & E2); [lia|]. exists c. split; auto.
Qed.
Lemma contents_spec : forall buffer off len, off < 2 ^ 63 -> len < 2 ^ 64 -> size_of buffer < 2 ^ 63 ->
  forall fuel i, i <= len -> (i <= size_of buffer) -> (N.to_nat (size_of buffer - i) < fuel)%nat ->
  contents_loop fuel buffer off len i = Ok (SpecFraming.slice (off + i) (len - i) buffer).
Proof.
  intros buffer off len HO HL HB. induction fuel as [|f IH]; intros i I1 I2 HF; [lia|]. cbn [contents_loop].
  fold (size_of buffer). unfold u64. rewrite N.mod_small by lia.
  destruct (N.ltb_spec i len) as [L|L].
  2: { cbn [andb]. replace (len - i) with 0 by lia. reflexivity. }
  cbn [andb]. destruct (N.ltb_spec (off + i) (size_of buffer)) as [B|B].
  - destruct (skipn_cons_nth buffer (N.to_nat (off + i))) as (c & E1 & E2). { unfold size_of in B. lia. }
    rewrite E1, N.mod_small by lia. rewrite IH by lia. cbn [rbind]. f_equal. unfold SpecFraming.slice. rewrite E2.
    replace (N.to_nat (len - i)) with (S (N.to_nat (len - (i + 1)))) by lia. cbn [firstn]. f_equal. f_equal. f_equal. lia.
  - unfold SpecFraming.slice. rewrite skipn_all2 by (unfold size_of in B; lia). rewrite firstn_nil. reflexivity.
Qed.
(** Whatever offset and length a unit records, nothing outside the file is read, and what is
    printed is the recorded part of the file, as far as it exists. *)
Theorem C54_in_bounds : forall buffer x off len, off < 2 ^ 63 -> len < 2 ^ 64 -> size_of buffer < 2 ^ 63 ->
  contents buffer (x, off, len) = Ok (SpecFraming.slice off len buffer).
Proof.
  intros. unfold contents. rewrite contents_spec by (unfold size_of in *; lia). rewrite N.add_0_r, N.sub_0_r. reflexivity.
Qed.
(** In Annex B mode: the bytes of the units, in order. *)
Theorem C54_annexb_contents : forall a o data, fits a data -> annexb_mode o ->
  exists ix l w, FindNaluIndices data (size_of data) = Ok ix /\ tool_parse a o data = (Ok l, w) /\
    runs (parse_unit a (opt_add_checksum o)) (found_units data ix) (mkw new_state 0) l w /\
    forall e, In e l -> exists u, In (snd (fst e), u) (found_units data ix) /\ contents data e = Ok u.
Proof.
  intros a o data F AM.
  destruct (C39_in_order a (opt_add_checksum o) data _ (new_history a) F) as (ix & l & w & E1 & E2 & R).
  fold (found_units data ix) in R. exists ix, l, w. split; [auto|]. split.
  { unfold tool_parse. replace (opt_nalu_length_bytes o <? 0)%Z with true by (unfold annexb_mode in AM; lia). exact E2. }
  split; [auto|].
  pose proof F as (_ & L & _). assert (L64 : size_of data < 2 ^ 64) by (unfold size_of; lia).
  destruct (C16_annexb_sound data L64) as (r & E' & _ & _ & _ & IN). rewrite E1 in E'. injection E' as <-.
  assert (K : Forall (fun p => exists n, fst p + n <= size_of data /\ snd p = SpecFraming.slice (fst p) n data) (found_units data ix)).
  { apply Forall_forall. intros p I. apply in_map_iff in I. destruct I as (x & <- & I). exists (ni_size x). cbn [fst snd]. auto. }
  clear - R K L. remember (found_units data ix) as us eqn:EQ. clear EQ. revert K. rename R into RR.
  induction RR as [s|q u t s x s' l s'' E R1 IH|q u t s s' l s'' E R1 IH]; intros K e I.
  - destruct I.
  - inversion K as [|? ? (n & B & EU) K2]; subst. cbn [fst snd] in B, EU. destruct I as [<-|I].
    + exists u. cbn [fst snd]. split; [left; reflexivity|].
      assert (LN : N.of_nat (List.length u) = n) by (rewrite EU, slice_length by (unfold size_of in B; lia); lia).
      rewrite LN, C54_in_bounds by (unfold size_of in *; lia). now rewrite <- EU.
    + destruct (IH K2 e I) as (v & I1 & I2). exists v. split; [right; auto|auto].
  - inversion K as [|? ? _ K2]; subst. destruct (IH K2 e I) as (v & I1 & I2). exists v. split; [right; auto|auto].
Qed.
(** In length-prefixed mode only as many bytes as the length field has. *)
Theorem C54_length_prefixed_refuted : exists l w, 
  tool_parse true (mkopt false false 4 30) (framed 4 [ex_u_sps; ex_u_pps]) = (Ok l, w) /\
  map (contents (framed 4 [ex_u_sps; ex_u_pps])) l = [Ok (firstn 4 ex_u_sps); Ok (firstn 4 ex_u_pps)] /\
  firstn 4 ex_u_sps <> ex_u_sps.
Proof. eexists. eexists. split; [vm_compute; reflexivity|]. split; vm_compute; congruence. Qed.
Example C54_ex : exists l w, tool_parse true (mkopt false false (-1) 30) ex_stream = (Ok l, w) /\
  map (contents ex_stream) l = map Ok [ex_u_sps; ex_u_pps; ex_u_slice; ex_u_bad; ex_u_pps1].
Proof. eexists. eexists. split; vm_compute; reflexivity. Qed.

(** * C55: printing the checksum *)
(** Lower case hexadecimal, most significant digit first. *)
Definition hex_digits : list N := [48; 49; 50; 51; 52; 53; 54; 55; 56; 57; 97; 98; 99; 100; 101; 102].
Definition hex_of (bytes : list N) : list N :=
  flat_map (fun b => [nth (N.to_nat (b / 16)) hex_digits 0; nth (N.to_nat (b mod 16)) hex_digits 0]) bytes.
Lemma hex_spec : forall d, d < 16 -> hex d = nth (N.to_nat d) hex_digits 0.
Proof.
  intros d H. assert (K : forallb (fun d => hex d =? nth (N.to_nat d) hex_digits 0) (map N.of_nat (seq 0 16)) = true) by reflexivity.
  rewrite forallb_forall in K. apply N.eqb_eq, K. apply in_map_iff. exists (N.to_nat d). split; [lia|]. apply in_seq. lia.
Qed.
Lemma put_app : forall l c d t, put (l ++ d :: t) (List.length l) c = Ok (l ++ c :: t).
Proof. induction l as [|x l IH]; intros c d t; cbn [app List.length put]; auto. rewrite IH. reflexivity. Qed.
Lemma fdump_spec : forall bytes pre room, Forall (fun b => b < 256) bytes ->
  (2 * List.length bytes < room)%nat ->
  exists rest, checksum_fdump bytes (List.length pre) (pre ++ repeat 0 room) = Ok (pre ++ hex_of bytes ++ 0 :: rest).
Proof.
  induction bytes as [|b bytes IH]; intros pre room F L; cbn [List.length] in L.
  - destruct room as [|room]; [lia|]. cbn [checksum_fdump hex_of flat_map app repeat]. eauto.
  - inversion F as [|? ? B F2]; subst. cbn [checksum_fdump]. rewrite app_length, repeat_length.
    replace (List.length pre + room <=? List.length pre + 2)%nat with false by lia.
    replace (List.length pre + room - List.length pre)%nat with (S (S (S (room - 3)))) by lia.
    assert (RP : repeat 0 room = 0 :: 0 :: 0 :: repeat 0 (room - 3)) by (replace room with (3 + (room - 3))%nat at 1 by lia; reflexivity).
    rewrite RP. cbn [snprintf_02x]. rewrite put_app. cbn [rbind].
    change (pre ++ hex (b / 16) :: 0 :: 0 :: repeat 0 (room - 3)) with (pre ++ [hex (b / 16)] ++ 0 :: 0 :: repeat 0 (room - 3)).
    rewrite app_assoc. replace (S (List.length pre)) with (List.length (pre ++ [hex (b / 16)])) by (rewrite app_length; cbn [List.length]; lia).
    rewrite put_app. cbn [rbind].
    change ((pre ++ [hex (b / 16)]) ++ hex (b mod 16) :: 0 :: repeat 0 (room - 3)) with ((pre ++ [hex (b / 16)]) ++ [hex (b mod 16)] ++ 0 :: repeat 0 (room - 3)).
    rewrite app_assoc.
    replace (S (List.length (pre ++ [hex (b / 16)]))) with (List.length ((pre ++ [hex (b / 16)]) ++ [hex (b mod 16)])) by (rewrite !app_length; cbn [List.length]; lia).
    rewrite put_app. cbn [rbind].
    replace (List.length pre + 2)%nat with (List.length ((pre ++ [hex (b / 16)]) ++ [hex (b mod 16)])) by (rewrite !app_length; cbn [List.length]; lia).
    change (0 :: repeat 0 (room - 3)) with (repeat 0 (S (room - 3))).
    destruct (IH ((pre ++ [hex (b / 16)]) ++ [hex (b mod 16)]) (S (room - 3)) F2) as (rest & E); [lia|].
    exists rest. rewrite E. f_equal. rewrite <- !app_assoc. cbn [hex_of flat_map app].
    rewrite !hex_spec by lia. reflexivity.
Qed.
Lemma hex_nonzero : forall d, d < 16 -> nth (N.to_nat d) hex_digits 0 =? 0 = false.
Proof. intros d H. rewrite <- hex_spec by auto. unfold hex. destruct (N.ltb_spec d 10); lia. Qed.
Lemma c_string_spec : forall l rest, Forall (fun c => c =? 0 = false) l -> c_string (l ++ 0 :: rest) = Ok l.
Proof. induction l as [|c l IH]; intros rest F; cbn [app c_string]; [reflexivity|]. inversion F as [|? ? C F2]; subst. rewrite C, IH by auto. reflexivity. Qed.
Lemma hex_of_nonzero : forall bytes, Forall (fun b => b < 256) bytes -> Forall (fun c => c =? 0 = false) (hex_of bytes).
Proof.
  intros bytes F. induction F as [|b bytes B F IH]; [constructor|]. cbn [hex_of flat_map app].
  constructor; [apply hex_nonzero; lia|]. constructor; [apply hex_nonzero; lia|]. exact IH.
Qed.
(** Any checksum that fits the member array is printed in full, within the buffer. *)
Theorem C55_printable : forall bytes, Forall (fun b => b < 256) bytes -> (List.length bytes <= 32)%nat ->
  GetPrintableChecksum bytes = Ok (hex_of bytes).
Proof.
  intros bytes F L. unfold GetPrintableChecksum. destruct (fdump_spec bytes [] 65 F) as (rest & E); [lia|].
  cbn [List.length app] in E. change (32 * 2 + 1)%nat with 65%nat. rewrite E. cbn [rbind].
  apply c_string_spec, hex_of_nonzero, F.
Qed.
(** Distinct checksums are printed differently. *)
Theorem C55_injective : forall b1 b2, Forall (fun b => b < 256) b1 -> Forall (fun b => b < 256) b2 ->
  (List.length b1 <= 32)%nat -> (List.length b2 <= 32)%nat ->
  GetPrintableChecksum b1 = GetPrintableChecksum b2 -> b1 = b2.
Proof.
  intros b1 b2 F1 F2 L1 L2 E. rewrite !C55_printable in E by auto.
  assert (E' : hex_of b1 = hex_of b2) by congruence. clear E L1 L2. revert b2 F2 E'.
  induction F1 as [|x b1 X F1 IH]; intros [|y b2] F2 E; try discriminate; auto. inversion F2 as [|? ? Y F3]; subst.
  cbn [hex_of flat_map app] in E.
  assert (I : forall d e, d < 16 -> e < 16 -> nth (N.to_nat d) hex_digits 0 = nth (N.to_nat e) hex_digits 0 -> d = e).
  { intros d e D1 D2. rewrite <- !hex_spec by auto. unfold hex. destruct (N.ltb_spec d 10), (N.ltb_spec e 10); lia. }
  pose proof (f_equal (hd 0) E) as H1. pose proof (f_equal (fun l => hd 0 (tl l)) E) as H2. pose proof (f_equal (fun l => tl (tl l)) E) as H3.
  cbn [hd tl] in H1, H2, H3. apply I in H1; [|lia|lia]. apply I in H2; [|lia|lia].
  f_equal; [lia|]. apply IH; auto.
Qed.
(** The checksum of a unit (C15, C41) is printed with eight digits. *)
Theorem C55_unit_checksum : forall a u w x w', history a w -> fits a u -> parse_unit a true u w = (Ok x, w') ->
  exists c, nu_checksum x = Some c /\ GetPrintableChecksum c = Ok (hex_of c) /\ List.length (hex_of c) = 8%nat.
Proof.
  intros a u w x w' H F E. destruct (C41_checksum_value a u w x w' _ H F (unesc_strips u) E) as (c & C & L & G).
  exists c. split; [auto|].
  assert (B : Forall (fun b => b < 256) c).
  { rewrite GetNaluChecksum_gen in G by apply (start_wf _ _ (fits_unesc _ _ F)).
    match type of G with (Ok (bytes_of_u32 ?v), _) = _ => assert (V : v < 2 ^ 32) by (clear; lia); set (V0 := v) in * end.
    clearbody V0. apply (f_equal fst) in G. cbn [fst] in G. assert (G' : c = bytes_of_u32 V0) by congruence.
    rewrite G'. unfold bytes_of_u32. repeat (apply Forall_cons; [first [apply N.mod_lt; lia | lia]|]). apply Forall_nil. }
  split; [apply C55_printable; auto; lia|]. destruct c as [|c0 [|c1 [|c2 [|c3 [|]]]]]; try discriminate. reflexivity.
Qed.
Example C55_ex : GetPrintableChecksum [222; 173; 190; 239] = Ok [100; 101; 97; 100; 98; 101; 101; 102].
Proof. reflexivity. Qed.
Lemma put_ok : forall l i c, (i < List.length l)%nat -> exists l', put l i c = Ok l' /\ List.length l' = List.length l.
Proof.
  induction l as [|x l IH]; intros i c H; cbn [List.length] in H; [lia|]. destruct i as [|i]; cbn [put].
  - eexists. split; [reflexivity|]. reflexivity.
  - destruct (IH i c) as (l' & E & L); [lia|]. rewrite E. cbn [rbind]. eexists. split; [reflexivity|]. cbn [List.length]. lia.
Qed.
(** fdump stays inside every non-empty buffer it is given, however long the checksum. *)
Theorem C55_fdump_in_bounds : forall bytes output oi, (0 < List.length output)%nat ->
  exists o, checksum_fdump bytes oi output = Ok o /\ List.length o = List.length output.
Proof.
  induction bytes as [|b bytes IH]; intros output oi H; cbn [checksum_fdump]; [eauto|].
  destruct (Nat.leb_spec (List.length output) (oi + 2)) as [L|L].
  - apply put_ok. lia.
  - replace (List.length output - oi)%nat with (S (S (S (List.length output - oi - 3)))) by lia. cbn [snprintf_02x].
    destruct (put_ok output oi (hex (b / 16))) as (o1 & E1 & L1); [lia|]. rewrite E1. cbn [rbind].
    destruct (put_ok o1 (S oi) (hex (b mod 16))) as (o2 & E2 & L2); [lia|]. rewrite E2. cbn [rbind].
    destruct (put_ok o2 (S (S oi)) 0) as (o3 & E3 & L3); [lia|]. rewrite E3. cbn [rbind].
    destruct (IH o3 (oi + 2)%nat) as (o & E & LO); [lia|]. exists o. split; [auto|lia].
Qed.
Print Assumptions C48_slices.
Print Assumptions C48_reserved.
Print Assumptions C48_unspecified.
Print Assumptions C48_type_0_refuted.
Print Assumptions C48_exclusive.
Print Assumptions C48_out_of_range.
Print Assumptions C48_names_distinct.
Print Assumptions C44_unit_reports.
Print Assumptions C44_annexb.
Print Assumptions C44_length_prefixed.
Print Assumptions C44_zero_means_parsed.
Print Assumptions C44_dropped_unnoticed_refuted.
Print Assumptions C44_counter_wraps_refuted.
Print Assumptions C50_rows.
Print Assumptions C50_total.
Print Assumptions C50_length_prefixed_refuted.
Print Assumptions C50_single_unit_refuted.
Print Assumptions C50_bitrate_overflow_refuted.
Print Assumptions C54_in_bounds.
Print Assumptions C54_annexb_contents.
Print Assumptions C54_length_prefixed_refuted.
Print Assumptions C55_printable.
Print Assumptions C55_injective.
Print Assumptions C55_unit_checksum.
Print Assumptions C55_fdump_in_bounds.
