(** How the results depend on the parser state. *)
From Coq Require Import NArith ZArith List Bool Lia ZifyBool ZifyNat ZifyN.
From Verif Require Import Base BitBuffer Parser ParserProofs Rbsp Framing TypesSps TypesPps Vui Sps Pps TypesNal
  NalHeader TypesExt Ext TypesSliceHeader SliceHeader SpecSlice SliceProofs TypesSvcSlice SvcSlice TypesNalUnit NalUnit
  SpecNalUnit NalUnitProofs NalUnitProofs2 ConformProofs SpecReuse.
Import ListNotations.
Open Scope N_scope.
Open Scope m_scope.

Lemma part_of_refl : forall A (m : list (N * A)), part_of m m.
Proof. intros A m id x H. exact H. Qed.
Lemma below_refl : forall st, below st st.
Proof. intros st. split; [|split]; apply part_of_refl. Qed.
Lemma below_trans : forall s1 s2 s3, below s1 s2 -> below s2 s3 -> below s1 s3.
Proof.
  intros s1 s2 s3 (A1 & A2 & A3) (B1 & B2 & B3). split; [|split]; intros id x H; auto.
Qed.
Lemma part_of_insert : forall A (m1 m2 : list (N * A)) k v, part_of m1 m2 ->
  part_of (minsert k v m1) (minsert k v m2).
Proof.
  intros A m1 m2 k v H id x. rewrite !lookup_minsert. destruct (k =? id); auto.
Qed.
Lemma below_new : forall st, below new_state st.
Proof. intros st. split; [|split]; intros id x H; discriminate. Qed.

Lemma sbind_ok : forall S A B (p : S -> res A * S) (f : A -> S -> res B * S) s a s1,
  p s = (Ok a, s1) -> sbind p f s = f a s1.
Proof. intros S A B p f s a s1 H. unfold sbind. rewrite H. reflexivity. Qed.

(** A parameter set that is found is found in the larger state. *)
Lemma found_more : forall A id (m1 m2 : list (N * A)) b a b', part_of m1 m2 ->
  SliceHeader.found (mfind id m1) b = (Ok a, b') -> SliceHeader.found (mfind id m2) b = (Ok a, b').
Proof.
  intros A id m1 m2 b a b' H. rewrite !mfind_lookup. unfold SliceHeader.found.
  destruct (lookup id m1) as [x|] eqn:E; [|discriminate]. rewrite (H _ _ E). auto.
Qed.
Ltac ret H := unfold sret in H; inversion H; subst; clear H.
Ltac step H := let a := fresh "a" in let s := fresh "s" in let E := fresh "E" in
  apply sbind_inv in H; destruct H as (a & s & E & H).

Lemma slice_more : forall ref nut st1 st2 b v b', below st1 st2 ->
  ParseSliceHeader ref nut st1 b = (Ok v, b') -> ParseSliceHeader ref nut st2 b = (Ok v, b').
Proof.
  intros ref nut st1 st2 b v b' (B1 & B2 & B3) H. unfold ParseSliceHeader in *.
  step H. rewrite (sbind_ok _ _ _ _ _ _ _ _ E).
  step H. rewrite (sbind_ok _ _ _ _ _ _ _ _ (found_more _ _ _ _ _ _ _ B2 E0)).
  step H. rewrite (sbind_ok _ _ _ _ _ _ _ _ (found_more _ _ _ _ _ _ _ B1 E1)).
  exact H.
Qed.
Lemma svc_more : forall h st1 st2 b v b', below st1 st2 ->
  ParseSliceHeaderInScalableExtension h st1 b = (Ok v, b') ->
  ParseSliceHeaderInScalableExtension h st2 b = (Ok v, b').
Proof.
  intros h st1 st2 b v b' (B1 & B2 & B3) H. unfold ParseSliceHeaderInScalableExtension in *.
  step H. rewrite (sbind_ok _ _ _ _ _ _ _ _ E).
  step H. rewrite (sbind_ok _ _ _ _ _ _ _ _ (found_more _ _ _ _ _ _ _ B2 E0)).
  step H. rewrite (sbind_ok _ _ _ _ _ _ _ _ (found_more _ _ _ _ _ _ _ B3 E1)).
  exact H.
Qed.
Lemma layer_more : forall ref nut st1 st2 b v b', below st1 st2 ->
  ParseSliceLayerWithoutPartitioningRbsp ref nut st1 b = (Ok v, b') ->
  ParseSliceLayerWithoutPartitioningRbsp ref nut st2 b = (Ok v, b').
Proof.
  intros ref nut st1 st2 b v b' B H. unfold ParseSliceLayerWithoutPartitioningRbsp in *.
  step H. rewrite (sbind_ok _ _ _ _ _ _ _ _ (slice_more _ _ _ _ _ _ _ B E)). exact H.
Qed.

(** Equal parsers are stored equally. *)
Lemma storedu_const : forall A (p : P (option A)) b w1 w2 r b' w1',
  storedu (fun _ => p) (b, w1) = (Ok r, (b', w1')) ->
  exists w2', storedu (fun _ => p) (b, w2) = (Ok r, (b', w2')) /\ w_st w1' = w_st w1 /\ w_st w2' = w_st w2.
Proof.
  intros A p b w1 w2 r b' w1' H. unfold storedu in *.
  destruct (p b) as [[[x|]| |k| |] b1]; inversion H; subst; eexists; (split; [reflexivity|]); cbn; auto.
Qed.
Lemma stored_const : forall A (p : P A) b w1 w2 r b' w1',
  stored p (b, w1) = (Ok r, (b', w1')) ->
  stored p (b, w2) = (Ok r, (b', w2)) /\ w1' = w1.
Proof.
  intros A p b w1 w2 r b' w1' H. unfold stored in *.
  destruct (p b) as [[x| |k| |] b1]; inversion H; subst; auto.
Qed.
Lemma storedu_more : forall A (p : pstate -> P (option A)) b w1 w2 r b' w1',
  (forall v b', p (w_st w1) b = (Ok v, b') -> p (w_st w2) b = (Ok v, b')) ->
  storedu p (b, w1) = (Ok (Some r), (b', w1')) ->
  storedu p (b, w2) = (Ok (Some r), (b', w2)) /\ w1' = w1.
Proof.
  intros A p b w1 w2 r b' w1' M H. unfold storedu in *.
  destruct (p (w_st w1) b) as [[[x|]| |k| |] b1] eqn:E; inversion H; subst.
  rewrite (M _ _ eq_refl). auto.
Qed.

Lemma payload_more : forall h b w1 w2 p b' w1', below (w_st w1) (w_st w2) ->
  ParseNalUnitPayload h (b, w1) = (Ok p, (b', w1')) ->
  (nal_unit_type h = 1 \/ nal_unit_type h = 5 -> pl_slice p <> None) ->
  (nal_unit_type h = 20 -> exists e, pl_slice_ext p = Some e /\ sx_svc_slice_header e <> None) ->
  exists w2', ParseNalUnitPayload h (b, w2) = (Ok p, (b', w2')) /\ below (w_st w1') (w_st w2').
Proof.
  intros h b w1 w2 p b' w1' B H R1 R2. pose proof B as (B1 & B2 & B3).
  unfold ParseNalUnitPayload in *. cbv zeta in *.
  destruct (_ || _) eqn:T1.
  { step H. ret H. cbn in R1.
    destruct a as [s|]; [|exfalso; apply R1; auto; lia].
    destruct (storedu_more _ _ _ _ w2 _ _ _ (fun v b' => layer_more _ _ _ _ _ v b' B) E) as [E2 ->].
    rewrite (sbind_ok _ _ _ _ _ _ _ _ E2). exists w2. split; auto. }
  destruct (_ =? 7) eqn:T7.
  { step H. step H. ret H. destruct s as [b1 w].
    destruct (stored_const _ _ _ _ w2 _ _ _ E) as [E2 ->]. rewrite (sbind_ok _ _ _ _ _ _ _ _ E2).
    destruct a as [s|]; unfold change, sret in E0; inversion E0; subst; unfold sbind; cbn; eexists; (split; [reflexivity|]); auto.
    cbn. split; [|split]; auto. apply part_of_insert; auto. }
  destruct (_ =? 8) eqn:T8.
  { step H. step H. ret H. destruct s as [b1 w].
    destruct (stored_const _ _ _ _ w2 _ _ _ E) as [E2 ->]. rewrite (sbind_ok _ _ _ _ _ _ _ _ E2).
    destruct a as [s|]; unfold change, sret in E0; inversion E0; subst; unfold sbind; cbn; eexists; (split; [reflexivity|]); auto.
    cbn. split; [|split]; auto. apply part_of_insert; auto. }
  destruct (_ =? 14) eqn:T14.
  { destruct (tob _).
    - destruct (nal_svc h) as [e|].
      + step H. ret H.
        destruct (storedu_const _ _ _ _ w2 _ _ _ E) as (w2' & E2 & S1 & S2).
        rewrite (sbind_ok _ _ _ _ _ _ _ _ E2). exists w2'. split; [reflexivity|]. rewrite S1, S2. auto.
      + unfold sret in *. inversion H; subst. eauto.
    - unfold sret in *. inversion H; subst. eauto. }
  destruct (_ =? 15) eqn:T15.
  { step H. step H. ret H. destruct s as [b1 w].
    destruct (stored_const _ _ _ _ w2 _ _ _ E) as [E2 ->]. rewrite (sbind_ok _ _ _ _ _ _ _ _ E2).
    destruct a as [s|]; unfold change, sret in E0; inversion E0; subst; unfold sbind; cbn; eexists; (split; [reflexivity|]); auto.
    cbn. split; [|split]; auto. apply part_of_insert; auto. }
  destruct (_ =? 20) eqn:T20.
  { step H. ret H. cbn in R2. destruct R2 as (e & -> & NE); [lia|].
    unfold ParseSliceLayerExtensionRbsp in *. cbv zeta in *.
    destruct (tob (svc_extension_flag h)).
    - step E. ret E. cbn in NE.
      destruct a as [v|]; [|congruence].
      destruct (storedu_more _ _ _ _ w2 _ _ _ (fun v b' => svc_more _ _ _ _ v b' B) E0) as [E2 ->].
      exists w2. split; auto. unfold sbind at 1. rewrite (sbind_ok _ _ _ _ _ _ _ _ E2). reflexivity.
    - destruct (tob (avc_3d_extension_flag h)).
      + ret E. cbn in NE. congruence.
      + step E. destruct a as [v|]; ret E. cbn in NE. congruence. }
  unfold sret in *. inversion H; subst. eauto.
Qed.

(** States holding the same sets. *)
Lemma same_mfind : forall A (m1 m2 : list (N * A)) id, part_of m1 m2 -> part_of m2 m1 -> mfind id m1 = mfind id m2.
Proof.
  intros A m1 m2 id H1 H2. rewrite !mfind_lookup.
  destruct (lookup id m1) as [x|] eqn:E. { symmetry. auto. }
  destruct (lookup id m2) as [x|] eqn:E2; auto. apply H2 in E2. congruence.
Qed.
Lemma sbind_ext : forall S A B (p q : S -> res A * S) (f g : A -> S -> res B * S) s,
  p s = q s -> (forall a s1, f a s1 = g a s1) -> sbind p f s = sbind q g s.
Proof. intros S A B p q f g s H1 H2. unfold sbind. rewrite H1. destruct (q s) as [[a| |k| |] s1]; auto. Qed.
Lemma slice_same : forall ref nut st1 st2 b, same_sets st1 st2 ->
  ParseSliceHeader ref nut st1 b = ParseSliceHeader ref nut st2 b.
Proof.
  intros ref nut st1 st2 b ((A1 & A2 & A3) & (B1 & B2 & B3)). unfold ParseSliceHeader.
  apply sbind_ext; [reflexivity|]. intros ld s. rewrite (same_mfind _ _ _ _ A2 B2).
  apply sbind_ext; [reflexivity|]. intros p s1. rewrite (same_mfind _ _ _ _ A1 B1). reflexivity.
Qed.
Lemma svc_same : forall h st1 st2 b, same_sets st1 st2 ->
  ParseSliceHeaderInScalableExtension h st1 b = ParseSliceHeaderInScalableExtension h st2 b.
Proof.
  intros h st1 st2 b ((A1 & A2 & A3) & (B1 & B2 & B3)). unfold ParseSliceHeaderInScalableExtension.
  apply sbind_ext; [reflexivity|]. intros ld s. rewrite (same_mfind _ _ _ _ A2 B2).
  apply sbind_ext; [reflexivity|]. intros p s1. rewrite (same_mfind _ _ _ _ A3 B3). reflexivity.
Qed.
Lemma layer_same : forall ref nut st1 st2 b, same_sets st1 st2 ->
  ParseSliceLayerWithoutPartitioningRbsp ref nut st1 b = ParseSliceLayerWithoutPartitioningRbsp ref nut st2 b.
Proof.
  intros ref nut st1 st2 b B. unfold ParseSliceLayerWithoutPartitioningRbsp.
  apply sbind_ext; [apply slice_same; auto|reflexivity].
Qed.
Lemma storedu_same : forall A (p : pstate -> P (option A)) b w1 w2 r b' w1',
  p (w_st w1) b = p (w_st w2) b ->
  storedu p (b, w1) = (Ok r, (b', w1')) ->
  exists w2', storedu p (b, w2) = (Ok r, (b', w2')) /\ w_st w1' = w_st w1 /\ w_st w2' = w_st w2.
Proof.
  intros A p b w1 w2 r b' w1' M H. unfold storedu in *. rewrite M in H.
  destruct (p (w_st w2) b) as [[[x|]| |k| |] b1] eqn:E; inversion H; subst; eexists; (split; [reflexivity|]); cbn; auto.
Qed.
Lemma same_insert : forall A (m1 m2 : list (N * A)) k v, part_of m1 m2 -> part_of m2 m1 ->
  part_of (minsert k v m1) (minsert k v m2) /\ part_of (minsert k v m2) (minsert k v m1).
Proof. intros; split; apply part_of_insert; auto. Qed.
Lemma payload_same : forall h b w1 w2 p b' w1', same_sets (w_st w1) (w_st w2) ->
  ParseNalUnitPayload h (b, w1) = (Ok p, (b', w1')) ->
  exists w2', ParseNalUnitPayload h (b, w2) = (Ok p, (b', w2')) /\ same_sets (w_st w1') (w_st w2').
Proof.
  intros h b w1 w2 p b' w1' B H. pose proof B as ((A1 & A2 & A3) & (B1 & B2 & B3)).
  unfold ParseNalUnitPayload in *. cbv zeta in *.
  destruct (_ || _) eqn:T1.
  { step H. ret H.
    destruct (storedu_same _ _ _ _ w2 _ _ _ (layer_same _ _ _ _ _ B) E) as (w2' & E2 & S1 & S2).
    rewrite (sbind_ok _ _ _ _ _ _ _ _ E2). exists w2'. split; [reflexivity|]. rewrite S1, S2. auto. }
  destruct (_ =? 7) eqn:T7.
  { step H. step H. ret H. destruct s as [b1 w].
    destruct (stored_const _ _ _ _ w2 _ _ _ E) as [E2 ->]. rewrite (sbind_ok _ _ _ _ _ _ _ _ E2).
    destruct a as [s|]; unfold change, sret in E0; inversion E0; subst; unfold sbind; cbn; eexists; (split; [reflexivity|]); auto.
    destruct (same_insert _ _ _ (seq_parameter_set_id s) s A1 B1).
    cbn. split; (split; [|split]); auto. }
  destruct (_ =? 8) eqn:T8.
  { step H. step H. ret H. destruct s as [b1 w].
    destruct (stored_const _ _ _ _ w2 _ _ _ E) as [E2 ->]. rewrite (sbind_ok _ _ _ _ _ _ _ _ E2).
    destruct a as [s|]; unfold change, sret in E0; inversion E0; subst; unfold sbind; cbn; eexists; (split; [reflexivity|]); auto.
    destruct (same_insert _ _ _ (pps_pic_parameter_set_id s) s A2 B2).
    cbn. split; (split; [|split]); auto. }
  destruct (_ =? 14) eqn:T14.
  { destruct (tob _).
    - destruct (nal_svc h) as [e|].
      + step H. ret H.
        destruct (storedu_const _ _ _ _ w2 _ _ _ E) as (w2' & E2 & S1 & S2).
        rewrite (sbind_ok _ _ _ _ _ _ _ _ E2). exists w2'. split; [reflexivity|]. rewrite S1, S2. auto.
      + unfold sret in *. inversion H; subst. eauto.
    - unfold sret in *. inversion H; subst. eauto. }
  destruct (_ =? 15) eqn:T15.
  { step H. step H. ret H. destruct s as [b1 w].
    destruct (stored_const _ _ _ _ w2 _ _ _ E) as [E2 ->]. rewrite (sbind_ok _ _ _ _ _ _ _ _ E2).
    destruct a as [s|]; unfold change, sret in E0; inversion E0; subst; unfold sbind; cbn; eexists; (split; [reflexivity|]); auto.
    destruct (same_insert _ _ _ (seq_parameter_set_id (ss_sps s)) s A3 B3).
    cbn. split; (split; [|split]); auto. }
  destruct (_ =? 20) eqn:T20.
  { step H. ret H.
    assert (L : exists w2', ParseSliceLayerExtensionRbsp h (b, w2) = (Ok a, (b', w2')) /\
              w_st w1' = w_st w1 /\ w_st w2' = w_st w2).
    { unfold ParseSliceLayerExtensionRbsp in *. cbv zeta in *.
      destruct (tob (svc_extension_flag h)).
      - step E. ret E.
        destruct (storedu_same _ _ _ _ w2 _ _ _ (svc_same _ _ _ _ B) E0) as (w2' & E2 & S1 & S2).
        exists w2'. rewrite (sbind_ok _ _ _ _ _ _ _ _ E2). auto.
      - destruct (tob (avc_3d_extension_flag h)).
        + ret E. exists w2. auto.
        + step E. ret E.
          destruct (storedu_same _ _ _ _ w2 _ _ _ (slice_same _ _ _ _ _ B) E0) as (w2' & E2 & S1 & S2).
          exists w2'. rewrite (sbind_ok _ _ _ _ _ _ _ _ E2). auto. }
    destruct L as (w2' & L & S1 & S2). rewrite (sbind_ok _ _ _ _ _ _ _ _ L). exists w2'. rewrite S1, S2. auto. }
  unfold sret in *. inversion H; subst. eauto.
Qed.

(** Units *)
Lemma unit_more : forall a ck u w1 w2 x w1', fits a u -> ok_state (w_st w1) -> ok_state (w_st w2) ->
  below (w_st w1) (w_st w2) -> unit_parser a ck u w1 = (Ok x, w1') -> resolved x ->
  exists w2', unit_parser a ck u w2 = (Ok x, w2') /\ below (w_st w1') (w_st w2') /\
    ok_state (w_st w1') /\ ok_state (w_st w2').
Proof.
  intros a ck u w1 w2 x w1' F O1 O2 B H (R1 & R2).
  destruct (unit_cases a ck u w1 F O1) as [(h & p & b1 & b2 & w' & H1 & H2 & _ & _ & O' & _ & _ & H3)|[(_ & _ & H3)|(_ & _ & H3)]];
    rewrite H in H3; inversion H3; subst.
  destruct (unit_cases a ck u w2 F O2) as [(h' & p' & b1' & b2' & w2' & H1' & H2' & _ & _ & O2' & _ & _ & H3')|[(_ & N & _)|(_ & N & _)]].
  - rewrite H1 in H1'. inversion H1'; subst h' b1'. cbn in R1, R2.
    destruct (payload_more h b1 w1 w2 p b2 w' B H2 R1 R2) as (w2'' & E & B').
    rewrite E in H2'. inversion H2'; subst. exists w2'. auto.
  - exfalso. destruct (unit_cases a ck u w1 F O1) as [(?&?&?&?&?&_&_&_&_&_&?&_)|[(_ & _ & X)|(_ & _ & X)]]; try tauto; congruence.
  - exfalso. destruct (unit_cases a ck u w1 F O1) as [(?&?&?&?&?&_&_&_&_&_&?&_)|[(_ & _ & X)|(_ & _ & X)]]; try tauto; congruence.
Qed.
Lemma unit_same : forall a ck u w1 w2 x w1', fits a u -> ok_state (w_st w1) -> ok_state (w_st w2) ->
  same_sets (w_st w1) (w_st w2) -> unit_parser a ck u w1 = (Ok x, w1') ->
  exists w2', unit_parser a ck u w2 = (Ok x, w2') /\ same_sets (w_st w1') (w_st w2') /\
    ok_state (w_st w1') /\ ok_state (w_st w2').
Proof.
  intros a ck u w1 w2 x w1' F O1 O2 B H.
  destruct (unit_cases a ck u w1 F O1) as [(h & p & b1 & b2 & w' & H1 & H2 & _ & _ & O' & _ & _ & H3)|[(_ & _ & H3)|(_ & _ & H3)]];
    rewrite H in H3; inversion H3; subst.
  destruct (unit_cases a ck u w2 F O2) as [(h' & p' & b1' & b2' & w2' & H1' & H2' & _ & _ & O2' & _ & _ & H3')|[(_ & N & _)|(_ & N & _)]].
  - rewrite H1 in H1'. inversion H1'; subst h' b1'.
    destruct (payload_same h b1 w1 w2 p b2 w' B H2) as (w2'' & E & B').
    rewrite E in H2'. inversion H2'; subst. exists w2'. auto.
  - exfalso. destruct (unit_cases a ck u w1 F O1) as [(?&?&?&?&?&_&_&_&_&_&?&_)|[(_ & _ & X)|(_ & _ & X)]]; try tauto; congruence.
  - exfalso. destruct (unit_cases a ck u w1 F O1) as [(?&?&?&?&?&_&_&_&_&_&?&_)|[(_ & _ & X)|(_ & _ & X)]]; try tauto; congruence.
Qed.
(** Rejection depends on the unit alone and changes no parameter set. *)
Lemma unit_rejected : forall a ck u w1 w2 w1', fits a u -> ok_state (w_st w1) -> ok_state (w_st w2) ->
  unit_parser a ck u w1 = (Null, w1') ->
  exists w2', unit_parser a ck u w2 = (Null, w2') /\ w_st w1' = w_st w1 /\ w_st w2' = w_st w2.
Proof.
  intros a ck u w1 w2 w1' F O1 O2 H.
  destruct (unit_cases a ck u w1 F O1) as [(?&?&?&?&?&_&_&_&_&_&?&_&X)|[(Q & R & X)|(Q & R & X)]]; [congruence| |];
    rewrite H in X; inversion X; subst;
    (destruct (unit_cases a ck u w2 F O2) as [(?&?&?&?&?&_&_&_&_&_&?&_&Y)|[(Q' & R' & Y)|(Q' & R' & Y)]]; [tauto| |]; try tauto; eauto).
Qed.

(** Sequences of units *)
Lemma runs_more : forall a ck us w1 l w1' w2, runs (unit_parser a ck) us w1 l w1' ->
  Forall (fun u => fits a (snd u)) us -> ok_state (w_st w1) -> ok_state (w_st w2) ->
  below (w_st w1) (w_st w2) -> Forall (fun '(x, _, _) => resolved x) l ->
  exists w2', runs (unit_parser a ck) us w2 l w2' /\ below (w_st w1') (w_st w2').
Proof.
  intros a ck us w1 l w1' w2 R. revert w2. induction R as [s|o u t s x s' l s'' H R IH|o u t s s' l s'' H R IH];
    intros w2 F O1 O2 B Q.
  - exists w2. split; [constructor|auto].
  - inversion F; subst. inversion Q; subst. cbn in *.
    destruct (unit_more a ck u s w2 x s') as (w3 & E & B' & O1' & O2'); auto.
    destruct (IH w3) as (w4 & R4 & B4); auto. exists w4. split; auto. econstructor; eauto.
  - inversion F; subst. cbn in *.
    destruct (unit_rejected a ck u s w2 s') as (w3 & E & S1 & S2); auto.
    destruct (IH w3) as (w4 & R4 & B4); auto; try (rewrite ?S1, ?S2; auto; fail).
    exists w4. split; auto. eapply runs_dropped; eauto.
Qed.
Lemma runs_same : forall a ck us w1 l w1' w2, runs (unit_parser a ck) us w1 l w1' ->
  Forall (fun u => fits a (snd u)) us -> ok_state (w_st w1) -> ok_state (w_st w2) ->
  same_sets (w_st w1) (w_st w2) ->
  exists w2', runs (unit_parser a ck) us w2 l w2' /\ same_sets (w_st w1') (w_st w2').
Proof.
  intros a ck us w1 l w1' w2 R. revert w2. induction R as [s|o u t s x s' l s'' H R IH|o u t s s' l s'' H R IH];
    intros w2 F O1 O2 B.
  - exists w2. split; [constructor|auto].
  - inversion F; subst. cbn in *.
    destruct (unit_same a ck u s w2 x s') as (w3 & E & B' & O1' & O2'); auto.
    destruct (IH w3) as (w4 & R4 & B4); auto. exists w4. split; auto. econstructor; eauto.
  - inversion F; subst. cbn in *.
    destruct (unit_rejected a ck u s w2 s') as (w3 & E & S1 & S2); auto.
    destruct (IH w3) as (w4 & R4 & B4); auto; try (rewrite ?S1, ?S2; auto; fail).
    exists w4. split; auto. eapply runs_dropped; eauto.
Qed.
