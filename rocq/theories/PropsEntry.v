(** Property C65: the parsers of single syntax structures called on bytes. *)
From Coq Require Import NArith ZArith List Bool Lia ZifyBool ZifyNat ZifyN.
From Verif Require Import SpecBits Base BitBuffer SpecReader BitsLemmas BitBufferProofs
  ReaderProofs Rbsp SpecRbsp RbspProofs Parser SpecSyntax ParserProofs Vui SpecVui VuiProofs SpecScaling
  TypesSps Sps SpecSps SpsProofs TypesPps Pps SpecPps PpsProofs PropsSps PropsPps
  TypesNal NalHeader SpecNalHeader NalHeaderProofs TypesExt Ext SpecExt ExtProofs
  TypesSlice SliceParts SpecSliceParts SlicePartsProofs TypesSliceHeader SliceHeader SpecSlice SliceProofs
  TypesSvcSlice SvcSlice SpecSvcSlice SvcSliceProofs PropsSlice PropsSvcSlice
  TypesNalUnit NalUnit NalUnitProofs SpecNalUnit NalUnitProofs2 NalUnitProofs3 PropsNalUnit PropsNalUnit2
  CodecProofs SpecConform LocalProofs PropsExt PropsSliceParts PropsFraming PropsReuse
  TypesEntry Entry SpecEntry EntryProofs.
Import ListNotations.
Open Scope N_scope.
Ltac Zify.zify_post_hook ::= Z.div_mod_to_equations.

Definition parse_bytes (a : bool) {A} (e : structure A) (data : list N) (w : world) : res A * world :=
  ParseBytes a e data (N.of_nat (length data)) w.

(** For every structure, arguments, bytes and earlier calls: a value or null, and the remembered
    parameter sets are as before. *)
Theorem C65_safe : forall a A (e : structure A) data w, history a w -> fits a data -> bounded e ->
  exists w', ((exists v, parse_bytes a e data w = (Ok v, w')) \/ parse_bytes a e data w = (Null, w')) /\
    (is_payload e = false -> w_st w' = w_st w).
Proof.
  intros a A e data w H F _. change (parse_bytes a e data w) with (on_unit a (on_bits e) data w).
  rewrite on_unit_eq by auto.
  pose proof (on_bits_mgood A e (start a (unesc data)) w (start_wf _ _ (fits_unesc _ _ F)) (history_ok a w H)) as G.
  pose proof (fun K => on_bits_keeps A e K (start a (unesc data)) w) as K.
  destruct (on_bits e (start a (unesc data), w)) as [r [b' w']]. cbn [snd] in K. exists w'. split; [|exact K].
  destruct r; try contradiction; eauto.
Qed.

(** What is returned is what the bytes, freed of emulation prevention, code. *)
Theorem C65_sound : forall a A (e : structure A) data w v w' r, history a w -> fits a data -> bounded e ->
  strips data r -> parse_bytes a e data w = (Ok v, w') -> understood e v ->
  exists c rest, bits_of r = c ++ rest /\ coding false e (w_st w) v c rest.
Proof.
  intros a A e data w v w' r H F _ S E U. apply strips_unesc in S. subst r.
  change (parse_bytes a e data w) with (on_unit a (on_bits e) data w) in E. rewrite on_unit_eq in E by auto.
  destruct (on_bits e (start a (unesc data), w)) as [x [b' w1]] eqn:X. inversion E; subst x w1; clear E.
  destruct (on_bits_sound A e _ w v b' w' (start_wf _ _ (fits_unesc _ _ F)) (history_ok a w H) X U)
    as (c & b1 & (_ & R & _) & C).
  rewrite start_rem in R. eauto.
Qed.

(** What codes a value is read as that value. *)
Theorem C65_complete : forall a A (e : structure A) data w v r c rest, history a w -> fits a data ->
  bounded e -> strips data r -> bits_of r = c ++ rest -> coding true e (w_st w) v c rest ->
  parse_bytes a e data w = (Ok v, w).
Proof.
  intros a A e data w v r c rest H F _ S E C. apply strips_unesc in S. subst r.
  change (parse_bytes a e data w) with (on_unit a (on_bits e) data w). rewrite on_unit_eq by auto.
  destruct (on_bits_complete A e (start a (unesc data)) w v c rest (start_wf _ _ (fits_unesc _ _ F)) (history_ok a w H) C) as [b' X];
    [rewrite start_rem; exact E|]. rewrite X. reflexivity.
Qed.

(** A NAL unit with a header of one byte is read as its payload alone would be. *)
Theorem C65_in_unit : forall a ck x body w, history a w -> fits a (x :: body) -> x <> 0 ->
  x mod 32 <> 14 -> x mod 32 <> 20 -> x mod 32 <> 21 ->
  exists u w', parse_unit a ck (x :: body) w = (Ok u, w') /\
    nu_header u = mknalh (x / 128) (x / 32 mod 4) (x mod 32) 0 0 None /\
    parse_bytes a (NalUnitPayload (nu_header u)) body w = (Ok (nu_payload u), w').
Proof.
  intros a ck x body w H F X T1 T2 T3.
  destruct (behind_header a ck x body w F (history_ok a w H) X T1 T2 T3) as (n & c & p & w' & E1 & E2).
  eexists _, w'. split; [exact E1|]. split; [reflexivity|]. exact E2.
Qed.

(** The structure in the payload of a unit is what its own parser returns for the bytes behind
    the header byte. *)
Theorem C65_same : forall a ck x body w u w', history a w -> fits a (x :: body) -> x < 128 ->
  parse_unit a ck (x :: body) w = (Ok u, w') ->
  (x mod 32 = 7 -> forall v, pl_sps (nu_payload u) = Some v <-> parse_bytes a Sps body w = (Ok v, w)) /\
  (x mod 32 = 8 -> forall v, pl_pps (nu_payload u) = Some v <-> parse_bytes a (Pps 1) body w = (Ok v, w)) /\
  (x mod 32 = 15 -> forall v, pl_subset_sps (nu_payload u) = Some v <->
     parse_bytes a SubsetSps body w = (Ok v, w)) /\
  (x mod 32 = 1 \/ x mod 32 = 5 -> forall v, pl_slice (nu_payload u) = Some v <->
     parse_bytes a (SliceLayerWithoutPartitioning (x / 32) (x mod 32)) body w = (Ok v, w)).
Proof.
  intros a ck x body w u w' H F X E.
  assert (FB : fits a body).
  { destruct F as (B & L & Y). cbn [length] in *. inversion B; subst.
    split; [assumption|]. split; [lia|]. intros T; specialize (Y T); lia. }
  pose proof (start_wf _ _ (fits_unesc _ _ FB)) as W. pose proof (history_ok a w H) as O.
  assert (K : x mod 32 <> 0 -> x mod 32 <> 14 -> x mod 32 <> 20 -> x mod 32 <> 21 -> forall t, x mod 32 = t ->
    exists b2, ParseNalUnitPayload (mknalh (x / 128) (x / 32) t 0 0 None) (start a (unesc body), w) =
      (Ok (nu_payload u), (b2, w'))).
  { intros N0 N1 N2 N3 t <-. assert (X0 : x <> 0) by (intros ->; apply N0; reflexivity).
    destruct (C65_in_unit a ck x body w H F X0 N1 N2 N3) as (u' & w1 & E1 & E2 & E3).
    rewrite E in E1. injection E1 as <- <-. rewrite E2 in E3.
    change (parse_bytes a (NalUnitPayload ?h) body w) with (on_unit a (ParseNalUnitPayload h) body w) in E3.
    rewrite on_unit_eq in E3 by exact FB. replace (x / 32 mod 4) with (x / 32) in E3 by lia.
    destruct (ParseNalUnitPayload _ _) as [r [b2 w2]]. injection E3 as -> ->. eauto. }
  assert (B : forall A (e : structure A) v, parse_bytes a e body w = (Ok v, w) <->
    exists b'', on_bits e (start a (unesc body), w) = (Ok v, (b'', w))).
  { intros A e v. change (parse_bytes a e body w) with (on_unit a (on_bits e) body w). rewrite on_unit_eq by exact FB.
    destruct (on_bits e (start a (unesc body), w)) as [r [b2 w2]].
    split; [intros [= -> ->]; eauto|intros [b'' [= -> _ ->]]; auto]. }
  clear E. split; [|split; [|split]]; intros T v; rewrite B; cbn [on_bits].
  - destruct (K ltac:(lia) ltac:(lia) ltac:(lia) ltac:(lia) 7 T) as [b2 Q]. clear K.
    destruct (stored_same _ ParseSps (start a (unesc body)) w ltac:(auto with good) W) as (o & b' & S & I).
    rewrite <- I. unfold ParseNalUnitPayload in Q. cbn [nal_unit_type] in Q.
    change ((7 =? 1) || (7 =? 5)) with false in Q. change (7 =? 7) with true in Q. cbv iota in Q.
    unfold sbind in Q at 1. rewrite S in Q. destruct o; cbn in Q; inversion Q; reflexivity.
  - destruct (K ltac:(lia) ltac:(lia) ltac:(lia) ltac:(lia) 8 T) as [b2 Q]. clear K.
    destruct (stored_same _ (ParsePps 1) (start a (unesc body)) w ltac:(auto with good) W) as (o & b' & S & I).
    rewrite <- I. unfold ParseNalUnitPayload in Q. cbn [nal_unit_type] in Q.
    change ((8 =? 1) || (8 =? 5)) with false in Q. change (8 =? 7) with false in Q. change (8 =? 8) with true in Q. cbv iota in Q.
    unfold sbind in Q at 1. rewrite S in Q. destruct o; cbn in Q; inversion Q; reflexivity.
  - destruct (K ltac:(lia) ltac:(lia) ltac:(lia) ltac:(lia) 15 T) as [b2 Q]. clear K.
    destruct (stored_same _ ParseSubsetSps (start a (unesc body)) w ltac:(auto with good) W) as (o & b' & S & I).
    rewrite <- I. unfold ParseNalUnitPayload in Q. cbn [nal_unit_type] in Q.
    change ((15 =? 1) || (15 =? 5)) with false in Q. change (15 =? 7) with false in Q. change (15 =? 8) with false in Q.
    change (15 =? 14) with false in Q. change (15 =? 15) with true in Q. cbv iota in Q.
    unfold sbind in Q at 1. rewrite S in Q. destruct o; cbn in Q; inversion Q; reflexivity.
  - destruct (K ltac:(lia) ltac:(lia) ltac:(lia) ltac:(lia) (x mod 32) eq_refl) as [b2 Q]. clear K.
    destruct (storedu_same _ (ParseSliceLayerWithoutPartitioningRbsp (x / 32) (x mod 32)) (start a (unesc body)) w
      (slice_layer_good _ _ _ O) W) as (o & b' & w1 & S & I).
    rewrite <- I. unfold ParseNalUnitPayload in Q. cbn [nal_unit_type nal_ref_idc] in Q.
    replace ((x mod 32 =? 1) || (x mod 32 =? 5)) with true in Q by lia.
    unfold sbind in Q. rewrite S in Q. cbn in Q. inversion Q; reflexivity.
Qed.

(** Structures on their own, with emulation prevention; a slice after its parameter sets. *)
Definition ex_bytes (l : list bool) : list N := escape (octets (rbsp l)).
Definition ex_w0 : world := mkw new_state 0.
Definition ex_w2 : world := snd (parse_unit true true ex_u_pps (snd (parse_unit true true ex_u_sps ex_w0))).
Example C65_ex_history : history true ex_w2 /\ fits true ex_u_slice /\
  map fst (st_pps (w_st ex_w2)) = [9].
Proof.
  assert (F1 : fits true ex_u_sps) by fits_tac. assert (F2 : fits true ex_u_pps) by fits_tac.
  split; [|split; [fits_tac|vm_compute; reflexivity]].
  apply history_unit; [|exact F2]. apply history_unit; [|exact F1]. constructor.
Qed.
Example C65_ex_coded : forall st rest,
  coding true HrdParameters st ex_hrd (enc_hrd ex_hrd) rest /\
  coding true (DecRefPicMarking 0) st (drpm_of 0 ex_mark) (enc_marking ex_mark) rest /\
  coding true (PredWeightTable 1 6 1 0) st (pwt_of 1 6 1 0 5 7 PropsSliceParts.ex_w0 ex_w1)
    (enc_pwt 1 6 5 7 PropsSliceParts.ex_w0 ex_w1) rest /\
  bounded (PredWeightTable 1 6 1 0).
Proof.
  intros st rest. split; [|split; [|split]].
  - split; [|reflexivity]. valid_tac.
  - exists ex_mark. split; [apply ex_mark_valid|auto].
  - exists 5, 7, PropsSliceParts.ex_w0, ex_w1. split; [apply ex_pwt_valid|auto].
  - cbn. lia.
Qed.
Example C65_ex :
  parse_bytes true HrdParameters (ex_bytes (enc_hrd ex_hrd)) ex_w0 = (Ok ex_hrd, ex_w0) /\
  parse_bytes true VuiParameters (ex_bytes (enc_vui ex_vui)) ex_w0 = (Ok ex_vui, ex_w0) /\
  parse_bytes true (PrefixNalUnitSvc 2 0 0) (ex_bytes (enc_prefsvc ex_prefsvc [false; true])) ex_w0 =
    (Ok ex_prefsvc, ex_w0) /\
  parse_bytes true (PrefixNalUnitSvc 2 1 0) (ex_bytes (enc_prefsvc ex_prefsvc [false; true])) ex_w0 =
    (Null, report ex_w0) /\
  parse_bytes true Sps (tl ex_u_sps) ex_w0 = (Ok ex_slice_sps, ex_w0) /\
  parse_bytes true Sps (tl ex_u_pps) ex_w0 = (Null, ex_w0) /\
  parse_bytes true (SliceHeader 1 5) (tl ex_u_slice) ex_w0 = (Null, ex_w0) /\
  match parse_bytes true (SliceHeader 1 5) (tl ex_u_slice) ex_w2 with
  | (Ok h, _) => Some h = reported_in 1 5 (w_st ex_w2) ex_slice
  | _ => False
  end.
Proof. do 7 (split; [vm_compute; reflexivity|]). vm_compute. reflexivity. Qed.
Example C65_ex_same :
  match parse_unit true true ex_u_slice ex_w2 with
  | (Ok u, _) => match pl_slice (nu_payload u) with Some _ => True | None => False end
  | _ => False
  end.
Proof. vm_compute. exact I. Qed.

Print Assumptions C65_safe.
Print Assumptions C65_sound.
Print Assumptions C65_complete.
Print Assumptions C65_in_unit.
Print Assumptions C65_same.
