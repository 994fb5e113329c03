(** Property C53: what a parser reports depends only on the bits ahead of it. *)
From Coq Require Import NArith ZArith List Bool Lia ZifyBool ZifyNat ZifyN.
From Verif Require Import SpecBits Base BitBuffer SpecReader BitsLemmas BitBufferProofs
  ReaderProofs Rbsp SpecRbsp Parser Vui TypesSps Sps SpecSps TypesPps Pps PropsSps TypesNal NalHeader
  TypesExt Ext TypesSlice SliceParts TypesSliceHeader SliceHeader TypesSvcSlice SvcSlice TypesNalUnit NalUnit
  LocalProofs.
Import ListNotations.
Open Scope N_scope.

(** Two buffers of the same build, at the same place within a byte, with the same bits ahead;
    what is behind them, and how much of it, may differ. *)
Definition same_ahead (b1 b2 : bb) : Prop :=
  bb_asserts b1 = bb_asserts b2 /\ bb_bit b1 = bb_bit b2 /\ bb_rem b1 = bb_rem b2.
(** The same result, and the same bits left ahead. *)
Definition position_independent {A} (p : bb -> res A * bb) : Prop := forall b1 b2,
  reachable b1 -> reachable b2 -> same_ahead b1 b2 ->
  fst (p b1) = fst (p b2) /\ same_ahead (snd (p b1)) (snd (p b2)).
Lemma independent_of : forall A (p : P A), local p -> position_independent p.
Proof.
  intros A p L b1 b2 R1 R2 (SA & SB & SR).
  destruct (L b1 b2) as (E & _ & _ & R & B & As).
  - repeat split; auto using reachable_wf; apply reachable_wf; auto.
  - split; [exact E|]. repeat split; auto.
Qed.
Theorem C53_parameter_sets :
  position_independent ParseHrdParameters /\ position_independent ParseVuiParameters /\
  position_independent ParseSps /\ (forall cfi, position_independent (ParsePps cfi)) /\
  position_independent ParseSpsExtension /\ position_independent ParseSubsetSps.
Proof.
  repeat split; intros; apply independent_of;
    auto using ParseHrdParameters_local, ParseVuiParameters_local, ParseSps_local, ParsePps_local,
      ParseSpsExtension_local, ParseSubsetSps_local.
Qed.
Theorem C53_headers :
  position_independent ParseNalUnitHeader /\
  (forall f ref use idr, position_independent (ParsePrefixNalUnitRbsp f ref use idr)) /\
  (forall ref nut st, position_independent (ParseSliceHeader ref nut st)) /\
  (forall h st, position_independent (ParseSliceHeaderInScalableExtension h st)).
Proof.
  repeat split; intros; apply independent_of;
    auto using ParseNalUnitHeader_local, ParsePrefixNalUnitRbsp_local, ParseSliceHeader_local, svc_local.
Qed.
Theorem C53_slice_parts :
  (forall t, position_independent (ParseRefPicListModification t)) /\
  (forall cat t n0 n1, position_independent (ParsePredWeightTable cat t n0 n1)) /\
  (forall idr, position_independent (ParseDecRefPicMarking idr)).
Proof.
  repeat split; intros; apply independent_of;
    auto using ParseRefPicListModification_local, ParsePredWeightTable_local, ParseDecRefPicMarking_local.
Qed.
(** The payload of a NAL unit, with what it leaves in the state. *)
Theorem C53_payload : forall h b1 b2 w, reachable b1 -> reachable b2 -> same_ahead b1 b2 ->
  fst (ParseNalUnitPayload h (b1, w)) = fst (ParseNalUnitPayload h (b2, w)) /\
  same_ahead (fst (snd (ParseNalUnitPayload h (b1, w)))) (fst (snd (ParseNalUnitPayload h (b2, w)))) /\
  snd (snd (ParseNalUnitPayload h (b1, w))) = snd (snd (ParseNalUnitPayload h (b2, w))).
Proof.
  intros h b1 b2 w R1 R2 (SA & SB & SR).
  destruct (payload_local h b1 b2 w) as (E & (_ & _ & R & B & As) & Ew).
  - repeat split; auto using reachable_wf; apply reachable_wf; auto.
  - split; [exact E|]. split; [|exact Ew]. repeat split; auto.
Qed.
(** An SPS at the start of a buffer, and behind three other bytes. *)
Definition ex_here : bb := mkbb (octets (rbsp (enc_sps ex_sps ex_sps_lists))) 0 0 true.
Definition ex_there : bb := mkbb ([0; 0; 103] ++ octets (rbsp (enc_sps ex_sps ex_sps_lists))) 3 0 true.
Example C53_ex : reachable ex_here /\ reachable ex_there /\ same_ahead ex_here ex_there /\
  fst (ParseSps ex_there) = Ok ex_sps.
Proof.
  assert (R : forall l, bytes_ok l -> (N.of_nat (length l) <? 2 ^ 32) = true -> reachable (mkbb l 0 0 true)).
  { intros l B L. apply (reach_new true l); auto; [lia|]. unfold bb_new, dcheck. replace (_ <=? _) with true by lia. reflexivity. }
  split; [apply R; [repeat constructor|reflexivity]|]. split; [|split; [repeat split|vm_compute; reflexivity]].
  apply (reach_op (mkbb ([0; 0; 103] ++ octets (rbsp (enc_sps ex_sps ex_sps_lists))) 0 0 true) (OSeek 3 0) (Ok 0%Z)).
  - apply R; [repeat constructor|reflexivity].
  - split; reflexivity.
  - reflexivity.
Qed.
Print Assumptions C53_parameter_sets.
Print Assumptions C53_headers.
Print Assumptions C53_slice_parts.
Print Assumptions C53_payload.
