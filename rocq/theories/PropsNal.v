(** Property C22: NAL unit headers. *)
From Coq Require Import NArith ZArith List Bool Lia ZifyBool ZifyNat ZifyN.
From Verif Require Import SpecBits Base BitBuffer SpecReader BitsLemmas BitBufferProofs ReaderProofs
  Parser SpecSyntax ParserProofs SpecVui VuiProofs PropsSps TypesNal NalHeader SpecNalHeader
  NalHeaderProofs.
Import ListNotations.
Open Scope N_scope.
Ltac Zify.zify_post_hook ::= Z.div_mod_to_equations.

(** C22: every header decodes to its fields, whatever follows. *)
Theorem C22_header_round_trip : forall h b rest, reachable b ->
  valid_nalh h -> bb_rem b = enc_nalh h ++ rest ->
  exists b', ParseNalUnitHeader b = (Ok (Some h), b') /\
    consumed b (enc_nalh h) b' /\ bb_rem b' = rest.
Proof.
  intros h b rest R V E. apply reachable_wf in R.
  eapply parses_consumed; eauto. apply ParseNalUnitHeader_complete; auto.
Qed.
Theorem C22_header_accepts_only_encodings : forall h b b', reachable b ->
  ParseNalUnitHeader b = (Ok (Some h), b') -> valid_nalh h /\ consumed b (enc_nalh h) b'.
Proof.
  intros h b b' R H. apply reachable_wf in R.
  destruct (ParseNalUnitHeader_sound b _ b' R H) as [V Rd].
  split; [auto|apply reads_consumed; auto].
Qed.
(** The header is 8 bits, or 32 with the SVC extension. *)
Theorem C22_header_size : forall h, valid_nalh h ->
  length (enc_nalh h) = match nal_svc h with Some _ => 32%nat | None => 8%nat end.
Proof. intros h V. destruct h as [f r t s a [[]|]]; reflexivity. Qed.
(** MVC and 3D-AVC extensions, and nothing else, are reported as unimplemented (one report)
    and yield no header. *)
Theorem C22_unimplemented : forall b, reachable b ->
  (exists b', ParseNalUnitHeader b = (Ok None, b')) <->
  (exists c rest, announces_other_ext c /\ bb_rem b = c ++ rest).
Proof.
  intros b R. apply reachable_wf in R. split.
  - intros (b' & H). destruct (ParseNalUnitHeader_sound b _ b' R H) as (c & A & Rd).
    exists c, (bb_rem b'). split; [auto|]. apply Rd.
  - intros (c & rest & A & E). eexists. eapply (ParseNalUnitHeader_unimpl c A); eauto.
Qed.
(** Otherwise nullptr, which only happens when the data is cut short. *)
Theorem C22_safe : never_crashes ParseNalUnitHeader.
Proof. apply never_crashes_of. auto with good. Qed.
Theorem C22_nullptr_only_if_truncated : forall b b', reachable b ->
  ParseNalUnitHeader b = (Null, b') ->
  (length (bb_rem b) < 8)%nat \/
  (exists f r t rest, is_u 1 f /\ is_u 2 r /\ (t = 14 \/ t = 20 \/ t = 21) /\
     bb_rem b = enc_nal_byte f r t ++ rest /\ (length (bb_rem b) < 32)%nat).
Proof.
  intros b b' R H. apply reachable_wf in R.
  destruct (Nat.lt_ge_cases (length (bb_rem b)) 8) as [L|L]; [left; auto|right].
  destruct (header_null b b' R H L) as (f & r & t & rest & Hf & Hr & Ht & E).
  exists f, r, t, rest. repeat (split; [assumption|]).
  apply (short_header b b' R H).
Qed.
Definition ex_svc_header : nalh := mknalh 0 3 20 1 0 (Some (mksvc 1 63 0 5 11 6 1 0 1 3)).
Example C22_ex_valid : valid_nalh ex_svc_header /\ valid_nalh (mknalh 1 2 5 0 0 None) /\
  announces_other_ext (u_bits 8 116 ++ [false]).
Proof.
  split; [|split].
  - hnf; repeat split; vm_compute; auto; discriminate.
  - hnf; repeat split; vm_compute; auto; discriminate.
  - exists 0, 3, 20, false. repeat split. right. left. auto.
Qed.
Example C22_ex : fst (ParseNalUnitHeader (fresh (enc_nalh ex_svc_header))) = Ok (Some ex_svc_header).
Proof. vm_compute. reflexivity. Qed.

Print Assumptions C22_header_round_trip.
Print Assumptions C22_header_accepts_only_encodings.
Print Assumptions C22_header_size.
Print Assumptions C22_unimplemented.
Print Assumptions C22_safe.
Print Assumptions C22_nullptr_only_if_truncated.
