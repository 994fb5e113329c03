(** Proofs about the parameter sets held by a parser state. *)
From Coq Require Import NArith ZArith List Bool Lia ZifyBool ZifyNat ZifyN.
From Verif Require Import Base BitBuffer Rbsp Parser ParserProofs TypesSps Sps TypesPps Pps SpecSps SpecPps TypesNal NalHeader
  TypesExt Ext TypesSliceHeader SliceHeader SpecSlice SliceProofs TypesNalUnit NalUnit NalUnitProofs Framing Rtp
  PropsNalUnit SpecState.
Import ListNotations.
Open Scope N_scope.
Ltac Zify.zify_post_hook ::= Z.div_mod_to_equations.

(** ** What holds of the stores whatever is added *)
Section Inv.
Context (I : pstate -> Prop) (Is : forall s st, I st -> I (add_sps s st))
  (Ip : forall p st, I st -> I (add_pps p st)) (Iu : forall v st, I st -> I (add_subset_sps v st)).
Definition mkeep {A} (m : M A) : Prop := forall b w, I (w_st w) -> I (w_st (snd (snd (m (b, w))))).
Lemma mkeep_bind : forall A B (p : M A) (f : A -> M B), mkeep p -> (forall a, mkeep (f a)) -> mkeep (sbind p f).
Proof.
  intros A B p f Kp Kf b w H. unfold sbind. specialize (Kp b w H). destruct (p (b, w)) as [r [b1 w1]].
  cbn [snd] in Kp. destruct r; cbn [snd]; auto. apply Kf. auto.
Qed.
Lemma mkeep_ret : forall A (a : A), mkeep (sret a).
Proof. intros A a b w H. exact H. Qed.
Lemma mkeep_nonnull : forall A (o : option A), mkeep (nonnull o).
Proof. intros A [a|] b w H; exact H. Qed.
Lemma mkeep_onbuf : forall A (p : P A), mkeep (onbuf p).
Proof. intros A p b w H. unfold onbuf. destruct (p b); exact H. Qed.
Lemma mkeep_stored : forall A (p : P A), mkeep (stored p).
Proof. intros A p b w H. unfold stored. destruct (p b) as [[| | | |] b1]; exact H. Qed.
Lemma mkeep_storedu : forall A (p : pstate -> P (option A)), mkeep (storedu p).
Proof. intros A p b w H. unfold storedu. destruct (p (w_st w) b) as [[[a|]| | | |] b1]; exact H. Qed.
Lemma mkeep_change : forall f, (forall st, I st -> I (f st)) -> mkeep (change f).
Proof. intros f F b w H. apply F. exact H. Qed.
Ltac mk := repeat match goal with
  | |- mkeep (sbind _ _) => apply mkeep_bind; [|intros]
  | |- mkeep (sret _) => apply mkeep_ret
  | |- mkeep (nonnull _) => apply mkeep_nonnull
  | |- mkeep (onbuf _) => apply mkeep_onbuf
  | |- mkeep (stored _) => apply mkeep_stored
  | |- mkeep (storedu _) => apply mkeep_storedu
  | |- mkeep (change _) => apply mkeep_change; auto
  | |- mkeep (if ?c then _ else _) => destruct c
  | |- mkeep (match ?c with Some _ => _ | None => _ end) => destruct c
  end.
Lemma payload_keep : forall h, mkeep (ParseNalUnitPayload h).
Proof. intros h. unfold ParseNalUnitPayload, ParseSliceLayerExtensionRbsp. mk. Qed.
Lemma header_keep : mkeep nal_header.
Proof. unfold nal_header. mk. Qed.
Lemma unit_keep : forall ck, mkeep (ParseNalUnit ck).
Proof.
  intros ck. unfold ParseNalUnit. apply mkeep_bind; [mk|intros c]. apply mkeep_bind; [apply header_keep|intros h].
  apply mkeep_bind; [apply payload_keep|intros p]. intros b w H. exact H.
Qed.
Lemma single_keep : mkeep ParseRtpSingle.
Proof.
  unfold ParseRtpSingle. apply mkeep_bind; [apply header_keep|intros h].
  apply mkeep_bind; [apply payload_keep|intros p; apply mkeep_ret].
Qed.
Lemma fua_keep : forall ref, mkeep (ParseRtpFuA ref).
Proof.
  intros ref. unfold ParseRtpFuA. apply mkeep_bind; [apply header_keep|intros h]. mk. apply payload_keep.
Qed.
Lemma stapa_loop_keep : forall f ss hs ps, mkeep (stapa_loop f ss hs ps).
Proof.
  induction f as [|f IH]; intros ss hs ps b w H; cbn [stapa_loop]; destruct (0 <? RemainingBitCount b); try exact H.
  assert (K : mkeep (size <- onbuf (ReadBits 16) ;;
       onbuf (fun b => guard (negb (RemainingBitCount b <? size * 8)) b) ;;;
       h <- nal_header ;;
       p <- ParseNalUnitPayload h ;;
       stapa_loop f (size :: ss) (h :: hs) (p :: ps))%m).
  { apply mkeep_bind; [mk|intros z]. apply mkeep_bind; [mk|intros _]. apply mkeep_bind; [apply header_keep|intros h].
    apply mkeep_bind; [apply payload_keep|intros p]. apply IH. }
  apply K. exact H.
Qed.
Lemma stapa_keep : mkeep ParseRtpStapA.
Proof.
  unfold ParseRtpStapA. apply mkeep_bind; [apply header_keep|intros h]. apply mkeep_bind.
  - intros b w H. apply stapa_loop_keep. exact H.
  - intros [[ss hs] ps]. apply mkeep_ret.
Qed.
Lemma rtp_keep : mkeep ParseRtp.
Proof.
  unfold ParseRtp. apply mkeep_bind; [apply header_keep|intros h]. apply mkeep_bind; [apply mkeep_onbuf|intros _].
  cbv zeta. mk; [apply single_keep|apply stapa_keep|apply fua_keep].
Qed.

Lemma buffer_keep : forall A a (m : M A) l w, mkeep m -> I (w_st w) -> I (w_st (snd (with_buffer a m l w))).
Proof.
  intros A a m l w K H. unfold with_buffer. destruct (bb_new a l) as [b| |k| |]; try exact H.
  specialize (K b w H). destruct (m (b, w)) as [r [b' w']]. exact K.
Qed.
Lemma unescaping_keep : forall A a (m : M A) l n w, mkeep m -> I (w_st w) -> I (w_st (snd (unescaping a m l n w))).
Proof.
  intros A a m l n w K H. unfold unescaping. destruct (UnescapeRbsp l n); try exact H. apply buffer_keep; auto.
Qed.
Lemma bytes_keep : forall a ck l n w, I (w_st w) -> I (w_st (snd (ParseNalUnitBytes a ck l n w))).
Proof. intros. apply unescaping_keep; [apply unit_keep|auto]. Qed.
Lemma loop_keep : forall a ck data ix w, I (w_st w) -> I (w_st (snd (bitstream_loop a ck data ix w))).
Proof.
  intros a ck data ix. induction ix as [|x t IH]; intros w H; cbn [bitstream_loop]; [exact H|].
  pose proof (bytes_keep a ck (at_offset data (ni_payload x)) (ni_size x) w H) as K.
  destruct (ParseNalUnitBytes a ck (at_offset data (ni_payload x)) (ni_size x) w) as [r w']. cbn [snd] in K.
  destruct r; try exact K; specialize (IH w' K); [|exact IH].
  destruct (bitstream_loop a ck data t w') as [[| | | |] w'']; exact IH.
Qed.
Lemma lengths_keep : forall a ck data len nlb f i acc w, I (w_st w) ->
  I (w_st (snd (nalu_length_loop (fun i n => ParseNalUnitBytes a ck (at_offset data i) n) f data len nlb i acc w))).
Proof.
  intros a ck data len nlb. induction f as [|f IH]; intros i acc w H; cbn [nalu_length_loop];
    destruct (i <? len); try exact H.
  assert (V : forall i n, I (w_st (snd (match ParseNalUnitBytes a ck (at_offset data i) n w with
        | (Ok x, s') => nalu_length_loop (fun i n => ParseNalUnitBytes a ck (at_offset data i) n) f data len nlb
                          (u64 (i + n)) ((x, i, nlb) :: acc) s'
        | (Null, s') => nalu_length_loop (fun i n => ParseNalUnitBytes a ck (at_offset data i) n) f data len nlb
                          (u64 (i + n)) acc s'
        | (UB k, s') => (UB k, s')
        | (Abort, s') => (Abort, s')
        | (NoFuel, s') => (NoFuel, s')
        end)))).
  { intros j n. pose proof (bytes_keep a ck (at_offset data j) n w H) as K.
    destruct (ParseNalUnitBytes a ck (at_offset data j) n w) as [r w']. cbn [snd] in K. destruct r; try exact K; apply IH; exact K. }
  destruct (0 <? nlb); [|apply V]. destruct (read_nalu_length data i (sub64 len i) nlb); try exact H.
  destruct (_ || _); [exact H|apply V].
Qed.
Lemma drop_keep : forall A (r : res A * world), I (w_st (snd r)) -> I (w_st (snd (drop r))).
Proof. intros A [[| | | |] w] H; exact H. Qed.
Lemma call_keep : forall a c w, I (w_st w) -> I (w_st (snd (run_call a c w))).
Proof.
  intros a c w H. destruct c; cbn [run_call]; try exact H; apply drop_keep.
  - apply bytes_keep; auto.
  - apply buffer_keep; [apply unit_keep|auto].
  - unfold ParseBitstream. destruct (FindNaluIndices _ _); try exact H. apply loop_keep; auto.
  - apply lengths_keep; auto.
  - apply unescaping_keep; [apply rtp_keep|auto].
  - apply unescaping_keep; [apply single_keep|auto].
  - apply unescaping_keep; [apply stapa_keep|auto].
  - apply unescaping_keep; [apply fua_keep|auto].
  - apply unescaping_keep; [apply payload_keep|auto].
Qed.
Lemma history_keep : forall a w, I new_state -> history a w -> I (w_st w).
Proof.
  intros a w N H. induction H as [c|w c r w' H IH C E]; [exact N|].
  pose proof (call_keep a c w IH) as K. rewrite E in K. exact K.
Qed.
End Inv.

(** ** Stores keyed by identifiers *)
Definition keyed {A} (id : A -> N) (l : list (N * A)) : Prop :=
  NoDup (map fst l) /\ forall k x, In (k, x) l -> id x = k.
Lemma keyed_nil : forall A (id : A -> N), keyed id [].
Proof. intros. split; [constructor|intros k x []]. Qed.
Lemma minsert_in : forall A k (v : A) l k' x, In (k', x) (minsert k v l) -> (k' = k /\ x = v) \/ In (k', x) l.
Proof.
  induction l as [|[j y] l IH]; intros k' x H; cbn [minsert] in H.
  - destruct H as [H|[]]. injection H as -> ->. auto.
  - destruct (j =? k); [destruct H as [H|H]|destruct H as [H|H]].
    + injection H as -> ->. auto.
    + right. right. exact H.
    + right. left. exact H.
    + destruct (IH k' x H); auto. right. right. auto.
Qed.
Lemma keyed_minsert : forall A (id : A -> N) v l, keyed id l -> keyed id (minsert (id v) v l).
Proof.
  intros A id v l [N K]. split.
  - clear K. induction l as [|[j y] l IH]; cbn [minsert map fst]; [constructor; [intros []|constructor]|].
    cbn [map fst] in N. inversion N as [|? ? N1 N2]; subst. destruct (j =? id v) eqn:E; cbn [map fst].
    + apply N.eqb_eq in E. subst j. constructor; auto.
    + constructor; [|auto]. intros H. apply in_map_iff in H. destruct H as ([k x] & E1 & H). cbn in E1. subst k.
      apply minsert_in in H. destruct H as [[-> _]|H]; [rewrite N.eqb_refl in E; discriminate|].
      apply N1. apply in_map_iff. exists (j, x). auto.
  - intros k x H. apply minsert_in in H. destruct H as [[-> ->]|H]; auto.
Qed.
Lemma keyed_lookup : forall A (id : A -> N) l k x, keyed id l -> (In (k, x) l <-> lookup k l = Some x).
Proof.
  intros A id l k x [N K]. clear K. unfold lookup. induction l as [|[j y] l IH]; cbn [find option_map]; [split; [intros []|discriminate]|].
  cbn [map fst] in N. inversion N as [|? ? N1 N2]; subst. cbn [fst]. destruct (j =? k) eqn:E.
  - cbn [option_map snd]. apply N.eqb_eq in E. subst j. split; [|intros [= ->]; left; reflexivity].
    intros [[= ->]|H]; [reflexivity|]. exfalso. apply N1. apply in_map_iff. exists (k, x). auto.
  - rewrite <- IH by auto. split; [intros [[= -> ->]|H]; [rewrite N.eqb_refl in E; discriminate|auto]|right; auto].
Qed.
Lemma below_length : forall l n, NoDup l -> (forall k, In k l -> k < n) -> (length l <= N.to_nat n)%nat.
Proof.
  intros l n N H. rewrite <- (seq_length (N.to_nat n) 0), <- (map_length N.of_nat).
  apply NoDup_incl_length; [exact N|]. intros k I. apply in_map_iff. exists (N.to_nat k). split; [lia|].
  apply in_seq. specialize (H k I). lia.
Qed.
