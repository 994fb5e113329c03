(** Property C36: slice headers in scalable extension. *)
From Coq Require Import NArith ZArith List Bool Lia ZifyBool ZifyNat ZifyN.
From Verif Require Import SpecBits SpecRbsp Base BitBuffer SpecReader BitsLemmas BitBufferProofs ReaderProofs
  Parser SpecSyntax ParserProofs TypesSps TypesPps SpecVui VuiProofs SpecScaling SpecSps SpecPps
  TypesNal TypesExt SpecExt TypesSlice SliceParts SpecSliceParts SlicePartsProofs TypesSliceHeader
  SliceHeader SpecSlice SliceProofs TypesSvcSlice SvcSlice SpecSvcSlice SvcSliceProofs
  PropsSps PropsPps PropsExt PropsSlice.
Import ListNotations.
Open Scope N_scope.
Ltac Zify.zify_post_hook ::= Z.div_mod_to_equations.

(** The headers of a unit with header [h] that are valid in a state.  [d0], [d1]: from the
    PPS, the numbers of references when the header has none. *)
Definition svc_id (v : svc_slice) : N := pic_parameter_set_id (v_lead (fst v)).
Definition svc_valid_in (d0 d1 : pps -> N) (h : nalh) (st : pstate) (v : svc_slice) : Prop :=
  exists c, svc_active h st (svc_id v) = Some c /\
    valid_svc_slice (d0 (c_pps c)) (d1 (c_pps c)) c v.
Definition svc_enc_in (h : nalh) (st : pstate) (v : svc_slice) : list bool :=
  match svc_active h st (svc_id v) with Some c => enc_svc_slice c v | None => [] end.
(** [None] is the report that something unimplemented, i.e. dec_ref_base_pic_marking(),
    was met. *)
Definition svc_reported_in (h : nalh) (st : pstate) (v : svc_slice) : option svh :=
  match svc_active h st (svc_id v) with Some c => svh_of c v | None => None end.
Definition zero (p : pps) : N := 0.

(** C36: exactly the headers in which the inferred numbers of references are 0. *)
Theorem C36_svc_slice_header_exact : forall h st, ok_state st ->
  decodes_as (ParseSliceHeaderInScalableExtension h st) (svc_valid_in zero zero h st)
    (svc_enc_in h st) (svc_reported_in h st).
Proof.
  intros h st O. apply ok_svc_use_state in O. apply decodes_as_of.
  - apply svc_good. auto.
  - intros b r b' W H. apply svc_sound in H; auto. destruct H as (c & v & A & V & E & R).
    exists v. unfold svc_valid_in, svc_enc_in, svc_reported_in, svc_id. rewrite A.
    split; [exists c; auto|]. auto.
  - intros v (c & A & V). unfold svc_enc_in, svc_reported_in. rewrite A. apply svc_complete; auto.
Qed.
Theorem C36_never_crashes : forall h st, ok_state st ->
  never_crashes (ParseSliceHeaderInScalableExtension h st).
Proof. intros. apply never_crashes_of, svc_good, ok_svc_use_state. auto. Qed.

(** In the standard the numbers are inferred from the PPS.  The standard's headers are
    decoded if the numbers are given in the header, or 0 in the PPS, or not needed. *)
Definition counts_agree (c : ctx) (v : svc_slice) : Prop :=
  forall z, v_qz (fst v) = Some z -> svc_uses_refs (v_type (fst v)) = true ->
  num_ref_idx_active_override_flag (z_refs z) = 1 \/
  (pps_num_ref_idx_l0_default_active_minus1 (c_pps c) = 0 /\
   pps_num_ref_idx_l1_default_active_minus1 (c_pps c) = 0).
Theorem C36_standard_headers : forall h st c v b rest, ok_state st -> reachable b ->
  svc_active h st (svc_id v) = Some c ->
  valid_svc_slice (pps_num_ref_idx_l0_default_active_minus1 (c_pps c))
    (pps_num_ref_idx_l1_default_active_minus1 (c_pps c)) c v ->
  counts_agree c v -> bb_rem b = enc_svc_slice c v ++ rest ->
  exists b', ParseSliceHeaderInScalableExtension h st b = (Ok (svh_of c v), b') /\
    consumed b (enc_svc_slice c v) b'.
Proof.
  intros h st c v b rest O R A V Ca E.
  destruct (C36_svc_slice_header_exact h st O b R) as [X _].
  destruct (X v rest) as (b' & H & C & _).
  - exists c. split; [exact A|]. unfold zero. destruct V as [V1 V2]. split; [|exact V2].
    destruct V1 as (Q1 & Q2 & Q3 & Q4 & Q5 & Q6). do 5 (split; [assumption|]).
    unfold opt_ok in *. destruct (c_base_layer_quality c); [|exact Q6].
    destruct Q6 as (z & Ez & Vz). exists z. split; [auto|].
    destruct Vz as [Vr Vz]. split; [|exact Vz]. unfold valid_svc_refs in *.
    destruct Vr as [Vd Vr]. split; [exact Vd|].
    destruct (svc_uses_refs (v_type (fst v))) eqn:U; [|exact Vr].
    destruct Vr as [Vo Vr]. split; [exact Vo|]. destruct (Ca z Ez U) as [Eo|[E0 E1]].
    + rewrite Eo in *. exact Vr.
    + rewrite E0, E1 in Vr. exact Vr.
  - unfold svc_enc_in. rewrite A. exact E.
  - exists b'. unfold svc_reported_in, svc_enc_in in *. rewrite A in *. auto.
Qed.

(** Never the plain SPSs. *)
Theorem C36_plain_sps_not_used : forall h st st' b,
  st_pps st = st_pps st' -> st_subset_sps st = st_subset_sps st' ->
  ParseSliceHeaderInScalableExtension h st b = ParseSliceHeaderInScalableExtension h st' b.
Proof.
  intros h st st' b E1 E2. unfold ParseSliceHeaderInScalableExtension. rewrite E1, E2. reflexivity.
Qed.
Theorem C36_known_parameter_sets : forall h st b r b', ok_state st -> reachable b ->
  ParseSliceHeaderInScalableExtension h st b = (Ok (Some r), b') ->
  exists c, svc_active h st (pic_parameter_set_id (vh_lead r)) = Some c /\
    vh_in r = svc_inputs_of c.
Proof.
  intros h st b r b' O R H.
  destruct (C36_svc_slice_header_exact h st O b R) as (_ & X & _).
  destruct (X _ _ H) as (v & (c & A & _) & E & _). unfold svc_reported_in in E. rewrite A in E.
  exists c. unfold svh_of in E. destruct (snd v); cbn [option_map] in E; [|discriminate].
  injection E as ->. cbn [vh_lead vh_in]. auto.
Qed.
(** Unimplemented syntax is met exactly when dec_ref_base_pic_marking() comes. *)
Theorem C36_unimplemented_iff : forall h st b, ok_state st -> reachable b ->
  (exists b', ParseSliceHeaderInScalableExtension h st b = (Ok None, b')) <->
  (exists c v rest, svc_active h st (pic_parameter_set_id (v_lead v)) = Some c /\
     valid_svc1 0 0 c v /\ base_marking c v = true /\ bb_rem b = enc_svc1 c v ++ rest).
Proof.
  intros h st b O R. destruct (C36_svc_slice_header_exact h st O b R) as (X1 & X2 & _). split.
  - intros (b' & H). destruct (X2 _ _ H) as (v & (c & A & V1 & V2) & E & C).
    unfold svc_reported_in, svc_enc_in in *. rewrite A in *.
    destruct v as [v1 [v2|]]; [discriminate|]. cbn [fst snd] in *.
    exists c, v1, (bb_rem b'). split; [exact A|]. split; [exact V1|]. split.
    + unfold opt_ok in V2. destruct (base_marking c v1); [reflexivity|].
      cbn in V2. destruct V2 as (? & ? & _). discriminate.
    + destruct C as [C _]. unfold enc_svc_slice in C. cbn [fst snd enc_opt] in C.
      rewrite app_nil_r in C. exact C.
  - intros (c & v & rest & A & V & Bm & E).
    destruct (X1 (v, None) rest) as (b' & H & _).
    + exists c. split; [exact A|]. split; [exact V|]. cbn [fst snd]. rewrite Bm. reflexivity.
    + unfold svc_enc_in, svc_id. cbn [fst]. rewrite A. unfold enc_svc_slice. cbn [fst snd enc_opt].
      rewrite app_nil_r. exact E.
    + exists b'. unfold svc_reported_in, svc_id in H. cbn [fst] in H. rewrite A in H. exact H.
Qed.

(** An EB slice of an enhancement layer. *)
Definition ex_svc_pps (e l0 : N) : pps :=
  mkpps 1 5 3 e 0 0 0 [] [] 0 0 0 [] l0 0 1 1 0 0 0 1 0 0 0 0 scal0 0%Z.
Definition ex_spssvc2 : spssvc := mkspssvc 1 1 2 1 2 0 0 0 0 0 0 1 1 0.
Definition ex_subsps2 : subsps := mksubsps ex_svc_sps (Some ex_spssvc2) 0 0 0 0 0.
Definition ex_svc_state (e l0 : N) : pstate := mkst [] [(5, ex_svc_pps e l0)] [(3, ex_subsps2)].
Definition ex_nalh : nalh := mknalh 0 1 20 1 0 (Some (mksvc 0 0 0 1 0 2 0 0 1 3)).
Example ex_svc_state_ok : forall e l0, e <= 1 -> l0 <= 31 -> ok_state (ex_svc_state e l0).
Proof.
  intros e l0 Le L. assert (X : forall A (a : A) b, Some a = Some b -> a = b) by congruence.
  split; [|split]; intros id x H; unfold ex_svc_state, lookup, option_map in H;
    cbn [st_sps st_pps st_subset_sps find fst] in H.
  - discriminate.
  - destruct (5 =? id); [|discriminate]. apply X in H. cbn [snd] in H. subst x. exists None.
    unfold valid_pps, ex_svc_pps.
    assert (E : is_u 1 e) by (unfold is_u; change (2 ^ 1) with 2; lia).
    cbn [pps_chroma_format_idc pps_num_ref_idx_l0_default_active_minus1 pps_entropy_coding_mode_flag].
    repeat first [exact L | exact E | split; [first [exact L | exact E | valid_tac]|]]. all: valid_tac.
  - destruct (3 =? id); [|discriminate]. apply X in H. cbn [snd] in H. subst x. split.
    + exists []. valid_tac.
    + intros y He. cbn in He. injection He as <-. valid_tac.
Qed.
Definition ex_svc1 : svc1 :=
  mksvc1 (mklead 3 1 5) (mkpicid 0 9 0 0) 0 (mkpoc 0 0 []) 0
    (Some (mkqz (mkrefs 1 1 1 0) None (Some [AddPicNum 2]) 0
       (Some (5, 4, [mkweights (Some (3, -4)%Z) None; mkweights None None],
              [mkweights None (Some ((1, 2), (3, -4))%Z)]))
       (Some (Marking (Some [UnmarkShort 3]))) 0)).
Definition ex_svc2 : svc2 :=
  mksvc2 1 (-40) (mkdbk 6 1 2) 0 (Some (mkilayer 16 0 1 (-1) 1 1 2 (-8) 8 0 3))
    (Some (mkmodes 0 0 0 0 1 0 0 1 1)) (Some (4, 15)).
Lemma ex_svc1_valid : forall c d0 d1, svc_active ex_nalh (ex_svc_state 1 0) 5 = Some c ->
  valid_svc1 d0 d1 c ex_svc1.
Proof.
  intros c d0 d1 A. assert (X : forall A (a : A) b, Some a = Some b -> a = b) by congruence.
  unfold svc_active in A. cbn in A. apply X in A. subst c.
  unfold valid_svc1. cbn [v_lead v_pic v_idr_pic_id v_poc v_redundant_pic_cnt v_qz ex_svc1].
  do 5 (split; [valid_tac|]). eexists. split; [reflexivity|].
  unfold valid_qz. cbn [z_refs z_rpl0 z_rpl1 z_base_pred_weight_table_flag z_table z_marking
    z_store_ref_base_pic_flag].
  do 3 (split; [valid_tac|]). split; [eexists; split; [reflexivity|valid_tac]|].
  split; [eexists; split; [reflexivity|valid_tac]|]. valid_tac.
Qed.
Example C36_ex_valid : svc_valid_in zero zero ex_nalh (ex_svc_state 1 0) (ex_svc1, Some ex_svc2).
Proof.
  eexists. split; [reflexivity|]. split; [apply ex_svc1_valid; reflexivity|].
  eexists. split; [reflexivity|]. unfold valid_svc2, ex_svc2.
  cbn [v_cabac_init_idc v_slice_qp_delta v_dbk v_cycle v_ilayer v_modes v_scan].
  do 4 (split; [valid_tac|]).
  split; [eexists; split; [reflexivity|valid_tac]|].
  split; [eexists; split; [reflexivity|valid_tac]|].
  eexists. split; [reflexivity|valid_tac].
Qed.
Example C36_ex : fst (ParseSliceHeaderInScalableExtension ex_nalh (ex_svc_state 1 0)
    (fresh (rbsp (svc_enc_in ex_nalh (ex_svc_state 1 0) (ex_svc1, Some ex_svc2))))) =
  Ok (svc_reported_in ex_nalh (ex_svc_state 1 0) (ex_svc1, Some ex_svc2)) /\
  svc_reported_in ex_nalh (ex_svc_state 1 0) (ex_svc1, Some ex_svc2) <> None.
Proof. split; [vm_compute; reflexivity|discriminate]. Qed.

(** The standard's inference of the numbers of references from the PPS is not done: a header
    that relies on it, here with two weights for the two references of the PPS, is decoded
    with one weight, and what follows is misread. *)
Definition ex_inferred : svc_slice :=
  (mksvc1 (mklead 3 0 5) (mkpicid 0 9 0 0) 0 (mkpoc 0 0 []) 0
    (Some (mkqz (mkrefs 0 0 1 0) None None 0
       (Some (5, 4, [mkweights None None; mkweights None None], []))
       (Some (Marking None)) 0)),
   Some (mksvc2 0 0 (mkdbk 1 0 0) 0 (Some (mkilayer 0 1 0 0 1 1 2 (-8) 8 0 3))
    (Some (mkmodes 0 0 0 0 1 0 0 1 1)) (Some (4, 15)))).
Theorem C36_inferred_counts_refuted : exists h st c v b r b',
  ok_state st /\ reachable b /\ svc_active h st (svc_id v) = Some c /\
  valid_svc_slice (pps_num_ref_idx_l0_default_active_minus1 (c_pps c))
    (pps_num_ref_idx_l1_default_active_minus1 (c_pps c)) c v /\
  base_marking c (fst v) = false /\ (exists rest, bb_rem b = enc_svc_slice c v ++ rest) /\
  ParseSliceHeaderInScalableExtension h st b = (Ok (Some r), b') /\ Some r <> svh_of c v /\
  option_map pw_num_ref_idx_l0_active_minus1 (q_pred_weight_table (vh_qzero r)) = Some 0 /\
  pps_num_ref_idx_l0_default_active_minus1 (c_pps c) = 1.
Proof.
  exists ex_nalh, (ex_svc_state 0 1). eexists. exists ex_inferred,
    (fresh (rbsp (svc_enc_in ex_nalh (ex_svc_state 0 1) ex_inferred))). eexists. eexists.
  split; [apply ex_svc_state_ok; discriminate|].
  split; [apply fresh_reachable; [vm_compute; reflexivity|vm_compute; repeat constructor]|].
  split; [reflexivity|].
  split.
  { split.
    - unfold valid_svc1. cbn [fst v_lead v_pic v_idr_pic_id v_poc v_redundant_pic_cnt v_qz ex_inferred].
      do 5 (split; [valid_tac|]). eexists. split; [reflexivity|].
      unfold valid_qz. cbn [z_refs z_rpl0 z_rpl1 z_base_pred_weight_table_flag z_table z_marking
        z_store_ref_base_pic_flag].
      do 3 (split; [valid_tac|]). split; [eexists; split; [reflexivity|valid_tac]|].
      split; [eexists; split; [reflexivity|valid_tac]|]. valid_tac.
    - eexists. split; [reflexivity|]. unfold valid_svc2.
      cbn [v_cabac_init_idc v_slice_qp_delta v_dbk v_cycle v_ilayer v_modes v_scan].
      do 4 (split; [valid_tac|]).
      split; [eexists; split; [reflexivity|valid_tac]|].
      split; [eexists; split; [reflexivity|valid_tac]|].
      eexists. split; [reflexivity|valid_tac]. }
  split; [reflexivity|]. split; [eexists; vm_compute; reflexivity|].
  split; [vm_compute; reflexivity|]. split; [vm_compute; intro H; discriminate H|].
  split; vm_compute; reflexivity.
Qed.
(** When scan_idx_end is absent the standard infers 15; the parser reports 0. *)
Theorem C36_absent_scan_idx_end : forall c v r, svh_of c v = Some r ->
  (forall w, snd v = Some w -> v_scan w = None) -> vh_scan_idx_end r = 0.
Proof.
  intros c [v1 [v2|]] r E H; [|discriminate]. cbn in E. injection E as <-.
  cbn [vh_scan_idx_end]. rewrite (H v2 eq_refl). reflexivity.
Qed.

Print Assumptions C36_svc_slice_header_exact.
Print Assumptions C36_never_crashes.
Print Assumptions C36_standard_headers.
Print Assumptions C36_plain_sps_not_used.
Print Assumptions C36_known_parameter_sets.
Print Assumptions C36_unimplemented_iff.
Print Assumptions C36_inferred_counts_refuted.
Print Assumptions C36_absent_scan_idx_end.
