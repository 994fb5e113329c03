(** Properties C34 (slice headers) and C35 (the parameter sets they refer to). *)
From Coq Require Import NArith ZArith List Bool Lia ZifyBool ZifyNat ZifyN.
From Verif Require Import SpecBits SpecRbsp Base BitBuffer SpecReader BitsLemmas BitBufferProofs ReaderProofs
  Parser SpecSyntax ParserProofs TypesSps TypesPps SpecVui VuiProofs SpecScaling SpecSps SpecPps
  TypesExt TypesSlice SliceParts SpecSliceParts SlicePartsProofs TypesSliceHeader SliceHeader
  SpecSlice SliceProofs PropsSps PropsPps.
Import ListNotations.
Open Scope N_scope.
Ltac Zify.zify_post_hook ::= Z.div_mod_to_equations.

(** The slice headers valid in a parser state, their bits, and what is reported. *)
Definition valid_in (ref nut : N) (st : pstate) (v : slice) : Prop :=
  exists s p, active st (pic_parameter_set_id (s_lead v)) = Some (s, p) /\ valid_slice ref nut s p v.
Definition enc_in (ref nut : N) (st : pstate) (v : slice) : list bool :=
  match active st (pic_parameter_set_id (s_lead v)) with
  | Some (s, p) => enc_slice ref nut s p v
  | None => []
  end.
Definition reported_in (ref nut : N) (st : pstate) (v : slice) : option slh :=
  match active st (pic_parameter_set_id (s_lead v)) with
  | Some (s, p) => Some (slh_of ref nut s p v)
  | None => None
  end.

(** C34: for every state holding parameter sets a parser can have returned, and every unit
    type but 20 and 21. *)
Theorem C34_slice_header_exact : forall ref nut st, ok_state st -> nut <> 20 -> nut <> 21 ->
  decodes_as (ParseSliceHeader ref nut st) (valid_in ref nut st) (enc_in ref nut st)
    (reported_in ref nut st).
Proof.
  intros ref nut st O N1 N2. apply ok_use_state in O.
  assert (Nu : (nut =? 20) || (nut =? 21) = false) by lia.
  apply decodes_as_of.
  - apply ParseSliceHeader_good. auto.
  - intros b t b' W H. destruct t as [h|].
    + apply slice_sound in H; auto. destruct H as (_ & s & p & v & A & V & E & R).
      exists v. unfold valid_in, reported_in, enc_in. rewrite A. split; [eauto|]. split; [congruence|auto].
    + exfalso. unfold ParseSliceHeader in H. rewrite Nu in H.
      bsteps H. apply sret_inv in H. destruct H. discriminate.
  - intros v (s & p & A & V). unfold reported_in, enc_in. rewrite A. apply slice_complete; auto.
Qed.
Theorem C34_never_crashes : forall ref nut st, ok_state st ->
  never_crashes (ParseSliceHeader ref nut st).
Proof.
  intros ref nut st O. apply never_crashes_of. apply ParseSliceHeader_good, ok_use_state, O.
Qed.
(** Types 20 and 21 (their own list modification syntax is not implemented): never a header,
    at most the report that something unimplemented was met. *)
Theorem C34_extension_types_unimplemented : forall ref nut st b r b', nut = 20 \/ nut = 21 ->
  ParseSliceHeader ref nut st b = (Ok r, b') -> r = None.
Proof.
  intros ref nut st b r b' Nu H. unfold ParseSliceHeader in H.
  replace ((nut =? 20) || (nut =? 21)) with true in H by lia.
  bsteps H. apply sret_inv in H. tauto.
Qed.

(** C35: for any state whatsoever. *)
Theorem C35_known_parameter_sets : forall ref nut st b h b',
  ParseSliceHeader ref nut st b = (Ok (Some h), b') ->
  exists s p, lookup (pic_parameter_set_id (sh_lead h)) (st_pps st) = Some p /\
    lookup (pps_seq_parameter_set_id p) (st_sps st) = Some s /\
    sh_in h = inputs_of ref nut s p.
Proof.
  intros ref nut st b h b' H. unfold ParseSliceHeader in H.
  bstep H ld b1 H1. bstep H p b2 H2. apply found_inv in H2. destruct H2 as [Fp ->].
  bstep H s b2 H2. apply found_inv in H2. destruct H2 as [Fs ->].
  rewrite mfind_lookup in Fp, Fs. exists s, p.
  bstep H pic b2 H2. bstep H idr b3 H3. bstep H po b4 H4. bstep H red b5 H5. bstep H rf b6 H6.
  destruct ((nut =? 20) || (nut =? 21)); [apply sret_inv in H; destruct H; discriminate|].
  bstep H h' b7 H7. apply sret_inv in H. destruct H as [E ->]. injection E as ->.
  unfold slice_rest in H7. cbv zeta in H7. bsteps H7.
  apply sret_inv in H7. destruct H7 as [-> ->]. cbn [sh_lead sh_in].
  split; [auto|]. split; [auto|]. apply inputs_eq.
Qed.
(** A slice naming a PPS that is not there, or whose SPS is not there, is not parsed. *)
Theorem C35_unknown_rejected : forall ref nut st b ld b1, 
  slice_lead b = (Ok ld, b1) -> active st (pic_parameter_set_id ld) = None ->
  ParseSliceHeader ref nut st b = (Null, b1).
Proof.
  intros ref nut st b ld b1 H A. unfold ParseSliceHeader. unfold sbind at 1. rewrite H.
  unfold active in A. rewrite mfind_lookup.
  destruct (lookup (pic_parameter_set_id ld) (st_pps st)) as [p|]; [|reflexivity].
  unfold found at 1, sbind at 1, sret at 1. rewrite mfind_lookup.
  destruct (lookup (pps_seq_parameter_set_id p) (st_sps st)) as [s|]; [discriminate|reflexivity].
Qed.

(** A B slice of an IDR reference picture, against [ex_slice_sps]: all the conditional parts but
    the SP/SI one are present. *)
Definition ex_slice_sps : sps :=
  mksps 100 0 1 0 0 0 1 0 31 3 3 1 2 1 0 1
    (mkscal [1;0;0;0;0;0;1;0;0;0;0;0] (9 :: repeat 11 15) [1] (repeat 8 64) [] (-8))
    4 1 0 0 (-3) 5 2 [7; -9]%Z 4 1 119 33 0 1 1 1 0 4 1 3 1 (Some ex_vui) CONSTRAINED_HIGH.
Example ex_slice_sps_valid : valid_sps ex_slice_sps ex_sps_lists.
Proof. valid_tac. Qed.
Definition ex_slice_pps : pps :=
  mkpps 1 9 3 1 1 1 4 [] [] 1 98 0 [] 0 0 0 1 0 0 12 1 1 1 0 0 scal0 0%Z.
Example ex_slice_pps_valid : valid_pps 1 ex_slice_pps None.
Proof. valid_tac. Qed.
Definition ex_state : pstate := mkst [(0, ex_slice_sps); (3, ex_slice_sps)] [(200, ex_pps1); (9, ex_slice_pps)] [].
Example ex_state_ok : ok_state ex_state.
Proof.
  assert (X : forall A (a : A) b, Some a = Some b -> a = b) by congruence.
  split; [|split]; intros id x H; unfold ex_state, lookup, option_map in H;
    cbn [st_sps st_pps st_subset_sps find fst] in H.
  - assert (ex_slice_sps = x) as <-.
    { destruct (0 =? id); [apply X in H; exact H|]. destruct (3 =? id); [apply X in H; exact H|discriminate]. }
    exists ex_sps_lists. apply ex_slice_sps_valid.
  - destruct (200 =? id); [apply X in H; cbn in H; subst x; exists None; apply C29_ex1_valid|].
    destruct (9 =? id); [apply X in H; cbn in H; subst x; exists None; apply ex_slice_pps_valid|discriminate].
  - discriminate.
Qed.
Definition ex_slice : slice :=
  mkslice (mklead 17 6 9) (mkpicid 2 201 0 0) 77 (mkpoc 0 0 [-5; 3]%Z) 4 (mkrefs 1 1 1 0)
    (Some [SubPicNum 3]) None
    (Some (5, 0, [mkweights (Some (3, -4)%Z) None; mkweights None None],
           [mkweights (Some (1, 1)%Z) None]))
    (Some (IdrMarking 1 0)) 2 (-13) (mkspqs 0 0) (mkdbk 2 (-6) 5) 41.
Example C34_ex_valid : valid_in 1 5 ex_state ex_slice.
Proof.
  exists ex_slice_sps, ex_slice_pps. split; [reflexivity|].
  unfold valid_slice, s_type. cbn [s_lead s_pic s_idr_pic_id s_poc s_redundant_pic_cnt s_refs
      s_rpl0 s_rpl1 s_table s_marking s_cabac_init_idc s_slice_qp_delta s_spqs s_dbk s_cycle ex_slice].
  split; [valid_tac|]. split; [valid_tac|]. split; [valid_tac|]. split; [valid_tac|].
  split; [valid_tac|]. split; [valid_tac|]. split; [valid_tac|].
  split; [eexists; split; [reflexivity|valid_tac]|].
  split; [eexists; split; [reflexivity|valid_tac]|].
  valid_tac.
Qed.
Example C34_ex : length (enc_in 1 5 ex_state ex_slice) = 144%nat /\
  fst (ParseSliceHeader 1 5 ex_state (fresh (rbsp (enc_in 1 5 ex_state ex_slice)))) =
  Ok (reported_in 1 5 ex_state ex_slice) /\
  fst (ParseSliceHeader 1 20 ex_state (fresh (rbsp (enc_in 1 5 ex_state ex_slice)))) = Ok None.
Proof. vm_compute. auto. Qed.
Example C35_ex : (* PPS 200 is there but its SPS 31 is not; PPS 7 is not there *)
  fst (ParseSliceHeader 1 5 ex_state (fresh (enc_lead (mklead 0 7 200) ++ repeat true 64))) = Null /\
  fst (ParseSliceHeader 1 5 ex_state (fresh (enc_lead (mklead 0 7 7) ++ repeat true 64))) = Null /\
  exists h, fst (ParseSliceHeader 1 5 ex_state
    (fresh (rbsp (enc_in 1 5 ex_state ex_slice)))) = Ok (Some h) /\
  in_slice_group_change_rate_minus1 (sh_in h) = 98.
Proof. split; [|split; [|eexists; split]]; vm_compute; reflexivity. Qed.

Print Assumptions C34_slice_header_exact.
Print Assumptions C34_never_crashes.
Print Assumptions C34_extension_types_unimplemented.
Print Assumptions C35_known_parameter_sets.
Print Assumptions C35_unknown_rejected.
