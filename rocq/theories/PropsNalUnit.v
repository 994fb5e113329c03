(** Properties C23 and C37 to C43: NAL units, bitstreams and the parser state. *)
From Coq Require Import NArith ZArith List Bool Lia ZifyBool ZifyNat ZifyN.
From Verif Require Import SpecBits Base BitBuffer SpecReader BitsLemmas BitBufferProofs
  ReaderProofs SpecRbsp Rbsp RbspProofs ChecksumProofs Parser SpecSyntax ParserProofs TypesSps TypesPps SpecSps
  SpecPps Sps Pps TypesNal NalHeader TypesExt Ext TypesSliceHeader SliceHeader TypesSvcSlice
  SvcSlice PropsSps PropsPps PropsSlice Framing SpecFraming FramingProofs FramingProofs2 FramingProofs3
  PropsFraming SpecSlice TypesNalUnit NalUnit NalUnitProofs SpecNalUnit NalUnitProofs2 NalUnitProofs3
  Rtp RtpProofs.
Import ListNotations.
Open Scope N_scope.
Ltac Zify.zify_post_hook ::= Z.div_mod_to_equations.

(** Parsing one unit given by its bytes. *)
Definition parse_unit (asserts ck : bool) (u : list N) (w : world) : res nalu * world :=
  ParseNalUnitBytes asserts ck u (size_of u) w.

(** * C23: no input crashes the parser *)
(** The entry points that take bytes and a parser state. *)
Inductive call :=
| CallNalUnit (ck : bool) (data : list N)
| CallNalUnitUnescaped (ck : bool) (data : list N)
| CallBitstream (ck : bool) (data : list N)
| CallNALULength (ck : bool) (nlb : N) (data : list N)
| CallRtp (data : list N)
| CallRtpSingle (data : list N)
| CallRtpStapA (data : list N)
| CallRtpFuA (ref : N) (data : list N)
| CallPayload (h : nalh) (data : list N)
| CallResetCount
| CallElsewhere (count : N).
Definition drop {A} (r : res A * world) : res unit * world :=
  match r with
  | (Ok _, w) => (Ok tt, w) | (Null, w) => (Null, w) | (UB k, w) => (UB k, w)
  | (Abort, w) => (Abort, w) | (NoFuel, w) => (NoFuel, w)
  end.
Definition run_call (a : bool) (c : call) (w : world) : res unit * world :=
  match c with
  | CallNalUnit ck d => drop (ParseNalUnitBytes a ck d (size_of d) w)
  | CallNalUnitUnescaped ck d => drop (ParseNalUnitUnescaped a ck d w)
  | CallBitstream ck d => drop (ParseBitstream a ck d (size_of d) w)
  | CallNALULength ck n d => drop (ParseBitstreamNALULength a ck d (size_of d) n w)
  | CallRtp d => drop (ParseRtpBytes a d (size_of d) w)
  | CallRtpSingle d => drop (unescaping a ParseRtpSingle d (size_of d) w)
  | CallRtpStapA d => drop (unescaping a ParseRtpStapA d (size_of d) w)
  | CallRtpFuA ref d => drop (unescaping a (ParseRtpFuA ref) d (size_of d) w)
  | CallPayload h d => drop (unescaping a (ParseNalUnitPayload h) d (size_of d) w)
  | CallResetCount => (Ok tt, reset_unimplemented_count w)
  (* calls with other states, or none, have brought the process-wide count here *)
  | CallElsewhere n => (Ok tt, mkw (w_st w) n)
  end.
Definition call_ok (a : bool) (c : call) : Prop :=
  match c with
  | CallNalUnit _ d | CallNalUnitUnescaped _ d | CallBitstream _ d | CallRtp d
  | CallRtpSingle d | CallRtpStapA d | CallRtpFuA _ d | CallPayload _ d => fits a d
  | CallNALULength _ n d => fits a d /\ n < 8
  | CallResetCount | CallElsewhere _ => True
  end.
(** What a program can hold after any number of calls. *)
Inductive history (a : bool) : world -> Prop :=
| hist_new : forall c, history a (mkw new_state c)
| hist_call : forall w c r w', history a w -> call_ok a c -> run_call a c w = (r, w') -> history a w'.

Lemma drop_good : forall A (r : res A * world),
  match r with (Ok _, w') | (Null, w') => ok_state (w_st w') | _ => False end ->
  (fst (drop r) = Ok tt \/ fst (drop r) = Null) /\ ok_state (w_st (snd (drop r))).
Proof. intros A [[v| |k| |] w] H; cbn; tauto. Qed.
Lemma unescaped_good : forall A a (m : M A) d w, mgood m -> fits a d -> ok_state (w_st w) ->
  match with_buffer a m d w with (Ok _, w') | (Null, w') => ok_state (w_st w') | _ => False end.
Proof.
  intros A a m d w G F O. rewrite with_buffer_eq by auto.
  specialize (G (start a d) w (start_wf _ _ F) O).
  destruct (m (start a d, w)) as [[v| |k| |] [b' w']]; tauto.
Qed.
Lemma length_parse_abort : forall a ck data i n w, 2 ^ 63 <= n ->
  ParseNalUnitBytes a ck (at_offset data i) n w = (Abort, w).
Proof.
  intros a ck data i n w N63. unfold ParseNalUnitBytes, unescaping, UnescapeRbsp.
  replace (2 ^ 63 - 1 <? n) with true by lia. reflexivity.
Qed.
Lemma length_safe : forall a ck data nlb w, fits a data -> ok_state (w_st w) ->
  (exists l w', ParseBitstreamNALULength a ck data (size_of data) nlb w = (Ok l, w') /\ ok_state (w_st w')) \/
  (8 <= nlb /\ exists w', ParseBitstreamNALULength a ck data (size_of data) nlb w = (Abort, w') /\ ok_state (w_st w')).
Proof.
  intros a ck data nlb w F O. unfold ParseBitstreamNALULength, size_of.
  pose proof F as (B & L & _).
  assert (P : forall i n s, ok_state (w_st s) -> i + n <= N.of_nat (length data) ->
    match ParseNalUnitBytes a ck (at_offset data i) n s with
    | (Ok _, s') | (Null, s') => ok_state (w_st s') | _ => False end).
  { intros i n s Os I. unfold ParseNalUnitBytes. rewrite unescaping_slice by auto.
    apply on_unit_good; auto using nalunit_mgood, slice_ok. }
  destruct (N.eq_dec nlb 0) as [->|N0].
  - left. destruct (length data) as [|k] eqn:E.
    + exists [], w. destruct data; [|discriminate]. auto.
    + rewrite <- E. rewrite nalu_length_loop_zero by lia.
      specialize (P 0 (N.of_nat (length data)) w O ltac:(lia)). cbn [visit_all].
      destruct (ParseNalUnitBytes a ck (at_offset data 0) (N.of_nat (length data)) w) as [[x| |?| |] w']; try tauto; eauto.
  - apply (length_loop_safe _ _ (fun i n => ParseNalUnitBytes a ck (at_offset data i) n)
      (fun w => ok_state (w_st w))); auto; try lia.
    intros. apply length_parse_abort. auto.
Qed.
Lemma call_safe : forall a c w, call_ok a c -> ok_state (w_st w) ->
  (fst (run_call a c w) = Ok tt \/ fst (run_call a c w) = Null) /\ ok_state (w_st (snd (run_call a c w))).
Proof.
  intros a c w C O. destruct c as [ck d|ck d|ck d|ck n d|d|d|d|ref d|h d| |n]; cbn [run_call call_ok] in *.
  - apply drop_good, on_unit_good; auto using nalunit_mgood.
  - apply drop_good, unescaped_good; auto using nalunit_mgood.
  - apply drop_good. destruct (bitstream_runs a ck d w C O) as (ix & l & w' & _ & E & O' & _).
    unfold size_of. rewrite E. auto.
  - destruct C as [C N8]. apply drop_good.
    destruct (length_safe a ck d n w C O) as [(l & w' & -> & O')|(N8' & _)]; [auto|lia].
  - apply drop_good, on_unit_safe; auto using rtp_wsafe.
  - apply drop_good, on_unit_good; auto using single_mgood.
  - apply drop_good, on_unit_good; auto using stapa_mgood.
  - apply drop_good, on_unit_good; auto using fua_mgood.
  - apply drop_good, on_unit_good; auto using payload_mgood.
  - cbn. auto.
  - cbn. auto.
Qed.
Lemma history_ok : forall a w, history a w -> ok_state (w_st w).
Proof.
  intros a w H. induction H as [c|w c r w' H IH C E]; [apply ok_new|].
  destruct (call_safe a c w C IH) as [_ O]. rewrite E in O. exact O.
Qed.
(** Whatever was parsed before, every call returns an object or nullptr. *)
Theorem C23_no_crash : forall a w c, history a w -> call_ok a c ->
  exists w', run_call a c w = (Ok tt, w') \/ run_call a c w = (Null, w').
Proof.
  intros a w c H C. destruct (call_safe a c w C (history_ok a w H)) as [R _].
  destruct (run_call a c w) as [r w']. exists w'. cbn [fst] in R. destruct R as [->| ->]; auto.
Qed.
(** The parameter sets held are always well formed ([ok_state] is defined in SpecSlice). *)
Theorem C23_state_well_formed : forall a w, history a w -> ok_state (w_st w).
Proof. exact history_ok. Qed.
(** Length fields of 8 bytes or more: the only other outcome is termination, because
    UnescapeRbsp reserves more than a vector can hold in a noexcept function. *)
Theorem C23_wide_length_fields : forall a ck w nlb data, history a w -> fits a data ->
  exists w', (exists l, ParseBitstreamNALULength a ck data (size_of data) nlb w = (Ok l, w')) \/
             (8 <= nlb /\ ParseBitstreamNALULength a ck data (size_of data) nlb w = (Abort, w')).
Proof.
  intros a ck w nlb data H F.
  destruct (length_safe a ck data nlb w F (history_ok a w H)) as [(l & w' & E & _)|(N & w' & E & _)]; eauto.
Qed.
Theorem C23_wide_length_field_abort_refuted : exists data, size_of data = 9 /\ forall a, fits a data /\
  forall ck w, fst (ParseBitstreamNALULength a ck data (size_of data) 8 w) = Abort.
Proof.
  exists [255; 255; 255; 255; 255; 255; 255; 248; 1]. split; [reflexivity|]. intros a. split.
  - split; [repeat constructor|]. split; [reflexivity|intros; reflexivity].
  - intros ck w. reflexivity.
Qed.

(** Example stream: SPS, PPS, an IDR slice, a cut slice and a second PPS. *)
Definition ex_unit (byte0 : N) (l : list bool) : list N := byte0 :: escape (octets (rbsp l)).
Definition ex_u_sps : list N := ex_unit 103 (enc_sps ex_slice_sps ex_sps_lists).
Definition ex_u_pps : list N := ex_unit 104 (enc_pps ex_slice_pps None).
Definition ex_u_slice : list N := ex_unit 37 (enc_in 1 5 ex_state ex_slice).
Definition ex_u_bad : list N := firstn 3 ex_u_slice.
Definition ex_u_pps1 : list N := ex_unit 104 (enc_pps ex_pps1 None).
Definition ex_units : list (bool * list N) :=
  [(true, ex_u_sps); (false, ex_u_pps); (false, ex_u_slice); (true, ex_u_bad); (false, ex_u_pps1); (false, [21])].
Definition ex_stream : list N := annexb ex_units.
Definition bytes_okb (l : list N) : bool := forallb (fun x => x <? 256) l.
Lemma bytes_okb_ok : forall l, bytes_okb l = true -> bytes_ok l.
Proof.
  intros l H. apply Forall_forall. intros x I. unfold bytes_okb in H. rewrite forallb_forall in H.
  specialize (H x I). lia.
Qed.
Lemma fits_small : forall a l, bytes_okb l = true -> N.of_nat (length l) < 10000 -> fits a l.
Proof. intros a l B L. split; [apply bytes_okb_ok; auto|]. split; [lia|intros; lia]. Qed.
Ltac fits_tac := apply fits_small; [vm_compute; reflexivity|vm_compute; reflexivity].
Example C23_ex_hist : exists w, history true w /\ fits true ex_stream /\
  lookup 3 (st_sps (w_st w)) = Some ex_slice_sps /\ lookup 9 (st_pps (w_st w)) = Some ex_slice_pps /\
  map fst (st_pps (w_st w)) = [9; 200].
Proof.
  assert (F : fits true ex_stream) by fits_tac.
  eexists. split; [|split; [exact F|]].
  - eapply hist_call; [apply (hist_new true 7)|exact (F : call_ok true (CallBitstream true ex_stream))|].
    vm_compute. reflexivity.
  - vm_compute. auto.
Qed.

(** * C37: the last parameter set wins *)
(** After parsing any sequence of units (kept or dropped), each lookup gives the last
    parsed parameter set of its kind with that id among the results, or else what the
    lookup gave before. *)
Theorem C37_last_wins : forall a ck us w l w', history a w ->
  Forall (fun e => fits a (snd e)) us -> runs (parse_unit a ck) us w l w' -> forall id,
  lookup id (st_sps (w_st w')) =
    or_else (last_such (fun s => seq_parameter_set_id s =? id)
               (somes (fun e => pl_sps (nu_payload (fst (fst e)))) l)) (lookup id (st_sps (w_st w))) /\
  lookup id (st_pps (w_st w')) =
    or_else (last_such (fun p => pps_pic_parameter_set_id p =? id)
               (somes (fun e => pl_pps (nu_payload (fst (fst e)))) l)) (lookup id (st_pps (w_st w))) /\
  lookup id (st_subset_sps (w_st w')) =
    or_else (last_such (fun s => seq_parameter_set_id (ss_sps s) =? id)
               (somes (fun e => pl_subset_sps (nu_payload (fst (fst e)))) l))
            (lookup id (st_subset_sps (w_st w))).
Proof.
  intros a ck us w l w' H F R id. exact (runs_lookup a ck us w l w' R F (history_ok a w H) id).
Qed.
(** Nothing is known at the start. *)
Theorem C37_empty_start : forall id, lookup id (st_sps new_state) = None /\
  lookup id (st_pps new_state) = None /\ lookup id (st_subset_sps new_state) = None.
Proof. intros id. repeat split. Qed.
(** Every sequence of units can be parsed, in exactly one way. *)
Theorem C37_total : forall a ck us w, history a w -> Forall (fun e => fits a (snd e)) us ->
  exists l w', runs (parse_unit a ck) us w l w' /\ history a w' /\
    forall l2 w2, runs (parse_unit a ck) us w l2 w2 -> l2 = l /\ w2 = w'.
Proof.
  intros a ck us w H F. destruct (units_run a ck us w F (history_ok a w H)) as (l & w' & R & _).
  exists l, w'. split; [exact R|]. split.
  - change (runs (parse_unit a ck) us w l w') in R. clear - H F R.
    induction R as [s|o u t s x s' l s'' E R IH|o u t s s' l s'' E R IH]; auto;
    inversion F as [|? ? F1 F2]; subst; apply IH; auto;
      (eapply (hist_call a s (CallNalUnit ck u)); [auto|exact F1|]);
      cbn [run_call]; unfold parse_unit in E; rewrite E; reflexivity.
  - intros l2 w2 R2. destruct (runs_det _ _ _ _ _ _ _ R R2). auto.
Qed.
Example C37_ex : exists l w', runs (parse_unit false true) (annexb_units 0 ex_units) (mkw new_state 0) l w' /\
  somes (fun e => pl_pps (nu_payload (fst (fst e)))) l = [ex_slice_pps; ex_pps1] /\
  lookup 9 (st_pps (w_st w')) = Some ex_slice_pps /\ lookup 8 (st_pps (w_st w')) = None.
Proof.
  destruct (C37_total false true (annexb_units 0 ex_units) (mkw new_state 0)) as (l & w' & R & _ & U).
  { constructor. }
  { repeat constructor; fits_tac. }
  exists l, w'. split; [exact R|]. clear U.
  inversion R as [|? ? ? ? ? ? ? ? E1 R1|? ? ? ? ? ? ? E1 R1]; subst; vm_compute in E1; try discriminate E1.
  injection E1 as <- <-.
  inversion R1 as [|? ? ? ? ? ? ? ? E2 R2|? ? ? ? ? ? ? E2 R2]; subst; vm_compute in E2; try discriminate E2.
  injection E2 as <- <-.
  inversion R2 as [|? ? ? ? ? ? ? ? E3 R3|? ? ? ? ? ? ? E3 R3]; subst; vm_compute in E3; try discriminate E3.
  injection E3 as <- <-.
  inversion R3 as [|? ? ? ? ? ? ? ? E4 R4|? ? ? ? ? ? ? E4 R4]; subst; vm_compute in E4; try discriminate E4.
  injection E4 as <- <-.
  inversion R4 as [|? ? ? ? ? ? ? ? E5 R5|? ? ? ? ? ? ? E5 R5]; subst; vm_compute in E5; try discriminate E5.
  injection E5 as <- <-.
  inversion R5 as [|? ? ? ? ? ? ? ? E6 R6|? ? ? ? ? ? ? E6 R6]; subst; vm_compute in E6; try discriminate E6.
  injection E6 as <-.
  inversion R6; subst. vm_compute. auto.
Qed.

(** * C38: only accepted parameter sets change the state *)
(** The unit was dropped, or its payload was not parsed. *)
Definition rejected (r : res nalu) : Prop :=
  r = Null \/ exists x, r = Ok x /\ IsPayloadParsed (nu_payload x) (nal_unit_type (nu_header x)) = false.
Lemma others_leave_state : forall a ck u w r w', ok_state (w_st w) -> fits a u ->
  parse_unit a ck u w = (r, w') ->
  ~ In (type_of u) [7; 8; 15] \/ rejected r -> w_st w' = w_st w.
Proof.
  intros a ck u w r w' O F E C. pose proof (unit_effect a ck u w F O) as K.
  change (unit_parser a ck u w) with (parse_unit a ck u w) in K. rewrite E in K.
  destruct r as [x| |k| |]; try tauto. destruct K as (-> & T & K7 & K8 & K15 & _).
  assert (N : pl_sps (nu_payload x) = None /\ pl_pps (nu_payload x) = None /\ pl_subset_sps (nu_payload x) = None).
  { cbn [In] in C. destruct C as [C|[C|(y & C & P)]]; [|discriminate|].
    - destruct (pl_sps (nu_payload x)), (pl_pps (nu_payload x)), (pl_subset_sps (nu_payload x));
        repeat split; exfalso; apply C;
        (now rewrite K7 by discriminate; auto) || (now rewrite K8 by discriminate; auto) ||
        (now rewrite K15 by discriminate; auto).
    - injection C as <-. unfold IsPayloadParsed in P. rewrite T in P.
      destruct (pl_sps (nu_payload x)) eqn:E1.
      { rewrite K7 in P by discriminate. discriminate P. }
      destruct (pl_pps (nu_payload x)) eqn:E2.
      { rewrite K8 in P by discriminate. discriminate P. }
      destruct (pl_subset_sps (nu_payload x)) eqn:E3.
      { rewrite K15 in P by discriminate. discriminate P. }
      auto. }
  unfold add_payload, add_opt. destruct N as (-> & -> & ->). reflexivity.
Qed.
Theorem C38_others_leave_state : forall a ck u w r w', history a w -> fits a u ->
  parse_unit a ck u w = (r, w') ->
  ~ In (type_of u) [7; 8; 15] \/ rejected r -> w_st w' = w_st w.
Proof. intros a ck u w r w' H. apply others_leave_state, (history_ok a w H). Qed.
(** An accepted set replaces the entry with its id; other ids and kinds are untouched. *)
Theorem C38_accepted_set : forall a ck u w x w', history a w -> fits a u ->
  parse_unit a ck u w = (Ok x, w') ->
  IsPayloadParsed (nu_payload x) (nal_unit_type (nu_header x)) = true ->
  (type_of u = 7 -> exists s, pl_sps (nu_payload x) = Some s /\
     st_pps (w_st w') = st_pps (w_st w) /\ st_subset_sps (w_st w') = st_subset_sps (w_st w) /\
     forall id, lookup id (st_sps (w_st w')) =
       if seq_parameter_set_id s =? id then Some s else lookup id (st_sps (w_st w))) /\
  (type_of u = 8 -> exists p, pl_pps (nu_payload x) = Some p /\
     st_sps (w_st w') = st_sps (w_st w) /\ st_subset_sps (w_st w') = st_subset_sps (w_st w) /\
     forall id, lookup id (st_pps (w_st w')) =
       if pps_pic_parameter_set_id p =? id then Some p else lookup id (st_pps (w_st w))) /\
  (type_of u = 15 -> exists s, pl_subset_sps (nu_payload x) = Some s /\
     st_sps (w_st w') = st_sps (w_st w) /\ st_pps (w_st w') = st_pps (w_st w) /\
     forall id, lookup id (st_subset_sps (w_st w')) =
       if seq_parameter_set_id (ss_sps s) =? id then Some s else lookup id (st_subset_sps (w_st w))).
Proof.
  intros a ck u w x w' H F E P. pose proof (unit_effect a ck u w F (history_ok a w H)) as K.
  change (unit_parser a ck u w) with (parse_unit a ck u w) in K. rewrite E in K.
  destruct K as (-> & T & K7 & K8 & K15 & _). unfold IsPayloadParsed in P. rewrite T in P.
  assert (N : forall A (o : option A) n, (o <> None -> type_of u = n) -> type_of u <> n -> o = None).
  { intros A [o|] n Q R; auto. exfalso. apply R, Q. discriminate. }
  assert (S : forall A (o : option A), some o = true -> exists v, o = Some v).
  { intros A [v|] Q; [eauto|discriminate]. }
  split; [|split]; intros Tu; rewrite Tu in P; cbn [N.eqb Pos.eqb orb] in P; apply S in P;
    destruct P as (s & P); exists s; split; auto; unfold add_payload, add_opt; rewrite P.
  - rewrite (N _ _ _ K8), (N _ _ _ K15) by (rewrite Tu; discriminate).
    cbn [add_sps st_sps st_pps st_subset_sps]. repeat split. intros. apply lookup_minsert.
  - rewrite (N _ _ _ K7), (N _ _ _ K15) by (rewrite Tu; discriminate).
    cbn [add_pps st_sps st_pps st_subset_sps]. repeat split. intros. apply lookup_minsert.
  - rewrite (N _ _ _ K7), (N _ _ _ K8) by (rewrite Tu; discriminate).
    cbn [add_subset_sps st_sps st_pps st_subset_sps]. repeat split. intros. apply lookup_minsert.
Qed.
Example C38_ex : fits true ex_u_sps /\ fits true (firstn 5 ex_u_sps) /\
  (exists x w', parse_unit true true ex_u_sps (mkw new_state 0) = (Ok x, w') /\
     IsPayloadParsed (nu_payload x) 7 = true /\ st_sps (w_st w') = [(3, ex_slice_sps)]) /\
  rejected (fst (parse_unit true true (firstn 5 ex_u_sps) (mkw new_state 0))).
Proof.
  split; [fits_tac|]. split; [fits_tac|]. split.
  - eexists. eexists. split; [vm_compute; reflexivity|]. vm_compute. auto.
  - right. eexists. split; [vm_compute; reflexivity|]. vm_compute. auto.
Qed.

(** * C39: a bitstream is parsed unit by unit *)
(** Any byte buffer: the units are those FindNaluIndices finds (C16, C17). *)
Theorem C39_in_order : forall a ck data w, history a w -> fits a data ->
  exists ix l w', FindNaluIndices data (size_of data) = Ok ix /\
    ParseBitstream a ck data (size_of data) w = (Ok l, w') /\
    runs (parse_unit a ck) (map (fun x => (ni_payload x, SpecFraming.slice (ni_payload x) (ni_size x) data)) ix) w l w'.
Proof.
  intros a ck data w H F. destruct (bitstream_runs a ck data w F (history_ok a w H)) as (ix & l & w' & E1 & E2 & _ & R).
  exists ix, l, w'. auto.
Qed.
(** A well-formed Annex B stream: one entry per unit with a readable header, in order, with
    its true offset and length. *)
Theorem C39_annexb : forall a ck us w, history a w -> Forall (fun u => nal_bytes (snd u)) us ->
  fits a (annexb us) ->
  exists l w', ParseBitstream a ck (annexb us) (size_of (annexb us)) w = (Ok l, w') /\
    runs (parse_unit a ck) (annexb_units 0 us) w l w'.
Proof.
  intros a ck us w H U F. destruct (bitstream_runs a ck _ w F (history_ok a w H)) as (ix & l & w' & E1 & E2 & _ & R).
  destruct (annexb_found us U) as (ix' & E3 & E4). { destruct F as (_ & L & _). lia. }
  rewrite E1 in E3. injection E3 as <-. rewrite E4 in R. exists l, w'. auto.
Qed.
(** Which units are dropped depends on the header alone; a unit with a good header is kept
    even if its payload is rejected. *)
Theorem C39_dropped : forall a ck u w r, history a w -> fits a u -> strips u r ->
  (header_read r -> exists x w', parse_unit a ck u w = (Ok x, w') /\
     nal_unit_type (nu_header x) = type_of u /\
     nal_ref_idc (nu_header x) = hd 0 u / 32 mod 4 /\ forbidden_zero_bit (nu_header x) = hd 0 u / 128) /\
  (~ header_read r -> parse_unit a ck u w =
     (Null, if (N.of_nat (length r) <? 2) then w else
            if (type_of u =? 21) || ((type_of u =? 14) || (type_of u =? 20)) && (nth 1 r 0 <? 128)
            then report w else w)).
Proof.
  intros a ck u w r H F S. pose proof S as S'. apply strips_unesc in S'. subst r.
  pose proof (type_unesc u) as T.
  assert (HD : hd 0 (unesc u) = hd 0 u).
  { revert S. generalize (unesc u). intros r S. inversion S; reflexivity. }
  destruct (unit_cases a ck u w F (history_ok a w H))
    as [(h & p & b1 & b2 & w2 & E1 & E2 & _ & _ & _ & HR & HT & E)|[(HO & HR & E)|(HO & HR & E)]];
    (split; intros C; [try contradiction|try contradiction]).
  - exists (mknalu h p (get_current_offset b2)
      (if ck then Some (checksum_of (start a (unesc u))) else None)), w2. split; [exact E|].
    pose proof (header_bytes a _ (fits_unesc _ _ F) _ _ E1) as B. cbv beta iota in B.
    cbn [nu_header]. rewrite HD in B. rewrite <- T. tauto.
  - change (parse_unit a ck u w) with (unit_parser a ck u w). rewrite E. f_equal.
    unfold header_other_ext in HO. rewrite T in HO.
    replace (N.of_nat (length (unesc u)) <? 2) with false by lia.
    destruct HO as [_ [->|[[->| ->] HO]]]; cbn [N.eqb Pos.eqb orb andb]; auto;
      replace (nth 1 (unesc u) 0 <? 128) with true by lia; reflexivity.
  - change (parse_unit a ck u w) with (unit_parser a ck u w). rewrite E. f_equal.
    unfold header_other_ext in HO. rewrite T in HO.
    destruct (N.ltb_spec (N.of_nat (length (unesc u))) 2); auto.
    destruct (N.eqb_spec (type_of u) 21); [exfalso; apply HO; split; [lia|auto]|].
    destruct (N.eqb_spec (type_of u) 14); destruct (N.eqb_spec (type_of u) 20); cbn [orb andb]; auto;
    destruct (N.ltb_spec (nth 1 (unesc u) 0) 128); auto; exfalso; apply HO; split; [lia|auto|lia|auto|lia|auto].
Qed.
(** Length-prefixed streams: the same, except that the length recorded with every unit is
    the size of the length field (C21). *)
Theorem C39_length_prefixed : forall a ck data nlb w, history a w -> fits a data -> 1 <= nlb <= 7 ->
  exists us t l w', data = framed (N.to_nat nlb) us ++ t /\ stuck (N.to_nat nlb) true t /\
    Forall (fun u => u <> []) us /\
    ParseBitstreamNALULength a ck data (size_of data) nlb w =
      (Ok (map (fun '(x, o, n) => (x, o, nlb)) l), w') /\
    runs (parse_unit a ck) (framed_units (N.to_nat nlb) 0 us) w l w'.
Proof.
  intros a ck data nlb w H F NB. pose proof F as (B & L & _).
  destruct (C20_length_prefixed_exact _ _ (fun i n => ParseNalUnitBytes a ck (at_offset data i) n) data nlb w)
    as (us & t & E & ST & NE & V & PL); auto. { unfold size_of. lia. }
  destruct (visit_runs a ck data nlb (unit_places (N.to_nat nlb) 0 us) w F (history_ok a w H)) as (l & w' & E2 & _ & R).
  { intros i n I. apply (PL i n I). }
  exists us, t, l, w'. split; [auto|]. split; [auto|]. split; [auto|]. split.
  - unfold ParseBitstreamNALULength. rewrite V. exact E2.
  - pose proof (framed_found (N.to_nat nlb) us [] t) as FF. cbn [app length] in FF. rewrite <- E in FF.
    change (N.of_nat 0) with 0 in FF. rewrite FF in R. exact R.
Qed.
Example C39_ex : fits true ex_stream /\ Forall (fun u => nal_bytes (snd u)) [(true, [103; 0; 0; 3; 1]); (false, [104])] /\
  exists l w', ParseBitstream true true ex_stream (size_of ex_stream) (mkw new_state 0) = (Ok l, w') /\
  map (fun '(x, o, n) => (nal_unit_type (nu_header x),
         IsPayloadParsed (nu_payload x) (nal_unit_type (nu_header x)), n)) l =
  [(7, true, size_of ex_u_sps); (8, true, size_of ex_u_pps); (5, true, size_of ex_u_slice);
   (5, false, 3); (8, true, size_of ex_u_pps1)] /\
  map (fun '(x, o, n) => SpecFraming.slice o n ex_stream) l = [ex_u_sps; ex_u_pps; ex_u_slice; ex_u_bad; ex_u_pps1].
Proof.
  split; [fits_tac|]. split; [apply C18_ex|]. eexists. eexists. split; [vm_compute; reflexivity|].
  vm_compute. auto.
Qed.

Print Assumptions C23_no_crash.
Print Assumptions C23_state_well_formed.
Print Assumptions C23_wide_length_fields.
Print Assumptions C23_wide_length_field_abort_refuted.
Print Assumptions C37_last_wins.
Print Assumptions C37_empty_start.
Print Assumptions C37_total.
Print Assumptions C38_others_leave_state.
Print Assumptions C38_accepted_set.
Print Assumptions C39_in_order.
Print Assumptions C39_annexb.
Print Assumptions C39_dropped.
Print Assumptions C39_length_prefixed.
