(** Properties C64 and C66: streams with their options, and the store of parameter sets. *)
From Coq Require Import NArith ZArith List Bool Lia ZifyBool ZifyNat ZifyN String.
From Verif Require Import SpecBits Base BitBuffer SpecReader Rbsp SpecRbsp Parser ParserProofs
  TypesSps Sps SpecSps TypesPps Pps SpecPps TypesNal NalHeader TypesExt Ext SpecExt
  TypesSliceHeader SliceHeader SpecSlice SliceProofs TypesSvcSlice SvcSlice TypesNalUnit NalUnit NalUnitProofs
  SpecNalUnit NalUnitProofs2 NalUnitProofs3 Framing SpecFraming FramingProofs PropsFraming PropsNalUnit PropsNalUnit2
  Dump SpecDump DumpProofs DumpProofs2 DumpProofs3 DumpProofs6 PropsDump PropsReuse Overloads SpecState StateProofs.
Import ListNotations.
Open Scope N_scope.
Ltac Zify.zify_post_hook ::= Z.div_mod_to_equations.

Definition form_ok (f : form) : Prop := match f with StartCodes => True | Lengths n => n < 8 end.
Definition parse_stream (a : bool) (f : form) (o : popts) (data : list N) (w : world) : res bitstream * world :=
  ParseStream a f o data (size_of data) w.
Definition parse_stream_own (a : bool) (f : form) (o : popts) (data : list N) (w : world) : res bitstream * world :=
  ParseStreamOwn a f o data (size_of data) w.
(** The text of a stream: each unit dumped with the options [o], and a line end. *)
Definition stream_text (level : Z) (o : popts) (us : list (nalu * N * N)) (s : string) : Prop :=
  exists ts, Forall2 (fun e t => fdump_unit level o (snd (fst e)) (snd e) (fst (fst e)) = Ok t) us ts /\
    s = String.concat "" (map (fun t => t ++ String newline EmptyString)%string ts).

Lemma tagged_each : forall (Q : nalu -> Prop) n l, Forall (fun e : nalu * N * N => Q (fst (fst e))) l ->
  Forall (fun e => Q (fst (fst e))) (tagged n l).
Proof. intros Q n l H. induction H as [|[[x o] k] l X _ IH]; cbn [tagged map]; constructor; auto. Qed.
Lemma stream_units : forall a f o data w, fits a data -> form_ok f -> ok_state (w_st w) ->
  exists us w', ParseStream a f o data (size_of data) w = (Ok (mkbs us default_options), w') /\
    Forall (fun e => exists st, good_unit st (add_checksum o) (fst (fst e)) /\
      shape (nu_header (fst (fst e))) (nu_payload (fst (fst e)))) us.
Proof.
  intros a f o data w F K O. unfold ParseStream. destruct f as [|n]; cbn [form_ok] in K.
  - destruct (annexb_form a (add_checksum o) data F) as (us & FF & H). destruct (H w O) as (l & w' & -> & R).
    exists l, w'. split; [reflexivity|]. exact (runs_each a _ us w l w' R FF O).
  - destruct (prefixed_form a (add_checksum o) n data F K) as (us & FF & H). destruct (H w O) as (l & w' & -> & R).
    exists (tagged n l), w'. split; [reflexivity|].
    apply (tagged_each (fun x => exists st, good_unit st (add_checksum o) x /\ shape (nu_header x) (nu_payload x))).
    exact (runs_each a _ us w l w' R FF O).
Qed.

(** * C64 *)
(** Without a state of the caller's: the units are those found from an empty state, the options
    are the ones given, and nothing is remembered. *)
Theorem C64_own : forall a f o data w, fits a data -> form_ok f ->
  exists us w1 n, parse_stream a f o data (mkw new_state (w_unimplemented w)) = (Ok (mkbs us default_options), w1) /\
    parse_stream_own a f o data w = (Ok (mkbs us o), mkw (w_st w) n) /\ n = w_unimplemented w1.
Proof.
  intros a f o data w F K.
  destruct (stream_units a f o data (mkw new_state (w_unimplemented w)) F K (history_ok a _ (hist_new a _))) as (us & w1 & E & _).
  exists us, w1, (w_unimplemented w1). unfold parse_stream, parse_stream_own, ParseStreamOwn. rewrite E. auto.
Qed.
(** Such a stream can always be dumped, with the options it was parsed with, whatever options are
    given to the dump. *)
Theorem C64_own_dump : forall a f o data w s w' level o', fits a data -> form_ok f ->
  parse_stream_own a f o data w = (Ok s, w') ->
  exists t, fdump_stream level o' s = Ok t /\ stream_text level o (bs_units s) t.
Proof.
  intros a f o data w s w' level o' F K E.
  destruct (stream_units a f o data (mkw new_state (w_unimplemented w)) F K (history_ok a _ (hist_new a _))) as (us & w1 & E1 & G).
  unfold parse_stream_own, ParseStreamOwn in E. rewrite E1 in E. cbn [rbind] in E. injection E as <- _.
  unfold fdump_stream. cbn [bs_options bs_units].
  destruct (stream_dumps level o (add_checksum o) us) as (ts & T & D); [intros X; exact X|exact G|].
  eexists. split; [exact D|]. exists ts. auto.
Qed.
(** With a state of the caller's: every unit is dumped with the default options, not with those
    it was parsed with or those given to the dump ... *)
Theorem C64_state_dump : forall a f o data w s w' level o', history a w -> fits a data -> form_ok f ->
  parse_stream a f o data w = (Ok s, w') -> add_checksum o = true ->
  exists t, fdump_stream level o' s = Ok t /\ stream_text level default_options (bs_units s) t.
Proof.
  intros a f o data w s w' level o' H F K E C.
  destruct (stream_units a f o data w F K (history_ok a w H)) as (us & w1 & E1 & G).
  unfold parse_stream in E. rewrite E1 in E. injection E as <- _.
  unfold fdump_stream. cbn [bs_options bs_units].
  destruct (stream_dumps level default_options (add_checksum o) us) as (ts & T & D); [intros X; exact C|exact G|].
  eexists. split; [exact D|]. exists ts. auto.
Qed.
(** ... so that a stream with at least one unit, parsed without checksums, cannot be dumped: a
    null pointer is dereferenced. *)
Theorem C64_state_dump_refuted : forall a f o data w s w' level o', history a w -> fits a data -> form_ok f ->
  parse_stream a f o data w = (Ok s, w') -> add_checksum o = false -> bs_units s <> [] ->
  fdump_stream level o' s = UB NullDeref.
Proof.
  intros a f o data w s w' level o' H F K E C NE.
  destruct (stream_units a f o data w F K (history_ok a w H)) as (us & w1 & E1 & G).
  unfold parse_stream in E. rewrite E1 in E. injection E as <- _.
  unfold fdump_stream. cbn [bs_options bs_units] in *. destruct us as [|[[x off] len] us]; [congruence|].
  inversion G as [|? ? (st & [_ _ X] & _) _]; subst. cbn [fst] in X. rewrite C in X.
  cbn [fdump_bitstream]. unfold dump_nalu, block, default_options.
  cbn [add_offset add_length add_parsed_length add_checksum render Dump.when deref]. rewrite X. reflexivity.
Qed.
(** Both ways of parsing the same stream, without offsets asked for: the same units, other texts. *)
Definition with_stream (r : res bitstream * world) (Q : bitstream -> world -> Prop) : Prop :=
  match r with (Ok s, w) => Q s w | _ => False end.
Definition other_text (r r' : res string) : Prop :=
  match r, r' with Ok t, Ok t' => String.eqb t t' = false | _, _ => False end.
Theorem C64_options_refuted : exists a f o data, fits a data /\ form_ok f /\ add_checksum o = true /\
  with_stream (parse_stream a f o data (mkw new_state 0)) (fun s _ =>
  with_stream (parse_stream_own a f o data (mkw new_state 0)) (fun s' _ =>
    bs_units s = bs_units s' /\ other_text (fdump_stream 0 o s) (fdump_stream 0 o s'))).
Proof.
  exists true, StartCodes, (mkpo false true true true true), ex_stream.
  split; [fits_tac|]. split; [exact I|]. split; [reflexivity|].
  vm_compute. split; reflexivity.
Qed.

(** * C66 *)
(** What a parser state holds after any number of calls: under every identifier at most one
    parameter set, which carries that identifier, and there is an upper limit for it. *)
Theorem C66_table : forall a w, history a w ->
  table seq_parameter_set_id 31 (st_sps (w_st w)) /\
  table pps_pic_parameter_set_id 255 (st_pps (w_st w)) /\
  table (fun v => seq_parameter_set_id (ss_sps v)) 31 (st_subset_sps (w_st w)).
Proof.
  intros a w H.
  pose proof (history_keep (fun st => keyed seq_parameter_set_id (st_sps st) /\ keyed pps_pic_parameter_set_id (st_pps st) /\
    keyed (fun v => seq_parameter_set_id (ss_sps v)) (st_subset_sps st))) as K.
  destruct (fun X Y Z N => K X Y Z a w N H) as (K1 & K2 & K3).
  - intros s st (I1 & I2 & I3). split; [|auto]. apply keyed_minsert. exact I1.
  - intros p st (I1 & I2 & I3). split; [auto|]. split; [|auto]. apply keyed_minsert. exact I2.
  - intros v st (I1 & I2 & I3). split; [auto|]. split; [auto|].
    exact (keyed_minsert _ (fun v => seq_parameter_set_id (ss_sps v)) v _ I3).
  - split; [apply keyed_nil|]. split; apply keyed_nil.
  - clear K. destruct (history_ok a w H) as (O1 & O2 & O3). split; [|split].
    + split; [apply K1|]. intros k x I. pose proof (proj2 K1 k x I) as E. split; [exact E|].
      apply (keyed_lookup _ _ _ _ _ K1) in I. apply O1 in I. destruct I as [ls V]. rewrite <- E.
      unfold valid_sps in V. tauto.
    + split; [apply K2|]. intros k x I. pose proof (proj2 K2 k x I) as E. split; [exact E|].
      apply (keyed_lookup _ _ _ _ _ K2) in I. apply O2 in I. destruct I as [ls V]. rewrite <- E.
      unfold valid_pps in V. tauto.
    + split; [apply K3|]. intros k x I. pose proof (proj2 K3 k x I) as E. split; [exact E|].
      apply (keyed_lookup _ _ _ _ _ K3) in I. apply O3 in I. destruct I as [[ls V] _]. rewrite <- E.
      unfold valid_sps in V. tauto.
Qed.
(** So the memory for it does not grow with the input. *)
Theorem C66_bounded : forall a w, history a w ->
  (List.length (st_sps (w_st w)) <= 32)%nat /\ (List.length (st_pps (w_st w)) <= 256)%nat /\
  (List.length (st_subset_sps (w_st w)) <= 32)%nat.
Proof.
  intros a w H. destruct (C66_table a w H) as ((N1 & T1) & (N2 & T2) & (N3 & T3)).
  split; [|split]; rewrite <- (map_length fst).
  - apply (below_length _ 32 N1). intros k I. apply in_map_iff in I. destruct I as ([j x] & <- & I). specialize (T1 j x I). cbn [fst]. lia.
  - apply (below_length _ 256 N2). intros k I. apply in_map_iff in I. destruct I as ([j x] & <- & I). specialize (T2 j x I). cbn [fst]. lia.
  - apply (below_length _ 32 N3). intros k I. apply in_map_iff in I. destruct I as ([j x] & <- & I). specialize (T3 j x I). cbn [fst]. lia.
Qed.

(** The accessors find exactly what is held. *)
Theorem C66_get : forall a w id, history a w ->
  (forall s, GetSps (w_st w) id = Some s <-> (exists k, In (k, s) (st_sps (w_st w))) /\ seq_parameter_set_id s = id) /\
  (forall p, GetPps (w_st w) id = Some p <-> (exists k, In (k, p) (st_pps (w_st w))) /\ pps_pic_parameter_set_id p = id) /\
  (forall v, GetSubsetSps (w_st w) id = Some v <->
    (exists k, In (k, v) (st_subset_sps (w_st w))) /\ seq_parameter_set_id (ss_sps v) = id).
Proof.
  intros a w id H. destruct (C66_table a w H) as ((N1 & T1) & (N2 & T2) & (N3 & T3)).
  assert (G : forall A (f : A -> N) l x, NoDup (map fst l) -> (forall k y, In (k, y) l -> f y = k) ->
    (mfind id l = Some x <-> (exists k, In (k, x) l) /\ f x = id)).
  { intros A f l x N T. rewrite mfind_lookup. rewrite <- (keyed_lookup _ f l id x (conj N T)). split.
    - intros I. split; [eexists; exact I|]. exact (T _ _ I).
    - intros [[k I] E]. rewrite <- E. rewrite (T _ _ I). exact I. }
  split; [|split]; intros x.
  - apply (G _ seq_parameter_set_id); [exact N1|]. intros k y I. exact (proj1 (T1 k y I)).
  - apply (G _ pps_pic_parameter_set_id); [exact N2|]. intros k y I. exact (proj1 (T2 k y I)).
  - apply (G _ (fun v => seq_parameter_set_id (ss_sps v))); [exact N3|]. intros k y I. exact (proj1 (T3 k y I)).
Qed.

(** A stream of several units, parsed without a state and with one, in which a unit is refused. *)
Definition o_some : popts := mkpo false true false true false.
Definition o_none : popts := mkpo false false false false false.
Example C64_ex : fits true ex_stream /\
  with_stream (parse_stream_own true StartCodes o_some ex_stream (mkw new_state 5)) (fun s w =>
    (3 <= List.length (bs_units s))%nat /\ bs_options s = o_some /\ st_sps (w_st w) = []) /\
  with_stream (parse_stream true StartCodes o_some ex_stream (mkw new_state 5)) (fun s w =>
    (3 <= List.length (bs_units s))%nat /\ bs_options s = default_options /\ st_sps (w_st w) <> []) /\
  with_stream (parse_stream true StartCodes o_none ex_stream (mkw new_state 5)) (fun s w =>
    bs_units s <> [] /\ fdump_stream 0 o_none s = UB NullDeref).
Proof.
  split; [fits_tac|]. split; [|split]; vm_compute.
  - split; [lia|]. split; reflexivity.
  - split; [lia|]. split; [reflexivity|discriminate].
  - split; [discriminate|reflexivity].
Qed.
(** The state after these units; an identifier which is held and one which is not. *)
Definition w_stream : world := snd (ParseBitstream true true ex_stream (size_of ex_stream) (mkw new_state 0)).
Example C66_ex : history true w_stream /\ map fst (st_pps (w_st w_stream)) = [9; 200] /\
  GetPps (w_st w_stream) 9 <> None /\ GetPps (w_st w_stream) 8 = None.
Proof.
  split; [|vm_compute; split; [reflexivity|split; [discriminate|reflexivity]]].
  assert (F : fits true ex_stream) by fits_tac.
  eapply hist_call; [apply (hist_new true 0)|exact (F : call_ok true (CallBitstream true ex_stream))|].
  unfold w_stream. vm_compute. reflexivity.
Qed.

Print Assumptions C64_own.
Print Assumptions C64_own_dump.
Print Assumptions C64_state_dump.
Print Assumptions C64_state_dump_refuted.
Print Assumptions C64_options_refuted.
Print Assumptions C66_table.
Print Assumptions C66_bounded.
Print Assumptions C66_get.
