(** Properties C51 and C52: whole NAL units, and whole streams, are read back. *)
From Coq Require Import NArith ZArith List Bool Lia ZifyBool ZifyNat ZifyN.
From Verif Require Import SpecBits Base BitBuffer SpecReader BitsLemmas BitBufferProofs
  ReaderProofs Rbsp SpecRbsp RbspProofs ChecksumProofs Parser SpecSyntax ParserProofs SpecVui SpecScaling SpecFraming
  Framing FramingProofs FramingProofs2 FramingProofs3 PropsFraming
  TypesSps Sps SpecSps SpsProofs TypesPps Pps SpecPps PpsProofs PropsSps PropsPps
  TypesNal NalHeader SpecNalHeader NalHeaderProofs TypesExt Ext SpecExt ExtProofs PropsExt
  TypesSlice TypesSliceHeader SliceHeader SpecSlice SliceProofs PropsSlice
  TypesSvcSlice SvcSlice SpecSvcSlice SvcSliceProofs PropsSvcSlice
  TypesNalUnit NalUnit NalUnitProofs SpecNalUnit NalUnitProofs2 NalUnitProofs3 PropsNalUnit PropsNalUnit2 CodecProofs SpecMux MuxProofs.
Import ListNotations.
Open Scope N_scope.
Ltac Zify.zify_post_hook ::= Z.div_mod_to_equations.

(** * C51: a unit *)
(** Whatever was parsed before: the header and the content come back, the parameter set is
    remembered, and nothing is reported as unimplemented. *)
Theorem C51_unit_round_trip : forall a ck w h l p, history a w -> header_std h ->
  coded (w_st w) h l p -> fits a (nal_unit h l) ->
  exists x w', parse_unit a ck (nal_unit h l) w = (Ok x, w') /\
    nu_header x = h /\ nu_payload x = p /\
    next_sets (w_st w) p (w_st w') /\ w_unimplemented w' = w_unimplemented w /\
    IsPayloadParsed p (nal_unit_type h) = true.
Proof.
  intros a ck w h l p H S C F.
  destruct (unit_coded a ck w h l p S (history_ok a w H) C F) as (x & E & Hh & Hp & _).
  exists x. eexists. split; [exact E|]. split; [exact Hh|]. split; [exact Hp|].
  split; [eapply after_next; eauto|]. split; [reflexivity|].
  destruct C as [s ls T V G|s ext T V G|v ls ds T V Vf G|v y data T V X|e v ds T Ne V Z|v y data T V X|l T Bl Ll];
    unfold IsPayloadParsed; rewrite ?T; try reflexivity.
  - destruct T as [T|T]; rewrite T; reflexivity.
  - assert (T2 : forall n, In n [1; 5; 7; 8; 14; 15; 20; 21] -> nal_unit_type h =? n = false).
    { intros n I. apply N.eqb_neq. intros <-. auto. }
    rewrite !T2 by (cbn; tauto). reflexivity.
Qed.
(** A parameter set is read to its last byte: parsed_length is its size without emulation
    prevention. *)
Theorem C51_sets_read_completely : forall a ck w h l p x w', history a w -> header_std h ->
  coded (w_st w) h l p -> fits a (nal_unit h l) -> In (nal_unit_type h) [7; 8; 15] ->
  parse_unit a ck (nal_unit h l) w = (Ok x, w') ->
  nu_parsed_length x = N.of_nat (length (enc_nalh h)) / 8 + size_of l.
Proof.
  intros a ck w h l p x w' H S C F T E.
  destruct (unit_coded a ck w h l p S (history_ok a w H) C F) as (y & E' & _ & _ & _ & L).
  change (parse_unit a ck (nal_unit h l) w) with (unit_parser a ck (nal_unit h l) w) in E.
  rewrite E' in E. injection E as <- _. rewrite L.
  - rewrite app_length, octets_length. unfold size_of. lia.
  - cbn [In] in T. destruct C; try reflexivity; cbn [In] in *; try lia.
Qed.
(** Escaping is right: the unit has no start code inside and does not end in 0, so that it
    can be put into an Annex B stream. *)
Theorem C51_unit_bytes : forall st h l p, header_std h -> coded st h l p -> nal_bytes (nal_unit h l).
Proof. intros st h l p S C. apply unit_nal_bytes; auto. intros a. eapply coded_last; eauto. Qed.

(** * C52: a stream *)
Theorem C52_annexb_round_trip : forall a ck w us r, history a w ->
  coded_stream (w_st w) (map snd us) r -> fits a (annexb us) ->
  exists l w', ParseBitstream a ck (annexb us) (size_of (annexb us)) w = (Ok l, w') /\
    map (fun x => (nu_header x, nu_payload x)) (units_of l) = r /\
    map (fun '(x, o, n) => (o, n)) l = map (fun '(o, u) => (o, size_of u)) (annexb_units 0 us) /\
    w_unimplemented w' = w_unimplemented w.
Proof.
  intros a ck w us r H C F.
  assert (NB : Forall (fun u => nal_bytes (snd u)) us).
  { apply stream_nal_bytes in C. rewrite Forall_map in C. exact C. }
  destruct (C39_annexb a ck us w H NB F) as (l & w' & E & R).
  destruct (stream_coded a ck _ _ _ C w (annexb_units 0 us)) as (l2 & w2 & R2 & E1 & E2 & E3).
  - intros id. auto.
  - apply (history_ok a w H).
  - apply annexb_units_snd.
  - apply annexb_units_fit; auto.
  - destruct (runs_det _ _ _ _ _ _ _ R R2) as [<- <-]. exists l, w'. split; [exact E|].
    unfold units_of. rewrite map_map. auto.
Qed.
(** With length fields of 1 to 7 bytes. *)
Theorem C52_length_prefixed_round_trip : forall a ck w nlb us r, history a w -> 1 <= nlb <= 7 ->
  coded_stream (w_st w) us r -> Forall (fun u => size_of u < 2 ^ (8 * nlb)) us ->
  fits a (framed (N.to_nat nlb) us) ->
  exists l w', ParseBitstreamNALULength a ck (framed (N.to_nat nlb) us)
      (size_of (framed (N.to_nat nlb) us)) nlb w = (Ok l, w') /\
    map (fun x => (nu_header x, nu_payload x)) (units_of l) = r /\
    map (fun '(x, o, n) => o) l = map fst (framed_units (N.to_nat nlb) 0 us) /\
    w_unimplemented w' = w_unimplemented w.
Proof.
  intros a ck w nlb us r H NB C SZ F.
  set (data := framed (N.to_nat nlb) us) in *. pose proof F as (B & L & D).
  assert (NE : Forall (fun u => u <> []) us).
  { apply stream_nal_bytes in C. eapply Forall_impl; [|exact C]. intros u (N & _). exact N. }
  assert (V := C21_units_visited _ _ (fun i n => ParseNalUnitBytes a ck (at_offset data i) n) us nlb w ltac:(lia)).
  fold data in V. unfold size_of in V at 1. specialize (V ltac:(lia)).
  assert (SZ' : Forall (fun u => u <> [] /\ size_of u < 2 ^ (8 * nlb)) us).
  { apply Forall_forall. intros u I. rewrite Forall_forall in NE, SZ. auto. }
  specialize (V SZ').
  assert (PL : forall i n, In (i, n) (unit_places (N.to_nat nlb) 0 us) -> i + n <= N.of_nat (length data)).
  { intros i n I. assert (G : forall us o, In (i, n) (unit_places (N.to_nat nlb) o us) ->
      i + n <= o + N.of_nat (length (framed (N.to_nat nlb) us))).
    { clear. induction us as [|u us IH]; intros o I; cbn [unit_places] in I; [contradiction|].
      unfold framed. cbn [flat_map]. rewrite !app_length. fold (framed (N.to_nat nlb) us).
      rewrite be_bytes_length. destruct I as [I|I]; [injection I as <- <-; lia|].
      apply IH in I. lia. }
    apply (G us 0) in I. exact I. }
  destruct (visit_runs a ck data nlb (unit_places (N.to_nat nlb) 0 us) w F (history_ok a w H) PL) as (l & w' & E2 & _ & R).
  pose proof (framed_found (N.to_nat nlb) us [] []) as FF. cbn [app length] in FF.
  rewrite app_nil_r in FF. fold data in FF. change (N.of_nat 0) with 0 in FF. rewrite FF in R.
  destruct (stream_coded a ck _ _ _ C w (framed_units (N.to_nat nlb) 0 us)) as (l2 & w2 & R2 & E1 & E3 & E4).
  - intros id. auto.
  - apply (history_ok a w H).
  - generalize 0. clear. induction us as [|u us IH]; intros o; cbn [framed_units map snd]; [auto|]. now rewrite IH.
  - rewrite <- FF. apply Forall_map, Forall_forall. intros [i n] I. cbn [snd]. apply slice_ok. exact F.
  - destruct (runs_det _ _ _ _ _ _ _ R R2) as [<- <-].
    eexists. eexists. split; [unfold ParseBitstreamNALULength; rewrite V; exact E2|].
    unfold units_of. rewrite !map_map.
    split; [rewrite <- E1; apply map_ext; intros [[x o] n]; reflexivity|]. split; [|auto].
    assert (M : map fst (map (fun '(x, o, n) => (o, n)) l) = map fst (map (fun '(o, u) => (o, N.of_nat (length u))) (framed_units (N.to_nat nlb) 0 us))) by now rewrite E3.
    rewrite !map_map in M. etransitivity; [etransitivity; [|exact M]|]; apply map_ext; [intros [[x o] n]|intros [o u]]; reflexivity.
Qed.

(** A stream with every kind of unit: SPS 3, PPS 9, subset SPS 3, PPS 5, access unit
    delimiter, prefix NAL unit, slice, slice in scalable extension. *)
Definition ex_h (ref t : N) : nalh := mknalh 0 ref t 0 0 None.
Definition ex_hsvc (ref t : N) : nalh := mknalh 0 ref t 1 0 (Some (mksvc 0 0 0 1 0 2 0 0 1 3)).
Definition ex_data : list bool := repeat false 40 ++ [true; false; true].
Definition ex_st1 := mkst [(3, ex_slice_sps)] [] [].
Definition ex_st2 := mkst [(3, ex_slice_sps)] [(9, ex_slice_pps)] [].
Definition ex_st3 := mkst [(3, ex_slice_sps)] [(9, ex_slice_pps)] [(3, ex_subsps2)].
Definition ex_st4 := mkst [(3, ex_slice_sps)] [(9, ex_slice_pps); (5, ex_svc_pps 1 0)] [(3, ex_subsps2)].
Definition ex_svcv : svc_slice := (ex_svc1, Some ex_svc2).
Definition ex_coded : list (bool * list N) := [
  (true, nal_unit (ex_h 3 7) (octets (rbsp (enc_sps ex_slice_sps ex_sps_lists))));
  (true, nal_unit (ex_h 3 8) (octets (rbsp (enc_pps ex_slice_pps None))));
  (false, nal_unit (ex_h 3 15) (octets (rbsp (enc_subsps ex_subsps2 [] []))));
  (false, nal_unit (ex_h 3 8) (octets (rbsp (enc_pps (ex_svc_pps 1 0) None))));
  (true, nal_unit (ex_h 0 9) [240]);
  (false, nal_unit (ex_hsvc 2 14) (octets (rbsp (enc_prefsvc ex_prefsvc [false; false; true]))));
  (false, nal_unit (ex_h 1 5) (octets (rbsp (enc_in 1 5 ex_st4 ex_slice ++ ex_data))));
  (false, nal_unit (ex_hsvc 1 20) (octets (rbsp (svc_enc_in (ex_hsvc 1 20) ex_st4 ex_svcv ++ ex_data))))].
Lemma ex_header : forall ref t, ref < 4 -> t < 32 -> ~ In t [0; 14; 20; 21] -> header_std (ex_h ref t).
Proof.
  intros ref t R T NI. cbn [In] in NI. split; [|split; [cbn [ex_h nal_ref_idc nal_unit_type]; right; intros ->; tauto|exact I]].
  unfold ex_h, valid_nalh, is_u. cbn [forbidden_zero_bit nal_ref_idc nal_unit_type avc_3d_extension_flag nal_svc svc_extension_flag].
  change (2 ^ 1) with 2. change (2 ^ 2) with 4. change (2 ^ 5) with 32. lia.
Qed.
Lemma ex_header_svc : forall ref t, ref < 4 -> t = 14 \/ t = 20 -> header_std (ex_hsvc ref t).
Proof.
  intros ref t R T. split; [|split; [cbn [ex_hsvc nal_ref_idc nal_unit_type]; lia|reflexivity]].
  unfold ex_hsvc, valid_nalh. cbn [forbidden_zero_bit nal_ref_idc nal_unit_type avc_3d_extension_flag nal_svc svc_extension_flag].
  split; [reflexivity|]. split; [unfold is_u; change (2 ^ 2) with 4; lia|].
  split; [unfold is_u; change (2 ^ 5) with 32; lia|]. split; [reflexivity|]. split; [exact T|].
  split; [reflexivity|]. valid_tac.
Qed.
Example ex_coded_ok : exists r, coded_stream new_state (map snd ex_coded) r /\ length r = 8%nat.
Proof.
  assert (X : forall A (a : A) b, Some a = Some b -> a = b) by congruence.
  eexists. split.
  - unfold ex_coded. cbn [map snd].
    apply coded_cons with (st' := ex_st1) (p := mkpayload None (Some ex_slice_sps) None None None None);
      [apply ex_header; [lia|lia|cbn; lia]|apply coded_sps; [reflexivity|apply ex_slice_sps_valid|]| |].
    { apply C24_ex_valid. }
    { intros id. repeat split. unfold lookup, ex_st1. cbn [pl_sps st_sps find fst option_map]. 
      change (seq_parameter_set_id ex_slice_sps) with 3. destruct (3 =? id); reflexivity. }
    apply coded_cons with (st' := ex_st2) (p := mkpayload None None (Some ex_slice_pps) None None None);
      [apply ex_header; [lia|lia|cbn; lia]|apply coded_pps; [reflexivity|apply ex_slice_pps_valid|exact I]| |].
    { intros id. repeat split. unfold lookup, ex_st2. cbn [pl_pps st_pps find fst option_map]. 
      change (pps_pic_parameter_set_id ex_slice_pps) with 9. destruct (9 =? id); reflexivity. }
    apply coded_cons with (st' := ex_st3) (p := mkpayload None None None None (Some ex_subsps2) None);
      [apply ex_header; [lia|lia|cbn; lia]|apply coded_subset_sps; [reflexivity| |reflexivity|constructor]| |].
    { split; [valid_tac|]. split; [reflexivity|]. split; [exists ex_spssvc2; split; [reflexivity|valid_tac]|]. valid_tac. }
    { intros id. repeat split. unfold lookup, ex_st3. cbn [pl_subset_sps st_subset_sps find fst option_map]. 
      change (seq_parameter_set_id (ss_sps ex_subsps2)) with 3. destruct (3 =? id); reflexivity. }
    apply coded_cons with (st' := ex_st4) (p := mkpayload None None (Some (ex_svc_pps 1 0)) None None None);
      [apply ex_header; [lia|lia|cbn; lia]|apply coded_pps; [reflexivity|valid_tac|exact I]| |].
    { intros id. repeat split. unfold lookup, ex_st4, ex_st3. cbn [pl_pps st_pps find fst option_map]. 
      change (pps_pic_parameter_set_id (ex_svc_pps 1 0)) with 5.
      destruct (N.eqb_spec 9 id) as [<-|]; [reflexivity|]. destruct (5 =? id); reflexivity. }
    apply coded_cons with (st' := ex_st4) (p := no_parts);
      [apply ex_header; [lia|lia|cbn; lia]|apply coded_other; [cbn; lia|repeat constructor|]|intros id; repeat split|].
    { intros [|a0 [|a1 a]] E; discriminate. }
    eapply coded_cons with (st' := ex_st4);
      [apply ex_header_svc; [lia|lia]|eapply coded_prefix; [reflexivity|reflexivity|apply C30_ex_prefix|discriminate]|intros id; repeat split|].
    eapply coded_cons with (st' := ex_st4);
      [apply ex_header; [lia|lia|cbn; lia]|eapply coded_slice; [right; reflexivity| |reflexivity]|intros id; repeat split|].
    { destruct C34_ex_valid as (s & p & A & V). exists ex_slice_sps, ex_slice_pps. split; [reflexivity|].
      change (Some (ex_slice_sps, ex_slice_pps) = Some (s, p)) in A. apply X in A.
      pose proof (f_equal fst A) as A1. pose proof (f_equal snd A) as A2. cbn [fst snd] in A1, A2. rewrite A1, A2. exact V. }
    eapply coded_cons with (st' := ex_st4);
      [apply ex_header_svc; [lia|lia]|eapply coded_svc_slice; [reflexivity| |]|intros id; repeat split|constructor].
    { exact C36_ex_valid. }
    { reflexivity. }
  - reflexivity.
Qed.
Example C52_ex : fits true (annexb ex_coded) /\ exists l w',
  ParseBitstream true true (annexb ex_coded) (size_of (annexb ex_coded)) (mkw new_state 0) = (Ok l, w') /\ map (fun x => nal_unit_type (nu_header x)) (units_of l) = [7; 8; 15; 8; 9; 14; 5; 20] /\ w_unimplemented w' = 0.
Proof. split; [fits_tac|]. eexists. eexists. split; [vm_compute; reflexivity|]. vm_compute. auto. Qed.

Print Assumptions C51_unit_round_trip.
Print Assumptions C51_sets_read_completely.
Print Assumptions C51_unit_bytes.
Print Assumptions C52_annexb_round_trip.
Print Assumptions C52_length_prefixed_round_trip.
