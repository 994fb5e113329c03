(** Property C72: h264nal-dpb_parse.py. *)
From Coq Require Import NArith ZArith List Bool Lia ZifyBool ZifyNat ZifyN String Ascii Sorting.Sorted Sorting.Permutation.
From Verif Require Import SpecBits Base BitBuffer SpecReader BitsLemmas BitBufferProofs
  ReaderProofs Rbsp SpecRbsp RbspProofs ChecksumProofs Parser SpecSyntax ParserProofs SpecFraming Framing
  FramingProofs FramingProofs2 FramingProofs3 TypesSps Sps SpecSps SpsProofs PropsSps TypesPps Pps TypesNal NalHeader TypesExt Ext TypesSlice TypesSliceHeader SliceHeader
  SpecVui SpecSliceParts SpecSlice
  TypesNalUnit NalUnit NalUnitProofs SpecNalUnit NalUnitProofs2 NalUnitProofs3 PropsNalUnit PropsNalUnit2
  PropsFraming NalType Rtp RtpProofs Tool SpecTool ToolProofs PropsTool SpecDump SpecLabels Dump DumpProofs DumpProofs2 DumpProofs3
  DumpProofs4 DumpProofs5 DumpProofs6 DumpProofs7 DumpProofs8 PropsDump
  ToolText SpecToolText ToolTextProofs PropsToolText
  PyText Dpb DpbProofs3 DpbProofs4 SpecDpb SpecDpbText DpbProofs5 DpbProofs6 DpbProofs7 DpbProofs8 PropsSplit.
Import ListNotations.
Open Scope N_scope.
Open Scope list_scope.
Ltac Zify.zify_post_hook ::= Z.div_mod_to_equations.

Lemma dpb_sane : forall input data, sane (dpb_args input) data.
Proof. intros. split; [cbn; lia|]. split; [cbn; lia|]. discriminate. Qed.
(** MaxFrameNum (7-10) *)
Definition max_frame_num (s : sps) : N := 2 ^ (log2_max_frame_num_minus4 s + 4).

(** ** What the script reads *)
(** If the tool fails there is no table. Otherwise the script finds, in order, the pictures of
    the file: nal_unit_type, nal_ref_idc and the slice header of every slice that begins with
    macroblock 0. It uses the last sequence parameter set of the file for all of them, and
    stops with an error if there is none. *)
Theorem C72_reads : forall a input data, fits a data ->
  exists l w text e, ParseBitstream a false data (size_of data) (mkw new_state 0) = (Ok l, w) /\
    run a (dpb_args input) data = Ok (text, e) /\
    (e <> 0 -> dpb_script a input data = Ok None) /\
    (e = 0 -> exists ps, shows None l ps /\
       parse_frames text = Ok (option_map pysps_of (last_sps None l), map pict_frame ps) /\
       dpb_script a input data =
         match last_sps None l with
         | Some s => rbind (simulate_dpb (pysps_of s) (map pict_frame ps)) (fun rows => Ok (Some rows))
         | None => Abort
         end).
Proof.
  intros a input data F. pose proof (dpb_sane input data) as SN.
  destruct (tool_run a (dpb_args input) data F SN) as (l & w & P & (K1 & _ & _) & rows & e & T).
  change (tool_parse a (tool_options (dpb_args input)) data) with (ParseBitstream a false data (size_of data) (mkw new_state 0)) in P.
  assert (GU : Forall (fun e => exists st, good_unit st false (fst (fst e))) l).
  { eapply Forall_impl; [|exact K1]. intros x (st & G & _). exists st. exact G. }
  destruct (units_texts input data l GU) as (Ts & U & _ & _).
  exists l, w. eexists. exists e.
  split; [exact P|].
  assert (RUN : exists text, units_text (dpb_args input) data l = Ok text /\ run a (dpb_args input) data = Ok (text, e)).
  { eexists. split; [exact U|]. unfold tool in T.
    change (tool_parse a (tool_options (dpb_args input)) data) with (ParseBitstream a false data (size_of data) (mkw new_state 0)) in T. rewrite P in T.
    change (opt_dump_length (tool_options (dpb_args input))) with false in T. cbn [rbind] in T.
    unfold run, output. change (tool_parse a (tool_options (dpb_args input)) data) with (ParseBitstream a false data (size_of data) (mkw new_state 0)). rewrite P.
    change (opt_dump_length (tool_options (dpb_args input))) with false. cbn [rbind]. rewrite U. cbn [rbind].
    destruct (unparsed_nal_units _ data l) as [n| | | |]; try discriminate. cbn [rbind] in *. injection T as <- <-. reflexivity. }
  destruct RUN as (text & UT & RUN). rewrite UT in U. injection U as U.
  split; [rewrite RUN, U; reflexivity|].
  assert (DS : dpb_script a input data = if e =? 0 then
     rbind (parse_frames text) (fun p => match fst p with Some sps => rbind (simulate_dpb sps (snd p)) (fun rows => Ok (Some rows)) | None => Abort end) else Ok None).
  { unfold dpb_script. rewrite dpb_args_eq, RUN. reflexivity. }
  split.
  - intros E. rewrite DS. replace (e =? 0) with false by lia. reflexivity.
  - intros ->. 
    assert (Q : Forall parsed l).
    { destruct (annexb_run a (tool_options (dpb_args input)) data F (proj2 SN) ltac:(reflexivity)) as (ix & l' & w' & _ & P' & _ & _ & UN).
      change (tool_parse a (tool_options (dpb_args input)) data) with (ParseBitstream a false data (size_of data) (mkw new_state 0)) in P'.
      rewrite P in P'. injection P' as <- <-.
      assert (E : 0 = exit_status (N.of_nat (List.length ix) - N.of_nat (List.length l) + n_unparsed l) (w_unimplemented w)).
      { unfold tool in T. change (tool_parse a (tool_options (dpb_args input)) data) with
          (ParseBitstream a false data (size_of data) (mkw new_state 0)) in T. rewrite P in T.
        change (opt_dump_length (tool_options (dpb_args input))) with false in T. cbn [rbind] in T. rewrite UN in T. cbn [rbind] in T.
        injection T as T. congruence. }
      assert (NP : n_unparsed l = 0).
      { unfold exit_status in E. destruct (0 <? w_unimplemented w); [discriminate|].
        destruct (N.ltb_spec 0 (N.of_nat (List.length ix) - N.of_nat (List.length l) + n_unparsed l)); [discriminate|lia]. }
      apply Forall_forall. intros x I. unfold parsed. destruct (IsPayloadParsed _ _) eqn:UE; [reflexivity|]. exfalso.
      unfold n_unparsed in NP. assert (J : In x (filter unparsed_entry l)) by (apply filter_In; split; [exact I|]; unfold unparsed_entry; change (negb (IsPayloadParsed (nu_payload (fst (fst x))) (nal_unit_type (nu_header (fst (fst x))))) = true); rewrite UE; reflexivity).
      destruct (filter unparsed_entry l); [destruct J|discriminate]. }
    destruct (frames_read input data l GU Q) as (text' & ps & UT' & S & PF). rewrite UT in UT'. injection UT' as <-.
    exists ps. split; [exact S|]. split; [rewrite <- U; exact PF|]. rewrite DS. cbn [N.eqb]. rewrite PF. cbn [rbind fst snd].
    destruct (last_sps None l); reflexivity.
Qed.

(** ** The outcomes *)
(** No subscript is out of range and no other error is possible: the script prints a table, or
    it stops because the tool has failed or because there is no sequence parameter set, or it
    never ends. *)
Theorem C72_outcomes : forall a input data, fits a data ->
  dpb_script a input data = Ok None \/ dpb_script a input data = Abort \/ dpb_script a input data = NoFuel \/
  exists rows, dpb_script a input data = Ok (Some rows).
Proof.
  intros a input data F. destruct (C72_reads a input data F) as (l & w & text & e & _ & _ & H1 & H2).
  destruct (N.eq_dec e 0) as [E|E]; [|auto]. destruct (H2 E) as (ps & _ & _ & ->). destruct (last_sps None l) as [s|]; [|auto].
  unfold simulate_dpb. match goal with |- context [simulate_from ?m ?x (map pict_frame ps) ?b ?g ?f ?d] => destruct (simulate_cases m x ps b g f d) as [(rows & ->)| ->] end; cbn [rbind]; eauto.
Qed.
(** The loop of the sliding window ends if and only if the long-term frames alone fit: with no
    short-term frame left it goes on for ever. *)
Theorem C72_endless : forall max dpb,
  (forall fuel, slide_loop fuel max dpb = NoFuel) <-> max < N.of_nat (List.length (filter (fun e => negb (short e)) dpb)).
Proof.
  intros max dpb. split.
  - intros H. destruct (N.ltb_spec max (N.of_nat (List.length (filter (fun e => negb (short e)) dpb)))) as [L|L]; [exact L|]. exfalso.
    destruct (slide_ends dpb (S (List.length dpb)) max ltac:(lia) L) as (l & E). rewrite H in E. discriminate.
  - intros H fuel. apply slide_endless, H.
Qed.
(** and enough steps are allowed for in the model *)
Theorem C72_steps : forall f1 f2 max dpb, (List.length dpb < f1)%nat -> (List.length dpb < f2)%nat -> slide_loop f1 max dpb = slide_loop f2 max dpb.
Proof. intros. apply slide_fuel; assumption. Qed.
(** One row per picture, with its number, type and nal_ref_idc; a row begins with the buffer that
    the row before has left, or with an empty one for an IDR picture. The second number is that
    of the IDR pictures up to this one, without the first picture; the third counts the pictures
    since the last IDR picture. *)
Definition numbers_of (ps : list pict) (i : nat) (r : drow) : Prop :=
  t_abs_frame r = N.of_nat i /\
  t_gop r = N.of_nat (List.length (filter idr_pict (firstn i (tl ps)))) /\
  exists j, (j <= i)%nat /\ t_gop_frame r = N.of_nat (i - j) /\ (j = 0%nat \/ exists c, nth_error ps j = Some c /\ idr_pict c = true) /\
    forall m c, (j < m <= i)%nat -> nth_error ps m = Some c -> idr_pict c = false.
Theorem C72_rows : forall a input data l w rows, fits a data ->
  ParseBitstream a false data (size_of data) (mkw new_state 0) = (Ok l, w) -> dpb_script a input data = Ok (Some rows) ->
  exists ps, shows None l ps /\ Forall2 row_about ps rows /\ (forall i r, nth_error rows i = Some r -> numbers_of ps i r) /\ chained [] ps rows /\
    Forall2 (fun c r => t_mmco r = mark_column c) ps rows.
Proof.
  intros a input data l w rows F P R. destruct (C72_reads a input data F) as (l' & w' & text & e & P' & _ & H1 & H2). rewrite P in P'. injection P' as <- <-.
  destruct (N.eq_dec e 0) as [E|E]; [|rewrite (H1 E) in R; discriminate]. destruct (H2 E) as (ps & S & _ & D). rewrite D in R. exists ps. split; [exact S|].
  destruct (last_sps None l) as [s|]; [|discriminate]. unfold simulate_dpb in R.
  destruct (simulate_from _ _ (map pict_frame ps) 0 0 0 []) as [rs| | | |] eqn:ES; try discriminate. cbn [rbind] in R. injection R as <-.
  destruct (simulate_rows _ _ _ _ _ _ _ _ ES) as [A B]. pose proof (simulate_counted _ _ _ _ _ _ _ _ (shows_typed _ _ _ S) ES) as C. split; [exact A|]. split.
  - intros i r N. split; [|exact (counted_nth _ _ _ _ C N)].
    assert (X : nth_error (map t_abs_frame rs) i = Some (t_abs_frame r)) by (apply map_nth_error, N). rewrite B in X.
    assert (I : (i < List.length ps)%nat) by (assert (Q : List.length ps = List.length rs) by (clear - A; induction A; cbn; congruence); rewrite Q; apply nth_error_Some; congruence).
    rewrite (map_nth_error _ i (seq 0 (List.length ps)) (d := i)) in X; [injection X as <-; lia|]. 
    rewrite (nth_error_nth' _ 0%nat) by (rewrite seq_length; exact I). rewrite seq_nth by exact I. reflexivity.
  - split; [exact (simulate_chained _ _ _ _ _ _ _ _ ES)|exact (counted_marks _ _ _ _ _ C)].
Qed.
(** The text: a line with the names of the columns and a line per row. Cut at its commas, a line
    has eleven fields. *)
Theorem C72_text : forall a input data l w rows, fits a data ->
  ParseBitstream a false data (size_of data) (mkw new_state 0) = (Ok l, w) -> dpb_script a input data = Ok (Some rows) ->
  cut_at (ascii_of_N 10) (table_text rows) = dpb_header :: map row_str rows ++ [""%string] /\
  cut_at "," dpb_header = ["abs_frame"; "gop"; "gop_frame"; "type"; "frame_num"; "nal_ref_idc"; "ref"; "refs_used"; "dpb_before_decode"; "mmco"; "dpb_after_mmco"]%string /\
  exists ps, shows None l ps /\ Forall2 (fun c r => cut_at "," (row_str r) = row_fields c r) ps rows.
Proof.
  intros a input data l w rows F P R. destruct (C72_rows a input data l w rows F P R) as (ps & S & A & _ & _ & B).
  assert (X : Forall2 (fun c r => cut_at "," (row_str r) = row_fields c r /\ free (ascii_of_N 10) (row_str r)) ps rows).
  { clear - A B. induction A as [|c r ps rows A1 A IH]; [constructor|]. inversion B as [|? ? ? ? B1 B2]; subst. constructor; [apply row_line; assumption|auto]. }
  split; [|split; [reflexivity|]].
  - unfold table_text. rewrite text_lines; [reflexivity|]. constructor; [reflexivity|]. apply Forall_map. clear - X. induction X as [|c r ps rows [_ X] _ IH]; constructor; auto.
  - exists ps. split; [exact S|]. clear - X. induction X as [|c r ps rows [X _] _ IH]; constructor; auto.
Qed.

(** ** Marking *)
Lemma max_frame_num_Z : forall s, (2 ^ Z.of_N (p_log2_max_frame_num_minus4 (pysps_of s) + 4))%Z = Z.of_N (max_frame_num s).
Proof. intros s. unfold max_frame_num. rewrite N2Z.inj_pow. reflexivity. Qed.
(** On streams that are easy to follow ([all_plain]) the table has the reference frames of the
    standard. *)
Theorem C72_marking : forall a input data l w text s, fits a data ->
  ParseBitstream a false data (size_of data) (mkw new_state 0) = (Ok l, w) -> run a (dpb_args input) data = Ok (text, 0) ->
  last_sps None l = Some s ->
  exists ps, shows None l ps /\ forall ss,
    Forall (fun c => pc_nut c = 5 -> pc_ref c <> 0) ps ->
    states (max_frame_num s) (max_num_ref_frames s) 0 [] (map cpic_of ps) ss ->
    all_plain (max_frame_num s) (max_num_ref_frames s) [] (map cpic_of ps) ss ->
    exists rows, dpb_script a input data = Ok (Some rows) /\ map (fun r => map ref_of (t_after r)) rows = ss.
Proof.
  intros a input data l w text s F P R L. destruct (C72_reads a input data F) as (l' & w' & text' & e & P' & R' & _ & H2). rewrite P in P'. injection P' as <- <-.
  rewrite R in R'. injection R' as <- <-. destruct (H2 eq_refl) as (ps & S & _ & D). exists ps. split; [exact S|]. intros ss ID ST PL.
  rewrite D, L. unfold simulate_dpb.
  destruct (simulate_states (max_frame_num s) (max_num_ref_frames s) (2 ^ Z.of_N (p_log2_max_frame_num_minus4 (pysps_of s) + 4)) ps 0 0 0 [] ss (shows_sound _ _ _ S ID) ST PL) as (rows & E & EA).
  change (p_max_num_ref_frames (pysps_of s)) with (max_num_ref_frames s). rewrite E. cbn [rbind]. eauto.
Qed.
(** Without memory management operations and without gaps in frame_num every stream is: the
    table of the sliding window is right, also when frame_num wraps. *)
Theorem C72_sliding : forall a input data l w text s, fits a data ->
  ParseBitstream a false data (size_of data) (mkw new_state 0) = (Ok l, w) -> run a (dpb_args input) data = Ok (text, 0) ->
  last_sps None l = Some s ->
  exists ps, shows None l ps /\ forall e,
    Forall (fun c => pc_nut c = 5 -> pc_ref c <> 0) ps ->
    1 <= max_num_ref_frames s < max_frame_num s -> e < max_frame_num s ->
    numbered (max_frame_num s) e (map cpic_of ps) -> Forall (sliding_only (max_num_ref_frames s)) (map cpic_of ps) ->
    exists rows, dpb_script a input data = Ok (Some rows) /\
      states (max_frame_num s) (max_num_ref_frames s) 0 [] (map cpic_of ps) (map (fun r => map ref_of (t_after r)) rows).
Proof.
  intros a input data l w text s F P R L. destruct (C72_marking a input data l w text s F P R L) as (ps & S & H). exists ps. split; [exact S|].
  intros e ID MX EM NU SO.
  destruct (window_states (max_frame_num s) (max_num_ref_frames s) (proj1 MX) (proj2 MX) (map cpic_of ps) e 0 []) as (ss & S1 & S2).
  - exists [], [], e. cbn. repeat split; try lia. rewrite N.add_0_r, N.mod_small by exact EM. reflexivity.
  - exact NU.
  - exact SO.
  - destruct (H ss ID S1 S2) as (rows & E & EA). exists rows. rewrite EA. auto.
Qed.
(** The list of a P picture is that of 8.2.4 if frame_num has not wrapped since its reference
    frames and no frame is named twice. *)
Theorem C72_list : forall a input data l w s rows, fits a data ->
  ParseBitstream a false data (size_of data) (mkw new_state 0) = (Ok l, w) -> last_sps None l = Some s ->
  dpb_script a input data = Ok (Some rows) ->
  exists ps, shows None l ps /\ Forall2 (list_about (max_frame_num s)) ps rows.
Proof.
  intros a input data l w s rows F P L R. destruct (C72_reads a input data F) as (l' & w' & text & e & P' & _ & H1 & H2). rewrite P in P'. injection P' as <- <-.
  destruct (N.eq_dec e 0) as [E|E]; [|rewrite (H1 E) in R; discriminate]. destruct (H2 E) as (ps & S & _ & D). rewrite D, L in R. exists ps. split; [exact S|].
  unfold simulate_dpb in R. rewrite max_frame_num_Z in R.
  destruct (simulate_from _ _ (map pict_frame ps) 0 0 0 []) as [rs| | | |] eqn:ES; try discriminate. cbn [rbind] in R. injection R as <-.
  exact (simulate_lists _ _ _ _ _ _ _ _ ES).
Qed.

(** ** Examples *)
(** Parameter sets for frames with MaxFrameNum 16, [max] reference frames and [n] active ones *)
Definition dpb_sps (max : N) : list N :=
  ex_unit 103 (u_bits 8 66 ++ u_bits 8 0 ++ u_bits 8 30 ++ ue_bits 0 ++ ue_bits 0 ++ ue_bits 2 ++ ue_bits max ++ u_bits 1 0 ++
    ue_bits 0 ++ ue_bits 0 ++ u_bits 1 1 ++ u_bits 1 1 ++ u_bits 1 0 ++ u_bits 1 0).
Definition dpb_pps (n : N) : list N :=
  ex_unit 104 (ue_bits 0 ++ ue_bits 0 ++ u_bits 1 0 ++ u_bits 1 0 ++ ue_bits 0 ++ ue_bits (n - 1) ++ ue_bits 0 ++ u_bits 1 0 ++ u_bits 2 0 ++
    ue_bits 0 ++ ue_bits 0 ++ ue_bits 0 ++ u_bits 1 0 ++ u_bits 1 0 ++ u_bits 1 0).
Definition sets_read (max n : N) : option (sps * pps) :=
  match parsed_units (annexb [(true, dpb_sps max); (true, dpb_pps n)]) with
  | [(u, _, _); (u', _, _)] => match pl_sps (nu_payload u), pl_pps (nu_payload u') with Some s, Some p => Some (s, p) | _, _ => None end
  | _ => None
  end.
Definition ex_header (ty num n idr : N) (rpl : option (list rpl_cmd)) (mk : option marking) : slice :=
  mkslice (mklead 0 ty 0) (mkpicid 0 num 0 0) idr (mkpoc 0 0 []) 0 (if uses_refs ty then mkrefs 0 0 (n - 1) 0 else mkrefs 0 0 0 0) rpl None None mk 0 0
    (mkspqs 0 0) (mkdbk 0 0 0) 0.
Definition an_idr (n long : N) : pict := mkpict 5 3 (ex_header 2 0 n 0 None (Some (IdrMarking 0 long))) (n - 1).
Definition a_p (n num : N) (rpl : option (list rpl_cmd)) (cs : option (list mmco)) : pict := mkpict 1 2 (ex_header 0 num n 0 rpl (Some (Marking cs))) (n - 1).
(** The file *)
Definition pict_unit (s : sps) (p : pps) (c : pict) : bool * list N :=
  (false, ex_unit (32 * pc_ref c + pc_nut c) (enc_slice (pc_ref c) (pc_nut c) s p (pc_slice c))).
Definition ex_film (max n : N) (ps : list pict) : list N :=
  match sets_read max n with
  | Some (s, p) => annexb ([(true, dpb_sps max); (true, dpb_pps n)] ++ map (pict_unit s p) ps)
  | None => []
  end.
Definition table (max n : N) (ps : list pict) : res (option (list string)) :=
  rbind (dpb_script true "in.264" (ex_film max n ps)) (fun r => Ok (option_map (map row_str) r)).
Definition film1 : list pict := [an_idr 4 0; a_p 4 1 None None; a_p 4 2 (Some [SubPicNum 1]) None].
Lemma shows_picture : forall d u off len l ps sl s p c, nal_unit_type (nu_header u) = pc_nut c -> nal_ref_idc (nu_header u) = pc_ref c ->
  pc_nut c = 1 \/ pc_nut c = 5 -> pl_slice (nu_payload u) = Some sl -> first_mb_in_slice (s_lead (pc_slice c)) = 0 -> pc_default c = or_zero d ->
  sl_slice_header sl = slh_of (pc_ref c) (pc_nut c) s p (pc_slice c) -> valid_slice (pc_ref c) (pc_nut c) s p (pc_slice c) ->
  shows d l ps -> shows d ((u, off, len) :: l) (c :: ps).
Proof.
  intros d u off len l ps sl s p [nut ref v def] T R K S Z D H V SH. cbn [pc_nut pc_ref pc_slice pc_default] in *.
  pose proof (shows_slice d u off len l ps sl s p v nut ref T R K S H V SH) as X. rewrite Z in X. subst def. exact X.
Qed.
Ltac header_tac :=
  unfold valid_slice, s_type;
  do 6 (split; [valid_tac|]); split; [valid_tac|]; split; [reflexivity|]; split; [eexists; split; [reflexivity|valid_tac]|]; valid_tac.
(** The parameter sets that are read *)
Definition sets0 := Eval vm_compute in sets_read 0 4.
Definition sets2 := Eval vm_compute in sets_read 2 4.
Definition sets4 := Eval vm_compute in sets_read 4 4.
Lemma sets0_eq : sets_read 0 4 = sets0. Proof. vm_compute. reflexivity. Qed.
Lemma sets2_eq : sets_read 2 4 = sets2. Proof. vm_compute. reflexivity. Qed.
Lemma sets4_eq : sets_read 4 4 = sets4. Proof. vm_compute. reflexivity. Qed.
(** [film_tac sets]: the goal is [shows None l _] with [l] in normal form *)
Ltac film_tac sets :=
  let sp := eval vm_compute in sets in
  match sp with
  | Some (?s, ?p) =>
      clear; apply shows_other; [cbn; intuition discriminate|]; eapply shows_pps; [reflexivity|reflexivity|];
      repeat (first [apply shows_nil | eapply (shows_picture _ _ _ _ _ _ _ s p);
        [reflexivity|reflexivity|cbn; auto|reflexivity|reflexivity|reflexivity|vm_compute; reflexivity|header_tac|]])
  end.

(** [data] is a file with the parameter set [s] and the pictures [ps], and the tool accepts it. *)
Definition coded_as (data : list N) (s : sps) (ps : list pict) : Prop :=
  exists l w text, fits true data /\ ParseBitstream true false data (size_of data) (mkw new_state 0) = (Ok l, w) /\
    run true (dpb_args "in.264") data = Ok (text, 0) /\ last_sps None l = Some s /\ shows None l ps.
(** The table, from the parsed units *)
Definition table_from (data : list N) (l : list (nalu * N * N)) : res (option (list drow)) :=
  rbind (units_text (dpb_args "in.264") data l) (fun text => rbind (parse_frames text) (fun p =>
    match fst p with Some sps => rbind (simulate_dpb sps (snd p)) (fun rows => Ok (Some rows)) | None => Abort end)).
Lemma film_run : forall data l w, fits true data -> ParseBitstream true false data (size_of data) (mkw new_state 0) = (Ok l, w) ->
  rbind (unparsed_nal_units (tool_options (dpb_args "in.264")) data l) (fun n => Ok (exit_status n (w_unimplemented w))) = Ok 0 ->
  (exists text, run true (dpb_args "in.264") data = Ok (text, 0)) /\ dpb_script true "in.264" data = table_from data l.
Proof.
  intros data l w F P E. destruct (C72_reads true "in.264" data F) as (_ & _ & text & e & _ & R & _).
  assert (X : run true (dpb_args "in.264") data = rbind (units_text (dpb_args "in.264") data l) (fun t => Ok (t, 0))).
  { unfold run, output. change (tool_parse true (tool_options (dpb_args "in.264")) data) with (ParseBitstream true false data (size_of data) (mkw new_state 0)). rewrite P.
    change (arg_dump_length (dpb_args "in.264")) with false. cbv iota. destruct (units_text _ data l) as [t| | | |]; try reflexivity. cbn [rbind].
    destruct (unparsed_nal_units _ data l) as [n| | | |]; try discriminate. cbn [rbind] in *. injection E as ->. reflexivity. }
  unfold dpb_script, table_from. rewrite dpb_args_eq. rewrite X in R |- *. destruct (units_text _ data l) as [t| | | |]; try discriminate R.
  split; [eexists; reflexivity|reflexivity].
Qed.
(** [read_tac eq]: the film of the goal becomes its bytes, [P] says what is parsed and [D] what
    the script gives. *)
Ltac read_tac eq :=
  match goal with |- context [ex_film ?m ?n ?ps] =>
    let b := eval vm_compute in (ex_film m n ps) in
    let E := fresh in assert (E : ex_film m n ps = b) by (unfold ex_film; rewrite eq; vm_compute; reflexivity); rewrite !E; clear E;
    let F := fresh "F" in assert (F : fits true b) by fits_tac;
    let r := eval vm_compute in (ParseBitstream true false b (size_of b) (mkw new_state 0)) in
    match r with
    | (Ok ?l, ?w) =>
        let P := fresh "P" in assert (P : ParseBitstream true false b (size_of b) (mkw new_state 0) = (Ok l, w)) by (vm_compute; reflexivity);
        let R := fresh "R" in let D := fresh "D" in
        destruct (film_run b l w F P ltac:(vm_compute; reflexivity)) as [R D];
        let t := eval vm_compute in (table_from b l) in
        let T := fresh in assert (T : table_from b l = t) by (vm_compute; reflexivity); rewrite T in D; clear T
    end
  end.
Ltac coded_tac sets :=
  match goal with
  | P : ParseBitstream _ _ _ _ _ = (Ok ?l, ?w), R : exists t, run _ _ _ = _ |- coded_as ?d _ _ =>
    let t := fresh in let H := fresh in destruct R as [t H]; exists l, w, t; split; [assumption|split; [exact P|split; [exact H|split; [reflexivity|film_tac sets]]]]
  end.
Definition rows_of (data : list N) : list drow := match dpb_script true "in.264" data with Ok (Some rows) => rows | _ => [] end.
Definition buffers (rows : list drow) : list (list refpic) := map (fun r => map ref_of (t_after r)) rows.
Definition columns (rows : list drow) : list string := map row_str rows.

Example C72_ex : (exists s, coded_as (ex_film 2 4 film1) s film1 /\ max_num_ref_frames s = 2 /\ max_frame_num s = 16) /\
  dpb_script true "in.264" (ex_film 2 4 film1) = Ok (Some (rows_of (ex_film 2 4 film1))) /\
  map row_str (rows_of (ex_film 2 4 film1)) =
    ["0,0,0,IDR,0,3,Y,,,IDR:STR,fn=0/STR";
     "1,0,1,P,1,2,Y,fn=0/STR,fn=0/STR,sliding_window,fn=0/STR;fn=1/STR";
     "2,0,2,P,2,2,Y,fn=0/STR;fn=1/STR,fn=0/STR;fn=1/STR,sliding_window,fn=1/STR;fn=2/STR"]%string.
Proof. read_tac sets2_eq. split; [eexists; split; [coded_tac sets2|split; vm_compute; reflexivity]|]. unfold rows_of. rewrite D. split; vm_compute; reflexivity. Qed.
(** The hypotheses of C72_sliding and C72_marking *)
Example C72_ex_sliding : Forall (fun c => pc_nut c = 5 -> pc_ref c <> 0) film1 /\ numbered 16 0 (map cpic_of film1) /\ Forall (sliding_only 2) (map cpic_of film1).
Proof. split; [repeat constructor; discriminate|]. split; [cbn; repeat split|repeat constructor; left; reflexivity]. Qed.
Definition film2 : list pict :=
  [an_idr 4 0; a_p 4 1 None None; a_p 4 2 None (Some [UnmarkShort 1; MaxLong 2; MakeLong 0 1; CurrentLong 0]); a_p 4 3 (Some [LongTermPic 1]) None].
Definition states2 : list (list refpic) :=
  [[mkref 0 None 0]; [mkref 0 None 0; mkref 1 None 1]; [mkref 1 (Some 1) 1; mkref 2 (Some 0) 2]; [mkref 1 (Some 1) 1; mkref 2 (Some 0) 2; mkref 3 None 3]].
Ltac slid_tac := eexists; eexists; split; [reflexivity|split; [reflexivity|split; [reflexivity|repeat constructor; vm_compute; discriminate]]].
Ltac states_tac := repeat match goal with
  | |- states _ _ _ _ _ _ => split
  | |- next _ _ _ _ _ _ => first [reflexivity | eexists; split; [hnf; reflexivity|reflexivity] |
      eexists; split; [hnf; first [exists []; slid_tac | refine (ex_intro _ [_] _); slid_tac]|reflexivity]]
  | |- True => exact I
  end.
Example C72_ex_marking : (exists s, coded_as (ex_film 4 4 film2) s film2 /\ max_num_ref_frames s = 4 /\ max_frame_num s = 16) /\
  states 16 4 0 [] (map cpic_of film2) states2 /\ all_plain 16 4 [] (map cpic_of film2) states2 /\
  map row_str (rows_of (ex_film 4 4 film2)) = 
    ["0,0,0,IDR,0,3,Y,,,IDR:STR,fn=0/STR";
     "1,0,1,P,1,2,Y,fn=0/STR,fn=0/STR,sliding_window,fn=0/STR;fn=1/STR";
     "2,0,2,P,2,2,Y,fn=1/STR;fn=0/STR,fn=0/STR;fn=1/STR,MMCO1:rm_STR(fn=0);MMCO4:max_ltr_idx=1;MMCO3:STR(fn=1)->LTR[1];MMCO6:self->LTR[0],fn=1/LTR[1];fn=2/LTR[0]";
     "3,0,3,P,3,2,Y,fn=1/LTR[1];fn=2/LTR[0],fn=1/LTR[1];fn=2/LTR[0],sliding_window,fn=1/LTR[1];fn=2/LTR[0];fn=3/STR"]%string.
Proof.
  read_tac sets4_eq. split; [eexists; split; [coded_tac sets4|split; vm_compute; reflexivity]|]. split; [clear; states_tac|].
  split; [clear; cbn; repeat first [split | constructor | discriminate | match goal with |- ~ _ => cbn; intuition discriminate end]|]. unfold rows_of. rewrite D. vm_compute. reflexivity.
Qed.

(** The hypotheses of C72_list for the last picture *)
Ltac sorted_tac := repeat first [apply SSorted_nil | apply SSorted_cons | apply Forall_nil | apply Forall_cons | (vm_compute; reflexivity)].
Ltac nodup_tac := repeat first [apply NoDup_nil | apply NoDup_cons; [cbn; intuition discriminate|]].
Example C72_ex_list : distinct 3 [mkref 1 (Some 1) 1; mkref 2 (Some 0) 2] /\
  list_of 16 3 [mkref 1 (Some 1) 1; mkref 2 (Some 0) 2] 4 (Some [LongTermPic 1]) [mkref 1 (Some 1) 1] [mkref 1 (Some 1) 1; mkref 2 (Some 0) 2].
Proof.
  split.
  - split; [repeat constructor; discriminate|]. split; [cbn; nodup_tac|]. split; cbn; nodup_tac.
  - exists [mkref 2 (Some 0) 2; mkref 1 (Some 1) 1]. split.
    + exists [], [mkref 2 (Some 0) 2; mkref 1 (Some 1) 1]. split; [reflexivity|]. split; [constructor|]. split; [constructor|]. split; [apply perm_swap|]. sorted_tac.
    + eapply mod_cons; [left; reflexivity|reflexivity|]. apply mod_nil.
Qed.

(** ** Where the script is wrong *)
(** [wrong max n ps ss]: a file with these pictures for which the table has other reference
    frames than the standard *)
Definition wrong (max n : N) (ps : list pict) (ss : list (list refpic)) : Prop :=
  exists s rows, coded_as (ex_film max n ps) s ps /\ max_num_ref_frames s = max /\ max_frame_num s = 16 /\
    states (max_frame_num s) (max_num_ref_frames s) 0 [] (map cpic_of ps) ss /\
    dpb_script true "in.264" (ex_film max n ps) = Ok (Some rows) /\ map (fun r => map ref_of (t_after r)) rows <> ss.
Ltac wrong_tac eq sets :=
  unfold wrong; read_tac eq;
  match goal with D : dpb_script _ _ _ = Ok (Some ?rows) |- _ => eexists; exists rows end;
  split; [coded_tac sets|]; split; [vm_compute; reflexivity|]; split; [vm_compute; reflexivity|]; split; [clear; states_tac|];
  split; [assumption|]; vm_compute; discriminate.
(** A reference picture with memory management operations is not added, unless one of them makes
    it a long-term frame. *)
Theorem C72_current_lost_refuted : wrong 4 4 [an_idr 4 0; a_p 4 1 None None; a_p 4 2 None (Some [UnmarkShort 0])]
  [[mkref 0 None 0]; [mkref 0 None 0; mkref 1 None 1]; [mkref 0 None 0; mkref 2 None 2]].
Proof. wrong_tac sets4_eq sets4. Qed.
(** Operation 2 is ignored. *)
Theorem C72_unmark_long_refuted : wrong 4 4 [an_idr 4 1; a_p 4 1 None None; a_p 4 2 None (Some [MaxLong 2; UnmarkLong 0; CurrentLong 1])]
  [[mkref 0 (Some 0) 0]; [mkref 0 (Some 0) 0; mkref 1 None 1]; [mkref 1 None 1; mkref 2 (Some 1) 2]].
Proof. wrong_tac sets4_eq sets4. Qed.
(** Operation 3 does not free an index that is in use. *)
Theorem C72_index_reused_refuted : wrong 4 4 [an_idr 4 1; a_p 4 1 None None; a_p 4 2 None (Some [MaxLong 2; MakeLong 0 0; CurrentLong 1])]
  [[mkref 0 (Some 0) 0]; [mkref 0 (Some 0) 0; mkref 1 None 1]; [mkref 1 (Some 0) 1; mkref 2 (Some 1) 2]].
Proof. wrong_tac sets4_eq sets4. Qed.
(** Operation 1 does not find a frame from before frame_num has wrapped. *)
Definition to_wrap : list pict := an_idr 4 0 :: map (fun k => a_p 4 (N.of_nat k) None None) (seq 1 15).
Definition to_wrap_states : list (list refpic) :=
  [mkref 0 None 0] :: map (fun k => [mkref (N.of_nat k - 1) None (N.of_nat k - 1); mkref (N.of_nat k) None (N.of_nat k)]) (seq 1 15).
Theorem C72_wrap_refuted : wrong 2 4 (to_wrap ++ [a_p 4 0 None (Some [MaxLong 1; UnmarkShort 0; CurrentLong 0])])
  (to_wrap_states ++ [[mkref 14 None 14; mkref 0 (Some 0) 16]]).
Proof.
  unfold to_wrap, to_wrap_states. cbn [map seq app N.of_nat Pos.of_succ_nat Pos.succ]. 
  wrong_tac sets2_eq sets2.
Qed.

(** With max_num_ref_frames 0 the current picture is dropped as well; the standard keeps one. *)
Definition an_i (n num : N) : pict := mkpict 1 2 (ex_header 2 num n 0 None (Some (Marking None))) (n - 1).
Theorem C72_none_kept_refuted : wrong 0 4 [an_idr 4 0; an_i 4 1] [[mkref 0 None 0]; [mkref 1 None 1]].
Proof. wrong_tac sets0_eq sets0. Qed.
(** The script never ends on a stream that keeps all limits. *)
Definition film_hang : list pict :=
  [an_idr 4 1; a_p 4 1 None None; a_p 4 2 None (Some [MakeLong 0 0]); a_p 4 3 None None;
   a_p 4 4 None (Some [UnmarkShort 0; MaxLong 2; CurrentLong 1]); a_p 4 5 None (Some [UnmarkLong 1]); a_p 4 6 None None].
Theorem C72_hang_refuted : exists s ss, coded_as (ex_film 2 4 film_hang) s film_hang /\ max_num_ref_frames s = 2 /\
  states (max_frame_num s) (max_num_ref_frames s) 0 [] (map cpic_of film_hang) ss /\ Forall (fun r => (List.length r <= 2)%nat) ss /\
  dpb_script true "in.264" (ex_film 2 4 film_hang) = NoFuel.
Proof.
  read_tac sets2_eq. eexists. exists [[mkref 0 (Some 0) 0]; [mkref 0 (Some 0) 0; mkref 1 None 1]; [mkref 1 (Some 0) 1; mkref 2 None 2]; [mkref 1 (Some 0) 1; mkref 3 None 3];
    [mkref 1 (Some 0) 1; mkref 4 (Some 1) 4]; [mkref 1 (Some 0) 1; mkref 5 None 5]; [mkref 1 (Some 0) 1; mkref 6 None 6]].
  split; [coded_tac sets2|]. split; [vm_compute; reflexivity|]. split; [clear; states_tac|]. split; [repeat constructor|]. exact D.
Qed.
(** [wrong_list max n ps c l]: the last picture is [c] and its list is [l], but the script
    prints another one *)
Definition wrong_list (max n : N) (ps : list pict) (c : pict) (l : list refpic) : Prop :=
  exists s rows r xs, coded_as (ex_film max n (ps ++ [c])) s (ps ++ [c]) /\ max_num_ref_frames s = max /\
    dpb_script true "in.264" (ex_film max n (ps ++ [c])) = Ok (Some (rows ++ [r])) /\
    list_of (max_frame_num s) (frame_num (s_pic (pc_slice c))) (map ref_of (t_before r)) (N.to_nat (active_refs c)) (s_rpl0 (pc_slice c)) xs l /\
    map ref_of (t_refs_used r) <> l.
Definition no_row : drow := mkdrow 0 0 0 "" 0 0 false [] [] "" [].
Ltac wrong_list_tac eq sets :=
  unfold wrong_list; read_tac eq;
  match goal with D : dpb_script _ _ _ = Ok (Some ?rows) |- _ =>
    let a := eval vm_compute in (removelast rows) in let z := eval vm_compute in (last rows no_row) in eexists; exists a, z end;
  eexists; split; [coded_tac sets|]; split; [vm_compute; reflexivity|]; split; [assumption|].
(** Slice types 5 to 9 (all slices of the picture have the type minus 5) are not known. *)
Theorem C72_slice_type_refuted : wrong_list 4 4 [an_idr 4 0] (mkpict 1 2 (ex_header 5 1 4 0 None (Some (Marking None))) 3) [mkref 0 None 0].
Proof.
  wrong_list_tac sets4_eq sets4. split; [|vm_compute; discriminate].
  exists [mkref 0 None 0]. split; [|split; reflexivity]. exists [mkref 0 None 0], []. split; [reflexivity|]. split; [vm_compute; apply Permutation_refl|].
  split; [sorted_tac|]. split; [vm_compute; constructor|constructor].
Qed.
(** A frame that is named twice is moved, not repeated. *)
Theorem C72_named_twice_refuted : wrong_list 4 4 [an_idr 4 0; a_p 4 1 None None] (a_p 4 2 (Some [SubPicNum 0; SubPicNum 15]) None)
  [mkref 1 None 1; mkref 1 None 1; mkref 0 None 0].
Proof.
  wrong_list_tac sets4_eq sets4. split; [|vm_compute; discriminate].
  exists [mkref 1 None 1; mkref 0 None 0]. split.
  - exists [mkref 1 None 1; mkref 0 None 0], []. split; [reflexivity|]. split; [vm_compute; apply perm_swap|]. split; [sorted_tac|]. split; [vm_compute; constructor|constructor].
  - eapply mod_cons; [vm_compute; right; left; reflexivity|vm_compute; split; reflexivity|].
    eapply mod_cons; [vm_compute; right; left; reflexivity|vm_compute; split; reflexivity|]. apply mod_nil.
Qed.
(** The frames are sorted by frame_num also when it has wrapped. *)
Theorem C72_list_wrap_refuted : wrong_list 2 4 (to_wrap ++ [a_p 4 0 None None]) (a_p 4 1 None None) [mkref 0 None 16; mkref 15 None 15].
Proof.
  unfold to_wrap. cbn [map seq app N.of_nat Pos.of_succ_nat Pos.succ].
  wrong_list_tac sets2_eq sets2. split; [|vm_compute; discriminate].
  exists [mkref 0 None 16; mkref 15 None 15]. split; [|split; reflexivity].
  exists [mkref 0 None 16; mkref 15 None 15], []. split; [reflexivity|]. split; [vm_compute; apply perm_swap|]. split; [sorted_tac|]. split; [vm_compute; constructor|constructor].
Qed.
Print Assumptions C72_reads.
Print Assumptions C72_outcomes.
Print Assumptions C72_endless.
Print Assumptions C72_steps.
Print Assumptions C72_rows.
Print Assumptions C72_text.
Print Assumptions C72_marking.
Print Assumptions C72_sliding.
Print Assumptions C72_list.
Print Assumptions C72_current_lost_refuted.
Print Assumptions C72_unmark_long_refuted.
Print Assumptions C72_index_reused_refuted.
Print Assumptions C72_wrap_refuted.
Print Assumptions C72_none_kept_refuted.
Print Assumptions C72_hang_refuted.
Print Assumptions C72_slice_type_refuted.
Print Assumptions C72_named_twice_refuted.
Print Assumptions C72_list_wrap_refuted.
