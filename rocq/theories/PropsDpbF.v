(** Property C77: the sliding window in the table of h264nal-dpb_parse.py, one entry per picture. *)
From Coq Require Import NArith ZArith List Bool Lia ZifyBool ZifyNat ZifyN String Ascii Sorting.Sorted Sorting.Permutation.
From Verif Require Import SpecBits Base BitBuffer SpecReader BitsLemmas BitBufferProofs
  ReaderProofs Rbsp SpecRbsp RbspProofs ChecksumProofs Parser SpecSyntax ParserProofs SpecFraming Framing
  FramingProofs FramingProofs2 FramingProofs3 TypesSps Sps SpecSps SpsProofs PropsSps TypesPps Pps TypesNal NalHeader TypesExt Ext TypesSlice TypesSliceHeader SliceHeader
  SpecVui SpecSliceParts SpecSlice
  TypesNalUnit NalUnit NalUnitProofs SpecNalUnit NalUnitProofs2 NalUnitProofs3 PropsNalUnit PropsNalUnit2
  PropsFraming NalType Rtp RtpProofs Tool SpecTool ToolProofs PropsTool SpecDump SpecLabels Dump DumpProofs DumpProofs2 DumpProofs3
  DumpProofs4 DumpProofs5 DumpProofs6 DumpProofs7 DumpProofs8 PropsDump
  ToolText SpecToolText ToolTextProofs PropsToolText
  PyText Dpb DpbProofs3 DpbProofs4 SpecDpb SpecDpbText DpbProofs5 DpbProofs6 DpbProofs7 DpbProofs8 PropsSplit PropsDpb SpecDpbFields DpbProofs10.
Import ListNotations.
Open Scope N_scope.
Open Scope list_scope.

(** Without memory management operations and long-term frames the script always ends, and the
    table lists the last max_num_ref_frames reference pictures since the last IDR picture, in the
    order of decoding: whatever their frame_num is, gaps and repetitions included, and whether
    they are frames or fields. *)
Theorem C77_window : forall a input data l w text s, fits a data ->
  ParseBitstream a false data (size_of data) (mkw new_state 0) = (Ok l, w) -> run a (dpb_args input) data = Ok (text, 0) ->
  last_sps None l = Some s ->
  exists ps, shows None l ps /\
    (Forall (fun c => pc_nut c = 5 -> pc_ref c <> 0) ps -> Forall sliding_window (map cpic_of ps) ->
     exists rows, dpb_script a input data = Ok (Some rows) /\
       map (fun r => map ref_of (t_after r)) rows = windows (max_num_ref_frames s) 0 [] (map cpic_of ps)).
Proof.
  intros a input data l w text s F P R L. destruct (C72_reads a input data F) as (l' & w' & text' & e & P' & R' & _ & H2). rewrite P in P'. injection P' as <- <-.
  rewrite R in R'. injection R' as <- <-. destruct (H2 eq_refl) as (ps & S & _ & D). exists ps. split; [exact S|]. intros ID SW.
  rewrite Forall_map in SW. rewrite D, L. unfold simulate_dpb.
  destruct (simulate_windows (max_num_ref_frames s) (2 ^ Z.of_N (p_log2_max_frame_num_minus4 (pysps_of s) + 4)) ps 0 0 0 [] (shows_sound _ _ _ S ID) SW ltac:(constructor)) as (rows & E & EA).
  change (p_max_num_ref_frames (pysps_of s)) with (max_num_ref_frames s). rewrite E. cbn [rbind]. eauto.
Qed.
(** So fields are counted as frames: in every stream of [n] pairs of reference fields the table
    lacks a frame of the standard after the last picture, once 2 [n] exceeds max_num_ref_frames + 1. *)
Theorem C77_fields_refuted : forall a input data l w text s, fits a data ->
  ParseBitstream a false data (size_of data) (mkw new_state 0) = (Ok l, w) -> run a (dpb_args input) data = Ok (text, 0) ->
  last_sps None l = Some s ->
  exists ps, shows None l ps /\ forall n,
    Forall sliding_window (map cpic_of ps) -> map ppic_of ps = field_pairs 0 n ->
    2 <= max_num_ref_frames s -> max_num_ref_frames s + 1 < 2 * N.of_nat n ->
    exists rows, dpb_script a input data = Ok (Some rows) /\
      ~ holds (last (map (fun r => map ref_of (t_after r)) rows) []) (last (frames (max_frame_num s) (max_num_ref_frames s) false [] (map ppic_of ps)) []).
Proof.
  intros a input data l w text s F P R L. destruct (C77_window a input data l w text s F P R L) as (ps & S & H). exists ps. split; [exact S|].
  intros n SW EP MX NX.
  assert (ID : Forall (fun c => pc_nut c = 5 -> pc_ref c <> 0) ps).
  { assert (X : Forall (fun p => p_ref p = true) (map ppic_of ps)).
    { rewrite EP. unfold field_pairs. apply Forall_forall. intros p I. apply in_flat_map in I. destruct I as (i & _ & [<-|[<-|[]]]); reflexivity. }
    rewrite Forall_map in X. eapply Forall_impl; [|exact X]. intros c X1 _. cbn [ppic_of p_ref] in X1. lia. }
  destruct (H ID SW) as (rows & E & EA). exists rows. split; [exact E|]. rewrite EA. apply (fields_wrong _ _ n); auto. exact (shows_sound _ _ _ S ID).
Qed.

(** ** Examples *)
(** Frames, with a gap in frame_num, a repetition and a second IDR picture *)
Definition film_gap : list pict := [an_idr 4 0; a_p 4 3 None None; a_p 4 3 None None; a_p 4 9 None None; an_idr 4 0; a_p 4 1 None None].
Example C77_ex_gap : exists s rows, coded_as (ex_film 2 4 film_gap) s film_gap /\ max_num_ref_frames s = 2 /\
  Forall sliding_window (map cpic_of film_gap) /\ dpb_script true "in.264" (ex_film 2 4 film_gap) = Ok (Some rows) /\
  buffers rows = [[mkref 0 None 0]; [mkref 0 None 0; mkref 3 None 1]; [mkref 3 None 1; mkref 3 None 2]; [mkref 3 None 2; mkref 9 None 3];
    [mkref 0 None 4]; [mkref 0 None 4; mkref 1 None 5]].
Proof.
  read_tac sets2_eq. eexists. eexists. split; [coded_tac sets2|]. split; [reflexivity|]. split; [clear; repeat constructor|]. split; [eassumption|]. reflexivity.
Qed.

(** Two pairs of fields, Main profile, two reference frames *)
Definition f_sps : list N :=
  ex_unit 103 (u_bits 8 77 ++ u_bits 8 0 ++ u_bits 8 30 ++ ue_bits 0 ++ ue_bits 0 ++ ue_bits 2 ++ ue_bits 2 ++ u_bits 1 0 ++
    ue_bits 0 ++ ue_bits 0 ++ u_bits 1 0 ++ u_bits 1 0 ++ u_bits 1 1 ++ u_bits 1 0 ++ u_bits 1 0).
Definition f_sets : option (sps * pps) :=
  match parsed_units (annexb [(true, f_sps); (true, dpb_pps 4)]) with
  | [(u, _, _); (u', _, _)] => match pl_sps (nu_payload u), pl_pps (nu_payload u') with Some s, Some p => Some (s, p) | _, _ => None end
  | _ => None
  end.
Definition setsf := Eval vm_compute in f_sets.
Lemma setsf_eq : f_sets = setsf. Proof. vm_compute. reflexivity. Qed.
Definition f_film (ps : list pict) : list N :=
  match f_sets with
  | Some (s, p) => annexb ([(true, f_sps); (true, dpb_pps 4)] ++ map (pict_unit s p) ps)
  | None => []
  end.
Definition f_header (ty num bottom : N) (mk : option marking) : slice :=
  mkslice (mklead 0 ty 0) (mkpicid 0 num 1 bottom) 0 (mkpoc 0 0 []) 0 (if uses_refs ty then mkrefs 0 0 3 0 else mkrefs 0 0 0 0) None None None mk 0 0
    (mkspqs 0 0) (mkdbk 0 0 0) 0.
Definition f_idr : pict := mkpict 5 3 (f_header 2 0 0 (Some (IdrMarking 0 0))) 3.
Definition f_p (num bottom : N) : pict := mkpict 1 2 (f_header 0 num bottom (Some (Marking None))) 3.
Definition film_fields : list pict := [f_idr; f_p 0 1; f_p 1 0; f_p 1 1].
Ltac read_f :=
  match goal with |- context [f_film ?ps] =>
    let b := eval vm_compute in (f_film ps) in
    let E := fresh in assert (E : f_film ps = b) by (unfold f_film; rewrite setsf_eq; vm_compute; reflexivity); rewrite !E; clear E;
    let F := fresh "F" in assert (F : fits true b) by fits_tac;
    let r := eval vm_compute in (ParseBitstream true false b (size_of b) (mkw new_state 0)) in
    match r with
    | (Ok ?l, ?w) =>
        let P := fresh "P" in assert (P : ParseBitstream true false b (size_of b) (mkw new_state 0) = (Ok l, w)) by (vm_compute; reflexivity);
        let R := fresh "R" in let D := fresh "D" in
        destruct (film_run b l w F P ltac:(vm_compute; reflexivity)) as [R D];
        let t := eval vm_compute in (table_from b l) in
        let T := fresh in assert (T : table_from b l = t) by (vm_compute; reflexivity); rewrite T in D; clear T
    end
  end.
(** The hypotheses of C77_fields_refuted: the standard has both frames, the table only the second *)
Example C77_ex_fields : exists s rows, coded_as (f_film film_fields) s film_fields /\ max_num_ref_frames s = 2 /\ max_frame_num s = 16 /\
  Forall sliding_window (map cpic_of film_fields) /\ map ppic_of film_fields = field_pairs 0 2 /\
  frames 16 2 false [] (map ppic_of film_fields) =
    [[mkrframe 0 [TopField]]; [mkrframe 0 [TopField; BottomField]]; [mkrframe 0 [TopField; BottomField]; mkrframe 1 [TopField]];
     [mkrframe 0 [TopField; BottomField]; mkrframe 1 [TopField; BottomField]]] /\
  dpb_script true "in.264" (f_film film_fields) = Ok (Some rows) /\
  buffers rows = [[mkref 0 None 0]; [mkref 0 None 0; mkref 0 None 1]; [mkref 0 None 1; mkref 1 None 2]; [mkref 1 None 2; mkref 1 None 3]].
Proof.
  read_f. eexists. eexists. split; [coded_tac setsf|]. split; [reflexivity|]. split; [reflexivity|]. split; [clear; repeat constructor|]. split; [reflexivity|].
  split; [reflexivity|]. split; [eassumption|]. reflexivity.
Qed.

Print Assumptions C77_window.
Print Assumptions C77_fields_refuted.
