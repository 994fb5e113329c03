(** What h264nal-dpb_parse.py reads from the whole output. *)
From Coq Require Import NArith ZArith List Bool Lia ZifyBool ZifyNat ZifyN String Ascii.
From Verif Require Import SpecBits Base Parser TypesNal NalUnit TypesNalUnit TypesSps Sps TypesPps Pps TypesSlice TypesSliceHeader SliceHeader SpecDump Dump DumpProofs
  SpecVui SpecSliceParts SpecSlice DumpProofs2 DumpProofs3 PyText PyText2 PyTextProofs ToolText SplitProofs ToolTextProofs Dpb DpbProofs DpbProofs2 DpbProofs3.
Import ListNotations.
Open Scope N_scope.
Open Scope list_scope.
Ltac Zify.zify_post_hook ::= Z.div_mod_to_equations.

(** A coded picture: nal_unit_type, nal_ref_idc, the header of its first slice, and
    num_ref_idx_l0_default_active_minus1 of the picture parameter set before it *)
Record pict := mkpict { pc_nut : N; pc_ref : N; pc_slice : slice; pc_default : N }.
Definition pict_frame (c : pict) : frame := frame_of (pc_default c) (pc_nut c) (pc_ref c) (pc_slice c).
(** The coded pictures of a list of units: those whose first macroblock is 0 *)
Inductive shows : option N -> list (nalu * N * N) -> list pict -> Prop :=
| shows_nil : forall d, shows d [] []
| shows_pps : forall d u off len l ps p, nal_unit_type (nu_header u) = 8 -> pl_pps (nu_payload u) = Some p ->
    shows (Some (pps_num_ref_idx_l0_default_active_minus1 p)) l ps -> shows d ((u, off, len) :: l) ps
| shows_slice : forall d u off len l ps sl s p v nut ref, nal_unit_type (nu_header u) = nut -> nal_ref_idc (nu_header u) = ref ->
    nut = 1 \/ nut = 5 -> pl_slice (nu_payload u) = Some sl ->
    sl_slice_header sl = slh_of ref nut s p v -> valid_slice ref nut s p v ->
    shows d l ps ->
    shows d ((u, off, len) :: l) (if first_mb_in_slice (s_lead v) =? 0 then mkpict nut ref v (or_zero d) :: ps else ps)
| shows_other : forall d u off len l ps, ~ In (nal_unit_type (nu_header u)) [1; 5; 8] -> shows d l ps -> shows d ((u, off, len) :: l) ps.
(** The last sequence parameter set *)
Fixpoint last_sps (before : option sps) (l : list (nalu * N * N)) : option sps :=
  match l with
  | [] => before
  | (u, _, _) :: t => last_sps (if nal_unit_type (nu_header u) =? 7 then pl_sps (nu_payload u) else before) t
  end.
Definition pysps_of (s : sps) : pysps := mkpysps (log2_max_frame_num_minus4 s) (max_num_ref_frames s) (pic_order_cnt_type s).

Definition dpb_args (input : string) : ToolText.args :=
  mkargs false false false false false false false false (-1) 30 None (Some input) None.
Lemma dpb_args_eq : forall input, parse_args (dpb_options input) = Go (dpb_args input).
Proof. reflexivity. Qed.

Definition parsed (e : nalu * N * N) : Prop := IsPayloadParsed (nu_payload (fst (fst e))) (nal_unit_type (nu_header (fst (fst e)))) = true.
(** a text of a unit *)
Definition unit_rest (e : nalu * N * N) (t : string) : Prop :=
  let '(u, off, len) := e in
  printable (unit_body dpb_popts off len u) /\
  render_rest 0 (map deeper (unit_body dpb_popts off len u) ++ [L 0 ["}"%string]]) = Ok t.
Lemma units_texts : forall input data l,
  Forall (fun e => exists st, good_unit st false (fst (fst e))) l ->
  exists Ts, units_text (dpb_args input) data l = Ok (String.concat "" (map (fun t => ("nal_unit {" ++ t) ++ String newline "")%string Ts)) /\
    Forall (calm "n" false) Ts /\ Forall2 unit_rest l Ts.
Proof.
  intros input data l F.
  induction F as [|[[u off] len] l (st & G) F (Ts & E & C & R)]; [exists []; repeat split; constructor|].
  assert (ND : nice (dump_nalu dpb_popts off len u)) by (eapply nice_nalu with (ck := false); [discriminate|exact G]).
  apply nice_printable in ND. rewrite nalu_body in ND. 
  assert (P : printable (unit_body dpb_popts off len u)).
  { apply Forall_cons_iff in ND. destruct ND as [_ N2]. apply Forall_app in N2. destruct N2 as [N2 _].
    clear - N2. induction (unit_body dpb_popts off len u) as [|[k ws|k] d IH]; constructor;
      cbn [map deeper] in N2; apply Forall_cons_iff in N2; destruct N2 as [N2 N3]; auto. apply IH, N3. apply IH, N3. }
  destruct (render_rest_ok 0 (map deeper (unit_body dpb_popts off len u) ++ [L 0 ["}"%string]])) as (T & RT).
  { apply Forall_cons_iff in ND. apply ND. }
  exists (T :: Ts). split; [|split].
  - cbn [units_text]. unfold unit_text. change (parsing_options (dpb_args input)) with dpb_popts.
    change (indent_level (dpb_args input)) with 0%Z. rewrite nalu_body. cbn [render]. rewrite RT. cbn [rbind].
    change (arg_contents (dpb_args input)) with false. cbn [rbind]. rewrite E. cbn [rbind map]. rewrite concat_cons. reflexivity.
  - constructor; [|exact C]. eapply calm_block; [| |exact P|exact RT]; discriminate.
  - constructor; [|exact R]. split; assumption.
Qed.
Lemma parse_units_reads : forall l Ts d before,
  Forall (fun e => exists st, good_unit st false (fst (fst e))) l -> Forall parsed l -> Forall2 unit_rest l Ts ->
  exists ps, shows d l ps /\
    parse_units (map (fun t => t ++ String newline "")%string Ts) (option_map pysps_of before) d =
      Ok (option_map pysps_of (last_sps before l), map pict_frame ps).
Proof.
  intros l Ts d before F Q R. revert d before F Q.
  induction R as [|[[u off] len] t l Ts [PR RT] R IH]; intros d before F Q; [exists []; split; [constructor|reflexivity]|].
  apply Forall_cons_iff in F, Q. destruct F as [(st & G) F], Q as [Q1 Q]. cbn [fst] in G. unfold parsed in Q1. cbn [fst] in Q1. unfold IsPayloadParsed in Q1.
  cbn [map parse_units last_sps]. rewrite (number_type off len u t PR RT).
  destruct (N.eqb_spec (nal_unit_type (nu_header u)) 7) as [E7|N7].
  { destruct (pl_sps (nu_payload u)) as [s|] eqn:ES; [|discriminate].
    destruct (sps_numbers off len u t PR RT s E7 ES) as (-> & -> & ->). cbn [must rbind].
    destruct (IH d (Some s) F Q) as (ps & S & E). exists ps. split; [apply shows_other; [rewrite E7; cbn; lia|exact S]|exact E]. }
  destruct (N.eqb_spec (nal_unit_type (nu_header u)) 8) as [E8|N8].
  { destruct (pl_pps (nu_payload u)) as [p|] eqn:EP; [|discriminate].
    rewrite (pps_number off len u t PR RT p E8 EP). cbn [must rbind].
    destruct (IH (Some (pps_num_ref_idx_l0_default_active_minus1 p)) before F Q) as (ps & S & E). exists ps. split; [eapply shows_pps; eauto|exact E]. }
  destruct ((nal_unit_type (nu_header u) =? 1) || (nal_unit_type (nu_header u) =? 5)) eqn:EC.
  - assert (TY : nal_unit_type (nu_header u) = 1 \/ nal_unit_type (nu_header u) = 5) by lia.
    replace (nal_unit_type (nu_header u) =? 15) with false in Q1 by lia. replace (nal_unit_type (nu_header u) =? 14) with false in Q1 by lia.
    destruct (pl_slice (nu_payload u)) as [sl|] eqn:SL; [|discriminate].
    destruct (gp_slice _ _ _ (gu_payload _ _ _ G) sl SL) as (_ & s & p & v & _ & V & EH).
    rewrite (read_picture off len u t PR RT _ _ sl s p v eq_refl eq_refl TY SL EH V). cbn [rbind].
    destruct (IH d before F Q) as (ps & S & E). rewrite E. cbn [rbind fst snd].
    eexists. split; [eapply shows_slice; eauto|]. destruct (first_mb_in_slice (s_lead v) =? 0); reflexivity.
  - destruct (IH d before F Q) as (ps & S & E). exists ps. split; [apply shows_other; [cbn; lia|exact S]|exact E].
Qed.
Lemma frames_read : forall input data l,
  Forall (fun e => exists st, good_unit st false (fst (fst e))) l -> Forall parsed l ->
  exists text ps, units_text (dpb_args input) data l = Ok text /\ shows None l ps /\
    parse_frames text = Ok (option_map pysps_of (last_sps None l), map pict_frame ps).
Proof.
  intros input data l F Q. destruct (units_texts input data l F) as (Ts & E & C & R).
  destruct (parse_units_reads l Ts None None F Q R) as (ps & S & PU). eexists. exists ps. split; [exact E|]. split; [exact S|].
  unfold parse_frames. rewrite split_units by exact C. cbn [tl]. exact PU.
Qed.
