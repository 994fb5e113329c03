(** What h264nal-dpb_parse.py reads from the text of a unit. *)
From Coq Require Import NArith ZArith List Bool Lia ZifyBool ZifyNat ZifyN String Ascii.
From Verif Require Import SpecBits Base Parser TypesNal NalUnit TypesNalUnit TypesSps Sps TypesPps Pps TypesSlice TypesSliceHeader SliceHeader SpecDump Dump DumpProofs
  SpecVui SpecSliceParts SpecSlice DumpProofs2 PyText PyText2 PyTextProofs SplitProofs ToolTextProofs Dpb DpbProofs DpbProofs2.
Import ListNotations.
Open Scope N_scope.
Open Scope list_scope.
Ltac Zify.zify_post_hook ::= Z.div_mod_to_equations.

(** The dictionary of a picture whose first slice has the header [v]; [default]:
    num_ref_idx_l0_default_active_minus1 *)
Definition cmds_of (v : slice) : option (list mmco) := match s_marking v with Some (Marking cs) => cs | _ => None end.
Definition idr_long_term (v : slice) : N := match s_marking v with Some (IdrMarking _ b) => b | _ => 0 end.
Definition frame_of (default nut ref : N) (v : slice) : frame :=
  mkframe nut (s_type v) (frame_num (s_pic v)) ref
    ((if num_ref_idx_active_override_flag (s_refs v) =? 1 then num_ref_idx_l0_active_minus1 (s_refs v) else default) + 1)
    (idr_long_term v)
    (ops mmco_op 0 (cmds_of v)) (args mmco_diff (cmds_of v)) (args mmco_frame (cmds_of v)) (args mmco_max (cmds_of v))
    (flag_of (s_rpl0 v))
    (match s_rpl0 v with Some _ => ops rpl_idc 3 (s_rpl0 v) ++ ops rpl_idc 3 (s_rpl1 v) | None => [] end)
    (match s_rpl0 v with Some _ => args rpl_abs (s_rpl0 v) ++ args rpl_abs (s_rpl1 v) | None => [] end)
    (match s_rpl0 v with
     | Some _ => match args rpl_long (s_rpl0 v) ++ args rpl_long (s_rpl1 v) with
                 | [] => args mmco_long (cmds_of v)
                 | l => l
                 end
     | None => []
     end).

Definition dpb_popts : popts := mkpo false false false false false.
Section unit_text.
  Context (off len : N) (u : nalu) (T : string).
  Let body := map deeper (unit_body dpb_popts off len u) ++ [L 0 ["}"%string]].
  Context (P : printable (unit_body dpb_popts off len u)) (R : render_rest 0 body = Ok T).
  Let line_end := String newline "".
  Let text := (T ++ line_end)%string.
  Lemma dbody_printable : printable body.
  Proof. apply printable_app; [apply printable_deeper, P|]. repeat constructor. Qed.
  Lemma body_find : forall lab, lfind lab body = lfind lab (unit_body dpb_popts off len u).
  Proof. intros lab. unfold body. rewrite lfind_app, lfind_deeper. destruct (lfind lab _); reflexivity. Qed.
  Section label.
    Context (name lab : string) (SL : all solid lab = true) (NL : lab <> ""%string).
    Lemma line_end_start : newline_start line_end.
    Proof. right. exists ""%string. reflexivity. Qed.
    Lemma text_none : forall A (m : string -> option A), lfind lab (unit_body dpb_popts off len u) = None -> search (M lab m) text = None.
    Proof.
      intros A m E. rewrite <- body_find in E. unfold text.
      rewrite (find_rest_none lab m SL NL 0 body T line_end ltac:(lia) dbody_printable R line_end_start E).
      unfold line_end. rewrite (search_white lab m SL NL) by reflexivity. apply (search_solid lab m ""%string eq_refl).
    Qed.
    Lemma number_at : forall n, (name ++ ": ")%string = (lab ++ " ")%string -> lfind lab (unit_body dpb_popts off len u) = Some [dec n] -> number name text = Some n.
    Proof.
      intros n EN E. rewrite <- body_find in E. unfold number, text. rewrite EN. change (after (lab ++ " ") ?m) with (M lab m).
      rewrite (find_rest_some lab (several digit10) SL NL 0 body T line_end [dec n] (dec n) ltac:(lia) dbody_printable R line_end_start E).
      - apply (f_equal Some), int_dec.
      - intros t NS. cbn [String.concat]. rewrite <- (several_dec n). destruct NS as [->|(t' & ->)]; [rewrite app_nil_s; reflexivity|].
        apply several_local; [apply digit10_solid| |reflexivity]. eapply all_impl; [|apply dec_digits]. apply digit10_solid.
    Qed.
    Lemma number_none : (name ++ ": ")%string = (lab ++ " ")%string -> lfind lab (unit_body dpb_popts off len u) = None -> number name text = None.
    Proof.
      intros EN E. unfold number. rewrite EN. change (after (lab ++ " ") ?m) with (M lab m). rewrite text_none by exact E. reflexivity.
    Qed.
    Lemma numbers_at : forall l, lfind lab (unit_body dpb_popts off len u) = Some (braced l) -> numbers lab text = l.
    Proof.
      intros l E. rewrite <- body_find in E. unfold numbers, text. change (after (lab ++ " ") ?m) with (M lab m).
      rewrite (find_rest_some lab _ SL NL 0 body T line_end (braced l) (listed (map dec l)) ltac:(lia) dbody_printable R line_end_start E).
      - apply listed_ints.
      - intros t _. apply braces.
    Qed.
    Lemma numbers_none : lfind lab (unit_body dpb_popts off len u) = None -> numbers lab text = [].
    Proof. intros E. unfold numbers. change (after (lab ++ " ") ?m) with (M lab m). rewrite text_none by exact E. reflexivity. Qed.
  End label.
  Ltac number_by lab := eapply (number_at _ lab); [reflexivity|discriminate|reflexivity|].
  Lemma number_type : number "nal_unit_type" text = Some (nal_unit_type (nu_header u)).
  Proof.
    number_by "nal_unit_type:"%string. unfold unit_body, dump_nalh. cbn [dpb_popts add_offset add_length add_parsed_length add_checksum Dump.when app].
    apply hit, in_block; [reflexivity|]. over 2. apply hit, at_fu. reflexivity.
  Qed.
  Lemma number_ref : number "nal_ref_idc" text = Some (nal_ref_idc (nu_header u)).
  Proof.
    number_by "nal_ref_idc:"%string. unfold unit_body, dump_nalh. cbn [dpb_popts add_offset add_length add_parsed_length add_checksum Dump.when app].
    apply hit, in_block; [reflexivity|]. over 1. apply hit, at_fu. reflexivity.
  Qed.
  (** the payload *)
  Lemma in_payload : forall lab r nut, nal_unit_type (nu_header u) = nut -> In nut [1; 5; 7; 8] -> 
    ends lab "nal_unit_header" = false -> ends lab "forbidden_zero_bit:" = false -> ends lab "nal_ref_idc:" = false ->
    ends lab "nal_unit_type:" = false -> ends lab "nal_unit_payload" = false ->
    lfind lab (match nut with
               | 7 => maybe (pl_sps (nu_payload u)) (dump_sps dpb_popts)
               | 8 => maybe (pl_pps (nu_payload u)) dump_pps
               | _ => maybe (pl_slice (nu_payload u)) dump_slp end) = r ->
    lfind lab (unit_body dpb_popts off len u) = r.
  Proof.
    intros lab r nut E I E1 E2 E3 E4 E5 H. unfold unit_body, dump_nalh, dump_payload. rewrite E. cbn [dpb_popts add_offset add_length add_parsed_length add_checksum Dump.when app].
    apply skip.
    - apply in_block; [exact E1|]. apply skip; [apply not_fu, E2|]. apply skip; [apply not_fu, E3|]. apply skip; [apply not_fu, E4|].
      repeat (destruct I as [<-|I]; [reflexivity|]). destruct I.
    - apply in_block; [exact E5|]. repeat (destruct I as [<-|I]; [exact H|]). destruct I.
  Qed.
  Ltac payload N := eapply in_payload; [exact N|cbn; tauto|vm_compute; reflexivity..|]; cbv iota beta.
  Section sets.
    Lemma sps_numbers : forall s, nal_unit_type (nu_header u) = 7 -> pl_sps (nu_payload u) = Some s ->
      number "log2_max_frame_num_minus4" text = Some (log2_max_frame_num_minus4 s) /\
      number "max_num_ref_frames" text = Some (max_num_ref_frames s) /\
      number "pic_order_cnt_type" text = Some (pic_order_cnt_type s).
    Proof.
      intros s N E.
      assert (PW : forall lab, In lab ["log2_max_frame_num_minus4:"; "max_num_ref_frames:"; "pic_order_cnt_type:"]%string ->
        lfind lab [L 0 ("profile:"%string :: profile_words (profile_type s))] = None).
      { intros lab I. repeat (destruct I as [<-|I]; [destruct (profile_type s); reflexivity|]). destruct I. }
      split; [|split].
      - number_by "log2_max_frame_num_minus4:"%string. payload N. rewrite E. cbn [maybe]. unfold dump_sps, dump_sps_data, dump_scal.
        do 2 (apply in_block; [reflexivity|]). over 8. apply skip; [apply PW; cbn; tauto|]. over 3. apply hit, at_fu. reflexivity.
      - number_by "max_num_ref_frames:"%string. payload N. rewrite E. cbn [maybe]. unfold dump_sps, dump_sps_data, dump_scal.
        do 2 (apply in_block; [reflexivity|]). over 8. apply skip; [apply PW; cbn; tauto|]. over 6. apply hit, at_fu. reflexivity.
      - number_by "pic_order_cnt_type:"%string. payload N. rewrite E. cbn [maybe]. unfold dump_sps, dump_sps_data, dump_scal.
        do 2 (apply in_block; [reflexivity|]). over 8. apply skip; [apply PW; cbn; tauto|]. over 4. apply hit, at_fu. reflexivity.
    Qed.
    Lemma pps_number : forall p, nal_unit_type (nu_header u) = 8 -> pl_pps (nu_payload u) = Some p ->
      number "num_ref_idx_l0_default_active_minus1" text = Some (pps_num_ref_idx_l0_default_active_minus1 p).
    Proof.
      intros p N E. number_by "num_ref_idx_l0_default_active_minus1:"%string. payload N. rewrite E. cbn [maybe]. unfold dump_pps.
      apply in_block; [reflexivity|]. over 6. apply hit, at_fu. reflexivity.
    Qed.
  End sets.
  (** ** A slice *)
  Context (nut ref : N) (sl : slp) (s : sps) (p : pps) (v : slice).
  Context (NUT : nal_unit_type (nu_header u) = nut) (REF : nal_ref_idc (nu_header u) = ref) (TY : nut = 1 \/ nut = 5)
    (SLI : pl_slice (nu_payload u) = Some sl) (HDR : sl_slice_header sl = slh_of ref nut s p v) (VAL : valid_slice ref nut s p v).
  Let h := slh_of ref nut s p v.
  Lemma slice_find : forall lab r, ends lab "nal_unit_header" = false -> ends lab "forbidden_zero_bit:" = false -> ends lab "nal_ref_idc:" = false ->
    ends lab "nal_unit_type:" = false -> ends lab "nal_unit_payload" = false -> ends lab "slice_layer_without_partitioning_rbsp" = false ->
    lfind lab (dump_slh h) = r -> lfind lab (unit_body dpb_popts off len u) = r.
  Proof.
    intros lab r E1 E2 E3 E4 E5 E6 H. apply (in_payload lab r nut); auto; [cbn; destruct TY as [-> | ->]; tauto|].
    assert (X : lfind lab (maybe (pl_slice (nu_payload u)) dump_slp) = r).
    { rewrite SLI. cbn [maybe]. unfold dump_slp. apply in_block; [exact E6|]. rewrite HDR. exact H. }
    destruct TY as [E|E]; rewrite E; exact X.
  Qed.
  Ltac in_slice := apply slice_find; [vm_compute; reflexivity..|].
  Lemma mark_eq : marking_of h = option_map (drpm_of (idr_flag_of nut)) (s_marking v).
  Proof.
    unfold marking_of. cbn [h slh_of sh_in sh_dec_ref_pic_marking inputs_of in_nal_ref_idc].
    destruct VAL as (_ & _ & _ & _ & _ & _ & _ & _ & V & _). destruct (ref =? 0) eqn:E; cbn [negb] in *; [|reflexivity].
    cbn [opt_ok] in V. rewrite V. reflexivity.
  Qed.
  Lemma idr_flag : tob (idr_flag_of nut) = (nut =? 5).
  Proof. unfold idr_flag_of. destruct (nut =? 5); reflexivity. Qed.
  Lemma mark_cases : s_marking v = None \/ (nut = 5 /\ exists a b, s_marking v = Some (IdrMarking a b)) \/
    (nut = 1 /\ exists cs, s_marking v = Some (Marking cs)).
  Proof.
    destruct VAL as (_ & _ & _ & _ & _ & _ & _ & _ & V & _). destruct (ref =? 0); cbn [negb opt_ok] in V; [left; exact V|].
    destruct V as ([a b|cs] & -> & V); right; cbn [valid_marking] in V.
    - left. unfold idr_flag_of in V. destruct (N.eqb_spec nut 5); [|destruct V; congruence]. split; [assumption|]. eauto.
    - right. unfold idr_flag_of in V. destruct (N.eqb_spec nut 5); [destruct V; discriminate|]. split; [tauto|]. eauto.
  Qed.
  Lemma uses_refs_eq : uses_refs_b h = uses_refs (s_type v).
  Proof.
    destruct VAL as ((_ & V & _) & _). unfold uses_refs_b, uses_refs, is_P, is_SP, is_B, is_type, P_slice, SP_slice, B_slice, s_type.
    cbn [h slh_of sh_lead]. cbv zeta. lia.
  Qed.
  Lemma override_cases : num_ref_idx_active_override_flag (s_refs v) = 0 \/ (uses_refs (s_type v) = true /\ num_ref_idx_active_override_flag (s_refs v) = 1).
  Proof.
    destruct VAL as (_ & _ & _ & _ & _ & (_ & V) & _). destruct (uses_refs (s_type v)); [|left; apply V].
    destruct V as [V _]. unfold is_u in V. change (2 ^ 1) with 2 in V. lia.
  Qed.
  Lemma read_picture : forall default, parse_picture default nut text =
    Ok (if first_mb_in_slice (s_lead v) =? 0 then Some (frame_of default nut ref v) else None).
  Proof.
    intros default. unfold parse_picture.
    replace (number "first_mb_in_slice" text) with (Some (first_mb_in_slice (s_lead v))).
    2: { symmetry. number_by "first_mb_in_slice:"%string. in_slice. apply slh_first_mb. }
    destruct (first_mb_in_slice (s_lead v)) as [|q]; cbn [N.eqb]; [|reflexivity].
    replace (number "slice_type" text) with (Some (s_type v)).
    2: { symmetry. number_by "slice_type:"%string. in_slice. apply slh_type. }
    replace (number "frame_num" text) with (Some (frame_num (s_pic v))).
    2: { symmetry. number_by "frame_num:"%string. in_slice. apply slh_frame_num. }
    rewrite number_ref, REF. cbn [must rbind].
    assert (OV : (if is_one (number "num_ref_idx_active_override_flag" text)
             then rbind (must (number "num_ref_idx_l0_active_minus1" text)) (fun n => Ok (n + 1))
             else Ok (default + 1)) = Ok ((if num_ref_idx_active_override_flag (s_refs v) =? 1 then num_ref_idx_l0_active_minus1 (s_refs v) else default) + 1)).
    { assert (X : number "num_ref_idx_active_override_flag" text = if uses_refs (s_type v) then Some (num_ref_idx_active_override_flag (s_refs v)) else None).
      { rewrite <- uses_refs_eq. destruct (uses_refs_b h) eqn:E.
        - number_by "num_ref_idx_active_override_flag:"%string. in_slice. rewrite slh_override, E. reflexivity.
        - apply (number_none _ "num_ref_idx_active_override_flag:"); [reflexivity|discriminate|reflexivity|]. in_slice. rewrite slh_override, E. reflexivity. }
      rewrite X. destruct override_cases as [O|[U O]]; rewrite O.
      - destruct (uses_refs (s_type v)); reflexivity.
      - rewrite U. cbn [is_one N.eqb Pos.eqb].
        replace (number "num_ref_idx_l0_active_minus1" text) with (Some (num_ref_idx_l0_active_minus1 (s_refs v))); [reflexivity|].
        symmetry. number_by "num_ref_idx_l0_active_minus1:"%string. in_slice. apply slh_active. rewrite uses_refs_eq, U.
        cbn [h slh_of sh_refs]. rewrite O. reflexivity. }
    rewrite OV. cbn [rbind]. clear OV. unfold frame_of. apply (f_equal Ok), (f_equal Some).
    assert (LT : (if nut =? 5 then or_zero (number "long_term_reference_flag" text) else 0) = idr_long_term v).
    { unfold idr_long_term. destruct mark_cases as [E|[[E5 (a & b & E)]|[E1 (cs & E)]]].
      - rewrite E. destruct (nut =? 5); [|reflexivity].
        rewrite (number_none _ "long_term_reference_flag:"); [reflexivity|reflexivity|discriminate|reflexivity|]. in_slice. rewrite slh_long_term, mark_eq, E. reflexivity.
      - rewrite E, E5. cbn [N.eqb Pos.eqb].
        replace (number "long_term_reference_flag" text) with (Some b); [reflexivity|]. symmetry. number_by "long_term_reference_flag:"%string.
        in_slice. rewrite slh_long_term, mark_eq, E. cbn [option_map drpm_of dr_IdrPicFlag]. rewrite idr_flag, E5. reflexivity.
      - rewrite E, E1. reflexivity. }
    rewrite LT. clear LT.
    assert (AD : is_one (number "adaptive_ref_pic_marking_mode_flag" text) = match cmds_of v with Some _ => true | None => false end).
    { unfold cmds_of. destruct mark_cases as [E|[[E5 (a & b & E)]|[E1 (cs & E)]]]; rewrite E.
      - rewrite (number_none _ "adaptive_ref_pic_marking_mode_flag:"); [reflexivity|reflexivity|discriminate|reflexivity|]. in_slice. rewrite slh_adaptive, mark_eq, E. reflexivity.
      - rewrite (number_none _ "adaptive_ref_pic_marking_mode_flag:"); [reflexivity|reflexivity|discriminate|reflexivity|]. in_slice. rewrite slh_adaptive, mark_eq, E.
        cbn [option_map drpm_of dr_IdrPicFlag]. rewrite idr_flag, E5. reflexivity.
      - replace (number "adaptive_ref_pic_marking_mode_flag" text) with (Some (flag_of cs)); [destruct cs; reflexivity|].
        symmetry. number_by "adaptive_ref_pic_marking_mode_flag:"%string. in_slice. rewrite slh_adaptive, mark_eq, E.
        cbn [option_map drpm_of dr_IdrPicFlag]. rewrite idr_flag, E1. reflexivity. }
    rewrite AD. clear AD.
    assert (ML : (if match cmds_of v with Some _ => true | None => false end then numbers "memory_management_control_operation" text else []) = ops mmco_op 0 (cmds_of v) /\
      (if match cmds_of v with Some _ => true | None => false end then numbers "difference_of_pic_nums_minus1" text else []) = args mmco_diff (cmds_of v) /\
      (if match cmds_of v with Some _ => true | None => false end then numbers "long_term_frame_idx" text else []) = args mmco_frame (cmds_of v) /\
      (if match cmds_of v with Some _ => true | None => false end then numbers "max_long_term_frame_idx_plus1" text else []) = args mmco_max (cmds_of v)).
    { destruct (cmds_of v) as [cs|] eqn:EC; [|repeat split; reflexivity]. unfold cmds_of in EC.
      destruct (s_marking v) as [[a b|cs']|] eqn:EM; try discriminate. subst cs'.
      assert (N1 : nut = 1) by (destruct mark_cases as [E|[[E5 (a & b & E)]|[E1 _]]]; congruence).
      pose proof mark_eq as ME. rewrite EM in ME. cbn [option_map] in ME.
      assert (I0 : tob (dr_IdrPicFlag (drpm_of (idr_flag_of nut) (Marking (Some cs)))) = false) by (rewrite N1; reflexivity).
      split; [|split; [|split]].
      - apply numbers_at; [reflexivity|discriminate|]. in_slice. apply (slh_mmco h _ ME I0 eq_refl).
      - apply numbers_at; [reflexivity|discriminate|]. in_slice. apply (slh_diffs h _ ME I0 eq_refl).
      - apply numbers_at; [reflexivity|discriminate|]. in_slice. apply (slh_ltfi h _ ME I0 eq_refl).
      - apply numbers_at; [reflexivity|discriminate|]. in_slice. apply (slh_mltfi h _ ME I0 eq_refl). }
    destruct ML as (-> & -> & -> & ->).
    assert (RF : number "ref_pic_list_modification_flag_l0" text = Some (flag_of (s_rpl0 v))).
    { number_by "ref_pic_list_modification_flag_l0:"%string. in_slice. apply slh_rplm. }
    rewrite RF. cbn [or_zero]. destruct (s_rpl0 v) as [cs0|] eqn:E0; cbn [flag_of N.eqb negb]; [|reflexivity]. change (1 =? 0) with false. cbn [negb].
    assert (NEM : forall lab l, all solid lab = true -> lab <> ""%string -> lfind lab (unit_body dpb_popts off len u) = (if nonempty l then Some (braced l) else None) -> numbers lab text = l).
    { intros lab l A NE E. destruct l as [|x l]; [apply numbers_none; auto|]. apply numbers_at; auto. }
    f_equal.
    - apply NEM; [reflexivity|discriminate|]. in_slice. rewrite slh_mod_idc. cbn [h slh_of sh_ref_pic_list_modification rplm_of rp_modification_of_pic_nums_idc]. rewrite E0. reflexivity.
    - apply NEM; [reflexivity|discriminate|]. in_slice. rewrite slh_abs_diff. cbn [h slh_of sh_ref_pic_list_modification rplm_of rp_abs_diff_pic_num_minus1]. rewrite E0. reflexivity.
    - destruct (args rpl_long (Some cs0) ++ args rpl_long (s_rpl1 v)) as [|x l] eqn:EL.
      + pose proof (slh_lt_pic_num' h) as X. cbn [h slh_of sh_ref_pic_list_modification rplm_of rp_long_term_pic_num] in X. rewrite E0, EL in X. specialize (X eq_refl).
        fold h in X. rewrite mark_eq in X. unfold cmds_of.
        destruct mark_cases as [E|[[E5 (a & b & E)]|[E1 (cs & E)]]]; rewrite E in *; cbn [option_map drpm_of dr_IdrPicFlag] in X.
        * apply numbers_none; [reflexivity|discriminate|]. in_slice. exact X.
        * rewrite idr_flag, E5 in X. apply numbers_none; [reflexivity|discriminate|]. in_slice. exact X.
        * rewrite idr_flag, E1 in X. destruct cs as [cs|].
          -- apply numbers_at; [reflexivity|discriminate|]. in_slice. exact X.
          -- apply numbers_none; [reflexivity|discriminate|]. in_slice. exact X.
      + apply numbers_at; [reflexivity|discriminate|]. in_slice. rewrite slh_lt_pic_num; cbn [h slh_of sh_ref_pic_list_modification rplm_of rp_long_term_pic_num]; rewrite E0, EL; [reflexivity|discriminate].
  Qed.
End unit_text.
