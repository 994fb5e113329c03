(** What h264nal-conformance.py reads from the parameter sets. *)
From Coq Require Import NArith ZArith List Bool Lia ZifyBool ZifyNat ZifyN String Ascii.
From Verif Require Import Base Parser TypesNal TypesNalUnit TypesSps Sps TypesPps TypesExt TypesSlice TypesSliceHeader SliceHeader
  TypesSvcSlice SpecDump Dump DumpProofs PyText PyText2 PyTextProofs Conformance SpecConformance
  ConfProofs ConfProofs2 ConfProofs3 ConfProofs4 ConfProofs5.
Import ListNotations.
Open Scope N_scope.
Open Scope list_scope.

(** * Lines *)
Lemma splitlines_line : forall s t, all (fun c => negb (line_end c)) s = true -> splitlines (s ++ String newline t) = s :: splitlines t.
Proof.
  induction s as [|c s IH]; intros t A.
  - cbn [append splitlines]. change (line_end newline) with true. cbv iota. destruct t; reflexivity.
  - cbn [all] in A. apply andb_true_iff in A. destruct A as [A1 A2]. cbn [append splitlines]. destruct (line_end c); [discriminate|].
    rewrite IH by exact A2. reflexivity.
Qed.
Lemma concat_all : forall f ws, f space = true -> Forall (fun w => all f w = true) ws -> all f (String.concat " " ws) = true.
Proof.
  intros f ws S F. induction F as [|w ws H F IH]; [reflexivity|]. destruct ws as [|v ws]; [exact H|].
  change (String.concat " " (w :: v :: ws)) with (w ++ String space (String.concat " " (v :: ws)))%string.
  assert (X : forall a b, all f (a ++ b) = all f a && all f b).
  { induction a as [|x a IHa]; intros b; cbn [append all]; [reflexivity|]. rewrite IHa, andb_assoc. reflexivity. }
  rewrite X, H. cbn [all andb]. rewrite S, IH. reflexivity.
Qed.
Lemma unit_lines : forall l, units_ok l -> splitlines (units_string l) = map (fun u => String.concat " " (unit_words u)) l.
Proof.
  intros l F. unfold units_string. induction F as [|u l P F IH]; [reflexivity|]. cbn [map]. rewrite concat_empty_cons, app_assoc_s. cbn [append].
  rewrite splitlines_line, IH; [reflexivity|]. apply concat_all; [reflexivity|].
  eapply Forall_impl; [|apply tidy_graphic, (tidyish_tidy _ (unit_tidyish 0 0 u) P)]. intros w. apply all_impl. intros c G.
  unfold graphic, line_end in *. cbv zeta in *. lia.
Qed.

(** * Numbers *)
Lemma signed_dec : forall n, signed (dec n) = Some (Z.of_N n).
Proof.
  intros n. pose proof (several_dec n) as S. pose proof (dec_digits n) as D. pose proof (int_dec n) as I. unfold signed. destruct (dec n) as [|c s]; [discriminate|].
  destruct (Ascii.eqb_spec c "-") as [->|]; [discriminate|]. rewrite S. cbn [option_map]. rewrite I. reflexivity.
Qed.
Lemma signed_deci : forall z, (0 <= z)%Z -> signed (deci z) = Some z.
Proof. intros z H. rewrite deci_dec, signed_dec by exact H. f_equal. lia. Qed.
Lemma signed_local : forall w c t, all solid w = true -> is_white c = true -> signed (w ++ String c t)%string = signed w.
Proof.
  intros [|x w] c t S W; unfold signed; cbn [append].
  - destruct (Ascii.eqb_spec c "-") as [->|]; [discriminate|].
    rewrite (several_local digit10 ""%string c t digit10_solid eq_refl W : several digit10 (String c t) = _). reflexivity.
  - pose proof S as S'. cbn [all] in S'. apply andb_true_iff in S'. destruct (Ascii.eqb x "-").
    + rewrite (several_local digit10) by (try apply S'; auto using digit10_solid). reflexivity.
    + change (String x (w ++ String c t)) with (String x w ++ String c t)%string. rewrite (several_local digit10) by (auto using digit10_solid). reflexivity.
Qed.
Lemma int_field : forall name u, labelish (name ++ ":") = true -> all graphic (name ++ ":") = true -> printable (dump_nalu conf_popts 0 0 u) ->
  get_int_field (String.concat " " (unit_words u)) name = hd_error (hits true (name ++ ":") signed (dump_nalu conf_popts 0 0 u)).
Proof.
  intros name u LB GL P. unfold get_int_field. rewrite search_b_all.
  rewrite (all_matches_ext _ _ (pat true (name ++ ":") signed)).
  2: { intros [] s; [reflexivity|]. unfold pat. cbn [andb]. rewrite app_assoc_s. reflexivity. }
  rewrite <- (app_nil_s (String.concat " " (unit_words u))).
  rewrite line_matches by (try assumption; try apply signed_local; left; reflexivity).
  rewrite (matches_solid true (name ++ ":") signed ""%string false eq_refl), app_nil_r. reflexivity.
Qed.
Lemma has_set : forall u, printable (dump_nalu conf_popts 0 0 u) -> str_in "sps_data {" (String.concat " " (unit_words u)) =
  match set_data (nal_unit_type (nu_header u)) (nu_payload u) with Some _ => true | None => false end.
Proof.
  intros u P. change "sps_data {"%string with ("sps_data" ++ " {")%string. rewrite in_pat.
  rewrite <- (app_nil_s (String.concat " " (unit_words u))).
  rewrite line_matches by (try exact P; try reflexivity; try apply brace_local; left; reflexivity).
  rewrite (matches_solid false "sps_data" (brace 0) ""%string false eq_refl), app_nil_r.
  rewrite unit_hits by (first [cbn; tauto|eapply printable_part, P]).
  change (hit false "sps_data" (brace 0) ("nal_unit"%string, "{"%string)) with (@nil nat).
  change (hit false "sps_data" (brace 0) ("nal_unit_type:"%string, dec (nal_unit_type (nu_header u)))) with (@nil nat). cbn [app].
  replace (hit_of false "sps_data" (brace 0) (header_block (nal_unit_type (nu_header u)) (nu_payload u))) with (@nil nat)
    by (symmetry; hit_cases; reflexivity).
  destruct (set_data (nal_unit_type (nu_header u)) (nu_payload u)); reflexivity.
Qed.

(** * Fields of a parameter set *)
Ltac hrules :=
  repeat first
  [ rewrite hits_app | rewrite hits_deeper | rewrite hits_block | rewrite hits_when
  | unfold fus, fis; rewrite hits_flist | unfold fu, fi, fiu; rewrite hits_fld
  | match goal with |- context [@hit ?A ?b ?l ?m (?k, ?v)] =>
      let c := eval vm_compute in (bends b l false k) in
      lazymatch c with
      | true => change (hit b l m (k, v)) with (opt (m v))
      | false => change (hit b l m (k, v)) with (@nil A)
      end end
  | rewrite app_nil_l ].
Definition sps_first (s : sps) : dump :=
  fu "profile_idc" (profile_idc s) ++
  fu "constraint_set0_flag" (constraint_set0_flag s) ++
  fu "constraint_set1_flag" (constraint_set1_flag s) ++
  fu "constraint_set2_flag" (constraint_set2_flag s) ++
  fu "constraint_set3_flag" (constraint_set3_flag s) ++
  fu "constraint_set4_flag" (constraint_set4_flag s) ++
  fu "constraint_set5_flag" (constraint_set5_flag s) ++
  fu "reserved_zero_2bits" (reserved_zero_2bits s).
Definition sps_middle (s : sps) : dump :=
  fu "seq_parameter_set_id" (seq_parameter_set_id s) ++
  Dump.when (prints_chroma (profile_idc s)) (
    fu "chroma_format_idc" (chroma_format_idc s) ++
    Dump.when (chroma_format_idc s =? 3)
      (fu "separate_colour_plane_flag" (separate_colour_plane_flag s)) ++
    fu "bit_depth_luma_minus8" (bit_depth_luma_minus8 s) ++
    fu "bit_depth_chroma_minus8" (bit_depth_chroma_minus8 s) ++
    fu "qpprime_y_zero_transform_bypass_flag" (qpprime_y_zero_transform_bypass_flag s) ++
    fu "seq_scaling_matrix_present_flag" (seq_scaling_matrix_present_flag s) ++
    dump_scal "seq_scaling_list_present_flag" (sps_scaling s)) ++
  fu "log2_max_frame_num_minus4" (log2_max_frame_num_minus4 s) ++
  fu "pic_order_cnt_type" (pic_order_cnt_type s) ++
  (if pic_order_cnt_type s =? 0 then
     fu "log2_max_pic_order_cnt_lsb_minus4" (log2_max_pic_order_cnt_lsb_minus4 s)
   else Dump.when (pic_order_cnt_type s =? 1) (
     fu "delta_pic_order_always_zero_flag" (delta_pic_order_always_zero_flag s) ++
     fi "offset_for_non_ref_pic" (offset_for_non_ref_pic s) ++
     fi "offset_for_top_to_bottom_field" (offset_for_top_to_bottom_field s) ++
     fu "num_ref_frames_in_pic_order_cnt_cycle" (num_ref_frames_in_pic_order_cnt_cycle s) ++
     fis "offset_for_ref_frame" (offset_for_ref_frame s))) ++
  fu "max_num_ref_frames" (max_num_ref_frames s) ++
  fu "gaps_in_frame_num_value_allowed_flag" (gaps_in_frame_num_value_allowed_flag s) ++
  fu "pic_width_in_mbs_minus1" (pic_width_in_mbs_minus1 s) ++
  fu "pic_height_in_map_units_minus1" (pic_height_in_map_units_minus1 s) ++
  fu "frame_mbs_only_flag" (frame_mbs_only_flag s) ++
  Dump.when (negb (tob (frame_mbs_only_flag s)))
    (fu "mb_adaptive_frame_field_flag" (mb_adaptive_frame_field_flag s)) ++
  fu "direct_8x8_inference_flag" (direct_8x8_inference_flag s) ++
  fu "frame_cropping_flag" (frame_cropping_flag s) ++
  Dump.when (tob (frame_cropping_flag s)) (
    fu "frame_crop_left_offset" (frame_crop_left_offset s) ++
    fu "frame_crop_right_offset" (frame_crop_right_offset s) ++
    fu "frame_crop_top_offset" (frame_crop_top_offset s) ++
    fu "frame_crop_bottom_offset" (frame_crop_bottom_offset s)) ++
  fu "vui_parameters_present_flag" (vui_parameters_present_flag s) ++
  Dump.when (tob (vui_parameters_present_flag s)) (deref (vui_parameters s) dump_vui) ++
  dump_resolution s.
Lemma sps_eq : forall s, dump_sps_data conf_popts s = block "sps_data" (
  sps_first s ++ L 0 ("profile:"%string :: profile_words (profile_type s)) :: fu "level_idc" (level_idc s) ++ sps_middle s).
Proof. reflexivity. Qed.
Definition small_labels : list string := ["width:"; "height:"]%string.
Lemma hrd_hits : forall lab h, In lab small_labels -> hits true lab signed (dump_hrd h) = [].
Proof. intros lab h [<-|[<-|[]]]; unfold dump_hrd; hrules; reflexivity. Qed.
Lemma vui_hits : forall lab v, In lab small_labels -> hits true lab signed (dump_vui v) = [].
Proof.
  intros lab v I. assert (H := hrd_hits lab). destruct I as [<-|[<-|[]]]; unfold dump_vui; hrules;
    destruct (nal_hrd_parameters v), (vcl_hrd_parameters v); cbn [deref]; rewrite ?H by (cbn; tauto);
    repeat match goal with |- context [if ?c then _ else _] => destruct c end; reflexivity.
Qed.
Lemma scal_hits : forall lab k s, In lab small_labels -> k = "seq_scaling_list_present_flag"%string -> hits true lab signed (dump_scal k s) = [].
Proof. intros lab k s [<-|[<-|[]]] ->; unfold dump_scal; hrules; reflexivity. Qed.
Lemma middle_hits : forall lab s, In lab small_labels -> hits true lab signed (sps_middle s) = hits true lab signed (dump_resolution s).
Proof.
  intros lab s I. assert (H := vui_hits lab). assert (H2 := scal_hits lab). unfold sps_middle.
  destruct I as [<-|[<-|[]]]; hrules; rewrite ?H2 by (cbn; tauto); 
    destruct (vui_parameters s); cbn [deref]; rewrite ?H by (cbn; tauto);
    destruct (pic_order_cnt_type s =? 0); hrules;
    repeat match goal with |- context [if ?c then [] else []] => replace (if c then @nil Z else []) with (@nil Z) by (destruct c; reflexivity) end;
    cbn [app]; try reflexivity;
    repeat match goal with |- context [if ?c then _ else _] => destruct c end; reflexivity.
Qed.
Lemma profile_hits : forall lab p k t, In lab ["profile_idc:"; "level_idc:"; "constraint_set3_flag:"; "width:"; "height:"]%string ->
  hits true lab signed (L k ("profile:"%string :: profile_words p) :: t) = hits true lab signed t.
Proof.
  intros lab p k t I. destruct I as [<-|[<-|[<-|[<-|[<-|[]]]]]]; destruct p; reflexivity.
Qed.
Lemma sps_fields : forall s w h, getResolution s = Ok (w, h) -> (0 <= w)%Z -> (0 <= h)%Z -> forall x,
  hd_error (hits true "profile_idc:" signed (dump_sps_data conf_popts s) ++ x) = Some (Z.of_N (profile_idc s)) /\
  hd_error (hits true "level_idc:" signed (dump_sps_data conf_popts s) ++ x) = Some (Z.of_N (level_idc s)) /\
  hd_error (hits true "constraint_set3_flag:" signed (dump_sps_data conf_popts s) ++ x) = Some (Z.of_N (constraint_set3_flag s)) /\
  hd_error (hits true "width:" signed (dump_sps_data conf_popts s) ++ x) = Some w /\
  hd_error (hits true "height:" signed (dump_sps_data conf_popts s) ++ x) = Some h.
Proof.
  intros s w h R W H x. rewrite sps_eq. unfold sps_first.
  split; [|split; [|split; [|split]]]; rewrite hits_block, hits_app, profile_hits, hits_app by (cbn; tauto);
    hrules; try rewrite (middle_hits "width:") by (left; reflexivity); try rewrite (middle_hits "height:") by (right; left; reflexivity);
    unfold dump_resolution; rewrite ?R; hrules; rewrite ?signed_dec, ?signed_deci by assumption; reflexivity.
Qed.
(** The unit around it *)
Lemma unit_set_hits : forall lab u s, In lab ["profile_idc:"; "level_idc:"; "constraint_set3_flag:"; "width:"; "height:"]%string ->
  set_data (nal_unit_type (nu_header u)) (nu_payload u) = Some s ->
  exists x, hits true lab signed (dump_nalu conf_popts 0 0 u) = hits true lab signed (dump_sps_data conf_popts s) ++ x.
Proof.
  intros lab u s I S. rewrite unit_eq. unfold set_data in S. rewrite content_eq.
  assert (HD : forall t, (t = 7 \/ t = 15) -> nal_unit_type (nu_header u) = t -> hits true lab signed (dump_nalh (nu_header u)) = []).
  { intros t T E. rewrite nalh_eq. unfold header_rest. rewrite E. destruct T as [->| ->]; cbn [N.eqb Pos.eqb orb Dump.when];
      destruct I as [<-|[<-|[<-|[<-|[<-|[]]]]]]; hrules; reflexivity. }
  destruct (N.eqb_spec (nal_unit_type (nu_header u)) 7) as [T|T].
  - rewrite (T : _ = 7). cbn [N.eqb Pos.eqb orb]. rewrite S. cbn [maybe]. exists []. rewrite app_nil_r.
    unfold dump_sps. rewrite hits_block, hits_app, (HD 7 (or_introl eq_refl) T), !hits_block.
    destruct I as [<-|[<-|[<-|[<-|[<-|[]]]]]]; reflexivity.
  - destruct (N.eqb_spec (nal_unit_type (nu_header u)) 15) as [T2|T2]; [|discriminate].
    rewrite (T2 : _ = 15). cbn [N.eqb Pos.eqb orb]. destruct (pl_subset_sps (nu_payload u)) as [v|]; [|discriminate]. cbn [option_map] in S. injection S as <-.
    cbn [maybe]. exists (hits true lab signed (subsps_rest v)). rewrite subsps_eq.
    rewrite hits_block, hits_app, (HD 15 (or_intror eq_refl) T2), !hits_block, hits_app.
    destruct I as [<-|[<-|[<-|[<-|[<-|[]]]]]]; reflexivity.
Qed.
