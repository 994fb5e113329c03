(** The simulation of h264nal-dpb_parse.py against the marking process. *)
From Coq Require Import NArith ZArith List Bool Lia ZifyBool ZifyNat ZifyN String Sorting.Sorted.
From Verif Require Import SpecBits Base TypesSliceHeader SpecVui SpecSliceParts SpecSlice Dump Dpb DpbProofs3 DpbProofs4 SpecDpb.
Import ListNotations.
Open Scope N_scope.
Open Scope list_scope.
Ltac Zify.zify_post_hook ::= Z.div_mod_to_equations.

(** ** The sliding window *)
Lemma without_first_app : forall l e, existsb short l = true -> without_first short (l ++ [e]) = without_first short l ++ [e].
Proof.
  induction l as [|x l IH]; intros e H; [discriminate|]. cbn [existsb] in H. cbn [app without_first]. destruct (short x); [reflexivity|].
  cbn [orb] in H. rewrite IH by exact H. reflexivity.
Qed.
Lemma without_first_none : forall l, existsb short l = false -> without_first short l = l.
Proof.
  induction l as [|x l IH]; intros H; [reflexivity|]. cbn [existsb] in H. cbn [without_first]. destruct (short x); [discriminate|]. rewrite IH by exact H. reflexivity.
Qed.
Lemma without_first_split : forall l, existsb short l = true -> exists a x b, l = a ++ x :: b /\ without_first short l = a ++ b /\ short x = true /\
  Forall (fun y => short y = false) a.
Proof.
  induction l as [|x l IH]; intros H; [discriminate|]. cbn [existsb] in H. cbn [without_first]. destruct (short x) eqn:E.
  - exists [], x, l. repeat split; auto.
  - destruct (IH H) as (a & y & b & -> & -> & S & F). exists (x :: a), y, b. repeat split; auto.
Qed.
Lemma short_count : forall l, N.of_nat (List.length (filter short l)) + N.of_nat (List.length (filter (fun e => negb (short e)) l)) = N.of_nat (List.length l).
Proof. induction l as [|x l IH]; [reflexivity|]. cbn [filter]. destruct (short x); cbn [negb List.length]; lia. Qed.
Lemma no_short : forall l, existsb short l = false -> filter short l = [].
Proof. induction l as [|x l IH]; intros H; [reflexivity|]. cbn [existsb] in H. cbn [filter]. destruct (short x); [discriminate|auto]. Qed.
Lemma slide_ends : forall l fuel max, (List.length l < fuel)%nat ->
  N.of_nat (List.length (filter (fun e => negb (short e)) l)) <= max -> exists l', slide_loop fuel max l = Ok l'.
Proof.
  intros l fuel max. revert l. induction fuel as [|fuel IH]; intros l LF LM; [lia|]. cbn [slide_loop].
  destruct (N.ltb_spec max (N.of_nat (List.length l))) as [H|H]; [|eauto].
  assert (S : existsb short l = true).
  { destruct (existsb short l) eqn:E; [reflexivity|]. apply no_short in E. pose proof (short_count l). rewrite E in *. cbn [List.length] in *. lia. }
  destruct (without_first_split l S) as (a & x & b & -> & -> & SX & F). apply IH.
  - rewrite app_length in *. cbn [List.length] in *. lia.
  - rewrite !filter_app, !app_length in *. cbn [filter] in *. rewrite SX in *. cbn [negb] in *. exact LM.
Qed.
Lemma slide_endless : forall l fuel max, max < N.of_nat (List.length (filter (fun e => negb (short e)) l)) -> slide_loop fuel max l = NoFuel.
Proof.
  intros l fuel max. revert l. induction fuel as [|fuel IH]; intros l LM; [reflexivity|]. cbn [slide_loop].
  pose proof (short_count l). replace (max <? N.of_nat (List.length l)) with true by lia. apply IH.
  destruct (existsb short l) eqn:E.
  - destruct (without_first_split l E) as (a & x & b & -> & -> & SX & F). rewrite !filter_app, !app_length in *. cbn [filter] in *. rewrite SX in *. exact LM.
  - rewrite without_first_none by exact E. exact LM.
Qed.
(** more rounds than entries are not needed *)
Lemma slide_fuel : forall l f1 f2 max, (List.length l < f1)%nat -> (List.length l < f2)%nat -> slide_loop f1 max l = slide_loop f2 max l.
Proof.
  intros l f1. revert l. induction f1 as [|f1 IH]; intros l f2 max L1 L2; [lia|]. destruct f2 as [|f2]; [lia|]. cbn [slide_loop].
  destruct (N.ltb_spec max (N.of_nat (List.length l))) as [H|H]; [|reflexivity].
  destruct (existsb short l) eqn:E.
  - destruct (without_first_split l E) as (a & x & b & -> & -> & SX & F). rewrite app_length in *. cbn [List.length] in *. apply IH; rewrite app_length; lia.
  - rewrite without_first_none by exact E. rewrite !slide_endless; [reflexivity| |]; apply no_short in E; pose proof (short_count l); rewrite E in *; cbn [List.length] in *; lia.
Qed.

(** ** Commands *)
(** What an operation does to the entries of the script *)
Definition script_op (cur abs : N) (c : mmco) (dpb : list dent) : list dent :=
  let is_x d e := short e && num_is (Z.of_N cur - (Z.of_N d + 1)) e in
  match c with
  | UnmarkShort d => filter (fun e => negb (is_x d e)) dpb
  | UnmarkLong _ => dpb
  | MakeLong d i => mark_first (is_x d) i dpb
  | MaxLong m => filter (fun e => negb match d_ltr e with Some i => m <=? i | None => false end) dpb
  | UnmarkAll => []
  | CurrentLong i => filter (fun e => negb (long_at i e)) dpb ++ [mkdent cur (Some i) abs]
  end.
Lemma run_mmco_ops : forall cs tail1 tail2 tail3 cur abs dpb,
  run_mmco (map mmco_op cs ++ [0]) (flat_map mmco_diff cs ++ tail1) (flat_map mmco_frame cs ++ tail2) (flat_map mmco_max cs ++ tail3) cur abs dpb =
  Ok (fold_left (fun l c => script_op cur abs c l) cs dpb).
Proof.
  induction cs as [|c cs IH]; intros t1 t2 t3 cur abs dpb; [reflexivity|].
  cbn [map flat_map fold_left app]. rewrite <- !app_assoc. destruct c; cbn [mmco_op mmco_diff mmco_frame mmco_max app]; cbn [run_mmco N.eqb Pos.eqb]; rewrite IH; reflexivity.
Qed.
Lemma run_mmco_cmds : forall cs cur abs dpb,
  run_mmco (ops mmco_op 0 (Some cs)) (args mmco_diff (Some cs)) (args mmco_frame (Some cs)) (args mmco_max (Some cs)) cur abs dpb =
  Ok (fold_left (fun l c => script_op cur abs c l) cs dpb).
Proof.
  intros. unfold ops, args. rewrite <- (app_nil_r (flat_map mmco_diff cs)), <- (app_nil_r (flat_map mmco_frame cs)), <- (app_nil_r (flat_map mmco_max cs)).
  apply run_mmco_ops.
Qed.
Lemma mmco_parts_ok : forall cs tail1 tail2 tail3 cur, exists ps,
  mmco_parts (map mmco_op cs ++ [0]) (flat_map mmco_diff cs ++ tail1) (flat_map mmco_frame cs ++ tail2) (flat_map mmco_max cs ++ tail3) cur = Ok ps.
Proof.
  induction cs as [|c cs IH]; intros t1 t2 t3 cur; [eexists; reflexivity|].
  cbn [map flat_map app]. rewrite <- !app_assoc. destruct (IH t1 t2 t3 cur) as (ps & E).
  destruct c; cbn [mmco_op mmco_diff mmco_frame mmco_max app mmco_parts N.eqb Pos.eqb]; rewrite E; cbn [rbind]; eauto.
Qed.
Lemma mmco_str_ok : forall c, exists s, mmco_str (pict_frame c) = Ok s.
Proof.
  intros c. unfold mmco_str. destruct (is_idr _); [eauto|]. unfold pict_frame, frame_of. cbn [f_mmco f_diff_pic_nums f_long_term_frame_idx f_max_long_term_frame_idx_plus1 f_frame_num].
  destruct (cmds_of (pc_slice c)) as [cs|]; cbn [ops args]; [|eauto].
  destruct (map mmco_op cs ++ [0]) as [|o os] eqn:E; [eauto|]. rewrite <- E.
  destruct (mmco_parts_ok cs [] [] [] (frame_num (s_pic (pc_slice c)))) as (ps & EP). rewrite !app_nil_r in EP. rewrite EP. eexists. reflexivity.
Qed.
Lemma apply_rplm_ok : forall cs t1 t2 t3 M pred idx l, exists l',
  apply_rplm (map rpl_idc cs ++ 3 :: t1) (flat_map rpl_abs cs ++ t2) (flat_map rpl_long cs ++ t3) M pred idx l = Ok l'.
Proof.
  induction cs as [|c cs IH]; intros t1 t2 t3 M pred idx l; [eexists; reflexivity|].
  cbn [map flat_map app]. rewrite <- !app_assoc. destruct c; cbn [rpl_idc rpl_abs rpl_long app apply_rplm N.eqb Pos.eqb orb]; destruct (move_to _ idx l); apply IH.
Qed.
(** the lists that are read have a value for each command *)
Lemma frame_rplm : forall c cs0, s_rpl0 (pc_slice c) = Some cs0 -> exists t1 t2 t3,
  f_rplm_mod_idc (pict_frame c) = map rpl_idc cs0 ++ 3 :: t1 /\ f_rplm_abs_diff (pict_frame c) = flat_map rpl_abs cs0 ++ t2 /\
  f_rplm_lt_pic_num (pict_frame c) = flat_map rpl_long cs0 ++ t3.
Proof.
  intros c cs0 E. unfold pict_frame, frame_of. cbn [f_rplm_mod_idc f_rplm_abs_diff f_rplm_lt_pic_num]. rewrite E. cbn [ops args].
  exists (ops rpl_idc 3 (s_rpl1 (pc_slice c))), (args rpl_abs (s_rpl1 (pc_slice c))). rewrite <- app_assoc.
  destruct (flat_map rpl_long cs0) as [|x l] eqn:EL.
  - eexists. split; [reflexivity|]. split; [reflexivity|]. reflexivity.
  - exists (args rpl_long (s_rpl1 (pc_slice c))). split; [reflexivity|]. split; reflexivity.
Qed.
Lemma refs_of_ok : forall M c dpb, exists l, refs_of M (pict_frame c) dpb = Ok l.
Proof.
  intros M c dpb. unfold refs_of. destruct dpb as [|e dpb]; [eauto|]. destruct (_ || _); [|eauto].
  destruct (s_rpl0 (pc_slice c)) as [cs0|] eqn:E.
  - destruct (frame_rplm c cs0 E) as (t1 & t2 & t3 & -> & -> & ->).
    replace (f_rplm_l0 (pict_frame c)) with 1 by (unfold pict_frame, frame_of; cbn [f_rplm_l0]; rewrite E; reflexivity). cbn [N.eqb].
    match goal with |- context [apply_rplm _ _ _ ?m ?p ?i ?l] => destruct (apply_rplm_ok cs0 t1 t2 t3 m p i l) as (l' & ->) end. cbn [rbind]. eauto.
  - replace (f_rplm_l0 (pict_frame c)) with 0 by (unfold pict_frame, frame_of; cbn [f_rplm_l0]; rewrite E; reflexivity). cbn [N.eqb rbind]. eauto.
Qed.
(** ** Outcomes *)
Lemma update_ok : forall max abs c dpb, (exists l, update_dpb max abs (pict_frame c) dpb = Ok l) \/ update_dpb max abs (pict_frame c) dpb = NoFuel.
Proof.
  intros max abs c dpb. unfold update_dpb. destruct (is_idr _).
  { left. destruct (negb _); [eauto|]. destruct (is_ref _); eauto. }
  unfold pict_frame, frame_of. cbn [f_mmco f_diff_pic_nums f_long_term_frame_idx f_max_long_term_frame_idx_plus1 f_frame_num].
  destruct (cmds_of (pc_slice c)) as [cs|]; cbn [ops args].
  - left. destruct (map mmco_op cs ++ [0]) as [|o os] eqn:E; [destruct cs; discriminate|]. rewrite <- E.
    pose proof (run_mmco_cmds cs (frame_num (s_pic (pc_slice c))) abs dpb) as X. unfold ops, args in X. rewrite X. eauto.
  - destruct (is_ref _); [|eauto]. cbv zeta. 
    match goal with |- context [slide_loop _ _ ?l] => destruct (N.leb_spec (N.of_nat (List.length (filter (fun e => negb (short e)) l))) max) end.
    + left. apply slide_ends; [lia|assumption].
    + right. apply slide_endless. assumption.
Qed.
Lemma simulate_cases : forall M max ps abs gop gf dpb,
  (exists rows, simulate_from M max (map pict_frame ps) abs gop gf dpb = Ok rows) \/ simulate_from M max (map pict_frame ps) abs gop gf dpb = NoFuel.
Proof.
  intros M max ps. induction ps as [|c ps IH]; intros abs gop gf dpb; [left; eexists; reflexivity|].
  cbn [map simulate_from]. destruct (refs_of_ok M c (if is_idr (pict_frame c) then [] else dpb)) as (r & ->). cbn [rbind].
  destruct (mmco_str_ok c) as (s & ->). cbn [rbind].
  destruct (update_ok max abs c (if is_idr (pict_frame c) then [] else dpb)) as [(l & ->)| ->]; cbn [rbind]; [|right; reflexivity].
  match goal with |- context [simulate_from _ _ _ ?a ?g ?f ?d] => destruct (IH a g f d) as [(rows & ->)| ->] end; cbn [rbind]; eauto.
Qed.
(** What does not depend on the marking: one row per picture, in order *)
Definition row_about (c : pict) (r : drow) : Prop :=
  t_type r = frame_type_str (pict_frame c) /\ t_frame_num r = frame_num (s_pic (pc_slice c)) /\ t_nal_ref_idc r = pc_ref c /\ t_ref r = (0 <? pc_ref c).
Lemma simulate_rows : forall M max ps abs gop gf dpb rows, simulate_from M max (map pict_frame ps) abs gop gf dpb = Ok rows ->
  Forall2 row_about ps rows /\ map t_abs_frame rows = map (fun k => abs + N.of_nat k) (seq 0 (List.length ps)).
Proof.
  intros M max ps. induction ps as [|c ps IH]; intros abs gop gf dpb rows H; cbn [map simulate_from] in H; [injection H as <-; split; [constructor|reflexivity]|].
  destruct (refs_of M (pict_frame c) _) as [r| | | |]; try discriminate. cbn [rbind] in H.
  destruct (mmco_str (pict_frame c)) as [s| | | |]; try discriminate. cbn [rbind] in H.
  destruct (update_dpb max abs (pict_frame c) _) as [l| | | |]; try discriminate. cbn [rbind] in H.
  destruct (simulate_from M max (map pict_frame ps) _ _ _ _) as [rs| | | |] eqn:E; try discriminate. cbn [rbind] in H.
  injection H as <-. destruct (IH _ _ _ _ _ E) as [A B]. split.
  - constructor; [|exact A]. repeat split.
  - cbn [map t_abs_frame List.length seq]. rewrite B. f_equal; [lia|]. rewrite <- seq_shift, map_map. apply map_ext. intros. lia.
Qed.
