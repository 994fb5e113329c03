(** The buffer of h264nal-dpb_parse.py and the reference frames of the specification. *)
From Coq Require Import NArith ZArith List Bool Lia ZifyBool ZifyNat ZifyN String Sorting.Sorted.
From Verif Require Import SpecBits Base TypesSliceHeader SpecVui SpecSliceParts SpecSlice Dump Dpb DpbProofs3 DpbProofs4 DpbProofs5 SpecDpb.
Import ListNotations.
Open Scope N_scope.
Open Scope list_scope.
Ltac Zify.zify_post_hook ::= Z.div_mod_to_equations.

Definition ref_of (e : dent) : refpic := mkref (d_num e) (d_ltr e) (d_abs e).
Definition cpic_of (c : pict) : cpic := mkcpic (frame_num (s_pic (pc_slice c))) (s_marking (pc_slice c)).
(** nal_unit_type, nal_ref_idc and the marking of a picture belong together; IDR pictures are references *)
Definition sound_pict (c : pict) : Prop :=
  match s_marking (pc_slice c) with
  | None => pc_ref c = 0 /\ pc_nut c = 1
  | Some (IdrMarking _ _) => pc_ref c <> 0 /\ pc_nut c = 5
  | Some (Marking _) => pc_ref c <> 0 /\ pc_nut c = 1
  end.
Lemma shows_sound : forall d l ps, shows d l ps -> Forall (fun c => pc_nut c = 5 -> pc_ref c <> 0) ps -> Forall sound_pict ps.
Proof.
  intros d l ps S. induction S as [| |d u off len l ps sl s p v nut ref E1 E2 TY SL EH V S IH|]; intros F; auto.
  destruct (first_mb_in_slice (s_lead v) =? 0); [|auto]. apply Forall_cons_iff in F. destruct F as [F1 F]. constructor; [|auto].
  cbn [pc_nut pc_ref] in F1. unfold sound_pict. cbn [pc_nut pc_ref pc_slice].
  destruct V as (_ & _ & _ & _ & _ & _ & _ & _ & V & _). destruct (N.eqb_spec ref 0) as [R|R]; cbn [negb opt_ok] in V.
  - rewrite V. split; [exact R|]. destruct TY as [T|T]; [exact T|]. tauto.
  - destruct V as ([a b|cs] & -> & V); cbn [valid_marking] in V; (split; [exact R|]); unfold idr_flag_of in V; destruct (N.eqb_spec nut 5); destruct V as [V _]; try congruence; tauto.
Qed.

Lemma filter_map : forall A B (f : A -> B) p l, filter p (map f l) = map f (filter (fun x => p (f x)) l).
Proof. induction l as [|x l IH]; [reflexivity|]. cbn [map filter]. destruct (p (f x)); cbn [map]; rewrite IH; reflexivity. Qed.
Lemma short_ref : forall e, is_short (ref_of e) = short e.
Proof. reflexivity. Qed.
Lemma slide_step : forall M max cur e dpb r, let refs := map ref_of dpb in
  in_order M cur refs -> 1 <= max -> N.of_nat (List.length refs) <= max -> slid M max cur refs r -> short e = true ->
  exists l, slide_loop (S (List.length (dpb ++ [e]))) max (dpb ++ [e]) = Ok l /\ map ref_of l = r ++ [ref_of e].
Proof.
  intros M max cur e dpb r refs O M1 L S SE. unfold slid in S. replace (N.max max 1) with max in S by lia.
  unfold refs in *. rewrite map_length in *. 
  destruct (N.ltb_spec (N.of_nat (List.length dpb)) max) as [H|H].
  - subst r. exists (dpb ++ [e]). rewrite map_app. split; [|reflexivity]. cbn [slide_loop]. rewrite app_length. cbn [List.length].
    replace (max <? N.of_nat (List.length dpb + 1)) with false by lia. reflexivity.
  - destruct S as (a & x & b & E & -> & SX & F).
    apply map_eq_app in E. destruct E as (da & db' & -> & EA & EB). destruct db' as [|dx db]; [discriminate|]. cbn [map] in EB. injection EB as EX EB.
    assert (NS : existsb short da = false).
    { destruct (existsb short da) eqn:E; [|reflexivity]. apply existsb_exists in E. destruct E as (y & IY & SY). exfalso.
      rewrite Forall_forall in F. assert (IY' : In (ref_of y) (map ref_of (da ++ dx :: db))) by (apply in_map, in_or_app; left; exact IY).
      pose proof (F _ IY' SY) as LE. unfold in_order in O. rewrite map_app, filter_app in O. cbn [map filter] in O. rewrite EX in O. rewrite SX in O. rewrite map_app in O. cbn [map] in O.
      assert (IY2 : In (pic_num M cur (ref_of y)) (map (pic_num M cur) (filter is_short (map ref_of da)))).
      { apply in_map. apply filter_In. split; [apply in_map; exact IY|exact SY]. }
      clear - O IY2 LE. induction (map (pic_num M cur) (filter is_short (map ref_of da))) as [|z zs IH]; [destruct IY2|].
      cbn [app] in O. inversion O as [|? ? O1 O2]; subst. destruct IY2 as [->|IY2]; [|auto].
      rewrite Forall_forall in O2. specialize (O2 (pic_num M cur x)). assert (pic_num M cur (ref_of y) < pic_num M cur x)%Z by (apply O2, in_or_app; right; left; reflexivity). lia. }
    assert (SX' : short dx = true) by (rewrite <- short_ref, EX; exact SX).
    assert (W : without_first short ((da ++ dx :: db) ++ [e]) = (da ++ db) ++ [e]).
    { clear - NS SX'. induction da as [|y da IH]; cbn [app without_first existsb] in *; [rewrite SX'; reflexivity|].
      destruct (short y); [discriminate|]. rewrite IH by exact NS. reflexivity. }
    exists ((da ++ db) ++ [e]). split; [|rewrite !map_app, EA, EB; reflexivity].
    cbn [slide_loop]. rewrite W. rewrite !app_length in *. cbn [List.length] in *.
    replace (max <? N.of_nat (List.length da + S (List.length db) + 1)) with true by lia.
    destruct (List.length da + S (List.length db) + 1)%nat eqn:EL; [lia|]. cbn [slide_loop]. rewrite !app_length. cbn [List.length].
    replace (max <? N.of_nat (List.length da + List.length db + 1)) with false by lia. reflexivity.
Qed.
(** ** Operations *)
Lemma no_wrap : forall M cur e, (is_short e = true -> r_num e <= cur) -> is_short e = true -> pic_num M cur e = Z.of_N (r_num e).
Proof. intros M cur e H S. unfold pic_num. specialize (H S). replace (cur <? r_num e) with false by lia. reflexivity. Qed.
Lemma filter_all : forall A (p : A -> bool) l, Forall (fun x => p x = true) l -> filter p l = l.
Proof. intros A p l F. induction F as [|x l H F IH]; [reflexivity|]. cbn [filter]. rewrite H, IH. reflexivity. Qed.
Lemma filter_ext_Forall : forall A (p q : A -> bool) l, Forall (fun x => p x = q x) l -> filter p l = filter q l.
Proof. intros A p q l F. induction F as [|x l H F IH]; [reflexivity|]. cbn [filter]. rewrite H, IH. reflexivity. Qed.
Lemma Forall_filter : forall A (P : A -> Prop) p l, Forall P l -> Forall P (filter p l).
Proof. intros A P p l F. induction F as [|x l H F IH]; cbn [filter]; [constructor|]. destruct (p x); [constructor|]; auto. Qed.
Lemma NoDup_shorts : forall p l, NoDup (map r_num (filter is_short l)) -> NoDup (map r_num (filter is_short (filter p l))).
Proof.
  intros p l. induction l as [|x l IH]; intros H; [exact H|]. cbn [filter] in *. destruct (is_short x) eqn:S.
  - cbn [map] in H. inversion H as [|? ? H1 H2]; subst. destruct (p x); [|auto]. cbn [filter]. rewrite S. cbn [map]. constructor; [|auto].
    intros I. apply H1. apply in_map_iff in I. destruct I as (y & E & I). apply filter_In in I. destruct I as [I SY]. apply filter_In in I. apply in_map_iff.
    exists y. split; [exact E|]. apply filter_In. tauto.
  - destruct (p x); [|auto]. cbn [filter]. rewrite S. auto.
Qed.
Lemma mark_first_map : forall z i dpb, NoDup (map d_num (filter short dpb)) ->
  mark_first (fun e => short e && num_is z e) i dpb =
  map (fun e => if short e && num_is z e then mkdent (d_num e) (Some i) (d_abs e) else e) dpb.
Proof.
  intros z i dpb. induction dpb as [|x l IH]; intros H; [reflexivity|]. cbn [mark_first map filter] in *. destruct (short x) eqn:S; cbn [andb].
  - cbn [map] in H. inversion H as [|? ? H1 H2]; subst. destruct (num_is z x) eqn:NX; [|rewrite IH by assumption; reflexivity].
    f_equal. rewrite <- (map_id l) at 1. apply map_ext_in. intros y IY. destruct (short y && num_is z y) eqn:Y; [|reflexivity].
    exfalso. apply H1. apply in_map_iff. exists y. apply andb_true_iff in Y. destruct Y as [SY NY]. unfold num_is in *. split; [lia|].
    apply filter_In. tauto.
  - rewrite IH by exact H. reflexivity.
Qed.
Section ops.
  Context (M cur abs : N).
  Definition calm_refs (refs : list refpic) : Prop := Forall (fun e => is_short e = true -> r_num e <= cur) refs /\ NoDup (map r_num (filter is_short refs)).
  Lemma is_x_eq : forall d e, (is_short (ref_of e) = true -> d_num e <= cur) ->
    is_short (ref_of e) && (pic_num M cur (ref_of e) =? Z.of_N cur - (Z.of_N d + 1))%Z = short e && num_is (Z.of_N cur - (Z.of_N d + 1)) e.
  Proof.
    intros d e H. rewrite short_ref in *. destruct (short e) eqn:S; [|reflexivity]. cbn [andb].
    rewrite no_wrap; [reflexivity|intros _; exact (H eq_refl)|exact S].
  Qed.
  Lemma calm_others : forall op refs, calm_refs refs -> 
    match op with UnmarkShort _ | MaxLong _ => True | MakeLong _ _ => True | _ => False end -> calm_refs (others M cur op refs).
  Proof.
    intros op refs [F D] PO. destruct op; try destruct PO; cbn [others]; cbv zeta.
    - split; [apply Forall_filter, F|apply NoDup_shorts, D].
    - match goal with |- calm_refs (map _ (filter ?q refs)) => assert (C : calm_refs (filter q refs)) by (split; [apply Forall_filter, F|apply NoDup_shorts, D]); remember (filter q refs) as rs; clear Heqrs end.
      clear F D refs. destruct C as [F D]. split.
      + apply Forall_map. eapply Forall_impl; [|exact F]. intros e H. cbv beta. destruct (_ && _); [discriminate|exact H].
      + clear F. induction rs as [|x l IH]; [constructor|]. cbn [map filter] in *. destruct (is_short x) eqn:S; cbn [andb].
        * cbn [map] in D. inversion D as [|? ? D1 D2]; subst. destruct (_ =? _)%Z; [apply IH, D2|]. rewrite S. cbn [map]. constructor; [|apply IH, D2].
          intros I. apply D1. apply in_map_iff in I. destruct I as (y & E & I). apply filter_In in I. destruct I as [I SY]. apply in_map_iff in I. destruct I as (w & EW & I).
          destruct (is_short w && _) eqn:W; [subst y; discriminate|]. subst y. apply in_map_iff. exists w. split; [exact E|]. apply filter_In. tauto.
        * rewrite S. apply IH, D.
    - split; [apply Forall_filter, F|apply NoDup_shorts, D].
  Qed.
  Lemma op_step : forall op dpb, calm_refs (map ref_of dpb) ->
    match op with UnmarkShort _ | MaxLong _ => True | MakeLong _ i => Forall (fun e => has_idx i e = false) (map ref_of dpb) | _ => False end ->
    map ref_of (script_op cur abs op dpb) = others M cur op (map ref_of dpb).
  Proof.
    intros op dpb [F D] PO. apply (proj1 (Forall_map ref_of _ dpb)) in F. destruct op as [d| |d i|m| |]; try (exfalso; exact PO); cbn [script_op others]; cbv zeta.
    - rewrite filter_map. f_equal. apply filter_ext_Forall. eapply Forall_impl; [|exact F]. intros e H. cbv beta. rewrite is_x_eq by exact H. reflexivity.
    - rewrite (filter_all _ _ (map ref_of dpb)) by (eapply Forall_impl; [|exact PO]; intros e H; cbv beta in *; rewrite H; reflexivity).
      rewrite mark_first_map. 2: { rewrite filter_map, map_map in D. exact D. }
      rewrite !map_map. clear PO D. induction F as [|e l H F IH]; [reflexivity|]. cbn [map]. rewrite is_x_eq by exact H. rewrite IH. f_equal.
      destruct (_ && _); reflexivity.
    - rewrite filter_map. f_equal. apply filter_ext_Forall, Forall_forall. intros e _. cbn [ref_of r_long]. destruct (d_ltr e); [lia|reflexivity].
  Qed.
  Lemma ops_step : forall cs dpb, calm_refs (map ref_of dpb) -> plain_ops M cur (map ref_of dpb) cs ->
    map ref_of (fold_left (fun l c => script_op cur abs c l) cs dpb) =
      fold_left (fun r op => others M cur op r) cs (map ref_of dpb) ++ [mkref (current_num cur cs) (current_idx cs) abs].
  Proof.
    intros cs.
    assert (X : forall cs refs, plain_ops M cur refs cs -> exists pre i, cs = pre ++ [CurrentLong i] /\
      Forall (fun c => match c with UnmarkShort _ | MaxLong _ | MakeLong _ _ => True | _ => False end) pre).
    { clear cs. induction cs as [|c cs IH]; intros refs P; [destruct P|].
      destruct c as [d| |d i|m| |i]; cbn [plain_ops] in P.
      - destruct P as [_ P]. destruct (IH _ P) as (pre & j & -> & F). exists (UnmarkShort d :: pre), j. split; [reflexivity|]. constructor; auto.
      - destruct P as [[] _].
      - destruct P as [_ P]. destruct (IH _ P) as (pre & j & -> & F). exists (MakeLong d i :: pre), j. split; [reflexivity|]. constructor; auto.
      - destruct P as [_ P]. destruct (IH _ P) as (pre & j & -> & F). exists (MaxLong m :: pre), j. split; [reflexivity|]. constructor; auto.
      - destruct P as [[] _].
      - subst cs. exists [], i. split; [reflexivity|constructor]. }
    intros dpb C P.
    assert (T : current_num cur cs = cur /\ exists i, current_idx cs = Some i /\ exists pre, cs = pre ++ [CurrentLong i]).
    { destruct (X cs _ P) as (pre & i & -> & F). split.
      - unfold current_num. rewrite existsb_app. cbn [existsb]. replace (existsb _ pre) with false; [reflexivity|]. symmetry.
        clear - F. induction F as [|c pre H F IH]; [reflexivity|]. cbn [existsb]. rewrite IH. destruct c; try destruct H; reflexivity.
      - exists i. split; [unfold current_idx; rewrite fold_left_app; reflexivity|eauto]. }
    destruct T as (-> & i & -> & pre & E).
    revert pre E dpb C P. induction cs as [|c cs IH]; intros pre E dpb C P; [destruct P|].
    destruct c as [d|n|d j|m| |j]; cbn [plain_ops] in P.
    6: { subst cs. cbn [fold_left script_op others]. rewrite map_app. cbn [map ref_of d_num d_ltr d_abs].
         assert (j = i) by (destruct pre as [|? [|]]; [injection E as ->; reflexivity|discriminate|discriminate]). subst j.
         rewrite filter_map. reflexivity. }
    2: { destruct P as [[] _]. }
    4: { destruct P as [[] _]. }
    all: destruct P as [P1 P2]; destruct pre as [|c pre]; [discriminate|]; injection E as <- E; cbn [fold_left]; rewrite <- op_step in P2 by (auto; exact P1 || exact I);
      rewrite <- op_step by (auto; exact P1 || exact I); apply (IH pre E); [|exact P2]; rewrite op_step by (auto; exact P1 || exact I); apply calm_others; [exact C|exact I].
  Qed.
End ops.
Lemma update_step : forall M max id c dpb refs', sound_pict c -> next M max id (cpic_of c) (map ref_of dpb) refs' -> plain M max (cpic_of c) (map ref_of dpb) ->
  exists l, update_dpb max id (pict_frame c) (if is_idr (pict_frame c) then [] else dpb) = Ok l /\ map ref_of l = refs'.
Proof.
  intros M max id c dpb refs' S NX P. unfold next, plain in *. unfold sound_pict in S. cbn [cpic_of c_num c_marking] in *.
  unfold update_dpb, is_idr, is_ref. cbn [pict_frame frame_of f_nal_type f_nal_ref_idc f_mmco f_frame_num f_long_term_reference_flag f_diff_pic_nums f_long_term_frame_idx f_max_long_term_frame_idx_plus1].
  unfold idr_long_term, cmds_of. destruct (s_marking (pc_slice c)) as [[a b|[cs|]]|]; destruct S as [S1 S2]; rewrite S2; cbn [N.eqb Pos.eqb].
  - replace (0 <? pc_ref c) with true by lia. subst refs'. destruct (b =? 0); cbn [negb]; eexists; (split; [reflexivity|]); reflexivity.
  - destruct P as (P1 & P2 & P3). destruct (ops mmco_op 0 (Some cs)) as [|o os] eqn:EO; [destruct cs; discriminate|]. rewrite <- EO. rewrite run_mmco_cmds.
    eexists. split; [reflexivity|]. subst refs'. apply ops_step; [split; assumption|exact P3].
  - destruct P as (P1 & P2 & P3). destruct NX as (r & NX & ->). replace (0 <? pc_ref c) with true by lia. cbn [ops]. cbv zeta.
    apply (slide_step M max (frame_num (s_pic (pc_slice c)))); auto.
  - cbn [ops]. replace (0 <? pc_ref c) with false by lia. subst refs'. eauto.
Qed.
Lemma simulate_states : forall M max Mz ps abs gop gf dpb ss, Forall sound_pict ps ->
  states M max abs (map ref_of dpb) (map cpic_of ps) ss -> all_plain M max (map ref_of dpb) (map cpic_of ps) ss ->
  exists rows, simulate_from Mz max (map pict_frame ps) abs gop gf dpb = Ok rows /\ map (fun r => map ref_of (t_after r)) rows = ss.
Proof.
  intros M max Mz ps. induction ps as [|c ps IH]; intros abs gop gf dpb ss F S P; cbn [map states all_plain] in *.
  { destruct ss; [|destruct S]. exists []. split; reflexivity. }
  destruct ss as [|s ss]; [destruct S|]. destruct S as [S1 S2], P as [P1 P2]. apply Forall_cons_iff in F. destruct F as [F1 F].
  destruct (update_step M max abs c dpb s F1 S1 P1) as (l & U & E). subst s.
  cbn [simulate_from]. destruct (refs_of_ok Mz c (if is_idr (pict_frame c) then [] else dpb)) as (r & ->). cbn [rbind].
  destruct (mmco_str_ok c) as (t & ->). cbn [rbind]. rewrite U. cbn [rbind].
  match goal with |- context [simulate_from _ _ _ ?a ?g ?f ?d] => destruct (IH a g f d ss F S2 P2) as (rows & -> & ER) end. cbn [rbind].
  eexists. split; [reflexivity|]. cbn [map t_after]. rewrite ER. reflexivity.
Qed.
