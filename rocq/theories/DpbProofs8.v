(** h264nal-dpb_parse.py: the text of the table. *)
From Coq Require Import NArith ZArith List Bool Lia ZifyBool ZifyNat ZifyN String Ascii.
From Verif Require Import SpecBits Base TypesSliceHeader SpecVui SpecSliceParts SpecSlice Dump DumpProofs PyText PyTextProofs Dpb DpbProofs3 DpbProofs4 DpbProofs5 SpecDpb SpecDpbText DpbProofs6 DpbProofs7.
Import ListNotations.
Open Scope N_scope.
Open Scope list_scope.
Ltac Zify.zify_post_hook ::= Z.div_mod_to_equations.

(** ** Cutting *)
Definition free (c : ascii) (s : string) : Prop := all (fun x => negb (Ascii.eqb x c)) s = true.
Lemma all_app : forall p a b, all p (a ++ b)%string = all p a && all p b.
Proof. intros p a b. induction a as [|x a IH]; [reflexivity|]. cbn [append all]. rewrite IH. apply andb_assoc. Qed.
Lemma free_app : forall c a b, free c a -> free c b -> free c (a ++ b)%string.
Proof. unfold free. intros c a b A B. rewrite all_app, A, B. reflexivity. Qed.
Lemma cut_free : forall c a, free c a -> cut_at c a = [a].
Proof.
  unfold free. intros c a. induction a as [|x a IH]; intros F; [reflexivity|]. cbn [all cut_at] in *. apply andb_true_iff in F. destruct F as [F1 F].
  rewrite (IH F). destruct (Ascii.eqb x c); [discriminate|reflexivity].
Qed.
Lemma cut_app : forall c a b, free c a -> cut_at c (a ++ String c b)%string = a :: cut_at c b.
Proof.
  unfold free. intros c a b. induction a as [|x a IH]; intros F; cbn [append cut_at all] in *; [rewrite Ascii.eqb_refl; reflexivity|].
  apply andb_true_iff in F. destruct F as [F1 F]. rewrite (IH F). destruct (Ascii.eqb x c); [discriminate|reflexivity].
Qed.
Lemma concat_two : forall sep x y l, String.concat sep (x :: y :: l) = (x ++ sep ++ String.concat sep (y :: l))%string.
Proof. reflexivity. Qed.
Lemma cut_concat : forall c l, l <> [] -> Forall (free c) l -> cut_at c (String.concat (String c "") l) = l.
Proof.
  intros c l N F. induction F as [|x l F1 F IH]; [congruence|]. destruct l as [|y l]; [apply cut_free, F1|].
  rewrite concat_two. change (String c "" ++ String.concat (String c "") (y :: l))%string with (String c (String.concat (String c "") (y :: l))).
  rewrite cut_app by exact F1. f_equal. apply IH. discriminate.
Qed.
Lemma free_concat : forall c sep l, free c sep -> Forall (free c) l -> free c (String.concat sep l).
Proof.
  intros c sep l S F. induction F as [|x l F1 F IH]; [reflexivity|]. destruct l as [|y l]; [exact F1|]. rewrite concat_two. apply free_app; [exact F1|].
  apply free_app; [exact S|exact IH].
Qed.
Lemma all_impl : forall p q s, (forall x, p x = true -> q x = true) -> all p s = true -> all q s = true.
Proof. intros p q s H. induction s as [|x s IH]; intros A; [reflexivity|]. cbn [all] in *. apply andb_true_iff in A. destruct A as [A B]. rewrite H, IH by assumption. reflexivity. Qed.
Lemma free_dec : forall c n, digit10 c = false -> free c (dec n).
Proof.
  intros c n D. unfold free. eapply all_impl; [|apply dec_digits]. intros x X. destruct (Ascii.eqb_spec x c); [congruence|reflexivity].
Qed.
Lemma free_deci : forall c z, digit10 c = false -> c <> "-"%char -> free c (deci z).
Proof.
  intros c z D M. unfold deci. destruct z as [|p|p]; cbn [Z.to_int].
  - reflexivity || exact (free_dec c 0 D).
  - exact (free_dec c (N.pos p) D).
  - cbn [DecimalString.NilEmpty.string_of_int]. unfold free. cbn [all]. apply andb_true_iff. split; [destruct (Ascii.eqb_spec "-" c); [congruence|reflexivity]|].
    exact (free_dec c (N.pos p) D).
Qed.
(** ** The columns *)
Definition sep_char (c : ascii) : Prop := c = ","%char \/ c = ascii_of_N 10.
Lemma free_const : forall c s, sep_char c -> all (fun x => negb (Ascii.eqb x ",") && negb (Ascii.eqb x (ascii_of_N 10))) s = true -> free c s.
Proof. intros c s [->| ->] A; unfold free; (eapply all_impl; [|exact A]); intros x X; apply andb_true_iff in X; tauto. Qed.
Ltac free_tac := repeat match goal with
  | |- free _ (_ ++ _)%string => apply free_app
  | |- free _ (dec _) => apply free_dec; match goal with H : sep_char _ |- _ => destruct H; subst; reflexivity end
  | |- free _ (deci _) => apply free_deci; match goal with H : sep_char _ |- _ => destruct H; subst; (reflexivity || discriminate) end
  | |- free _ _ => apply free_const; [assumption|reflexivity]
  end.
Lemma free_entry : forall c e, sep_char c -> free c (entry_str e).
Proof. intros c e S. unfold entry_str. destruct (d_ltr e); free_tac. Qed.
Lemma free_entries : forall c l, sep_char c -> free c (dpb_str l).
Proof.
  intros c l S. unfold dpb_str. apply free_concat; [free_tac|]. apply Forall_map, Forall_forall. intros e _. apply free_entry, S.
Qed.
Lemma free_op : forall c cur o, sep_char c -> free c (op_text cur o).
Proof.
  intros c cur o S. unfold op_text. change integer_text with deci. change number_text with dec. destruct o; cbv zeta; free_tac.
Qed.
Lemma mmco_parts_eq : forall cs t1 t2 t3 cur,
  mmco_parts (map mmco_op cs ++ [0]) (flat_map mmco_diff cs ++ t1) (flat_map mmco_frame cs ++ t2) (flat_map mmco_max cs ++ t3) cur = Ok (map (op_text cur) cs).
Proof.
  induction cs as [|c cs IH]; intros t1 t2 t3 cur; [reflexivity|].
  cbn [map flat_map app]. rewrite <- !app_assoc.
  destruct c; cbn [mmco_op mmco_diff mmco_frame mmco_max app mmco_parts N.eqb Pos.eqb]; cbv zeta; rewrite IH; reflexivity.
Qed.
(** What a picture has in the column "mmco"; a picture of an IDR unit with nal_ref_idc 0 has no marking *)
Definition mark_column (c : pict) : string := if (pc_nut c =? 5) && (pc_ref c =? 0) then "IDR:STR"%string else marking_text (cpic_of c).
(** Units of type 5 with a reference have the marking of IDR pictures, and those of type 1 the other. *)
Definition typed_pict (c : pict) : Prop :=
  (pc_nut c = 1 \/ pc_nut c = 5) /\
  match s_marking (pc_slice c) with
  | None => pc_ref c = 0
  | Some (IdrMarking _ _) => pc_ref c <> 0 /\ pc_nut c = 5
  | Some (Marking _) => pc_ref c <> 0 /\ pc_nut c = 1
  end.
Lemma shows_typed : forall d l ps, shows d l ps -> Forall typed_pict ps.
Proof.
  intros d l ps S. induction S as [| |d u off len l ps sl s p v nut ref E1 E2 TY SL EH V S IH|]; auto.
  destruct (first_mb_in_slice (s_lead v) =? 0); [|auto]. constructor; [|auto].
  unfold typed_pict. cbn [pc_nut pc_ref pc_slice]. split; [exact TY|].
  destruct V as (_ & _ & _ & _ & _ & _ & _ & _ & V & _). destruct (N.eqb_spec ref 0) as [R|R]; cbn [negb opt_ok] in V.
  - rewrite V. exact R.
  - destruct V as ([a b|cs] & -> & V); cbn [valid_marking] in V; (split; [exact R|]); unfold idr_flag_of in V; destruct (N.eqb_spec nut 5); destruct V as [V _]; try congruence; tauto.
Qed.
Lemma mmco_eq : forall c, typed_pict c -> mmco_str (pict_frame c) = Ok (mark_column c).
Proof.
  intros c [TY T]. unfold mmco_str, mark_column, marking_text, is_idr, is_ref. cbn [cpic_of c_marking c_num].
  cbn [pict_frame frame_of f_nal_type f_nal_ref_idc f_mmco f_frame_num f_long_term_reference_flag f_diff_pic_nums f_long_term_frame_idx f_max_long_term_frame_idx_plus1].
  unfold idr_long_term, cmds_of. destruct (s_marking (pc_slice c)) as [[a b|[cs|]]|].
  - destruct T as [T1 T2]. rewrite T2. replace (pc_ref c =? 0) with false by lia. cbn [N.eqb Pos.eqb andb]. destruct (b =? 0); reflexivity.
  - destruct T as [T1 T2]. rewrite T2. cbn [N.eqb Pos.eqb andb]. cbn [ops args].
    destruct (map mmco_op cs ++ [0]) as [|o os] eqn:E; [destruct cs; discriminate|]. rewrite <- E.
    pose proof (mmco_parts_eq cs [] [] [] (frame_num (s_pic (pc_slice c)))) as X. rewrite !app_nil_r in X. rewrite X. reflexivity.
  - destruct T as [T1 T2]. rewrite T2. cbn [N.eqb Pos.eqb andb ops]. replace (0 <? pc_ref c) with true by lia. reflexivity.
  - rewrite T. cbn [ops]. destruct TY as [TY|TY]; rewrite TY; reflexivity.
Qed.
Lemma type_eq : forall c, frame_type_str (pict_frame c) = type_text (pc_nut c =? 5) (s_type (pc_slice c)).
Proof.
  intros c. unfold frame_type_str, type_text, is_idr. cbn [pict_frame frame_of f_nal_type f_slice_type]. destruct (pc_nut c =? 5); [reflexivity|].
  remember (s_type (pc_slice c)) as n eqn:E. clear E. destruct (N.ltb_spec n 5) as [H|H].
  - assert (n = 0 \/ n = 1 \/ n = 2 \/ n = 3 \/ n = 4) as [-> | [-> | [-> | [-> | ->]]]] by lia; reflexivity.
  - rewrite nth_overflow by (cbn [List.length]; lia). replace (n =? 0) with false by lia. replace (n =? 1) with false by lia. replace (n =? 2) with false by lia.
    replace (n =? 3) with false by lia. replace (n =? 4) with false by lia. reflexivity.
Qed.
Lemma free_type : forall c b n, sep_char c -> free c (type_text b n).
Proof.
  intros c b n S. unfold type_text. destruct b; [free_tac|]. change number_text with dec. destruct (N.ltb_spec n 5) as [H|H].
  - assert (n = 0 \/ n = 1 \/ n = 2 \/ n = 3 \/ n = 4) as [-> | [-> | [-> | [-> | ->]]]] by lia; cbn [N.to_nat Pos.to_nat Pos.iter_op Nat.add nth]; free_tac.
  - rewrite nth_overflow by (cbn [List.length]; lia). free_tac.
Qed.
Lemma free_mark : forall c p, sep_char c -> free c (mark_column p).
Proof.
  intros c p S. unfold mark_column, marking_text. destruct (_ && _); [free_tac|]. destruct (c_marking (cpic_of p)) as [[a b|[cs|]]|]; try free_tac.
  - destruct (b =? 0); free_tac.
  - apply free_concat; [free_tac|]. apply Forall_map, Forall_forall. intros o _. apply free_op, S.
Qed.
(** ** The rows *)
Definition idr_pict (c : pict) : bool := pc_nut c =? 5.
(** [k]: how many pictures are before; [seen]: those of them that are not the first of the file,
    and are IDR; [since]: how many there are since the last IDR picture or the start *)
Definition row_counts (c : pict) (k seen since : N) (r : drow) : Prop :=
  t_abs_frame r = k /\
  t_gop r = (if idr_pict c && negb (k =? 0) then seen + 1 else seen) /\
  t_gop_frame r = (if idr_pict c then 0 else since) /\
  t_mmco r = mark_column c.
Fixpoint counted (ps : list pict) (rows : list drow) (k seen since : N) : Prop :=
  match ps, rows with
  | c :: ps, r :: rows => row_counts c k seen since r /\ counted ps rows (k + 1) (t_gop r) (t_gop_frame r + 1)
  | [], [] => True
  | _, _ => False
  end.
Lemma simulate_counted : forall M max ps abs gop gf dpb rows, Forall typed_pict ps ->
  simulate_from M max (map pict_frame ps) abs gop gf dpb = Ok rows -> counted ps rows abs gop gf.
Proof.
  intros M max ps. induction ps as [|c ps IH]; intros abs gop gf dpb rows F H; cbn [map simulate_from] in H; [injection H as <-; exact I|].
  apply Forall_cons_iff in F. destruct F as [F1 F].
  destruct (refs_of M (pict_frame c) _) as [r| | | |]; try discriminate. cbn [rbind] in H. rewrite (mmco_eq c F1) in H. cbn [rbind] in H.
  destruct (update_dpb max abs (pict_frame c) _) as [l| | | |]; try discriminate. cbn [rbind] in H.
  destruct (simulate_from M max (map pict_frame ps) _ _ _ _) as [rs| | | |] eqn:E; try discriminate. cbn [rbind] in H.
  injection H as <-. cbn [counted]. split; [|exact (IH _ _ _ _ _ F E)].
  unfold row_counts. cbn [t_abs_frame t_gop t_gop_frame t_mmco]. change (is_idr (pict_frame c)) with (idr_pict c). replace (negb (abs =? 0)) with (0 <? abs) by lia. auto.
Qed.
(** the same without recursion *)
Lemma counted_gop : forall ps rows k seen since i r, counted ps rows k seen since -> k <> 0 -> nth_error rows i = Some r ->
  t_gop r = seen + N.of_nat (List.length (filter idr_pict (firstn (S i) ps))).
Proof.
  induction ps as [|c ps IH]; intros rows k seen since i r C K E; destruct rows as [|r0 rows]; try destruct C; try (destruct i; discriminate).
  destruct H as (_ & G & _). replace (k =? 0) with false in G by lia. rewrite andb_true_r in G. cbn [firstn filter]. destruct i as [|i]; cbn [nth_error] in E.
  - injection E as <-. cbn [firstn]. destruct (idr_pict c); cbn [filter List.length]; lia.
  - rewrite (IH rows (k + 1) (t_gop r0) (t_gop_frame r0 + 1) i r) by (auto; lia). destruct (idr_pict c); cbn [List.length]; lia.
Qed.
Lemma counted_since : forall ps rows k seen since i r, counted ps rows k seen since -> nth_error rows i = Some r ->
  (t_gop_frame r = since + N.of_nat i /\ forall m c, (m <= i)%nat -> nth_error ps m = Some c -> idr_pict c = false) \/
  (exists j c, (j <= i)%nat /\ nth_error ps j = Some c /\ idr_pict c = true /\ t_gop_frame r = N.of_nat (i - j) /\
     forall m c, (j < m <= i)%nat -> nth_error ps m = Some c -> idr_pict c = false).
Proof.
  induction ps as [|c ps IH]; intros rows k seen since i r C E; destruct rows as [|r0 rows]; try destruct C; try (destruct i; discriminate).
  destruct H as (_ & _ & G & _). destruct i as [|i]; cbn [nth_error] in E.
  - injection E as <-. destruct (idr_pict c) eqn:ID.
    + right. exists 0%nat, c. split; [lia|]. split; [reflexivity|]. split; [exact ID|]. split; [exact G|]. intros; lia.
    + left. split; [lia|]. intros m c' M N. destruct m; [|lia]. cbn [nth_error] in N. injection N as <-. exact ID.
  - destruct (IH rows _ _ _ i r H0 E) as [(A & B)|(j & c' & J & N & I & A & B)].
    + destruct (idr_pict c) eqn:ID.
      * right. exists 0%nat, c. split; [lia|]. split; [reflexivity|]. split; [exact ID|]. split; [lia|]. intros m c' M N. destruct m; [lia|]. apply (B m c'); [lia|exact N].
      * left. split; [lia|]. intros m c' M N. destruct m; [cbn [nth_error] in N; injection N as <-; exact ID|]. apply (B m c'); [lia|exact N].
    + right. exists (S j), c'. split; [lia|]. split; [exact N|]. split; [exact I|]. split; [lia|]. intros m c'' M N'. destruct m; [lia|]. apply (B m c''); [lia|exact N'].
Qed.
(** The numbers of the row of picture [i] *)
Lemma counted_nth : forall ps rows i r, counted ps rows 0 0 0 -> nth_error rows i = Some r ->
  t_gop r = N.of_nat (List.length (filter idr_pict (firstn i (tl ps)))) /\
  exists j, (j <= i)%nat /\ t_gop_frame r = N.of_nat (i - j) /\ (j = 0%nat \/ exists c, nth_error ps j = Some c /\ idr_pict c = true) /\
    forall m c, (j < m <= i)%nat -> nth_error ps m = Some c -> idr_pict c = false.
Proof.
  intros ps rows i r C E. split.
  - destruct ps as [|c ps]; destruct rows as [|r0 rows]; try destruct C; try (destruct i; discriminate). destruct H as (_ & G & _). cbn [N.eqb negb] in G. rewrite andb_false_r in G.
    destruct i as [|i]; cbn [nth_error tl] in *; [injection E as <-; exact G|]. rewrite (counted_gop ps rows 1 (t_gop r0) (t_gop_frame r0 + 1) i r) by (auto; lia). lia.
  - destruct (counted_since ps rows 0 0 0 i r C E) as [(A & B)|(j & c & J & N & I & A & B)].
    + exists 0%nat. split; [lia|]. split; [lia|]. split; [auto|]. intros m c M. apply B. lia.
    + exists j. split; [exact J|]. split; [exact A|]. split; [eauto|]. exact B.
Qed.
Lemma counted_marks : forall ps rows k seen since, counted ps rows k seen since -> Forall2 (fun c r => t_mmco r = mark_column c) ps rows.
Proof.
  induction ps as [|c ps IH]; intros rows k seen since C; destruct rows as [|r rows]; try destruct C; constructor; [apply H|eapply IH; eassumption].
Qed.
(** ** The lines *)
Definition row_fields (c : pict) (r : drow) : list string :=
  [number_text (t_abs_frame r); number_text (t_gop r); number_text (t_gop_frame r); type_text (idr_pict c) (s_type (pc_slice c));
   number_text (frame_num (s_pic (pc_slice c))); number_text (pc_ref c); if pc_ref c =? 0 then "N"%string else "Y"%string;
   frames_text (map ref_of (t_refs_used r)); frames_text (map ref_of (t_before r)); mark_column c; frames_text (map ref_of (t_after r))].
Lemma entries_text : forall l, dpb_str l = frames_text (map ref_of l).
Proof. intros l. unfold dpb_str, frames_text. rewrite map_map. reflexivity. Qed.
Lemma row_eq : forall c r, row_about c r -> t_mmco r = mark_column c -> row_str r = String.concat "," (row_fields c r).
Proof.
  intros c r (A & B & C & D) E. unfold row_str, row_fields. rewrite A, B, C, D, E, type_eq, !entries_text. change number_text with dec.
  replace (0 <? pc_ref c) with (negb (pc_ref c =? 0)) by lia. destruct (pc_ref c =? 0); reflexivity.
Qed.
Lemma fields_free : forall s c r, sep_char s -> Forall (free s) (row_fields c r).
Proof.
  intros s c r S. unfold row_fields. change number_text with dec. rewrite <- !entries_text.
  repeat apply Forall_cons; try apply Forall_nil; try apply free_entries; try apply free_type; try apply free_mark; try exact S; try (destruct (pc_ref c =? 0)); free_tac.
Qed.
Lemma row_line : forall c r, row_about c r -> t_mmco r = mark_column c -> cut_at "," (row_str r) = row_fields c r /\ free (ascii_of_N 10) (row_str r).
Proof.
  intros c r A E. rewrite (row_eq c r A E). split; [apply cut_concat; [discriminate|apply fields_free; left; reflexivity]|].
  apply free_concat; [reflexivity|apply fields_free; right; reflexivity].
Qed.
Lemma text_lines : forall ls, Forall (free (ascii_of_N 10)) ls ->
  cut_at (ascii_of_N 10) (String.concat "" (map (fun l => (l ++ String (ascii_of_N 10) "")%string) ls)) = ls ++ [""%string].
Proof.
  intros ls F. induction F as [|l ls F1 F IH]; [reflexivity|]. cbn [map app].
  assert (E : forall x xs, String.concat "" (x :: xs) = (x ++ String.concat "" xs)%string).
  { intros x xs. destruct xs; [|reflexivity]. cbn [String.concat]. induction x as [|y x IHx]; [reflexivity|]. cbn [append]. f_equal. exact IHx. }
  rewrite E. assert (A : forall a b c, ((a ++ b) ++ c = a ++ (b ++ c))%string) by (induction a as [|y a IHa]; intros; [reflexivity|cbn [append]; f_equal; apply IHa]).
  rewrite A. cbn [append]. rewrite cut_app by exact F1. rewrite IH. reflexivity.
Qed.
