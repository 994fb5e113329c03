(** Property C76: lists of B pictures in the table of h264nal-dpb_parse.py. *)
From Coq Require Import NArith ZArith List Bool Lia ZifyBool ZifyNat ZifyN String Ascii Sorting.Sorted Sorting.Permutation.
From Verif Require Import SpecBits Base BitBuffer SpecReader BitsLemmas BitBufferProofs
  ReaderProofs Rbsp SpecRbsp RbspProofs ChecksumProofs Parser SpecSyntax ParserProofs SpecFraming Framing
  FramingProofs FramingProofs2 FramingProofs3 TypesSps Sps SpecSps SpsProofs PropsSps TypesPps Pps TypesNal NalHeader TypesExt Ext TypesSlice TypesSliceHeader SliceHeader
  SpecVui SpecSliceParts SpecSlice
  TypesNalUnit NalUnit NalUnitProofs SpecNalUnit NalUnitProofs2 NalUnitProofs3 PropsNalUnit PropsNalUnit2
  PropsFraming NalType Rtp RtpProofs Tool SpecTool ToolProofs PropsTool SpecDump SpecLabels Dump DumpProofs DumpProofs2 DumpProofs3
  DumpProofs4 DumpProofs5 DumpProofs6 DumpProofs7 DumpProofs8 PropsDump
  ToolText SpecToolText ToolTextProofs PropsToolText
  PyText Dpb DpbProofs3 DpbProofs4 SpecDpb SpecDpbText DpbProofs5 DpbProofs6 DpbProofs7 DpbProofs8 PropsSplit PropsDpb SpecDpbB DpbProofs9.
Import ListNotations.
Open Scope N_scope.
Open Scope list_scope.

Lemma Forall2_imp : forall A B (P Q : A -> B -> Prop) l m, (forall x y, P x y -> Q x y) -> Forall2 P l m -> Forall2 Q l m.
Proof. intros A B P Q l m H F. induction F; constructor; auto. Qed.
(** The pictures and rows of a table, for all files *)
Lemma table_lists : forall a input data l w s rows, fits a data ->
  ParseBitstream a false data (size_of data) (mkw new_state 0) = (Ok l, w) -> last_sps None l = Some s ->
  dpb_script a input data = Ok (Some rows) ->
  exists ps, shows None l ps /\ Forall2 (list_as_p (max_frame_num s)) ps rows.
Proof.
  intros a input data l w s rows F P L R. destruct (C72_reads a input data F) as (l' & w' & text & e & P' & _ & H1 & H2). rewrite P in P'. injection P' as <- <-.
  destruct (N.eq_dec e 0) as [E|E]; [|rewrite (H1 E) in R; discriminate]. destruct (H2 E) as (ps & S & _ & D). rewrite D, L in R. exists ps. split; [exact S|].
  unfold simulate_dpb in R. rewrite max_frame_num_Z in R.
  destruct (simulate_from _ _ (map pict_frame ps) 0 0 0 []) as [rs| | | |] eqn:ES; try discriminate. cbn [rbind] in R. injection R as <-.
  exact (simulate_lists_b _ _ _ _ _ _ _ _ ES).
Qed.
(** A B picture gets the list that a P picture would have, whatever its picture order count. *)
Theorem C76_as_p : forall a input data l w s rows, fits a data ->
  ParseBitstream a false data (size_of data) (mkw new_state 0) = (Ok l, w) -> last_sps None l = Some s ->
  dpb_script a input data = Ok (Some rows) ->
  exists ps, shows None l ps /\ Forall2 (fun c r =>
    let v := pc_slice c in let cur := frame_num (s_pic v) in let refs := map ref_of (t_before r) in
    s_type v = 1 -> cur < max_frame_num s -> distinct cur refs -> (forall cs, s_rpl0 v = Some cs -> Forall (cmd_in_range (max_frame_num s)) cs) ->
    forall xs l, NoDup xs -> list_of (max_frame_num s) cur refs (N.to_nat (active_refs c)) (s_rpl0 v) xs l -> map ref_of (t_refs_used r) = l) ps rows.
Proof. exact table_lists. Qed.
(** The list is list 0 of the standard if the short-term frames are shown before the B picture and
    in the order in which they are decoded. *)
Theorem C76_shown_before : forall a input data l w s rows, fits a data ->
  ParseBitstream a false data (size_of data) (mkw new_state 0) = (Ok l, w) -> last_sps None l = Some s ->
  dpb_script a input data = Ok (Some rows) ->
  exists ps, shows None l ps /\ Forall2 (fun c r =>
    let v := pc_slice c in let cur := frame_num (s_pic v) in let refs := map ref_of (t_before r) in
    s_type v = 1 -> cur < max_frame_num s -> distinct cur refs -> (forall cs, s_rpl0 v = Some cs -> Forall (cmd_in_range (max_frame_num s)) cs) ->
    forall poc cnt, shown_before poc cnt (max_frame_num s) cur refs ->
    forall xs l, NoDup xs -> list_of_b poc cnt (max_frame_num s) cur refs (N.to_nat (active_refs c)) (s_rpl0 v) xs l -> map ref_of (t_refs_used r) = l) ps rows.
Proof.
  intros a input data l w s rows F P L R. destruct (table_lists a input data l w s rows F P L R) as (ps & S & H). exists ps. split; [exact S|].
  eapply Forall2_imp; [|exact H]. intros c r LP. cbv zeta. intros T CM DI RC poc cnt SB xs l' ND LO.
  exact (LP T CM DI RC xs l' ND (list_b _ _ _ _ _ _ _ _ _ DI SB LO)).
Qed.
(** It is wrong, for every such B picture without commands, if the short-term frame that was
    decoded last is shown after it and another one before it. *)
Theorem C76_shown_after_refuted : forall a input data l w s rows, fits a data ->
  ParseBitstream a false data (size_of data) (mkw new_state 0) = (Ok l, w) -> last_sps None l = Some s ->
  dpb_script a input data = Ok (Some rows) ->
  exists ps, shows None l ps /\ Forall2 (fun c r =>
    let v := pc_slice c in let cur := frame_num (s_pic v) in let refs := map ref_of (t_before r) in
    s_type v = 1 -> cur < max_frame_num s -> distinct cur refs -> s_rpl0 v = None ->
    forall poc cnt, last_shown_after poc cnt (max_frame_num s) cur refs ->
    forall xs l, list_of_b poc cnt (max_frame_num s) cur refs (N.to_nat (active_refs c)) None xs l -> map ref_of (t_refs_used r) <> l) ps rows.
Proof.
  intros a input data l w s rows F P L R. destruct (table_lists a input data l w s rows F P L R) as (ps & S & H). exists ps. split; [exact S|].
  eapply Forall2_imp; [|exact H]. intros c r LP. cbv zeta. intros T CM DI RN poc cnt SA xs l' LO.
  exact (wrong_b _ c r poc cnt LP T CM DI RN SA xs l' LO).
Qed.

(** ** Examples *)
(** pic_order_cnt_type 0, MaxPicOrderCntLsb 16, Main profile *)
Definition b_sps : list N :=
  ex_unit 103 (u_bits 8 77 ++ u_bits 8 0 ++ u_bits 8 30 ++ ue_bits 0 ++ ue_bits 0 ++ ue_bits 0 ++ ue_bits 0 ++ ue_bits 4 ++ u_bits 1 0 ++
    ue_bits 0 ++ ue_bits 0 ++ u_bits 1 1 ++ u_bits 1 1 ++ u_bits 1 0 ++ u_bits 1 0).
Definition b_sets : option (sps * pps) :=
  match parsed_units (annexb [(true, b_sps); (true, dpb_pps 4)]) with
  | [(u, _, _); (u', _, _)] => match pl_sps (nu_payload u), pl_pps (nu_payload u') with Some s, Some p => Some (s, p) | _, _ => None end
  | _ => None
  end.
Definition setsb := Eval vm_compute in b_sets.
Lemma setsb_eq : b_sets = setsb. Proof. vm_compute. reflexivity. Qed.
Definition b_film (ps : list pict) : list N :=
  match b_sets with
  | Some (s, p) => annexb ([(true, b_sps); (true, dpb_pps 4)] ++ map (pict_unit s p) ps)
  | None => []
  end.
Definition b_header (ty num lsb : N) (mk : option marking) : slice :=
  mkslice (mklead 0 ty 0) (mkpicid 0 num 0 0) 0 (mkpoc lsb 0 []) 0
    (if ty =? 1 then mkrefs 1 1 3 0 else if ty =? 0 then mkrefs 0 1 3 0 else mkrefs 0 0 0 0) None None None mk 0 0
    (mkspqs 0 0) (mkdbk 0 0 0) 0.
Definition b_idr : pict := mkpict 5 3 (b_header 2 0 0 (Some (IdrMarking 0 0))) 3.
Definition b_p (num lsb : N) : pict := mkpict 1 2 (b_header 0 num lsb (Some (Marking None))) 3.
Definition b_b (num lsb : N) : pict := mkpict 1 0 (b_header 1 num lsb None) 3.
Definition film_b : list pict := [b_idr; b_p 1 4; b_b 2 2].
Definition film_low : list pict := [b_idr; b_p 1 2; b_b 2 4].
Definition ocpic_of (c : pict) : ocpic :=
  mkocpic (pc_nut c =? 5) (negb (pc_ref c =? 0))
    (match s_marking (pc_slice c) with Some (Marking (Some cs)) => existsb (fun c => match c with UnmarkAll => true | _ => false end) cs | _ => false end)
    (Z.of_N (pic_order_cnt_lsb (s_poc (pc_slice c)))) (delta_pic_order_cnt_bottom (s_poc (pc_slice c))).
(** PicOrderCnt of the frames of a film: of the references, and of the last frame *)
Definition counts (ps : list pict) : list (Z * Z) := order_counts 16 0 0 (map ocpic_of ps).
Definition ref_count (ps : list pict) (e : refpic) : Z := snd (nth (N.to_nat (r_id e)) (counts ps) (0, 0)%Z).
Definition last_count (ps : list pict) : Z := fst (last (counts ps) (0, 0)%Z).

(** Also for pictures that are no references *)
Ltac header_tac ::=
  unfold valid_slice, s_type;
  do 6 (split; [valid_tac|]); split; [valid_tac|]; split; [reflexivity|]; split; [first [reflexivity|eexists; split; [reflexivity|valid_tac]]|]; valid_tac.
(** As [wrong_list], for a B picture and the picture order counts of the file *)
Ltac read_b :=
  match goal with |- context [b_film ?ps] =>
    let b := eval vm_compute in (b_film ps) in
    let E := fresh in assert (E : b_film ps = b) by (unfold b_film; rewrite setsb_eq; vm_compute; reflexivity); rewrite !E; clear E;
    let F := fresh "F" in assert (F : fits true b) by fits_tac;
    let r := eval vm_compute in (ParseBitstream true false b (size_of b) (mkw new_state 0)) in
    match r with
    | (Ok ?l, ?w) =>
        let P := fresh "P" in assert (P : ParseBitstream true false b (size_of b) (mkw new_state 0) = (Ok l, w)) by (vm_compute; reflexivity);
        let R := fresh "R" in let D := fresh "D" in
        destruct (film_run b l w F P ltac:(vm_compute; reflexivity)) as [R D];
        let t := eval vm_compute in (table_from b l) in
        let T := fresh in assert (T : table_from b l = t) by (vm_compute; reflexivity); rewrite T in D; clear T
    end
  end.
(** [l] is the list of the last picture in the standard, [used] is printed. *)
Definition b_list (ps : list pict) (l used : list refpic) : Prop :=
  exists s rows r, coded_as (b_film ps) s ps /\ pic_order_cnt_type s = 0 /\ max_frame_num s = 16 /\
    dpb_script true "in.264" (b_film ps) = Ok (Some (rows ++ [r])) /\
    let c := last ps b_idr in let cur := frame_num (s_pic (pc_slice c)) in let refs := map ref_of (t_before r) in
    s_type (pc_slice c) = 1 /\ distinct cur refs /\
    list_of_b (ref_count ps) (last_count ps) 16 cur refs (N.to_nat (active_refs c)) None [] l /\
    map ref_of (t_refs_used r) = used.
Ltac b_tac := unfold b_list; read_b;
  match goal with D : dpb_script _ _ _ = Ok (Some ?rows) |- _ =>
    let a := eval vm_compute in (removelast rows) in let z := eval vm_compute in (last rows no_row) in eexists; exists a, z end;
  split; [coded_tac setsb|]; split; [vm_compute; reflexivity|]; split; [vm_compute; reflexivity|]; split; [assumption|].
Example C76_ex_counts : counts film_b = [(0, 0); (4, 4); (2, 2)]%Z /\ counts film_low = [(0, 0); (2, 2); (4, 4)]%Z.
Proof. split; reflexivity. Qed.
Ltac rest_tac := clear; cbv zeta; split; [reflexivity|];
  split; [split; [vm_compute; repeat constructor; discriminate|split; [vm_compute; nodup_tac|split; vm_compute; nodup_tac]]|].
(** An IDR picture, a P picture that is shown last and a B picture that is shown between them:
    the hypotheses of C76_shown_after_refuted, and the two lists *)
Example C76_ex_after : b_list film_b [mkref 0 None 0; mkref 1 None 1] [mkref 1 None 1; mkref 0 None 0] /\
  last_shown_after (ref_count film_b) (last_count film_b) 16 2 [mkref 0 None 0; mkref 1 None 1].
Proof.
  split.
  - b_tac. rest_tac. split; [|reflexivity]. exists [mkref 0 None 0; mkref 1 None 1]. split; [|split; reflexivity].
    exists [mkref 0 None 0], [mkref 1 None 1], []. split; [reflexivity|]. split; [vm_compute; apply Permutation_refl|]. split; [sorted_tac|].
    split; [vm_compute; apply Permutation_refl|]. split; [sorted_tac|]. split; [vm_compute; apply perm_nil|]. sorted_tac.
  - exists (mkref 1 None 1), (mkref 0 None 0). cbn. split; [auto|]. split; [reflexivity|]. split; [reflexivity|].
    split; [repeat constructor; vm_compute; discriminate|]. split; [auto|]. split; reflexivity.
Qed.
(** A B picture that is shown last: the hypotheses of C76_shown_before *)
Example C76_ex_before : b_list film_low [mkref 1 None 1; mkref 0 None 0] [mkref 1 None 1; mkref 0 None 0] /\
  shown_before (ref_count film_low) (last_count film_low) 16 2 [mkref 0 None 0; mkref 1 None 1].
Proof.
  split.
  - b_tac. rest_tac. split; [|reflexivity]. exists [mkref 1 None 1; mkref 0 None 0]. split; [|split; reflexivity].
    exists [mkref 1 None 1; mkref 0 None 0], [], []. split; [reflexivity|]. split; [vm_compute; apply perm_swap|]. split; [sorted_tac|].
    split; [vm_compute; apply perm_nil|]. split; [sorted_tac|]. split; [vm_compute; apply perm_nil|]. sorted_tac.
  - split; [repeat constructor; intros _; vm_compute; reflexivity|]. intros x y [<-|[<-|[]]] [<-|[<-|[]]] _ _; vm_compute; intros; first [discriminate|reflexivity].
Qed.

Print Assumptions C76_as_p.
Print Assumptions C76_shown_before.
Print Assumptions C76_shown_after_refuted.
