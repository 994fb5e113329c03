(** Proofs about the sliding window of the picture buffer script (C77). *)
From Coq Require Import NArith ZArith List Bool Lia ZifyBool ZifyNat ZifyN String Sorting.Sorted Sorting.Permutation.
From Verif Require Import SpecBits Base TypesSliceHeader SpecVui SpecSliceParts SpecSlice Dump Dpb DpbProofs3 DpbProofs4 DpbProofs5 SpecDpb DpbProofs6 DpbProofs7 SpecDpbFields.
Import ListNotations.
Open Scope N_scope.
Open Scope list_scope.

Lemma slide_short : forall fuel l max, (List.length l < fuel)%nat -> Forall (fun e => short e = true) l -> slide_loop fuel max l = Ok (newest max l).
Proof.
  induction fuel as [|fuel IH]; intros l max LF F; [lia|]. cbn [slide_loop]. unfold newest in *. destruct (N.ltb_spec max (N.of_nat (List.length l))) as [H|H].
  - destruct F as [|x l X F]; [cbn in H; lia|]. cbn [without_first]. rewrite X. cbn [List.length] in *. rewrite IH by (auto; lia).
    replace (S (List.length l) - N.to_nat max)%nat with (S (List.length l - N.to_nat max)) by lia. reflexivity.
  - replace (List.length l - N.to_nat max)%nat with 0%nat by lia. reflexivity.
Qed.
Lemma newest_map : forall A B (f : A -> B) max l, map f (newest max l) = newest max (map f l).
Proof. intros. unfold newest. rewrite map_length. symmetry. apply skipn_map. Qed.
Lemma newest_forall : forall A (P : A -> Prop) max l, Forall P l -> Forall P (newest max l).
Proof. intros A P max l F. unfold newest. rewrite <- (firstn_skipn (List.length l - N.to_nat max) l) in F. apply Forall_app in F. tauto. Qed.
Lemma simulate_windows : forall max Mz ps abs gop gf dpb, Forall sound_pict ps -> Forall (fun c => sliding_window (cpic_of c)) ps ->
  Forall (fun e => short e = true) dpb ->
  exists rows, simulate_from Mz max (map pict_frame ps) abs gop gf dpb = Ok rows /\
    map (fun r => map ref_of (t_after r)) rows = windows max abs (map ref_of dpb) (map cpic_of ps).
Proof.
  intros max Mz ps. induction ps as [|c ps IH]; intros abs gop gf dpb FS FW FD; [exists []; split; reflexivity|].
  apply Forall_cons_iff in FS. destruct FS as [SC FS]. apply Forall_cons_iff in FW. destruct FW as [WC FW].
  assert (U : exists l, update_dpb max abs (pict_frame c) (if is_idr (pict_frame c) then [] else dpb) = Ok l /\ Forall (fun e => short e = true) l /\
    map ref_of l = match c_marking (cpic_of c) with
                   | None => map ref_of dpb
                   | Some (IdrMarking _ _) => [mkref (c_num (cpic_of c)) None abs]
                   | Some (Marking _) => newest max (map ref_of dpb ++ [mkref (c_num (cpic_of c)) None abs])
                   end).
  { unfold sound_pict in SC. unfold sliding_window in WC. cbn [cpic_of c_num c_marking] in *.
    unfold update_dpb, is_idr, is_ref. cbn [pict_frame frame_of f_nal_type f_nal_ref_idc f_mmco f_frame_num f_long_term_reference_flag].
    unfold idr_long_term, cmds_of. destruct (s_marking (pc_slice c)) as [[a b|[cs|]]|]; [|destruct WC| |]; destruct SC as [S1 S2]; rewrite S2; cbn [N.eqb Pos.eqb].
    - subst b. cbn [N.eqb negb]. replace (0 <? pc_ref c) with true by lia. eexists. split; [reflexivity|]. split; [repeat constructor|reflexivity].
    - cbn [ops]. replace (0 <? pc_ref c) with true by lia. cbv zeta.
      assert (F2 : Forall (fun e => short e = true) (dpb ++ [mkdent (frame_num (s_pic (pc_slice c))) None abs])) by (apply Forall_app; split; [exact FD|repeat constructor]).
      rewrite slide_short by (auto; lia). eexists. split; [reflexivity|]. split; [apply newest_forall, F2|]. rewrite newest_map, map_app. reflexivity.
    - cbn [ops]. replace (0 <? pc_ref c) with false by lia. eauto. }
  destruct U as (l & U & FL & EL). cbn [map simulate_from windows]. destruct (refs_of_ok Mz c (if is_idr (pict_frame c) then [] else dpb)) as (r & ->). cbn [rbind].
  destruct (mmco_str_ok c) as (t & ->). cbn [rbind]. rewrite U. cbn [rbind]. cbv zeta. rewrite <- EL.
  match goal with |- context [simulate_from _ _ _ ?a ?g ?f ?d] => destruct (IH a g f d FS FW FL) as (rows & -> & ER) end. cbn [rbind].
  eexists. split; [reflexivity|]. cbn [map t_after]. rewrite ER. reflexivity.
Qed.

(** ** Fields *)
Definition structure_of (v : slice) : structure :=
  if field_pic_flag (s_pic v) =? 0 then WholeFrame else if bottom_field_flag (s_pic v) =? 0 then TopField else BottomField.
Definition ppic_of (c : pict) : ppic := mkppic (frame_num (s_pic (pc_slice c))) (structure_of (pc_slice c)) (pc_nut c =? 5) (negb (pc_ref c =? 0)).

(** The standard *)
Definition pair_of (i : nat) : rframe := mkrframe (N.of_nat i) [TopField; BottomField].
Definition kept (max k : nat) : list rframe := map pair_of (seq (k - Nat.min k max) (Nat.min k max)).
Lemma filter_all : forall A (f : A -> bool) l, (forall x, In x l -> f x = true) -> filter f l = l.
Proof. intros A f l H. induction l as [|x l IH]; [reflexivity|]. cbn [filter]. rewrite (H x) by (left; reflexivity). rewrite IH; [reflexivity|]. intros y Y. apply H. right. exact Y. Qed.
Lemma wrapped_pair : forall M cur i, (i <= cur)%nat -> wrapped M (N.of_nat cur) (pair_of i) = Z.of_nat i.
Proof. intros M cur i H. unfold wrapped. cbn [pair_of rf_num]. destruct (N.ltb_spec (N.of_nat cur) (N.of_nat i)); lia. Qed.
Lemma slide_kept : forall M max k, (1 <= max)%nat -> (1 <= k)%nat ->
  slide M (N.of_nat max) (N.of_nat k) (kept max k) = map pair_of (seq (S k - Nat.min (S k) max) (Nat.min (S k) max - 1)).
Proof.
  intros M max k MX K. unfold slide, kept at 1. rewrite map_length, seq_length.
  destruct (N.ltb_spec (N.of_nat (Nat.min k max)) (N.max (N.of_nat max) 1)) as [H|H].
  - unfold kept. f_equal. f_equal; lia.
  - unfold kept. replace (Nat.min k max) with (S (max - 1)) by lia. cbn [seq map]. cbn [filter].
    replace (forallb _ _) with true.
    + cbn [negb]. rewrite filter_all; [f_equal; f_equal; lia|]. intros x X. apply in_map_iff in X. destruct X as (i & <- & X). apply in_seq in X.
      cbn [forallb]. rewrite !wrapped_pair by lia. destruct (Z.leb_spec (Z.of_nat i) (Z.of_nat (k - S (max - 1)))); [lia|reflexivity].
    + symmetry. apply forallb_forall. intros x X. change (pair_of (k - S (max - 1)) :: map pair_of (seq (S (k - S (max - 1))) (max - 1))) with (map pair_of (seq (k - S (max - 1)) (S (max - 1)))) in X.
      apply in_map_iff in X. destruct X as (i & <- & X). apply in_seq in X. rewrite !wrapped_pair by lia. lia.
Qed.
Lemma kept_last : forall max k, (1 <= max)%nat -> (1 <= k)%nat -> last (kept max k) (mkrframe 0 []) = pair_of (k - 1).
Proof.
  intros max k MX K. unfold kept. replace (Nat.min k max) with (Nat.min k max - 1 + 1)%nat at 2 by lia. rewrite seq_app, map_app. cbn [seq map]. rewrite last_last. f_equal. lia.
Qed.
Lemma frames_pairs : forall M max r k, (1 <= max)%nat -> (1 <= k)%nat ->
  last (frames M (N.of_nat max) true (kept max k) (field_pairs k r)) (kept max k) = kept max (k + r).
Proof.
  intros M max r. induction r as [|r IH]; intros k MX K; [cbn; f_equal; lia|].
  unfold field_pairs. cbn [seq flat_map app]. fold (field_pairs (S k) r). cbn [frames]. cbn [p_ref p_idr p_num p_structure negb].
  replace (Nat.eqb k 0) with false by (symmetry; apply Nat.eqb_neq; lia). rewrite kept_last by assumption.
  replace (true && completes _ (pair_of (k - 1)))%bool with false by (unfold completes; cbn [pair_of rf_parts p_idr p_num rf_num p_structure]; rewrite !andb_false_r; reflexivity).
  rewrite slide_kept by assumption. cbv zeta. rewrite !last_last, !removelast_last.
  cbn [andb]. unfold completes. cbn [p_idr p_num rf_num rf_parts p_structure negb andb]. rewrite !N.eqb_refl. cbn [andb app].
  change (mkrframe (N.of_nat k) [TopField; BottomField]) with (pair_of k).
  replace (map pair_of (seq (S k - Nat.min (S k) max) (Nat.min (S k) max - 1)) ++ [pair_of k]) with (kept max (S k)).
  - replace (k + S r)%nat with (S k + r)%nat by lia. rewrite <- IH by lia.
    destruct (frames M (N.of_nat max) true (kept max (S k)) (field_pairs (S k) r)) as [|x t] eqn:E; [reflexivity|].
    cbn [last]. clear. revert x. induction t as [|y t IH]; intros x; [reflexivity|]. exact (IH y).
  - unfold kept. replace (Nat.min (S k) max) with (Nat.min (S k) max - 1 + 1)%nat at 2 by lia. rewrite seq_app, map_app. cbn [seq map]. do 3 f_equal. lia.
Qed.
Lemma frames_from_idr : forall M max n, (1 <= max)%nat -> last (frames M (N.of_nat max) false [] (field_pairs 0 (S n))) [] = kept max (S n).
Proof.
  intros M max n MX. pose proof (frames_pairs M max n 1 MX ltac:(lia)) as H. unfold field_pairs in *. cbn [seq flat_map app]. cbn [frames]. cbn [p_ref p_idr p_num p_structure negb Nat.eqb last].
  cbv zeta. cbn [last andb]. unfold completes. cbn [p_idr p_num rf_num rf_parts p_structure negb andb N.of_nat N.eqb removelast app].
  change [mkrframe 0 [TopField; BottomField]] with (map pair_of (seq 0 1)). replace (map pair_of (seq 0 1)) with (kept max 1) by (unfold kept; replace (Nat.min 1 max) with 1%nat by lia; reflexivity).
  change (1 + n)%nat with (S n) in H. rewrite <- H.
  destruct (frames M (N.of_nat max) true (kept max 1) _) as [|x t] eqn:E; [reflexivity|].
  cbn [last]. clear. revert x. induction t as [|y t IH]; intros x; [reflexivity|]. exact (IH y).
Qed.

(** The table *)
Lemma skipn_twice : forall A n m (l : list A), skipn n (skipn m l) = skipn (m + n) l.
Proof. intros A n m. induction m as [|m IH]; intros l; [reflexivity|]. destruct l as [|x l]; [cbn; apply skipn_nil|]. exact (IH l). Qed.
Lemma newest_again : forall A max (l : list A) x, newest max (newest max l ++ [x]) = newest max (l ++ [x]).
Proof.
  intros A max l x. unfold newest. destruct (le_lt_dec (List.length l) (N.to_nat max)) as [H|H].
  - replace (List.length l - N.to_nat max)%nat with 0%nat by lia. reflexivity.
  - rewrite !app_length, skipn_length. cbn [List.length].
    rewrite (skipn_app (List.length l + 1 - N.to_nat max)). replace (List.length l + 1 - N.to_nat max - List.length l)%nat with (1 - N.to_nat max)%nat by lia.
    rewrite skipn_app, skipn_length. replace (List.length l - (List.length l - N.to_nat max) + 1 - N.to_nat max)%nat with 1%nat by lia.
    replace (1 - (List.length l - (List.length l - N.to_nat max)))%nat with (1 - N.to_nat max)%nat by lia. f_equal.
    rewrite skipn_twice. f_equal. lia.
Qed.
Lemma windows_last : forall max cs id l, Forall (fun c => exists m, c_marking c = Some (Marking m)) cs ->
  map r_num (last (windows max id (newest max l) cs) (newest max l)) = newest max (map r_num l ++ map c_num cs).
Proof.
  intros max cs. induction cs as [|c cs IH]; intros id l F; [cbn [windows last map]; rewrite app_nil_r; apply newest_map|].
  apply Forall_cons_iff in F. destruct F as [(m & E) F]. cbn [windows]. rewrite E. cbv zeta. rewrite newest_again.
  replace (map r_num l ++ map c_num (c :: cs)) with (map r_num (l ++ [mkref (c_num c) None id]) ++ map c_num cs) by (rewrite map_app, <- app_assoc; reflexivity).
  rewrite <- (IH (id + 1) (l ++ [mkref (c_num c) None id]) F). f_equal.
  destruct (windows max (id + 1) _ cs) as [|x t]; [reflexivity|]. cbn [last]. clear. revert x. induction t as [|y t IH]; intros x; [reflexivity|]. exact (IH y).
Qed.
Lemma in_skipn_seq : forall k s n x, In x (skipn k (seq s n)) -> (s + k <= x)%nat.
Proof.
  induction k as [|k IH]; intros s n x H; [cbn in H; apply in_seq in H; lia|]. destruct n as [|n]; [destruct H|]. cbn [seq skipn] in H. apply IH in H. lia.
Qed.
Lemma last_of_cons : forall A (t : list A) x d, last (x :: t) d = last t x.
Proof. intros A t. induction t as [|y t IH]; intros x d; [reflexivity|]. change (last (x :: y :: t) d) with (last (y :: t) d). rewrite !IH. reflexivity. Qed.
Lemma pairs_nums : forall n k, map p_num (field_pairs k n) = map (fun i => N.of_nat (i / 2)) (seq (2 * k) (2 * n)).
Proof.
  induction n as [|n IH]; intros k; [reflexivity|]. replace (2 * S n)%nat with (S (S (2 * n))) by lia. unfold field_pairs. cbn [seq flat_map app map]. fold (field_pairs (S k) n).
  rewrite IH. replace (2 * S k)%nat with (S (S (2 * k))) by lia. cbn [p_num]. replace (2 * k / 2)%nat with k; [replace (S (2 * k) / 2)%nat with k; [reflexivity|]|].
  - apply (Nat.div_unique _ 2 _ 1); lia.
  - apply (Nat.div_unique _ 2 _ 0); lia.
Qed.
Lemma ppic_nums : forall ps, map p_num (map ppic_of ps) = map c_num (map cpic_of ps).
Proof. intros ps. rewrite !map_map. reflexivity. Qed.
Lemma pairs_not_idr : forall n k, (1 <= k)%nat -> Forall (fun p => p_idr p = false /\ p_ref p = true) (field_pairs k n).
Proof.
  induction n as [|n IH]; intros k K; [constructor|]. unfold field_pairs. cbn [seq flat_map app]. fold (field_pairs (S k) n).
  repeat constructor; [cbn; apply Nat.eqb_neq; lia|]. apply IH. lia.
Qed.
Lemma marked : forall c, sound_pict c -> p_ref (ppic_of c) = true ->
  if p_idr (ppic_of c) then exists x y, c_marking (cpic_of c) = Some (IdrMarking x y) else exists m, c_marking (cpic_of c) = Some (Marking m).
Proof.
  intros c S R. unfold sound_pict in S. cbn [ppic_of p_ref p_idr cpic_of c_marking] in *. destruct (s_marking (pc_slice c)) as [[x y|m]|]; destruct S as [S1 S2].
  - rewrite S2. cbn. eauto.
  - rewrite S2. cbn. eauto.
  - lia.
Qed.
Lemma fields_wrong : forall M max n ps, 2 <= max -> max + 1 < 2 * N.of_nat n -> Forall sound_pict ps -> map ppic_of ps = field_pairs 0 n ->
  ~ holds (last (windows max 0 [] (map cpic_of ps)) []) (last (frames M max false [] (map ppic_of ps)) []).
Proof.
  intros M max n ps MX NX FS EP H. destruct n as [|n]; [lia|].
  pose proof (frames_from_idr M (N.to_nat max) n ltac:(lia)) as FI. rewrite N2Nat.id in FI. rewrite EP, FI in H. clear FI. specialize (H (N.of_nat (S n - Nat.min (S n) (N.to_nat max)))). destruct H as [_ H].
  assert (I : In (N.of_nat (S n - Nat.min (S n) (N.to_nat max))) (map rf_num (kept (N.to_nat max) (S n)))).
  { unfold kept. rewrite map_map. apply in_map_iff. eexists. split; [reflexivity|]. apply in_seq. lia. }
  specialize (H I). clear I.
  pose proof (ppic_nums ps) as NU. rewrite EP, pairs_nums in NU.
  destruct ps as [|c ps]; [discriminate|]. apply Forall_cons_iff in FS. destruct FS as [SC FS].
  cbn [map] in EP. assert (C : p_idr (ppic_of c) = true /\ p_ref (ppic_of c) = true /\ map ppic_of ps = mkppic 0 BottomField false true :: field_pairs 1 n).
  { unfold field_pairs in EP. cbn [seq flat_map app] in EP. injection EP as E1 E2 E3 E4 E5. split; [exact E3|]. split; [exact E4|exact E5]. }
  destruct C as (C1 & C2 & C3). pose proof (marked c SC C2) as MC. rewrite C1 in MC. destruct MC as (x & y & MC).
  cbn [map windows] in H. rewrite MC in H. cbv zeta in H.
  assert (W : Forall (fun c => exists m, c_marking c = Some (Marking m)) (map cpic_of ps)).
  { assert (X : Forall (fun p => p_idr p = false /\ p_ref p = true) (map ppic_of ps)) by (rewrite C3; constructor; [auto|apply pairs_not_idr; lia]).
    apply Forall_map in X. apply Forall_map. clear - X FS. induction FS as [|d ds SD FS IH]; [constructor|]. apply Forall_cons_iff in X. destruct X as [[X1 X2] X].
    constructor; [|auto]. pose proof (marked d SD X2) as MD. rewrite X1 in MD. exact MD. }
  pose proof (windows_last max (map cpic_of ps) 1 [mkref (c_num (cpic_of c)) None 0] W) as L.
  replace (newest max [mkref (c_num (cpic_of c)) None 0]) with [mkref (c_num (cpic_of c)) None 0] in L by (unfold newest; cbn [List.length]; replace (1 - N.to_nat max)%nat with 0%nat by lia; reflexivity).
  change (0 + 1) with 1 in H.
  rewrite last_of_cons, L in H. change (map r_num [mkref (c_num (cpic_of c)) None 0] ++ map c_num (map cpic_of ps)) with (map c_num (map cpic_of (c :: ps))) in H.
  rewrite <- NU, <- newest_map in H. apply in_map_iff in H. destruct H as (i & E & I). unfold newest in I. rewrite seq_length in I. apply in_skipn_seq in I.
  apply Nat2N.inj in E. pose proof (Nat.div_mod_eq i 2). pose proof (Nat.mod_upper_bound i 2 ltac:(lia)). lia.
Qed.
