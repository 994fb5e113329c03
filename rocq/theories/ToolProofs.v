(** Proofs about the tool model. *)
From Coq Require Import NArith ZArith List Bool String Lia ZifyBool ZifyNat ZifyN.
From Verif Require Import Base Framing TypesNal TypesSliceHeader TypesNalUnit NalUnit NalType Tool SpecTool.
Import ListNotations.
Open Scope N_scope.
Ltac Zify.zify_post_hook ::= Z.div_mod_to_equations.

(** * Classification *)
Lemma class_big : forall t, 32 <= t -> class_of t = None.
Proof. intros t H. apply nth_error_None. cbn [table_7_1 List.length]. lia. Qed.
Lemma small_types : forall (P : N -> Prop), (forall k, (k < 32)%nat -> P (N.of_nat k)) ->
  forall t, t < 32 -> P t.
Proof. intros P H t L. rewrite <- (N2Nat.id t). apply H. lia. Qed.
Lemma types_forall : forall f : N -> bool, forallb f (map N.of_nat (seq 0 32)) = true ->
  forall t, t < 32 -> f t = true.
Proof.
  intros f H t L. rewrite forallb_forall in H. apply H. apply in_map_iff. exists (N.to_nat t).
  split; [lia|]. apply in_seq. lia.
Qed.
Definition is_class (c : nal_class) (t : N) : bool :=
  match class_of t, c with
  | Some Slice, Slice | Some NonVcl, NonVcl | Some Reserved, Reserved | Some Unspecified, Unspecified => true
  | _, _ => false
  end.
Lemma is_class_iff : forall c t, is_class c t = true <-> class_of t = Some c.
Proof.
  intros c t. unfold is_class. destruct (class_of t) as [[]|], c; split; intros H; try reflexivity;
    try discriminate; try (injection H; congruence).
Qed.
Lemma big_pos : forall t, 32 <= t -> exists p, t = N.pos p /\ (32 <= p)%positive.
Proof. intros [|p] H; [lia|]. exists p. split; [auto|lia]. Qed.
Ltac big_tac p := do 5 (destruct p as [p|p|]; try lia); reflexivity.
Lemma slice_big : forall t, 32 <= t -> IsSliceSegment t = false.
Proof. intros t H. destruct (big_pos t H) as (p & -> & L). clear H. cbv [IsSliceSegment]. big_tac p. Qed.
Lemma reserved_big : forall t, 32 <= t -> IsNalUnitTypeReserved t = false.
Proof. intros t H. destruct (big_pos t H) as (p & -> & L). clear H. cbv [IsNalUnitTypeReserved]. big_tac p. Qed.
Lemma unspecified_big : forall t, 32 <= t -> IsNalUnitTypeUnspecified t = false.
Proof. intros t H. destruct (big_pos t H) as (p & -> & L). clear H. cbv [IsNalUnitTypeUnspecified]. big_tac p. Qed.
Lemma name_big : forall t, 32 <= t -> NalUnitTypeToString t = "unknown"%string.
Proof. intros t H. destruct (big_pos t H) as (p & -> & L). clear H. cbv [NalUnitTypeToString]. big_tac p. Qed.
Lemma slice_class : forall t, IsSliceSegment t = is_class Slice t.
Proof.
  intros t. destruct (N.lt_ge_cases t 32) as [L|L].
  - apply eqb_prop. revert t L. apply types_forall. vm_compute. reflexivity.
  - rewrite slice_big by auto. unfold is_class. rewrite class_big; auto.
Qed.
Lemma reserved_class : forall t, IsNalUnitTypeReserved t = is_class Reserved t.
Proof.
  intros t. destruct (N.lt_ge_cases t 32) as [L|L].
  - apply eqb_prop. revert t L. apply types_forall. vm_compute. reflexivity.
  - rewrite reserved_big by auto. unfold is_class. rewrite class_big; auto.
Qed.
Lemma unspecified_class : forall t, t <> 0 -> IsNalUnitTypeUnspecified t = is_class Unspecified t.
Proof.
  intros t Z. destruct (N.lt_ge_cases t 32) as [L|L].
  - assert (K : (t =? 0) || Bool.eqb (IsNalUnitTypeUnspecified t) (is_class Unspecified t) = true).
    { apply (types_forall (fun t => (t =? 0) || Bool.eqb (IsNalUnitTypeUnspecified t) (is_class Unspecified t))); auto. }
    apply orb_prop in K. destruct K as [K|K]; [lia|]. apply eqb_prop. auto.
  - rewrite unspecified_big by auto. unfold is_class. rewrite class_big; auto.
Qed.
Lemma is_slice_eq : forall e, IsSliceSegment (e_type e) = is_slice e.
Proof. intros e. rewrite slice_class. unfold is_slice, is_class. destruct (class_of _) as [[]|]; auto. Qed.

(** * The length dump *)
(** Lines for units of frame [f], the first of which has number [k] *)
Fixpoint nal_rows (k f : N) (us : list entry) : list row :=
  match us with
  | [] => []
  | e :: t =>
      NalRow (Z.of_N k) (Z.of_N f) (e_type e) (NalUnitTypeToString (e_type e)) (Z.of_N (e_length e))
        (if is_slice e then Some (match e_first_mb e with Some n => Z.of_N n | None => 0%Z end) else None)
      :: nal_rows (k + 1) f t
  end.
Definition frame_row (fps f : N) (us : list entry) : row :=
  FrameRow (Z.of_N f) (Z.of_N (last_slice_type us 0)) (Z.of_N (slice_bytes us * 8 * fps)).
Fixpoint frame_rows (fps k f : N) (fs : list (list entry)) : list row :=
  match fs with
  | [] => []
  | us :: t => nal_rows k f us ++ frame_row fps f us ::
               frame_rows fps (k + N.of_nat (List.length us)) (f + 1) t
  end.

Lemma to_int_small : forall n, n < 2 ^ 31 -> to_int n = Z.of_N n.
Proof. intros n H. unfold to_int, to_i32, u32. rewrite N.mod_small by lia. destruct (N.ltb_spec n (2 ^ 31)); lia. Qed.
Lemma chk_i32_small : forall z, (0 <= z < 2 ^ 31)%Z -> chk_i32 z = Ok z.
Proof. intros z H. unfold chk_i32. replace ((- 2 ^ 31 <=? z) && (z <? 2 ^ 31))%Z with true by lia. reflexivity. Qed.
Lemma chk_i64_small : forall z, (0 <= z < 2 ^ 63)%Z -> chk_i64 z = Ok z.
Proof. intros z H. unfold chk_i64. replace ((- 2 ^ 63 <=? z) && (z <? 2 ^ 63))%Z with true by lia. reflexivity. Qed.
Lemma bitrate_small : forall fps n, n < 2 ^ 31 -> n * 8 * fps < 2 ^ 63 ->
  bitrate (Z.of_N fps) (Z.of_N n) = Ok (Z.of_N (n * 8 * fps)).
Proof.
  intros fps n H1 H2. unfold bitrate. rewrite chk_i64_small by lia. cbn [rbind].
  rewrite chk_i64_small by nia. f_equal. nia.
Qed.

(** What the loop may assume of an entry. *)
Definition e_ok (e : entry) : Prop :=
  1 <= e_length e < 2 ^ 31 /\ e_type e < 32 /\ forall n, e_first_mb e = Some n -> n < 2 ^ 31.
Lemma first_mb_eq : forall e, e_ok e ->
  first_mb (fst (fst e)) = match e_first_mb e with Some n => Z.of_N n | None => 0%Z end.
Proof.
  intros e (_ & _ & H). unfold first_mb, e_first_mb in *. destruct (pl_slice _); auto.
  apply to_int_small. auto.
Qed.
Lemma starts_eq : forall e, e_ok e ->
  starts_frame e = is_slice e && (first_mb (fst (fst e)) =? 0)%Z.
Proof.
  intros e K. rewrite first_mb_eq by auto. unfold starts_frame. destruct (e_first_mb e); auto.
  f_equal. lia.
Qed.
Lemma slice_bytes_app : forall a b, slice_bytes (a ++ b) = slice_bytes a + slice_bytes b.
Proof. induction a as [|e a IH]; intros b; cbn [app slice_bytes]; [auto|]. rewrite IH. lia. Qed.
Lemma last_slice_type_bound : forall us d, Forall e_ok us -> d < 32 -> last_slice_type us d < 32.
Proof.
  induction us as [|e us IH]; intros d F D; cbn [last_slice_type]; auto. inversion F as [|? ? [? [? ?]] ?]; subst.
  apply IH; auto. destruct (is_slice e); auto.
Qed.

Fixpoint lastz (us : list entry) (z : Z) : Z :=
  match us with
  | [] => z
  | e :: t => lastz t (if is_slice e then Z.of_N (e_type e) else z)
  end.
Lemma lastz_spec : forall us d, lastz us (Z.of_N d) = Z.of_N (last_slice_type us d).
Proof. induction us as [|e us IH]; intros d; cbn [lastz last_slice_type]; auto. rewrite <- IH. destruct (is_slice e); auto. Qed.
Lemma to_int_type : forall e, e_ok e -> to_int (e_type e) = Z.of_N (e_type e).
Proof. intros e (_ & H & _). apply to_int_small. lia. Qed.

(** A step that emits no frame row. *)
Lemma loop_step : forall fps e t total k f last, e_ok e ->
  (is_slice e = true -> starts_frame e = false \/ total = 0) ->
  total + slice_bytes [e] < 2 ^ 31 -> k + 1 < 2 ^ 31 ->
  dump_loop fps (e :: t) (Z.of_N total) (Z.of_N k) (Z.of_N f) last =
  rbind (dump_loop fps t (Z.of_N (total + slice_bytes [e])) (Z.of_N (k + 1)) (Z.of_N f) (lastz [e] last))
    (fun rs => Ok (nal_rows k f [e] ++ rs)).
Proof.
  intros fps [[u o] n] t total k f last K NS T KK. pose proof (first_mb_eq _ K) as FM. pose proof (starts_eq _ K) as SE.
  pose proof (to_int_type _ K) as TT. pose proof (is_slice_eq (u, o, n)) as IS.
  destruct K as (KL & KT & KF). cbn [dump_loop].
  change (nal_unit_type (nu_header u)) with (e_type (u, o, n)). rewrite IS.
  set (e := (u, o, n)) in *. change (first_mb (fst (fst e))) with (first_mb u) in *.
  change n with (e_length e). rewrite TT, to_int_small by lia.
  cbn [slice_bytes lastz nal_rows app] in *. rewrite N.add_0_r in *.
  destruct (is_slice e) eqn:SL.
  - assert (C : ((first_mb u =? 0) && (0 <? Z.of_N total))%Z = false).
    { destruct (NS eq_refl) as [X|X]; [rewrite X in SE; cbn [andb] in SE; rewrite <- SE; auto|].
      subst total. rewrite andb_comm. reflexivity. }
    rewrite C. rewrite chk_i32_small by lia. cbn [rbind]. rewrite chk_i32_small by lia. cbn [rbind].
    rewrite FM. replace (Z.of_N total + Z.of_N (e_length e))%Z with (Z.of_N (total + e_length e)) by lia.
    replace (Z.of_N k + 1)%Z with (Z.of_N (k + 1)) by lia. reflexivity.
  - rewrite chk_i32_small by lia. cbn [rbind]. rewrite N.add_0_r.
    replace (Z.of_N k + 1)%Z with (Z.of_N (k + 1)) by lia. reflexivity.
Qed.
Lemma rbind_assoc : forall A B C (r : res A) (f : A -> res B) (g : B -> res C),
  rbind (rbind r f) g = rbind r (fun a => rbind (f a) g).
Proof. intros. destruct r; reflexivity. Qed.
Lemma rbind_ext : forall A B (r : res A) (f g : A -> res B), (forall a, f a = g a) -> rbind r f = rbind r g.
Proof. intros. destruct r; cbn; auto. Qed.
Lemma slice_bytes_pos : forall e, e_ok e -> is_slice e = true -> 1 <= slice_bytes [e].
Proof. intros e (K & _) S. cbn [slice_bytes]. rewrite S. lia. Qed.
(** Units that do not start a frame. *)
Lemma loop_rest : forall fps r t total k f last, Forall e_ok r ->
  Forall (fun e => starts_frame e = false) r ->
  total + slice_bytes r < 2 ^ 31 -> k + N.of_nat (List.length r) < 2 ^ 31 ->
  dump_loop fps (r ++ t) (Z.of_N total) (Z.of_N k) (Z.of_N f) last =
  rbind (dump_loop fps t (Z.of_N (total + slice_bytes r)) (Z.of_N (k + N.of_nat (List.length r))) (Z.of_N f)
    (lastz r last)) (fun rs => Ok (nal_rows k f r ++ rs)).
Proof.
  induction r as [|e r IH]; intros t total k f last K NS T KK.
  - cbn [app slice_bytes List.length lastz nal_rows] in *. rewrite !N.add_0_r.
    destruct (dump_loop _ _ _ _ _ _); reflexivity.
  - inversion K as [|? ? K1 K2]; subst. inversion NS as [|? ? N1 N2]; subst. cbn [app].
    change (e :: r) with ([e] ++ r) in T. rewrite slice_bytes_app in T. cbn [List.length] in KK.
    rewrite loop_step by (auto; lia). rewrite IH by (auto; lia). rewrite rbind_assoc.
    change (slice_bytes (e :: r)) with (slice_bytes ([e] ++ r)). rewrite slice_bytes_app, N.add_assoc.
    replace (k + N.of_nat (List.length (e :: r))) with (k + 1 + N.of_nat (List.length r)) by (cbn [List.length]; lia).
    cbn [lastz nal_rows app]. apply rbind_ext. reflexivity.
Qed.
Lemma nonslice_starts : forall e, is_slice e = false -> starts_frame e = false.
Proof. intros e H. unfold starts_frame. now rewrite H. Qed.
Lemma nonslice_bytes : forall us, Forall (fun e => is_slice e = false) us -> slice_bytes us = 0.
Proof. induction 1 as [|e us E _ IH]; cbn [slice_bytes]; auto. rewrite E, IH. reflexivity. Qed.
Lemma lastz_nonslice : forall us z, Forall (fun e => is_slice e = false) us -> lastz us z = z.
Proof. intros us z H. revert z. induction H as [|e us E _ IH]; intros z; cbn [lastz]; auto. now rewrite E, IH. Qed.
Lemma lastz_slice : forall e r z, is_slice e = true -> lastz (e :: r) z = Z.of_N (last_slice_type (e :: r) 0).
Proof. intros e r z S. cbn [lastz last_slice_type]. rewrite S. apply lastz_spec. Qed.
Lemma nal_rows_app : forall a b k f, nal_rows k f (a ++ b) = nal_rows k f a ++ nal_rows (k + N.of_nat (List.length a)) f b.
Proof.
  induction a as [|e a IH]; intros b k f; cbn [app nal_rows List.length].
  - now rewrite N.add_0_r.
  - rewrite IH. replace (k + 1 + N.of_nat (List.length a)) with (k + N.of_nat (S (List.length a))) by lia. reflexivity.
Qed.
(** One frame, when no frame is open. *)
Lemma loop_frame0 : forall fps us t k f last, frame us -> Forall e_ok us ->
  slice_bytes us < 2 ^ 31 -> k + N.of_nat (List.length us) < 2 ^ 31 ->
  dump_loop fps (us ++ t) 0 (Z.of_N k) (Z.of_N f) last =
  rbind (dump_loop fps t (Z.of_N (slice_bytes us)) (Z.of_N (k + N.of_nat (List.length us))) (Z.of_N f)
    (Z.of_N (last_slice_type us 0))) (fun rs => Ok (nal_rows k f us ++ rs)).
Proof.
  intros fps us t k f last (e & r & -> & S & NS) K T KK. inversion K as [|? ? K1 K2]; subst. cbn [app].
  change (e :: r) with ([e] ++ r) in T. rewrite slice_bytes_app in T. cbn [List.length] in KK.
  rewrite (loop_step fps e (r ++ t) 0) by (auto; lia). rewrite loop_rest by (auto; lia). rewrite rbind_assoc.
  change (slice_bytes (e :: r)) with (slice_bytes ([e] ++ r)). rewrite slice_bytes_app, N.add_0_l.
  replace (k + N.of_nat (List.length (e :: r))) with (k + 1 + N.of_nat (List.length r)) by (cbn [List.length]; lia).
  change (lastz r (lastz [e] last)) with (lastz (e :: r) last). rewrite lastz_slice by auto.
  apply rbind_ext. reflexivity.
Qed.
(** The first unit of a frame closes the frame before it. *)
Lemma loop_close : forall fps e t total k f last r, e_ok e -> starts_frame e = true -> 1 <= total < 2 ^ 31 ->
  bitrate fps (Z.of_N total) = Ok r -> f + 1 < 2 ^ 31 -> k + 1 < 2 ^ 31 ->
  dump_loop fps (e :: t) (Z.of_N total) (Z.of_N k) (Z.of_N f) last =
  rbind (dump_loop fps (e :: t) 0 (Z.of_N k) (Z.of_N (f + 1)) last)
    (fun rs => Ok (FrameRow (Z.of_N f) last r :: rs)).
Proof.
  intros fps e t total k f last r K ST T B FF KK.
  assert (S : is_slice e = true) by (unfold starts_frame in ST; apply andb_prop in ST; tauto).
  pose proof K as (KL & _ & _).
  change 0%Z with (Z.of_N 0). rewrite (loop_step fps e t 0 k (f + 1)) by (auto; cbn [slice_bytes]; rewrite S; lia).
  pose proof (first_mb_eq _ K) as FM. pose proof (starts_eq _ K) as SE. rewrite ST, S in SE. cbn [andb] in SE.
  pose proof (to_int_type _ K) as TT. pose proof (is_slice_eq e) as IS. rewrite S in IS.
  destruct e as [[u o] n]. cbn [dump_loop].
  change (nal_unit_type (nu_header u)) with (e_type (u, o, n)). rewrite IS.
  set (e := (u, o, n)) in *. change (first_mb (fst (fst e))) with (first_mb u) in *.
  change n with (e_length e). rewrite TT, to_int_small by lia.
  replace ((first_mb u =? 0) && (0 <? Z.of_N total))%Z with true by lia. rewrite B. cbn [rbind].
  rewrite chk_i32_small by lia. cbn [rbind]. rewrite chk_i32_small by lia. cbn [rbind].
  rewrite chk_i32_small by lia. cbn [rbind slice_bytes lastz nal_rows app]. rewrite S, !N.add_0_r, !N.add_0_l.
  replace (Z.of_N f + 1)%Z with (Z.of_N (f + 1)) by lia.
  replace (Z.of_N k + 1)%Z with (Z.of_N (k + 1)) by lia. rewrite Z.add_0_l, rbind_assoc, FM.
  apply rbind_ext. reflexivity.
Qed.
Definition frame_starts (us : list entry) : Prop := exists e r, us = e :: r /\ starts_frame e = true.
Fixpoint all_bytes (fs : list (list entry)) : N :=
  match fs with [] => 0 | us :: t => slice_bytes us + all_bytes t end.
Lemma frame_pos : forall us, frame us -> Forall e_ok us -> 1 <= slice_bytes us.
Proof.
  intros us (e & r & -> & S & _) K. inversion K; subst. change (e :: r) with ([e] ++ r).
  rewrite slice_bytes_app. pose proof (slice_bytes_pos e). lia.
Qed.
Lemma frame_length : forall us, frame us -> 1 <= N.of_nat (List.length us).
Proof. intros us (e & r & -> & _). cbn [List.length]. lia. Qed.
(** All frames from the first. *)
Lemma loop_frames : forall fps fs us k f last, Forall frame (us :: fs) -> Forall frame_starts fs ->
  Forall (Forall e_ok) (us :: fs) ->
  Forall (fun us => slice_bytes us < 2 ^ 31 /\ slice_bytes us * 8 * fps < 2 ^ 63) (us :: fs) ->
  k + N.of_nat (List.length (List.concat (us :: fs))) < 2 ^ 31 -> f + N.of_nat (List.length fs) < 2 ^ 31 ->
  dump_loop (Z.of_N fps) (List.concat (us :: fs)) 0 (Z.of_N k) (Z.of_N f) last =
  Ok (frame_rows fps k f (us :: fs)).
Proof.
  intros fps. induction fs as [|vs fs IH]; intros us k f last F ST K B KK FF.
  - cbn [List.concat] in *. inversion F; subst. inversion K; subst. inversion B as [|? ? [B1 B2] _]; subst.
    rewrite app_nil_r in KK. rewrite loop_frame0 by auto. cbn [dump_loop].
    pose proof (frame_pos us). replace (0 <? Z.of_N (slice_bytes us))%Z with true by (symmetry; apply Z.ltb_lt; lia).
    rewrite bitrate_small by auto. cbn [rbind frame_rows]. reflexivity.
  - inversion F as [|? ? F1 F2]; subst. inversion K as [|? ? K1 K2]; subst. inversion B as [|? ? [B1 B2] B3]; subst.
    inversion ST as [|? ? S1 S2]; subst. change (List.concat (us :: vs :: fs)) with (us ++ List.concat (vs :: fs)) in *.
    rewrite app_length in KK. rewrite loop_frame0 by (auto; lia).
    pose proof (frame_pos us F1 K1) as P1. pose proof (frame_length vs ltac:(now inversion F2)) as L1.
    destruct S1 as (e & r & EV & SE).
    assert (KE : e_ok e). { inversion K2 as [|? ? X _]; subst. now inversion X. }
    assert (CE : List.concat (vs :: fs) = e :: (r ++ List.concat fs)) by (rewrite EV; reflexivity).
    assert (LC : 1 <= N.of_nat (List.length (List.concat (vs :: fs)))) by (rewrite CE; cbn [List.length]; lia).
    cbn [List.length] in FF. rewrite CE.
    rewrite (loop_close _ e _ _ _ _ _ (Z.of_N (slice_bytes us * 8 * fps))) by (auto using bitrate_small; lia).
    rewrite <- CE. rewrite IH by (auto; lia). cbn [rbind frame_rows]. reflexivity.
Qed.
Lemma rows_spec : forall fps before fs us, cut before fs us -> Forall e_ok us ->
  Forall (fun f => slice_bytes f < 2 ^ 31 /\ slice_bytes f * 8 * fps < 2 ^ 63) fs ->
  N.of_nat (List.length us) < 2 ^ 31 ->
  dump_length (Z.of_N fps) us = Ok (nal_rows 0 0 before ++ frame_rows fps (N.of_nat (List.length before)) 0 fs).
Proof.
  intros fps before fs us (-> & NS & F & ST) K B L. apply Forall_app in K. destruct K as [K1 K2].
  rewrite app_length in L. unfold dump_length. change 0%Z with (Z.of_N 0).
  rewrite (loop_rest _ before _ 0 0 0 (-1)%Z).
  2: auto. 2: { eapply Forall_impl; [|exact NS]. intros e. apply nonslice_starts. }
  2: { rewrite nonslice_bytes by auto. reflexivity. } 2: lia.
  rewrite nonslice_bytes by auto. rewrite lastz_nonslice by auto. rewrite !N.add_0_l.
  destruct fs as [|f fs].
  - cbn [List.concat dump_loop frame_rows]. change (0 <? Z.of_N 0)%Z with false. cbn [rbind]. reflexivity.
  - assert (K3 : Forall (Forall e_ok) (f :: fs)).
    { apply Forall_forall. intros x I. apply Forall_forall. intros y J. rewrite Forall_forall in K2. apply K2.
      apply in_concat. eauto. }
    cbn [tl] in ST.
    assert (FF : N.of_nat (List.length fs) <= N.of_nat (List.length (List.concat (f :: fs)))).
    { clear - F. inversion F as [|? ? _ F2]; subst. cbn [List.concat]. rewrite app_length.
      induction F2 as [|x fs X F2 IH]; cbn [List.concat List.length]; [lia|]. pose proof (frame_length _ X).
      rewrite app_length. assert (Forall frame (f :: fs)) by (inversion F; auto). specialize (IH H0). lia. }
    rewrite (loop_frames fps fs f _ 0) by (auto; lia). reflexivity.
Qed.
(** Units can always be cut. *)
Lemma cut_exists : forall us, exists before fs, cut before fs us.
Proof.
  assert (R : forall us, exists r fs, us = r ++ List.concat fs /\ Forall (fun e => starts_frame e = false) r /\
    Forall frame fs /\ Forall frame_starts fs).
  { induction us as [|e us (r & fs & -> & R & F & ST)].
    - exists [], []. repeat split; constructor.
    - destruct (starts_frame e) eqn:S.
      + exists [], ((e :: r) :: fs). repeat split; auto.
        * constructor; auto. exists e, r. unfold starts_frame in S. apply andb_prop in S. repeat split; tauto.
        * constructor; auto. exists e, r. auto.
      + exists (e :: r), fs. repeat split; auto. }
  induction us as [|e us (before & fs & C)].
  - exists [], []. repeat split; constructor.
  - destruct (is_slice e) eqn:S.
    + destruct (R us) as (r & gs & -> & RR & F & ST). exists [], ((e :: r) :: gs). repeat split; auto.
      constructor; auto. exists e, r. auto.
    + destruct C as (-> & NS & F & ST). exists (e :: before), fs. repeat split; auto.
Qed.
Lemma cut_bytes : forall before fs us, cut before fs us -> slice_bytes us = all_bytes fs.
Proof.
  intros before fs us (-> & NS & _ & _). rewrite slice_bytes_app, nonslice_bytes by auto. rewrite N.add_0_l.
  induction fs as [|f fs IH]; cbn [List.concat all_bytes]; auto. rewrite slice_bytes_app, IH. reflexivity.
Qed.
