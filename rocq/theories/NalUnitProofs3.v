(** Proofs about units, bitstreams and histories. *)
From Coq Require Import NArith ZArith List Bool Lia ZifyBool ZifyNat ZifyN.
From Verif Require Import SpecBits Base BitBuffer SpecReader BitsLemmas BitBufferProofs
  ReaderProofs SpecRbsp Rbsp RbspProofs ChecksumProofs Parser SpecSyntax ParserProofs TypesSps TypesPps Sps Pps
  TypesNal NalHeader SpecNalHeader NalHeaderProofs TypesExt Ext TypesSliceHeader SliceHeader SpecSlice
  TypesSvcSlice SvcSlice Framing SpecFraming FramingProofs FramingProofs2 FramingProofs3
  TypesNalUnit NalUnit NalUnitProofs SpecNalUnit NalUnitProofs2.
Import ListNotations.
Open Scope N_scope.
Ltac Zify.zify_post_hook ::= Z.div_mod_to_equations.

(** * runs *)
Section runs.
  Context {A S : Type} (parse : list N -> S -> res A * S).
  Lemma runs_det : forall us s l1 s1 l2 s2, runs parse us s l1 s1 -> runs parse us s l2 s2 ->
    l1 = l2 /\ s1 = s2.
  Proof.
    intros us s l1 s1 l2 s2 H. revert l2 s2.
    induction H as [s|o u t s a s' l s'' E R IH|o u t s s' l s'' E R IH]; intros l2 s2 H2;
      inversion H2; subst; auto; try congruence.
    - match goal with H : parse u s = (Ok _, _) |- _ => rewrite E in H; injection H as <- <- end.
      edestruct IH; eauto. subst. auto.
    - match goal with H : parse u s = (Null, _) |- _ => rewrite E in H; injection H as <- end.
      edestruct IH; eauto.
  Qed.
  Lemma runs_app : forall us vs s l1 s1 l2 s2, runs parse us s l1 s1 -> runs parse vs s1 l2 s2 ->
    runs parse (us ++ vs) s (l1 ++ l2) s2.
  Proof.
    intros us vs s l1 s1 l2 s2 H. induction H; intros K; cbn [app]; auto.
    - eapply runs_kept; eauto.
    - eapply runs_dropped; eauto.
  Qed.
  Lemma runs_app_inv : forall us vs s l s2, runs parse (us ++ vs) s l s2 ->
    exists l1 s1 l2, runs parse us s l1 s1 /\ runs parse vs s1 l2 s2 /\ l = l1 ++ l2.
  Proof.
    induction us as [|[o u] us IH]; intros vs s l s2 H; cbn [app] in H.
    - exists [], s, l. split; [constructor|]. auto.
    - inversion H; subst.
      + match goal with H : runs parse (us ++ vs) _ _ _ |- _ => apply IH in H; destruct H as (l1 & s1 & l2 & R1 & R2 & ->) end.
        eexists. exists s1, l2. split; [eapply runs_kept; eauto|]. auto.
      + match goal with H : runs parse (us ++ vs) _ _ _ |- _ => apply IH in H; destruct H as (l1 & s1 & l2 & R1 & R2 & ->) end.
        eexists. exists s1, l2. split; [eapply runs_dropped; eauto|]. auto.
  Qed.
  (** Offsets are only recorded. *)
  Lemma runs_offsets : forall us vs s l s', map snd us = map snd vs -> runs parse us s l s' ->
    exists l', runs parse vs s l' s' /\
      map (fun e => (fst (fst e), snd e)) l' = map (fun e => (fst (fst e), snd e)) l.
  Proof.
    intros us vs s l s' E H. revert vs E. induction H; intros [|[o' u'] vs] E; cbn [map] in E; try discriminate.
    - exists []. split; [constructor|reflexivity].
    - injection E as <- E. destruct (IHruns vs E) as (l' & R & M).
      eexists. split; [eapply runs_kept; eauto|]. cbn [map fst snd]. now rewrite M.
    - injection E as <- E. destruct (IHruns vs E) as (l' & R & M).
      eexists. split; [eapply runs_dropped; eauto|]. auto.
  Qed.
End runs.

(** * One unit and the state *)
Lemma type_unesc : forall u, type_of (unesc u) = type_of u.
Proof.
  intros [|x t]; [reflexivity|]. destruct (is_triple (x :: t)) eqn:T.
  - apply is_triple_true in T. destruct T as [t' E]. rewrite E, unesc_triple. reflexivity.
  - rewrite unesc_other by auto. reflexivity.
Qed.
Lemma unit_effect : forall a ck u w, fits a u -> ok_state (w_st w) ->
  match unit_parser a ck u w with
  | (Ok x, w') => w_st w' = add_payload (nu_payload x) (w_st w) /\
      nal_unit_type (nu_header x) = type_of u /\
      (pl_sps (nu_payload x) <> None -> type_of u = 7) /\
      (pl_pps (nu_payload x) <> None -> type_of u = 8) /\
      (pl_subset_sps (nu_payload x) <> None -> type_of u = 15) /\
      ok_state (w_st w')
  | (Null, w') => w_st w' = w_st w
  | _ => False
  end.
Proof.
  intros a ck u w F O.
  destruct (unit_cases a ck u w F O) as [(h & p & b1 & b2 & w2 & E1 & E2 & _ & _ & O2 & _ & T & ->)|
    [(_ & _ & ->)|(_ & _ & ->)]]; try reflexivity.
  cbn [nu_payload nu_header]. rewrite type_unesc in T.
  pose proof (payload_kinds _ _ _ _ _ _ E2) as K. rewrite <- T.
  split; [eapply payload_state; eauto|]. intuition.
Qed.
Lemma unit_result_counter : forall a ck u st c c', fits a u -> c < 2 ^ 32 -> c' < 2 ^ 32 ->
  fst (unit_parser a ck u (mkw st c)) = fst (unit_parser a ck u (mkw st c')) /\
  w_st (snd (unit_parser a ck u (mkw st c))) = w_st (snd (unit_parser a ck u (mkw st c'))) /\
  w_unimplemented (snd (unit_parser a ck u (mkw st c))) < 2 ^ 32.
Proof.
  intros a ck u st c c' F C C'. unfold unit_parser. rewrite !on_unit_eq by auto.
  destruct (counts_nalunit ck (start a (unesc u)) st c C) as [B1 E1].
  destruct (counts_nalunit ck (start a (unesc u)) st c' C') as [B2 E2]. rewrite E1, E2.
  destruct (ParseNalUnit ck (start a (unesc u), mkw st 0)) as [r [b w]]. cbn.
  repeat split. unfold u32. lia.
Qed.
(** How much the counter moves does not depend on it. *)
Lemma unit_counter : forall a ck u st c, fits a u -> c < 2 ^ 32 ->
  unit_parser a ck u (mkw st c) =
  let '(r, w') := unit_parser a ck u (mkw st 0) in (r, mkw (w_st w') (u32 (c + w_unimplemented w'))).
Proof.
  intros a ck u st c F C. unfold unit_parser. rewrite !on_unit_eq by auto.
  destruct (counts_nalunit ck (start a (unesc u)) st c C) as [B1 E1]. rewrite E1.
  destruct (ParseNalUnit ck (start a (unesc u), mkw st 0)) as [r [b w]]. reflexivity.
Qed.
Definition units_fit (a : bool) (us : list (N * list N)) : Prop := Forall (fun e => fits a (snd e)) us.
Lemma units_run : forall a ck us w, units_fit a us -> ok_state (w_st w) ->
  exists l w', runs (unit_parser a ck) us w l w' /\ ok_state (w_st w').
Proof.
  intros a ck us. induction us as [|[o u] us IH]; intros w F O.
  - exists [], w. split; [constructor|auto].
  - inversion F as [|? ? F1 F2]; subst. cbn [snd] in F1.
    pose proof (unit_effect a ck u w F1 O) as E.
    destruct (unit_parser a ck u w) as [[x| |k| |] w1] eqn:P; try tauto.
    + destruct (IH w1 F2) as (l & w' & R & O'); [tauto|].
      eexists. exists w'. split; [eapply runs_kept; eauto|auto].
    + destruct (IH w1 F2) as (l & w' & R & O'); [rewrite E; auto|].
      eexists. exists w'. split; [eapply runs_dropped; eauto|auto].
Qed.
Lemma runs_ok : forall a ck us w l w', runs (unit_parser a ck) us w l w' -> units_fit a us ->
  ok_state (w_st w) -> ok_state (w_st w').
Proof.
  intros a ck us w l w' H F O. destruct (units_run a ck us w F O) as (l2 & w2 & R & O2).
  destruct (runs_det _ _ _ _ _ _ _ H R) as [_ ->]. auto.
Qed.
Lemma runs_count_bound : forall a ck us w l w', runs (unit_parser a ck) us w l w' -> units_fit a us ->
  w_unimplemented w < 2 ^ 32 -> w_unimplemented w' < 2 ^ 32.
Proof.
  intros a ck us w l w' H F C. induction H as [s|o u t s x s' l s'' E R IH|o u t s s' l s'' E R IH]; auto;
    inversion F as [|? ? F1 F2]; subst; apply IH; auto; cbn [snd] in F1;
    destruct s as [st c]; cbn [w_unimplemented] in C;
    destruct (unit_result_counter a ck u st c c F1 C C) as (_ & _ & B); rewrite E in B; exact B.
Qed.
(** Results and states do not depend on the counter. *)
Lemma runs_counter : forall a ck us st c l w', runs (unit_parser a ck) us (mkw st c) l w' ->
  units_fit a us -> c < 2 ^ 32 -> forall c', c' < 2 ^ 32 ->
  exists w'', runs (unit_parser a ck) us (mkw st c') l w'' /\ w_st w'' = w_st w' /\
    (w_unimplemented w'' + c) mod 2 ^ 32 = (w_unimplemented w' + c') mod 2 ^ 32.
Proof.
  intros a ck us st c l w' H. remember (mkw st c) as w eqn:Ew. revert st c Ew.
  induction H as [s|o u t s x s' l s'' E R IH|o u t s s' l s'' E R IH]; intros st c -> F C c' C'.
  - exists (mkw st c'). split; [constructor|]. split; [reflexivity|]. cbn. lia.
  - inversion F as [|? ? F1 F2]; subst. cbn [snd] in F1.
    rewrite unit_counter in E by auto. destruct (unit_parser a ck u (mkw st 0)) as [r w0] eqn:E0.
    injection E as -> <-.
    destruct (IH (w_st w0) (u32 (c + w_unimplemented w0)) eq_refl F2 ltac:(unfold u32; lia)
      (u32 (c' + w_unimplemented w0)) ltac:(unfold u32; lia)) as (w2 & R2 & S2 & N2).
    exists w2. split; [|split; [auto|]].
    + eapply runs_kept; eauto. rewrite unit_counter by auto. rewrite E0. reflexivity.
    + unfold u32 in N2. lia.
  - inversion F as [|? ? F1 F2]; subst. cbn [snd] in F1.
    rewrite unit_counter in E by auto. destruct (unit_parser a ck u (mkw st 0)) as [r w0] eqn:E0.
    injection E as -> <-.
    destruct (IH (w_st w0) (u32 (c + w_unimplemented w0)) eq_refl F2 ltac:(unfold u32; lia)
      (u32 (c' + w_unimplemented w0)) ltac:(unfold u32; lia)) as (w2 & R2 & S2 & N2).
    exists w2. split; [|split; [auto|]].
    + eapply runs_dropped; eauto. rewrite unit_counter by auto. rewrite E0. reflexivity.
    + unfold u32 in N2. lia.
Qed.

(** * Parameter sets in the state *)
Definition of_unit {B} (f : payload -> option B) (e : nalu * N * N) : option B := f (nu_payload (fst (fst e))).
Lemma or_else_assoc : forall A (x y z : option A), or_else x (or_else y z) = or_else (or_else x y) z.
Proof. intros A [x|] y z; reflexivity. Qed.
Lemma last_such_app : forall A (f : A -> bool) l m,
  last_such f (l ++ m) = or_else (last_such f m) (last_such f l).
Proof.
  intros A f l m. induction l as [|x l IH]; cbn [app last_such].
  - destruct (last_such f m); reflexivity.
  - rewrite IH. destruct (last_such f m); cbn [or_else]; [reflexivity|].
    destruct (last_such f l); reflexivity.
Qed.
Lemma runs_lookup : forall a ck us w l w', runs (unit_parser a ck) us w l w' -> units_fit a us ->
  ok_state (w_st w) -> forall id,
  lookup id (st_sps (w_st w')) =
    or_else (last_such (fun s => seq_parameter_set_id s =? id) (somes (of_unit pl_sps) l))
            (lookup id (st_sps (w_st w))) /\
  lookup id (st_pps (w_st w')) =
    or_else (last_such (fun p => pps_pic_parameter_set_id p =? id) (somes (of_unit pl_pps) l))
            (lookup id (st_pps (w_st w))) /\
  lookup id (st_subset_sps (w_st w')) =
    or_else (last_such (fun s => seq_parameter_set_id (ss_sps s) =? id) (somes (of_unit pl_subset_sps) l))
            (lookup id (st_subset_sps (w_st w))).
Proof.
  intros a ck us w l w' H F O id. induction H as [s|o u t s x s' l s'' E R IH|o u t s s' l s'' E R IH].
  - repeat split.
  - inversion F as [|? ? F1 F2]; subst. cbn [snd] in F1.
    pose proof (unit_effect a ck u s F1 O) as K. rewrite E in K. destruct K as (K & _ & _ & _ & _ & O').
    destruct (IH F2 O') as (I1 & I2 & I3). rewrite I1, I2, I3, K.
    unfold somes. cbn [flat_map]. rewrite !last_such_app. fold (somes (of_unit pl_sps) l).
    fold (somes (of_unit pl_pps) l). fold (somes (of_unit pl_subset_sps) l).
    change (of_unit pl_sps (x, o, N.of_nat (length u))) with (pl_sps (nu_payload x)).
    change (of_unit pl_pps (x, o, N.of_nat (length u))) with (pl_pps (nu_payload x)).
    change (of_unit pl_subset_sps (x, o, N.of_nat (length u))) with (pl_subset_sps (nu_payload x)).
    rewrite <- !or_else_assoc.
    unfold add_payload, add_opt.
    destruct (pl_sps (nu_payload x)) as [v1|], (pl_pps (nu_payload x)) as [v2|],
      (pl_subset_sps (nu_payload x)) as [v3|];
    cbn [last_such or_else add_sps add_pps add_subset_sps st_sps st_pps st_subset_sps];
    rewrite ?lookup_minsert; repeat split; f_equal;
      match goal with |- context [?p =? id] => destruct (p =? id); reflexivity | _ => reflexivity end.
  - inversion F as [|? ? F1 F2]; subst. cbn [snd] in F1.
    pose proof (unit_effect a ck u s F1 O) as K. rewrite E in K. rewrite <- K. apply IH; auto.
    rewrite K. auto.
Qed.

(** * Bitstreams *)
Lemma index_fits : forall l x, N.of_nat (length l) < 2 ^ 64 ->
  In x (index_list l (N.of_nat (length l)) (poss l 0)) -> ni_payload x + ni_size x <= N.of_nat (length l).
Proof.
  intros l x L H. apply in_split in H. destruct H as (p & q & E).
  assert (IN : forall p, In p (poss l 0) -> sc_at l p = true).
  { intros r HP. apply poss_in in HP. rewrite N.sub_0_r in HP. tauto. }
  apply index_list_split in E. destruct E as (pa & o & pb & EP & E).
  cbn [index_list] in E. injection E as <- _. cbn [ni_payload ni_size].
  assert (S1 : sc_at l o = true) by (apply IN; rewrite EP; apply in_or_app; right; left; auto).
  pose proof (sc_room l o S1). destruct pb as [|z pb]; [lia|].
  assert (S2 : sc_at l z = true) by (apply IN; rewrite EP; apply in_or_app; right; right; left; auto).
  assert (OZ : o < z) by (eapply (proj1 (poss_sorted l 0)); eauto).
  pose proof (sc_gap l o z S1 S2 OZ). pose proof (start_of_le l z). pose proof (sc_room l z S2). lia.
Qed.
Definition found_units (data : list N) (ix : list nalu_index) : list (N * list N) :=
  map (fun x => (ni_payload x, slice (ni_payload x) (ni_size x) data)) ix.
Lemma bitstream_runs : forall a ck data w, fits a data -> ok_state (w_st w) ->
  exists ix l w', FindNaluIndices data (N.of_nat (length data)) = Ok ix /\
    ParseBitstream a ck data (N.of_nat (length data)) w = (Ok l, w') /\ ok_state (w_st w') /\
    runs (unit_parser a ck) (found_units data ix) w l w'.
Proof.
  intros a ck data w F O. pose proof F as (_ & L & _). unfold ParseBitstream.
  rewrite FindNaluIndices_spec by lia. eexists.
  destruct (loop_runs a ck data (index_list data (N.of_nat (length data)) (poss data 0)) w F O)
    as (l & w' & E & O' & R).
  { intros x H. apply index_fits; auto. lia. }
  exists l, w'. auto.
Qed.
Lemma map_pair : forall A B C D (f : A -> C) (g : A -> D) (f' : B -> C) (g' : B -> D) l l',
  map f l = map f' l' -> map g l = map g' l' ->
  map (fun x => (f x, g x)) l = map (fun x => (f' x, g' x)) l'.
Proof.
  intros A B C D f g f' g'. induction l as [|x l IH]; intros [|y l'] E1 E2; cbn [map] in *; try discriminate; auto.
  injection E1 as -> E1. injection E2 as -> E2. f_equal. auto.
Qed.
Lemma annexb_offsets : forall us o, Forall (fun u => nal_bytes (snd u)) us ->
  map (fun p => p + 3) (poss (annexb us) o) = map fst (annexb_units o us).
Proof.
  induction us as [|[lg u] us IH]; intros o F; [reflexivity|].
  inversion F as [|? ? N1 N2]; subst. cbn [snd] in N1.
  cbn [annexb flat_map annexb_units map fst snd]. fold (annexb us). rewrite <- app_assoc.
  rewrite poss_unit by auto. cbn [map]. f_equal; [destruct lg; lia|].
  rewrite IH by auto. do 2 f_equal. destruct lg; cbn [code length]; lia.
Qed.
Lemma annexb_found : forall us, Forall (fun u => nal_bytes (snd u)) us ->
  N.of_nat (length (annexb us)) < 2 ^ 64 ->
  exists ix, FindNaluIndices (annexb us) (N.of_nat (length (annexb us))) = Ok ix /\
    found_units (annexb us) ix = annexb_units 0 us.
Proof.
  intros us F L. rewrite FindNaluIndices_spec by auto. eexists. split; [reflexivity|].
  unfold found_units.
  rewrite (map_pair _ _ _ _ ni_payload (fun x => slice (ni_payload x) (ni_size x) (annexb us)) fst snd
    _ (annexb_units 0 us)).
  - rewrite <- (map_id (annexb_units 0 us)) at 2. apply map_ext. intros [x y]. reflexivity.
  - rewrite index_list_payloads. apply annexb_offsets; auto.
  - pose proof (annexb_places us [] (annexb us) eq_refl F ltac:(intros [|? ?]; discriminate)) as E.
    apply (f_equal (map snd)) in E. rewrite !map_map in E. cbn [snd length] in E.
    change (N.of_nat 0) with 0 in E. rewrite E. clear. generalize 0.
    induction us as [|[lg u] us IH]; intros o; cbn [map annexb_units snd]; [reflexivity|]. f_equal. apply IH.
Qed.
Lemma framed_found : forall n us pre t, map (fun '(i, m) => (i, slice i m (pre ++ framed n us ++ t)))
    (unit_places n (N.of_nat (length pre)) us) = framed_units n (N.of_nat (length pre)) us.
Proof.
  intros n. induction us as [|u us IH]; intros pre t; cbn [unit_places framed_units map framed flat_map]; [reflexivity|].
  fold (framed n us). f_equal.
  - f_equal. replace (N.of_nat (length pre) + N.of_nat n)
      with (N.of_nat (length (pre ++ be_bytes n (N.of_nat (length u))))) by (rewrite app_length, be_bytes_length; lia).
    rewrite <- !app_assoc. rewrite (app_assoc pre). apply slice_app.
  - replace (N.of_nat (length pre) + N.of_nat n + N.of_nat (length u))
      with (N.of_nat (length (pre ++ be_bytes n (N.of_nat (length u)) ++ u)))
      by (rewrite !app_length, be_bytes_length; lia).
    rewrite <- (IH (pre ++ be_bytes n (N.of_nat (length u)) ++ u) t).
    apply map_ext. intros [i m]. do 2 f_equal. rewrite <- !app_assoc. reflexivity.
Qed.

(** * Length-prefixed bitstreams with any size of the length field *)
Lemma length_loop_safe : forall A S (parse : N -> N -> S -> res A * S) (inv : S -> Prop) data nlb,
  bytes_ok data -> N.of_nat (length data) < 2 ^ 61 -> 1 <= nlb ->
  (forall i n s, inv s -> i + n <= N.of_nat (length data) ->
     match parse i n s with (Ok _, s') | (Null, s') => inv s' | _ => False end) ->
  (forall i n s, 2 ^ 63 <= n -> parse i n s = (Abort, s)) ->
  forall fuel i acc s, inv s -> i <= N.of_nat (length data) -> (length data <= fuel + N.to_nat i)%nat ->
  (exists l s', nalu_length_loop parse fuel data (N.of_nat (length data)) nlb i acc s = (Ok l, s') /\ inv s') \/
  (8 <= nlb /\ exists s', nalu_length_loop parse fuel data (N.of_nat (length data)) nlb i acc s = (Abort, s') /\ inv s').
Proof.
  intros A S parse inv data nlb B L N1 P Q. induction fuel as [|f IH]; intros i acc s I Hi Hf; cbn [nalu_length_loop].
  - replace (i <? _) with false by lia. left. eauto.
  - destruct (N.ltb_spec i (N.of_nat (length data))) as [LT|]; [|left; eauto].
    replace (0 <? nlb) with true by lia.
    unfold read_nalu_length. rewrite sub64_small by lia.
    destruct (N.ltb_spec (N.of_nat (length data) - i) nlb) as [|GE]; [left; eauto|].
    set (pre := firstn (N.to_nat i) data). set (h := firstn (N.to_nat nlb) (skipn (N.to_nat i) data)).
    assert (E : data = pre ++ h ++ skipn (N.to_nat nlb) (skipn (N.to_nat i) data)).
    { unfold pre, h. rewrite firstn_skipn. symmetry. apply firstn_skipn. }
    assert (LH : length h = N.to_nat nlb) by (unfold h; rewrite firstn_length, skipn_length; lia).
    assert (LP : length pre = N.to_nat i) by (unfold pre; rewrite firstn_length; lia).
    pose proof (nlb_loop_spec h pre _ i 0 data E ltac:(lia)) as R. rewrite LH in R. rewrite R.
    replace (N.to_nat nlb =? 0)%nat with false by lia. rewrite N.mul_0_l, N.add_0_l.
    set (v := beval h mod 2 ^ 64). assert (V : v < 2 ^ 64) by (unfold v; lia).
    assert (V8 : nlb < 8 -> v < 2 ^ 56).
    { intros N8. assert (BH : bytes_ok h).
      { apply Forall_forall. intros x HX. unfold bytes_ok in B. rewrite Forall_forall in B. apply B.
        rewrite E. apply in_or_app. right. apply in_or_app. left. auto. }
      pose proof (beval_bound h BH) as BB. rewrite LH in BB.
      assert (2 ^ (8 * N.of_nat (N.to_nat nlb)) <= 2 ^ 56) by (apply N.pow_le_mono_r; lia).
      unfold v. lia. }
    assert (U1 : u64 (i + nlb) = i + nlb) by (unfold u64; rewrite N.mod_small; lia). rewrite U1.
    destruct ((v =? 0) || (N.of_nat (length data) <? u64 (i + nlb + v))) eqn:C; [left; eauto|].
    assert (K : i + nlb + v < 2 ^ 64 \/ 2 ^ 63 <= v) by lia. destruct K as [K|K].
    + assert (U2 : u64 (i + nlb + v) = i + nlb + v) by (unfold u64; rewrite N.mod_small; lia).
      rewrite U2 in *. specialize (P (i + nlb) v s I ltac:(lia)).
      destruct (parse (i + nlb) v s) as [[x| |k| |] s'] eqn:EP; try tauto; apply IH; auto; lia.
    + right. assert (8 <= nlb) by lia. rewrite Q by auto. eauto.
Qed.
