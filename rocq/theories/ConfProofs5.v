(** The numbers that h264nal-conformance.py counts. *)
From Coq Require Import NArith ZArith List Bool Lia ZifyBool ZifyNat ZifyN String Ascii.
From Verif Require Import Base Parser TypesNal TypesNalUnit TypesSps Sps TypesPps TypesExt TypesSlice TypesSliceHeader SliceHeader
  TypesSvcSlice SpecDump Dump DumpProofs PyText PyText2 PyTextProofs Conformance ConfProofs ConfProofs2 ConfProofs3 ConfProofs4.
Import ListNotations.
Open Scope N_scope.
Open Scope list_scope.

(** * Literals do not overlap with themselves *)
Fixpoint mismatch (a b : string) : bool :=
  match a, b with
  | String x a', String y b' => if ascii_dec x y then mismatch a' b' else true
  | _, _ => false
  end.
Lemma mismatch_prefix : forall a b r, mismatch a b = true -> String.prefix a (b ++ r) = false.
Proof.
  induction a as [|x a IH]; intros [|y b] r M; cbn [mismatch append String.prefix] in *; try discriminate.
  destruct (ascii_dec x y); [apply IH, M|reflexivity].
Qed.
Lemma prefix_split : forall a s, String.prefix a s = true -> s = (a ++ dropped (String.length a) s)%string.
Proof.
  induction a as [|x a IH]; intros [|y s] P; cbn [String.prefix append String.length dropped] in *; try discriminate; try reflexivity.
  destruct (ascii_dec x y) as [->|]; [|discriminate]. f_equal. apply IH, P.
Qed.
Lemma dropped_app_le : forall j a r, (j <= String.length a)%nat -> dropped j (a ++ r) = (dropped j a ++ r)%string.
Proof.
  induction j as [|j IH]; intros [|x a] r H; cbn [dropped append String.length] in *; try reflexivity; [lia|]. apply IH. lia.
Qed.
Definition borderless (sub : string) : bool := forallb (fun j => mismatch sub (dropped j sub)) (seq 1 (String.length sub - 1)).
Lemma sparse_lit : forall sub, sub <> ""%string -> borderless sub = true ->
  sparse (fun _ s => if String.prefix sub s then Some (String.length sub) else None).
Proof.
  intros sub NE B w s k M. destruct (String.prefix sub s) eqn:P; [|discriminate]. injection M as <-. split; [destruct sub; [congruence|cbn; lia]|].
  intros j w' J. unfold borderless in B. rewrite forallb_forall in B. specialize (B j). rewrite in_seq in B.
  rewrite (prefix_split _ _ P), dropped_app_le by lia. rewrite mismatch_prefix by (apply B; lia). reflexivity.
Qed.
Definition brace (n : nat) (t : string) : option nat := if String.prefix "{" t then Some n else None.
Lemma brace_local : forall n w c t, all solid w = true -> is_white c = true -> brace n (w ++ String c t)%string = brace n w.
Proof.
  intros n [|x w] c t S W; unfold brace; cbn [append String.prefix].
  - destruct (ascii_dec "{" c) as [<-|]; [discriminate|reflexivity].
  - destruct (ascii_dec "{" x); [|reflexivity]. destruct w; [reflexivity|]. cbn [append]. destruct t; reflexivity.
Qed.
Lemma count_pat : forall lab, borderless (lab ++ " {") = true -> forall s,
  str_count (lab ++ " {") s = List.length (all_matches (pat false lab (brace (String.length (lab ++ " {")))) false s).
Proof.
  intros lab B s. unfold str_count. rewrite findall_all.
  - f_equal. apply all_matches_ext. intros w x. unfold pat. cbn [andb].
    change (if String.prefix (lab ++ " {") x then Some (String.length (lab ++ " {")) else None) with
      (after (lab ++ " {") (fun _ => Some (String.length (lab ++ " {"))) x).
    replace (lab ++ " {")%string with ((lab ++ " ") ++ "{")%string at 1 by (rewrite app_assoc_s; reflexivity).
    rewrite (after_app _ (lab ++ " ")%string "{"%string). reflexivity.
  - apply sparse_lit; [destruct lab; discriminate|exact B].
  - intros w. destruct lab; reflexivity.
  - intros; lia.
Qed.
Lemma in_pat : forall lab s, str_in (lab ++ " {") s =
  match all_matches (pat false lab (brace 0)) false s with [] => false | _ => true end.
Proof.
  intros lab s. rewrite (str_in_all _ _ false).
  assert (E : all_matches (pat false lab (brace 0)) false s =
    map (fun _ => O) (all_matches (fun _ s => if String.prefix (lab ++ " {") s then Some tt else None) false s)).
  { rewrite <- all_matches_map. apply all_matches_ext. intros w x. unfold pat. cbn [andb].
    transitivity (after (lab ++ " {") (fun _ => Some O) x); [|unfold after; destruct (String.prefix (lab ++ " {") x); reflexivity].
    replace (lab ++ " {")%string with ((lab ++ " ") ++ "{")%string at 1 by (rewrite app_assoc_s; reflexivity).
    rewrite (after_app _ (lab ++ " ")%string "{"%string). reflexivity. }
  rewrite E. clear E. destruct (all_matches _ false s); reflexivity.
Qed.

(** * Units *)
Definition units_ok (l : list nalu) : Prop := Forall (fun u => printable (dump_nalu conf_popts 0 0 u)) l.
Lemma length_flat : forall A B (f : A -> list B) l, List.length (flat_map f l) = fold_right (fun x n => (List.length (f x) + n)%nat) O l.
Proof. intros. induction l as [|x l IH]; [reflexivity|]. cbn [flat_map fold_right]. rewrite app_length, IH. reflexivity. Qed.
Ltac hit_cases :=
  repeat match goal with |- context [hit_of _ _ _ (header_block ?n ?p)] =>
    unfold header_block;
    destruct ((n =? 1) || (n =? 5)); [destruct (pl_slice p)|
      destruct (n =? 20); [destruct (pl_slice_ext p) as [v|];
        [destruct (tob (sx_svc_extension_flag v)); [destruct (sx_svc_slice_header v)|
          destruct (tob (sx_avc_3d_extension_flag v)); [|destruct (sx_slice_header v)]]|]|]] end;
  repeat match goal with |- context [match set_data ?n ?p with Some _ => _ | None => _ end] => destruct (set_data n p) end.
Lemma count_units : forall l, units_ok l -> str_count "nal_unit {" (units_string l) = List.length l.
Proof.
  intros l F. rewrite (count_pat "nal_unit" eq_refl). rewrite units_matches by (try exact F; try reflexivity; apply brace_local).
  rewrite length_flat. induction F as [|u l P F IH]; [reflexivity|]. cbn [fold_right List.length]. rewrite IH.
  rewrite unit_hits by (first [left; reflexivity|eapply printable_part, P]). hit_cases; reflexivity.
Qed.
(** Units with a slice header *)
Definition has_header (u : nalu) : bool :=
  match header_block (nal_unit_type (nu_header u)) (nu_payload u) with Some _ => true | None => false end.
Lemma count_headers : forall l, units_ok l -> count_slice_headers (units_string l) = N.of_nat (List.length (filter has_header l)).
Proof.
  intros l F. unfold count_slice_headers. rewrite (count_pat "slice_header" eq_refl), (count_pat "slice_header_in_scalable_extension" eq_refl).
  rewrite !units_matches by (try exact F; try reflexivity; apply brace_local).
  rewrite !length_flat. induction F as [|u l P F IH]; [reflexivity|]. cbn [fold_right filter].
  rewrite !unit_hits by (first [cbn; tauto|eapply printable_part, P]). unfold has_header at 1.
  remember (fold_right _ _ l) as x eqn:EX in IH at 1. remember (fold_right _ _ l) as y eqn:EY in IH at 1.
  rewrite <- EX, <- EY. clear EX EY. remember (List.length (filter has_header l)) as z eqn:EZ.
  hit_cases; cbn -[N.of_nat]; rewrite <- ?EZ; lia.
Qed.

(** The types of slices *)
Definition type_at (t : string) : option nat :=
  option_map (Nat.add 15) (first_of [word_lit "1" t; word_lit "5" t; word_lit "20" t]).
Lemma type_pat : forall w s, slice_nalu_at w s = pat true "nal_unit_type:" type_at w s.
Proof.
  intros [] s; [reflexivity|]. unfold slice_nalu_at, pat. cbn [andb]. change ("nal_unit_type:" ++ " ")%string with "nal_unit_type: "%string.
  unfold after. destruct (String.prefix "nal_unit_type: " s); reflexivity.
Qed.
Lemma word_lit_some : forall lit t k, word_lit lit t = Some k -> k = String.length lit /\ String.prefix lit t = true /\ boundary (dropped (String.length lit) t) = true.
Proof.
  intros lit t k H. unfold word_lit in H. destruct (String.prefix lit t) eqn:P; [|discriminate]. destruct (boundary _) eqn:B; [|discriminate].
  injection H as <-. auto.
Qed.
Lemma type_at_some : forall t k, type_at t = Some k ->
  exists lit, In lit ["1"; "5"; "20"]%string /\ k = (15 + String.length lit)%nat /\ String.prefix lit t = true /\ boundary (dropped (String.length lit) t) = true.
Proof.
  intros t k H. unfold type_at in H. cbn [first_of fold_right] in H.
  destruct (word_lit "1" t) as [n|] eqn:E1; [|destruct (word_lit "5" t) as [n|] eqn:E2; [|destruct (word_lit "20" t) as [n|] eqn:E3; [|discriminate]]];
    cbn [option_map] in H; injection H as <-.
  - apply word_lit_some in E1. destruct E1 as (-> & P & B). exists "1"%string. cbn; auto.
  - apply word_lit_some in E2. destruct E2 as (-> & P & B). exists "5"%string. cbn; auto.
  - apply word_lit_some in E3. destruct E3 as (-> & P & B). exists "20"%string. cbn; auto.
Qed.
Lemma sparse_type : sparse slice_nalu_at.
Proof.
  intros w s k M. rewrite type_pat in M. unfold pat in M. destruct w; [discriminate|]. cbn [andb] in M. unfold after in M.
  destruct (String.prefix ("nal_unit_type:" ++ " ") s) eqn:P; [|discriminate]. apply type_at_some in M. destruct M as (lit & I & -> & PL & _).
  split; [lia|]. intros j w' J. rewrite (prefix_split _ _ P). rewrite (prefix_split _ _ PL).
  set (r := dropped (String.length lit) _). clearbody r. rewrite type_pat. unfold pat. destruct (true && w'); [reflexivity|]. unfold after.
  rewrite <- app_assoc_s.
  replace (String.prefix ("nal_unit_type:" ++ " ") (dropped j ((("nal_unit_type:" ++ " ") ++ lit) ++ r))) with false; [reflexivity|].
  rewrite dropped_app_le by (rewrite length_app_s; cbn [String.length append]; lia).
  symmetry. apply mismatch_prefix.
  assert (X : forallb (fun j => mismatch ("nal_unit_type:" ++ " ") (dropped j (("nal_unit_type:" ++ " ") ++ lit))) (seq 1 (14 + String.length lit)) = true)
    by (destruct I as [<-|[<-|[<-|[]]]]; reflexivity).
  rewrite forallb_forall in X. apply X. apply in_seq. lia.
Qed.
Lemma lit_local : forall lit w c t, all word_char lit = true -> lit <> ""%string -> all solid w = true -> is_white c = true ->
  word_lit lit (w ++ String c t)%string = word_lit lit w.
Proof.
  intros lit w c t WL NL S W.
  assert (X : forall w, all solid w = true -> String.prefix lit (w ++ String c t) && boundary (dropped (String.length lit) (w ++ String c t)) =
    String.prefix lit w && boundary (dropped (String.length lit) w)).
  { clear NL S w. induction lit as [|x lit IH]; intros w S.
    - cbn [String.length dropped]. destruct w as [|y w]; cbn [append String.prefix boundary andb].
      + rewrite (white_not_word c W). destruct t; reflexivity.
      + destruct (w ++ String c t)%string, w; reflexivity.
    - cbn [all] in WL. apply andb_true_iff in WL. destruct WL as [WX WL]. destruct w as [|y w]; cbn [append String.prefix String.length dropped].
      + destruct (ascii_dec x c) as [->|]; [|reflexivity]. rewrite (white_not_word c W) in WX. discriminate.
      + destruct (ascii_dec x y); [|reflexivity]. cbn [all] in S. apply andb_true_iff in S. apply IH; [exact WL|apply S]. }
  unfold word_lit. rewrite X by exact S. reflexivity.
Qed.
Lemma type_local : forall w c t, all solid w = true -> is_white c = true -> type_at (w ++ String c t)%string = type_at w.
Proof.
  intros w c t S W. unfold type_at. rewrite !lit_local by (try reflexivity; try discriminate; assumption). reflexivity.
Qed.
Definition slice_unit (u : nalu) : bool :=
  let t := nal_unit_type (nu_header u) in (t =? 1) || (t =? 5) || (t =? 20).
Lemma type_dec : forall t, match type_at (dec t) with Some _ => true | None => false end = ((t =? 1) || (t =? 5) || (t =? 20)).
Proof.
  intros t. destruct ((t =? 1) || (t =? 5) || (t =? 20)) eqn:E.
  - assert (C : t = 1 \/ t = 5 \/ t = 20) by lia. destruct C as [->|[->| ->]]; reflexivity.
  - destruct (type_at (dec t)) as [k|] eqn:T; [|reflexivity]. exfalso. apply type_at_some in T. destruct T as (lit & I & _ & P & B).
    pose proof (prefix_split _ _ P) as D. pose proof (dec_digits t) as G.
    assert (R : dropped (String.length lit) (dec t) = ""%string).
    { destruct (dropped (String.length lit) (dec t)) as [|x r]; [reflexivity|]. exfalso. rewrite D in G.
      assert (GX : digit10 x = true).
      { clear - G. induction lit as [|y lit IH]; cbn [append all] in G; apply andb_true_iff in G; [apply G|]. apply IH, G. }
      cbn [boundary] in B. unfold word_char in B. rewrite GX in B. discriminate. }
    rewrite R, app_nil_s in D. pose proof (int_dec t) as V. rewrite D in V. destruct I as [<-|[<-|[<-|[]]]]; cbn in V; subst t; discriminate.
Qed.
Lemma count_types : forall l, units_ok l -> count_slice_nalus (units_string l) = N.of_nat (List.length (filter slice_unit l)).
Proof.
  intros l F. unfold count_slice_nalus. rewrite (findall_all _ sparse_type) by (try (intros []; reflexivity); intros; lia).
  rewrite (all_matches_ext _ _ (pat true "nal_unit_type:" type_at) _ _ type_pat).
  rewrite units_matches by (try exact F; try reflexivity; apply type_local).
  rewrite length_flat. f_equal. induction F as [|u l P F IH]; [reflexivity|]. cbn [fold_right filter]. rewrite IH.
  rewrite unit_hits by (first [cbn; tauto|eapply printable_part, P]).
  set (t := nal_unit_type (nu_header u)).
  assert (E : forall x, List.length (hit true "nal_unit_type:" type_at ("nal_unit"%string, "{"%string) ++
      hit true "nal_unit_type:" type_at ("nal_unit_type:"%string, dec t) ++ x) =
      ((if ((t =? 1) || (t =? 5) || (t =? 20))%N then 1 else 0) + List.length x)%nat).
  { intros x. rewrite <- type_dec. change (hit true "nal_unit_type:" type_at ("nal_unit"%string, "{"%string)) with (@nil nat). cbn [app].
    change (hit true "nal_unit_type:" type_at ("nal_unit_type:"%string, dec t)) with (opt (type_at (dec t))).
    rewrite app_length. destruct (type_at (dec t)); reflexivity. }
  rewrite E. unfold slice_unit at 2. fold t.
  assert (Z : forall x, x = @nil nat -> List.length x = O) by (intros x ->; reflexivity).
  rewrite Z by (hit_cases; reflexivity). destruct ((t =? 1) || (t =? 5) || (t =? 20)); cbn [List.length]; lia.
Qed.
