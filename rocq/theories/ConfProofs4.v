(** What h264nal-conformance.py finds in the dumps of units. *)
From Coq Require Import NArith ZArith List Bool Lia ZifyBool ZifyNat ZifyN String Ascii.
From Verif Require Import Base Parser TypesNal TypesNalUnit TypesSps Sps TypesPps TypesExt TypesSlice TypesSliceHeader SliceHeader
  TypesSvcSlice SpecDump Dump DumpProofs PyText PyText2 PyTextProofs Conformance ConfProofs ConfProofs2 ConfProofs3.
Import ListNotations.
Open Scope N_scope.
Open Scope list_scope.

Lemma unit_eq : forall off len u, dump_nalu conf_popts off len u =
  block "nal_unit" (dump_nalh (nu_header u) ++ block "nal_unit_payload" (content conf_popts (nal_unit_type (nu_header u)) (nu_payload u))).
Proof. reflexivity. Qed.
Lemma unit_tidyish : forall off len u, tidyish (dump_nalu conf_popts off len u).
Proof.
  intros. rewrite unit_eq. apply tidyish_block; [reflexivity|]. apply tidyish_app; [apply nalh_tidyish|].
  apply tidyish_block; [reflexivity|]. apply content_tidyish.
Qed.

(** * Counted labels *)
Section counted.
  Context {A : Type} (b : bool) (lab : string) (m : string -> option A).
  Context (IN : In lab counted).
  Lemma counted_label : labelish lab = true.
  Proof. destruct IN as [<-|[<-|[<-|[<-|[<-|[]]]]]]; reflexivity. Qed.
  Lemma dull_hit : forall k v, dull_key k = true -> hit b lab m (k, v) = [].
  Proof.
    intros k v D. unfold dull_key in D. apply andb_true_iff in D. destruct D as [_ D]. rewrite forallb_forall in D. specialize (D lab IN).
    unfold hit. cbn [fst snd]. rewrite bends_ends by (destruct (ends lab k); [discriminate|reflexivity]). reflexivity.
  Qed.
  Lemma named_hits : forall n d, named n d -> hits b lab m d = hit b lab m (n, "{"%string).
  Proof.
    intros n d (x & -> & D). rewrite hits_block. rewrite (dull_hits A b lab m x IN counted_label D). apply app_nil_r.
  Qed.
  Lemma header_hits : forall h, hits b lab m (dump_nalh h) = hit b lab m ("nal_unit_type:"%string, dec (nal_unit_type h)).
  Proof.
    intros h. rewrite nalh_eq, hits_block, !hits_app. rewrite (dull_hits A b lab m (header_rest h) IN counted_label (dull_header_rest h)).
    unfold fu. rewrite !hits_fld. rewrite (dull_hit "nal_unit_header") by reflexivity. rewrite (dull_hit ("forbidden_zero_bit" ++ ":")) by reflexivity.
    rewrite (dull_hit ("nal_ref_idc" ++ ":")) by reflexivity. cbn [app]. apply app_nil_r.
  Qed.
  Definition hit_of (o : option string) : list A := match o with Some n => hit b lab m (n, "{"%string) | None => [] end.
  Lemma content_hits : forall o nut p, printable (content o nut p) -> hits b lab m (content o nut p) =
    hit_of (header_block nut p) ++ match set_data nut p with Some _ => hit b lab m ("sps_data"%string, "{"%string) | None => [] end.
  Proof.
    intros o nut p. unfold header_block, set_data. rewrite content_eq.
    destruct (N.eqb_spec nut 7) as [->|N7]; [|destruct (N.eqb_spec nut 15) as [->|N15]].
    - cbn [N.eqb Pos.eqb orb]. intros _. destruct (pl_sps p) as [s|]; cbn [maybe hit_of app]; [|reflexivity]. unfold dump_sps. rewrite hits_block.
      rewrite (dull_hit "sps") by reflexivity. apply (named_hits "sps_data"), named_sps.
    - cbn [N.eqb Pos.eqb orb]. intros _. destruct (pl_subset_sps p) as [s|]; cbn [maybe hit_of app option_map]; [|reflexivity]. rewrite subsps_eq, hits_block.
      rewrite (dull_hit "subset_sps") by reflexivity. rewrite hits_app, (named_hits "sps_data") by apply named_sps.
      rewrite (dull_hits A b lab m _ IN counted_label (dull_subsps_rest s)). apply app_nil_r.
    - rewrite app_nil_r. destruct ((nut =? 1) || (nut =? 5)).
      { intros _. destruct (pl_slice p) as [s|]; cbn [maybe hit_of]; [|reflexivity]. unfold dump_slp. rewrite hits_block.
        rewrite (dull_hit "slice_layer_without_partitioning_rbsp") by reflexivity. apply (named_hits "slice_header"), named_slh. }
      destruct (N.eqb_spec nut 20) as [->|N20].
      + cbn [N.eqb Pos.eqb]. destruct (pl_slice_ext p) as [v|]; cbn [maybe hit_of]; [|reflexivity]. unfold dump_slext. intros PR. rewrite hits_block.
        rewrite (dull_hit "slice_layer_extension_rbsp") by reflexivity. cbn [app].
        destruct (tob (sx_svc_extension_flag v)).
        { destruct (sx_svc_slice_header v); cbn [maybe hit_of]; [|reflexivity]. apply (named_hits "slice_header_in_scalable_extension"), named_svh. }
        destruct (tob (sx_avc_3d_extension_flag v)); [reflexivity|].
        destruct (sx_slice_header v); cbn [deref hit_of]; [apply (named_hits "slice_header"), named_slh|reflexivity].
      + intros _. destruct (nut =? 8); [destruct (pl_pps p); [apply (dull_hits A b lab m _ IN counted_label), dull_pps|reflexivity]|].
        destruct (nut =? 14); [destruct (pl_prefix p); [apply (dull_hits A b lab m _ IN counted_label), dull_prefix|reflexivity]|].
        reflexivity.
  Qed.
  Lemma unit_hits : forall off len u, printable (content conf_popts (nal_unit_type (nu_header u)) (nu_payload u)) ->
    hits b lab m (dump_nalu conf_popts off len u) =
    hit b lab m ("nal_unit"%string, "{"%string) ++ hit b lab m ("nal_unit_type:"%string, dec (nal_unit_type (nu_header u))) ++
    hit_of (header_block (nal_unit_type (nu_header u)) (nu_payload u)) ++
    match set_data (nal_unit_type (nu_header u)) (nu_payload u) with Some _ => hit b lab m ("sps_data"%string, "{"%string) | None => [] end.
  Proof.
    intros off len u PR. rewrite unit_eq, hits_block, hits_app, header_hits, hits_block, content_hits by exact PR.
    rewrite (dull_hit "nal_unit_payload") by reflexivity. reflexivity.
  Qed.
End counted.

(** * The text of one unit *)
Lemma printable_part : forall off len u, printable (dump_nalu conf_popts off len u) ->
  printable (content conf_popts (nal_unit_type (nu_header u)) (nu_payload u)).
Proof.
  assert (B : forall n d, printable (block n d) -> printable d).
  { intros n d P. apply Forall_cons_iff in P. destruct P as [_ P]. apply Forall_app in P. destruct P as [P _].
    induction d as [|[k ws|k] d IH]; cbn [map deeper] in P; [constructor| |]; apply Forall_cons_iff in P; destruct P as [P1 P2]; [|destruct P1].
    constructor; [exact P1|apply IH, P2]. }
  intros off len u P. rewrite unit_eq in P. apply B in P. apply Forall_app in P. destruct P as [_ P]. apply B in P. exact P.
Qed.
Definition unit_words (u : nalu) : list string := fw (dump_nalu conf_popts 0 0 u).
Lemma unit_words_eq : forall off len u, fw (dump_nalu conf_popts off len u) = unit_words u.
Proof. reflexivity. Qed.
Section unit_line.
  Context {A : Type} (b : bool) (lab : string) (m : string -> option A).
  Context (LB : labelish lab = true) (GL : all graphic lab = true).
  Context (LM : forall w c t, all solid w = true -> is_white c = true -> m (w ++ String c t)%string = m w).
  Lemma line_matches : forall u r, printable (dump_nalu conf_popts 0 0 u) -> newline_start r ->
    all_matches (pat b lab m) false (String.concat " " (unit_words u) ++ r) =
    hits b lab m (dump_nalu conf_popts 0 0 u) ++ all_matches (pat b lab m) false r.
  Proof.
    intros u r P N. pose proof (tidyish_tidy _ (unit_tidyish 0 0 u) P) as T.
    assert (NL : lab <> ""%string) by (intros ->; discriminate LB).
    assert (SL : all solid lab = true) by (apply graphic_word, GL).
    rewrite (matches_line b lab m SL NL) by (try exact N; apply tidy_solid, T).
    rewrite (wm_pm b lab m LM) by (try exact N; apply tidy_solid, T).
    unfold unit_words. rewrite (pm_heads b lab m LB) by exact T. reflexivity.
  Qed.
  Definition units_string (l : list nalu) : string :=
    String.concat "" (map (fun u => String.concat " " (unit_words u) ++ String newline "")%string l).
  Lemma units_matches : forall l, Forall (fun u => printable (dump_nalu conf_popts 0 0 u)) l ->
    all_matches (pat b lab m) false (units_string l) = flat_map (fun u => hits b lab m (dump_nalu conf_popts 0 0 u)) l.
  Proof.
    assert (NL : lab <> ""%string) by (intros ->; discriminate LB).
    assert (SL : all solid lab = true) by (apply graphic_word, GL).
    intros l F. unfold units_string. induction F as [|u l P F IH]; [exact (matches_solid b lab m ""%string false eq_refl)|].
    cbn [map flat_map]. rewrite concat_empty_cons, app_assoc_s. cbn [append].
    rewrite line_matches by (try exact P; right; eauto). rewrite matches_white by (auto; reflexivity). rewrite IH. reflexivity.
  Qed.
End unit_line.
