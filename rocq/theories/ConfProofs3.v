(** What h264nal-conformance.py finds in the dump of a unit. *)
From Coq Require Import NArith ZArith List Bool Lia ZifyBool ZifyNat ZifyN String Ascii.
From Verif Require Import Base Parser TypesNal TypesNalUnit TypesSps Sps TypesPps TypesExt TypesSlice TypesSliceHeader SliceHeader
  TypesSvcSlice SpecDump Dump DumpProofs PyText PyText2 PyTextProofs ConfProofs ConfProofs2.
Import ListNotations.
Open Scope N_scope.
Open Scope list_scope.

(** * Dumps without a counted label *)
Lemma dull_hrd : forall h, dull (dump_hrd h).
Proof. intros h. unfold dump_hrd. dulls. Qed.
Lemma dull_vui : forall v, dull (dump_vui v).
Proof. intros v. unfold dump_vui. dulls; apply dull_hrd. Qed.
Lemma dull_scal : forall k s, dull_key k = true -> dull (dump_scal k s).
Proof. intros k s K. unfold dump_scal. dulls. apply dull_flist; [exact K|apply decs_still]. Qed.
Lemma dull_resolution : forall s, dull (dump_resolution s).
Proof.
  intros s. unfold dump_resolution. destruct (getResolution s) as [[w h]| |k| |]; dulls. constructor; [exact I|constructor].
Qed.
Lemma dull_profile : forall p, dull [L 0 ("profile:"%string :: profile_words p)].
Proof.
  intros p. constructor; [|constructor].
  assert (F : Forall (fun v => still v = true) (profile_words p)) by (destruct p; repeat (constructor; [reflexivity|]); constructor).
  destruct (profile_words p) as [|v ws] eqn:E; [destruct p; discriminate|]. split; [reflexivity|exact F].
Qed.
Lemma dull_pps : forall p, dull (dump_pps p).
Proof. intros p. unfold dump_pps. dulls; apply dull_scal; reflexivity. Qed.
Lemma dull_spssvc : forall e, dull (dump_spssvc e).
Proof. intros e. unfold dump_spssvc. dulls. Qed.
Lemma dull_prefix : forall v, dull (dump_prefix v).
Proof. intros v. unfold dump_prefix, dump_prefsvc. dulls. Qed.
Lemma dull_rplm : forall v, dull (dump_rplm v).
Proof. intros v. unfold dump_rplm. dulls. Qed.
Lemma dull_pwt : forall v, dull (dump_pwt v).
Proof. intros v. unfold dump_pwt. dulls. Qed.
Lemma dull_drpm : forall v, dull (dump_drpm v).
Proof. intros v. unfold dump_drpm. dulls. Qed.
Lemma dull_unimplemented : dull (dump_unimplemented "dec_ref_base_pic_marking()").
Proof. constructor; [|constructor]. split; [reflexivity|]. repeat (constructor; [reflexivity|]). constructor. Qed.
Lemma dull_svc_ext : forall e, dull (dump_svc_ext e).
Proof. intros e. unfold dump_svc_ext. dulls. Qed.

(** A block with a name and nothing counted in it *)
Definition named (n : string) (d : dump) : Prop := exists body, d = block n body /\ dull body.
Lemma named_slh : forall h, named "slice_header" (dump_slh h).
Proof.
  intros h. eexists. split; [reflexivity|]. dulls; first [apply dull_rplm|apply dull_pwt|apply dull_drpm].
Qed.
Lemma named_svh : forall h, named "slice_header_in_scalable_extension" (dump_svh h).
Proof.
  intros h. eexists. split; [reflexivity|]. dulls; first [apply dull_rplm|apply dull_pwt|apply dull_drpm|apply dull_unimplemented].
Qed.
Lemma named_sps : forall o s, named "sps_data" (dump_sps_data o s).
Proof.
  intros o s. eexists. split; [reflexivity|].
  repeat (apply dull_app; [first [solve [dulls]|apply dull_profile|solve [dulls; first [apply dull_scal; reflexivity|apply dull_vui]]]|]).
  apply dull_when, dull_resolution.
Qed.

(** * Tidiness *)
Definition tidyish (d : dump) : Prop := Forall (fun l => match l with Bad _ => True | _ => tidy_line l end) d.
Lemma tidyish_app : forall a b, tidyish a -> tidyish b -> tidyish (a ++ b).
Proof. intros. apply Forall_app. auto. Qed.
Lemma tidyish_block : forall n d, all graphic n = true -> tidyish d -> tidyish (block n d).
Proof.
  intros n d G T. constructor; [split; [exact G|constructor; [reflexivity|constructor]]|]. apply tidyish_app.
  - induction T as [|[k ws|k] a H1 H IH]; cbn [map deeper]; constructor; auto.
  - constructor; [reflexivity|constructor].
Qed.
Lemma dull_tidyish : forall d, dull d -> tidyish d.
Proof.
  intros d D. eapply Forall_impl; [|exact D]. intros [k ws|k] H; [|exact I]. destruct ws as [|w [|v ws]]; cbn [dull_line tidy_line] in *; auto.
  destruct H as [H1 H2]. split; [|exact H2]. unfold dull_key in H1. destruct (all graphic w); [reflexivity|discriminate].
Qed.
Lemma named_tidyish : forall n d, all graphic n = true -> named n d -> tidyish d.
Proof. intros n d G (b & -> & D). apply tidyish_block; [exact G|apply dull_tidyish, D]. Qed.
Lemma tidyish_tidy : forall d, tidyish d -> printable d -> tidy d.
Proof.
  intros d T P. induction T as [|[k ws|k] d H T IH]; [constructor| |]; apply Forall_cons_iff in P; destruct P as [P1 P2].
  - constructor; [exact H|apply IH, P2].
  - destruct P1.
Qed.
Definition conf_popts : popts := mkpo false false false false true.
(** The lines of a header before and after the type *)
Definition header_rest (h : nalh) : dump :=
  let t := nal_unit_type h in
  Dump.when ((t =? 14) || (t =? 20) || (t =? 21)) (
    if negb (t =? 21) then
      fu "svc_extension_flag" (svc_extension_flag h) ++
      match nal_svc h with
      | Some e => Dump.when (tob (svc_extension_flag h)) (dump_svc_ext e)
      | None => []
      end
    else fu "avc_3d_extension_flag" (avc_3d_extension_flag h)).
Lemma nalh_eq : forall h, dump_nalh h = block "nal_unit_header" (
  (fu "forbidden_zero_bit" (forbidden_zero_bit h) ++ fu "nal_ref_idc" (nal_ref_idc h)) ++
  fu "nal_unit_type" (nal_unit_type h) ++ header_rest h).
Proof. reflexivity. Qed.
Lemma dull_header_rest : forall h, dull (header_rest h).
Proof. intros h. unfold header_rest. dulls; apply dull_svc_ext. Qed.
Lemma nalh_tidyish : forall h, tidyish (dump_nalh h).
Proof.
  intros h. rewrite nalh_eq. apply tidyish_block; [reflexivity|]. apply tidyish_app; [apply dull_tidyish; dulls|].
  apply tidyish_app; [|apply dull_tidyish, dull_header_rest]. constructor; [|constructor]. split; [reflexivity|].
  constructor; [apply dec_still|constructor].
Qed.

(** * The payload *)
Definition content (o : popts) (nut : N) (p : payload) : dump :=
  match nut with
  | 1 | 5 => maybe (pl_slice p) dump_slp
  | 7 => maybe (pl_sps p) (dump_sps o)
  | 8 => maybe (pl_pps p) dump_pps
  | 14 => maybe (pl_prefix p) dump_prefix
  | 15 => maybe (pl_subset_sps p) (dump_subsps o)
  | 20 => maybe (pl_slice_ext p) dump_slext
  | _ => [L 0 []]
  end.
Lemma payload_eq : forall o nut p, dump_payload o nut p = block "nal_unit_payload" (content o nut p).
Proof. reflexivity. Qed.
(** The slice header of a unit, by its name in the dump, and the parameter set *)
Definition header_block (nut : N) (p : payload) : option string :=
  if (nut =? 1) || (nut =? 5) then match pl_slice p with Some _ => Some "slice_header"%string | None => None end
  else if nut =? 20 then
    match pl_slice_ext p with
    | Some v =>
        if tob (sx_svc_extension_flag v) then
          match sx_svc_slice_header v with Some _ => Some "slice_header_in_scalable_extension"%string | None => None end
        else if tob (sx_avc_3d_extension_flag v) then None
        else match sx_slice_header v with Some _ => Some "slice_header"%string | None => None end
    | None => None
    end
  else None.
Definition set_data (nut : N) (p : payload) : option sps :=
  if nut =? 7 then pl_sps p
  else if nut =? 15 then option_map ss_sps (pl_subset_sps p)
  else None.
Definition subsps_rest (v : subsps) : dump :=
  let idc := profile_idc (ss_sps v) in
  (if (idc =? 83) || (idc =? 86) then
     deref (ss_svc v) dump_spssvc ++
     fu "svc_vui_parameters_present_flag" (ss_svc_vui_parameters_present_flag v)
   else if (idc =? 118) || (idc =? 128) || (idc =? 134) then
     fu "bit_equal_to_one" (ss_bit_equal_to_one v) ++
     fu "mvc_vui_parameters_present_flag" (ss_mvc_vui_parameters_present_flag v)
   else if (idc =? 138) || (idc =? 135) then
     fu "bit_equal_to_one" (ss_bit_equal_to_one v)
   else Dump.when (idc =? 139) (fu "bit_equal_to_one" (ss_bit_equal_to_one v))) ++
  fu "additional_extension2_flag" (ss_additional_extension2_flag v) ++
  Dump.when (ss_additional_extension2_flag v =? 1)
    (fu "additional_extension2_data_flag" (ss_additional_extension2_data_flag v)).
Lemma subsps_eq : forall o v, dump_subsps o v = block "subset_sps" (dump_sps_data o (ss_sps v) ++ subsps_rest v).
Proof. reflexivity. Qed.
Lemma dull_subsps_rest : forall v, dull (subsps_rest v).
Proof. intros v. unfold subsps_rest. dulls; apply dull_spssvc. Qed.
Lemma dull_blank : dull [L 0 []].
Proof. constructor; [exact I|constructor]. Qed.
Lemma content_eq : forall o nut p, content o nut p =
  if (nut =? 1) || (nut =? 5) then maybe (pl_slice p) dump_slp
  else if nut =? 7 then maybe (pl_sps p) (dump_sps o)
  else if nut =? 8 then maybe (pl_pps p) dump_pps
  else if nut =? 14 then maybe (pl_prefix p) dump_prefix
  else if nut =? 15 then maybe (pl_subset_sps p) (dump_subsps o)
  else if nut =? 20 then maybe (pl_slice_ext p) dump_slext
  else [L 0 []].
Proof. intros o [|n] p; [reflexivity|]. do 5 (destruct n as [n|n|]; try reflexivity). Qed.
(** By cases of the type *)
Ltac by_type :=
  rewrite content_eq; repeat match goal with |- context [if (?n =? ?k) || (?n =? 5) then _ else _] => destruct ((n =? k) || (n =? 5)) eqn:?
  | |- context [if (?n =? ?k) then _ else _] => destruct (n =? k) eqn:? end.
Lemma content_tidyish : forall o nut p, tidyish (content o nut p).
Proof.
  intros o nut p. by_type; try (apply dull_tidyish, dull_blank).
  all: match goal with |- tidyish (maybe ?x _) => destruct x as [v|]; cbn [maybe]; [|apply dull_tidyish, dull_blank] end.
  all: first [apply dull_tidyish, dull_pps|apply dull_tidyish, dull_prefix|idtac].
  all: first
    [ apply tidyish_block; [reflexivity|]; first [apply (named_tidyish "slice_header"); [reflexivity|apply named_slh]|apply (named_tidyish "sps_data"); [reflexivity|apply named_sps]]
    | rewrite subsps_eq; apply tidyish_block; [reflexivity|]; apply tidyish_app;
      [apply (named_tidyish "sps_data"); [reflexivity|apply named_sps]|apply dull_tidyish, dull_subsps_rest]
    | idtac ].
  all: unfold dump_slext; apply tidyish_block; [reflexivity|].
  all: destruct (tob (sx_svc_extension_flag v)); [destruct (sx_svc_slice_header v); cbn [maybe];
    [apply (named_tidyish "slice_header_in_scalable_extension"); [reflexivity|apply named_svh]|apply dull_tidyish, dull_blank]|].
  all: destruct (tob (sx_avc_3d_extension_flag v)); [constructor|].
  all: destruct (sx_slice_header v); cbn [deref]; [apply (named_tidyish "slice_header"); [reflexivity|apply named_slh]|].
  all: constructor; [exact I|constructor].
Qed.
