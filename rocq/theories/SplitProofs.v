(** What h264nal-split.py reads from the dump of a unit. *)
From Coq Require Import NArith ZArith List Bool Lia ZifyBool ZifyNat ZifyN String Ascii.
From Verif Require Import Base Parser TypesNal TypesNalUnit TypesSps Sps SpecDump Dump DumpProofs PyText PyTextProofs Split ToolTextProofs.
Import ListNotations.
Open Scope N_scope.
Open Scope list_scope.

(** The lines of a unit but for the first. *)
Definition unit_body (o : popts) (off len : N) (u : nalu) : dump :=
  when (add_offset o) (fld "offset" (hex8 off)) ++
  when (add_length o) (fu "length" len) ++
  when (add_parsed_length o) (fld "parsed_length" (hex8 (nu_parsed_length u))) ++
  when (add_checksum o) (deref (nu_checksum u) dump_checksum) ++
  dump_nalh (nu_header u) ++
  dump_payload o (nal_unit_type (nu_header u)) (nu_payload u).
Lemma nalu_body : forall o off len u, dump_nalu o off len u =
  L 0 ["nal_unit"; "{"]%string :: map deeper (unit_body o off len u) ++ [L 0 ["}"%string]].
Proof. reflexivity. Qed.

Definition num := several digit10.
Lemma num_local : forall w c t, all solid w = true -> is_white c = true -> num (w ++ String c t)%string = num w.
Proof. intros. apply several_local; auto. apply digit10_solid. Qed.
Lemma colonless : forall f s, all f s = true -> f ":"%char = false -> all (fun x => negb (Ascii.eqb x ":")) s = true.
Proof.
  intros f s A F. eapply all_impl; [|exact A]. intros c C. destruct (Ascii.eqb_spec c ":") as [->|]; [congruence|reflexivity].
Qed.
Lemma dec_colonless : forall n, all (fun x => negb (Ascii.eqb x ":")) (dec n) = true.
Proof. intros n. eapply colonless; [apply dec_digits|reflexivity]. Qed.
Lemma deci_colonless : forall z, all (fun x => negb (Ascii.eqb x ":")) (deci z) = true.
Proof.
  intros z. destruct (Z.to_int z) as [d|d] eqn:E; unfold deci; rewrite E; cbn [DecimalString.NilEmpty.string_of_int all].
  - eapply colonless; [apply digits|reflexivity].
  - cbn [Ascii.eqb negb andb]. eapply colonless; [apply digits|reflexivity].
Qed.
Lemma fus_none : forall lab A (m : string -> option A) k l, lab <> ""%string ->
  all (fun x => negb (Ascii.eqb x ":")) lab = false -> m "{"%string = None -> lsearch lab m (fus k l) = None.
Proof.
  intros lab A m k l NL C B. apply (lsearch_flist lab m) with (c := ":"%char); auto.
  apply Forall_map, Forall_forall. intros. apply dec_colonless.
Qed.
Lemma fis_none : forall lab A (m : string -> option A) k l, lab <> ""%string ->
  all (fun x => negb (Ascii.eqb x ":")) lab = false -> m "{"%string = None -> lsearch lab m (fis k l) = None.
Proof.
  intros lab A m k l NL C B. apply (lsearch_flist lab m) with (c := ":"%char); auto.
  apply Forall_map, Forall_forall. intros. apply deci_colonless.
Qed.

(** Rewriting rules; a label that is a literal is compared by computation. *)
Ltac rules :=
  repeat first
  [ rewrite lsearch_app | rewrite lsearch_deeper | rewrite lsearch_block by reflexivity
  | rewrite fus_none by (reflexivity || discriminate) | rewrite fis_none by (reflexivity || discriminate)
  | rewrite lsearch_when | unfold fu, fi, fiu; rewrite lsearch_fld
  | match goal with |- context [ends ?l ?w] =>
      let b := eval vm_compute in (ends l w) in change (ends l w) with b end; cbv iota ].
Lemma hrd_none : forall lab h, lab = "width:"%string \/ lab = "height:"%string -> lsearch lab num (dump_hrd h) = None.
Proof.
  intros lab h [->| ->]; unfold dump_hrd; rules; reflexivity.
Qed.
Lemma scal_none : forall lab k s, lab = "width:"%string \/ lab = "height:"%string -> lsearch lab num (dump_scal k s) = None.
Proof. intros lab k s [->| ->]; unfold dump_scal; rules; reflexivity. Qed.
(** The first width and height of a sequence parameter set: those of the sample aspect ratio if
    they are there. *)
Definition extended_sar (s : sps) : option (N * N) :=
  if negb (vui_parameters_present_flag s =? 0) then
    match vui_parameters s with
    | Some v => if negb (aspect_ratio_info_present_flag v =? 0) && (aspect_ratio_idc v =? 255)
                then Some (sar_width v, sar_height v) else None
    | None => None
    end
  else None.
Lemma vui_width : forall v, lsearch "width:" num (dump_vui v) =
  if tob (aspect_ratio_info_present_flag v) && (aspect_ratio_idc v =? 255) then Some (dec (sar_width v)) else None.
Proof.
  intros v. unfold dump_vui. rules. unfold num at 1. rewrite several_dec.
  destruct (tob (aspect_ratio_info_present_flag v)), (aspect_ratio_idc v =? 255); try reflexivity; cbn [andb];
  destruct (nal_hrd_parameters v), (vcl_hrd_parameters v); cbn [deref lsearch]; rewrite ?hrd_none by auto;
    repeat match goal with |- context [if ?c then _ else _] => destruct c end; reflexivity.
Qed.
Lemma vui_height : forall v, lsearch "height:" num (dump_vui v) =
  if tob (aspect_ratio_info_present_flag v) && (aspect_ratio_idc v =? 255) then Some (dec (sar_height v)) else None.
Proof.
  intros v. unfold dump_vui. rules. unfold num at 1. rewrite several_dec.
  destruct (tob (aspect_ratio_info_present_flag v)), (aspect_ratio_idc v =? 255); try reflexivity; cbn [andb];
  destruct (nal_hrd_parameters v), (vcl_hrd_parameters v); cbn [deref lsearch]; rewrite ?hrd_none by auto;
    repeat match goal with |- context [if ?c then _ else _] => destruct c end; reflexivity.
Qed.
Lemma profile_none : forall lab A (m : string -> option A) p, lab = "width:"%string \/ lab = "height:"%string ->
  wsearch lab m ("profile:"%string :: profile_words p) = None.
Proof. intros lab A m p [->| ->]; destruct p; reflexivity. Qed.
Lemma sps_sides : forall o s, add_resolution o = true ->
  lsearch "width:" num (dump_sps_data o s) =
    match extended_sar s with Some (w, _) => Some (dec w) | None => lsearch "width:" num (dump_resolution s) end /\
  lsearch "height:" num (dump_sps_data o s) =
    match extended_sar s with Some (_, h) => Some (dec h) | None => lsearch "height:" num (dump_resolution s) end.
Proof.
  intros o s R. unfold dump_sps_data, extended_sar. rewrite R.
  change (negb (vui_parameters_present_flag s =? 0)) with (tob (vui_parameters_present_flag s)).
  split; rules; cbn [lsearch]; rewrite profile_none, scal_none by auto;
    repeat match goal with |- context [if ?c then None else None] => replace (if c then @None string else None) with (@None string) by (destruct c; reflexivity) end;
    (replace (lsearch _ num (if pic_order_cnt_type s =? 0 then _ else _)) with (@None string)
      by (destruct (pic_order_cnt_type s =? 0); rules; [reflexivity|destruct (pic_order_cnt_type s =? 1); reflexivity]));
    destruct (tob (vui_parameters_present_flag s)); try reflexivity;
    destruct (vui_parameters s) as [v|]; cbn [deref lsearch]; try reflexivity;
    rewrite ?vui_width, ?vui_height; change (negb (aspect_ratio_info_present_flag v =? 0)) with (tob (aspect_ratio_info_present_flag v));
    destruct (tob (aspect_ratio_info_present_flag v) && (aspect_ratio_idc v =? 255)); reflexivity.
Qed.
(** What is read for a sequence parameter set *)
Definition sps_read (s : sps) : option (N * N) :=
  match extended_sar s with
  | Some p => Some p
  | None => match getResolution s with
            | Ok (w, h) => if (0 <=? w)%Z && (0 <=? h)%Z then Some (Z.to_N w, Z.to_N h) else None
            | _ => None
            end
  end.

(** * A unit *)
Definition split_popts : popts := mkpo true true false false true.
Section unit_text.
  Context (off len : N) (u : nalu) (T : string).
  Let body := map deeper (unit_body split_popts off len u) ++ [L 0 ["}"%string]].
  Context (P : printable (unit_body split_popts off len u)) (R : render_rest 0 body = Ok T).
  Let line_end := String newline "".
  Lemma body_printable : printable body.
  Proof. apply printable_app; [apply printable_deeper, P|]. repeat constructor. Qed.
  Lemma body_search : forall A lab (m : string -> option A), all solid lab = true -> lab <> ""%string ->
    (forall w c t, all solid w = true -> is_white c = true -> m (w ++ String c t)%string = m w) ->
    search (after (lab ++ " ") m) (T ++ line_end) = lsearch lab m (unit_body split_popts off len u).
  Proof.
    intros A lab m SL NL LM. change (after (lab ++ " ") m) with (M lab m).
    rewrite (search_rest lab m SL NL LM 0 body T line_end ltac:(lia) body_printable R) by (right; exists ""%string; reflexivity).
    unfold body. rewrite lsearch_app, lsearch_deeper. cbn [lsearch wsearch].
    assert (E : search (M lab m) line_end = None).
    { unfold line_end. rewrite search_white by auto. apply (search_solid lab m ""%string eq_refl). }
    rewrite E. destruct (lsearch lab m (unit_body split_popts off len u)); reflexivity.
  Qed.
  Lemma read_offset : option_map (int_of 16) (search (after "offset: 0x" (several digit16)) (T ++ line_end)) = Some off.
  Proof.
    rewrite (search_ext _ _ (after ("offset:" ++ " ") (after "0x" (several digit16)))) by
      (intros s; apply (after_app _ "offset: " "0x")).
    rewrite body_search; [|reflexivity|discriminate|apply hex_local].
    unfold unit_body, split_popts. cbn [add_offset add_length add_parsed_length add_checksum].
    pose proof (hex_read off) as H. rewrite lsearch_app, lsearch_when, lsearch_fld.
    change (ends "offset:" ("offset" ++ ":")) with true. cbv iota.
    destruct (after "0x" (several digit16) (hex8 off)); [exact H|discriminate H].
  Qed.
  Lemma read_length : option_map (int_of 10) (search (after "length: " (several digit10)) (T ++ line_end)) = Some len.
  Proof.
    change "length: "%string with ("length:" ++ " ")%string.
    rewrite body_search; [|reflexivity|discriminate|apply num_local].
    unfold unit_body, split_popts. cbn [add_offset add_length add_parsed_length add_checksum].
    rules. rewrite several_dec. apply (f_equal Some), int_dec.
  Qed.
  Lemma read_type : option_map (int_of 10) (search (after "nal_unit_type: " (several digit10)) (T ++ line_end)) =
    Some (nal_unit_type (nu_header u)).
  Proof.
    change "nal_unit_type: "%string with ("nal_unit_type:" ++ " ")%string.
    rewrite body_search; [|reflexivity|discriminate|apply num_local].
    unfold unit_body, split_popts, dump_nalh. cbn [add_offset add_length add_parsed_length add_checksum].
    rules. rewrite several_dec. apply (f_equal Some), int_dec.
  Qed.
  Lemma read_size : nal_unit_type (nu_header u) = 7 ->
    match option_map (int_of 10) (search (after "width: " (several digit10)) (T ++ line_end)),
          option_map (int_of 10) (search (after "height: " (several digit10)) (T ++ line_end)) with
    | Some w, Some h => Some (w, h)
    | _, _ => None
    end = match pl_sps (nu_payload u) with Some s => sps_read s | None => None end.
  Proof.
    intros T7. change "width: "%string with ("width:" ++ " ")%string. change "height: "%string with ("height:" ++ " ")%string.
    rewrite !body_search by (reflexivity || discriminate || apply num_local).
    unfold unit_body, dump_nalh, dump_payload. rewrite T7. change (7 =? 14) with false. change (7 =? 20) with false. change (7 =? 21) with false.
    cbn [orb split_popts add_offset add_length add_parsed_length add_checksum].
    rules. destruct (pl_sps (nu_payload u)) as [s|]; cbn [maybe]; [|reflexivity].
    unfold dump_sps. rewrite !lsearch_block by reflexivity. change (several digit10) with num.
    destruct (sps_sides split_popts s eq_refl) as [-> ->]. unfold sps_read. destruct (extended_sar s) as [[w h]|].
    - cbn [option_map]. rewrite !int_dec. reflexivity.
    - unfold dump_resolution. destruct (getResolution s) as [[w h]| | | |]; try reflexivity.
      rules. destruct (Z.leb_spec 0 w) as [W|W], (Z.leb_spec 0 h) as [H|H]; cbn [andb].
      + rewrite (deci_dec w), (deci_dec h) by assumption. unfold num. rewrite !several_dec. cbn [option_map]. rewrite !int_dec. reflexivity.
      + rewrite (deci_dec w) by assumption. destruct h; [lia|lia|]. unfold num. rewrite several_dec. reflexivity.
      + destruct w; [lia|lia|]. reflexivity.
      + destruct w; [lia|lia|]. reflexivity.
  Qed.
  Definition unit_read : pynal -> Prop := fun p =>
    py_offset p = Some off /\ py_length p = Some len /\ py_type p = Some (nal_unit_type (nu_header u)) /\
    (nal_unit_type (nu_header u) = 7 -> py_size p = match pl_sps (nu_payload u) with Some s => sps_read s | None => None end).
  Lemma parse_nal_reads : unit_read (parse_nal (T ++ line_end)).
  Proof. unfold unit_read, parse_nal. cbn [py_offset py_length py_type py_size]. auto using read_offset, read_length, read_type, read_size. Qed.
End unit_text.

(** * The whole text *)
Lemma split_start : forall x, split_bol "nal_unit {" 0 true ("nal_unit {" ++ x) = ""%string :: split_bol "nal_unit {" 0 false x.
Proof. intros [|c x]; reflexivity. Qed.
Lemma split_units : forall Ts, Forall (calm "n" false) Ts ->
  split_bol "nal_unit {" 0 true (String.concat "" (map (fun t => ("nal_unit {" ++ t) ++ String newline "")%string Ts)) =
  ""%string :: map (fun t => t ++ String newline "")%string Ts.
Proof.
  intros Ts F. induction F as [|t Ts C F IH]; [reflexivity|].
  cbn [map]. rewrite ToolTextProofs.concat_cons, !app_assoc_s.
  change (String newline "" ++ ?x)%string with (String newline x).
  rewrite split_start.
  rewrite (calm_split "n" "al_unit {" t false _ _ _ C IH). reflexivity.
Qed.
