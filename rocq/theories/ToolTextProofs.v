(** The tool's text output and options: lemmas. *)
From Coq Require Import NArith ZArith List Bool Lia ZifyBool ZifyNat ZifyN String Ascii.
From Verif Require Import Base TypesNal TypesNalUnit NalUnit NalType Tool Dump SpecDump SpecLabels DumpProofs DumpProofs7
  ToolText SpecToolText.
Import ListNotations.
Open Scope N_scope.
Open Scope list_scope.
Ltac Zify.zify_post_hook ::= Z.div_mod_to_equations.

(** * Text *)
Lemma one_line_all : forall s, one_line s <-> all (fun c => negb (is_newline c)) s = true.
Proof.
  induction s as [|c s IH]; cbn [one_line all]; [tauto|]. rewrite IH, andb_true_iff.
  destruct (is_newline c); cbn; intuition congruence.
Qed.
Lemma one_line_app : forall a b, one_line a -> one_line b -> one_line (a ++ b).
Proof. induction a as [|c a IH]; cbn [one_line append]; intros b A B; [auto|]. destruct A. split; auto. Qed.
Lemma lines_cons : forall a b, one_line a -> text_lines (a ++ String newline b) = a :: text_lines b.
Proof.
  intros a b A. unfold text_lines. rewrite pieces_sep by reflexivity.
  rewrite pieces_none by (apply one_line_all; exact A). reflexivity.
Qed.
Lemma concat_cons : forall z zs, String.concat "" (z :: zs) = (z ++ String.concat "" zs)%string.
Proof. intros z zs. cbn [String.concat]. destruct zs; cbn [append]; [rewrite app_nil_s|]; reflexivity. Qed.
Lemma lines_concat : forall ls, Forall one_line ls ->
  text_lines (String.concat "" (map (fun l => l ++ String newline "")%string ls)) = ls ++ [EmptyString].
Proof.
  intros ls F. induction F as [|l ls L F IH]; [reflexivity|]. cbn [map]. rewrite concat_cons, app_assoc_s. cbn [append].
  rewrite lines_cons by auto. rewrite IH. reflexivity.
Qed.

(** * Bytes *)
Definition hx (c : N) : string := padded 2 (hexs c).
Definition good_byte (c : N) : bool :=
  (String.length (hx c) =? 2)%nat && match hex_number (hx c) with Some n => n =? c | None => false end &&
  token (hx c) && all (fun c => negb (is_newline c)) (hx c).
Lemma good_bytes : forall c, c < 256 -> good_byte c = true.
Proof.
  intros c H. assert (K : forallb good_byte (map N.of_nat (seq 0 256)) = true) by (vm_compute; reflexivity).
  rewrite forallb_forall in K. apply K. apply in_map_iff. exists (N.to_nat c). split; [lia|]. apply in_seq. lia.
Qed.
Lemma hx_facts : forall c, c < 256 -> shows_byte (hx c) c /\ token (hx c) = true /\ one_line (hx c).
Proof.
  intros c H. pose proof (good_bytes c H) as G. unfold good_byte in G.
  apply andb_true_iff in G. destruct G as [G G4]. apply andb_true_iff in G. destruct G as [G G3].
  apply andb_true_iff in G. destruct G as [G1 G2]. split; [|split; [auto|apply one_line_all; auto]].
  split; [lia|]. destruct (hex_number (hx c)); [|discriminate]. f_equal. lia.
Qed.
Definition white_start (s : string) : Prop := s = ""%string \/ exists c t, s = String c t /\ is_white c = true.
Lemma contents_words : forall fuel buffer off len i bs, Forall (fun b => b < 256) buffer ->
  contents_loop fuel buffer off len i = Ok bs ->
  exists s ws, contents_text fuel buffer off len i = Ok s /\ words s = ws /\ Forall2 shows_byte ws bs /\
    white_start s /\ one_line s.
Proof.
  induction fuel as [|f IH]; intros buffer off len i bs B E; cbn [contents_loop contents_text] in *;
  destruct ((i <? len) && (u64 (off + i) <? N.of_nat (List.length buffer))); try discriminate;
  try (injection E as <-; exists ""%string, []; split; [reflexivity|]; split; [reflexivity|]; split; [constructor|]; split; [left; reflexivity|exact I]).
  destruct (nth_error buffer (N.to_nat (u64 (off + i)))) as [c|] eqn:NE; [|discriminate].
  destruct (contents_loop f buffer off len (u64 (i + 1))) as [t| | | |] eqn:Et; try discriminate.
  cbn [rbind] in E. injection E as <-. destruct (IH _ _ _ _ _ B Et) as (s & ws & E1 & E2 & E3 & E4 & E5).
  assert (C : c < 256). { rewrite Forall_forall in B. apply B. eapply nth_error_In; eauto. }
  destruct (hx_facts c C) as (H1 & H2 & H3). rewrite E1. cbn [rbind]. fold (hx c).
  eexists. exists (hx c :: ws). split; [reflexivity|].
  set (m := if u64 (i + 1) mod 16 =? 0 then " "%string else ""%string).
  assert (M : m = ""%string \/ m = " "%string) by (unfold m; destruct (_ =? 0); auto). clearbody m.
  assert (MW : white_start (m ++ s) /\ words (m ++ s)%string = words s).
  { destruct M as [-> | ->]; cbn [append]; [auto|]. split; [right; eexists; eexists; split; [reflexivity|reflexivity]|].
    apply words_white. reflexivity. }
  destruct MW as [MW1 MW2]. split; [|split; [|split]].
  - cbn [append]. rewrite words_white by reflexivity. rewrite words_app by exact MW1.
    rewrite (words_token _ H2), MW2, E2. reflexivity.
  - constructor; auto.
  - right. eexists. eexists. split; [reflexivity|reflexivity].
  - cbn [append one_line]. split; [reflexivity|]. apply one_line_app; [exact H3|]. apply one_line_app; [|exact E5].
    destruct M as [-> | ->]; cbn; auto.
Qed.

(** * Comma separated values *)
Definition nocomma (c : ascii) : bool := negb (is_comma c) && negb (is_newline c).
Lemma fields_cons : forall a b, all nocomma a = true -> fields (a ++ String "," b)%string = a :: fields b.
Proof.
  intros a b A. unfold fields. rewrite pieces_sep by reflexivity. rewrite pieces_none; [reflexivity|].
  eapply all_impl; [|exact A]. intros c H. unfold nocomma in H. destruct (is_comma c); [discriminate|reflexivity].
Qed.
Lemma fields_one : forall a, all nocomma a = true -> fields a = [a].
Proof.
  intros a A. apply pieces_none. eapply all_impl; [|exact A]. intros c H. unfold nocomma in H.
  destruct (is_comma c); [discriminate|reflexivity].
Qed.
Lemma digit_nocomma : forall c, digit c = true -> nocomma c = true.
Proof.
  intros c H. assert (K : implb (digit c) (nocomma c) = true).
  { destruct c as [[] [] [] [] [] [] [] []]; reflexivity. }
  rewrite H in K. exact K.
Qed.
Lemma deci_chars : forall z, all nocomma (deci z) = true.
Proof.
  intros z. unfold deci. destruct (Z.to_int z) as [d|d]; cbn [DecimalString.NilEmpty.string_of_int].
  - eapply all_impl; [apply digit_nocomma|]. apply digits.
  - cbn [all]. apply andb_true_iff. split; [reflexivity|]. eapply all_impl; [apply digit_nocomma|]. apply digits.
Qed.
Lemma deci_cell : forall z, in_cell (deci z) (Num z).
Proof.
  intros z. split; [|apply number_deci]. intros K. pose proof (deci_plain z) as P. rewrite K in P. discriminate.
Qed.
Lemma name_chars : forall t, all nocomma (NalUnitTypeToString t) = true.
Proof.
  intros t. unfold NalUnitTypeToString.
  destruct t as [|p]; [reflexivity|]. do 5 (destruct p as [p|p|]; try reflexivity).
Qed.
Definition row_fine (r : row) : Prop :=
  match r with
  | NalRow _ _ ty name _ _ => ty < 32 /\ name = NalUnitTypeToString ty
  | FrameRow _ _ _ => True
  end.
Lemma to_int_small : forall t, t < 32 -> to_int t = Z.of_N t.
Proof. intros t H. unfold to_int, to_i32, u32. destruct (_ <? _) eqn:E; lia. Qed.
Lemma plain_line : forall a, all nocomma a = true -> one_line a.
Proof.
  intros a A. apply one_line_all. eapply all_impl; [|exact A]. intros c H. unfold nocomma in H.
  destruct (is_newline c); [rewrite andb_comm in H; discriminate|reflexivity].
Qed.
Lemma line_cons : forall a b, all nocomma a = true -> one_line b -> one_line (a ++ String "," b)%string.
Proof. intros a b A B. apply one_line_app; [apply plain_line, A|]. split; [reflexivity|exact B]. Qed.
Lemma fields_blank : forall b, fields (String "," b) = ""%string :: fields b.
Proof. intros b. exact (fields_cons "" b eq_refl). Qed.
Lemma line_blank : forall b, one_line b -> one_line (String "," b).
Proof. intros b B. split; [reflexivity|exact B]. Qed.
Lemma row_cells : forall r, row_fine r -> Forall2 in_cell (fields (row_text r)) (cells r) /\ one_line (row_text r).
Proof.
  assert (FR : forall b, fields (String "f" (String "r" (String "a" (String "m" (String "e" (String "," b)))))) = "frame"%string :: fields b).
  { intros b. exact (fields_cons "frame" b eq_refl). }
  intros [nal frame ty name len fmb|frame last bitrate] H; cbn [row_text cells append].
  - destruct H as [H ->]. rewrite to_int_small by auto. split.
    + rewrite !fields_cons by (apply deci_chars || apply name_chars). rewrite fields_blank.
      rewrite fields_one by (destruct fmb; [apply deci_chars|reflexivity]).
      repeat (constructor; [first [apply deci_cell|reflexivity]|]). constructor; [|constructor].
      destruct fmb; [apply deci_cell|reflexivity].
    + repeat (apply line_cons; [apply deci_chars || apply name_chars|]). apply line_blank. apply plain_line.
      destruct fmb; [apply deci_chars|reflexivity].
  - split.
    + rewrite fields_blank, !fields_cons, FR, fields_blank, fields_cons by apply deci_chars.
      repeat (constructor; [first [apply deci_cell|reflexivity]|]). constructor.
    + apply line_blank. repeat (apply line_cons; [apply deci_chars|]).
      do 5 (split; [reflexivity|]). do 2 apply line_blank. apply line_cons; [apply deci_chars|]. exact I.
Qed.
Lemma rows_lines : forall rs, Forall row_fine rs ->
  text_lines (rows_text rs) = map row_text rs ++ [EmptyString].
Proof.
  intros rs F. induction F as [|r rs R F IH]; [reflexivity|]. cbn [rows_text map app].
  rewrite lines_cons by (apply row_cells, R). rewrite IH. reflexivity.
Qed.
Lemma rbind_ok : forall A B (r : res A) (f : A -> res B) y, rbind r f = Ok y -> exists x, r = Ok x /\ f x = Ok y.
Proof. intros A B [] f y E; try discriminate. eauto. Qed.
Lemma dump_rows_fine : forall fps us total nal frame last rs,
  Forall (fun e : nalu * N * N => nal_unit_type (nu_header (fst (fst e))) < 32) us ->
  dump_loop fps us total nal frame last = Ok rs -> Forall row_fine rs.
Proof.
  intros fps us. induction us as [|[[u off] len] us IH]; intros total nal frame last rs F E; cbn [dump_loop] in E.
  - destruct (0 <? total)%Z; [|injection E as <-; constructor].
    apply rbind_ok in E. destruct E as (r & _ & E). injection E as <-. constructor; [exact I|constructor].
  - inversion F as [|? ? F1 F2]; subst. cbn [fst] in F1.
    assert (K : forall rows total frame last, Forall row_fine rows ->
      rbind (chk_i32 (nal + 1)) (fun nal' =>
        rbind (dump_loop fps us total nal' frame last) (fun rs =>
        Ok (rows ++ NalRow nal frame (nal_unit_type (nu_header u)) (NalUnitTypeToString (nal_unit_type (nu_header u)))
          (to_int len) (if IsSliceSegment (nal_unit_type (nu_header u)) then Some (first_mb u) else None) :: rs))) = Ok rs ->
      Forall row_fine rs).
    { intros rows t f l R X. apply rbind_ok in X. destruct X as (n & _ & X). apply rbind_ok in X. destruct X as (r & X & Y).
      injection Y as <-. apply Forall_app. split; [exact R|]. constructor; [split; auto|]. eapply IH; eauto. }
    destruct (IsSliceSegment (nal_unit_type (nu_header u))) eqn:S.
    + destruct ((first_mb u =? 0)%Z && (0 <? total)%Z).
      * apply rbind_ok in E. destruct E as (b & _ & E). apply rbind_ok in E. destruct E as (fr & _ & E).
        apply rbind_ok in E. destruct E as (tt & _ & E). eapply K; [|exact E]. constructor; [exact I|constructor].
      * apply rbind_ok in E. destruct E as (tt & _ & E). eapply K; [|exact E]. constructor.
    + eapply K; [|exact E]. constructor.
Qed.

(** * Numbers on the command line *)
Lemma space_white : forall c, is_space c = true <-> white c.
Proof.
  intros c. unfold is_space, white. set (n := N_of_ascii c). clearbody n. cbn [In]. split; intros H.
  - lia.
  - lia.
Qed.
Lemma digit_iff : forall c, is_digit c = true <-> exists d, digit_value c d.
Proof.
  intros c. unfold is_digit, digit_value. set (n := N_of_ascii c). clearbody n. split.
  - intros H. exists (Z.of_N n - 48)%Z. lia.
  - intros (d & H). lia.
Qed.
Lemma digit_fun : forall c d, digit_value c d -> Z.of_N (N_of_ascii c - 48) = d.
Proof. intros c d H. unfold digit_value in H. lia. Qed.
(** All digits: the scan consumes the string. *)
Lemma scan_value : forall ds v n, value ds v n -> scan_digits ds v = (n, EmptyString).
Proof.
  intros ds v n H. induction H as [v|c d t v n D H IH]; [reflexivity|]. cbn [scan_digits].
  replace (is_digit c) with true by (symmetry; apply digit_iff; eauto). rewrite (digit_fun c d D). exact IH.
Qed.
Lemma value_scan : forall ds v n, scan_digits ds v = (n, EmptyString) -> value ds v n.
Proof.
  induction ds as [|c t IH]; intros v n E; cbn [scan_digits] in E.
  - injection E as <-. constructor.
  - destruct (is_digit c) eqn:D; [|discriminate]. apply digit_iff in D. destruct D as (d & D).
    rewrite (digit_fun c d D) in E. econstructor; eauto.
Qed.
Lemma value_mono : forall ds v n, value ds v n -> (0 <= v -> v <= n)%Z.
Proof. intros ds v n H. induction H as [v|c d t v n [_ D] H IH]; intros V; lia. Qed.
Lemma skip_spec : forall s, exists ws, s = (ws ++ skip_space s)%string /\ each white ws /\
  match skip_space s with String c _ => is_space c = false | EmptyString => True end.
Proof.
  induction s as [|c s (ws & E & W & H)]; [exists ""%string; cbn; auto|]. cbn [skip_space]. destruct (is_space c) eqn:S.
  - exists (String c ws). cbn [append each]. rewrite <- E. split; [reflexivity|]. split; [|exact H].
    split; [apply space_white; exact S|exact W].
  - exists ""%string. cbn. rewrite S. auto.
Qed.
Lemma skip_white : forall ws t, each white ws -> match t with String c _ => is_space c = false | EmptyString => True end ->
  skip_space (ws ++ t)%string = t.
Proof.
  induction ws as [|c ws IH]; intros t W T; cbn [append skip_space].
  - destruct t as [|c t]; [reflexivity|]. cbn [skip_space]. rewrite T. reflexivity.
  - destruct W as [W1 W2]. apply space_white in W1. rewrite W1. apply IH; auto.
Qed.
(** What is read after the sign. *)
Lemma digits_arg : forall neg d s n, s <> EmptyString ->
  (let '(v, rest, errno) := strtol_digits neg d s in
   if errno || negb (String.eqb rest EmptyString) || (v <? 0)%Z || (INT_MAX <? v)%Z then None else Some v) = Some n <->
  (d <> EmptyString /\ (0 <= n <= INT_MAX)%Z /\ exists v, value d 0 v /\ n = if neg then (- v)%Z else v).
Proof.
  intros neg d s n NE.
  assert (S : String.eqb s "" = false) by (apply String.eqb_neq; exact NE).
  unfold strtol_digits. destruct d as [|c d].
  - rewrite S. cbn. split; [discriminate|intros (H & _); congruence].
  - destruct (is_digit c) eqn:D.
    + destruct (scan_digits (String c d) 0) as [v rest] eqn:E.
      assert (X : forall n', (value (String c d) 0 n' <-> rest = ""%string /\ n' = v)).
      { intros n'. split; intros H.
        - apply scan_value in H. rewrite E in H. injection H as -> ->. auto.
        - destruct H as [-> ->]. apply value_scan, E. }
      destruct (LONG_MAX <? (if neg then - v else v))%Z eqn:L1; [|destruct ((if neg then - v else v) <? LONG_MIN)%Z eqn:L2].
      * cbn. split; [discriminate|]. intros (_ & N & v' & V & ->). apply X in V. destruct V as [_ ->].
        unfold LONG_MAX, INT_MAX in *. destruct neg; lia.
      * cbn. split; [discriminate|]. intros (_ & N & v' & V & ->). apply X in V. destruct V as [_ ->].
        unfold LONG_MIN, INT_MAX in *. destruct neg; lia.
      * cbn [orb]. destruct (String.eqb_spec rest "") as [R|R].
        -- cbn [negb orb]. set (z := if neg then (- v)%Z else v) in *.
           destruct (Z.ltb_spec z 0); [|destruct (Z.ltb_spec INT_MAX z)]; cbn [orb].
           ++ split; [discriminate|]. intros (_ & N & v' & V & ->). apply X in V. destruct V as [_ ->]. fold z in N. lia.
           ++ split; [discriminate|]. intros (_ & N & v' & V & ->). apply X in V. destruct V as [_ ->]. fold z in N. lia.
           ++ split.
              ** intros Q. injection Q as <-. split; [discriminate|]. split; [lia|]. exists v. split; [apply X; auto|reflexivity].
              ** intros (_ & N & v' & V & ->). apply X in V. destruct V as [_ ->]. reflexivity.
        -- cbn. split; [discriminate|]. intros (_ & N & v' & V & ->). apply X in V. destruct V; congruence.
    + rewrite S. cbn. split; [discriminate|]. intros (_ & _ & v & V & _). inversion V; subst.
      assert (is_digit c = true) by (apply digit_iff; eauto). congruence.
Qed.
Lemma digit_not_space : forall c d, digit_value c d -> is_space c = false /\ Ascii.eqb c "-" = false /\ Ascii.eqb c "+" = false.
Proof.
  intros c d [H1 H2]. split; [unfold is_space; cbv zeta; set (n := N_of_ascii c) in *; clearbody n; lia|].
  split; apply Ascii.eqb_neq; intros ->;
    match type of H1 with ?x = _ => let y := eval vm_compute in x in change x with y in H1 end; lia.
Qed.
Lemma int_arg_spec : forall s n, int_arg s = Some n <->
  s = EmptyString /\ n = 0%Z \/ denotes s n /\ (0 <= n <= INT_MAX)%Z.
Proof.
  intros s n. destruct (string_dec s "") as [->|NE].
  { cbn. split.
    - intros H. injection H as <-. auto.
    - intros [[_ ->]|[(ws & sg & ds & v & E & _ & ND & _) _]]; [reflexivity|].
      destruct ws; [|discriminate]. destruct sg; [|discriminate]. cbn in E. congruence. }
  assert (K : denotes s n <-> exists sg ds v, skip_space s = (sg ++ ds)%string /\ ds <> EmptyString /\ value ds 0 v /\
    ((sg = EmptyString \/ sg = "+"%string) /\ n = v \/ sg = "-"%string /\ n = (- v)%Z)).
  { split.
    - intros (ws & sg & ds & v & -> & W & ND & V & S). exists sg, ds, v. split; [|auto]. apply skip_white; [exact W|].
      destruct S as [[[-> | ->] _]|[-> _]]; cbn [append]; try reflexivity.
      inversion V as [|c d t v0 n0 D V']; subst; [congruence|]. apply (digit_not_space c d D).
    - intros (sg & ds & v & E & ND & V & S). destruct (skip_spec s) as (ws & E' & W & _). rewrite E in E'.
      exists ws, sg, ds, v. auto. }
  rewrite K. clear K. unfold int_arg, strtol. split.
  - intros H. right. destruct (skip_space s) as [|c t] eqn:T.
    + apply digits_arg in H; [|exact NE]. destruct H; congruence.
    + destruct (Ascii.eqb_spec c "-") as [->|C1].
      * apply digits_arg in H; [|exact NE]. destruct H as (H1 & H2 & v & V & ->). split; [|exact H2].
        exists "-"%string, t, v. split; [reflexivity|]. auto.
      * destruct (Ascii.eqb_spec c "+") as [->|C2].
        -- apply digits_arg in H; [|exact NE]. destruct H as (H1 & H2 & v & V & ->). split; [|exact H2].
           exists "+"%string, t, v. split; [reflexivity|]. auto 6.
        -- apply digits_arg in H; [|exact NE]. destruct H as (H1 & H2 & v & V & ->). split; [|exact H2].
           exists ""%string, (String c t), v. split; [reflexivity|]. auto 6.
  - intros [[H _]|[(sg & ds & v & E & ND & V & S) N]]; [congruence|]. rewrite E.
    destruct S as [[[-> | ->] ->]|[-> ->]]; cbn [append].
    + destruct ds as [|c t]; [congruence|]. inversion V as [|c' d t' v0 n0 D V']; subst.
      destruct (digit_not_space c d D) as (_ & -> & ->). apply digits_arg; [exact NE|]. split; [exact ND|]. split; [exact N|]. eauto.
    + cbn [Ascii.eqb Bool.eqb]. apply digits_arg; [exact NE|]. split; [exact ND|]. split; [exact N|]. eauto.
    + cbn [Ascii.eqb Bool.eqb]. apply digits_arg; [exact NE|]. split; [exact ND|]. split; [exact N|]. eauto.
Qed.
