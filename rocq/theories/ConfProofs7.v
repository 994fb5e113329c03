(** The columns of the table that come from the parameter sets, and the status. *)
From Coq Require Import NArith ZArith List Bool Lia ZifyBool ZifyNat ZifyN String Ascii.
From Verif Require Import Base Parser TypesNal TypesNalUnit TypesSps Sps TypesPps TypesExt TypesSlice TypesSliceHeader SliceHeader
  TypesSvcSlice SpecDump Dump DumpProofs PyText PyText2 PyTextProofs Conformance SpecConformance
  ConfProofs ConfProofs2 ConfProofs3 ConfProofs4 ConfProofs5 ConfProofs6.
Import ListNotations.
Open Scope N_scope.
Open Scope list_scope.

(** * The profile *)
Lemma fw_app : forall a b, fw (a ++ b) = fw a ++ fw b.
Proof. intros. unfold fw. apply flat_map_app. Qed.
Lemma fw_deeper : forall a, fw (map deeper a) = fw a.
Proof. induction a as [|[k ws|k] a IH]; cbn [map deeper]; [reflexivity| |]; unfold fw in *; cbn [flat_map]; rewrite IH; reflexivity. Qed.
Lemma fw_block : forall n d, fw (block n d) = n :: "{"%string :: fw d ++ ["}"%string].
Proof.
  intros n d. unfold block. change (fw (L 0 [n; "{"%string] :: map deeper d ++ [L 0 ["}"%string]])) with
    (n :: "{"%string :: fw (map deeper d ++ [L 0 ["}"%string]])). rewrite fw_app, fw_deeper. reflexivity.
Qed.
Lemma profile_text : forall p ws r, lazy_some " level_idc:" (String.concat " " (profile_words p ++ "level_idc:"%string :: ws) ++ r) =
  Some (String.concat " " (profile_words p)).
Proof.
  intros p ws r. assert (E : exists q, String.concat " " (profile_words p ++ "level_idc:"%string :: ws) =
    (String.concat " " (profile_words p) ++ String space ("level_idc:" ++ q))%string).
  { destruct ws as [|v ws]; [exists ""%string; destruct p; reflexivity|].
    exists (String space (String.concat " " (v :: ws))). destruct p; reflexivity. }
  destruct E as (q & ->). change (String space ("level_idc:" ++ q)) with (" level_idc:" ++ q)%string. rewrite !app_assoc_s. destruct (q ++ r)%string; destruct p; reflexivity.
Qed.
Lemma word_free : forall w, still w = true -> bends true "profile:" false w = false.
Proof. intros w S. apply bends_ends, still_ends; [reflexivity|exact S]. Qed.
Lemma set_words : forall u s, set_data (nal_unit_type (nu_header u)) (nu_payload u) = Some s ->
  exists a c, unit_words u = a ++ "profile:"%string :: profile_words (profile_type s) ++ "level_idc:"%string :: c /\
    Forall (fun w => bends true "profile:" false w = false) a.
Proof.
  intros u s S. unfold unit_words. rewrite unit_eq. unfold set_data in S. rewrite content_eq.
  assert (HD : forall t, (t = 7 \/ t = 15) -> nal_unit_type (nu_header u) = t -> Forall (fun w => bends true "profile:" false w = false) (fw (dump_nalh (nu_header u)))).
  { intros t T E. rewrite nalh_eq. unfold header_rest. rewrite E. destruct T as [->| ->]; cbn [N.eqb Pos.eqb orb Dump.when];
      rewrite fw_block; cbn -[bends dec]; repeat (constructor; [first [reflexivity|apply word_free, dec_still]|]); constructor. }
  assert (FI : Forall (fun w => bends true "profile:" false w = false) (fw (sps_first s))).
  { cbn -[bends dec]; repeat (constructor; [first [reflexivity|apply word_free, dec_still]|]); constructor. }
  assert (SP : forall t, exists a c, fw (dump_sps_data conf_popts s) ++ t = a ++ "profile:"%string :: profile_words (profile_type s) ++ "level_idc:"%string :: c /\
    Forall (fun w => bends true "profile:" false w = false) a).
  { intros t. rewrite sps_eq, fw_block, fw_app.
    exists ("sps_data"%string :: "{"%string :: fw (sps_first s)), (dec (level_idc s) :: fw (sps_middle s) ++ "}"%string :: t). split.
    - change (fw (L 0 ("profile:"%string :: profile_words (profile_type s)) :: fu "level_idc" (level_idc s) ++ sps_middle s)) with
        (("profile:"%string :: profile_words (profile_type s)) ++ "level_idc:"%string :: dec (level_idc s) :: fw (sps_middle s)).
      cbn [app]. rewrite <- !app_assoc. cbn [app]. rewrite <- !app_assoc. reflexivity.
    - constructor; [reflexivity|]. constructor; [reflexivity|]. exact FI. }
  rewrite fw_block, fw_app, fw_block.
  destruct (N.eqb_spec (nal_unit_type (nu_header u)) 7) as [T|T].
  - rewrite (T : _ = 7). cbn [N.eqb Pos.eqb orb]. rewrite S. cbn [maybe]. unfold dump_sps. rewrite fw_block.
    destruct (SP (["}"%string] ++ ["}"%string] ++ ["}"%string])) as (a & c & E & F).
    exists ("nal_unit"%string :: "{"%string :: fw (dump_nalh (nu_header u)) ++ "nal_unit_payload"%string :: "{"%string :: "sps"%string :: "{"%string :: a), c. split.
    + cbn [app]. rewrite <- !app_assoc. cbn [app]. rewrite <- !app_assoc in *. cbn [app] in *. rewrite <- E. reflexivity.
    + do 2 (constructor; [reflexivity|]). apply Forall_app. split; [apply (HD 7 (or_introl eq_refl) T)|].
      do 4 (constructor; [reflexivity|]). exact F.
  - destruct (N.eqb_spec (nal_unit_type (nu_header u)) 15) as [T2|T2]; [|discriminate].
    rewrite (T2 : _ = 15). cbn [N.eqb Pos.eqb orb]. destruct (pl_subset_sps (nu_payload u)) as [v|]; [|discriminate]. cbn [option_map] in S. injection S as <-.
    cbn [maybe]. rewrite subsps_eq, fw_block, fw_app.
    destruct (SP (fw (subsps_rest v) ++ ["}"%string] ++ ["}"%string] ++ ["}"%string])) as (a & c & E & F).
    exists ("nal_unit"%string :: "{"%string :: fw (dump_nalh (nu_header u)) ++ "nal_unit_payload"%string :: "{"%string :: "subset_sps"%string :: "{"%string :: a), c. split.
    + cbn [app]. rewrite <- !app_assoc. cbn [app]. rewrite <- !app_assoc in *. cbn [app] in *. rewrite <- E. reflexivity.
    + do 2 (constructor; [reflexivity|]). apply Forall_app. split; [apply (HD 15 (or_intror eq_refl) T2)|].
      do 4 (constructor; [reflexivity|]). exact F.
Qed.
Lemma profile_read : forall u s, printable (dump_nalu conf_popts 0 0 u) -> set_data (nal_unit_type (nu_header u)) (nu_payload u) = Some s ->
  option_map strip (search_b (after "profile: " (lazy_some " level_idc:")) false (String.concat " " (unit_words u))) =
  Some (String.concat " " (profile_words (profile_type s))).
Proof.
  intros u s P S. rewrite search_b_all.
  rewrite (all_matches_ext _ _ (pat true "profile:" (lazy_some " level_idc:"))) by (intros [] x; reflexivity).
  rewrite <- (app_nil_s (String.concat " " (unit_words u))).
  rewrite matches_line; [|reflexivity|discriminate|apply tidy_solid, (tidyish_tidy _ (unit_tidyish 0 0 u) P)|left; reflexivity].
  destruct (set_words u s S) as (a & c & -> & F). rewrite wm_skip by exact F.
  remember (profile_words (profile_type s) ++ "level_idc:"%string :: c) as t eqn:E. destruct t as [|x t]; [destruct (profile_type s); discriminate|].
  cbn [wm]. change (bends true "profile:" false "profile:") with true. cbv iota. rewrite E, profile_text. cbn [opt app hd_error option_map].
  destruct (profile_type s); reflexivity.
Qed.

(** * The lines with a parameter set *)
Definition set_of_unit (u : nalu) : list sps := opt (set_data (nal_unit_type (nu_header u)) (nu_payload u)).
Definition resolution_text (s : sps) : string :=
  match getResolution s with Ok (w, h) => (deci w ++ "x" ++ deci h)%string | _ => ""%string end.
Definition profile_string (s : sps) : string := String.concat " " (profile_words (profile_type s)).
Definition level_text (s : sps) : string :=
  match format_level (Some (Z.of_N (profile_idc s))) (Some (Z.of_N (level_idc s))) (Some (Z.of_N (constraint_set3_flag s))) with
  | Some t => t
  | None => ""%string
  end.
Definition sized (s : sps) : Prop := exists w h, getResolution s = Ok (w, h) /\ (0 <= w)%Z /\ (0 <= h)%Z.
Definition add_all (vs acc : list string) : list string := fold_left (fun a v => add_unique a (Some v)) vs acc.
Lemma line_read : forall u R Q V, printable (dump_nalu conf_popts 0 0 u) -> Forall sized (set_of_unit u) ->
  sps_line (R, Q, V) (String.concat " " (unit_words u)) =
  (add_all (map resolution_text (set_of_unit u)) R, add_all (map profile_string (set_of_unit u)) Q, add_all (map level_text (set_of_unit u)) V).
Proof.
  intros u R Q V P Z. unfold sps_line. rewrite has_set by exact P. unfold set_of_unit in *.
  destruct (set_data (nal_unit_type (nu_header u)) (nu_payload u)) as [s|] eqn:S; [|reflexivity]. cbn [negb opt map add_all fold_left].
  apply Forall_cons_iff in Z. destruct Z as [(w & h & G & W & H) _].
  assert (LS : forall name, In (name ++ ":")%string ["profile_idc:"; "level_idc:"; "constraint_set3_flag:"; "width:"; "height:"]%string ->
    get_int_field (String.concat " " (unit_words u)) name = hd_error (hits true (name ++ ":") signed (dump_nalu conf_popts 0 0 u))).
  { intros name I. apply int_field; [| |exact P]; cbn [In] in I; decompose [or] I; clear I;
      match goal with E : _ = (name ++ ":")%string |- _ => rewrite <- E; reflexivity | E : False |- _ => destruct E end. }
  assert (F := sps_fields s w h G W H).
  rewrite !LS by (cbn; tauto).
  destruct (unit_set_hits "profile_idc:" u s ltac:(cbn; tauto) S) as (x1 & X1). destruct (unit_set_hits "level_idc:" u s ltac:(cbn; tauto) S) as (x2 & X2).
  destruct (unit_set_hits "constraint_set3_flag:" u s ltac:(cbn; tauto) S) as (x3 & X3). destruct (unit_set_hits "width:" u s ltac:(cbn; tauto) S) as (x4 & X4).
  destruct (unit_set_hits "height:" u s ltac:(cbn; tauto) S) as (x5 & X5).
  change ("profile_idc" ++ ":")%string with "profile_idc:"%string. change ("level_idc" ++ ":")%string with "level_idc:"%string.
  change ("constraint_set3_flag" ++ ":")%string with "constraint_set3_flag:"%string. change ("width" ++ ":")%string with "width:"%string.
  change ("height" ++ ":")%string with "height:"%string. rewrite X1, X2, X3, X4, X5.
  destruct (F x1) as (-> & _). destruct (F x2) as (_ & -> & _). destruct (F x3) as (_ & _ & -> & _). destruct (F x4) as (_ & _ & _ & -> & _).
  destruct (F x5) as (_ & _ & _ & _ & ->). rewrite (profile_read u s P S). unfold resolution_text, level_text. rewrite G. reflexivity.
Qed.
Lemma add_all_app : forall a b acc, add_all (a ++ b) acc = add_all b (add_all a acc).
Proof. intros. unfold add_all. apply fold_left_app. Qed.
Lemma lines_read : forall l R Q V, units_ok l -> Forall sized (flat_map set_of_unit l) ->
  fold_left sps_line (map (fun u => String.concat " " (unit_words u)) l) (R, Q, V) =
  (add_all (map resolution_text (flat_map set_of_unit l)) R, add_all (map profile_string (flat_map set_of_unit l)) Q,
   add_all (map level_text (flat_map set_of_unit l)) V).
Proof.
  intros l R Q V F. revert R Q V. induction F as [|u l P F IH]; intros R Q V Z; [reflexivity|]. cbn [flat_map map fold_left] in *.
  apply Forall_app in Z. destruct Z as [Z1 Z2]. rewrite line_read by assumption. rewrite IH by exact Z2. rewrite !map_app, !add_all_app. reflexivity.
Qed.

(** * Each value once *)
Lemma filter_filter : forall A (f g : A -> bool) l, filter f (filter g l) = filter (fun x => g x && f x) l.
Proof. intros A f g l. induction l as [|x l IH]; cbn [filter]; [reflexivity|]. destruct (g x); cbn [filter andb]; [destruct (f x)|]; rewrite IH; reflexivity. Qed.
Lemma add_all_unique : forall vs acc, add_all vs acc = acc ++ filter (fun v => negb (existsb (String.eqb v) acc)) (unique vs).
Proof.
  induction vs as [|v vs IH]; intros acc; [cbn; rewrite app_nil_r; reflexivity|].
  change (add_all (v :: vs) acc) with (add_all vs (add_unique acc (Some v))). rewrite IH. cbn [add_unique unique filter].
  destruct (existsb (String.eqb v) acc) eqn:E; cbn [negb].
  - rewrite filter_filter. f_equal. apply filter_ext. intros x. destruct (String.eqb_spec v x) as [<-|]; cbn [negb andb]; [rewrite E; reflexivity|reflexivity].
  - rewrite <- app_assoc. cbn [app]. f_equal. f_equal. rewrite filter_filter. apply filter_ext. intros x. rewrite existsb_app. cbn [existsb].
    rewrite orb_false_r, negb_orb, andb_comm. f_equal. rewrite String.eqb_sym. reflexivity.
Qed.
Lemma add_all_nil : forall vs, add_all vs [] = unique vs.
Proof.
  intros vs. rewrite add_all_unique. cbn [app existsb negb]. induction (unique vs) as [|x l IH]; cbn [filter]; [reflexivity|]. rewrite IH. reflexivity.
Qed.

(** * The level *)
Lemma level_named : forall s, names_level (profile_idc s) (level_idc s) (constraint_set3_flag s) (level_text s).
Proof.
  intros s. unfold level_text, format_level, names_level, level_1b. cbv zeta.
  change 10%Z with (Z.of_N 10). rewrite <- !N2Z.inj_div, <- !N2Z.inj_mod.
  rewrite !deci_dec by lia. rewrite !N2Z.id. change dec with decimal.
  assert (HP : existsb (Z.eqb (Z.of_N (profile_idc s))) [44; 100; 110; 122; 244]%Z = true <-> high_profile (profile_idc s)).
  { unfold high_profile. cbn [existsb In]. lia. }
  destruct (existsb (Z.eqb (Z.of_N (profile_idc s))) [44; 100; 110; 122; 244]%Z).
  - assert (H : high_profile (profile_idc s)) by (apply HP; reflexivity). destruct (Z.eqb_spec (Z.of_N (level_idc s)) 9) as [E|E].
    + left. split; [left; split; [exact H|lia]|reflexivity].
    + right. split; [intros [[_ X]|[X _]]; [lia|exact (X H)]|reflexivity].
  - assert (H : ~ high_profile (profile_idc s)) by (intros H; apply HP in H; discriminate).
    destruct ((Z.of_N (level_idc s) =? 11)%Z && (Z.of_N (constraint_set3_flag s) =? 1)%Z) eqn:E.
    + left. split; [right; split; [exact H|lia]|reflexivity].
    + right. split; [intros [[X _]|[_ X]]; [exact (H X)|lia]|reflexivity].
Qed.

(** * The messages *)
Definition said (l : list string) : list (string * N) := map (fun m => (m, times m l)) (unique l).
Lemma times_app : forall x a b, times x (a ++ b) = times x a + times x b.
Proof. intros. unfold times. rewrite count_occ_app. lia. Qed.
Lemma counter_add_keys : forall x c, map fst (counter_add x c) = map fst c ++ (if existsb (String.eqb x) (map fst c) then [] else [x]).
Proof.
  intros x c. induction c as [|[y n] c IH]; [reflexivity|]. cbn [counter_add map fst existsb]. destruct (String.eqb x y); cbn [orb map fst].
  - rewrite app_nil_r. reflexivity.
  - rewrite IH. reflexivity.
Qed.
Lemma counter_add_in : forall x c y n, In (y, n) (counter_add x c) -> NoDup (map fst c) ->
  (y <> x /\ In (y, n) c) \/ (y = x /\ ((exists k, In (x, k) c /\ n = k + 1) \/ (~ In x (map fst c) /\ n = 1))).
Proof.
  intros x c. induction c as [|[z k] c IH]; intros y n I ND; cbn [counter_add] in I.
  - destruct I as [E|[]]. injection E as <- <-. right. split; [reflexivity|]. right. split; [intros []|reflexivity].
  - cbn [map fst] in ND. inversion ND as [|? ? NI ND2]; subst. destruct (String.eqb_spec x z) as [->|NE].
    + destruct I as [E|I].
      * injection E as <- <-. right. split; [reflexivity|]. left. exists k. split; [left; reflexivity|reflexivity].
      * left. split; [|right; exact I]. intros ->. apply NI. apply in_map_iff. exists (z, n). auto.
    + destruct I as [E|I].
      * injection E as <- <-. left. split; [congruence|left; reflexivity].
      * destruct (IH _ _ I ND2) as [[H1 H2]|[H1 [(j & H2 & H3)|[H2 H3]]]].
        -- left. split; [exact H1|right; exact H2].
        -- right. split; [exact H1|]. left. exists j. split; [right; exact H2|exact H3].
        -- right. split; [exact H1|]. right. split; [intros [H|H]; [cbn [fst] in H; congruence|exact (H2 H)]|exact H3].
Qed.
Definition add_key (acc : list string) (x : string) : list string := acc ++ (if existsb (String.eqb x) acc then [] else [x]).
Lemma existsb_in : forall x l, existsb (String.eqb x) l = true <-> In x l.
Proof. intros x l. rewrite existsb_exists. split; [intros (y & I & E); apply String.eqb_eq in E; subst; exact I|intros I; exists x; rewrite String.eqb_refl; auto]. Qed.
Lemma counter_spec : forall l, map fst (counter l) = unique l /\ NoDup (map fst (counter l)) /\ forall m n, In (m, n) (counter l) -> n = times m l.
Proof.
  intros l.
  assert (G : forall l pre c, map fst c = unique pre -> NoDup (map fst c) -> (forall m n, In (m, n) c -> n = times m pre) ->
    let c' := fold_left (fun c x => counter_add x c) l c in
    map fst c' = add_all l (unique pre) /\ NoDup (map fst c') /\ forall m n, In (m, n) c' -> n = times m (pre ++ l)).
  { clear l. induction l as [|x l IH]; intros pre c K ND T; cbn [fold_left]; cbv zeta.
    - rewrite app_nil_r. split; [exact K|]. split; assumption.
    - assert (U : unique (pre ++ [x]) = add_key (unique pre) x).
      { rewrite <- (add_all_nil (pre ++ [x])), add_all_app, add_all_nil. cbn. unfold add_key.
        destruct (existsb (String.eqb x) (unique pre)); [rewrite app_nil_r|]; reflexivity. }
      destruct (IH (pre ++ [x]) (counter_add x c)) as (H1 & H2 & H3).
      + rewrite counter_add_keys, K, U. reflexivity.
      + rewrite counter_add_keys. destruct (existsb (String.eqb x) (map fst c)) eqn:E; [rewrite app_nil_r; exact ND|].
        apply NoDup_app_comm_1 || idtac.
        assert (NI : ~ In x (map fst c)) by (intros I; apply existsb_in in I; congruence).
        clear - ND NI. induction (map fst c) as [|y ys IHy]; cbn [app]; [constructor; [intros []|constructor]|].
        inversion ND; subst. constructor; [|apply IHy; [assumption|intros I; apply NI; right; exact I]].
        intros I. apply in_app_iff in I. destruct I as [I|[I|[]]]; [contradiction|]. subst. apply NI. left. reflexivity.
      + intros m n I. rewrite times_app. destruct (counter_add_in _ _ _ _ I ND) as [[N1 N2]|[-> [(k & N2 & ->)|[N2 ->]]]].
        * rewrite (T _ _ N2). unfold times. cbn [count_occ]. destruct (string_dec x m); [congruence|]. lia.
        * rewrite (T _ _ N2). unfold times. cbn [count_occ]. destruct (string_dec x x); [|congruence]. lia.
        * unfold times at 2. cbn [count_occ]. destruct (string_dec x x); [|congruence].
          assert (Z : times x pre = 0).
          { unfold times. rewrite K in N2. assert (NP : ~ In x pre).
            { intros I2. apply N2. clear - I2. induction pre as [|y pre IHp]; [destruct I2|]. cbn [unique].
              destruct (string_dec y x) as [->|NE]; [left; reflexivity|]. right. apply filter_In. split.
              - destruct I2 as [->|I2]; [congruence|apply IHp, I2].
              - destruct (String.eqb_spec y x); [congruence|reflexivity]. }
            apply (count_occ_not_In string_dec) in NP. rewrite NP. reflexivity. }
          lia.
      + rewrite <- app_assoc in H3. cbn [app] in H3. split; [|split; assumption]. rewrite H1, U.
        change (add_all (x :: l) (unique pre)) with (add_all l (add_unique (unique pre) (Some x))). f_equal. unfold add_key, add_unique.
        destruct (existsb (String.eqb x) (unique pre)); [rewrite app_nil_r|]; reflexivity. }
  destruct (G l [] []) as (H1 & H2 & H3); [reflexivity|constructor|intros ? ? []|]. cbn [unique] in H1. rewrite add_all_nil in H1.
  split; [exact H1|]. split; [exact H2|exact H3].
Qed.
Lemma counter_said : forall l, counter l = said l.
Proof.
  intros l. destruct (counter_spec l) as (H1 & _ & H3). unfold said. rewrite <- H1. rewrite map_map.
  transitivity (map (fun x : string * N => x) (counter l)); [rewrite map_id; reflexivity|]. apply map_ext_in. intros [m n] I. cbn [fst].
  rewrite <- (H3 m n I). reflexivity.
Qed.
