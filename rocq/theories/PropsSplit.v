(** Property C70: h264nal-split.py. *)
From Coq Require Import NArith ZArith List Bool Lia ZifyBool ZifyNat ZifyN String Ascii.
From Verif Require Import SpecBits Base BitBuffer SpecReader BitsLemmas BitBufferProofs
  ReaderProofs Rbsp SpecRbsp RbspProofs ChecksumProofs Parser SpecSyntax ParserProofs SpecFraming Framing
  FramingProofs FramingProofs2 FramingProofs3 TypesSps Sps SpecSps SpsProofs TypesPps Pps TypesNal NalHeader TypesExt Ext TypesSlice TypesSliceHeader SliceHeader
  TypesSvcSlice SvcSlice
  TypesNalUnit NalUnit NalUnitProofs SpecNalUnit NalUnitProofs2 NalUnitProofs3 PropsNalUnit PropsNalUnit2
  PropsFraming NalType Rtp RtpProofs Tool SpecTool ToolProofs PropsTool SpecDump SpecLabels Dump DumpProofs DumpProofs2 DumpProofs3
  DumpProofs4 DumpProofs5 DumpProofs6 DumpProofs7 DumpProofs8 PropsDump ToolText SpecToolText ToolTextProofs PropsToolText
  PyText PyTextProofs Split SpecSplit SplitProofs SplitProofs2.
Import ListNotations.
Open Scope N_scope.
Open Scope list_scope.
Ltac Zify.zify_post_hook ::= Z.div_mod_to_equations.

(** The options of the script *)
Definition split_args (input : string) : args :=
  mkargs false false true true false false true false (-1) 30 None (Some input) None.
Lemma split_args_eq : forall input, parse_args (split_options input) = Go (split_args input).
Proof. reflexivity. Qed.
Lemma split_sane : forall input data, sane (split_args input) data.
Proof. intros. split; [cbn; lia|]. split; [cbn; lia|]. discriminate. Qed.

(** What is found for a unit *)
Definition reads (e : nalu * N * N) (p : pynal) : Prop := let '(u, off, len) := e in unit_read off len u p.
Lemma units_split : forall input data l,
  Forall (fun e => exists st, good_unit st false (fst (fst e))) l ->
  exists text, units_text (split_args input) data l = Ok text /\ Forall2 reads l (parse_nal_units text).
Proof.
  intros input data l F.
  assert (X : exists Ts, units_text (split_args input) data l =
      Ok (String.concat "" (map (fun t => ("nal_unit {" ++ t) ++ String newline "")%string Ts)) /\
    Forall (calm "n" false) Ts /\ Forall2 (fun e t => reads e (parse_nal (t ++ String newline ""))) l Ts).
  { induction F as [|[[u off] len] l (st & G) F (Ts & E & C & R)]; [exists []; repeat split; constructor|].
    assert (N : nice (dump_nalu split_popts off len u)) by (eapply nice_nalu with (ck := false); [discriminate|exact G]).
    apply nice_printable in N. rewrite nalu_body in N. 
    assert (P : printable (unit_body split_popts off len u)).
    { apply Forall_cons_iff in N. destruct N as [_ N2]. apply Forall_app in N2. destruct N2 as [N2 _].
      clear - N2. induction (unit_body split_popts off len u) as [|[k ws|k] d IH]; constructor;
        cbn [map deeper] in N2; apply Forall_cons_iff in N2; destruct N2 as [N2 N3]; auto. apply IH, N3. apply IH, N3. }
    destruct (render_rest_ok 0 (map deeper (unit_body split_popts off len u) ++ [L 0 ["}"%string]])) as (T & RT).
    { apply Forall_cons_iff in N. apply N. }
    exists (T :: Ts). split; [|split].
    - cbn [units_text]. unfold unit_text. change (parsing_options (split_args input)) with split_popts.
      change (indent_level (split_args input)) with 0%Z. rewrite nalu_body. cbn [render]. rewrite RT. cbn [rbind].
      change (arg_contents (split_args input)) with false. cbn [rbind]. rewrite E. cbn [rbind map]. rewrite concat_cons. reflexivity.
    - constructor; [|exact C]. eapply calm_block; [| |exact P|exact RT]; discriminate.
    - constructor; [|exact R]. exact (parse_nal_reads off len u T P RT). }
  destruct X as (Ts & E & C & R). eexists. split; [exact E|]. unfold parse_nal_units. rewrite split_units by exact C. cbn [tl].
  clear - R. induction R; cbn [map]; constructor; auto.
Qed.
(** The script reads the offset, the length and the type of every unit that the library accepts,
    in order; and for a sequence parameter set two numbers, those of the sample aspect ratio if
    it is given explicitly, and otherwise the size of the pictures. *)
Theorem C70_reads : forall a input data, fits a data ->
  exists l w text e, ParseBitstream a false data (size_of data) (mkw new_state 0) = (Ok l, w) /\
    run a (split_args input) data = Ok (text, e) /\ Forall2 reads l (parse_nal_units text) /\
    forall u off len s, In (u, off, len) l -> nal_unit_type (nu_header u) = 7 -> pl_sps (nu_payload u) = Some s ->
      sps_read s = match extended_sar s with
                   | Some p => Some p
                   | None => Some (coded_width s - crop_width s, coded_height s - crop_height s)
                   end.
Proof.
  intros a input data F. destruct (tool_run a (split_args input) data F (split_sane input data)) as (l & w & P & (K1 & _ & _) & rows & e & T).
  destruct (units_split input data l) as (text & U & R).
  { eapply Forall_impl; [|exact K1]. intros x (st & G & _). exists st. exact G. }
  exists l, w, text, e. split; [exact P|]. split; [|split; [exact R|]].
  - unfold tool in T. rewrite P in T. cbn [tool_options opt_dump_length split_args arg_dump_length rbind] in T.
    unfold run, output. rewrite P. cbn [tool_options opt_dump_length split_args arg_dump_length] in *. rewrite U. cbn [rbind].
    destruct (unparsed_nal_units _ data l) as [n| | | |]; try discriminate. cbn [rbind] in *. injection T as <- <-. reflexivity.
  - intros u off len s I T7 S. rewrite Forall_forall in K1. destruct (K1 _ I) as (st & G & _). cbn [fst] in G.
    destruct (gp_sps _ _ _ (gu_payload _ _ _ G) s S) as [ls L]. destruct (getResolution_spec s ls L) as (GR & G1 & G2).
    unfold sps_read. destruct (extended_sar s); [reflexivity|]. rewrite GR.
    replace ((0 <=? Z.of_N (coded_width s - crop_width s))%Z && (0 <=? Z.of_N (coded_height s - crop_height s))%Z) with true by lia.
    rewrite !N2Z.id. reflexivity.
Qed.
(** ** Cutting *)
(** The sequence parameter sets of a list of units, with the numbers above *)
Definition set_of (e : nalu * N * N) : list (N * size) :=
  let '(u, off, _) := e in
  if nal_unit_type (nu_header u) =? 7 then
    match pl_sps (nu_payload u) with
    | Some s => match sps_read s with Some r => [(off, r)] | None => [] end
    | None => []
    end
  else [].
Definition sets_of (l : list (nalu * N * N)) : list (N * size) := flat_map set_of l.
(** Those that differ from the one before *)
Fixpoint changes (current : option size) (sets : list (N * size)) : list N :=
  match sets with
  | [] => []
  | (o, s) :: t =>
      match current with
      | Some c => if same_size s c then changes (Some s) t else o :: changes (Some s) t
      | None => changes (Some s) t
      end
  end.
Lemma split_points : forall data l ps current, Forall2 reads l ps ->
  find_split_points ps data current = Ok (map (find_start_code_offset data) (changes current (sets_of l))).
Proof.
  intros data l ps current R. revert current. induction R as [|[[u off] len] p l ps (R1 & R2 & R3 & R4) R IH]; intros current; [reflexivity|].
  cbn [find_split_points sets_of flat_map]. fold (sets_of l). rewrite R3. unfold set_of at 1.
  destruct (N.eqb_spec (nal_unit_type (nu_header u)) 7) as [T|T].
  - rewrite T. rewrite (R4 T). destruct (pl_sps (nu_payload u)) as [s|]; [|apply IH].
    destruct (sps_read s) as [r|]; [|apply IH]. cbn [app changes]. destruct current as [c|]; [|apply IH].
    destruct (same_size r c); [apply IH|]. rewrite R1, IH. reflexivity.
  - cbn [app]. destruct (nal_unit_type (nu_header u)) as [|[[[q|q|]|q|]|q|]]; try apply IH. congruence.
Qed.
Lemma same_size_step : forall a b, same_size b a = true <-> a = b.
Proof. intros [a1 a2] [b1 b2]. unfold same_size. cbn [fst snd]. split; [intros; f_equal; lia|intros H; injection H as -> ->; lia]. Qed.
Lemma changes_app : forall pre current o1 s1 post, changes current (pre ++ (o1, s1) :: post) =
  changes current (pre ++ [(o1, s1)]) ++ changes (Some s1) post.
Proof.
  induction pre as [|[o s] pre IH]; intros current o1 s1 post; cbn [app changes].
  - destruct current as [c|]; [destruct (same_size s1 c)|]; reflexivity.
  - destruct current as [c|]; [destruct (same_size s c)|]; rewrite IH; reflexivity.
Qed.
Lemma changes_in : forall sets current o, In o (changes current sets) -> exists s, In (o, s) sets.
Proof.
  induction sets as [|[o s] t IH]; intros current x H; cbn [changes] in H; [destruct H|].
  destruct current as [c|]; [destruct (same_size s c)|].
  - destruct (IH _ _ H) as (s' & I). exists s'. right. exact I.
  - destruct H as [->|H]; [exists s; left; reflexivity|]. destruct (IH _ _ H) as (s' & I). exists s'. right. exact I.
  - destruct (IH _ _ H) as (s' & I). exists s'. right. exact I.
Qed.
Lemma changes_none : forall sets s, changes (Some s) sets = [] -> Forall (fun p => snd p = s) sets.
Proof.
  induction sets as [|[o s1] t IH]; intros s H; [constructor|]. cbn [changes] in H.
  destruct (same_size s1 s) eqn:E; [|discriminate]. apply same_size_step in E. subst s1. constructor; auto.
Qed.

(** Every unit is accepted if as many are accepted as there are. *)
Lemma all_kept : forall A S (parse : list N -> S -> res A * S) us s l s', runs parse us s l s' -> List.length l = List.length us ->
  Forall2 (fun u (e : A * N * N) => snd (fst e) = fst u /\ snd e = size_of (snd u) /\
    exists s1 s2, parse (snd u) s1 = (Ok (fst (fst e)), s2)) us l.
Proof.
  intros A S parse us s l s' R. induction R as [s|o u t s x s' l s'' E R IH|o u t s s' l s'' E R IH]; intros L; cbn [List.length] in L.
  - constructor.
  - constructor; [|apply IH; lia]. cbn [fst snd]. repeat split. eauto.
  - apply runs_kept_le in R. lia.
Qed.
Lemma empty_unit : forall a ck w x w', parse_unit a ck [] w = (Ok x, w') -> False.
Proof.
  intros a ck w x w' H. unfold parse_unit, ParseNalUnitBytes, ParseNalUnit in H. revert H. generalize ParseNalUnitPayload as pp.
  intros pp. destruct a, ck; vm_compute; discriminate.
Qed.
From Coq Require Import Sorting.Sorted.
Lemma sorted_increasing : forall qs, StronglySorted N.lt qs <-> increasing qs.
Proof.
  induction qs as [|q qs IH]; [split; [exact (fun _ => I)|constructor]|]. split.
  - intros S. inversion S as [|? ? S1 F]; subst. destruct qs as [|r qs]; [exact I|]. split; [inversion F; assumption|apply IH, S1].
  - intros H. constructor; [apply IH; destruct qs; [exact I|apply H]|apply increasing_all, H].
Qed.
Lemma poss_increasing : forall l o, increasing (poss l o).
Proof.
  intros l o. pose proof (proj1 (poss_sorted l o)) as H. revert H. induction (poss l o) as [|p [|q t] IH]; intros H; [exact I|exact I|].
  split; [apply (H [] p q t); reflexivity|]. apply IH. intros a p' q' b E. apply (H (p :: a) p' q' b). cbn [app]. f_equal. exact E.
Qed.
Lemma sets_sorted : forall l, StronglySorted N.lt (map (fun e : nalu * N * N => snd (fst e)) l) -> StronglySorted N.lt (map fst (sets_of l)).
Proof.
  induction l as [|[[u off] len] l IH]; intros S; [constructor|]. cbn [map fst snd] in S. inversion S as [|? ? S1 F]; subst.
  assert (B : Forall (N.lt off) (map fst (sets_of l))).
  { apply Forall_forall. intros o I. apply in_map_iff in I. destruct I as ([o' s] & <- & I). cbn [fst].
    apply in_flat_map in I. destruct I as ([[v off'] len'] & I1 & I2). rewrite Forall_forall in F.
    assert (o' = off').
    { unfold set_of in I2. destruct (_ =? 7); [|destruct I2]. destruct (pl_sps _) as [s0|]; [|destruct I2].
      destruct (sps_read s0); [|destruct I2]. destruct I2 as [I2|[]]. congruence. }
    subst. apply F, in_map_iff. exists (v, off', len'). auto. }
  cbn [sets_of flat_map]. fold (sets_of l). unfold set_of. destruct (_ =? 7); [|apply IH, S1].
  destruct (pl_sps _) as [s0|]; [|apply IH, S1]. destruct (sps_read s0); [|apply IH, S1]. cbn [app map fst]. constructor; auto.
Qed.
Lemma changes_sorted : forall sets current, StronglySorted N.lt (map fst sets) -> StronglySorted N.lt (changes current sets).
Proof.
  induction sets as [|[o s] t IH]; intros current S; [constructor|]. cbn [map fst] in S. inversion S as [|? ? S1 F]; subst.
  cbn [changes]. destruct current as [c|]; [destruct (same_size s c)|]; auto. constructor; auto.
  apply Forall_forall. intros x I. destruct (changes_in _ _ _ I) as (s' & I'). rewrite Forall_forall in F. apply F.
  apply in_map_iff. exists (x, s'). auto.
Qed.
Lemma sets_in : forall l o s, In (o, s) (sets_of l) -> exists u len, In (u, o, len) l.
Proof.
  intros l o s I. apply in_flat_map in I. destruct I as ([[u off] len] & I1 & I2). exists u, len.
  unfold set_of in I2. destruct (_ =? 7); [|destruct I2]. destruct (pl_sps _) as [s0|]; [|destruct I2].
  destruct (sps_read s0); [|destruct I2]. destruct I2 as [I2|[]]. congruence.
Qed.

(** The units are not empty if all are accepted. *)
Lemma kept_airy : forall data l, Forall2 (fun x (e : nalu * N * N) => snd (fst e) = ni_payload x /\ ni_size x <> 0) (indices data) l ->
  airy data.
Proof.
  intros data l F p q P Q PQ.
  assert (IP : In p (poss data 0)) by (apply poss_in; rewrite N.sub_0_r; split; [lia|exact P]).
  assert (IQ : In q (poss data 0)) by (apply poss_in; rewrite N.sub_0_r; split; [lia|exact Q]).
  assert (NZ : Forall (fun x => ni_size x <> 0) (indices data)).
  { clear - F. induction F as [|x e ix l [_ N] F IH]; constructor; auto. }
  unfold indices in NZ. apply in_split in IP. destruct IP as (pa & pb & E).
  pose proof (poss_increasing data 0) as INC. rewrite E in *.
  assert (QB : In q pb).
  { apply in_app_or in IQ. destruct IQ as [IQ|[->|IQ]]; [|lia|exact IQ]. exfalso.
    apply sorted_increasing in INC. clear - INC IQ PQ. induction pa as [|x pa IH]; [destruct IQ|].
    cbn [app] in INC. inversion INC as [|? ? S F]; subst. destruct IQ as [->|IQ]; [|auto].
    rewrite Forall_forall in F. assert (q < p) by (apply F, in_or_app; right; left; reflexivity). lia. }
  destruct pb as [|r pb]; [destruct QB|].
  assert (SR : sc_at data r = true).
  { assert (I : In r (poss data 0)) by (rewrite E; apply in_or_app; right; right; left; reflexivity).
    apply poss_in in I. rewrite N.sub_0_r in I. apply I. }
  rewrite index_list_app in NZ. apply Forall_app in NZ. destruct NZ as [_ NZ].
  cbn [index_list] in NZ. apply Forall_cons_iff in NZ. destruct NZ as [NZ _]. cbn [ni_size] in NZ.
  destruct QB as [->|QB]; [lia|].
  assert (R : r < q).
  { apply sorted_increasing in INC. clear - INC QB. induction pa as [|x pa IH].
    - cbn [app] in INC. inversion INC as [|? ? S _]; subst. inversion S as [|? ? _ F]; subst. rewrite Forall_forall in F. apply F, QB.
    - apply IH. cbn [app] in INC. inversion INC; assumption. }
  pose proof (sc_gap data r q SR Q R). pose proof (start_of_le data r). lia.
Qed.

(** What the script does with a file for which the tool ends with status 0 *)
Section accepted.
  Context (data : list N) (l : list (nalu * N * N)).
  Context (SZ : size_of data < 2 ^ 64).
  Context (ALL : Forall2 (fun x (e : nalu * N * N) => snd (fst e) = ni_payload x /\ ni_size x <> 0) (indices data) l).
  Let sets := sets_of l.
  Let qs := map (fun o => o - 3) (changes None sets).
  Let points := map (find_start_code_offset data) (changes None sets).
  Lemma set_place : forall o s, In (o, s) sets -> exists q, o = q + 3 /\ sc_at data q = true.
  Proof.
    intros o s I. apply sets_in in I. destruct I as (u & len & I).
    assert (X : exists x, In x (indices data) /\ o = ni_payload x).
    { clear - ALL I. induction ALL as [|x e ix l' [E _] F IH]; [destruct I|]. destruct I as [->|I].
      - exists x. split; [left; reflexivity|exact E].
      - destruct (IH F I) as (y & Y1 & Y2). exists y. split; [right; exact Y1|exact Y2]. }
    destruct X as (x & IX & ->). apply index_list_in in IX. destruct IX as (p & IP & _ & EP). exists p. split; [exact EP|].
    apply poss_in in IP. rewrite N.sub_0_r in IP. apply IP.
  Qed.
  Lemma change_place : forall o, In o (changes None sets) -> o = o - 3 + 3 /\ sc_at data (o - 3) = true.
  Proof.
    intros o I. destruct (changes_in _ _ _ I) as (s & I'). destruct (set_place o s I') as (q & -> & S).
    replace (q + 3 - 3) with q by lia. split; [lia|exact S].
  Qed.
  Lemma points_eq : points = map (start_of data) qs.
  Proof.
    unfold points, qs. rewrite map_map. apply map_ext_in. intros o I. destruct (change_place o I) as [E S].
    rewrite E at 1. apply code_offset, S.
  Qed.
  Lemma data_airy : airy data.
  Proof. eapply kept_airy, ALL. Qed.
  Lemma offsets_sorted : StronglySorted N.lt (map fst sets).
  Proof.
    apply sets_sorted. replace (map _ l) with (map ni_payload (indices data)).
    - unfold indices. rewrite index_list_payloads. pose proof (poss_increasing data 0) as H. apply sorted_increasing in H.
      induction H as [|p ps S IH F]; cbn [map]; constructor; auto. apply Forall_map. eapply Forall_impl; [|exact F]. cbv beta. intros. lia.
    - clear - ALL. induction ALL as [|x e ix l' [E _] F IH]; cbn [map]; [reflexivity|]. rewrite E, (IH F). reflexivity.
  Qed.
  Lemma qs_placed : placed data 0 qs.
  Proof.
    split.
    - apply Forall_map, Forall_forall. intros o I. destruct (change_place o I) as [_ S]. split; [exact S|lia].
    - apply sorted_increasing. pose proof (changes_sorted sets None offsets_sorted) as H. unfold qs.
      assert (G : forall o, In o (changes None sets) -> 3 <= o) by (intros o I; destruct (change_place o I); lia).
      revert G. induction H as [|o os S IH F]; intros G; cbn [map]; constructor.
      + apply IH. intros; apply G; right; auto.
      + apply Forall_map. rewrite Forall_forall in *. intros x I. pose proof (F x I). pose proof (G o (or_introl eq_refl)). lia.
  Qed.
  Lemma points_placed : increasing points /\ Forall (fun c => 0 <= c <= size_of data) points.
  Proof.
    rewrite points_eq. pose proof qs_placed as [F I]. split.
    - apply sorted_increasing. apply sorted_increasing in I. induction I as [|q t S IH G]; cbn [map]; constructor.
      + apply IH. inversion F; assumption.
      + apply Forall_map. apply Forall_cons_iff in F. destruct F as [[SQ _] F]. rewrite Forall_forall in *. intros r IR.
        destruct (F r IR) as [SR _]. pose proof (data_airy q r SQ SR (G r IR)). pose proof (start_of_le data q). lia.
    - apply Forall_map. eapply Forall_impl; [|exact F]. intros q [S _]. apply sc_room in S. pose proof (start_of_le data q).
      unfold size_of. lia.
  Qed.
  Lemma acc_concat : List.concat (segments 0 points data) = data.
  Proof. destruct points_placed as [I F]. rewrite segs_concat; auto. lia. Qed.
  Lemma acc_units : flat_map units (segments 0 points data) = units data.
  Proof. rewrite points_eq. rewrite segs_units; [reflexivity|exact SZ|exact data_airy|lia|exact qs_placed]. Qed.
  Lemma acc_changes : cut_at_changes sets (segments 0 points data).
  Proof.
    intros pre o1 s1 o2 s2 post E. destruct points_placed as [I F].
    assert (P1 : exists q, o1 = q + 3 /\ sc_at data q = true) by (apply (set_place o1 s1); rewrite E; apply in_or_app; right; left; reflexivity).
    assert (P2 : exists q, o2 = q + 3 /\ sc_at data q = true) by (apply (set_place o2 s2); rewrite E; apply in_or_app; right; right; left; reflexivity).
    destruct P1 as (q1 & E1 & S1), P2 as (q2 & E2 & S2). pose proof (sc_room _ _ S1) as R1. pose proof (sc_room _ _ S2) as R2.
    pose proof offsets_sorted as SO. rewrite E in SO. rewrite map_app in SO. cbn [map fst] in SO.
    assert (B : forall o, In o (map fst pre) -> o < o1).
    { clear - SO. induction pre as [|[o s] pre IH]; intros x []; cbn [map app fst] in *; inversion SO as [|? ? S F]; subst.
      - rewrite Forall_forall in F. apply F, in_or_app. right. left. reflexivity.
      - apply IH; auto. }
    assert (T : StronglySorted N.lt (o1 :: o2 :: map fst post)).
    { clear - SO. induction pre as [|[o s] pre IH]; cbn [map app fst] in *; [exact SO|]. apply IH. inversion SO; assumption. }
    inversion T as [|? ? T1 T2]; subst o1. apply Forall_cons_iff in T2. destruct T2 as [L12 _]. inversion T1 as [|? ? _ T3]; subst. clear T T1 SO.
    pose proof (segs_file points data 0 (q1 + 3) I F ltac:(unfold size_of; lia)) as F1.
    pose proof (segs_file points data 0 (q2 + 3) I F ltac:(unfold size_of; lia)) as F2.
    rewrite N.sub_0_r in F1, F2. rewrite F1, F2. rewrite points_eq. unfold qs. rewrite map_map, E, changes_app, map_app, !upto_app.
    pose proof data_airy as AIR. pose proof (AIR q1 q2 S1 S2 ltac:(lia)) as G12. pose proof (start_of_le data q2) as LE2.
    assert (A : forall o, q1 + 3 <= o -> upto (map (fun o => start_of data (o - 3)) (changes None (pre ++ [(q1 + 3, s1)]))) o =
      List.length (changes None (pre ++ [(q1 + 3, s1)]))).
    { intros o HO. rewrite upto_all, map_length; [reflexivity|]. apply Forall_map, Forall_forall. intros x IX.
      apply changes_in in IX. destruct IX as (sx & IX). pose proof (start_of_le data (x - 3)).
      assert (x <= q1 + 3); [|lia]. apply in_app_or in IX. destruct IX as [IX|[IX|[]]]; [|injection IX as <- _; lia].
      assert (x < q1 + 3); [|lia]. apply B, in_map_iff. exists (x, sx). auto. }
    rewrite !A by lia.
    assert (C : forall o, q1 + 3 <= o -> o <= q2 + 3 -> upto (map (fun o => start_of data (o - 3)) (changes (Some s2) post)) o = 0%nat).
    { intros o _ HO. apply upto_none, Forall_map, Forall_forall. intros x IX. apply changes_in in IX. destruct IX as (sx & IX).
      assert (X : exists q, x = q + 3 /\ sc_at data q = true).
      { apply (set_place x sx). rewrite E. apply in_or_app. right. right. right. exact IX. }
      destruct X as (qx & -> & SX). rewrite Forall_forall in T3.
      assert (L : q2 + 3 < qx + 3) by (apply T3, in_map_iff; exists (qx + 3, sx); auto).
      replace (qx + 3 - 3) with qx by lia. pose proof (AIR q2 qx S2 SX ltac:(lia)). lia. }
    cbn [changes]. unfold step.
    replace ((fst s1 =? fst s2) && (snd s1 =? snd s2)) with (same_size s2 s1) by (unfold same_size; lia).
    destruct (same_size s2 s1); [rewrite !C by lia; lia|].
    cbn [map].
    change (start_of data (q2 + 3 - 3) :: ?t) with ([start_of data (q2 + 3 - 3)] ++ t). rewrite !upto_app, !C by lia.
    replace (q2 + 3 - 3) with q2 by lia. unfold upto. cbn [filter]. replace (start_of data q2 <=? q2 + 3) with true by lia.
    replace (start_of data q2 <=? q1 + 3) with false by lia. cbn [List.length]. lia.
  Qed.
  Lemma acc_starts : starts_with_set sets (segments 0 points data).
  Proof.
    intros before f aft E NB. destruct points_placed as [I F].
    destruct (segs_starts points data 0 before f aft I F ltac:(lia) E NB) as (c & rest & C1 & C2 & C3 & C4).
    rewrite N.add_0_l in C2. unfold points in C1. apply in_map_iff in C1. destruct C1 as (o & EO & IO).
    destruct (change_place o IO) as [O3 S]. destruct (changes_in _ _ _ IO) as (s & IS). set (q := o - 3) in *.
    assert (EC : c = start_of data q) by (rewrite <- EO, O3; apply code_offset, S).
    pose proof (sc_room _ _ S) as RM. pose proof (start_of_le data q) as LE.
    assert (SF : q - c + 4 <= size_of f).
    { rewrite C4. destruct (filter (fun d => c <? d) points) as [|d t] eqn:FL; cbn [hd_error]; [unfold size_of; lia|].
      assert (ID : In d (filter (fun d => c <? d) points)) by (rewrite FL; left; reflexivity).
      apply filter_In in ID. destruct ID as [ID LD]. unfold points in ID. apply in_map_iff in ID. destruct ID as (o' & EO' & IO').
      destruct (change_place o' IO') as [O3' S']. set (q' := o' - 3) in *.
      assert (ED : d = start_of data q') by (rewrite <- EO', O3'; apply code_offset, S').
      assert (QQ : q < q').
      { destruct (N.lt_trichotomy q q') as [H|[H|H]]; [exact H| |].
        - rewrite <- H in ED. lia.
        - pose proof (data_airy q' q S' S H). pose proof (start_of_le data q'). lia. }
      pose proof (data_airy q q' S S' QQ). lia. }
    destruct (cut_split data q (airy_cut _ _ data_airy S)) as (a & b & ED & SA & K).
    assert (EB : b = f ++ rest).
    { rewrite <- C3, ED, EC, <- SA. unfold size_of. rewrite Nat2N.id, skipn_app, skipn_all, Nat.sub_diag. reflexivity. }
    destruct K as [[K Q]|[K Q]].
    - remember (skipn 3 b) as b3. clear Heqb3. rewrite K in EB.
      destruct f as [|x0 [|x1 [|x2 f']]]; try (exfalso; unfold size_of in SF; cbn in SF; lia).
      cbn [app] in EB. injection EB as <- <- <- EB. exists [0; 0; 1], f', o, s. split; [reflexivity|]. split; [left; reflexivity|].
      split; [intros ->; unfold size_of in SF; cbn in SF; lia|]. split; [exact IS|]. unfold size_of in *. cbn [List.length]. lia.
    - remember (skipn 4 b) as b4. clear Heqb4. rewrite K in EB.
      destruct f as [|x0 [|x1 [|x2 [|x3 f']]]]; try (exfalso; unfold size_of in SF; cbn in SF; lia).
      cbn [app] in EB. injection EB as <- <- <- <- EB. exists [0; 0; 0; 1], f', o, s. split; [reflexivity|]. split; [right; reflexivity|].
      split; [intros ->; unfold size_of in SF; cbn in SF; lia|]. split; [exact IS|]. unfold size_of in *. cbn [List.length]. lia.
  Qed.
End accepted.

(** ** The script *)
(** The files that the script writes: their concatenation is the input; their NAL units are those
    of the input; neighbouring parameter sets are in the same file exactly if they have the same
    numbers; and each file but the first starts with the start code of a parameter set. *)
Definition right_files (data : list N) (sets : list (N * size)) (files : list (list N)) : Prop :=
  List.concat files = data /\
  (exists ix ixs, FindNaluIndices data (size_of data) = Ok ix /\
     Forall2 (fun f i => FindNaluIndices f (size_of f) = Ok i) files ixs /\
     map (unit_at data) ix = List.concat (map (fun p => map (unit_at (fst p)) (snd p)) (combine files ixs))) /\
  cut_at_changes sets files /\ starts_with_set sets files.
Lemma files_indices : forall files, Forall (fun f => size_of f < 2 ^ 64) files ->
  exists ixs, Forall2 (fun f i => FindNaluIndices f (size_of f) = Ok i) files ixs /\
    List.concat (map (fun p => map (unit_at (fst p)) (snd p)) (combine files ixs)) = flat_map units files.
Proof.
  intros files F. induction F as [|f files L F (ixs & F2 & E)]; [exists []; split; [constructor|reflexivity]|].
  exists (indices f :: ixs). split; [constructor; [apply indices_spec, L|exact F2]|].
  cbn [combine map List.concat flat_map fst snd]. rewrite E. reflexivity.
Qed.
Theorem C70_script : forall a input data, fits a data ->
  exists l w r e, ParseBitstream a false data (size_of data) (mkw new_state 0) = (Ok l, w) /\
    tool a (tool_options (split_args input)) data = Ok ([], e) /\
    split_script a input data = Ok r /\
    (r = SplitFailed <-> e <> 0) /\
    (r = SplitNothing -> no_change (sets_of l)) /\
    (forall files, r = SplitInto files -> (2 <= List.length files)%nat /\ ~ no_change (sets_of l) /\
       right_files data (sets_of l) files).
Proof.
  intros a input data F. destruct (C70_reads a input data F) as (l & w & text & e & P & RUN & R & _).
  pose proof (split_sane input data) as SN.
  destruct (C61_dump_all a (split_args input) data F SN eq_refl) as (l' & w' & ts & e' & P' & T & RUN' & _ & _).
  change (tool_parse a (tool_options (split_args input)) data) with
    (ParseBitstream a false data (size_of data) (mkw new_state 0)) in P'.
  rewrite P in P'. injection P' as <- <-. rewrite RUN in RUN'. injection RUN' as _ <-.
  exists l, w. unfold split_script. rewrite split_args_eq, RUN. cbn [rbind]. unfold split_main. cbn [fst snd].
  destruct (N.eqb_spec e 0) as [E0|E0].
  2: { exists SplitFailed, e. repeat (split; [assumption || reflexivity|]). split; [tauto|]. split; [discriminate|]. discriminate. }
  subst e. rewrite (split_points data l _ None R). cbn [rbind].
  match goal with |- context [map (find_start_code_offset data) ?c] => remember c as chs eqn:CH end. change (chs = changes None (sets_of l)) in CH.
  destruct (annexb_run a (tool_options (split_args input)) data F (proj2 SN) ltac:(reflexivity)) as (ix & l' & w' & EI & P' & RU & _ & U).
  change (tool_parse a (tool_options (split_args input)) data) with
    (ParseBitstream a false data (size_of data) (mkw new_state 0)) in P'.
  rewrite P in P'. injection P' as <- <-.
  assert (SZ : size_of data < 2 ^ 64) by (destruct F as (_ & F & _); unfold size_of; lia).
  rewrite indices_spec in EI by exact SZ. injection EI as <-.
  assert (LEN : List.length l = List.length (found_units data (indices data))).
  { unfold tool in T. change (tool_parse a (tool_options (split_args input)) data) with
      (ParseBitstream a false data (size_of data) (mkw new_state 0)) in T. rewrite P in T.
    change (opt_dump_length (tool_options (split_args input))) with false in T. cbn [rbind] in T. rewrite U in T. cbn [rbind] in T.
    injection T as T. unfold exit_status in T. destruct (0 <? w_unimplemented w); [discriminate|].
    destruct (N.ltb_spec 0 (N.of_nat (List.length (indices data)) - N.of_nat (List.length l) + n_unparsed l)) as [X|X]; [discriminate|].
    pose proof (runs_kept_le _ _ _ _ _ _ _ RU) as LE. unfold found_units in *. rewrite map_length in *. lia. }
  pose proof (all_kept _ _ _ _ _ _ _ RU LEN) as AK.
  assert (ALL : Forall2 (fun x (e : nalu * N * N) => snd (fst e) = ni_payload x /\ ni_size x <> 0) (indices data) l).
  { unfold found_units in AK. clear - AK. remember (indices data) as ixs. clear Heqixs. revert l AK.
    induction ixs as [|x ixs IH]; intros l AK; cbn [map] in AK; inversion AK as [|? ? ? l2 (E1 & E2 & s1 & s2 & EP) AK2]; subst; constructor.
    - cbn [fst snd] in *. split; [exact E1|]. intros Z. rewrite Z in EP. unfold SpecFraming.slice in EP. cbn [N.to_nat firstn] in EP.
      exact (empty_unit _ _ _ _ _ EP).
    - apply IH. exact AK2. }
  symmetry in CH. destruct chs as [|o os].
  - exists SplitNothing, 0. repeat (split; [assumption || reflexivity|]). split; [split; [discriminate|congruence]|]. split; [|discriminate].
    intros _. unfold no_change. destruct (sets_of l) as [|[o0 s0] t]; [intros ? ? ? ? []|]. cbn [changes] in CH. apply changes_none in CH.
    assert (ONE : forall o s, In (o, s) ((o0, s0) :: t) -> s = s0).
    { intros o s [H|H]; [congruence|]. rewrite Forall_forall in CH. exact (CH _ H). }
    intros o1 s1 o2 s2 H1 H2. rewrite (ONE _ _ H1), (ONE _ _ H2). reflexivity.
  - set (files := segments 0 (map (find_start_code_offset data) (o :: os)) data).
    exists (SplitInto files), 0. cbn [map]. repeat (split; [assumption || reflexivity|]). split; [split; [discriminate|congruence]|].
    split; [discriminate|]. intros fs EF. injection EF as <-.
    assert (FE : files = segments 0 (map (find_start_code_offset data) (changes None (sets_of l))) data) by (rewrite CH; reflexivity).
    split. { unfold files. cbn [map segments List.length]. destruct (map (find_start_code_offset data) os); cbn [segments List.length]; lia. }
    split.
    { intros NC. assert (X : forall sets s, (forall o1 s1, In (o1, s1) sets -> s1 = s) -> changes (Some s) sets = []).
      { induction sets as [|[o1 s1] t IH]; intros s H; [reflexivity|]. cbn [changes]. rewrite (H o1 s1 (or_introl eq_refl)).
        replace (same_size s s) with true by (symmetry; apply same_size_step; reflexivity). apply IH. intros; eapply H; right; eauto. }
      unfold no_change in NC. destruct (sets_of l) as [|[o0 s0] t]; [discriminate|]. cbn [changes] in CH. rewrite X in CH; [discriminate|].
      intros o1 s1 I1. eapply NC; [right; exact I1|left; reflexivity]. }
    rewrite FE. split; [apply acc_concat; assumption|]. split; [|split; [apply acc_changes; assumption|apply acc_starts; assumption]].
    assert (CC : List.concat (segments 0 (map (find_start_code_offset data) (changes None (sets_of l))) data) = data) by (apply acc_concat; assumption).
    set (fs := segments 0 (map (find_start_code_offset data) (changes None (sets_of l))) data) in *.
    destruct (files_indices fs) as (ixs & I1 & I2).
    { clear - CC SZ. rewrite <- CC in SZ. clear CC. clearbody fs. induction fs as [|f fs IH]; [constructor|]. cbn [List.concat] in SZ. unfold size_of in *.
      rewrite app_length in SZ. constructor; [lia|]. apply IH. lia. }
    exists (indices data), ixs. split; [apply indices_spec, SZ|]. split; [exact I1|]. rewrite I2. unfold fs. rewrite acc_units by assumption. reflexivity.
Qed.

(** ** The size of the pictures *)
(** The parameter sets with the cropped size of the pictures in luma samples *)
Definition pictures_of (l : list (nalu * N * N)) : list (N * size) :=
  flat_map (fun e : nalu * N * N =>
    if nal_unit_type (nu_header (fst (fst e))) =? 7 then
      match pl_sps (nu_payload (fst (fst e))) with
      | Some s => [(snd (fst e), (coded_width s - crop_width s, coded_height s - crop_height s))]
      | None => []
      end
    else []) l.
(** No parameter set gives the sample aspect ratio by two numbers (Extended_SAR). *)
Definition no_extended_sar (l : list (nalu * N * N)) : Prop :=
  Forall (fun e : nalu * N * N => forall s v, pl_sps (nu_payload (fst (fst e))) = Some s -> vui_parameters s = Some v ->
    aspect_ratio_info_present_flag v = 0 \/ aspect_ratio_idc v <> 255) l.
(** Without that, files are cut where the size of the pictures changes. *)
Theorem C70_pictures : forall a input data l w, fits a data ->
  ParseBitstream a false data (size_of data) (mkw new_state 0) = (Ok l, w) -> no_extended_sar l ->
  (split_script a input data = Ok SplitNothing -> no_change (pictures_of l)) /\
  (forall files, split_script a input data = Ok (SplitInto files) ->
     ~ no_change (pictures_of l) /\ right_files data (pictures_of l) files).
Proof.
  intros a input data l w F P NE. destruct (C70_script a input data F) as (l' & w' & r & e & P' & _ & E & _ & R1 & R2).
  destruct (C70_reads a input data F) as (l2 & w2 & text & e2 & P2 & _ & _ & R3).
  rewrite P in P', P2. injection P' as <- <-. injection P2 as <- <-. rewrite E.
  assert (EQ : sets_of l = pictures_of l).
  { clear - NE R3. unfold sets_of, pictures_of. induction NE as [|[[u off] len] l N1 NE IH]; [reflexivity|]. cbn [flat_map fst snd] in *.
    rewrite IH by (intros; eapply R3; [right; eauto|auto|auto]). f_equal. unfold set_of.
    destruct (N.eqb_spec (nal_unit_type (nu_header u)) 7) as [T|T]; [|reflexivity].
    destruct (pl_sps (nu_payload u)) as [s|] eqn:S; [|reflexivity].
    rewrite (R3 u off len s (or_introl eq_refl) T S). replace (extended_sar s) with (@None (N * N)); [reflexivity|].
    unfold extended_sar. destruct (negb (vui_parameters_present_flag s =? 0)); [|reflexivity].
    destruct (vui_parameters s) as [v|] eqn:V; [|reflexivity]. destruct (N1 s v eq_refl V) as [Z|Z].
    - rewrite Z. reflexivity.
    - replace (aspect_ratio_idc v =? 255) with false by lia. rewrite andb_false_r. reflexivity. }
  rewrite <- EQ. split.
  - intros H. injection H as ->. auto.
  - intros files H. injection H as ->. destruct (R2 files eq_refl) as (_ & H1 & H2). auto.
Qed.

(** A parameter set for pictures of (16 w) x (16 h) samples, with an aspect ratio *)
Definition ex_set (w h : N) (sar : option (N * N)) : list N :=
  ex_unit 103 (u_bits 8 66 ++ u_bits 8 0 ++ u_bits 8 30 ++ ue_bits 0 ++ ue_bits 0 ++ ue_bits 2 ++ ue_bits 1 ++ u_bits 1 0 ++
    ue_bits (w - 1) ++ ue_bits (h - 1) ++ u_bits 1 1 ++ u_bits 1 1 ++ u_bits 1 0 ++
    match sar with
    | Some (x, y) => u_bits 1 1 ++ u_bits 1 1 ++ u_bits 8 255 ++ u_bits 16 x ++ u_bits 16 y ++ u_bits 8 0
    | None => u_bits 1 0
    end).
Definition ex_switch : list N := annexb [(true, ex_set 20 15 None); (false, ex_set 20 15 None); (true, ex_set 40 30 None); (false, ex_set 40 30 None);
  (false, ex_set 20 15 None)].
Definition ex_same_size : list N := annexb [(true, ex_set 20 15 (Some (10, 11))); (false, ex_set 20 15 (Some (40, 33)))].
Definition ex_same_sar : list N := annexb [(true, ex_set 20 15 (Some (10, 11))); (false, ex_set 40 30 (Some (10, 11)))].
Definition parsed_units (data : list N) : list (nalu * N * N) :=
  match fst (ParseBitstream true false data (size_of data) (mkw new_state 0)) with Ok l => l | _ => [] end.
Example C70_ex : fits true ex_switch /\ split_script true "in.264" ex_switch = Ok (SplitInto
    [annexb [(true, ex_set 20 15 None); (false, ex_set 20 15 None)]; annexb [(true, ex_set 40 30 None); (false, ex_set 40 30 None)];
     annexb [(false, ex_set 20 15 None)]]) /\
  map snd (pictures_of (parsed_units ex_switch)) = [(320, 240); (320, 240); (640, 480); (640, 480); (320, 240)].
Proof. split; [fits_tac|]. split; vm_compute; reflexivity. Qed.

(** With an explicit aspect ratio the expression "width: (\d+)" finds sar_width, which is
    printed before the width: a file with one picture size is cut, and a file with two sizes is
    not. *)
Theorem C70_same_size_cut_refuted : exists data files l w, fits true data /\
  ParseBitstream true false data (size_of data) (mkw new_state 0) = (Ok l, w) /\ no_change (pictures_of l) /\
  split_script true "in.264" data = Ok (SplitInto files) /\ List.length files = 2%nat.
Proof.
  exists ex_same_size, [annexb [(true, ex_set 20 15 (Some (10, 11)))]; annexb [(false, ex_set 20 15 (Some (40, 33)))]].
  exists (parsed_units ex_same_size), (snd (ParseBitstream true false ex_same_size (size_of ex_same_size) (mkw new_state 0))).
  split; [fits_tac|]. split; [vm_compute; reflexivity|]. split; [|split; [vm_compute; reflexivity|reflexivity]].
  assert (E : pictures_of (parsed_units ex_same_size) = [(4, (320, 240)); (21, (320, 240))]) by (vm_compute; reflexivity).
  rewrite E. intros o1 s1 o2 s2 [H1|[H1|[]]] [H2|[H2|[]]]; congruence.
Qed.
Theorem C70_change_missed_refuted : exists data l w, fits true data /\
  ParseBitstream true false data (size_of data) (mkw new_state 0) = (Ok l, w) /\ ~ no_change (pictures_of l) /\
  split_script true "in.264" data = Ok SplitNothing.
Proof.
  exists ex_same_sar, (parsed_units ex_same_sar), (snd (ParseBitstream true false ex_same_sar (size_of ex_same_sar) (mkw new_state 0))).
  split; [fits_tac|]. split; [vm_compute; reflexivity|]. split; [|vm_compute; reflexivity].
  assert (E : map snd (pictures_of (parsed_units ex_same_sar)) = [(320, 240); (640, 480)]) by (vm_compute; reflexivity).
  destruct (pictures_of (parsed_units ex_same_sar)) as [|[o1 s1] [|[o2 s2] [|? ?]]]; try discriminate. cbn [map snd] in E. injection E as -> ->.
  intros NC. specialize (NC o1 _ o2 _ (or_introl eq_refl) (or_intror (or_introl eq_refl))). discriminate.
Qed.
Print Assumptions C70_reads.
Print Assumptions C70_script.
Print Assumptions C70_pictures.
Print Assumptions C70_same_size_cut_refuted.
Print Assumptions C70_change_missed_refuted.
