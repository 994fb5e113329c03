(** Parts of slice headers: safety, soundness, completeness. *)
From Coq Require Import NArith ZArith List Bool Lia ZifyBool ZifyNat ZifyN.
From Verif Require Import SpecBits Base BitBuffer SpecReader BitsLemmas BitBufferProofs ReaderProofs
  Parser SpecSyntax ParserProofs SpecVui VuiProofs PpsProofs NalHeaderProofs TypesSlice SliceParts SpecSliceParts.
Import ListNotations.
Open Scope N_scope.
Ltac Zify.zify_post_hook ::= Z.div_mod_to_equations.

(** Values that the parser reports through a function [val] of the syntax. *)
Definition sound_via {A E} (p : P A) (ok : E -> Prop) (enc : E -> list bool) (val : E -> A) : Prop :=
  forall b t b', bb_wf b -> p b = (Ok t, b') -> exists e, ok e /\ t = val e /\ reads b (enc e) b'.
Definition complete_via {A E} (p : P A) (ok : E -> Prop) (enc : E -> list bool) (val : E -> A) : Prop :=
  forall e, ok e -> parses p (enc e) (val e).

Lemma decodes_as_of : forall A E (p : P A) (ok : E -> Prop) enc (val : E -> A), good p ->
  sound_via p ok enc val -> complete_via p ok enc val -> decodes_as p ok enc val.
Proof.
  intros A E p ok enc val G S C b R. apply reachable_wf in R. split; [|split].
  - intros e rest O Er. destruct (parses_consumed _ _ _ _ b rest (C e O) R Er) as (b' & H & K & Q).
    eauto.
  - intros v b' H. destruct (S b v b' R H) as (e & O & -> & Rd). exists e.
    split; [auto|]. split; [auto|]. apply reads_consumed; auto.
  - specialize (G b R). destruct (p b) as [[v| |k| |] b']; try contradiction; eauto.
Qed.
Lemma rep_sound_via : forall A E (p : P A) ok enc (val : E -> A), sound_via p ok enc val ->
  forall n b ts b', bb_wf b -> rep n p b = (Ok ts, b') ->
  exists es, length es = n /\ Forall ok es /\ ts = map val es /\ reads b (flat_map enc es) b'.
Proof.
  intros A E p ok enc val S. induction n; intros b ts b' W H; cbn [rep] in H.
  - inv1. exists []. split; [auto|]. split; [auto|]. split; [auto|]. apply reads_refl; auto.
  - apply sbind_inv in H. destruct H as (t & b1 & H1 & H).
    apply sbind_inv in H. destruct H as (l & b2 & H2 & H). inv1.
    destruct (S b t b1 W H1) as (e & O & -> & R).
    destruct (IHn b1 l b2 (reads_wf _ _ _ R) H2) as (es & L & F & -> & R2).
    exists (e :: es). cbn [length map flat_map]. split; [lia|]. split; [auto|].
    split; [auto|]. eapply reads_app; eauto.
Qed.
Lemma rep_complete_via : forall A E (p : P A) ok enc (val : E -> A), complete_via p ok enc val ->
  forall es n, n = length es -> Forall ok es -> parses (rep n p) (flat_map enc es) (map val es).
Proof.
  intros A E p ok enc val C. induction es as [|e es IH]; intros n -> F; cbn [length rep flat_map map].
  - apply parses_ret.
  - inversion F; subst. eapply parses_bind; [apply C; auto|].
    eapply parses_bind1; [apply IH; auto|apply parses_ret].
Qed.

(** ** The do-while loop *)
Definition progress {A} (p : P A) : Prop := forall b v b', bb_wf b -> p b = (Ok v, b') ->
  (length (bb_rem b') < length (bb_rem b))%nat.
Lemma until_good : forall C (p : P C) stop, good p -> progress p -> good (until p stop).
Proof.
  intros C p stop G Pr b W. unfold until.
  rewrite RemainingBitCount_spec by auto.
  assert (X : forall n b, bb_wf b -> (length (bb_rem b) < n)%nat ->
    match until_fuel n p stop b with
    | (Ok _, b') | (Null, b') => exists m, (m <= length (bb_rem b))%nat /\ b' = bb_adv b m
    | _ => False
    end).
  { clear b W. induction n; intros b W L; [lia|]. cbn [until_fuel]. unfold sbind at 1.
    pose proof (G b W) as Gb. destruct (p b) as [[c| |k| |] b1] eqn:E; auto.
    destruct Gb as (m & Lm & ->).
    destruct (stop c).
    - cbn. eauto.
    - pose proof (Pr b c _ W E) as Lt.
      assert (W1 : bb_wf (bb_adv b m)) by (apply bb_adv_wf; auto).
      specialize (IHn (bb_adv b m) W1 ltac:(lia)). unfold sbind.
      destruct (until_fuel n p stop (bb_adv b m)) as [[l| |k| |] b2]; auto;
        destruct IHn as (m2 & L2 & ->); exists (m + m2)%nat; rewrite bb_adv_adv;
        rewrite bb_adv_rem, skipn_length in L2 by auto; (split; [lia|reflexivity]). }
  apply X; auto. lia.
Qed.
Lemma until_sound : forall C E (p : P C) (stop : C -> bool) (ok : E -> Prop) (enc : E -> list bool) val cend bend,
  (forall b t b', bb_wf b -> p b = (Ok t, b') ->
     if stop t then t = cend /\ reads b bend b'
     else exists e, ok e /\ t = val e /\ reads b (enc e) b') ->
  forall b ts b', bb_wf b -> until p stop b = (Ok ts, b') ->
  exists es, Forall ok es /\ ts = map val es ++ [cend] /\ reads b (flat_map enc es ++ bend) b'.
Proof.
  intros C E p stop ok enc val cend bend H b ts b' W. unfold until.
  generalize (S (N.to_nat (RemainingBitCount b))). intros n. revert b ts b' W.
  induction n; intros b ts b' W U; cbn [until_fuel] in U; [discriminate|].
  apply sbind_inv in U. destruct U as (t & b1 & H1 & U). specialize (H b t b1 W H1).
  destruct (stop t).
  - destruct H as [-> R]. inv1. exists []. cbn. auto.
  - destruct H as (e & O & -> & R). apply sbind_inv in U. destruct U as (l & b2 & H2 & U). inv1.
    destruct (IHn _ _ _ (reads_wf _ _ _ R) H2) as (es & F & -> & R2).
    exists (e :: es). cbn [flat_map map app]. split; [auto|]. split; [auto|].
    rewrite <- app_assoc. eapply reads_app; eauto.
Qed.
Lemma until_complete : forall C E (p : P C) (stop : C -> bool) (ok : E -> Prop) (enc : E -> list bool) val cend bend,
  (forall e, ok e -> parses p (enc e) (val e) /\ stop (val e) = false /\ enc e <> []) ->
  parses p bend cend -> stop cend = true ->
  forall es, Forall ok es -> parses (until p stop) (flat_map enc es ++ bend) (map val es ++ [cend]).
Proof.
  intros C E p stop ok enc val cend bend H Hb Hs es F b rest W Er. unfold until.
  rewrite RemainingBitCount_spec by auto.
  assert (L : (length es < S (N.to_nat (N.of_nat (length (bb_rem b)))))%nat).
  { rewrite Er, !app_length.
    assert (length es <= length (flat_map enc es))%nat; [|lia].
    clear - F H. induction F as [|e es O F IH]; cbn [flat_map length]; [lia|].
    rewrite app_length. destruct (H e O) as (_ & _ & N0). destruct (enc e); [congruence|].
    cbn [length]. lia. }
  revert L. generalize (S (N.to_nat (N.of_nat (length (bb_rem b))))). intros n.
  revert n b rest W Er. induction F as [|e es O F IH]; intros n b rest W Er L.
  - destruct n as [|n]; [cbn in L; lia|]. cbn [flat_map map app] in *. cbn [until_fuel].
    unfold sbind. rewrite (Hb b rest W Er), Hs. reflexivity.
  - destruct n as [|n]; [cbn in L; lia|]. cbn [flat_map map app] in *. cbn [until_fuel].
    destruct (H e O) as (Hp & Hs0 & _). rewrite <- !app_assoc in *.
    unfold sbind at 1. rewrite (Hp b _ W Er), Hs0.
    destruct (reads_split b (enc e) _ W Er) as [R Er2].
    rewrite app_assoc in Er2.
    unfold sbind. rewrite (IH n _ rest (reads_wf _ _ _ R) Er2) by (cbn in L; lia).
    cbn [sret]. rewrite bb_adv_adv, !app_length. reflexivity.
Qed.

(** ** Vector elements pushed in a conditional *)
Definition pushed_ok (c : bool) (l : list N) : Prop :=
  if c then exists x, l = [x] /\ is_ue x else l = [].
Lemma pushed_good : forall A c (p : P A), good p -> good (pushed c p).
Proof. intros. unfold pushed. good_tac. Qed.
#[export] Hint Resolve pushed_good : good.
Lemma pushed_ue_sound : forall c, sound (pushed c ReadExponentialGolomb) (pushed_ok c) (flat_map ue_bits).
Proof.
  intros c b v b' W H. unfold pushed, pushed_ok in *. destruct c; cbn [cond] in H.
  - inv. cbn [flat_map]. rewrite app_nil_r. split; [|fin]. eexists. split; [reflexivity|].
    unfold is_ue. lia.
  - inv. split; auto. apply reads_refl; auto.
Qed.
#[export] Hint Resolve pushed_ue_sound : snd.
Lemma pushed_some : forall x (c : bool), c = true -> is_ue x -> parses (pushed c ReadExponentialGolomb) (ue_bits x) [x].
Proof. intros x c -> H. unfold pushed. cbn [cond]. walk. Qed.
Lemma pushed_none : forall A (p : P A) (c : bool), c = false -> parses (pushed c p) [] [].
Proof. intros A p c ->. unfold pushed. cbn [cond]. apply parses_ret. Qed.

(** ** ref_pic_list_modification() *)
Lemma mod_round_good : good mod_round.
Proof. unfold mod_round. good_tac. Qed.
#[export] Hint Resolve mod_round_good : good.
Definition rpl_val (c : rpl_cmd) : N * list N * list N := (rpl_idc c, rpl_abs c, rpl_long c).
Ltac push_cases :=
  repeat match goal with
  | H : exists _, _ = [_] /\ _ |- _ => destruct H as (? & -> & ?)
  | H : _ = [] |- _ => subst
  end.
Lemma mod_round_sound : forall b t b', bb_wf b -> mod_round b = (Ok t, b') ->
  if (fun '(idc, _, _) => idc =? 3) t then t = (3, [], []) /\ reads b (ue_bits 3) b'
  else exists e, rpl_ok e /\ t = rpl_val e /\ reads b (enc_rpl_cmd e) b'.
Proof.
  intros b t b' W H. unfold mod_round in H. inv. conj. unfold pushed_ok in *.
  match goal with R1 : reads b ?c1 ?b1, R2 : reads ?b1 ?c2 ?b2, R3 : reads ?b2 ?c3 ?b3 |- _ =>
    pose proof (reads_app _ _ _ _ _ R1 (reads_app _ _ _ _ _ R2 R3)) as R; clear R1 R2 R3 end.
  assert (C : x = 0 \/ x = 1 \/ x = 2 \/ x = 3) by lia.
  destruct C as [-> | [-> | [-> | ->]]]; cbn [N.eqb Pos.eqb negb andb orb] in *; push_cases;
    cbn [flat_map] in R; rewrite ?app_nil_r in R; cbn [app] in R.
  - exists (SubPicNum x). auto.
  - exists (AddPicNum x). auto.
  - exists (LongTermPic x). auto.
  - auto.
Qed.
Lemma mod_round_parses : forall e, rpl_ok e ->
  parses mod_round (enc_rpl_cmd e) (rpl_val e) /\
  (fun '(idc, _, _) => idc =? 3) (rpl_val e) = false /\ enc_rpl_cmd e <> [].
Proof.
  intros e O. unfold rpl_ok in O. split; [|split].
  - unfold mod_round, enc_rpl_cmd. destruct e; cbn [rpl_idc rpl_arg rpl_val rpl_abs rpl_long] in *;
      (eapply parses_bind; [apply parses_ue_max; lia|]).
    + eapply parses_bind1; [apply pushed_some; auto|].
      eapply parses_bind0; [apply pushed_none; auto|]. apply parses_ret.
    + eapply parses_bind1; [apply pushed_some; auto|].
      eapply parses_bind0; [apply pushed_none; auto|]. apply parses_ret.
    + eapply parses_bind0; [apply pushed_none; auto|].
      eapply parses_bind1; [apply pushed_some; auto|]. apply parses_ret.
  - destruct e; reflexivity.
  - destruct e; unfold enc_rpl_cmd; discriminate.
Qed.
Lemma mod_end_parses : parses mod_round (ue_bits 3) (3, [], []).
Proof.
  unfold mod_round. eapply parses_bind1; [apply parses_ue_max; lia|].
  eapply parses_bind0; [apply pushed_none; auto|].
  eapply parses_bind0; [apply pushed_none; auto|]. apply parses_ret.
Qed.
Lemma ue_bits_nonempty : forall v, (0 < length (ue_bits v))%nat.
Proof.
  intros v. unfold ue_bits. rewrite app_length, nbits_length. lia.
Qed.
Lemma reads_shorter : forall b c b', reads b c b' -> (0 < length c)%nat ->
  (length (bb_rem b') < length (bb_rem b))%nat.
Proof. intros b c b' (W & E & _) L. rewrite E, app_length. lia. Qed.
Lemma mod_progress : progress mod_round.
Proof.
  intros b v b' W H. unfold mod_round in H. inv. conj.
  match goal with R1 : reads b ?c1 ?b1, R2 : reads ?b1 ?c2 ?b2, R3 : reads ?b2 ?c3 ?b3 |- _ =>
    pose proof (reads_app _ _ _ _ _ R1 (reads_app _ _ _ _ _ R2 R3)) as R end.
  eapply reads_shorter; [exact R|]. rewrite app_length. pose proof (ue_bits_nonempty x). lia.
Qed.
Lemma mod_loop_good : good mod_loop.
Proof. apply until_good; [apply mod_round_good|apply mod_progress]. Qed.
#[export] Hint Resolve mod_loop_good : good.
Lemma mod_loop_sound : forall b m b', bb_wf b -> mod_loop b = (Ok m, b') ->
  exists cs, Forall rpl_ok cs /\ m = map rpl_val cs ++ [(3, [], [])] /\ reads b (enc_rpl cs) b'.
Proof.
  intros b m b' W H. exact (until_sound _ _ _ _ _ _ _ _ _ mod_round_sound b m b' W H).
Qed.
Lemma mod_loop_parses : forall cs, Forall rpl_ok cs ->
  parses mod_loop (enc_rpl cs) (map rpl_val cs ++ [(3, [], [])]).
Proof.
  intros cs F. apply (until_complete _ _ _ _ rpl_ok); auto.
  - exact mod_round_parses.
  - exact mod_end_parses.
Qed.

(** One list: flag and commands. *)
Definition mod_list : P (N * list (N * list N * list N)) :=
  (f <- ReadBits 1 ;; m <- cond (tob f) mod_loop [] ;; sret (f, m))%m.
Definition mods (cs : option (list rpl_cmd)) :=
  match cs with Some l => map rpl_val l ++ [(3, [], [])] | None => [] end.
Lemma mod_list_good : good mod_list.
Proof. unfold mod_list. good_tac. Qed.
#[export] Hint Resolve mod_list_good : good.
Lemma mod_list_sound : forall c b f m b', bb_wf b -> cond c mod_list (0, []) b = (Ok (f, m), b') ->
  exists cs, valid_cmds rpl_ok c cs /\ f = flag_of cs /\ m = mods cs /\
    reads b (if c then enc_rpl_list cs else []) b'.
Proof.
  intros c b f m b' W H. unfold mod_list in H. destruct c; cbn [cond] in H.
  - apply sbind_inv in H. destruct H as (g & b1 & H1 & H).
    apply ReadBits_sound in H1; auto. destruct H1 as [[_ Lg] R1].
    apply sbind_inv in H. destruct H as (l & b2 & H2 & H).
    apply sret_inv in H. destruct H as [E ->]. injection E as -> ->.
    assert (C : g = 0 \/ g = 1) by lia. destruct C as [-> | ->]; cbn [tob cond N.eqb Pos.eqb negb] in H2.
    + apply sret_inv in H2. destruct H2 as [-> ->]. exists None. cbn. auto.
    + apply mod_loop_sound in H2; [|eapply reads_wf; eauto]. destruct H2 as (cs & F & -> & R).
      exists (Some cs). unfold enc_rpl_list. cbn. split; [auto|]. split; [auto|]. split; [auto|].
      eapply reads_app; eauto.
  - inv. pairinv. exists None. cbn. split; [auto|]. split; [auto|]. split; [auto|]. apply reads_refl; auto.
Qed.
Lemma mod_list_complete : forall c cs, valid_cmds rpl_ok c cs ->
  parses (cond c mod_list (0, [])) (if c then enc_rpl_list cs else []) (flag_of cs, mods cs).
Proof.
  intros c cs V. apply parses_cond.
  - intros ->. unfold mod_list, enc_rpl_list. destruct cs as [cs|]; cbn [flag_of mods valid_cmds] in *.
    + destruct V as [_ F]. eapply parses_bind; [apply ReadBits_parses; lia|]. cbn [tob cond N.eqb Pos.eqb negb].
      eapply parses_bind1; [apply mod_loop_parses; auto|]. apply parses_ret.
    + eapply parses_bind; [apply ReadBits_parses; lia|]. apply parses_ret.
  - intros ->. destruct cs as [cs|]; cbn in *; [destruct V; discriminate|auto].
Qed.
Lemma ParseRefPicListModification_good : forall st, good (ParseRefPicListModification st).
Proof. intros. unfold ParseRefPicListModification. fold mod_list. good_tac. Qed.
#[export] Hint Resolve ParseRefPicListModification_good : good.
Lemma uses0 : forall st, negb (st mod 5 =? 2) && negb (st mod 5 =? 4) = uses_list0 st.
Proof. intros. unfold uses_list0. rewrite negb_orb. reflexivity. Qed.
Lemma map_mods : forall cs, map (fun '(i, _, _) => i) (mods cs) = ops rpl_idc 3 cs.
Proof.
  intros [cs|]; [|reflexivity]. cbn [mods ops]. rewrite map_app, map_map. reflexivity.
Qed.
Lemma flat_map_map : forall A B C (f : A -> B) (g : B -> list C) l,
  flat_map g (map f l) = flat_map (fun x => g (f x)) l.
Proof. induction l as [|x l IH]; cbn [map flat_map]; [auto|]. rewrite IH. auto. Qed.
Lemma abs_mods : forall cs, flat_map (fun '(_, a, _) => a) (mods cs) = args rpl_abs cs.
Proof.
  intros [cs|]; [|reflexivity]. cbn [mods args]. rewrite flat_map_app, flat_map_map. cbn.
  apply app_nil_r.
Qed.
Lemma long_mods : forall cs, flat_map (fun '(_, _, l) => l) (mods cs) = args rpl_long cs.
Proof.
  intros [cs|]; [|reflexivity]. cbn [mods args]. rewrite flat_map_app, flat_map_map. cbn.
  apply app_nil_r.
Qed.
Lemma rplm_eq : forall st cs0 cs1,
  mkrplm st (flag_of cs0) (map (fun '(i, _, _) => i) (mods cs0 ++ mods cs1))
    (flat_map (fun '(_, a, _) => a) (mods cs0 ++ mods cs1))
    (flat_map (fun '(_, _, l) => l) (mods cs0 ++ mods cs1)) (flag_of cs1) = rplm_of st cs0 cs1.
Proof.
  intros. unfold rplm_of.
  rewrite map_app, !flat_map_app, !map_mods, !abs_mods, !long_mods. reflexivity.
Qed.
Lemma rplm_sound : forall st b v b', bb_wf b -> ParseRefPicListModification st b = (Ok v, b') ->
  exists cs0 cs1, valid_rplm st cs0 cs1 /\ v = rplm_of st cs0 cs1 /\ reads b (enc_rplm st cs0 cs1) b'.
Proof.
  intros st b v b' W H. unfold ParseRefPicListModification in H. fold mod_list in H.
  rewrite uses0 in H. fold (uses_list1 st) in H.
  apply sbind_inv in H. destruct H as ([f0 m0] & b1 & H1 & H).
  apply mod_list_sound in H1; auto. destruct H1 as (cs0 & V0 & -> & -> & R0).
  apply sbind_inv in H. destruct H as ([f1 m1] & b2 & H2 & H).
  apply mod_list_sound in H2; [|eapply reads_wf; eauto]. destruct H2 as (cs1 & V1 & -> & -> & R1).
  inv1. exists cs0, cs1. split; [split; auto|]. split; [apply rplm_eq|].
  eapply reads_app; eauto.
Qed.
Lemma rplm_complete : forall st cs0 cs1, valid_rplm st cs0 cs1 ->
  parses (ParseRefPicListModification st) (enc_rplm st cs0 cs1) (rplm_of st cs0 cs1).
Proof.
  intros st cs0 cs1 [V0 V1]. unfold ParseRefPicListModification. fold mod_list.
  rewrite uses0. fold (uses_list1 st). rewrite <- rplm_eq.
  eapply parses_bind; [apply mod_list_complete; exact V0|].
  eapply parses_bind1; [apply mod_list_complete; exact V1|].
  apply parses_ret.
Qed.

(** ** pred_weight_table() *)
Definition wval (cat : N) (w : weights) : N * list Z * list Z * list N * list (list Z) * list (list Z) :=
  (flag_of (w_luma w), olist fst (w_luma w), olist snd (w_luma w),
   if negb (cat =? 0) then [flag_of (w_chroma w)] else [],
   olist (fun '(p, q) => [fst p; fst q]) (w_chroma w),
   olist (fun '(p, q) => [snd p; snd q]) (w_chroma w)).
Lemma pw_round_good : forall cat, good (pw_round cat).
Proof. intros. unfold pw_round. good_tac. Qed.
#[export] Hint Resolve pw_round_good : good.
Definition pw_luma : P (N * (list Z * list Z)) :=
  (lf <- ReadBits 1 ;;
   p <- cond (tob lf)
    (w <- ReadSignedExponentialGolomb ;; o <- ReadSignedExponentialGolomb ;;
     sret ([w], [o])) ([], []) ;; sret (lf, p))%m.
Lemma flag_cases : forall b f b', bb_wf b -> ReadBits 1 b = (Ok f, b') ->
  (f = 0 \/ f = 1) /\ reads b (u_bits 1 f) b' /\ bb_wf b'.
Proof.
  intros b f b' W H. apply ReadBits_sound in H; auto. destruct H as [[_ L] R].
  split; [lia|]. split; [auto|eapply reads_wf; eauto].
Qed.
Lemma pw_round_sound : forall cat, sound_via (pw_round cat) (valid_weights cat) (enc_weights cat) (wval cat).
Proof.
  intros cat b t b' W H. unfold pw_round in H.
  apply sbind_inv in H. destruct H as (lf & b1 & H1 & H).
  apply flag_cases in H1; auto. destruct H1 as (C1 & R1 & W1).
  apply sbind_inv in H. destruct H as ([lw lo] & b2 & H2 & H).
  assert (X : exists l, lf = flag_of l /\ lw = olist fst l /\ lo = olist snd l /\
    match l with Some p => wo_ok p | None => True end /\
    reads b1 (match l with Some p => enc_wo p | None => [] end) b2).
  { clear H. destruct C1 as [-> | ->]; cbn [tob cond N.eqb Pos.eqb negb] in H2.
    - inv. pairinv. exists None. cbn. repeat (split; [auto; fail|]). apply reads_refl; auto.
    - inv. pairinv. eexists (Some (_, _)). unfold wo_ok, enc_wo. cbn.
      repeat (split; [reflexivity|]). fin. }
  destruct X as (l & -> & -> & -> & Ol & R2). clear C1 H2.
  pose proof (reads_wf _ _ _ R2) as W2.
  apply sbind_inv in H. destruct H as ([[cf cw] co] & b3 & H3 & H). inv1.
  assert (X : exists c, cf = (if negb (cat =? 0) then [flag_of c] else []) /\
    cw = olist (fun '(p, q) => [fst p; fst q]) c /\ co = olist (fun '(p, q) => [snd p; snd q]) c /\
    match c with Some (p, q) => cat <> 0 /\ wo_ok p /\ wo_ok q | None => True end /\
    reads b2 (if negb (cat =? 0) then u_bits 1 (flag_of c) ++
        match c with Some (p, q) => enc_wo p ++ enc_wo q | None => [] end else []) b3).
  { clear R1 R2 W W1 Ol. destruct (negb (cat =? 0)) eqn:Ec; cbn [cond] in H3.
    - apply sbind_inv in H3. destruct H3 as (f & b4 & H4 & H3).
      apply flag_cases in H4; auto. destruct H4 as (C1 & R4 & W4).
      apply sbind_inv in H3. destruct H3 as ([w o] & b5 & H5 & H3).
      destruct C1 as [-> | ->]; cbn [tob cond N.eqb Pos.eqb negb] in H5.
      + inv. pairinv. exists None. cbn. auto.
      + inv. pairinv. eexists (Some ((_, _), (_, _))). unfold wo_ok, enc_wo. cbn.
        repeat (split; [reflexivity|]). rewrite <- !app_assoc. fin.
    - inv. pairinv. exists None. cbn. repeat (split; [auto; fail|]). apply reads_refl; auto. }
  destruct X as (c & -> & -> & -> & Oc & R3).
  exists (mkweights l c). unfold valid_weights, wval, enc_weights. cbn [w_luma w_chroma].
  split; [auto|]. split; [reflexivity|].
  eapply reads_app; [eassumption|]. eapply reads_app; eassumption.
Qed.
Lemma pw_round_complete : forall cat, complete_via (pw_round cat) (valid_weights cat) (enc_weights cat) (wval cat).
Proof.
  intros cat [l c] [Vl Vc]. unfold pw_round, wval, enc_weights. cbn [w_luma w_chroma] in *.
  eapply parses_bind with (a := flag_of l); [apply ReadBits_parses; [lia|destruct l; cbn; lia]|].
  eapply parses_bind with (a := (olist fst l, olist snd l)).
  { destruct l as [[w o]|]; cbn.
    - destruct Vl as [V1 V2]. cbn in V1, V2. unfold enc_wo. cbn [fst snd]. walk.
    - apply parses_ret. }
  eapply parses_bind1 with (a := (if negb (cat =? 0) then [flag_of c] else [],
    olist (fun '(p, q) => [fst p; fst q]) c, olist (fun '(p, q) => [snd p; snd q]) c)).
  { apply parses_cond; intros Ec; rewrite Ec.
    - eapply parses_bind; [apply ReadBits_parses; [lia|destruct c; cbn; lia]|].
      destruct c as [[[w0 o0] [w1 o1]]|]; cbn.
      + destruct Vc as (_ & [V1 V2] & [V3 V4]). cbn in V1, V2, V3, V4.
        unfold enc_wo. cbn [fst snd]. rewrite <- !app_assoc.
        eapply parses_bind1; [walk|apply parses_ret].
      + eapply parses_bind1; apply parses_ret.
    - destruct c as [[p q]|]; [|reflexivity]. destruct Vc as (Z & _). lia. }
  apply parses_ret.
Qed.
Lemma ParsePredWeightTable_good : forall cat st n0 n1, good (ParsePredWeightTable cat st n0 n1).
Proof. intros. unfold ParsePredWeightTable. good_tac. Qed.
#[export] Hint Resolve ParsePredWeightTable_good : good.
Lemma cflags : forall cat ws, flat_map (fun x => if negb (cat =? 0) then [flag_of (w_chroma x)] else []) ws
  = chroma_flags cat ws.
Proof.
  intros. unfold chroma_flags. induction ws as [|w ws IH]; cbn [flat_map map]; [destruct negb; auto|].
  rewrite IH. destruct negb; reflexivity.
Qed.
Lemma pwt_eq : forall cat st n0 n1 ld cd w0 w1,
  mkpwt cat st n0 n1 ld cd
    (map (fun '(lf, _, _, _, _, _) => lf) (map (wval cat) w0))
    (flat_map (fun '(_, lw, _, _, _, _) => lw) (map (wval cat) w0))
    (flat_map (fun '(_, _, lo, _, _, _) => lo) (map (wval cat) w0))
    (flat_map (fun '(_, _, _, cf, _, _) => cf) (map (wval cat) w0))
    (flat_map (fun '(_, _, _, _, cw, _) => cw) (map (wval cat) w0))
    (flat_map (fun '(_, _, _, _, _, co) => co) (map (wval cat) w0))
    (map (fun '(lf, _, _, _, _, _) => lf) (map (wval cat) w1))
    (flat_map (fun '(_, lw, _, _, _, _) => lw) (map (wval cat) w1))
    (flat_map (fun '(_, _, lo, _, _, _) => lo) (map (wval cat) w1))
    (flat_map (fun '(_, _, _, cf, _, _) => cf) (map (wval cat) w1))
    (flat_map (fun '(_, _, _, _, cw, _) => cw) (map (wval cat) w1))
    (flat_map (fun '(_, _, _, _, _, co) => co) (map (wval cat) w1)) = pwt_of cat st n0 n1 ld cd w0 w1.
Proof.
  intros. unfold pwt_of. rewrite !flat_map_map, !map_map. unfold wval.
  rewrite !cflags. reflexivity.
Qed.
Lemma pwt_sound : forall cat st n0 n1 b v b', bb_wf b ->
  ParsePredWeightTable cat st n0 n1 b = (Ok v, b') ->
  exists ld cd w0 w1, valid_pwt cat st n0 n1 ld cd w0 w1 /\ v = pwt_of cat st n0 n1 ld cd w0 w1 /\
    reads b (enc_pwt cat st ld cd w0 w1) b'.
Proof.
  intros cat st n0 n1 b v b' W H. unfold ParsePredWeightTable in H.
  apply sbind_inv in H. destruct H as (ld & b1 & H1 & H).
  apply ue_max_sound in H1; auto. destruct H1 as [[_ L1] R1].
  apply sbind_inv in H. destruct H as (cd & b2 & H2 & H).
  assert (X : (if negb (cat =? 0) then cd <= 7 else cd = 0) /\
    reads b1 (if negb (cat =? 0) then ue_bits cd else []) b2).
  { pose proof (reads_wf _ _ _ R1). destruct (negb (cat =? 0)); cbn [cond] in H2.
    - apply ue_max_sound in H2; auto. destruct H2 as [[_ L2] R2]. auto.
    - apply sret_inv in H2. destruct H2 as [-> ->]. split; auto. apply reads_refl; auto. }
  destruct X as [L2 R2]. clear H2.
  apply sbind_inv in H. destruct H as (t0 & b3 & H3 & H).
  apply (rep_sound_via _ _ _ _ _ _ (pw_round_sound cat)) in H3; [|eapply reads_wf; eauto].
  destruct H3 as (w0 & L0 & F0 & -> & R3).
  apply sbind_inv in H. destruct H as (t1 & b4 & H4 & H). inv1.
  fold (has_weights_l1 st) in H4.
  assert (X : exists w1, (if has_weights_l1 st
     then N.of_nat (length w1) = n1 + 1 /\ Forall (valid_weights cat) w1 else w1 = []) /\
     t1 = map (wval cat) w1 /\
     reads b3 (if has_weights_l1 st then flat_map (enc_weights cat) w1 else []) b4).
  { destruct (has_weights_l1 st); cbn [cond] in H4.
    - apply (rep_sound_via _ _ _ _ _ _ (pw_round_sound cat)) in H4; [|eapply reads_wf; eauto].
      destruct H4 as (w1 & L & F & -> & R). exists w1. split; [split; [lia|auto]|auto].
    - apply sret_inv in H4. destruct H4 as [-> ->]. exists []. split; [auto|]. split; [auto|].
      apply reads_refl. eapply reads_wf; eauto. }
  destruct X as (w1 & V1 & -> & R4).
  exists ld, cd, w0, w1. unfold valid_pwt, enc_pwt. split; [|split].
  - split; [auto|]. split; [auto|]. split; [lia|]. auto.
  - apply pwt_eq.
  - eapply reads_app; [eassumption|]. eapply reads_app; [eassumption|]. eapply reads_app; eassumption.
Qed.
Lemma pwt_complete : forall cat st n0 n1 ld cd w0 w1, valid_pwt cat st n0 n1 ld cd w0 w1 ->
  parses (ParsePredWeightTable cat st n0 n1) (enc_pwt cat st ld cd w0 w1)
    (pwt_of cat st n0 n1 ld cd w0 w1).
Proof.
  intros cat st n0 n1 ld cd w0 w1 (L1 & L2 & E0 & F0 & V1). unfold ParsePredWeightTable, enc_pwt.
  rewrite <- pwt_eq. eapply parses_bind; [apply parses_ue_max; lia|].
  eapply parses_bind.
  { apply parses_cond; intros Ec; rewrite Ec in L2; [apply parses_ue_max; lia|exact L2]. }
  eapply parses_bind.
  { apply (rep_complete_via _ _ _ (valid_weights cat)); [apply pw_round_complete|lia|exact F0]. }
  fold (has_weights_l1 st).
  eapply parses_bind1 with (a := map (wval cat) w1).
  { apply parses_cond; intros Eh; rewrite Eh in V1.
    - destruct V1. apply (rep_complete_via _ _ _ (valid_weights cat));
        [apply pw_round_complete|lia|auto].
    - subst. reflexivity. }
  apply parses_ret.
Qed.

(** ** dec_ref_pic_marking() *)
Lemma mmco_round_good : good mmco_round.
Proof. unfold mmco_round. good_tac. Qed.
#[export] Hint Resolve mmco_round_good : good.
Definition mmco_val (c : mmco) : N * list N * list N * list N * list N :=
  (mmco_op c, mmco_diff c, mmco_long c, mmco_frame c, mmco_max c).
Lemma mmco_round_reads : forall b t b', bb_wf b -> mmco_round b = (Ok t, b') ->
  exists op d l f m, t = (op, d, l, f, m) /\ op <= 6 /\
    pushed_ok ((op =? 1) || (op =? 3)) d /\ pushed_ok (op =? 2) l /\
    pushed_ok ((op =? 3) || (op =? 6)) f /\ pushed_ok (op =? 4) m /\
    reads b (ue_bits op ++ flat_map ue_bits (d ++ l ++ f ++ m)) b'.
Proof.
  intros b t b' W H. unfold mmco_round in H. inv. conj.
  do 5 eexists. split; [reflexivity|]. split; [assumption|].
  do 4 (split; [assumption|]). rewrite !flat_map_app. fin.
Qed.
Lemma mmco_round_sound : forall b t b', bb_wf b -> mmco_round b = (Ok t, b') ->
  if (fun '(op, _, _, _, _) => op =? 0) t then t = (0, [], [], [], []) /\ reads b (ue_bits 0) b'
  else exists e, mmco_ok e /\ t = mmco_val e /\ reads b (enc_mmco e) b'.
Proof.
  intros b t b' W H. apply mmco_round_reads in H; auto.
  destruct H as (op & d & l & f & m & -> & L & O1 & O2 & O3 & O4 & R). unfold pushed_ok in *.
  assert (C : op = 0 \/ op = 1 \/ op = 2 \/ op = 3 \/ op = 4 \/ op = 5 \/ op = 6) by lia.
  destruct C as [-> | [-> | [-> | [-> | [-> | [-> | ->]]]]]]; cbn [N.eqb Pos.eqb negb andb orb] in *; push_cases;
    cbn [app] in R.
  - cbn [flat_map] in R. rewrite app_nil_r in R. auto.
  - exists (UnmarkShort x). split; [repeat constructor; auto|]. auto.
  - exists (UnmarkLong x). split; [repeat constructor; auto|]. auto.
  - match type of R with reads _ (_ ++ flat_map _ [?x; ?y]) _ => exists (MakeLong x y) end.
    split; [repeat constructor; auto|]. auto.
  - exists (MaxLong x). split; [repeat constructor; auto|]. auto.
  - exists UnmarkAll. split; [constructor|]. auto.
  - exists (CurrentLong x). split; [repeat constructor; auto|]. auto.
Qed.
Lemma pushed_parses : forall c l, pushed_ok c l ->
  parses (pushed c ReadExponentialGolomb) (flat_map ue_bits l) l.
Proof.
  intros c l O. unfold pushed_ok in O. destruct c.
  - destruct O as (x & -> & Ox). cbn [flat_map]. rewrite app_nil_r. apply pushed_some; auto.
  - subst. apply pushed_none; auto.
Qed.
Lemma mmco_round_complete : forall op d l f m, op <= 6 ->
  pushed_ok ((op =? 1) || (op =? 3)) d -> pushed_ok (op =? 2) l ->
  pushed_ok ((op =? 3) || (op =? 6)) f -> pushed_ok (op =? 4) m ->
  parses mmco_round (ue_bits op ++ flat_map ue_bits (d ++ l ++ f ++ m)) (op, d, l, f, m).
Proof.
  intros op d l f m L O1 O2 O3 O4. unfold mmco_round. rewrite !flat_map_app.
  eapply parses_bind; [apply parses_ue_max; lia|].
  eapply parses_bind; [apply pushed_parses; exact O1|].
  eapply parses_bind; [apply pushed_parses; exact O2|].
  eapply parses_bind; [apply pushed_parses; exact O3|].
  eapply parses_bind1; [apply pushed_parses; exact O4|]. apply parses_ret.
Qed.
Lemma mmco_round_parses : forall e, mmco_ok e ->
  parses mmco_round (enc_mmco e) (mmco_val e) /\
  (fun '(op, _, _, _, _) => op =? 0) (mmco_val e) = false /\ enc_mmco e <> [].
Proof.
  intros e O. split; [|split].
  - replace (enc_mmco e) with (ue_bits (mmco_op e) ++
      flat_map ue_bits (mmco_diff e ++ mmco_long e ++ mmco_frame e ++ mmco_max e))
      by (destruct e; reflexivity).
    unfold mmco_ok in O.
    apply mmco_round_complete; destruct e; cbn in *;
      repeat match goal with H : Forall _ (_ :: _) |- _ => inversion H; clear H; subst end;
      first [lia|reflexivity|eexists; split; [reflexivity|assumption]].
  - destruct e; reflexivity.
  - destruct e; unfold enc_mmco; discriminate.
Qed.
Lemma mmco_progress : progress mmco_round.
Proof.
  intros b v b' W H. apply mmco_round_reads in H; auto.
  destruct H as (op & d & l & f & m & -> & _ & _ & _ & _ & _ & R).
  eapply reads_shorter; [exact R|]. rewrite app_length. pose proof (ue_bits_nonempty op). lia.
Qed.
Lemma mmco_loop_good : good mmco_loop.
Proof. apply until_good; [apply mmco_round_good|apply mmco_progress]. Qed.
#[export] Hint Resolve mmco_loop_good : good.
Definition marks (cs : option (list mmco)) :=
  match cs with Some l => map mmco_val l ++ [(0, [], [], [], [])] | None => [] end.
Lemma ParseDecRefPicMarking_good : forall idr, good (ParseDecRefPicMarking idr).
Proof. intros. unfold ParseDecRefPicMarking. good_tac. Qed.
#[export] Hint Resolve ParseDecRefPicMarking_good : good.
Lemma drpm_eq : forall idr cs,
  mkdrpm idr 0 0 (flag_of cs) (map (fun '(op, _, _, _, _) => op) (marks cs))
    (flat_map (fun '(_, d, _, _, _) => d) (marks cs)) (flat_map (fun '(_, _, l, _, _) => l) (marks cs))
    (flat_map (fun '(_, _, _, f, _) => f) (marks cs)) (flat_map (fun '(_, _, _, _, x) => x) (marks cs))
  = drpm_of idr (Marking cs).
Proof.
  intros idr [cs|]; [|reflexivity]. unfold drpm_of, marks, ops, args.
  rewrite map_app, !flat_map_app, map_map, !flat_map_map. cbn. rewrite !app_nil_r. reflexivity.
Qed.
Lemma drpm_sound : forall idr, sound_via (ParseDecRefPicMarking idr) (valid_marking idr) enc_marking
  (drpm_of idr).
Proof.
  intros idr b v b' W H. unfold ParseDecRefPicMarking in H. destruct (tob idr) eqn:Ei.
  - inv. conj. eexists (IdrMarking _ _). cbn [valid_marking enc_marking drpm_of].
    unfold tob in Ei. split; [|split; [reflexivity|fin]]. fin.
  - apply sbind_inv in H. destruct H as (f & b1 & H1 & H).
    apply flag_cases in H1; auto. destruct H1 as (C1 & R1 & W1).
    apply sbind_inv in H. destruct H as (l & b2 & H2 & H). inv1.
    assert (X : exists cs, f = flag_of cs /\ l = marks cs /\ valid_cmds mmco_ok true cs /\
      reads b1 (match cs with Some l => flat_map enc_mmco l ++ ue_bits 0 | None => [] end) b2).
    { destruct C1 as [-> | ->]; cbn [tob cond N.eqb Pos.eqb negb] in H2.
      - inv1. exists None. cbn. repeat (split; [auto; fail|]). apply reads_refl; auto.
      - change (mmco_loop b1 = (Ok l, b2)) in H2.
        apply (until_sound _ _ _ _ _ _ _ _ _ mmco_round_sound) in H2; auto.
        destruct H2 as (cs & F & -> & R). exists (Some cs). cbn. auto. }
    destruct X as (cs & -> & -> & V & R2). exists (Marking cs). cbn [valid_marking].
    split; [split; [unfold tob in Ei; lia|auto]|]. split; [apply drpm_eq|].
    eapply reads_app; eauto.
Qed.
Lemma drpm_complete : forall idr, complete_via (ParseDecRefPicMarking idr) (valid_marking idr)
  enc_marking (drpm_of idr).
Proof.
  intros idr [a c|cs] V; unfold ParseDecRefPicMarking; cbn [valid_marking enc_marking] in *.
  - conj. replace (tob idr) with true by (unfold tob; lia). cbn [drpm_of]. walk.
  - destruct V as [-> V]. cbn [tob N.eqb negb]. rewrite <- drpm_eq.
    eapply parses_bind with (a := flag_of cs); [apply ReadBits_parses; [lia|destruct cs; cbn; lia]|].
    eapply parses_bind1 with (a := marks cs); [|apply parses_ret].
    destruct cs as [cs|]; cbn [flag_of tob cond marks N.eqb negb]; [|apply parses_ret].
    destruct V as [_ F]. apply (until_complete _ _ _ _ mmco_ok); auto.
    + exact mmco_round_parses.
    + exact (mmco_round_complete 0 [] [] [] [] ltac:(lia) eq_refl eq_refl eq_refl eq_refl).
Qed.

(** ** The reported vectors determine the commands *)
Lemma rpl_inj : forall l l' r r' a a' g g',
  map rpl_idc l ++ 3 :: r = map rpl_idc l' ++ 3 :: r' ->
  flat_map rpl_abs l ++ a = flat_map rpl_abs l' ++ a' ->
  flat_map rpl_long l ++ g = flat_map rpl_long l' ++ g' ->
  l = l' /\ r = r' /\ a = a' /\ g = g'.
Proof.
  induction l as [|c l IH]; intros [|c' l'] r r' a a' g g' H1 H2 H3.
  - cbn in *. injection H1 as ->. auto.
  - destruct c'; discriminate.
  - destruct c; discriminate.
  - assert (K : c = c' /\ map rpl_idc l ++ 3 :: r = map rpl_idc l' ++ 3 :: r' /\
      flat_map rpl_abs l ++ a = flat_map rpl_abs l' ++ a' /\
      flat_map rpl_long l ++ g = flat_map rpl_long l' ++ g').
    { destruct c, c'; cbn in *; try discriminate; injection H1 as H1; try injection H2 as E2 H2;
        try injection H3 as E3 H3; subst; auto. }
    destruct K as (-> & K1 & K2 & K3). destruct (IH _ _ _ _ _ _ _ K1 K2 K3) as (-> & ?). auto.
Qed.
Lemma opt_inj : forall cs cs' r r' a a' g g', flag_of cs = flag_of cs' ->
  ops rpl_idc 3 cs ++ r = ops rpl_idc 3 cs' ++ r' ->
  args rpl_abs cs ++ a = args rpl_abs cs' ++ a' ->
  args rpl_long cs ++ g = args rpl_long cs' ++ g' ->
  cs = cs' /\ r = r' /\ a = a' /\ g = g'.
Proof.
  intros [cs|] [cs'|] r r' a a' g g' E H1 H2 H3; try discriminate; cbn [ops args] in *.
  - rewrite <- !app_assoc in H1. cbn [app] in H1.
    destruct (rpl_inj _ _ _ _ _ _ _ _ H1 H2 H3) as (-> & ?). auto.
  - auto.
Qed.
Lemma rplm_of_inj : forall st cs0 cs1 cs0' cs1', rplm_of st cs0 cs1 = rplm_of st cs0' cs1' ->
  cs0 = cs0' /\ cs1 = cs1'.
Proof.
  intros st cs0 cs1 cs0' cs1' H. unfold rplm_of in H. injection H as E0 H1 H2 H3 E1.
  destruct (opt_inj _ _ _ _ _ _ _ _ E0 H1 H2 H3) as (-> & K1 & K2 & K3). split; [auto|].
  rewrite <- (app_nil_r (ops _ _ cs1)), <- (app_nil_r (ops _ _ cs1')) in K1.
  rewrite <- (app_nil_r (args _ cs1)), <- (app_nil_r (args _ cs1')) in K2.
  rewrite <- (app_nil_r (args _ cs1)), <- (app_nil_r (args _ cs1')) in K3.
  destruct (opt_inj _ _ _ _ _ _ _ _ E1 K1 K2 K3) as (-> & _). auto.
Qed.
Lemma mmco_inj : forall l l' d d' g g' f f' m m',
  map mmco_op l ++ [0] = map mmco_op l' ++ [0] ->
  flat_map mmco_diff l ++ d = flat_map mmco_diff l' ++ d' ->
  flat_map mmco_long l ++ g = flat_map mmco_long l' ++ g' ->
  flat_map mmco_frame l ++ f = flat_map mmco_frame l' ++ f' ->
  flat_map mmco_max l ++ m = flat_map mmco_max l' ++ m' -> l = l'.
Proof.
  induction l as [|c l IH]; intros [|c' l'] d d' g g' f f' m m' H1 H2 H3 H4 H5.
  - auto.
  - destruct c'; discriminate.
  - destruct c; discriminate.
  - assert (K : c = c' /\ map mmco_op l ++ [0] = map mmco_op l' ++ [0] /\
      flat_map mmco_diff l ++ d = flat_map mmco_diff l' ++ d' /\
      flat_map mmco_long l ++ g = flat_map mmco_long l' ++ g' /\
      flat_map mmco_frame l ++ f = flat_map mmco_frame l' ++ f' /\
      flat_map mmco_max l ++ m = flat_map mmco_max l' ++ m').
    { destruct c, c'; cbn in *; try discriminate; injection H1 as H1; try injection H2 as E2 H2;
        try injection H3 as E3 H3; try injection H4 as E4 H4; try injection H5 as E5 H5;
        subst; auto 10. }
    destruct K as (-> & K1 & K2 & K3 & K4 & K5). f_equal. eauto.
Qed.
Lemma drpm_of_inj : forall idr m m', valid_marking idr m -> valid_marking idr m' ->
  drpm_of idr m = drpm_of idr m' -> m = m'.
Proof.
  intros idr [a b|cs] [a' b'|cs'] V V' H; cbn [valid_marking drpm_of] in *; conj; try congruence.
  injection H as E Q1 Q2 Q3 Q4 Q5. f_equal.
  destruct cs as [cs|], cs' as [cs'|]; try discriminate; auto. cbn [ops args] in *. f_equal.
  rewrite <- (app_nil_r (flat_map _ cs)), <- (app_nil_r (flat_map _ cs')) in Q2.
  rewrite <- (app_nil_r (flat_map _ cs)), <- (app_nil_r (flat_map _ cs')) in Q3.
  rewrite <- (app_nil_r (flat_map _ cs)), <- (app_nil_r (flat_map _ cs')) in Q4.
  rewrite <- (app_nil_r (flat_map _ cs)), <- (app_nil_r (flat_map _ cs')) in Q5.
  eapply mmco_inj; eauto.
Qed.
