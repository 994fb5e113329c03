(** Proofs about the model of fuzz/converter.py: byte literals, calls and words. *)
From Coq Require Import NArith Wf_nat List Bool String Ascii Lia.
From Verif Require Import Base PyText Converter SpecConverter ConverterProofs.
Import ListNotations.
Open Scope list_scope.
Open Scope string_scope.

(** ** Byte literals *)
Lemma digit_hex : forall a, digit16 a = true -> exists n, (n < 16)%N /\ a = hex_char n /\ (if digit10 a then N_of_ascii a - 48 else N_of_ascii a - 87)%N = n.
Proof.
  intros a H. exists (if digit10 a then N_of_ascii a - 48 else N_of_ascii a - 87)%N.
  destruct a as [[] [] [] [] [] [] [] []]; try discriminate H; (split; [reflexivity|split; reflexivity]).
Qed.
Lemma hex_digit : forall n, (n < 16)%N -> digit16 (hex_char n) = true /\ (if digit10 (hex_char n) then N_of_ascii (hex_char n) - 48 else N_of_ascii (hex_char n) - 87)%N = n.
Proof.
  intros n H. assert (K : In n (map N.of_nat (seq 0 16))) by (apply in_map_iff; exists (N.to_nat n); split; [lia|apply in_seq; lia]).
  cbn in K. repeat (destruct K as [<-|K]; [split; reflexivity|]). destruct K.
Qed.
Lemma int_two : forall a b, int_of 16 (String a (String b "")) =
  (16 * (if digit10 a then N_of_ascii a - 48 else N_of_ascii a - 87) + (if digit10 b then N_of_ascii b - 48 else N_of_ascii b - 87))%N.
Proof. intros. unfold int_of. lia. Qed.
Lemma literal_at_spec : forall s d, literal_at s = Some d <-> (d < 256)%N /\ exists r, s = literal d ++ r.
Proof.
  intros s d. split.
  - destruct s as [|z [|x [|a [|b r]]]]; try discriminate. unfold literal_at. destruct (Ascii.eqb_spec z "0"%char) as [->|]; [|discriminate]. destruct (Ascii.eqb_spec x "x"%char) as [->|]; [|discriminate].
    cbn [andb]. destruct (digit16 a) eqn:A; [|discriminate]. destruct (digit16 b) eqn:B; [|discriminate]. cbn [andb].
    rewrite int_two. intros E. assert (E' : (16 * (if digit10 a then N_of_ascii a - 48 else N_of_ascii a - 87) + (if digit10 b then N_of_ascii b - 48 else N_of_ascii b - 87))%N = d) by congruence. clear E.
    destruct (digit_hex a A) as (m & Lm & -> & Vm). destruct (digit_hex b B) as (n & Ln & -> & Vn). rewrite Vm, Vn in E'. split; [lia|]. exists r. unfold literal.
    replace (d / 16)%N with m by (apply (N.div_unique _ _ _ n); lia). replace (d mod 16)%N with n by (apply (N.mod_unique _ _ m); lia). reflexivity.
  - intros (L & r & ->). unfold literal, literal_at. cbn [append].
    assert (D : (d / 16 < 16)%N) by (apply N.div_lt_upper_bound; lia). assert (M : (d mod 16 < 16)%N) by (apply N.mod_lt; lia).
    destruct (hex_digit _ D) as [-> V1]. destruct (hex_digit _ M) as [-> V2]. cbn [andb Ascii.eqb Bool.eqb]. rewrite int_two, V1, V2. f_equal. pose proof (N.div_mod d 16). lia.
Qed.
Lemma literal_len : forall d, String.length (literal d) = 4%nat. Proof. reflexivity. Qed.
Lemma find_skip : forall k s t, String.length s = k -> find_bytes k (s ++ t) = find_bytes 0 t.
Proof. induction k as [|k IH]; intros [|c s] t E; try discriminate; [reflexivity|]. cbn [append find_bytes]. apply IH. cbn in E. lia. Qed.
Lemma find_literal : forall d r, (d < 256)%N -> find_bytes 0 (literal d ++ r) = d :: find_bytes 0 r.
Proof.
  intros d r L. assert (E : literal_at (literal d ++ r) = Some d) by (apply literal_at_spec; split; [exact L|exists r; reflexivity]).
  destruct (literal d ++ r) as [|c t] eqn:S; [discriminate|]. cbn [find_bytes]. rewrite E. f_equal.
  unfold literal in S. cbn [append] in S. injection S as _ <-. exact (find_skip 3 (String "x" (String (hex_char (d / 16)) (String (hex_char (d mod 16)) ""))) r eq_refl).
Qed.
Lemma seed_shift : forall c t ds, literal_at (String c t) = None -> seed_of t ds -> seed_of (String c t) ds.
Proof.
  intros c t ds N H. assert (Z : forall d r, (d < 256)%N -> String c t <> literal d ++ r).
  { intros d r L E. assert (literal_at (String c t) = Some d) by (apply literal_at_spec; split; [exact L|exists r; exact E]). congruence. }
  inversion H as [s A|a d r ds' L A S]; subst.
  - apply seed_none. intros [|x a] d r L E; [exact (Z d r L E)|]. cbn [append] in E. injection E as _ E. exact (A a d r L E).
  - change (String c (a ++ literal d ++ r)) with (String c a ++ literal d ++ r). apply seed_next; [exact L| |exact S].
    intros [|x a'] d' r' L' E; [exfalso; exact (Z d' r' L' E)|]. cbn [append] in E. injection E as _ E. specialize (A a' d' r' L' E). cbn [String.length]. lia.
Qed.
Lemma find_seed : forall s, seed_of s (find_bytes 0 s).
Proof.
  intros s. remember (String.length s) as n eqn:E. revert s E. induction n as [n IH] using lt_wf_ind. intros s ->.
  destruct (literal_at s) as [d|] eqn:L.
  - apply literal_at_spec in L as (L & r & ->). rewrite (find_literal d r L). apply (seed_next "" d r); [exact L|intros; cbn; lia|].
    apply (IH (String.length r)); [|reflexivity]. rewrite app_len, literal_len. lia.
  - destruct s as [|c t]; [apply seed_none; intros [|x a] d r _; discriminate|]. cbn [find_bytes]. rewrite L. apply seed_shift; [exact L|]. apply (IH (String.length t)); [cbn; lia|reflexivity].
Qed.
(** A gap without 0x is passed over *)
Lemma find_gap : forall g s, ~ holds "0x" g -> (exists d r, s = literal d ++ r) \/ s = "" -> find_bytes 0 (g ++ s) = find_bytes 0 s.
Proof.
  induction g as [|c g IH]; intros s H S; [reflexivity|]. cbn [append find_bytes].
  assert (L : literal_at (String c (g ++ s)) = None).
  { destruct (literal_at (String c (g ++ s))) as [d|] eqn:L; [|reflexivity]. exfalso. apply literal_at_spec in L as (_ & r & E). unfold literal in E. cbn [append] in E. injection E as -> E.
    destruct g as [|x g]; cbn [append] in E.
    - destruct S as [(d' & r' & ->)| ->]; discriminate E.
    - injection E as -> _. apply H. exists "", g. reflexivity. }
  rewrite L. apply IH; [|exact S]. intros (a & b & E). apply H. exists (String c a), b. rewrite E. reflexivity.
Qed.
Lemma find_declared : forall l last, Forall (fun p => ~ holds "0x" (fst p) /\ (snd p < 256)%N) l -> ~ holds "0x" last ->
  find_bytes 0 (declared l last) = map snd l.
Proof.
  intros l last F H. induction F as [|[g d] l [G L] F IH]; cbn [declared map fst snd] in *.
  - rewrite <- (app_nil_s last). rewrite find_gap by (auto; exact H). reflexivity.
  - rewrite find_gap by (auto; left; eauto). rewrite find_literal by exact L. rewrite IH. reflexivity.
Qed.
