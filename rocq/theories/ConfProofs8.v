(** The messages, and the text of the units of a file. *)
From Coq Require Import NArith ZArith List Bool Lia ZifyBool ZifyNat ZifyN String Ascii.
From Verif Require Import Base Parser TypesNal TypesNalUnit TypesSps Sps TypesPps TypesExt TypesSlice TypesSliceHeader SliceHeader
  TypesSvcSlice SpecDump Dump DumpProofs PyText PyText2 PyTextProofs Conformance SpecConformance
  ConfProofs ConfProofs2 ConfProofs3 ConfProofs4 ConfProofs5 ConfProofs6 ConfProofs7.
Import ListNotations.
Open Scope N_scope.
Open Scope list_scope.

Lemma message_lines_split : forall l, Forall message l -> splitlines (message_lines l) = l.
Proof.
  intros l F. unfold message_lines. induction F as [|m l (NE & P & _) F IH]; [reflexivity|]. cbn [map]. rewrite concat_empty_cons, app_assoc_s. cbn [append].
  change (ascii_of_N 10) with newline. rewrite splitlines_line; [f_equal; exact IH|]. clear - P. induction m as [|c m IHm]; [reflexivity|].
  cbn [chars] in P. apply Forall_cons_iff in P. destruct P as [P1 P2]. cbn [all]. rewrite IHm by exact P2. unfold printed in P1.
  unfold line_end. cbv zeta. lia.
Qed.
Lemma rstrip_last : forall s c, py_space c = false -> rstrip (s ++ String c "") = (s ++ String c "")%string.
Proof.
  induction s as [|d s IH]; intros c P; cbn [append rstrip].
  - rewrite P. reflexivity.
  - rewrite IH by exact P. destruct s; reflexivity.
Qed.
Lemma string_last : forall s, s = ""%string \/ exists t c, s = (t ++ String c "")%string.
Proof.
  induction s as [|d s IH]; [left; reflexivity|]. right. destruct IH as [->|(t & c & ->)]; [exists ""%string, d; reflexivity|].
  exists (String d t), c. reflexivity.
Qed.
Lemma chars_app : forall a b, chars (a ++ b) = chars a ++ chars b.
Proof. induction a as [|c a IH]; intros b; cbn [append chars app]; [reflexivity|]. rewrite IH. reflexivity. Qed.
Lemma printed_space : forall c, printed c -> c <> " "%char -> py_space c = false.
Proof.
  intros c P NE. unfold printed in P. unfold py_space. cbv zeta. assert (N_of_ascii c <> 32); [|lia].
  intros E. apply NE. rewrite <- (ascii_N_embedding c), E. reflexivity.
Qed.
Lemma message_strip : forall m, message m -> strip m = m.
Proof.
  intros m (NE & P & S). unfold strip. destruct (string_last m) as [->|(t & c & E)]; [congruence|].
  assert (C : py_space c = false).
  { apply printed_space.
    - rewrite E, chars_app in P. apply Forall_app in P. destruct P as [_ P]. inversion P; assumption.
    - intros ->. exact (proj2 (S t) E). }
  rewrite E at 1. rewrite rstrip_last by exact C. rewrite <- E. destruct m as [|d m]; [reflexivity|]. cbn [lstrip].
  replace (py_space d) with false; [reflexivity|]. symmetry. apply printed_space.
  - cbn [chars] in P. inversion P; assumption.
  - intros ->. exact (proj1 (S m) eq_refl).
Qed.
Lemma summary_said : forall l, l <> [] -> String.concat "; " (map (fun mc : string * N =>
    if snd mc =? 1 then fst mc else (fst mc ++ " (x" ++ dec (snd mc) ++ ")")%string) (counter l)) = summary_of l.
Proof. intros l _. rewrite counter_said. unfold said, summary_of. rewrite map_map. reflexivity. Qed.
Lemma summarize_lines : forall l, Forall message l ->
  summarize_errors (message_lines l) = match l with [] => "0"%string | _ => summary_of l end.
Proof.
  intros l F. unfold summarize_errors. rewrite message_lines_split by exact F.
  assert (E : filter (fun s => negb (String.eqb s "")) (map strip l) = l).
  { induction F as [|m l M F IH]; [reflexivity|]. cbn [map filter]. rewrite (message_strip m M). destruct M as [NE _].
    destruct (String.eqb_spec m ""); [congruence|]. cbn [negb]. rewrite IH. reflexivity. }
  rewrite E. cbv zeta. destruct l as [|m l]; [reflexivity|]. apply summary_said. discriminate.
Qed.
Lemma filter_same : forall A (f g : A -> bool) l, (forall x, In x l -> f x = true -> g x = true) ->
  (List.length (filter f l) = List.length (filter g l) <-> forall x, In x l -> g x = true -> f x = true) /\
  (List.length (filter f l) <= List.length (filter g l))%nat.
Proof.
  intros A f g l. induction l as [|x l IH]; intros I; [split; [split; [intros _ x []|reflexivity]|cbn; lia]|].
  destruct (IH (fun y Y => I y (or_intror Y))) as [[H1 H2] H3]. cbn [filter]. pose proof (I x (or_introl eq_refl)) as X.
  destruct (f x) eqn:FX, (g x) eqn:GX; cbn [List.length].
  - split; [|lia]. split; [intros E y [<-|Y] G; [exact FX|apply H1; [lia|exact Y|exact G]]|].
    intros H. f_equal. apply H2. intros y Y. apply H. right. exact Y.
  - specialize (X eq_refl). discriminate.
  - split; [|lia]. split; [intros E; lia|]. intros H. specialize (H x (or_introl eq_refl) GX). congruence.
  - split; [|lia]. split; [intros E y [<-|Y] G; [congruence|apply H1; [lia|exact Y|exact G]]|].
    intros H. apply H2. intros y Y. apply H. right. exact Y.
Qed.
Lemma header_slice : forall u, has_header u = true -> slice_unit u = true.
Proof.
  intros u. unfold has_header, header_block, slice_unit. destruct ((_ =? 1) || (_ =? 5)); [reflexivity|]. destruct (_ =? 20); [reflexivity|discriminate].
Qed.
