(** Property C68: the files of the tool. *)
From Coq Require Import NArith ZArith List Bool Lia ZifyBool ZifyNat ZifyN String Ascii.
From Verif Require Import SpecBits Base TypesNal TypesNalUnit SpecNalUnit NalUnit Tool Dump ToolText PropsFraming PropsNalUnit PropsToolText Files SpecFiles.
Import ListNotations.
Open Scope N_scope.

Lemma stdin_all : forall fuel stdin buffer, (List.length stdin < fuel)%nat ->
  ReadStdinToBuffer fuel stdin buffer = Ok (buffer ++ stdin)%list.
Proof.
  induction fuel as [|fuel IH]; intros stdin buffer L; [lia|]. cbn [ReadStdinToBuffer].
  destruct stdin as [|x t].
  - rewrite firstn_nil, app_nil_r. reflexivity.
  - destruct (firstn chunk_size (x :: t)) as [|y u] eqn:E; [discriminate E|].
    rewrite IH.
    + rewrite <- app_assoc, <- E, firstn_skipn. reflexivity.
    + rewrite skipn_length. unfold chunk_size. cbn [List.length] in *. lia.
Qed.
Lemma dash : forall f, is_dash f = true <-> f = "-"%string.
Proof. intros f. unfold is_dash. apply String.eqb_eq. Qed.
Lemma no_dash : forall f, is_dash f = false <-> f <> "-"%string.
Proof. intros f. unfold is_dash. apply String.eqb_neq. Qed.

(** A name is read as the bytes it stands for, however many, or refused. *)
Theorem C68_read : forall d stdin f,
  (exists data, input d stdin f data /\ ReadFile d stdin (Some f) = Ok (Some data)) \/
  ((forall data, ~ input d stdin f data) /\ ReadFile d stdin (Some f) = Ok None).
Proof.
  intros d stdin f. unfold ReadFile. destruct (is_dash f) eqn:D.
  - apply dash in D. left. exists stdin. split; [left; auto|]. rewrite stdin_all by lia. reflexivity.
  - apply no_dash in D. destruct (d f) as [| |c n] eqn:F.
    + right. split; [|reflexivity]. intros data [[X _]|(_ & _ & n & X & _)]; [contradiction|congruence].
    + right. split; [|reflexivity]. intros data [[X _]|(_ & _ & n & X & _)]; [contradiction|congruence].
    + destruct (Z.of_nat (List.length c) <=? 0)%Z eqn:Z0.
      * right. split; [|reflexivity]. intros data [[X _]|(_ & N & k & X & _)]; [contradiction|].
        rewrite F in X. injection X as -> _. destruct data; [contradiction|cbn [List.length] in Z0; lia].
      * destruct (Nat.eqb (List.length (firstn n c)) (List.length c)) eqn:E.
        -- apply PeanoNat.Nat.eqb_eq in E. rewrite firstn_length in E. left. exists c. rewrite firstn_all2 by lia.
           split; [|reflexivity]. right. split; [exact D|]. split; [intros ->; cbn in Z0; lia|]. exists n. split; [exact F|lia].
        -- apply PeanoNat.Nat.eqb_neq in E. rewrite firstn_length in E. right. split; [|reflexivity].
           intros data [[X _]|(_ & N & k & X & L)]; [contradiction|]. rewrite F in X. injection X as -> ->. lia.
Qed.
Lemma input_det : forall d stdin f data data', input d stdin f data -> input d stdin f data' -> data = data'.
Proof.
  intros d stdin f data data' [[A ->]|(A & _ & n & B & _)] [[A' ->]|(A' & _ & n' & B' & _)]; try congruence.
Qed.
Lemma write_replaced : forall d f s, replaced d f s (write d f s).
Proof.
  intros d f s. unfold write. split; [rewrite String.eqb_refl; reflexivity|]. intros g N. apply String.eqb_neq in N. rewrite N. reflexivity.
Qed.

(** The text of C61 goes to the standard output, or replaces the content of the output file; no
    other file is touched. *)
Theorem C68_tool : forall ver a r d stdin os g f data s e, parse_args os = Go g -> arg_infile g = Some f ->
  input d stdin f data -> run a g data = Ok (s, e) ->
  exists x, tool_main ver a r d stdin os = Ok x /\
  (to_stdout (arg_outfile g) -> eff_stdout x = s /\ eff_disk x = d /\ eff_status x = e) /\
  (forall h, arg_outfile g = Some h -> h <> "-"%string ->
    eff_stdout x = ""%string /\
    if r h then replaced d h s (eff_disk x) /\ eff_status x = e else eff_disk x = d /\ eff_status x = 255).
Proof.
  intros ver a r d stdin os g f data s e P I IN R. unfold tool_main. rewrite P, I.
  destruct (C68_read d stdin f) as [(data' & IN' & ->)|[N _]]; [|elim (N _ IN)].
  rewrite (input_det _ _ _ _ _ IN' IN). cbn [rbind]. rewrite R. cbn [rbind].
  destruct (arg_outfile g) as [h|] eqn:O.
  - destruct (is_dash h) eqn:D.
    + apply dash in D. subst h. eexists. split; [reflexivity|]. split; [auto|]. intros h' [= <-] X. contradiction.
    + apply no_dash in D. assert (NS : ~ to_stdout (Some h)) by (intros [X|X]; congruence).
      destruct (r h) eqn:RH; eexists; (split; [reflexivity|]; split; [intros X; contradiction|]);
        intros h' [= <-] _; cbn [eff_stdout eff_disk eff_status]; rewrite RH; auto using write_replaced.
  - eexists. split; [reflexivity|]. split; [auto|]. intros h X. discriminate.
Qed.
(** The input file may be the output file: it ends up with the text for its old content. *)
Theorem C68_in_place : forall ver a r d stdin os g f data s e, parse_args os = Go g -> arg_infile g = Some f ->
  arg_outfile g = Some f -> f <> "-"%string -> r f = true -> input d stdin f data -> run a g data = Ok (s, e) ->
  exists x, tool_main ver a r d stdin os = Ok x /\ replaced d f s (eff_disk x) /\ eff_status x = e.
Proof.
  intros ver a r d stdin os g f data s e P I O N W IN R.
  destruct (C68_tool ver a r d stdin os g f data s e P I IN R) as (x & E & _ & K). destruct (K f O N) as [_ K']. rewrite W in K'.
  exists x. auto.
Qed.
(** Without input, or if the options are refused, nothing is written anywhere; --version prints. *)
Theorem C68_refused : forall ver a r d stdin os,
  (forall g f data, parse_args os = Go g -> arg_infile g = Some f -> ~ input d stdin f data) ->
  (forall g, parse_args os = Go g -> arg_infile g <> None) ->
  exists x, tool_main ver a r d stdin os = Ok x /\ eff_disk x = d /\
    (eff_stdout x = ""%string /\ eff_status x = 255 \/
     In Version os /\ eff_stdout x = ("version: " ++ ver ++ String "010" "")%string /\ eff_status x = 0).
Proof.
  intros ver a r d stdin os H NI. unfold tool_main. destruct (parse_args os) as [g|n] eqn:P.
  - destruct (arg_infile g) as [f|] eqn:I; [|elim (NI g eq_refl I)].
    destruct (C68_read d stdin f) as [(data & IN & _)|[_ ->]]; [elim (H g f data eq_refl I IN)|].
    cbn [rbind]. eexists. split; [reflexivity|]. auto.
  - eexists. split; [reflexivity|]. cbn [eff_stdout eff_disk eff_status]. split; [reflexivity|].
    destruct (C62_stopped os n P) as [[-> V]| ->]; [right|left]; auto.
Qed.
(** With a configuration box only, no file is read, and the output file is emptied. *)
Theorem C68_avcc_only : forall ver a r d stdin os g h, parse_args os = Go g -> arg_infile g = None ->
  arg_outfile g = Some h -> h <> "-"%string -> r h = true ->
  exists x, tool_main ver a r d stdin os = Ok x /\ eff_stdout x = ""%string /\ replaced d h "" (eff_disk x) /\ eff_status x = 0.
Proof.
  intros ver a r d stdin os g h P I O D W. unfold tool_main. rewrite P, I, O. cbn [rbind]. apply no_dash in D. rewrite D, W.
  eexists. split; [reflexivity|]. split; [reflexivity|]. split; [apply write_replaced|reflexivity].
Qed.
(** Every run ends, with one of four statuses, whatever the files hold; the provisos are those of C61. *)
Theorem C68_defined : forall ver a r d stdin os,
  (forall f data, input d stdin f data -> fits a data) ->
  (forall g f data, parse_args os = Go g -> arg_infile g = Some f -> input d stdin f data ->
     (arg_nalu_length_bytes g < 8)%Z /\
     (arg_dump_length g = true -> size_of data < 2 ^ 31 /\
        size_of data * 8 * Z.to_N (arg_frames_per_second g) < 2 ^ 63)) ->
  exists x, tool_main ver a r d stdin os = Ok x /\
    (eff_status x = 0 \/ eff_status x = 1 \/ eff_status x = 2 \/ eff_status x = 255).
Proof.
  intros ver a r d stdin os F H.
  set (read := fun f => match ReadFile d stdin (Some f) with Ok o => o | _ => None end).
  assert (RI : forall f data, read f = Some data -> input d stdin f data).
  { intros f data E. unfold read in E. destruct (C68_read d stdin f) as [(data' & IN & X)|[_ X]]; rewrite X in E; congruence. }
  destruct (C61_defined a read os) as (s & e & M & S); [eauto|intros g f data P I E; eauto|].
  unfold main in M. unfold tool_main. destruct (parse_args os) as [g|n].
  2: { injection M as <- <-. eexists. split; [reflexivity|exact S]. }
  destruct (arg_infile g) as [f|].
  - unfold read in M. destruct (C68_read d stdin f) as [(data & IN & X)|[_ X]]; rewrite X in *; cbn [rbind].
    + rewrite M. cbn [rbind]. destruct (arg_outfile g) as [h|]; [destruct (is_dash h); [|destruct (r h)]|];
        eexists; (split; [reflexivity|]); cbn [eff_status]; tauto.
    + eexists. split; [reflexivity|]. cbn [eff_status]. auto.
  - cbn [rbind]. injection M as <- <-. destruct (arg_outfile g) as [h|]; [destruct (is_dash h); [|destruct (r h)]|];
        eexists; (split; [reflexivity|]); cbn [eff_status]; auto.
Qed.
(** No bytes from the standard input are a stream without units; no bytes from a file are an error. *)
Definition nothing : disk := fun _ => Bytes [] 0.
Theorem C68_empty_refuted :
  (exists x, tool_main EmptyString true (fun _ => true) nothing [] [Infile "-"] = Ok x /\ eff_status x = 0) /\
  (exists x, tool_main EmptyString true (fun _ => true) nothing [] [Infile "f"] = Ok x /\ eff_status x = 255).
Proof. split; eexists; (split; [vm_compute; reflexivity|reflexivity]). Qed.

(** A stream in a file, its dump to another file; the standard input in more than one chunk. *)
Definition ex_disk : disk := fun f => if String.eqb f "in" then Bytes ex_stream (List.length ex_stream) else Absent.
Definition ex_written (r : res effects) : Prop :=
  match r with
  | Ok x => eff_stdout x = ""%string /\ eff_disk x "in"%string = ex_disk "in"%string /\
      match eff_disk x "out"%string with Bytes c n => (100 < n)%nat /\ List.length c = n | _ => False end
  | _ => False
  end.
Example C68_ex : input ex_disk [] "in" ex_stream /\ (forall data, ~ input ex_disk [] "out" data) /\
  parse_args [Infile "in"; Outfile "out"] =
    Go (mkargs false true false false false false false false (-1) 30 None (Some "in") (Some "out"))%string /\
  ex_written (tool_main EmptyString true (fun _ => true) ex_disk [] [Infile "in"; Outfile "out"]).
Proof.
  split. { right. split; [discriminate|]. split; [discriminate|]. exists (List.length ex_stream). split; [reflexivity|lia]. }
  split. { intros data [[X _]|(_ & _ & n & X & _)]; discriminate. }
  split; [reflexivity|]. vm_compute. split; [reflexivity|]. split; [reflexivity|]. split; [lia|reflexivity].
Qed.
Example C68_ex_stdin : ReadFile ex_disk (repeat 7 (N.to_nat 10000)) (Some "-"%string) = Ok (Some (repeat 7 (N.to_nat 10000))).
Proof. vm_compute. reflexivity. Qed.

Example C68_ex_avcc : exists g, parse_args [AvccFile "box"; Outfile "out"] = Go g /\ arg_infile g = None /\ arg_outfile g = Some "out"%string.
Proof. eexists. split; [reflexivity|]. split; reflexivity. Qed.

Print Assumptions C68_read.
Print Assumptions C68_tool.
Print Assumptions C68_in_place.
Print Assumptions C68_refused.
Print Assumptions C68_avcc_only.
Print Assumptions C68_defined.
Print Assumptions C68_empty_refuted.
