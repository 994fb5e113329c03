(** The explicit framing loops. *)
From Coq Require Import NArith ZArith List Bool Lia ZifyBool ZifyNat ZifyN.
From Verif Require Import SpecBits Base BitBuffer BitsLemmas BitBufferProofs RbspProofs
  Framing SpecFraming FramingProofs FramingProofs2.
Import ListNotations.
Open Scope N_scope.
Ltac Zify.zify_post_hook ::= Z.div_mod_to_equations.

Lemma fetch_app : forall pre x t k, k = N.of_nat (length pre) -> fetch (pre ++ x :: t) k = Ok x.
Proof.
  intros pre x t k ->. eapply fetch_skipn with (t := t).
  rewrite Nat2N.id, skipn_app, skipn_all, Nat.sub_diag. reflexivity.
Qed.

Lemma be4 : forall v, v < 2 ^ 32 -> exists a b c d, be_bytes 4 v = [a; b; c; d] /\
  N.shiftl a 24 + N.shiftl b 16 + N.shiftl c 8 + d = v.
Proof.
  intros v H. pose proof (beval_be_bytes 4 v H) as E.
  destruct (be_bytes 4 v) as [|a [|b [|c [|d [|]]]]] eqn:K; try discriminate.
  exists a, b, c, d. split; auto. rewrite !N.shiftl_mul_pow2.
  change (2 ^ 24) with 16777216. change (2 ^ 16) with 65536. change (2 ^ 8) with 256.
  unfold beval in E. cbn [fold_left] in E. lia.
Qed.

Definition idx4 (p : N * N) : nalu_index := mkidx (fst p - 4) (fst p) (snd p).

Lemma framing_loop_spec : forall us fuel pre t acc data,
  data = pre ++ framed 4 us ++ t ->
  N.of_nat (length data) < 2 ^ 32 -> (length data <= fuel + length pre)%nat ->
  stuck 4 false t ->
  Forall (fun u => N.of_nat (length u) < 2 ^ 32) us ->
  framing_loop fuel data (N.of_nat (length data)) (N.of_nat (length pre)) acc =
  Ok (rev acc ++ map idx4 (unit_places 4 (N.of_nat (length pre)) us)).
Proof.
  induction us as [|u us IH]; intros fuel pre t acc data E L F S U.
  - cbn [framed flat_map app unit_places map] in *. rewrite app_nil_r.
    destruct fuel as [|fuel]; cbn [framing_loop].
    { replace (_ <? _) with false by lia. reflexivity. }
    destruct (N.ltb_spec (N.of_nat (length pre)) (N.of_nat (length data))); [|reflexivity].
    assert (LD : length data = (length pre + length t)%nat) by (rewrite E; apply app_length).
    unfold u64. rewrite N.mod_small by lia.
    destruct (N.ltb_spec (N.of_nat (length data)) (N.of_nat (length pre) + 4)); [reflexivity|].
    destruct S as [S|(v & b & -> & V & S)]; [lia|].
    destruct S as [S|[S _]]; [|discriminate].
    destruct (be4 v V) as (a0 & a1 & a2 & a3 & EB & EV). rewrite EB in *. subst data. cbn [app].
    rewrite fetch_app by auto.
    replace (fetch _ (N.of_nat (length pre) + 1)) with (Ok a1).
    2:{ symmetry. replace (pre ++ a0 :: a1 :: a2 :: a3 :: b) with ((pre ++ [a0]) ++ a1 :: a2 :: a3 :: b)
          by now rewrite <- app_assoc.
        apply fetch_app. rewrite app_length. cbn. lia. }
    replace (fetch _ (N.of_nat (length pre) + 2)) with (Ok a2).
    2:{ symmetry. replace (pre ++ a0 :: a1 :: a2 :: a3 :: b) with ((pre ++ [a0; a1]) ++ a2 :: a3 :: b)
          by now rewrite <- app_assoc.
        apply fetch_app. rewrite app_length. cbn. lia. }
    replace (fetch _ (N.of_nat (length pre) + 3)) with (Ok a3).
    2:{ symmetry. replace (pre ++ a0 :: a1 :: a2 :: a3 :: b) with ((pre ++ [a0; a1; a2]) ++ a3 :: b)
          by now rewrite <- app_assoc.
        apply fetch_app. rewrite app_length. cbn. lia. }
    cbn [rbind]. rewrite EV. rewrite !app_length in *. cbn [length] in *.
    rewrite (sub64_small _ (N.of_nat (length pre))) by lia. rewrite sub64_small by lia.
    replace (_ <? v) with true by lia. reflexivity.
  - inversion U as [|? ? U1 U2]; subst x l.
    cbn [framed flat_map app unit_places map] in *. fold (framed 4 us) in *.
    set (v := N.of_nat (length u)) in *.
    assert (LD : length data = (length pre + 4 + length u + length (framed 4 us ++ t))%nat).
    { rewrite E, <- !app_assoc, !app_length, be_bytes_length. lia. }
    destruct fuel as [|fuel]; [lia|]. cbn [framing_loop].
    replace (_ <? N.of_nat (length data)) with true by lia.
    unfold u64 at 1. rewrite N.mod_small by lia.
    replace (N.of_nat (length data) <? _) with false by lia.
    destruct (be4 v U1) as (a0 & a1 & a2 & a3 & EB & EV).
    assert (E' : data = pre ++ [a0; a1; a2; a3] ++ u ++ framed 4 us ++ t)
      by (rewrite E, EB, <- !app_assoc; reflexivity).
    assert (F0 : fetch data (N.of_nat (length pre)) = Ok a0)
      by (rewrite E'; apply fetch_app; auto).
    assert (F1 : fetch data (N.of_nat (length pre) + 1) = Ok a1).
    { rewrite E'. change ([a0; a1; a2; a3] ++ u ++ framed 4 us ++ t) with
        ([a0] ++ a1 :: [a2; a3] ++ u ++ framed 4 us ++ t). rewrite app_assoc.
      apply fetch_app. rewrite app_length. cbn. lia. }
    assert (F2 : fetch data (N.of_nat (length pre) + 2) = Ok a2).
    { rewrite E'. change ([a0; a1; a2; a3] ++ u ++ framed 4 us ++ t) with
        ([a0; a1] ++ a2 :: [a3] ++ u ++ framed 4 us ++ t). rewrite app_assoc.
      apply fetch_app. rewrite app_length. cbn. lia. }
    assert (F3 : fetch data (N.of_nat (length pre) + 3) = Ok a3).
    { rewrite E'. change ([a0; a1; a2; a3] ++ u ++ framed 4 us ++ t) with
        ([a0; a1; a2] ++ a3 :: u ++ framed 4 us ++ t). rewrite app_assoc.
      apply fetch_app. rewrite app_length. cbn. lia. }
    rewrite F0, F1, F2, F3. cbn [rbind]. rewrite EV.
    rewrite (sub64_small _ (N.of_nat (length pre))) by lia. rewrite sub64_small by lia.
    replace (_ <? v) with false by lia.
    unfold u32, u64. rewrite (N.mod_small (4 + v)) by lia. rewrite N.mod_small by lia.
    replace (N.of_nat (length pre) + (4 + v)) with (N.of_nat (length (pre ++ [a0; a1; a2; a3] ++ u)))
      by (rewrite !app_length; cbn [length]; lia).
    rewrite (IH fuel (pre ++ [a0; a1; a2; a3] ++ u) t _ data).
    + cbn [rev]. rewrite <- app_assoc. cbn [app]. f_equal. f_equal. f_equal.
      * unfold idx4. cbn [fst snd]. f_equal. change (N.of_nat 4) with 4. lia.
      * do 2 f_equal. rewrite !app_length. cbn [length]. lia.
    + rewrite E', <- !app_assoc. reflexivity.
    + auto.
    + rewrite !app_length. cbn [length]. lia.
    + auto.
    + auto.
Qed.

(** * Length-prefixed parsing *)
Lemma nlb_loop_spec : forall h pre rest i v data, data = pre ++ h ++ rest ->
  i = N.of_nat (length pre) ->
  nalu_length_bytes_loop (length h) data i v =
  Ok (if (length h =? 0)%nat then v
      else (v * 2 ^ (8 * N.of_nat (length h)) + beval h) mod 2 ^ 64).
Proof.
  induction h as [|x h IH]; intros pre rest i v data E I; [reflexivity|].
  cbn [length nalu_length_bytes_loop].
  replace (fetch data i) with (@Ok N x) by (rewrite E; symmetry; apply (fetch_app pre x (h ++ rest)); auto).
  cbn [rbind].
  rewrite (IH (pre ++ [x]) rest); [|now rewrite E, <- app_assoc|rewrite app_length; cbn; lia].
  f_equal. cbn [Nat.eqb]. rewrite beval_cons.
  replace (8 * N.of_nat (S (length h))) with (8 + 8 * N.of_nat (length h)) by lia.
  rewrite N.pow_add_r. rewrite N.shiftl_mul_pow2.
  destruct (length h =? 0)%nat eqn:H0.
  - assert (length h = 0%nat) by lia. destruct h; [|discriminate].
    cbn [length]. unfold u64, beval. cbn [fold_left]. f_equal.
    change (8 * N.of_nat 0) with 0. change (2 ^ 0) with 1. lia.
  - unfold u64. rewrite <- (N.add_mod_idemp_l (_ mod _ * _)) by lia.
    rewrite N.mul_mod_idemp_l by lia. rewrite N.add_mod_idemp_l by lia. f_equal. ring.
Qed.

Definition onto {A B} (acc : list B) (r : res (list B) * A) : res (list B) * A :=
  match r with (Ok l, s) => (Ok (rev acc ++ l), s) | r => r end.

Lemma onto_visit : forall {A S} (parse : N -> N -> S -> res A * S) tag i n t acc s,
  onto acc (visit_all parse tag ((i, n) :: t) s) =
  match parse i n s with
  | (Ok a, s') => onto ((a, i, tag) :: acc) (visit_all parse tag t s')
  | (Null, s') => onto acc (visit_all parse tag t s')
  | (UB k, s') => (UB k, s')
  | (Abort, s') => (Abort, s')
  | (NoFuel, s') => (NoFuel, s')
  end.
Proof.
  intros. cbn [visit_all]. destruct (parse i n s) as [[a| | | |] s']; auto.
  destruct (visit_all parse tag t s') as [[l| | | |] s'']; cbn [onto]; auto.
  cbn [rev]. rewrite <- app_assoc. reflexivity.
Qed.

Lemma nalu_length_loop_spec : forall {A S} (parse : N -> N -> S -> res A * S) us fuel pre t acc s data nlb,
  0 < nlb ->
  data = pre ++ framed (N.to_nat nlb) us ++ t ->
  N.of_nat (length data) < 2 ^ 62 -> nlb < 8 \/ (t = [] /\ Forall (fun u => N.of_nat (length u) < 2 ^ 62) us) ->
  (length data <= fuel + length pre)%nat ->
  stuck (N.to_nat nlb) true t ->
  Forall (fun u => N.of_nat (length u) < 2 ^ (8 * nlb) /\ (true = true -> u <> [])) us ->
  nalu_length_loop parse fuel data (N.of_nat (length data)) nlb (N.of_nat (length pre)) acc s =
  onto acc (visit_all parse nlb (unit_places (N.to_nat nlb) (N.of_nat (length pre)) us) s).
Proof.
  intros A S parse. induction us as [|u us IH]; intros fuel pre t acc s data nlb N0 E L W F ST U.
  - cbn [framed flat_map app unit_places visit_all onto] in *. rewrite app_nil_r.
    destruct fuel as [|fuel]; cbn [nalu_length_loop].
    { replace (_ <? _) with false by lia. reflexivity. }
    assert (LD : length data = (length pre + length t)%nat) by (rewrite E; apply app_length).
    destruct (N.ltb_spec (N.of_nat (length pre)) (N.of_nat (length data))) as [LT|]; [|reflexivity].
    replace (0 <? nlb) with true by lia.
    unfold read_nalu_length. rewrite sub64_small by lia.
    destruct (N.ltb_spec (N.of_nat (length data) - N.of_nat (length pre)) nlb); [reflexivity|].
    destruct W as [W|[-> _]]; [|cbn in LD; lia].
    destruct ST as [ST|(v & b & -> & V & ST)]; [lia|].
    pose proof (nlb_loop_spec (be_bytes (N.to_nat nlb) v) pre b (N.of_nat (length pre)) 0 data E eq_refl) as R.
    rewrite be_bytes_length, beval_be_bytes in R by auto. rewrite R.
    replace (N.to_nat nlb =? 0)%nat with false by lia.
    rewrite app_length, be_bytes_length in LD.
    assert (V56 : v < 2 ^ 56).
    { eapply N.lt_le_trans; [exact V|]. apply N.pow_le_mono_r; lia. }
    rewrite N.mul_0_l, N.add_0_l, N.mod_small by lia.
    unfold u64. rewrite (N.mod_small (_ + nlb)) by lia. rewrite N.mod_small by lia.
    replace ((v =? 0) || _) with true by (destruct ST as [ST|[_ ST]]; lia). reflexivity.
  - inversion U as [|? ? [U1 UN] U2]; subst x l.
    cbn [framed flat_map unit_places] in *. fold (framed (N.to_nat nlb) us) in *.
    assert (UNZ : (0 < length u)%nat) by (destruct u; [exfalso; apply UN; auto|cbn; lia]).
    set (v := N.of_nat (length u)) in *. set (n := N.to_nat nlb) in *.
    assert (LD : length data = (length pre + n + length u + length (framed n us ++ t))%nat).
    { rewrite E, <- !app_assoc, !app_length, be_bytes_length. lia. }
    destruct fuel as [|fuel]; [lia|]. cbn [nalu_length_loop].
    replace (_ <? N.of_nat (length data)) with true by lia.
    replace (0 <? nlb) with true by lia.
    unfold read_nalu_length. rewrite sub64_small by lia.
    replace (_ <? nlb) with false by lia.
    assert (E' : data = pre ++ be_bytes n v ++ (u ++ framed n us ++ t))
      by (rewrite E, <- !app_assoc; reflexivity).
    pose proof (nlb_loop_spec (be_bytes n v) pre _ (N.of_nat (length pre)) 0 data E' eq_refl) as R.
    rewrite be_bytes_length, beval_be_bytes in R by (unfold n; rewrite N2Nat.id; auto).
    fold n. rewrite R. replace (n =? 0)%nat with false by lia.
    rewrite N.mul_0_l, N.add_0_l, N.mod_small by lia.
    unfold u64. rewrite (N.mod_small (_ + nlb)) by lia. rewrite N.mod_small by lia.
    replace ((v =? 0) || _) with false by lia.
    replace (N.of_nat (length pre) + nlb + v) with (N.of_nat (length (pre ++ be_bytes n v ++ u)))
      by (rewrite !app_length, be_bytes_length; lia).
    rewrite onto_visit.
    replace (N.of_nat (length pre) + N.of_nat n) with (N.of_nat (length pre) + nlb) by lia.
    assert (IHs : forall acc' s',
      nalu_length_loop parse fuel data (N.of_nat (length data)) nlb
        (N.of_nat (length (pre ++ be_bytes n v ++ u))) acc' s' =
      onto acc' (visit_all parse nlb (unit_places n (N.of_nat (length pre) + nlb + v) us) s')).
    { intros acc' s'.
      rewrite (IH fuel (pre ++ be_bytes n v ++ u) t acc' s' data nlb); auto.
      - do 3 f_equal. rewrite !app_length, be_bytes_length. lia.
      - rewrite E', <- !app_assoc. reflexivity.
      - destruct W as [W|[W1 W2]]; auto. inversion W2; auto.
      - rewrite !app_length, be_bytes_length. lia. }
    destruct (parse (N.of_nat (length pre) + nlb) v s) as [[a| | | |] s']; auto.
Qed.

(** Without length fields the whole buffer is one unit. *)
Lemma nalu_length_loop_zero : forall {A S} (parse : N -> N -> S -> res A * S) fuel data s,
  (0 < length data)%nat -> (1 <= fuel)%nat -> N.of_nat (length data) < 2 ^ 62 ->
  nalu_length_loop parse fuel data (N.of_nat (length data)) 0 0 [] s =
  visit_all parse 0 [(0, N.of_nat (length data))] s.
Proof.
  intros A S parse fuel data s L F B. destruct fuel as [|fuel]; [lia|]. cbn [nalu_length_loop].
  replace (0 <? N.of_nat (length data)) with true by lia.
  change (0 <? 0) with false. cbn iota. cbn [visit_all].
  assert (G : forall acc s, nalu_length_loop parse fuel data (N.of_nat (length data)) 0
     (u64 (0 + N.of_nat (length data))) acc s = (Ok (rev acc), s)).
  { intros acc s'. unfold u64. rewrite N.add_0_l, N.mod_small by lia.
    destruct fuel; cbn [nalu_length_loop]; rewrite N.ltb_irrefl; reflexivity. }
  destruct (parse 0 (N.of_nat (length data)) s) as [[a| | | |] s']; rewrite ?G; reflexivity.
Qed.
