(** C16-C21: splitting byte strings into NAL units. *)
From Coq Require Import NArith ZArith List Bool Lia ZifyBool ZifyNat ZifyN.
From Verif Require Import SpecBits Base BitBuffer BitsLemmas BitBufferProofs RbspProofs
  Framing SpecFraming FramingProofs FramingProofs2 FramingProofs3.
Import ListNotations.
Open Scope N_scope.
Ltac Zify.zify_post_hook ::= Z.div_mod_to_equations.

Definition size_of (l : list N) : N := N.of_nat (length l).

(** * C16: Annex B splitting is sound *)
Theorem C16_annexb_sound : forall l, size_of l < 2 ^ 64 ->
  exists r, FindNaluIndices l (size_of l) = Ok r /\
    (* every entry is a start code with an optional single zero byte before it *)
    (forall x, In x r -> exists p, ni_payload x = p + 3 /\ start_code_at l p /\
       (zero_before l p /\ ni_start x + 1 = p \/ ~ zero_before l p /\ ni_start x = p)) /\
    (* payloads run up to the next entry ... *)
    (forall a x y b, r = a ++ x :: y :: b ->
       ni_payload x + ni_size x = ni_start y /\ ni_start y < ni_payload y) /\
    (* ... or to the end, and are in bounds *)
    (forall a x, r = a ++ [x] -> ni_payload x + ni_size x = size_of l /\ 0 < ni_size x) /\
    (forall x, In x r -> ni_payload x + ni_size x <= size_of l).
Proof.
  intros l H. unfold size_of in *. rewrite FindNaluIndices_spec by auto.
  eexists. split; [reflexivity|].
  assert (IN : forall p, In p (poss l 0) -> sc_at l p = true).
  { intros p HP. apply poss_in in HP. rewrite N.sub_0_r in HP. tauto. }
  assert (CONS : forall a x y b,
    index_list l (N.of_nat (length l)) (poss l 0) = a ++ x :: y :: b ->
    ni_payload x + ni_size x = ni_start y /\ ni_start y < ni_payload y).
  { intros a x y b E. apply index_list_split in E. destruct E as (pa & p & pb & EP & E).
    destruct pb as [|q pb]; [cbn [index_list] in E; discriminate|].
    cbn [index_list] in E. injection E as <- <- _. cbn [ni_payload ni_size ni_start].
    assert (PQ : p < q) by (eapply (proj1 (poss_sorted l 0)); eauto).
    assert (sc_at l p = true) by (apply IN; rewrite EP; apply in_or_app; right; left; auto).
    assert (sc_at l q = true) by (apply IN; rewrite EP; apply in_or_app; right; right; left; auto).
    pose proof (sc_gap l p q H0 H1 PQ). pose proof (start_of_le l q). lia. }
  assert (LAST : forall a x,
    index_list l (N.of_nat (length l)) (poss l 0) = a ++ [x] ->
    ni_payload x + ni_size x = N.of_nat (length l) /\ 0 < ni_size x).
  { intros a x E. apply index_list_split in E. destruct E as (pa & p & pb & EP & E).
    destruct pb as [|q pb]; [|cbn [index_list] in E; discriminate].
    cbn [index_list] in E. injection E as <-. cbn [ni_payload ni_size].
    assert (sc_at l p = true) by (apply IN; rewrite EP; apply in_or_app; right; left; auto).
    pose proof (sc_room l p H0). lia. }
  split; [|split; [exact CONS|split; [exact LAST|]]].
  - intros x HX. apply index_list_in in HX. destruct HX as (p & HP & E1 & E2).
    exists p. split; auto. apply IN in HP. split; [now apply sc_at_iff|].
    rewrite E1. apply start_of_cases. apply sc_room in HP. lia.
  - intros x HX. apply in_split in HX. destruct HX as (a & b & E).
    destruct b as [|y b].
    + destruct (LAST a x E). lia.
    + destruct (CONS a x y b E) as [E1 E2].
      assert (HY : In y (index_list l (N.of_nat (length l)) (poss l 0)))
        by (rewrite E; apply in_or_app; right; right; left; auto).
      apply index_list_in in HY. destruct HY as (q & HQ & ES & EP).
      apply IN, sc_room in HQ. pose proof (start_of_le l q). lia.
Qed.
Example C16_ex : FindNaluIndices [7; 0; 0; 0; 1; 9; 9; 0; 0; 0; 0; 1; 5; 0; 0; 1] 16 =
  Ok [mkidx 1 5 3; mkidx 8 12 4].
Proof. reflexivity. Qed.

(** * C17: Annex B splitting is complete *)
Theorem C17_annexb_complete : forall l, size_of l < 2 ^ 64 ->
  exists r, FindNaluIndices l (size_of l) = Ok r /\
    (forall p, start_code_at l p <-> In (p + 3) (map ni_payload r)) /\
    (forall a x y b, r = a ++ x :: y :: b -> ni_payload x < ni_payload y) /\
    NoDup (map ni_payload r).
Proof.
  intros l H. unfold size_of in *. rewrite FindNaluIndices_spec by auto.
  eexists. split; [reflexivity|]. rewrite index_list_payloads.
  destruct (poss_sorted l 0) as [PS ND]. split; [|split].
  - intros p. rewrite in_map_iff, <- sc_at_iff. split.
    + intros HS. exists p. split; auto. apply poss_in. rewrite N.sub_0_r. split; [lia|auto].
    + intros (q & E & HQ). apply poss_in in HQ. rewrite N.sub_0_r in HQ.
      replace p with q by lia. tauto.
  - intros a x y b E. apply index_list_split in E. destruct E as (pa & p & pb & EP & E).
    destruct pb as [|q pb]; [cbn [index_list] in E; discriminate|].
    cbn [index_list] in E. injection E as <- <- _. cbn [ni_payload]. specialize (PS _ _ _ _ EP). lia.
  - apply FinFun.Injective_map_NoDup; auto. intros x y. lia.
Qed.
(** A start code that is the very end of the buffer is not reported. *)
Theorem C17_final_start_code_missed_refuted : exists l,
  (exists a, l = a ++ [0; 0; 1]) /\ FindNaluIndices l (size_of l) = Ok [].
Proof. exists [5; 0; 0; 1]. split; [exists [5]; reflexivity|reflexivity]. Qed.
Example C17_ex : start_code_at [0; 0; 0; 1; 1; 0; 0; 1; 8] 5.
Proof. exists [0; 0; 0; 1; 1], 8, []. split; reflexivity. Qed.

(** * C18: Annex B round trip *)
(** Splitting a byte stream made of NAL units and 3- or 4-byte start codes gives exactly
    those NAL units, and [start_offset, payload_start) is exactly the start code. *)
Theorem C18_annexb_round_trip : forall us,
  Forall (fun u => nal_bytes (snd u)) us -> size_of (annexb us) < 2 ^ 64 ->
  exists r, FindNaluIndices (annexb us) (size_of (annexb us)) = Ok r /\
    map (fun x => (slice (ni_start x) (ni_payload x - ni_start x) (annexb us),
                   slice (ni_payload x) (ni_size x) (annexb us))) r =
    map (fun u => (code (fst u), snd u)) us.
Proof.
  intros us F H. unfold size_of in *. rewrite FindNaluIndices_spec by auto.
  eexists. split; [reflexivity|].
  apply (annexb_places us [] (annexb us)); auto. intros [|? ?]; discriminate.
Qed.
(** NAL units whose payload was escaped as the standard says can be multiplexed. *)
Theorem C18_escaped_units : forall h l, h <> 0 -> SpecRbsp.conforming l ->
  (forall a, l <> a ++ [0]) -> nal_bytes (h :: l).
Proof.
  intros h l H (C1 & C2 & C3) E. split; [discriminate|]. split.
  - intros [|a0 a] x b EQ.
    + injection EQ as EQ _. congruence.
    + injection EQ as _ EQ. specialize (C1 _ _ _ EQ). lia.
  - intros [|a0 a] EQ.
    + injection EQ as EQ _. congruence.
    + injection EQ as _ EQ. eapply E; eauto.
Qed.
(** Outside that domain information is lost: a final zero byte joins the next start code. *)
Theorem C18_final_zero_byte_refuted : exists us r,
  FindNaluIndices (annexb us) (size_of (annexb us)) = Ok r /\
  map (fun x => slice (ni_payload x) (ni_size x) (annexb us)) r <> map snd us.
Proof.
  exists [(false, [5; 0]); (false, [6])]. eexists. split; [reflexivity|]. discriminate.
Qed.
Example C18_ex : Forall (fun u => nal_bytes (snd u)) [(true, [103; 0; 0; 3; 1]); (false, [104])] /\
  annexb [(true, [103; 0; 0; 3; 1]); (false, [104])] = [0; 0; 0; 1; 103; 0; 0; 3; 1; 0; 0; 1; 104].
Proof.
  split; [|reflexivity]. apply Forall_cons; [|apply Forall_cons; [|apply Forall_nil]]; cbn [snd].
  - split; [discriminate|split].
    + intros [|? [|? [|? [|? [|? ?]]]]] x b E; try discriminate E; injection E; intros; subst; try lia;
        destruct l; discriminate.
    + intros [|? [|? [|? [|? [|? ?]]]]] E; try discriminate E; injection E; intros;
        destruct l; discriminate.
  - split; [discriminate|split].
    + intros [|? [|? ?]] x b E; discriminate E.
    + intros [|? [|? ?]] E; discriminate E.
Qed.

(** * C19: explicit framing with 4-byte sizes *)
(** Every buffer below 4 GiB is a sequence of complete units followed by a tail where no
    complete unit starts; exactly those units are reported. *)
Theorem C19_framing_exact : forall l, bytes_ok l -> size_of l < 2 ^ 32 ->
  exists us t r, l = framed 4 us ++ t /\ stuck 4 false t /\
    FindNaluIndicesExplicitFraming l (size_of l) = Ok r /\
    map (fun x => (ni_payload x, ni_size x)) r = unit_places 4 0 us /\
    (forall x, In x r -> ni_start x + 4 = ni_payload x).
Proof.
  intros l B H. unfold size_of in *.
  destruct (framed_split (length l) 4 false l) as (us & t & E & S & F); auto; try lia.
  exists us, t, (map idx4 (unit_places 4 0 us)). split; auto. split; auto. split.
  - unfold FindNaluIndicesExplicitFraming.
    apply (framing_loop_spec us (length l) [] t [] l); auto.
    + lia.
    + eapply Forall_impl; [|exact F]. intros u HU. exact (proj1 HU).
  - split.
    + rewrite map_map. cbn. rewrite map_ext with (g := fun x => x); [apply map_id|].
      intros [a b]. reflexivity.
    + intros x HX. apply in_map_iff in HX. destruct HX as ([o n] & <- & HP).
      cbn [idx4 ni_start ni_payload fst snd].
      assert (G : forall us o0, In (o, n) (unit_places 4 o0 us) -> o0 + 4 <= o).
      { clear. induction us as [|u us IH]; intros o0 I; cbn [unit_places In] in I; [tauto|].
        destruct I as [I|I]; [injection I as <- _; lia|]. specialize (IH _ I). lia. }
      specialize (G us 0 HP). lia.
Qed.
(** So a well-formed buffer is split into exactly its units. *)
Theorem C19_framing_round_trip : forall us,
  Forall (fun u => bytes_ok u /\ size_of u < 2 ^ 32) us -> size_of (framed 4 us) < 2 ^ 32 ->
  exists r, FindNaluIndicesExplicitFraming (framed 4 us) (size_of (framed 4 us)) = Ok r /\
    map (fun x => slice (ni_payload x) (ni_size x) (framed 4 us)) r = us.
Proof.
  intros us F H. unfold size_of in *. exists (map idx4 (unit_places 4 0 us)). split.
  - unfold FindNaluIndicesExplicitFraming.
    apply (framing_loop_spec us (length (framed 4 us)) [] [] []); auto.
    + now rewrite app_nil_r.
    + lia.
    + left. cbn. lia.
    + eapply Forall_impl; [|exact F]. intros u HU. exact (proj2 HU).
  - rewrite map_map. cbn [idx4 ni_payload ni_size].
    assert (G : forall us pre full, full = pre ++ framed 4 us ->
      map (fun x => slice (fst x) (snd x) full) (unit_places 4 (N.of_nat (length pre)) us) = us).
    { clear. induction us as [|u us IH]; intros pre full E; [reflexivity|].
      cbn [unit_places map framed flat_map fst snd] in *. fold (framed 4 us) in *.
      rewrite <- app_assoc in E.
      set (h := be_bytes 4 (N.of_nat (length u))) in *.
      assert (LH : length h = 4%nat) by apply be_bytes_length.
      replace (N.of_nat (length pre) + N.of_nat 4) with (N.of_nat (length (pre ++ h)))
        by (rewrite app_length; lia).
      f_equal.
      - rewrite E, app_assoc. apply slice_app.
      - replace (N.of_nat (length (pre ++ h)) + N.of_nat (length u))
          with (N.of_nat (length (pre ++ h ++ u))) by (rewrite !app_length; lia).
        apply IH. rewrite E, <- !app_assoc. reflexivity. }
    exact (G us [] (framed 4 us) eq_refl).
Qed.
(** At 4 GiB the step [4 + nal_unit_size] is computed in 32 bits: with the size field
    0xFFFFFFFC it is zero and the loop never ends (it pushes the same index until memory
    runs out). *)
Theorem C19_framing_4gib_refuted : exists l, size_of l = 2 ^ 32 /\ bytes_ok l /\
  forall fuel acc, framing_loop fuel l (size_of l) 0 acc = NoFuel.
Proof.
  exists ([255; 255; 255; 252] ++ repeat 0 (N.to_nat (2 ^ 32 - 4))).
  assert (L : size_of ([255; 255; 255; 252] ++ repeat 0 (N.to_nat (2 ^ 32 - 4))) = 2 ^ 32).
  { unfold size_of. rewrite app_length, repeat_length. cbn [length]. lia. }
  split; [exact L|]. split.
  { apply Forall_app. split; [repeat constructor|]. apply Forall_forall.
    intros x HX. apply repeat_spec in HX. subst. lia. }
  rewrite L. generalize (repeat 0 (N.to_nat (2 ^ 32 - 4))). intros z.
  induction fuel as [|fuel IH]; intros acc; [reflexivity|].
  cbn [framing_loop].
  change (0 <? 2 ^ 32) with true. change (2 ^ 32 <? u64 (0 + 4)) with false. cbn iota.
  change (fetch ([255; 255; 255; 252] ++ z) 0) with (@Ok N 255).
  change (fetch ([255; 255; 255; 252] ++ z) (0 + 1)) with (@Ok N 255).
  change (fetch ([255; 255; 255; 252] ++ z) (0 + 2)) with (@Ok N 255).
  change (fetch ([255; 255; 255; 252] ++ z) (0 + 3)) with (@Ok N 252).
  cbn [rbind].
  change (sub64 (sub64 (2 ^ 32) 0) 4 <? N.shiftl 255 24 + N.shiftl 255 16 + N.shiftl 255 8 + 252)
    with false. cbn iota.
  change (u64 (0 + u32 (4 + (N.shiftl 255 24 + N.shiftl 255 16 + N.shiftl 255 8 + 252)))) with 0.
  apply IH.
Qed.
Example C19_ex : FindNaluIndicesExplicitFraming [0; 0; 0; 2; 9; 8; 0; 0; 0; 0; 0; 0; 0; 7; 1] 15 =
  Ok [mkidx 0 4 2; mkidx 6 10 0] /\
  framed 4 [[9; 8]; []] ++ [0; 0; 0; 7; 1] = [0; 0; 0; 2; 9; 8; 0; 0; 0; 0; 0; 0; 0; 7; 1].
Proof. split; reflexivity. Qed.

(** * C20/C21: length-prefixed parsing *)
(** For length fields of 1..7 bytes, whatever the buffer: it is a sequence of complete
    non-empty units and a stuck tail, and the NAL unit parser is called exactly on those
    units, in order (so in bounds), with results kept in order.  [parse] is any
    parser with any state. *)
Theorem C20_length_prefixed_exact : forall A S (parse : N -> N -> S -> res A * S) l nlb s,
  bytes_ok l -> size_of l < 2 ^ 62 -> 1 <= nlb <= 7 ->
  exists us t, l = framed (N.to_nat nlb) us ++ t /\ stuck (N.to_nat nlb) true t /\
    Forall (fun u => u <> []) us /\
    nalu_length_loop parse (length l) l (size_of l) nlb 0 [] s =
    visit_all parse nlb (unit_places (N.to_nat nlb) 0 us) s /\
    (forall i n, In (i, n) (unit_places (N.to_nat nlb) 0 us) -> 0 < n /\ i + n <= size_of l).
Proof.
  intros A S parse l nlb s B H [H1 H7]. unfold size_of in *.
  destruct (framed_split (length l) (N.to_nat nlb) true l) as (us & t & E & ST & F); auto; try lia.
  exists us, t. split; auto. split; auto.
  assert (NE : Forall (fun u => u <> []) us).
  { eapply Forall_impl; [|exact F]. intros u HU. exact (proj2 HU eq_refl). }
  split; auto. split.
  - pose proof (nalu_length_loop_spec parse us (length l) [] t [] s l nlb) as G.
    cbn [app length] in G. change (N.of_nat 0) with 0 in G. rewrite G; auto; try lia.
    + destruct (visit_all parse nlb _ s) as [[r| | | |] s']; reflexivity.
    + rewrite N2Nat.id in F. exact F.
  - intros i n. replace (length l) with (length (framed (N.to_nat nlb) us ++ t)) by now rewrite <- E.
    clear - NE.
    assert (G : forall us o, Forall (fun u => u <> []) us ->
      In (i, n) (unit_places (N.to_nat nlb) o us) ->
      0 < n /\ i + n <= o + N.of_nat (length (framed (N.to_nat nlb) us))).
    { clear. induction us as [|u us IH]; intros o NE I; cbn [unit_places In] in I; [tauto|].
      inversion NE; subst. cbn [framed flat_map]. fold (framed (N.to_nat nlb) us).
      rewrite !app_length, be_bytes_length. destruct I as [I|I].
      - injection I as <- <-. destruct u; [congruence|]. cbn [length]. lia.
      - apply IH in I; auto. lia. }
    intros I. apply (G us 0 NE) in I. rewrite app_length. lia.
Qed.
(** With 8-byte length fields the bound check [i + nalu_length > length] wraps: the NAL
    unit parser is called with a length far beyond the buffer. *)
Theorem C20_length_prefixed_wrap_refuted : exists l,
  size_of l < 2 ^ 10 /\ bytes_ok l /\
  forall A S (parse : N -> N -> S -> res A * S) s,
    (forall i n s, fst (parse i n s) = Null) ->
    exists s1, nalu_length_loop parse 1 l (size_of l) 8 0 [] s = (NoFuel, s1) /\
    (* the state is the one left by parsing 2^64-8 bytes at offset 8 *)
    s1 = snd (parse 8 (2 ^ 64 - 8) s).
Proof.
  exists [255; 255; 255; 255; 255; 255; 255; 248; 1]. split; [reflexivity|].
  split; [repeat constructor|]. intros A S parse s P. unfold size_of. cbn [length].
  eexists. split; [|reflexivity].
  specialize (P 8 (2 ^ 64 - 8) s).
  transitivity (match parse 8 (2 ^ 64 - 8) s with
    | (Ok a, s') => (@NoFuel (list (A * N * N)), s') | (Null, s') => (NoFuel, s')
    | (UB k, s') => (UB k, s') | (Abort, s') => (Abort, s') | (NoFuel, s') => (NoFuel, s') end).
  - reflexivity.
  - destruct (parse 8 (2 ^ 64 - 8) s) as [r s']. cbn [fst] in P. subst r. reflexivity.
Qed.
(** Nothing framed: a length field size of zero means the whole buffer is one unit. *)
Theorem C20_no_length_field : forall A S (parse : N -> N -> S -> res A * S) l s,
  0 < size_of l < 2 ^ 62 ->
  nalu_length_loop parse (length l) l (size_of l) 0 0 [] s = visit_all parse 0 [(0, size_of l)] s.
Proof. intros. unfold size_of in *. apply nalu_length_loop_zero; lia. Qed.
(** A concatenation of non-empty length-prefixed units is visited unit by unit; offsets are
    recorded truly, but the recorded length is the size of the length field. *)
Theorem C21_units_visited : forall A S (parse : N -> N -> S -> res A * S) us nlb s,
  1 <= nlb -> size_of (framed (N.to_nat nlb) us) < 2 ^ 62 ->
  Forall (fun u => u <> [] /\ size_of u < 2 ^ (8 * nlb)) us ->
  nalu_length_loop parse (length (framed (N.to_nat nlb) us)) (framed (N.to_nat nlb) us)
    (size_of (framed (N.to_nat nlb) us)) nlb 0 [] s =
  visit_all parse nlb (unit_places (N.to_nat nlb) 0 us) s.
Proof.
  intros A S parse us nlb s H1 H F. unfold size_of in *.
  pose proof (nalu_length_loop_spec parse us (length (framed (N.to_nat nlb) us)) [] [] [] s
    (framed (N.to_nat nlb) us) nlb) as G.
  cbn [app length] in G. change (N.of_nat 0) with 0 in G. rewrite app_nil_r in G. rewrite G; auto; try lia.
  - destruct (visit_all parse nlb _ s) as [[r| | | |] s']; reflexivity.
  - right. split; auto. clear - H. revert H. generalize (N.to_nat nlb). intros n.
    induction us as [|u us IH]; intros H; constructor.
    + cbn [framed flat_map] in H. rewrite !app_length in H. lia.
    + apply IH. cbn [framed flat_map] in H. fold (framed n us) in H. rewrite app_length in H. lia.
  - left. cbn. lia.
  - eapply Forall_impl; [|exact F]. intros u [U1 U2]. split; auto.
Qed.
Theorem C21_recorded_length_refuted : exists (l : list N) (parse : N -> N -> unit -> res N * unit),
  fst (nalu_length_loop parse (length l) l (size_of l) 2 0 [] tt) = Ok [(5, 2, 2)] /\
  (* the unit has 5 bytes, the recorded length is 2 *)
  (forall i n s, parse i n s = (Ok n, s)).
Proof.
  exists [0; 5; 103; 1; 2; 3; 4], (fun i n s => (Ok n, s)). split; reflexivity.
Qed.
Example C21_ex : framed 2 [[103; 1]; [104]] = [0; 2; 103; 1; 0; 1; 104] /\
  unit_places 2 0 [[103; 1]; [104]] = [(2, 2); (6, 1)].
Proof. split; reflexivity. Qed.

Print Assumptions C16_annexb_sound.
Print Assumptions C17_annexb_complete.
Print Assumptions C17_final_start_code_missed_refuted.
Print Assumptions C18_annexb_round_trip.
Print Assumptions C18_escaped_units.
Print Assumptions C18_final_zero_byte_refuted.
Print Assumptions C19_framing_exact.
Print Assumptions C19_framing_round_trip.
Print Assumptions C19_framing_4gib_refuted.
Print Assumptions C20_length_prefixed_exact.
Print Assumptions C20_length_prefixed_wrap_refuted.
Print Assumptions C20_no_length_field.
Print Assumptions C21_units_visited.
Print Assumptions C21_recorded_length_refuted.
