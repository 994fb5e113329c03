(** Property C67: the frame rate of a VUI. *)
From Coq Require Import NArith ZArith QArith Qabs Lia Lqa SpecFloat List.
From Verif Require Import SpecBits Base BitBuffer SpecReader SpecRbsp RbspProofs SpecSyntax TypesSps Vui SpecVui PropsSps
  Framerate SpecFramerate FloatProofs.
Import ListNotations.
Open Scope Q_scope.

(** A VUI that the parser returned *)
Definition accepted (v : vui) : Prop := exists b b', reachable b /\ ParseVuiParameters b = (Ok v, b').
Definition timed (v : vui) : Prop := accepted v /\ timing_info_present_flag v = 1%N.
Lemma accepted_valid : forall v, accepted v -> valid_vui v.
Proof. intros v (b & b' & R & E). destruct (C27_vui_exact b R) as (_ & S & _). apply (S v b' E). Qed.
Lemma timed_bounds : forall v, timed v -> (0 < num_units_in_tick v < 2 ^ 32)%N /\ (0 < time_scale v < 2 ^ 32)%N.
Proof.
  intros v [A T]. apply accepted_valid in A. unfold valid_vui in A.
  destruct A as (_ & _ & _ & _ & _ & A). repeat match type of A with
    | (if on (timing_info_present_flag v) then _ else _) /\ _ => fail 1
    | _ /\ _ => destruct A as [_ A] end.
  rewrite T in A. cbn in A. tauto.
Qed.

(** It is a normal number of the type float: the one nearest to the double that is nearest to
    time_scale / (2 * num_units_in_tick). *)
Theorem C67_rate : forall v, timed v -> exists md ed m e,
  getFramerate v = S754_finite false m e /\
  nearest 53 (frame_rate v) md ed /\ nearest 24 (dyadic md ed) (Zpos m) e.
Proof. intros v T. destruct (timed_bounds v T). apply rate_rounded; auto. Qed.

(** The relative error is below 1 / (2^24 - 1). *)
Theorem C67_error : forall v m e, timed v -> getFramerate v = S754_finite false m e ->
  Qabs (dyadic (Zpos m) e - frame_rate v) < frame_rate v / 16777215.
Proof.
  intros v m e T E. destruct (C67_rate v T) as (md & ed & m' & e' & E' & D & F). rewrite E in E'. injection E' as <- <-.
  destruct (timed_bounds v T) as [B1 B2]. destruct (rate_bounds v B1 B2) as [P _]. pose proof (p2_pos (-33)) as P0.
  pose proof (nearest_error 53 _ _ _ ltac:(lia) D) as X1. pose proof (nearest_error 24 _ _ _ ltac:(lia) F) as X2.
  change (inject_Z (2 ^ 53)) with 9007199254740992 in X1. change (inject_Z (2 ^ 24)) with 16777216 in X2.
  set (x := frame_rate v) in *. set (y := dyadic md ed) in *. set (f := dyadic (Zpos m) e) in *.
  assert (K : x / 16777215 == x * (1 # 16777215)) by reflexivity. rewrite K. clear K D F. absolute; lra.
Qed.

(** Whenever the quotient is a float, that is the result. *)
Theorem C67_exact : forall v m0 e0, timed v -> normal 24 m0 -> frame_rate v == dyadic m0 e0 ->
  getFramerate v = S754_finite false (Z.to_pos m0) e0.
Proof.
  intros v m0 e0 T M X. destruct (C67_rate v T) as (md & ed & m & e & -> & D & F).
  assert (Y : dyadic md ed == frame_rate v).
  { apply (nearest_exact 53 _ md ed (m0 * 2 ^ 29) (e0 - 29)%Z D).
    - unfold normal in *. change (2 ^ 29)%Z with 536870912%Z. change (2 ^ (24 - 1))%Z with 8388608%Z in M. change (2 ^ 24)%Z with 16777216%Z in M.
      change (2 ^ (53 - 1))%Z with 4503599627370496%Z. change (2 ^ 53)%Z with 9007199254740992%Z. lia.
    - rewrite dy_shift by lia. replace (e0 - 29 + 29)%Z with e0 by lia. exact X. }
  assert (Z : dyadic (Zpos m) e == dyadic md ed) by (apply (nearest_exact 24 _ _ _ m0 e0 F M); lra).
  destruct (dyadic_inj 24 (Zpos m) e m0 e0 ltac:(lia)) as [<- <-]; [apply F|exact M|lra|reflexivity].
Qed.

(** It depends on the quotient only, and a larger quotient gives no smaller result. *)
Theorem C67_monotone : forall v v' m e m' e', timed v -> timed v' ->
  getFramerate v = S754_finite false m e -> getFramerate v' = S754_finite false m' e' ->
  frame_rate v <= frame_rate v' -> dyadic (Zpos m) e <= dyadic (Zpos m') e'.
Proof.
  intros v v' m e m' e' T T' E E' L. destruct (C67_rate v T) as (d & k & m1 & e1 & G & D & F). rewrite E in G. injection G as <- <-.
  destruct (C67_rate v' T') as (d' & k' & m2 & e2 & G & D' & F'). rewrite E' in G. injection G as <- <-.
  apply (nearest_mono 24 _ _ _ _ _ _ ltac:(lia) F F'). apply (nearest_mono 53 _ _ _ _ _ _ ltac:(lia) D D' L).
Qed.
Theorem C67_quotient : forall v v', timed v -> timed v' -> frame_rate v == frame_rate v' -> getFramerate v = getFramerate v'.
Proof.
  intros v v' T T' L. destruct (C67_rate v T) as (d & k & m & e & -> & D & F). destruct (C67_rate v' T') as (d' & k' & m' & e' & -> & D' & F').
  destruct (nearest_unique 53 _ _ _ _ _ _ ltac:(lia) D D' L) as [-> ->].
  destruct (nearest_unique 24 _ _ _ _ _ _ ltac:(lia) F F' ltac:(reflexivity)) as [H ->]. injection H as ->. reflexivity.
Qed.

(** With num_units_in_tick below 2^29 it is the float nearest to the quotient ... *)
Theorem C67_nearest : forall v, timed v -> (num_units_in_tick v < 2 ^ 29)%N -> exists m e,
  getFramerate v = S754_finite false m e /\ nearest 24 (frame_rate v) (Zpos m) e.
Proof.
  intros v T B. destruct (timed_bounds v T) as [B1 B2]. destruct (C67_rate v T) as (md & ed & m & e & E & D & F).
  exists m, e. split; [exact E|].
  apply (rounded_once (Z.of_N (time_scale v)) (Z.of_N (num_units_in_tick v)) md ed); auto; lia.
Qed.
(** ... but not for every VUI: rounding twice can give the neighbour. *)
Definition vui_twice : vui :=
  mkvui 0 0 0 0 0 0 0 0 0 0 0 0 0 0 0 0 1 536874927 469080260 0 0 None 0 None 0 0 0 0 0 0 0 0 0 0.
Lemma read_back : forall v, valid_vui v -> fst (ParseVuiParameters (fresh (enc_vui v ++ stop_bits 7))) = Ok v ->
  (N.of_nat (length (octets (enc_vui v ++ stop_bits 7))) < 2 ^ 61)%N -> bytes_ok (octets (enc_vui v ++ stop_bits 7)) -> accepted v.
Proof.
  intros v _ E L B. exists (fresh (enc_vui v ++ stop_bits 7)), (snd (ParseVuiParameters (fresh (enc_vui v ++ stop_bits 7)))).
  split; [apply fresh_reachable; auto|]. rewrite <- E. destruct (ParseVuiParameters _). reflexivity.
Qed.
Lemma timed_twice : timed vui_twice.
Proof.
  split; [|reflexivity]. apply read_back; [valid_tac|vm_compute; reflexivity|vm_compute; reflexivity|].
  vm_compute. repeat constructor.
Qed.
Theorem C67_nearest_refuted : exists v, timed v /\ exists m e, getFramerate v = S754_finite false m e /\
  ~ nearest 24 (frame_rate v) (Zpos m) e.
Proof.
  exists vui_twice. split; [apply timed_twice|]. exists 14658648%positive, (-25)%Z. split; [vm_compute; reflexivity|].
  intros [_ N]. destruct (N 14658649 (-25))%Z as [C _]; [unfold normal; cbn; lia|].
  vm_compute in C. apply C. reflexivity.
Qed.
(** Without timing information there is no rate. *)
Theorem C67_untimed : forall v, accepted v -> timing_info_present_flag v = 0%N -> getFramerate v = S754_nan.
Proof.
  intros v A T. apply accepted_valid in A. unfold valid_vui in A.
  destruct A as (_ & _ & _ & _ & _ & A). repeat match type of A with
    | (if on (timing_info_present_flag v) then _ else _) /\ _ => fail 1
    | _ /\ _ => destruct A as [_ A] end.
  rewrite T in A. cbn in A. destruct A as [(A1 & A2 & _) _]. unfold getFramerate. rewrite A1, A2. vm_compute. reflexivity.
Qed.

(** 60000 / (2 * 1001), and 25 frames per second in two ways *)
Definition vui_pal (k : N) : vui :=
  mkvui 0 0 0 0 0 0 0 0 0 0 0 0 0 0 0 0 1 k (50 * k) 0 0 None 0 None 0 0 0 0 0 0 0 0 0 0.
Example C67_ex : timed ex_vui /\ timed (vui_pal 1) /\ timed (vui_pal 1800) /\
  getFramerate ex_vui = S754_finite false 15712927 (-19) /\
  getFramerate (vui_pal 1) = S754_finite false 13107200 (-19) /\
  getFramerate (vui_pal 1800) = getFramerate (vui_pal 1) /\ dyadic 13107200 (-19) == 25.
Proof.
  do 3 (split; [split; [apply read_back; [valid_tac|vm_compute; reflexivity|vm_compute; reflexivity|vm_compute; repeat constructor]|reflexivity]|]).
  do 3 (split; [vm_compute; reflexivity|]). reflexivity.
Qed.

Print Assumptions C67_rate.
Print Assumptions C67_error.
Print Assumptions C67_exact.
Print Assumptions C67_monotone.
Print Assumptions C67_quotient.
Print Assumptions C67_nearest.
Print Assumptions C67_nearest_refuted.
Print Assumptions C67_untimed.
