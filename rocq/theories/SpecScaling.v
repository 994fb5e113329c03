(** Specification of scaling lists: syntax 7.3.2.1.1.1 and equation 7-40. *)
From Coq Require Import NArith ZArith List Bool.
From Verif Require Import SpecBits TypesSps.
Import ListNotations.
Open Scope N_scope.

(** nextScale = ( lastScale + delta_scale + 256 ) % 256 *)
Definition next (last : N) (d : Z) : N := Z.to_N ((Z.of_N last + d + 256) mod 256).

(** The values a sequence of deltas gives, starting from lastScale [last] with [n] entries
    to fill: once nextScale is 0 the rest of the list repeats lastScale. *)
Fixpoint scale_vals (last : N) (n : nat) (ds : list Z) : list N :=
  match n, ds with
  | S n', d :: ds' =>
      if next last d =? 0 then repeat last n
      else next last d :: scale_vals (next last d) n' ds'
  | _, _ => []
  end.
Definition delta_ok (d : Z) : Prop := (-128 <= d <= 127)%Z.

(** [ds] is exactly the delta_scale sequence of a list of [n] entries: it stops when the
    list is full or right after nextScale becomes 0. *)
Fixpoint scale_full (last : N) (n : nat) (ds : list Z) : Prop :=
  match n, ds with
  | O, [] => True
  | S n', d :: ds' =>
      delta_ok d /\
      (if next last d =? 0 then ds' = [] else scale_full (next last d) n' ds')
  | _, _ => False
  end.
(** [ds] is a proper beginning of such a sequence: another delta has to follow. *)
Fixpoint scale_open (last : N) (n : nat) (ds : list Z) : Prop :=
  match n, ds with
  | S n', [] => True
  | S n', d :: ds' => delta_ok d /\ next last d <> 0 /\ scale_open (next last d) n' ds'
  | O, _ => False
  end.

(** What can follow a list's present flag: nothing, a complete list, a list ending in an
    out-of-range delta, or a list in which a delta could not be read at all ([z] zero bits
    being skipped).  The standard only has the first two. *)
Inductive slist :=
| NoList
| FullList (ds : list Z)
| BadDelta (ds : list Z) (d : Z)
| CutShort (ds : list Z) (z : nat).

Definition slist_ok (size : nat) (s : slist) : Prop :=
  match s with
  | NoList => True
  | FullList ds => scale_full 8 size ds
  | BadDelta ds d => scale_open 8 size ds /\ (Z.abs d <= 2 ^ 31 - 1)%Z /\ ~ delta_ok d
  | CutShort ds z => scale_open 8 size ds
  end.
(** The standard's lists. *)
Definition slist_std (s : slist) : Prop :=
  match s with NoList | FullList _ => True | _ => False end.
Definition slist_readable (s : slist) : Prop :=
  match s with CutShort _ _ => False | _ => True end.

Definition enc_slist (s : slist) : list bool :=
  match s with
  | NoList => u_bits 1 0
  | FullList ds => u_bits 1 1 ++ flat_map se_bits ds
  | BadDelta ds d => u_bits 1 1 ++ flat_map se_bits ds ++ se_bits d
  | CutShort ds z => u_bits 1 1 ++ flat_map se_bits ds ++ repeat false z
  end.

(** Store [x] at index [i] of a vector, growing it with zeros. *)
Fixpoint put (i : nat) (x : N) (v : list N) : list N :=
  match i, v with
  | O, [] => [x]
  | O, _ :: t => x :: t
  | S i', [] => 0 :: put i' x []
  | S i', h :: t => h :: put i' x t
  end.
(** Overwrite the beginning of a vector. *)
Definition overlay (vals v : list N) : list N := vals ++ skipn (length vals) v.

Definition size_of (i : nat) : nat := if (i <? 6)%nat then 16%nat else 64%nat.

(** useDefaultScalingMatrixFlag: the first delta makes nextScale 0. *)
Definition default_flag (ds : list Z) : N :=
  match ds with [] => 0 | d :: _ => if next 8 d =? 0 then 1 else 0 end.

(** What deltas [ds] of list [i] leave in the six vectors; [d] is the last delta read.
    Lists 0..5 all go to ScalingList4x4, the others to ScalingList8x8; both kinds leave
    their flag in UseDefaultScalingMatrix4x4Flag (the code's behaviour, see DESIGN). *)
Definition store_list (i : nat) (flag : N) (ds : list Z) (d : Z) (s : scal) : scal :=
  let vals := scale_vals 8 (size_of i) ds in
  let flags := scaling_list_present_flag s ++ [flag] in
  let k := if (i <? 6)%nat then i else (i - 6)%nat in
  let dflt := match ds with [] => UseDefaultScalingMatrix4x4Flag s
              | _ => put k (default_flag ds) (UseDefaultScalingMatrix4x4Flag s) end in
  if (i <? 6)%nat
  then mkscal flags (overlay vals (ScalingList4x4 s)) dflt (ScalingList8x8 s)
         (UseDefaultScalingMatrix8x8Flag s) d
  else mkscal flags (ScalingList4x4 s) dflt (overlay vals (ScalingList8x8 s))
         (UseDefaultScalingMatrix8x8Flag s) d.
Definition store (i : nat) (l : slist) (s : scal) : scal :=
  match l with
  | NoList => mkscal (scaling_list_present_flag s ++ [0]) (ScalingList4x4 s)
                (UseDefaultScalingMatrix4x4Flag s) (ScalingList8x8 s)
                (UseDefaultScalingMatrix8x8Flag s) (delta_scale s)
  | FullList ds | CutShort ds _ => store_list i 1 ds (last ds (delta_scale s)) s
  | BadDelta ds d => store_list i 1 ds d s
  end.

Fixpoint store_all (i : nat) (ls : list slist) (s : scal) : scal :=
  match ls with [] => s | l :: t => store_all (S i) t (store i l s) end.
Fixpoint slists_ok (i : nat) (ls : list slist) : Prop :=
  match ls with [] => True | l :: t => slist_ok (size_of i) l /\ slists_ok (S i) t end.
Definition enc_slists (ls : list slist) : list bool := flat_map enc_slist ls.
