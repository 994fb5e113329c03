(** Specification: picture order count of frames (H.264 8.2.1.1, pic_order_cnt_type 0) and list 0
    of B frames (8.2.4.2.3). *)
From Coq Require Import NArith ZArith List Bool Sorting.Sorted Sorting.Permutation.
From Verif Require Import SpecSliceParts SpecDpb.
Import ListNotations.
Open Scope Z_scope.

(** A frame: IDR, reference, memory_management_control_operation 5, pic_order_cnt_lsb and
    delta_pic_order_cnt_bottom *)
Record ocpic := mkocpic { oc_idr : bool; oc_ref : bool; oc_reset : bool; oc_lsb : Z; oc_bottom : Z }.
(** PicOrderCntMsb (8-3); [m]: MaxPicOrderCntLsb *)
Definition order_msb (m prev_msb prev_lsb lsb : Z) : Z :=
  if (lsb <? prev_lsb) && (m / 2 <=? prev_lsb - lsb) then prev_msb + m
  else if (prev_lsb <? lsb) && (m / 2 <? lsb - prev_lsb) then prev_msb - m
  else prev_msb.
(** PicOrderCnt of each frame while it is decoded (8-4, 8-5, 8-1), and afterwards: it is 0 after
    operation 5 *)
Fixpoint order_counts (m prev_msb prev_lsb : Z) (cs : list ocpic) : list (Z * Z) :=
  match cs with
  | [] => []
  | c :: t =>
      let msb := if oc_idr c then order_msb m 0 0 (oc_lsb c) else order_msb m prev_msb prev_lsb (oc_lsb c) in
      let top := msb + oc_lsb c in
      let cnt := Z.min top (top + oc_bottom c) in
      (cnt, if oc_reset c then 0 else cnt) ::
      if negb (oc_ref c) then order_counts m (if oc_idr c then 0 else prev_msb) (if oc_idr c then 0 else prev_lsb) t
      else if oc_reset c then order_counts m 0 (top - cnt) t
      else order_counts m msb (oc_lsb c) t
  end.

(** [poc]: PicOrderCnt of the reference frames; [cur]: that of the B frame. First the short-term
    frames that precede it in output order, the nearest first, then those that follow, the
    nearest first, then the long-term frames. *)
Definition initial_list_b (poc : refpic -> Z) (cur : Z) (refs l : list refpic) : Prop :=
  exists a b c, l = a ++ b ++ c /\
    Permutation a (filter (fun e => is_short e && (poc e <? cur)) refs) /\ StronglySorted (fun x y => poc y < poc x) a /\
    Permutation b (filter (fun e => is_short e && (cur <? poc e)) refs) /\ StronglySorted (fun x y => poc x < poc y) b /\
    Permutation c (filter (fun e => negb (is_short e)) refs) /\ StronglySorted (fun x y => (long_idx x < long_idx y)%N) c.
(** The list with the commands [cs]; [xs]: the frames that they name; [n]: the number of entries *)
Definition list_of_b (poc : refpic -> Z) (cur_cnt : Z) (M cur : N) (refs : list refpic) (n : nat) (cs : option (list rpl_cmd)) (xs l : list refpic) : Prop :=
  exists l0, initial_list_b poc cur_cnt refs l0 /\
  match cs with
  | None => xs = [] /\ l = firstn n l0
  | Some cs => modified M cur refs n cs (Z.of_N cur) 0 (firstn n l0) xs l
  end.
(** The short-term frames precede the B frame in output order, and are shown in the order in
    which they are decoded. *)
Definition shown_before (poc : refpic -> Z) (cur_cnt : Z) (M cur : N) (refs : list refpic) : Prop :=
  Forall (fun e => is_short e = true -> poc e < cur_cnt) refs /\
  (forall x y, In x refs -> In y refs -> is_short x = true -> is_short y = true ->
     pic_num M cur x < pic_num M cur y -> poc x < poc y).
(** The short-term frame that was decoded last follows the B frame in output order, and another
    one precedes it. *)
Definition last_shown_after (poc : refpic -> Z) (cur_cnt : Z) (M cur : N) (refs : list refpic) : Prop :=
  exists x y, In x refs /\ is_short x = true /\ cur_cnt < poc x /\
    Forall (fun e => is_short e = true -> pic_num M cur e <= pic_num M cur x) refs /\
    In y refs /\ is_short y = true /\ poc y < cur_cnt.
