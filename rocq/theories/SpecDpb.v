(** Specification: reference pictures of a stream of frames (H.264 8.2.4, 8.2.5), without fields
    and without gaps in frame_num. *)
From Coq Require Import NArith ZArith List Bool Sorting.Sorted Sorting.Permutation.
From Verif Require Import SpecSliceParts.
Import ListNotations.
Open Scope N_scope.

(** A reference frame: its frame_num, its LongTermFrameIdx if it is used for long-term reference,
    and its number in decoding order *)
Record refpic := mkref { r_num : N; r_long : option N; r_id : N }.
Definition is_short (e : refpic) : bool := match r_long e with None => true | Some _ => false end.
Definition has_idx (i : N) (e : refpic) : bool := match r_long e with Some j => i =? j | None => false end.
(** FrameNumWrap (8-27), which is PicNum for a frame (8-28); [M]: MaxFrameNum *)
Definition pic_num (M cur : N) (e : refpic) : Z :=
  if cur <? r_num e then (Z.of_N (r_num e) - Z.of_N M)%Z else Z.of_N (r_num e).

(** ** Marking (8.2.5) *)
(** A frame: IDR or not, frame_num, and its dec_ref_pic_marking() if it is a reference *)
Record cpic := mkcpic { c_num : N; c_marking : option marking }.
(** 8.2.5.3: when the buffer is full, the short-term frame with the smallest FrameNumWrap goes *)
Definition slid (M max cur : N) (refs refs' : list refpic) : Prop :=
  if N.of_nat (length refs) <? N.max max 1 then refs' = refs
  else exists a x b, refs = a ++ x :: b /\ refs' = a ++ b /\ is_short x = true /\
    Forall (fun y => is_short y = true -> (pic_num M cur x <= pic_num M cur y)%Z) refs.
(** 8.2.5.4: the other frames after an operation *)
Definition others (M cur : N) (c : mmco) (refs : list refpic) : list refpic :=
  let is_x d e := is_short e && (pic_num M cur e =? Z.of_N cur - (Z.of_N d + 1))%Z in
  match c with
  | UnmarkShort d => filter (fun e => negb (is_x d e)) refs
  | UnmarkLong n => filter (fun e => negb (has_idx n e)) refs
  | MakeLong d i => map (fun e => if is_x d e then mkref (r_num e) (Some i) (r_id e) else e)
                        (filter (fun e => negb (has_idx i e)) refs)
  | MaxLong m => filter (fun e => match r_long e with Some j => j <? m | None => true end) refs
  | UnmarkAll => []
  | CurrentLong i => filter (fun e => negb (has_idx i e)) refs
  end.
(** the current frame: its LongTermFrameIdx, and its frame_num, which is 0 after operation 5 *)
Definition current_idx (cs : list mmco) : option N :=
  fold_left (fun r c => match c with CurrentLong i => Some i | _ => r end) cs None.
Definition current_num (cur : N) (cs : list mmco) : N :=
  if existsb (fun c => match c with UnmarkAll => true | _ => false end) cs then 0 else cur.
(** The reference frames after the frame [c], number [id] *)
Definition next (M max id : N) (c : cpic) (refs refs' : list refpic) : Prop :=
  match c_marking c with
  | None => refs' = refs
  | Some (IdrMarking _ b) => refs' = [mkref (c_num c) (if b =? 0 then None else Some 0) id]
  | Some (Marking None) => exists r, slid M max (c_num c) refs r /\ refs' = r ++ [mkref (c_num c) None id]
  | Some (Marking (Some cs)) =>
      refs' = fold_left (fun r op => others M (c_num c) op r) cs refs ++ [mkref (current_num (c_num c) cs) (current_idx cs) id]
  end.
(** The reference frames after each frame of a stream *)
Fixpoint states (M max id : N) (refs : list refpic) (cs : list cpic) (ss : list (list refpic)) : Prop :=
  match cs, ss with
  | [], [] => True
  | c :: cs, s :: ss => next M max id c refs s /\ states M max (id + 1) s cs ss
  | _, _ => False
  end.
(** 7.4.3 without gaps: frame_num is that of the last reference frame plus one; [e]: the number
    that is expected *)
Fixpoint numbered (M e : N) (cs : list cpic) : Prop :=
  match cs with
  | [] => True
  | c :: t =>
      match c_marking c with
      | Some (IdrMarking _ _) => c_num c = 0 /\ numbered M 1 t
      | Some (Marking _) => c_num c = e /\ numbered M ((e + 1) mod M) t
      | None => c_num c = e /\ numbered M e t
      end
  end.

(** ** Reference lists of P frames (8.2.4.2.1, 8.2.4.3.1) *)
Definition long_idx (e : refpic) : N := match r_long e with Some i => i | None => 0 end.
Definition initial_list (M cur : N) (refs l : list refpic) : Prop :=
  exists a b, l = a ++ b /\
    Permutation a (filter is_short refs) /\ StronglySorted (fun x y => (pic_num M cur y < pic_num M cur x)%Z) a /\
    Permutation b (filter (fun e => negb (is_short e)) refs) /\ StronglySorted (fun x y => long_idx x < long_idx y) b.
(** A frame is put at a place of the list; [n]: num_ref_idx_l0_active_minus1 + 1 *)
Definition put (n idx : nat) (x : refpic) (l : list refpic) : list refpic :=
  firstn n (firstn idx l ++ x :: filter (fun e => negb (r_id e =? r_id x)) (skipn idx l)).
(** The frame that a command names, and the new prediction (8-34..8-36) *)
Definition pred_next (M : N) (pred : Z) (c : rpl_cmd) : Z :=
  match c with
  | SubPicNum d => let z := (pred - (Z.of_N d + 1))%Z in if (z <? 0)%Z then (z + Z.of_N M)%Z else z
  | AddPicNum d => let z := (pred + (Z.of_N d + 1))%Z in if (Z.of_N M <=? z)%Z then (z - Z.of_N M)%Z else z
  | LongTermPic _ => pred
  end.
Definition named (M cur : N) (pred' : Z) (c : rpl_cmd) (e : refpic) : Prop :=
  match c with
  | LongTermPic n => r_long e = Some n
  | _ => is_short e = true /\ pic_num M cur e = (if (Z.of_N cur <? pred')%Z then pred' - Z.of_N M else pred')%Z
  end.
Inductive modified (M cur : N) (refs : list refpic) (n : nat) : list rpl_cmd -> Z -> nat -> list refpic -> list refpic -> list refpic -> Prop :=
| mod_nil : forall pred idx l, modified M cur refs n [] pred idx l [] l
| mod_cons : forall c cs pred idx l x xs l', In x refs -> named M cur (pred_next M pred c) c x ->
    modified M cur refs n cs (pred_next M pred c) (S idx) (put n idx x l) xs l' ->
    modified M cur refs n (c :: cs) pred idx l (x :: xs) l'.
(** The list of a P frame with the commands [cs]; [xs]: the frames that they name *)
Definition list_of (M cur : N) (refs : list refpic) (n : nat) (cs : option (list rpl_cmd)) (xs l : list refpic) : Prop :=
  exists l0, initial_list M cur refs l0 /\
  match cs with
  | None => xs = [] /\ l = firstn n l0
  | Some cs => modified M cur refs n cs (Z.of_N cur) 0 (firstn n l0) xs l
  end.

(** ** Streams that are easy to follow *)
(** The short-term frames are in the order of their numbers. *)
Definition in_order (M cur : N) (refs : list refpic) : Prop :=
  StronglySorted Z.lt (map (pic_num M cur) (filter is_short refs)).
(** The last operation marks the current frame, operation 3 uses an index that is free, and
    operations 2 and 5 are not used. *)
Fixpoint plain_ops (M cur : N) (refs : list refpic) (cs : list mmco) : Prop :=
  match cs with
  | [] => False
  | CurrentLong _ :: t => t = []
  | op :: t =>
      match op with
      | UnmarkShort _ | MaxLong _ => True
      | MakeLong _ i => Forall (fun e => has_idx i e = false) refs
      | _ => False
      end /\ plain_ops M cur (others M cur op refs) t
  end.
Definition plain (M max : N) (c : cpic) (refs : list refpic) : Prop :=
  match c_marking c with
  | Some (Marking None) => in_order M (c_num c) refs /\ 1 <= max /\ N.of_nat (length refs) <= max
  | Some (Marking (Some cs)) =>
      (* frame_num has not wrapped since the short-term frames *)
      Forall (fun e => is_short e = true -> r_num e <= c_num c) refs /\
      NoDup (map r_num (filter is_short refs)) /\ plain_ops M (c_num c) refs cs
  | _ => True
  end.
(** all frames of a stream; [refs]: before the first *)
Fixpoint all_plain (M max : N) (refs : list refpic) (cs : list cpic) (ss : list (list refpic)) : Prop :=
  match cs, ss with
  | c :: cs, s :: ss => plain M max c refs /\ all_plain M max s cs ss
  | _, _ => True
  end.
(** The frames can be told apart by their numbers, and frame_num has not wrapped. *)
Definition distinct (cur : N) (refs : list refpic) : Prop :=
  Forall (fun e => is_short e = true -> r_num e <= cur) refs /\
  NoDup (map r_num (filter is_short refs)) /\ NoDup (map long_idx (filter (fun e => negb (is_short e)) refs)) /\ NoDup (map r_id refs).
(** abs_diff_pic_num_minus1 is in its range (7.4.3.1). *)
Definition cmd_in_range (M : N) (c : rpl_cmd) : Prop :=
  match c with SubPicNum d | AddPicNum d => d < M | LongTermPic _ => True end.
