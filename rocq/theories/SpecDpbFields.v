(** Specification: the last reference pictures of a stream, one entry per picture, and the sliding
    window of the standard for fields (H.264 8.2.5.1, 8.2.5.3). *)
From Coq Require Import NArith ZArith List Bool.
From Verif Require Import SpecSliceParts SpecDpb.
Import ListNotations.
Open Scope N_scope.

(** The last [max] entries *)
Definition newest {A} (max : N) (l : list A) : list A := skipn (length l - N.to_nat max) l.
(** The reference pictures after each picture, if the last [max] since the last IDR picture are
    kept; [id]: the number of the first picture in decoding order *)
Fixpoint windows (max id : N) (refs : list refpic) (cs : list cpic) : list (list refpic) :=
  match cs with
  | [] => []
  | c :: t =>
      let refs' := match c_marking c with
                   | None => refs
                   | Some (IdrMarking _ _) => [mkref (c_num c) None id]
                   | Some (Marking _) => newest max (refs ++ [mkref (c_num c) None id])
                   end in
      refs' :: windows max (id + 1) refs' t
  end.
(** No operations and no long-term frames *)
Definition sliding_window (c : cpic) : Prop :=
  match c_marking c with
  | None | Some (Marking None) => True
  | Some (IdrMarking _ long) => long = 0
  | Some (Marking (Some _)) => False
  end.

(** ** Fields *)
Inductive structure := WholeFrame | TopField | BottomField.
(** A picture, and a frame or complementary field pair of the buffer *)
Record ppic := mkppic { p_num : N; p_structure : structure; p_idr : bool; p_ref : bool }.
Record rframe := mkrframe { rf_num : N; rf_parts : list structure }.
Definition wrapped (M cur : N) (f : rframe) : Z := if cur <? rf_num f then (Z.of_N (rf_num f) - Z.of_N M)%Z else Z.of_N (rf_num f).
(** The second field of the frame whose first field was the picture before *)
Definition completes (c : ppic) (f : rframe) : bool :=
  negb (p_idr c) && (p_num c =? rf_num f) &&
  match rf_parts f, p_structure c with [TopField], BottomField | [BottomField], TopField => true | _, _ => false end.
Definition slide (M max cur : N) (refs : list rframe) : list rframe :=
  if N.of_nat (length refs) <? N.max max 1 then refs
  else filter (fun f => negb (forallb (fun g => (wrapped M cur f <=? wrapped M cur g)%Z) refs)) refs.
(** The frames after each picture of a stream without operations and long-term frames; [first]:
    the picture before was a reference *)
Fixpoint frames (M max : N) (first : bool) (refs : list rframe) (cs : list ppic) : list (list rframe) :=
  match cs with
  | [] => []
  | c :: t =>
      let f := last refs (mkrframe 0 []) in
      let refs' :=
        if negb (p_ref c) then refs
        else if p_idr c then [mkrframe (p_num c) [p_structure c]]
        else if first && completes c f then removelast refs ++ [mkrframe (rf_num f) (rf_parts f ++ [p_structure c])]
        else slide M max (p_num c) refs ++ [mkrframe (p_num c) [p_structure c]] in
      refs' :: frames M max (p_ref c) refs' t
  end.
(** What a buffer with one entry per picture knows of them: the frames it has a part of *)
Definition holds (refs : list refpic) (fs : list rframe) : Prop :=
  forall n, In n (map r_num refs) <-> In n (map rf_num fs).
(** Pairs of reference fields, top field first, with frame_num [k], [k] + 1, ...; the first field of
    frame 0 is the IDR picture. *)
Definition field_pairs (k n : nat) : list ppic :=
  flat_map (fun i => [mkppic (N.of_nat i) TopField (Nat.eqb i 0) true; mkppic (N.of_nat i) BottomField false true]) (seq k n).
