(** Model of scaling_list() and of the loop that calls it. *)
From Coq Require Import NArith ZArith List Bool.
From Verif Require Import Base BitBuffer Parser TypesSps.
Import ListNotations.
Open Scope N_scope.
Open Scope m_scope.

(** [while (v.size() <= i) v.push_back(0); v[i] = x;] *)
Definition grow (n : nat) (v : list N) : list N := v ++ repeat 0 (n - length v)%nat.
Definition vset (i x : N) (v : list N) : list N :=
  let k := N.to_nat i in
  let w := grow (S k) v in firstn k w ++ x :: skipn (S k) w.

(** A read whose failure is looked at by the caller instead of ending the parse. *)
Definition attempt {A} (p : P A) : P (option A) :=
  fun b => match p b with
           | (Ok a, b') => (Ok (Some a), b')
           | (Null, b') => (Ok None, b')
           | (UB k, b') => (UB k, b')
           | (Abort, b') => (Abort, b')
           | (NoFuel, b') => (NoFuel, b')
           end.

(** Equation 7-40: static_cast<uint32_t>(static_cast<int32_t>(lastScale) + delta_scale
    + 256) % 256, the sums being int sums. *)
Definition next_scale (lastScale : N) (delta : Z) : res N :=
  rbind (chk_i32 (to_i32 lastScale + delta)) (fun s =>
  rbind (chk_i32 (s + 256)) (fun t => Ok (of_i32 t mod 256))).

(** h264_sps_parser.cc:663-706 and h264_pps_parser.cc:346-387 scaling_list(): the for loop,
    [n] iterations left.  [v], [f], [d] are scalingList, useDefaultScalingMatrixFlag and
    the member delta_scale; the boolean is the return value. *)
Fixpoint scaling_list_loop (n : nat) (j i lastScale nextScale : N)
    (v f : list N) (d : Z) : P (bool * (list N * list N * Z)) :=
  match n with
  | O => sret (true, (v, f, d))
  | S n' =>
      ' (go, nx, f', d') <-
        (if tob nextScale then
           r <- attempt ReadSignedExponentialGolomb ;;
           match r with
           | None => sret (false, nextScale, f, d)
           | Some delta =>
               if ((delta <? -128) || (127 <? delta))%Z
               then sret (false, nextScale, f, delta)
               else nx <- sres (next_scale lastScale delta) ;;
                    sret (true, nx,
                          vset i (if (j =? 0) && (nx =? 0) then 1 else 0) f, delta)
           end
         else sret (true, nextScale, f, d)) ;;
      if go : bool then
        let s := if nx =? 0 then lastScale else nx in
        scaling_list_loop n' (j + 1) i s nx (vset j s v) f' d'
      else sret (false, (v, f', d'))
  end.
Definition scaling_list (i : N) (v : list N) (size : nat) (f : list N) (d : Z) :=
  scaling_list_loop size 0 i 8 8 v f d.

(** h264_sps_parser.cc:186-203 / h264_pps_parser.cc:304-318: one pass of the loop over
    seq_/pic_scaling_list_present_flag.  Both branches pass the 4x4 flag vector, and the
    result of scaling_list() is discarded. *)
Definition scaling_entry (i : N) (s : scal) : P scal :=
  flag <- ReadBits 1 ;;
  let flags := scaling_list_present_flag s ++ [flag] in
  if tob flag then
    if i <? 6 then
      ' (_, (v, f, d)) <- scaling_list i (ScalingList4x4 s) 16
                            (UseDefaultScalingMatrix4x4Flag s) (delta_scale s) ;;
      sret (mkscal flags v f (ScalingList8x8 s) (UseDefaultScalingMatrix8x8Flag s) d)
    else
      ' (_, (v, f, d)) <- scaling_list (i - 6) (ScalingList8x8 s) 64
                            (UseDefaultScalingMatrix4x4Flag s) (delta_scale s) ;;
      sret (mkscal flags (ScalingList4x4 s) f v (UseDefaultScalingMatrix8x8Flag s) d)
  else sret (mkscal flags (ScalingList4x4 s) (UseDefaultScalingMatrix4x4Flag s)
               (ScalingList8x8 s) (UseDefaultScalingMatrix8x8Flag s) (delta_scale s)).

(** [for (i = ...; ...; i++)], [n] iterations left *)
Fixpoint scaling_loop (n : nat) (i : N) (s : scal) : P scal :=
  match n with
  | O => sret s
  | S n' => s' <- scaling_entry i s ;; scaling_loop n' (i + 1) s'
  end.
