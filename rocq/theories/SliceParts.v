(** Model of the parsers of the parts of a slice header. *)
From Coq Require Import NArith ZArith List Bool.
From Verif Require Import Base BitBuffer Parser TypesSlice.
Import ListNotations.
Open Scope N_scope.
Open Scope m_scope.

(** do { c = body; } while (!stop(c)); the list of the c's.  A body that succeeds reads at
    least one bit in all uses below, so the fuel (one more than the bits left) suffices. *)
Fixpoint until_fuel {C} (fuel : nat) (p : P C) (stop : C -> bool) : P (list C) :=
  match fuel with
  | O => fun b => (NoFuel, b)
  | S k => c <- p ;;
           if stop c then sret [c] else l <- until_fuel k p stop ;; sret (c :: l)
  end.
Definition until {C} (p : P C) (stop : C -> bool) : P (list C) :=
  fun b => until_fuel (S (N.to_nat (RemainingBitCount b))) p stop b.

(** [v.push_back(...)] in a conditional: what is appended to the vector. *)
Definition pushed {A} (c : bool) (p : P A) : P (list A) := cond c (x <- p ;; sret [x]) [].

(** h264_ref_pic_list_modification_parser.cc:56-85 (and 101-130): one round of the loop;
    what is appended to modification_of_pic_nums_idc, abs_diff_pic_num_minus1 and
    long_term_pic_num. *)
Definition mod_round : P (N * list N * list N) :=
  idc <- ue_max 3 ;;
  a <- pushed ((idc =? 0) || (idc =? 1)) ReadExponentialGolomb ;;
  l <- pushed (negb ((idc =? 0) || (idc =? 1)) && (idc =? 2)) ReadExponentialGolomb ;;
  sret (idc, a, l).
Definition mod_loop : P (list (N * list N * list N)) :=
  until mod_round (fun '(idc, _, _) => idc =? 3).

(** h264_ref_pic_list_modification_parser.cc:32-137 ParseRefPicListModification.  Both loops
    append to the same vectors. *)
Definition ParseRefPicListModification (slice_type : N) : P rplm :=
  ' (f0, m0) <-
    cond (negb (slice_type mod 5 =? 2) && negb (slice_type mod 5 =? 4))
      (f <- ReadBits 1 ;; m <- cond (tob f) mod_loop [] ;; sret (f, m)) (0, []) ;;
  ' (f1, m1) <-
    cond (slice_type mod 5 =? 1)
      (f <- ReadBits 1 ;; m <- cond (tob f) mod_loop [] ;; sret (f, m)) (0, []) ;;
  let m := m0 ++ m1 in
  sret (mkrplm slice_type f0 (map (fun '(i, _, _) => i) m)
          (flat_map (fun '(_, a, _) => a) m) (flat_map (fun '(_, _, l) => l) m) f1).

(** h264_pred_weight_table_parser.cc:97-142 (and 149-194): one round of the loop; what is
    appended to the luma flag, weight and offset vectors and to the chroma ones. *)
Definition pw_round (cat : N)
  : P (N * list Z * list Z * list N * list (list Z) * list (list Z)) :=
  lf <- ReadBits 1 ;;
  ' (lw, lo) <- cond (tob lf)
    (w <- ReadSignedExponentialGolomb ;; o <- ReadSignedExponentialGolomb ;;
     sret ([w], [o])) ([], []) ;;
  ' (cf, cw, co) <- cond (negb (cat =? 0))
    (f <- ReadBits 1 ;;
     ' (w, o) <- cond (tob f)
       (w0 <- ReadSignedExponentialGolomb ;; o0 <- ReadSignedExponentialGolomb ;;
        w1 <- ReadSignedExponentialGolomb ;; o1 <- ReadSignedExponentialGolomb ;;
        sret ([[w0; w1]], [[o0; o1]])) ([], []) ;;
     sret ([f], w, o)) ([], [], []) ;;
  sret (lf, lw, lo, cf, cw, co).
(** h264_pred_weight_table_parser.cc:35-199 ParsePredWeightTable.  The loop counters are
    uint32_t: for a num_ref_idx of 2^32 - 1 the C++ loop would have no bound of its own; the
    slice header parsers call this with at most 31. *)
Definition ParsePredWeightTable (cat slice_type n0 n1 : N) : P pwt :=
  ld <- ue_max 7 ;;
  cd <- cond (negb (cat =? 0)) (ue_max 7) 0 ;;
  l0 <- rep (N.to_nat (n0 + 1)) (pw_round cat) ;;
  l1 <- cond ((slice_type =? 1) || (slice_type =? 6)) (rep (N.to_nat (n1 + 1)) (pw_round cat)) [] ;;
  sret (mkpwt cat slice_type n0 n1 ld cd
    (map (fun '(lf, _, _, _, _, _) => lf) l0)
    (flat_map (fun '(_, lw, _, _, _, _) => lw) l0)
    (flat_map (fun '(_, _, lo, _, _, _) => lo) l0)
    (flat_map (fun '(_, _, _, cf, _, _) => cf) l0)
    (flat_map (fun '(_, _, _, _, cw, _) => cw) l0)
    (flat_map (fun '(_, _, _, _, _, co) => co) l0)
    (map (fun '(lf, _, _, _, _, _) => lf) l1)
    (flat_map (fun '(_, lw, _, _, _, _) => lw) l1)
    (flat_map (fun '(_, _, lo, _, _, _) => lo) l1)
    (flat_map (fun '(_, _, _, cf, _, _) => cf) l1)
    (flat_map (fun '(_, _, _, _, cw, _) => cw) l1)
    (flat_map (fun '(_, _, _, _, _, co) => co) l1)).

(** h264_dec_ref_pic_marking_parser.cc:66-117: one round of the loop; what is appended to
    the five vectors. *)
Definition mmco_round : P (N * list N * list N * list N * list N) :=
  op <- ue_max 6 ;;
  d <- pushed ((op =? 1) || (op =? 3)) ReadExponentialGolomb ;;
  l <- pushed (op =? 2) ReadExponentialGolomb ;;
  f <- pushed ((op =? 3) || (op =? 6)) ReadExponentialGolomb ;;
  m <- pushed (op =? 4) ReadExponentialGolomb ;;
  sret (op, d, l, f, m).
Definition mmco_loop : P (list (N * list N * list N * list N * list N)) :=
  until mmco_round (fun '(op, _, _, _, _) => op =? 0).
(** h264_dec_ref_pic_marking_parser.cc:31-124 ParseDecRefPicMarking *)
Definition ParseDecRefPicMarking (idr : N) : P drpm :=
  if tob idr then
    no <- ReadBits 1 ;; lt <- ReadBits 1 ;; sret (mkdrpm idr no lt 0 [] [] [] [] [])
  else
    ad <- ReadBits 1 ;;
    m <- cond (tob ad) mmco_loop [] ;;
    sret (mkdrpm idr 0 0 ad (map (fun '(op, _, _, _, _) => op) m)
      (flat_map (fun '(_, d, _, _, _) => d) m) (flat_map (fun '(_, _, l, _, _) => l) m)
      (flat_map (fun '(_, _, _, f, _) => f) m) (flat_map (fun '(_, _, _, _, x) => x) m)).
