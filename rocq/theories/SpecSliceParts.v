(** Specification: ref_pic_list_modification() (H.264 7.3.3.1), pred_weight_table()
    (7.3.3.2) and dec_ref_pic_marking() (7.3.3.3). *)
From Coq Require Import NArith ZArith List Bool.
From Verif Require Import SpecBits SpecVui TypesSlice.
Import ListNotations.
Open Scope N_scope.

(** ** Reference picture list modification commands *)
Inductive rpl_cmd :=
| SubPicNum (abs_diff_pic_num_minus1 : N)
| AddPicNum (abs_diff_pic_num_minus1 : N)
| LongTermPic (long_term_pic_num : N).
Definition rpl_idc (c : rpl_cmd) : N :=
  match c with SubPicNum _ => 0 | AddPicNum _ => 1 | LongTermPic _ => 2 end.
Definition rpl_arg (c : rpl_cmd) : N :=
  match c with SubPicNum v | AddPicNum v | LongTermPic v => v end.
Definition rpl_abs (c : rpl_cmd) : list N :=
  match c with SubPicNum v | AddPicNum v => [v] | LongTermPic _ => [] end.
Definition rpl_long (c : rpl_cmd) : list N :=
  match c with SubPicNum _ | AddPicNum _ => [] | LongTermPic v => [v] end.
Definition enc_rpl_cmd (c : rpl_cmd) : list bool := ue_bits (rpl_idc c) ++ ue_bits (rpl_arg c).
(** A list of commands, ended by modification_of_pic_nums_idc = 3. *)
Definition enc_rpl (cs : list rpl_cmd) : list bool := flat_map enc_rpl_cmd cs ++ ue_bits 3.

(** [cs0], [cs1]: the commands for list 0 and list 1 (None: flag 0 or absent). *)
Definition flag_of {A} (o : option A) : N := match o with Some _ => 1 | None => 0 end.
Definition enc_rpl_list (cs : option (list rpl_cmd)) : list bool :=
  u_bits 1 (flag_of cs) ++ match cs with Some l => enc_rpl l | None => [] end.
(** Slices of type P, SP and B have a list 0, slices of type B a list 1. *)
Definition uses_list0 (slice_type : N) : bool :=
  negb ((slice_type mod 5 =? 2) || (slice_type mod 5 =? 4)).
Definition uses_list1 (slice_type : N) : bool := slice_type mod 5 =? 1.
Definition enc_rplm (slice_type : N) (cs0 cs1 : option (list rpl_cmd)) : list bool :=
  (if uses_list0 slice_type then enc_rpl_list cs0 else []) ++
  (if uses_list1 slice_type then enc_rpl_list cs1 else []).
Definition valid_cmds {A} (arg_ok : A -> Prop) (present : bool) (cs : option (list A)) : Prop :=
  match cs with Some l => present = true /\ Forall arg_ok l | None => True end.
Definition rpl_ok (c : rpl_cmd) : Prop := is_ue (rpl_arg c).
Definition valid_rplm (slice_type : N) (cs0 cs1 : option (list rpl_cmd)) : Prop :=
  valid_cmds rpl_ok (uses_list0 slice_type) cs0 /\
  valid_cmds rpl_ok (uses_list1 slice_type) cs1.
(** What the parser reports: the commands of both lists one after the other. *)
Definition ops {A} (f : A -> N) (e : N) (cs : option (list A)) : list N :=
  match cs with Some l => map f l ++ [e] | None => [] end.
Definition args {A} (f : A -> list N) (cs : option (list A)) : list N :=
  match cs with Some l => flat_map f l | None => [] end.
Definition rplm_of (slice_type : N) (cs0 cs1 : option (list rpl_cmd)) : rplm :=
  mkrplm slice_type (flag_of cs0) (ops rpl_idc 3 cs0 ++ ops rpl_idc 3 cs1)
    (args rpl_abs cs0 ++ args rpl_abs cs1) (args rpl_long cs0 ++ args rpl_long cs1)
    (flag_of cs1).

(** ** Prediction weights of one reference *)
Record weights := mkweights {
  w_luma : option (Z * Z);                  (* weight, offset *)
  w_chroma : option ((Z * Z) * (Z * Z))     (* weight, offset of Cb and of Cr *)
}.
Definition enc_wo (p : Z * Z) : list bool := se_bits (fst p) ++ se_bits (snd p).
Definition enc_weights (cat : N) (w : weights) : list bool :=
  u_bits 1 (flag_of (w_luma w)) ++
  match w_luma w with Some p => enc_wo p | None => [] end ++
  (if negb (cat =? 0)
   then u_bits 1 (flag_of (w_chroma w)) ++
        match w_chroma w with Some (p, q) => enc_wo p ++ enc_wo q | None => [] end
   else []).
Definition wo_ok (p : Z * Z) : Prop := is_se (fst p) /\ is_se (snd p).
Definition valid_weights (cat : N) (w : weights) : Prop :=
  match w_luma w with Some p => wo_ok p | None => True end /\
  match w_chroma w with Some (p, q) => cat <> 0 /\ wo_ok p /\ wo_ok q | None => True end.
(** Only B slices have list 1 weights. *)
Definition has_weights_l1 (slice_type : N) : bool := (slice_type =? 1) || (slice_type =? 6).
Definition enc_pwt (cat slice_type ld cd : N) (w0 w1 : list weights) : list bool :=
  ue_bits ld ++ (if negb (cat =? 0) then ue_bits cd else []) ++
  flat_map (enc_weights cat) w0 ++
  (if has_weights_l1 slice_type then flat_map (enc_weights cat) w1 else []).
Definition valid_pwt (cat slice_type n0 n1 ld cd : N) (w0 w1 : list weights) : Prop :=
  ld <= 7 /\ (if negb (cat =? 0) then cd <= 7 else cd = 0) /\
  N.of_nat (length w0) = n0 + 1 /\ Forall (valid_weights cat) w0 /\
  (if has_weights_l1 slice_type
   then N.of_nat (length w1) = n1 + 1 /\ Forall (valid_weights cat) w1 else w1 = []).
(** What the parser reports: a luma flag per reference, a chroma flag per reference when
    there is chroma, and weights and offsets only for the flags that are 1. *)
Definition olist {A B} (f : A -> B) (o : option A) : list B :=
  match o with Some x => [f x] | None => [] end.
Definition luma_flags (ws : list weights) : list N := map (fun w => flag_of (w_luma w)) ws.
Definition chroma_flags (cat : N) (ws : list weights) : list N :=
  if negb (cat =? 0) then map (fun w => flag_of (w_chroma w)) ws else [].
Definition pwt_of (cat slice_type n0 n1 ld cd : N) (w0 w1 : list weights) : pwt :=
  mkpwt cat slice_type n0 n1 ld cd
    (luma_flags w0)
    (flat_map (fun w => olist fst (w_luma w)) w0)
    (flat_map (fun w => olist snd (w_luma w)) w0)
    (chroma_flags cat w0)
    (flat_map (fun w => olist (fun '(p, q) => [fst p; fst q]) (w_chroma w)) w0)
    (flat_map (fun w => olist (fun '(p, q) => [snd p; snd q]) (w_chroma w)) w0)
    (luma_flags w1)
    (flat_map (fun w => olist fst (w_luma w)) w1)
    (flat_map (fun w => olist snd (w_luma w)) w1)
    (chroma_flags cat w1)
    (flat_map (fun w => olist (fun '(p, q) => [fst p; fst q]) (w_chroma w)) w1)
    (flat_map (fun w => olist (fun '(p, q) => [snd p; snd q]) (w_chroma w)) w1).

(** ** Memory management control operations *)
Inductive mmco :=
| UnmarkShort (difference_of_pic_nums_minus1 : N)
| UnmarkLong (long_term_pic_num : N)
| MakeLong (difference_of_pic_nums_minus1 long_term_frame_idx : N)
| MaxLong (max_long_term_frame_idx_plus1 : N)
| UnmarkAll
| CurrentLong (long_term_frame_idx : N).
Definition mmco_op (c : mmco) : N :=
  match c with UnmarkShort _ => 1 | UnmarkLong _ => 2 | MakeLong _ _ => 3 | MaxLong _ => 4
  | UnmarkAll => 5 | CurrentLong _ => 6 end.
Definition mmco_args (c : mmco) : list N :=
  match c with UnmarkShort a | UnmarkLong a | MaxLong a | CurrentLong a => [a]
  | MakeLong a b => [a; b] | UnmarkAll => [] end.
Definition mmco_diff (c : mmco) : list N :=
  match c with UnmarkShort a | MakeLong a _ => [a] | _ => [] end.
Definition mmco_long (c : mmco) : list N := match c with UnmarkLong a => [a] | _ => [] end.
Definition mmco_frame (c : mmco) : list N :=
  match c with CurrentLong a | MakeLong _ a => [a] | _ => [] end.
Definition mmco_max (c : mmco) : list N := match c with MaxLong a => [a] | _ => [] end.
Definition enc_mmco (c : mmco) : list bool :=
  ue_bits (mmco_op c) ++ flat_map ue_bits (mmco_args c).
Definition mmco_ok (c : mmco) : Prop := Forall is_ue (mmco_args c).

(** A marking: for IDR pictures two flags, otherwise an optional list of operations. *)
Inductive marking :=
| IdrMarking (no_output_of_prior_pics_flag long_term_reference_flag : N)
| Marking (cs : option (list mmco)).
Definition enc_marking (m : marking) : list bool :=
  match m with
  | IdrMarking a b => u_bits 1 a ++ u_bits 1 b
  | Marking cs => u_bits 1 (flag_of cs) ++
      match cs with Some l => flat_map enc_mmco l ++ ue_bits 0 | None => [] end
  end.
Definition valid_marking (idr : N) (m : marking) : Prop :=
  match m with
  | IdrMarking a b => idr <> 0 /\ is_u 1 a /\ is_u 1 b
  | Marking cs => idr = 0 /\ valid_cmds mmco_ok true cs
  end.
Definition drpm_of (idr : N) (m : marking) : drpm :=
  match m with
  | IdrMarking a b => mkdrpm idr a b 0 [] [] [] [] []
  | Marking cs => mkdrpm idr 0 0 (flag_of cs) (ops mmco_op 0 cs) (args mmco_diff cs)
      (args mmco_long cs) (args mmco_frame cs) (args mmco_max cs)
  end.
