(** Model of tools/h264nal-dpb_parse.py: it runs the tool on a file, reads the pictures from the
    output, and simulates the decoded picture buffer. *)
From Coq Require Import NArith ZArith List Bool String Ascii.
From Verif Require Import Base Dump ToolText PyText PyText2.
Import ListNotations.
Open Scope N_scope.

(** Lines 18-23 run_h264nal: the options *)
Definition dpb_options (input : string) : list opt := [Infile input; OneLine false].

(** ** Reading the output *)
(** re.search(r"name: (\d+)", text), as an int *)
Definition number (name text : string) : option N :=
  option_map (int_of 10) (search (after (name ++ ": ") (several digit10)) text).
(** [int(x) for x in s.split()] *)
Fixpoint py_words (s : string) : list string :=
  match s with
  | EmptyString => []
  | String c t =>
      if py_space c then py_words t
      else match t with
           | EmptyString => [String c EmptyString]
           | String d _ => if py_space d then String c EmptyString :: py_words t
                           else match py_words t with
                                | w :: ws => String c w :: ws
                                | [] => [String c EmptyString]
                                end
           end
  end.
(** The group in an expression that ends with ([^}]* )\} *)
Fixpoint to_brace (s : string) : option string :=
  match s with
  | EmptyString => None
  | String c t => if Ascii.eqb c "}" then Some EmptyString else option_map (String c) (to_brace t)
  end.
(** Lines 93-116, 124-139: the numbers in the group of "name \{ ([^}]* )\}", none without a match *)
Definition numbers (name text : string) : list N :=
  match search (after (name ++ " ") (after "{ " to_brace)) text with
  | Some s => map (int_of 10) (py_words s)
  | None => []
  end.

(** Lines 70-142: the dictionary of a picture; members that are not there are 0 or [] *)
Record frame := mkframe {
  f_nal_type : N;
  f_slice_type : N;
  f_frame_num : N;
  f_nal_ref_idc : N;
  f_num_ref_idx_l0_active : N;
  f_long_term_reference_flag : N;
  f_mmco : list N;
  f_diff_pic_nums : list N;
  f_long_term_frame_idx : list N;
  f_max_long_term_frame_idx_plus1 : list N;
  f_rplm_l0 : N;
  f_rplm_mod_idc : list N;
  f_rplm_abs_diff : list N;
  f_rplm_lt_pic_num : list N
}.
(** None.group(1) raises AttributeError, [Abort] here. *)
Definition must {A} (o : option A) : res A := match o with Some x => Ok x | None => Abort end.
Definition is_one (o : option N) : bool := match o with Some 1 => true | _ => false end.
Definition or_zero (o : option N) : N := match o with Some n => n | None => 0 end.
(** Lines 62-144: a unit of type 1 or 5; [None] if it does not start a picture *)
Definition parse_picture (default : N) (nal_type : N) (t : string) : res (option frame) :=
  match number "first_mb_in_slice" t with
  | Some 0 =>
      rbind (must (number "slice_type" t)) (fun slice_type =>
      rbind (must (number "frame_num" t)) (fun frame_num =>
      rbind (must (number "nal_ref_idc" t)) (fun nal_ref_idc =>
      rbind (if is_one (number "num_ref_idx_active_override_flag" t)
             then rbind (must (number "num_ref_idx_l0_active_minus1" t)) (fun n => Ok (n + 1))
             else Ok (default + 1)) (fun active =>
      let adaptive := is_one (number "adaptive_ref_pic_marking_mode_flag" t) in
      let marked name := if adaptive then numbers name t else [] in
      let rplm := or_zero (number "ref_pic_list_modification_flag_l0" t) in
      let modified name := if negb (rplm =? 0) then numbers name t else [] in
      Ok (Some (mkframe nal_type slice_type frame_num nal_ref_idc active
        (if nal_type =? 5 then or_zero (number "long_term_reference_flag" t) else 0)
        (marked "memory_management_control_operation"%string)
        (marked "difference_of_pic_nums_minus1"%string)
        (marked "long_term_frame_idx"%string)
        (marked "max_long_term_frame_idx_plus1"%string)
        rplm
        (modified "modification_of_pic_nums_idc"%string)
        (modified "abs_diff_pic_num_minus1"%string)
        (modified "long_term_pic_num"%string)))))))
  | _ => Ok None
  end.
(** Lines 30-146 parse_frames; the dictionaries sps and pps as options *)
Record pysps := mkpysps {
  p_log2_max_frame_num_minus4 : N;
  p_max_num_ref_frames : N;
  p_pic_order_cnt_type : N
}.
Fixpoint parse_units (us : list string) (sps : option pysps) (pps : option N) : res (option pysps * list frame) :=
  match us with
  | [] => Ok (sps, [])
  | t :: us =>
      match number "nal_unit_type" t with
      | None => parse_units us sps pps
      | Some nal_type =>
          if nal_type =? 7 then
            rbind (must (number "log2_max_frame_num_minus4" t)) (fun a =>
            rbind (must (number "max_num_ref_frames" t)) (fun b =>
            rbind (must (number "pic_order_cnt_type" t)) (fun c =>
            parse_units us (Some (mkpysps a b c)) pps)))
          else if nal_type =? 8 then
            rbind (must (number "num_ref_idx_l0_default_active_minus1" t)) (fun a =>
            parse_units us sps (Some a))
          else if (nal_type =? 1) || (nal_type =? 5) then
            rbind (parse_picture (or_zero pps) nal_type t) (fun f =>
            rbind (parse_units us sps pps) (fun r =>
            Ok (fst r, match f with Some x => x :: snd r | None => snd r end)))
          else parse_units us sps pps
      end
  end.
Definition parse_frames (content : string) : res (option pysps * list frame) :=
  parse_units (tl (split_bol "nal_unit {" 0 true content)) None None.

(** ** The buffer *)
(** An entry: frame_num, ltr_idx if is_ltr, abs_frame *)
Record dent := mkdent { d_num : N; d_ltr : option N; d_abs : N }.
Definition short (e : dent) : bool := match d_ltr e with None => true | Some _ => false end.
Definition long_at (i : N) (e : dent) : bool := match d_ltr e with Some j => i =? j | None => false end.
Definition num_is (z : Z) (e : dent) : bool := (Z.of_N (d_num e) =? z)%Z.
(** Lines 172-182 build_ref_pic_list0: sorted is stable *)
Fixpoint insert_by (le : dent -> dent -> bool) (x : dent) (l : list dent) : list dent :=
  match l with
  | [] => [x]
  | y :: t => if le x y then x :: l else y :: insert_by le x t
  end.
Definition sorted_by (le : dent -> dent -> bool) (l : list dent) : list dent := fold_right (insert_by le) [] l.
Definition build_ref_pic_list0 (dpb : list dent) : list dent :=
  (sorted_by (fun x y => d_num y <=? d_num x) (filter short dpb) ++
   sorted_by (fun x y => or_zero (d_ltr x) <=? or_zero (d_ltr y)) (filter (fun e => negb (short e)) dpb))%list.
(** ref_list.pop(found), insert(ref_idx, entry) for the first entry with a property *)
Fixpoint take_first (f : dent -> bool) (l : list dent) : option (dent * list dent) :=
  match l with
  | [] => None
  | x :: t => if f x then Some (x, t) else option_map (fun p => (fst p, x :: snd p)) (take_first f t)
  end.
Definition move_to (f : dent -> bool) (ref_idx : nat) (l : list dent) : nat * list dent :=
  match take_first f l with
  | Some (x, l') => (S ref_idx, (firstn ref_idx l' ++ x :: skipn ref_idx l')%list)
  | None => (ref_idx, l)
  end.
(** Lines 185-232 apply_rplm; reading past the end of a list raises IndexError *)
Fixpoint apply_rplm (mod_idcs abs_diffs lt_pic_nums : list N) (max_frame_num pred : Z) (ref_idx : nat) (l : list dent) : res (list dent) :=
  match mod_idcs with
  | [] => Ok l
  | idc :: t =>
      if idc =? 3 then Ok l
      else if (idc =? 0) || (idc =? 1) then
        match abs_diffs with
        | [] => Abort
        | d :: ds =>
            let pred' := ((if (idc =? 0)%N then pred - (Z.of_N d + 1) else pred + (Z.of_N d + 1)) mod max_frame_num)%Z in
            let '(ref_idx, l) := move_to (fun e => short e && num_is pred' e) ref_idx l in
            apply_rplm t ds lt_pic_nums max_frame_num pred' ref_idx l
        end
      else if idc =? 2 then
        match lt_pic_nums with
        | [] => Abort
        | n :: ns =>
            let '(ref_idx, l) := move_to (long_at n) ref_idx l in
            apply_rplm t abs_diffs ns max_frame_num pred ref_idx l
        end
      else apply_rplm t abs_diffs lt_pic_nums max_frame_num pred ref_idx l
  end.

(** Lines 336-395: the operations of a picture *)
Fixpoint mark_first (f : dent -> bool) (i : N) (l : list dent) : list dent :=
  match l with
  | [] => []
  | x :: t => if f x then mkdent (d_num x) (Some i) (d_abs x) :: t else x :: mark_first f i t
  end.
Fixpoint run_mmco (ops diffs ltfis mltfis : list N) (frame_num abs : N) (dpb : list dent) : res (list dent) :=
  match ops with
  | [] => Ok dpb
  | op :: t =>
      if op =? 0 then Ok dpb
      else if op =? 1 then
        match diffs with
        | [] => Abort
        | d :: ds =>
            let pic_num := (Z.of_N frame_num - (Z.of_N d + 1))%Z in
            run_mmco t ds ltfis mltfis frame_num abs (filter (fun e => negb (short e && num_is pic_num e)) dpb)
        end
      else if op =? 3 then
        match diffs, ltfis with
        | d :: ds, i :: is =>
            let pic_num := (Z.of_N frame_num - (Z.of_N d + 1))%Z in
            run_mmco t ds is mltfis frame_num abs (mark_first (fun e => short e && num_is pic_num e) i dpb)
        | _, _ => Abort
        end
      else if op =? 4 then
        match mltfis with
        | [] => Abort
        | m :: ms =>
            run_mmco t diffs ltfis ms frame_num abs
              (filter (fun e => negb match d_ltr e with Some i => m <=? i | None => false end) dpb)
        end
      else if op =? 5 then run_mmco t diffs ltfis mltfis frame_num abs []
      else if op =? 6 then
        match ltfis with
        | [] => Abort
        | i :: is =>
            run_mmco t diffs is mltfis frame_num abs
              (filter (fun e => negb (long_at i e)) dpb ++ [mkdent frame_num (Some i) abs])%list
        end
      else run_mmco t diffs ltfis mltfis frame_num abs dpb
  end.
(** Lines 396-412: the sliding window.  Each round removes the first short-term entry, if there is
    one; [NoFuel] if the loop does not end after [fuel] rounds. *)
Fixpoint without_first (f : dent -> bool) (l : list dent) : list dent :=
  match l with
  | [] => []
  | x :: t => if f x then t else x :: without_first f t
  end.
Fixpoint slide_loop (fuel : nat) (max_num_ref_frames : N) (dpb : list dent) : res (list dent) :=
  match fuel with
  | O => NoFuel
  | S k => if max_num_ref_frames <? N.of_nat (List.length dpb)
           then slide_loop k max_num_ref_frames (without_first short dpb) else Ok dpb
  end.
Definition is_idr (f : frame) : bool := f_nal_type f =? 5.
Definition is_ref (f : frame) : bool := 0 <? f_nal_ref_idc f.
(** Lines 298-299 and 317-412: the buffer after a picture *)
Definition update_dpb (max_num_ref_frames abs : N) (f : frame) (dpb : list dent) : res (list dent) :=
  if is_idr f then
    if negb (f_long_term_reference_flag f =? 0) then Ok [mkdent (f_frame_num f) (Some 0) abs]
    else if is_ref f then Ok [mkdent (f_frame_num f) None abs]
    else Ok []
  else match f_mmco f with
       | _ :: _ => run_mmco (f_mmco f) (f_diff_pic_nums f) (f_long_term_frame_idx f)
                     (f_max_long_term_frame_idx_plus1 f) (f_frame_num f) abs dpb
       | [] =>
           if is_ref f then
             let dpb := (dpb ++ [mkdent (f_frame_num f) None abs])%list in
             slide_loop (S (List.length dpb)) max_num_ref_frames dpb
           else Ok dpb
       end.

(** ** The table *)
(** Lines 149-156 slice_type_str, frame_type_str *)
Definition frame_type_str (f : frame) : string :=
  if is_idr f then "IDR"
  else if f_slice_type f =? 0 then "P"
  else if f_slice_type f =? 1 then "B"
  else if f_slice_type f =? 2 then "I"
  else if f_slice_type f =? 3 then "SP"
  else if f_slice_type f =? 4 then "SI"
  else ("?" ++ dec (f_slice_type f))%string.
(** Lines 159-165 entry_str, 168-169 dpb_str, 235-237 refs_used_str *)
Definition entry_str (e : dent) : string :=
  ("fn=" ++ dec (d_num e) ++ match d_ltr e with Some i => "/LTR[" ++ dec i ++ "]" | None => "/STR" end)%string.
Definition dpb_str (l : list dent) : string := String.concat ";" (map entry_str l).
(** Lines 240-281 mmco_str *)
Fixpoint mmco_parts (ops diffs ltfis mltfis : list N) (frame_num : N) : res (list string) :=
  match ops with
  | [] => Ok []
  | op :: t =>
      if op =? 0 then Ok []
      else
        let add (s : string) r := rbind r (fun ps => Ok (s :: ps)) in
        let pic_num d := deci (Z.of_N frame_num - (Z.of_N d + 1)) in
        if op =? 1 then
          match diffs with
          | [] => Abort
          | d :: ds => add ("MMCO1:rm_STR(fn=" ++ pic_num d ++ ")")%string (mmco_parts t ds ltfis mltfis frame_num)
          end
        else if op =? 2 then add "MMCO2:rm_LTR"%string (mmco_parts t diffs ltfis mltfis frame_num)
        else if op =? 3 then
          match diffs, ltfis with
          | d :: ds, i :: is => add ("MMCO3:STR(fn=" ++ pic_num d ++ ")->LTR[" ++ dec i ++ "]")%string (mmco_parts t ds is mltfis frame_num)
          | _, _ => Abort
          end
        else if op =? 4 then
          match mltfis with
          | [] => Abort
          | m :: ms => add ("MMCO4:max_ltr_idx=" ++ deci (Z.of_N m - 1))%string (mmco_parts t diffs ltfis ms frame_num)
          end
        else if op =? 5 then add "MMCO5:clear_all"%string (mmco_parts t diffs ltfis mltfis frame_num)
        else if op =? 6 then
          match ltfis with
          | [] => Abort
          | i :: is => add ("MMCO6:self->LTR[" ++ dec i ++ "]")%string (mmco_parts t diffs is mltfis frame_num)
          end
        else mmco_parts t diffs ltfis mltfis frame_num
  end.
Definition mmco_str (f : frame) : res string :=
  if is_idr f then Ok (if negb (f_long_term_reference_flag f =? 0) then "IDR:LTR[0]"%string else "IDR:STR"%string)
  else match f_mmco f with
       | [] => Ok (if is_ref f then "sliding_window" else "")%string
       | ops => rbind (mmco_parts ops (f_diff_pic_nums f) (f_long_term_frame_idx f)
                  (f_max_long_term_frame_idx_plus1 f) (f_frame_num f)) (fun ps => Ok (String.concat ";" ps))
       end.
(** A row, with the buffers and the list as entries *)
Record drow := mkdrow {
  t_abs_frame : N;
  t_gop : N;
  t_gop_frame : N;
  t_type : string;
  t_frame_num : N;
  t_nal_ref_idc : N;
  t_ref : bool;
  t_refs_used : list dent;
  t_before : list dent;
  t_mmco : string;
  t_after : list dent
}.
(** Lines 284-422 simulate_dpb *)
Definition refs_of (max_frame_num : Z) (f : frame) (dpb : list dent) : res (list dent) :=
  match dpb with
  | _ :: _ =>
      if (f_slice_type f =? 0) || (f_slice_type f =? 1) then
        rbind (let l := build_ref_pic_list0 dpb in
               if f_rplm_l0 f =? 0 then Ok l
               else apply_rplm (f_rplm_mod_idc f) (f_rplm_abs_diff f) (f_rplm_lt_pic_num f) max_frame_num
                      (Z.of_N (f_frame_num f)) 0 l) (fun l =>
        Ok (firstn (N.to_nat (f_num_ref_idx_l0_active f)) l))
      else Ok []
  | [] => Ok []
  end.
Fixpoint simulate_from (max_frame_num : Z) (max_num_ref_frames : N) (fs : list frame) (abs gop gop_frame : N) (dpb : list dent) : res (list drow) :=
  match fs with
  | [] => Ok []
  | f :: t =>
      let dpb := if is_idr f then [] else dpb in
      let gop := if is_idr f && (0 <? abs) then gop + 1 else gop in
      let gop_frame := if is_idr f then 0 else gop_frame in
      rbind (refs_of max_frame_num f dpb) (fun refs =>
      rbind (mmco_str f) (fun mmco =>
      rbind (update_dpb max_num_ref_frames abs f dpb) (fun after =>
      rbind (simulate_from max_frame_num max_num_ref_frames t (abs + 1) gop (gop_frame + 1) after) (fun rows =>
      Ok (mkdrow abs gop gop_frame (frame_type_str f) (f_frame_num f) (f_nal_ref_idc f) (is_ref f) refs dpb mmco after :: rows)))))
  end.
Definition simulate_dpb (sps : pysps) (fs : list frame) : res (list drow) :=
  simulate_from (2 ^ Z.of_N (p_log2_max_frame_num_minus4 sps + 4)) (p_max_num_ref_frames sps) fs 0 0 0 [].
Definition row_str (r : drow) : string :=
  String.concat "," [dec (t_abs_frame r); dec (t_gop r); dec (t_gop_frame r); t_type r; dec (t_frame_num r); dec (t_nal_ref_idc r);
    (if t_ref r then "Y" else "N")%string; dpb_str (t_refs_used r); dpb_str (t_before r); t_mmco r; dpb_str (t_after r)].
(** Lines 449-480 main: nothing if the tool fails; KeyError ([Abort]) without a parameter set *)
Definition dpb_script (asserts : bool) (input : string) (data : list N) : res (option (list drow)) :=
  match parse_args (dpb_options input) with
  | Go a =>
      rbind (run asserts a data) (fun r =>
      if snd r =? 0 then
        rbind (parse_frames (fst r)) (fun p =>
        match fst p with
        | Some sps => rbind (simulate_dpb sps (snd p)) (fun rows => Ok (Some rows))
        | None => Abort
        end)
      else Ok None)
  | _ => Abort
  end.
(** Lines 292-295 and 416-420: the table as text *)
Definition dpb_header : string :=
  "abs_frame,gop,gop_frame,type,frame_num,nal_ref_idc,ref,refs_used,dpb_before_decode,mmco,dpb_after_mmco".
Definition table_text (rows : list drow) : string :=
  String.concat "" (map (fun l => (l ++ String (ascii_of_N 10) "")%string) (dpb_header :: map row_str rows)).
