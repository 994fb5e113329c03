(** Specification: the table of h264nal-dpb_parse.py as text. *)
From Coq Require Import NArith ZArith List Bool String Ascii.
From Coq Require DecimalString.
From Verif Require Import SpecSliceParts SpecDpb.
Import ListNotations.
Open Scope N_scope.
Open Scope string_scope.

Definition number_text (n : N) : string := DecimalString.NilEmpty.string_of_uint (N.to_uint n).
Definition integer_text (z : Z) : string := DecimalString.NilEmpty.string_of_int (Z.to_int z).
(** A text cut at a character *)
Fixpoint cut_at (c : ascii) (s : string) : list string :=
  match s with
  | EmptyString => [""]
  | String x t =>
      if Ascii.eqb x c then "" :: cut_at c t
      else match cut_at c t with w :: ws => String x w :: ws | [] => [String x ""] end
  end.
(** A memory management operation; [cur]: frame_num of the picture *)
Definition op_text (cur : N) (c : mmco) : string :=
  let picture d := integer_text (Z.of_N cur - (Z.of_N d + 1)) in
  match c with
  | UnmarkShort d => "MMCO1:rm_STR(fn=" ++ picture d ++ ")"
  | UnmarkLong _ => "MMCO2:rm_LTR"
  | MakeLong d i => "MMCO3:STR(fn=" ++ picture d ++ ")->LTR[" ++ number_text i ++ "]"
  | MaxLong m => "MMCO4:max_ltr_idx=" ++ integer_text (Z.of_N m - 1)
  | UnmarkAll => "MMCO5:clear_all"
  | CurrentLong i => "MMCO6:self->LTR[" ++ number_text i ++ "]"
  end.
(** The marking of a picture *)
Definition marking_text (c : cpic) : string :=
  match c_marking c with
  | Some (IdrMarking _ b) => if (b =? 0)%N then "IDR:STR" else "IDR:LTR[0]"
  | Some (Marking None) => "sliding_window"
  | Some (Marking (Some cs)) => String.concat ";" (map (op_text (c_num c)) cs)
  | None => ""
  end.
Definition type_text (idr : bool) (slice_type : N) : string :=
  if idr then "IDR"
  else nth (N.to_nat slice_type) ["P"; "B"; "I"; "SP"; "SI"] ("?" ++ number_text slice_type).
Definition frame_text (e : refpic) : string :=
  "fn=" ++ number_text (r_num e) ++ match r_long e with Some i => "/LTR[" ++ number_text i ++ "]" | None => "/STR" end.
Definition frames_text (l : list refpic) : string := String.concat ";" (map frame_text l).
