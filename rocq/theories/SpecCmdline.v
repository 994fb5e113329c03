(** How a command line of the tool is written: the names of the usage text (tools/h264nal.cc:83-137)
    with what they stand for, and the POSIX and GNU conventions for arguments. *)
From Coq Require Import NArith ZArith List Bool String Ascii.
From Verif Require Import ToolText Cmdline.
Import ListNotations.
Open Scope string_scope.

Definition switch (name : string) (f : bool -> opt) : list (string * item) :=
  [(name, Other (f true)); ("no-" ++ name, Other (f false))].
(** Options without an argument *)
Definition flag_names : list (string * item) :=
  [("debug", Debug); ("quiet", Quiet); ("dump-all", Other DumpAll); ("dump-length", Other DumpLength);
   ("version", Other Version); ("help", Other Help)] ++
  switch "as-one-line" OneLine ++ switch "add-offset" AddOffset ++ switch "add-length" AddLength ++
  switch "add-parsed-length" AddParsedLength ++ switch "add-checksum" AddChecksum ++
  switch "add-resolution" AddResolution ++ switch "add-contents" AddContents.
(** Options with an argument *)
Definition arg_names : list (string * (string -> opt)) :=
  [("infile", Infile); ("outfile", Outfile); ("avcc-file", AvccFile); ("nalu-length-bytes", NaluLengthBytes);
   ("frames-per-second", FramesPerSecond)].
Definition names : list string := (map fst flag_names ++ map fst arg_names)%list.
(** A name may be shortened as long as it is the beginning of no other name. *)
Definition stands_for (s name : string) : Prop :=
  (exists t, name = s ++ t) /\
  (s = name \/ forall other t, In other names -> other = s ++ t -> other = name).

(** Letters after a single dash: options without an argument, then possibly one with it *)
Inductive flag_letter : ascii -> item -> Prop :=
| letter_d : flag_letter "d" Debug
| letter_h : flag_letter "h" (Other Help).
Inductive arg_letter : ascii -> (string -> opt) -> Prop :=
| letter_i : arg_letter "i" Infile
| letter_o : arg_letter "o" Outfile.
Inductive letters : string -> list item -> Prop :=
| letters_none : letters "" []
| letters_flag : forall c i s is, flag_letter c i -> letters s is -> letters (String c s) (i :: is).

(** Which options a list of arguments gives *)
Inductive written : list string -> list item -> Prop :=
| written_none : written [] []
| written_operand : forall a l is, ~ (exists s, s <> "" /\ a = "-" ++ s) -> written l is -> written (a :: l) is
| written_end : forall l, written ("--" :: l) []
| written_flag : forall s name i l is, In (name, i) flag_names -> stands_for s name -> written l is ->
    written (("--" ++ s) :: l) (i :: is)
| written_value : forall s name f v l is, In (name, f) arg_names -> stands_for s name -> written l is ->
    written (("--" ++ s ++ "=" ++ v) :: l) (Other (f v) :: is)
| written_next : forall s name f v l is, In (name, f) arg_names -> stands_for s name -> written l is ->
    written (("--" ++ s) :: v :: l) (Other (f v) :: is)
| written_letters : forall s is l is', letters s is -> s <> "" -> written l is' ->
    written (("-" ++ s) :: l) (is ++ is')
| written_letters_value : forall s is c f v l is', letters s is -> arg_letter c f -> v <> "" -> written l is' ->
    written (("-" ++ s ++ String c v) :: l) (is ++ Other (f v) :: is')
| written_letters_next : forall s is c f v l is', letters s is -> arg_letter c f -> written l is' ->
    written (("-" ++ s ++ String c "") :: v :: l) (is ++ Other (f v) :: is').
(** The debug level: the times it is raised after the last time it is set to zero *)
Fixpoint raised (is : list item) : N :=
  match is with
  | [] => 0
  | Debug :: t => if existsb (fun i => match i with Quiet => true | _ => false end) t then raised t else 1 + raised t
  | _ :: t => raised t
  end.
