(** Model of the command line of the tool: the tables that tools/h264nal.cc gives to getopt_long,
    getopt_long itself (as glibc documents it, without POSIXLY_CORRECT), and the debug level.
    Arguments are C strings, without argv[0]. *)
From Coq Require Import NArith ZArith List Bool String Ascii.
From Verif Require Import Base Dump ToolText Files.
Import ListNotations.
Open Scope string_scope.

(** One return of getopt_long *)
Inductive item := Debug | Quiet | Other (o : opt).
(** no_argument or required_argument, with what the switch (lines 207-339) does for the value *)
Inductive entry_kind := Flag (i : item) | Arg (f : string -> item).
(** Lines 173-203 longopts *)
Definition longopts : list (string * entry_kind) := [
  ("debug", Flag Debug);
  ("infile", Arg (fun s => Other (Infile s)));
  ("outfile", Arg (fun s => Other (Outfile s)));
  ("quiet", Flag Quiet);
  ("dump-all", Flag (Other DumpAll));
  ("dump-length", Flag (Other DumpLength));
  ("as-one-line", Flag (Other (OneLine true)));
  ("no-as-one-line", Flag (Other (OneLine false)));
  ("add-offset", Flag (Other (AddOffset true)));
  ("no-add-offset", Flag (Other (AddOffset false)));
  ("add-length", Flag (Other (AddLength true)));
  ("no-add-length", Flag (Other (AddLength false)));
  ("add-parsed-length", Flag (Other (AddParsedLength true)));
  ("no-add-parsed-length", Flag (Other (AddParsedLength false)));
  ("add-checksum", Flag (Other (AddChecksum true)));
  ("no-add-checksum", Flag (Other (AddChecksum false)));
  ("add-resolution", Flag (Other (AddResolution true)));
  ("no-add-resolution", Flag (Other (AddResolution false)));
  ("add-contents", Flag (Other (AddContents true)));
  ("no-add-contents", Flag (Other (AddContents false)));
  ("avcc-file", Arg (fun s => Other (AvccFile s)));
  ("nalu-length-bytes", Arg (fun s => Other (NaluLengthBytes s)));
  ("frames-per-second", Arg (fun s => Other (FramesPerSecond s)));
  ("version", Flag (Other Version));
  ("help", Flag (Other Help))].
(** Line 206, the string "di:o:h" *)
Definition shortopts : list (ascii * entry_kind) := [
  ("d"%char, Flag Debug);
  ("i"%char, Arg (fun s => Other (Infile s)));
  ("o"%char, Arg (fun s => Other (Outfile s)));
  ("h"%char, Flag (Other Help))].

(** getopt_long: a name is looked up exactly first, then as the beginning of one name only.  (The
    case of several names for one option does not occur in the table.) *)
Definition find_long (name : string) : option entry_kind :=
  match find (fun e => String.eqb (fst e) name) longopts with
  | Some e => Some (snd e)
  | None => match filter (fun e => String.prefix name (fst e)) longopts with
            | [e] => Some (snd e)
            | _ => None
            end
  end.
Definition find_short (c : ascii) : option entry_kind :=
  match find (fun e => Ascii.eqb (fst e) c) shortopts with Some e => Some (snd e) | None => None end.
(** Up to the first '=', and what follows it *)
Fixpoint cut_eq (s : string) : string * option string :=
  match s with
  | EmptyString => (EmptyString, None)
  | String c t => if Ascii.eqb c "=" then (EmptyString, Some t)
                  else let '(a, b) := cut_eq t in (String c a, b)
  end.
(** What an argument beginning with "--" asks for: an option that is complete, one that takes the
    next argument, or '?' *)
Inductive step := Give (is : list item) | Next (is : list item) (f : string -> item).
Definition unsupported : item := Other Unsupported.
Definition long_step (s : string) : step :=
  let '(name, v) := cut_eq s in
  match find_long name, v with
  | Some (Flag i), None => Give [i]
  | Some (Flag _), Some _ => Give [unsupported]
  | Some (Arg f), Some v => Give [f v]
  | Some (Arg f), None => Next [] f
  | None, _ => Give [unsupported]
  end.
(** The letters after a single '-'.  After a '?' getopt_long would go on, but the program has
    ended then (lines 335-338). *)
Fixpoint short_step (s : string) : step :=
  match s with
  | EmptyString => Give []
  | String c t =>
      match find_short c with
      | None => Give [unsupported]
      | Some (Flag i) => match short_step t with
                         | Give is => Give (i :: is)
                         | Next is f => Next (i :: is) f
                         end
      | Some (Arg f) => match t with EmptyString => Next [] f | _ => Give [f t] end
      end
  end.
(** All returns of getopt_long.  Arguments that are no options are passed over; they are moved to
    the end of argv, where nobody looks at them. *)
Fixpoint getopt_long (argv : list string) : list item :=
  match argv with
  | [] => []
  | a :: rest =>
      let go (s : step) := match s with
        | Give is => is ++ getopt_long rest
        | Next is f => match rest with
                       | [] => is ++ [unsupported]
                       | v :: rest' => is ++ f v :: getopt_long rest'
                       end
        end%list in
      match a with
      | String c1 (String c2 s) =>
          if Ascii.eqb c1 "-" then
            if Ascii.eqb c2 "-" then
              match s with EmptyString => [] | _ => go (long_step s) end
            else go (short_step (String c2 s))
          else getopt_long rest
      | _ => getopt_long rest
      end
  end.

(** The options apart from the debug level, which C61, C62 and C68 start from *)
Definition options_of (is : list item) : list opt :=
  flat_map (fun i => match i with Other o => [o] | _ => [] end) is.
(** Lines 220-226: options->debug, an int.  The program may have ended before. *)
Fixpoint debug_level (is : list item) (level : Z) : res Z :=
  match is with
  | [] => Ok level
  | Debug :: t => rbind (chk_i32 (level + 1)) (debug_level t)
  | Quiet :: t => debug_level t 0%Z
  | Other o :: t => match set_option DEFAULT_OPTIONS o with Go _ => debug_level t level | Stop _ => Ok level end
  end.
(** Lines 364-379, on the standard output; the version that is not SMALL_FOOTPRINT *)
Definition file_text (f : option string) : string := match f with None => "null" | Some s => s end.
Definition debug_text (level : Z) (a : args) : string :=
  if (1 <? level)%Z then
    "h264nal: original version" ++ String newline "" ++
    "options.debug = " ++ dec (Z.to_N level) ++ String newline "" ++
    "options.infile = " ++ file_text (arg_infile a) ++ String newline "" ++
    "options.outfile = " ++ file_text (arg_outfile a) ++ String newline ""
  else "".
(** main with its arguments *)
Definition command (version : string) (asserts : bool) (r : rights) (d : disk) (stdin : list N) (argv : list string) : res effects :=
  let is := getopt_long argv in
  rbind (debug_level is 0%Z) (fun level =>
  rbind (tool_main version asserts r d stdin (options_of is)) (fun e =>
  Ok (match parse_args (options_of is) with
      | Go a => mkeff (debug_text level a ++ eff_stdout e) (eff_disk e) (eff_status e)
      | Stop _ => e
      end))).
