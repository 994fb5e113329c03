(** Model of H264Utils::ReadFile and of the files the tool reads and writes. *)
From Coq Require Import NArith ZArith List Bool String Ascii.
From Verif Require Import Base Dump ToolText.
Import ListNotations.
Open Scope N_scope.

(** What fopen, fseek, ftell and fread find under a name: nothing that opens, something whose
    length ftell does not tell, or bytes, of which fread delivers a number. *)
Inductive file := Absent | Unsized | Bytes (content : list N) (delivered : nat).
Definition disk := string -> file.
(** Can the name be opened for writing? *)
Definition rights := string -> bool.

(** h264_utils.cc:16-26 ReadStdinToBuffer: chunks of 4096 bytes until one is empty *)
Definition chunk_size : nat := 4096.
Fixpoint ReadStdinToBuffer (fuel : nat) (stdin buffer : list N) : res (list N) :=
  match fuel with
  | O => NoFuel
  | S f =>
      match firstn chunk_size stdin with
      | [] => Ok buffer
      | temp => ReadStdinToBuffer f (skipn chunk_size stdin) (buffer ++ temp)
      end
  end.
(** strlen(s) == 1 && s[0] == '-' *)
Definition is_dash (s : string) : bool := String.eqb s "-".
(** h264_utils.cc:31-67 ReadFile; [None] is the return value -1. *)
Definition ReadFile (d : disk) (stdin : list N) (filename : option string) : res (option (list N)) :=
  match filename with
  | None => rbind (ReadStdinToBuffer (S (List.length stdin)) stdin []) (fun b => Ok (Some b))
  | Some f =>
      if is_dash f then rbind (ReadStdinToBuffer (S (List.length stdin)) stdin []) (fun b => Ok (Some b))
      else match d f with
           | Absent => Ok None
           | Unsized => Ok None
           | Bytes content delivered =>
               if (Z.of_nat (List.length content) <=? 0)%Z then Ok None
               else if Nat.eqb (List.length (firstn delivered content)) (List.length content)
                    then Ok (Some (firstn delivered content)) else Ok None
           end
  end.

(** The bytes of a text *)
Definition bytes_of (s : string) : list N := map N_of_ascii (list_ascii_of_string s).
Definition write (d : disk) (f : string) (s : string) : disk := fun g =>
  if String.eqb g f then Bytes (bytes_of s) (String.length s) else d g.

(** What is left of a run: the standard output, the disk, the exit status. *)
Record effects := mkeff { eff_stdout : string; eff_disk : disk; eff_status : N }.
(** tools/h264nal.cc:327, the only way to stop with status 0; PROJECT_VERSION is a parameter. *)
Definition version_line (version : string) : string := ("version: " ++ version ++ String newline EmptyString)%string.
(** tools/h264nal.cc:355-606 main; the input is read (437) before the output file is opened and
    emptied (467).  The order of parsing and opening cannot be observed unless the parser crashes. *)
Definition tool_main (version : string) (asserts : bool) (r : rights) (d : disk) (stdin : list N) (os : list opt) : res effects :=
  match parse_args os with
  | Stop n => Ok (mkeff (if n =? 0 then version_line version else EmptyString) d n)
  | Go a =>
      rbind (match arg_infile a with
             | None => Ok (Some (EmptyString, 0))
             | Some f => rbind (ReadFile d stdin (Some f)) (fun b =>
                         match b with
                         | None => Ok None
                         | Some buffer => rbind (run asserts a buffer) (fun x => Ok (Some x))
                         end)
             end) (fun out =>
      match out with
      | None => Ok (mkeff EmptyString d 255)
      | Some (text, status) =>
          match arg_outfile a with
          | None => Ok (mkeff text d status)
          | Some f =>
              if is_dash f then Ok (mkeff text d status)
              else if r f then Ok (mkeff EmptyString (write d f text) status)
              else Ok (mkeff EmptyString d 255)
          end
      end)
  end.
