(** Model of the file names of tools/h264nal-split.py:134-154 (split_file).  Opening a file
    succeeds; the messages are not modelled. *)
From Coq Require Import NArith List Bool String Ascii.
From Verif Require Import Base ToolText PyText Split Converter ConverterFiles.
Import ListNotations.
Open Scope list_scope.
Open Scope string_scope.

(** The text before the last dot, and the rest *)
Fixpoint last_dot (s : string) : option (string * string) :=
  match s with
  | EmptyString => None
  | String c t =>
      match last_dot t with
      | Some (a, b) => Some (String c a, b)
      | None => if Ascii.eqb c "." then Some (EmptyString, s) else None
      end
  end.
Fixpoint taken (n : nat) (s : string) : string :=
  match n, s with S k, String c t => String c (taken k t) | _, _ => EmptyString end.
(** os.path.splitext: dots at the start of the name do not count *)
Definition splitext (p : string) : string * string :=
  let name := basename p in
  match last_dot name with
  | Some (a, e) => if every (Ascii.eqb ".") a then (p, EmptyString) else (taken (String.length p - String.length name) p ++ a, e)
  | None => (p, EmptyString)
  end.
(** Lines 140-145 *)
Fixpoint name_files (base ext : string) (i : N) (files : list (list N)) : list (string * list N) :=
  match files with
  | [] => []
  | f :: t => (base ++ "." ++ two (i + 1) ++ ext, f) :: name_files base ext (i + 1) t
  end.
(** The files that the script writes *)
Definition split_writes (asserts : bool) (input : string) (data : list N) : res (list (string * list N)) :=
  rbind (split_script asserts input data) (fun r =>
  Ok (match r with
      | SplitInto files => let (base, ext) := splitext input in name_files base ext 0 files
      | _ => []
      end)).
