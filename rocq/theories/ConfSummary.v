(** Model of tools/h264nal-conformance.py:287-297: the last line, which main prints to stderr
    unless it is told to be quiet. *)
From Coq Require Import NArith List Bool String Ascii.
From Verif Require Import Base Dump Conformance ConfTable.
Import ListNotations.
Open Scope list_scope.
Open Scope string_scope.

(** Lines 272-279: the rows, without the names of the files *)
Fixpoint analyze_files (asserts : bool) (content : string -> list N) (messages : string -> string) (infiles : list string) : res (list csv_row) :=
  match infiles with
  | [] => Ok []
  | i :: t =>
      rbind (conformance asserts i (content i) (messages i)) (fun r =>
      rbind (analyze_files asserts content messages t) (fun rows => Ok (r :: rows)))
  end.
Definition with_issues (r : csv_row) : bool := negb (r_status r =? "0").
Definition silently (r : csv_row) : bool := (r_status r =? "0") && negb (r_header_status r =? "0").
Definition last_line (rows : list csv_row) : string :=
  "parsed " ++ dec (N.of_nat (List.length rows)) ++ " file(s), " ++ dec (N.of_nat (List.length (filter with_issues rows))) ++
  " with issues, " ++ dec (N.of_nat (List.length (filter silently rows))) ++ " silently missing slice headers".
Definition conformance_summary (asserts : bool) (isdir : string -> bool) (content : string -> list N) (messages : string -> string)
  (inputs : list string) : res string :=
  rbind (analyze_files asserts content messages (filter (fun i => negb (isdir i)) inputs)) (fun rows => Ok (last_line rows)).
