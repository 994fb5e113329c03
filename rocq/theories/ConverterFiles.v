(** Model of the rest of fuzz/converter.py (lines 22-49 and 52-95): the fuzz target and the files
    that are written.  The debug messages are not modelled; opening a file succeeds. *)
From Coq Require Import NArith List Bool String Ascii.
From Verif Require Import Base PyText Dump Converter.
Import ListNotations.
Open Scope list_scope.
Open Scope string_scope.

(** os.path.basename *)
Fixpoint basename (s : string) : string :=
  match s with
  | EmptyString => EmptyString
  | String _ t => if within "/" s then basename t else s
  end.
(** str.replace.  [skip]: that many characters still belong to the last match. *)
Fixpoint replace_from (skip : nat) (old new s : string) : string :=
  match s with
  | EmptyString => EmptyString
  | String c t =>
      match skip with
      | S k => replace_from k old new t
      | O => if prefix old s then new ++ replace_from (String.length old - 1) old new t else String c (replace_from 0 old new t)
      end
  end.
Definition replace (old new s : string) : string := replace_from 0 old new s.
Fixpoint ends_with_slash (s : string) : bool :=
  match s with
  | EmptyString => false
  | String c EmptyString => Ascii.eqb c "/"
  | String _ t => ends_with_slash t
  end.
(** os.path.join with two arguments *)
Definition path_join (a b : string) : string :=
  if prefix "/" b then b else if (a =? "") || ends_with_slash a then a ++ b else a ++ "/" ++ b.

(** string.Template.substitute: ValueError and KeyError are [Abort].  Identifiers in lower case
    (the letters of the template). *)
Definition id_start (c : ascii) : bool := let n := N_of_ascii c in ((97 <=? n) && (n <=? 122) || (65 <=? n) && (n <=? 90) || (n =? 95))%N.
Definition id_at (s : string) : string := match s with String c _ => if id_start c then leading word_char s else EmptyString | EmptyString => EmptyString end.
Fixpoint substitute (env : string -> option string) (skip : nat) (s : string) : res string :=
  match s with
  | EmptyString => Ok EmptyString
  | String c t =>
      match skip with
      | S k => substitute env k t
      | O =>
          if Ascii.eqb c "$" then
            match t with
            | String "$" _ => rbind (substitute env 1 t) (fun r => Ok (String "$" r))
            | String "{" u =>
                match env (id_at u), dropped (String.length (id_at u)) u with
                | Some v, String "}" _ => rbind (substitute env (String.length (id_at u) + 2) t) (fun r => Ok (v ++ r))
                | _, _ => Abort
                end
            | _ =>
                match env (id_at t) with
                | Some v => rbind (substitute env (String.length (id_at t)) t) (fun r => Ok (v ++ r))
                | None => Abort
                end
            end
          else rbind (substitute env 0 t) (fun r => Ok (String c r))
      end
  end.
(** Line 20 *)
Definition project : string := "h264nal".
(** Lines 22-47 *)
Definition code_template : string :=
"/*
 *  Copyright (c) Facebook, Inc. and its affiliates.
 */

// This file was auto-generated using fuzz/converter.py from
// $infile.
// Do not edit directly.

$include

// libfuzzer infra to test the fuzz target
extern ""C"" int LLVMFuzzerTestOneInput(const uint8_t *data, size_t size) {
  // the code below is copied verbatim out of a unit test, where it sits
  // inside ""namespace $project"", and so refers to the project's types
  // unqualified. This entry point cannot: it has to be extern ""C"" at
  // global scope. Pull the namespace in rather than qualifying each name,
  // which would mean keeping a list of them here.
  using namespace $project;  // NOLINT(build/namespaces)
  // a test with no fuzzer::conv markers converts to an empty body
  (void)data;
  (void)size;
$code
  return 0;
}
".
(** Lines 75-79; the entry data, a list, is not used by the template. *)
Definition values (infile : string) (out : converted) (key : string) : option string :=
  if key =? "infile" then Some infile
  else if key =? "project" then Some project
  else if key =? "include" then Some (cv_include out)
  else if key =? "code" then Some (cv_code out)
  else None.

(** Line 87, the operator % with one number.  A directive is a percent sign, flags, a width, a
    precision, a length and a letter; the letter % needs no argument.  Other directives than %02i are
    errors: they are unknown, or they use the argument up and %02i follows. *)
Definition flag_char (c : ascii) : bool := existsb (Ascii.eqb c) ["-"; "+"; " "; "#"; "0"]%char.
Definition digit_char (c : ascii) : bool := let n := N_of_ascii c in ((48 <=? n) && (n <=? 57))%N.
Definition length_char (c : ascii) : bool := existsb (Ascii.eqb c) ["h"; "l"; "L"]%char.
Definition directive (s : string) : string :=
  let a := leading flag_char s in let s := dropped (String.length a) s in
  let b := leading digit_char s in let s := dropped (String.length b) s in
  let c := match s with String "." t => String "." (leading digit_char t) | _ => EmptyString end in let s := dropped (String.length c) s in
  a ++ b ++ c ++ match s with String x _ => if length_char x then String x EmptyString else EmptyString | EmptyString => EmptyString end.
(** %02i *)
Definition two (n : N) : string := if (n <? 10)%N then "0" ++ dec n else dec n.
Fixpoint format_number (skip : nat) (arg : option N) (s : string) : res string :=
  match s with
  | EmptyString => match arg with None => Ok EmptyString | Some _ => Abort end
  | String c t =>
      match skip with
      | S k => format_number k arg t
      | O =>
          if Ascii.eqb c "%" then
            let d := directive t in
            match dropped (String.length d) t, arg with
            | String "%" _, _ => rbind (format_number (String.length d + 1) arg t) (fun r => Ok (String "%" r))
            | String "i" _, Some n =>
                if d =? "02" then rbind (format_number 3 None t) (fun r => Ok (two n ++ r)) else Abort
            | _, _ => Abort
            end
          else rbind (format_number 0 arg t) (fun r => Ok (String c r))
      end
  end.

(** What the script does to the file system, and whether it ends without an error *)
Inductive effect := WriteText (path text : string) | MakeDir (path : string) | WriteBytes (path : string) (bytes : list N).
(** Lines 86-95 *)
Fixpoint write_seeds (dir : string) (i : N) (seeds : list (list N)) : list effect * bool :=
  match seeds with
  | [] => ([], true)
  | d :: t =>
      match format_number 0 (Some i) (path_join dir "unittest.%02i.bin") with
      | Ok p => let (e, ok) := write_seeds dir (i + 1) t in (MakeDir dir :: WriteBytes p d :: e, ok)
      | _ => ([], false)
      end
  end.
(** Lines 52-95, and 249-250: with the standard input, os.path.basename raises TypeError. *)
Definition convert (infile outdir : string) (lines : list string) : list effect * bool :=
  if infile =? "-" then ([], false)
  else match parse_input lines with
       | Ok out =>
           let name := replace "unittest" "fuzzer" (basename infile) in
           match substitute (values (basename infile) out) 0 code_template with
           | Ok code =>
               let (e, ok) := write_seeds (path_join (path_join outdir "corpus") (replace ".cc" "" name)) 0 (cv_data out) in
               (WriteText (path_join outdir name) code :: e, ok)
           | _ => ([], false)
           end
       | _ => ([], false)
       end.
