(** Specification for the files that fuzz/converter.py writes: their names and the text of the
    fuzz target. *)
From Coq Require Import NArith List String Ascii DecimalString.
From Verif Require Import SpecConverter.
Import ListNotations.
Open Scope list_scope.
Open Scope string_scope.

(** The part of a path after the last slash *)
Definition last_part (path name : string) : Prop := ~ holds "/" name /\ (path = name \/ exists d, path = d ++ "/" ++ name).
(** The path of [name] in the directory [dir]; the empty directory is the current one. *)
Definition in_dir (dir name path : string) : Prop :=
  ((dir = "" \/ exists d, dir = d ++ "/") /\ path = dir ++ name) \/
  (dir <> "" /\ (forall d, dir <> d ++ "/") /\ path = dir ++ "/" ++ name).
(** All occurrences, from the left, replaced *)
Inductive replaced (old new : string) : string -> string -> Prop :=
| replaced_none : forall s, ~ holds old s -> replaced old new s s
| replaced_next : forall a r r', (forall a' q, a ++ old ++ r = a' ++ old ++ q -> (String.length a <= String.length a')%nat) ->
    replaced old new r r' -> replaced old new (a ++ old ++ r) (a ++ new ++ r').
(** Decimal, with at least two digits *)
Definition two_digits (n : N) (s : string) : Prop :=
  (exists u, NilEmpty.uint_of_string s = Some u /\ N.of_uint u = n) /\ (2 <= String.length s)%nat /\
  ((2 < String.length s)%nat -> forall t, s <> String "0" t).
Definition seed_name (num : string) : string := "unittest." ++ num ++ ".bin".

(** The fuzz target *)
Definition target_text (infile includes code : string) : string := String.concat "" [
"/*
 *  Copyright (c) Facebook, Inc. and its affiliates.
 */

// This file was auto-generated using fuzz/converter.py from
// "; infile; ".
// Do not edit directly.

"; includes; "

// libfuzzer infra to test the fuzz target
extern ""C"" int LLVMFuzzerTestOneInput(const uint8_t *data, size_t size) {
  // the code below is copied verbatim out of a unit test, where it sits
  // inside ""namespace h264nal"", and so refers to the project's types
  // unqualified. This entry point cannot: it has to be extern ""C"" at
  // global scope. Pull the namespace in rather than qualifying each name,
  // which would mean keeping a list of them here.
  using namespace h264nal;  // NOLINT(build/namespaces)
  // a test with no fuzzer::conv markers converts to an empty body
  (void)data;
  (void)size;
"; code; "
  return 0;
}
"].
