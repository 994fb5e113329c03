(** Specification for the table of tools/h264nal-conformance.py: how a table is read, and the name
    of the directory of a file. *)
From Coq Require Import NArith List Bool String Ascii.
From Verif Require Import SpecConverter SpecConverterFiles.
Import ListNotations.
Open Scope list_scope.
Open Scope string_scope.

(** RFC 4180.  A record ends with CR LF, fields are separated by commas; a field in quotes may
    hold any character, a quote as two.  [f] is the field so far, [r] the fields before it. *)
Inductive place := Start | Plain | Quoted | Quote | Return.
Fixpoint read (p : place) (f : string) (r : list string) (s : string) : option (list (list string)) :=
  match s with
  | EmptyString => match p, r with Start, [] => Some [] | _, _ => None end
  | String c t =>
      let next := f ++ String c "" in
      let outside (other : option (list (list string))) :=
        if Ascii.eqb c "," then read Start "" (r ++ [f])%list t
        else if Ascii.eqb c "013" then read Return f r t else other in
      match p with
      | Start => if Ascii.eqb c """" then read Quoted "" r t else outside (if Ascii.eqb c "010" then None else read Plain next r t)
      | Plain => if Ascii.eqb c """" then None else outside (if Ascii.eqb c "010" then None else read Plain next r t)
      | Quoted => if Ascii.eqb c """" then read Quote f r t else read Quoted next r t
      | Quote => if Ascii.eqb c """" then read Quoted next r t else outside None
      | Return => if Ascii.eqb c "010" then option_map (cons (r ++ [f])%list) (read Start "" [] t) else None
      end
  end.
Definition read_csv (s : string) : option (list (list string)) := read Start "" [] s.
Example read_csv_ex : let nl := String "013" (String "010" "") in
  read_csv ("a,""b,""""c"",,""""" ++ nl ++ "x" ++ nl) = Some [["a"; "b,""c"; ""; ""]; ["x"]] /\ read_csv "a,b" = None.
Proof. split; reflexivity. Qed.

(** Paths by their names: [walk] follows the names from a place (innermost name first). *)
Inductive names : string -> list string -> Prop :=
| names_one : forall s, ~ holds "/" s -> names s [s]
| names_more : forall a b l, ~ holds "/" a -> names b l -> names (a ++ "/" ++ b) (a :: l).
Inductive walk : list string -> list string -> list string -> Prop :=
| walk_end : forall h, walk h [] h
| walk_stay : forall h n t k, n = "" \/ n = "." -> walk h t k -> walk h (n :: t) k
| walk_up : forall d h t k, walk h t k -> walk (d :: h) (".." :: t) k
| walk_top : forall t k, walk [] t k -> walk [] (".." :: t) k
| walk_down : forall h n t k, n <> "" -> n <> "." -> n <> ".." -> walk (n :: h) t k -> walk h (n :: t) k.
(** [d] is the name of the directory that contains [path]; the root has no name. *)
Definition directory_of (cwd path d : string) : Prop :=
  exists c p here place, names cwd c /\ names path p /\
    (((exists q, path = "/" ++ q) /\ here = []) \/ ((forall q, path <> "/" ++ q) /\ walk [] c here)) /\
    walk here p place /\ d = match place with _ :: y :: _ => y | _ => "" end.
Definition titles : list string :=
  ["input_dir"; "input_file"; "resolution"; "profile"; "level"; "number_of_nalus"; "number_of_slice_nalus";
   "number_of_slice_header_nalus"; "h264nal_status"; "slice_header_status"].
