(** Model of tools/h264nal-split.py: it runs the tool on a file, reads the sizes of the pictures
    from the output, and cuts the file where they change. *)
From Coq Require Import NArith ZArith List Bool String Ascii.
From Verif Require Import Base ToolText PyText.
Import ListNotations.
Open Scope N_scope.

(** Lines 23-40 run_h264nal: the options *)
Definition split_options (input : string) : list opt :=
  [Infile input; OneLine false; AddOffset true; AddLength true; AddResolution true].

(** Lines 43-75 parse_nal_units: the dictionary of one unit *)
Record pynal := mkpynal {
  py_offset : option N;
  py_length : option N;
  py_type : option N;
  py_size : option (N * N)
}.
Definition parse_nal (nal_text : string) : pynal :=
  let dec10 lit := option_map (int_of 10) (search (after lit (several digit10)) nal_text) in
  mkpynal
    (option_map (int_of 16) (search (after "offset: 0x" (several digit16)) nal_text))
    (dec10 "length: "%string)
    (dec10 "nal_unit_type: "%string)
    (match dec10 "width: "%string, dec10 "height: "%string with
     | Some w, Some h => Some (w, h)
     | _, _ => None
     end).
Definition parse_nal_units (content : string) : list pynal :=
  map parse_nal (tl (split_bol "nal_unit {" 0 true content)).

(** data[a:b] with 0 <= a, b *)
Definition bytes_between (a b : N) (data : list N) : list N :=
  firstn (N.to_nat (b - a)) (skipn (N.to_nat a) data).
Definition same_bytes (a b : list N) : bool :=
  if list_eq_dec N.eq_dec a b then true else false.
(** Lines 78-95 find_start_code_offset *)
Definition find_start_code_offset (data : list N) (o : N) : N :=
  if (4 <=? o) && same_bytes (bytes_between (o - 4) o data) [0; 0; 0; 1] then o - 4
  else if (3 <=? o) && same_bytes (bytes_between (o - 3) o data) [0; 0; 1] then o - 3
  else o.

(** Lines 98-131 find_split_points; a unit without an offset raises KeyError, [Abort] here. *)
Definition same_size (a b : N * N) : bool := (fst a =? fst b) && (snd a =? snd b).
Fixpoint find_split_points (us : list pynal) (data : list N) (current : option (N * N)) : res (list N) :=
  match us with
  | [] => Ok []
  | u :: t =>
      match py_type u with
      | Some 7 =>
          match py_size u with
          | Some r =>
              match current with
              | Some c =>
                  if same_size r c then find_split_points t data (Some r)
                  else match py_offset u with
                       | Some o =>
                           rbind (find_split_points t data (Some r)) (fun l =>
                           Ok (find_start_code_offset data o :: l))
                       | None => Abort
                       end
              | None => find_split_points t data (Some r)
              end
          | None => find_split_points t data current
          end
      | _ => find_split_points t data current
      end
  end.

(** Lines 134-154 split_file: the contents of the files foo.01.264, foo.02.264, ... *)
Fixpoint segments (start : N) (points : list N) (data : list N) : list (list N) :=
  match points with
  | [] => [bytes_between start (N.of_nat (List.length data)) data]
  | p :: t => bytes_between start p data :: segments p t data
  end.

(** Lines 182-228 main, with the output and the exit status of the tool: status 1 and no files if
    the tool fails; no files if there is nothing to split. *)
Inductive split_result := SplitFailed | SplitNothing | SplitInto (files : list (list N)).
Definition split_main (tool : string * N) (data : list N) : res split_result :=
  if snd tool =? 0 then
    rbind (find_split_points (parse_nal_units (fst tool)) data None) (fun points =>
    Ok (match points with
        | [] => SplitNothing
        | _ => SplitInto (segments 0 points data)
        end))
  else Ok SplitFailed.
(** The whole: the script on a file with the bytes [data] *)
Definition split_script (asserts : bool) (input : string) (data : list N) : res split_result :=
  match parse_args (split_options input) with
  | Go g => rbind (run asserts g data) (fun out => split_main out data)
  | Stop _ => Ok SplitFailed
  end.
