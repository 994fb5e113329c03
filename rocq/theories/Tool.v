(** Model of the command line tool (tools/h264nal.cc), after argument parsing and from the
    bytes of the input file to the rows of the length dump and the exit status. *)
From Coq Require Import NArith ZArith List Bool String.
From Verif Require Import Base BitBuffer Framing TypesNal TypesSliceHeader TypesNalUnit NalUnit
  NalType.
Import ListNotations.
Open Scope N_scope.

(** tools/h264nal.cc:48-63 arg_options, the fields that matter here.  The two ints come from
    lines 304-324, so nalu_length_bytes is -1 or in 0..INT_MAX and frames_per_second in
    0..INT_MAX. *)
Record options := mkopt {
  opt_dump_length : bool;        (* --dump-length; otherwise --dump-all *)
  opt_add_checksum : bool;
  opt_nalu_length_bytes : Z;
  opt_frames_per_second : Z
}.

(** A line of the length dump. *)
Inductive row :=
| NalRow (nal_num frame_num : Z) (nal_unit_type : N) (name : string) (nal_length_bytes : Z)
    (first_mb : option Z)
| FrameRow (frame_num last_type bitrate_bps : Z).

(** int64_t arithmetic *)
Definition chk_i64 (z : Z) : res Z :=
  if ((- 2 ^ 63 <=? z) && (z <? 2 ^ 63))%Z then Ok z else UB SignedOverflow.
(** static_cast<int>(size_t or uint32_t) *)
Definition to_int (x : N) : Z := to_i32 (u32 x).

(** Lines 532-533 and 551-552: bitrate_bps *)
Definition bitrate (fps total : Z) : res Z :=
  rbind (chk_i64 (total * 8)) (fun x => chk_i64 (x * fps)%Z).
(** Lines 519-529: first_mb_in_slice of a slice *)
Definition first_mb (u : nalu) : Z :=
  match pl_slice (nu_payload u) with
  | Some s => to_int (first_mb_in_slice (sh_lead (sl_slice_header s)))
  | None => 0%Z
  end.
(** Lines 490-556: the loop over the NAL units in dump_length mode, and the last frame. *)
Fixpoint dump_loop (fps : Z) (us : list (nalu * N * N)) (total nal frame last : Z)
  : res (list row) :=
  match us with
  | [] => if (0 <? total)%Z then rbind (bitrate fps total) (fun r => Ok [FrameRow frame last r])
          else Ok []
  | (u, _, len) :: t =>
      let ty := nal_unit_type (nu_header u) in
      let len := to_int len in
      let slice := IsSliceSegment ty in
      let fmb := first_mb u in
      let nal_row frame := NalRow nal frame ty (NalUnitTypeToString ty) len
                             (if slice then Some fmb else None) in
      let rest rows total frame last :=
        rbind (chk_i32 (nal + 1)) (fun nal' =>
        rbind (dump_loop fps t total nal' frame last) (fun rs =>
        Ok (rows ++ nal_row frame :: rs))) in
      if slice then
        if (fmb =? 0)%Z && (0 <? total)%Z then
          rbind (bitrate fps total) (fun r =>
          rbind (chk_i32 (frame + 1)) (fun frame' =>
          rbind (chk_i32 (0 + len)) (fun total' =>
          rest [FrameRow frame last r] total' frame' (to_int ty))))
        else
          rbind (chk_i32 (total + len)) (fun total' => rest [] total' frame (to_int ty))
      else rest [] total frame last
  end.
Definition dump_length (fps : Z) (us : list (nalu * N * N)) : res (list row) :=
  dump_loop fps us 0 0 0 (-1).

(** Lines 499-506: the bytes printed by --add-contents for one unit; the loop goes on while
    i < length && offset + i < buffer.size(). *)
Fixpoint contents_loop (fuel : nat) (buffer : list N) (off len i : N) : res (list N) :=
  if (i <? len) && (u64 (off + i) <? N.of_nat (List.length buffer)) then
    match fuel with
    | O => NoFuel
    | S f =>
        match nth_error buffer (N.to_nat (u64 (off + i))) with
        | Some c => rbind (contents_loop f buffer off len (u64 (i + 1))) (fun t => Ok (c :: t))
        | None => UB OutOfBounds
        end
    end
  else Ok [].
Definition contents (buffer : list N) (e : nalu * N * N) : res (list N) :=
  let '(_, off, len) := e in contents_loop (S (List.length buffer)) buffer off len 0.

(** Lines 569-605: the number of units left unparsed, and the exit status. *)
Fixpoint count_unparsed (us : list (nalu * N * N)) (n : N) : N :=
  match us with
  | [] => n
  | (u, _, _) :: t =>
      count_unparsed t
        (if IsPayloadParsed (nu_payload u) (nal_unit_type (nu_header u)) then n else u64 (n + 1))
  end.
Definition unparsed_nal_units (o : options) (buffer : list N) (us : list (nalu * N * N)) : res N :=
  if (opt_nalu_length_bytes o <? 0)%Z then
    rbind (FindNaluIndices buffer (N.of_nat (List.length buffer))) (fun ix =>
    Ok (count_unparsed us (sub64 (N.of_nat (List.length ix)) (N.of_nat (List.length us)))))
  else Ok (count_unparsed us 0).
Definition exit_status (unparsed unimplemented : N) : N :=
  if 0 <? unimplemented then 2 else if 0 <? unparsed then 1 else 0.

(** Lines 432-452: parse the file. *)
Definition tool_parse (asserts : bool) (o : options) (buffer : list N)
  : res (list (nalu * N * N)) * world :=
  let w := reset_unimplemented_count (mkw new_state 0) in
  let len := N.of_nat (List.length buffer) in
  if (opt_nalu_length_bytes o <? 0)%Z
  then ParseBitstream asserts (opt_add_checksum o) buffer len w
  else ParseBitstreamNALULength asserts (opt_add_checksum o) buffer len
         (Z.to_N (opt_nalu_length_bytes o)) w.
(** Lines 432-606 with an input file that can be read and an output file that can be
    written: the rows of the length dump and the exit status.  A null bitstream is
    dereferenced at line 494.  What is printed: ToolText.v. *)
Definition tool (asserts : bool) (o : options) (buffer : list N) : res (list row * N) :=
  match tool_parse asserts o buffer with
  | (Ok us, w) =>
      rbind (if opt_dump_length o then dump_length (opt_frames_per_second o) us else Ok [])
        (fun rows =>
      rbind (unparsed_nal_units o buffer us) (fun n =>
      Ok (rows, exit_status n (w_unimplemented w))))
  | (Null, _) => UB NullDeref
  | (UB k, _) => UB k
  | (Abort, _) => Abort
  | (NoFuel, _) => NoFuel
  end.
