(** A file of the project (media/601.264), run on the model. The repository has ffmpeg's trace of
    the same file (media/601.264.bsf): the units, and for each slice some values, are those of the
    trace. This is a test of the model, not a proof of a property. *)
From Coq Require Import NArith ZArith List Bool.
From Verif Require Import Base BitBuffer TypesNal TypesSliceHeader TypesNalUnit SliceHeader NalUnit Framing.
Import ListNotations.
Open Scope N_scope.

(** media/601.264 *)
Definition media_601 : list N := [
0; 0; 0; 1; 103; 66; 192; 22; 166; 17; 5; 7; 233; 178; 0; 0; 3; 0; 2; 0; 0; 3; 0; 100; 30; 44;
92; 35; 0; 0; 0; 1; 104; 200; 66; 2; 50; 200; 0; 0; 1; 6; 5; 255; 255; 112; 220; 69; 233; 189;
230; 217; 72; 183; 150; 44; 216; 32; 217; 35; 238; 239; 120; 50; 54; 52; 32; 45; 32; 99; 111;
114; 101; 32; 49; 54; 49; 32; 114; 51; 48; 52; 57; 32; 53; 53; 100; 53; 49; 55; 98; 32; 45; 32;
72; 46; 50; 54; 52; 47; 77; 80; 69; 71; 45; 52; 32; 65; 86; 67; 32; 99; 111; 100; 101; 99; 32;
45; 32; 67; 111; 112; 121; 108; 101; 102; 116; 32; 50; 48; 48; 51; 45; 50; 48; 50; 49; 32; 45;
32; 104; 116; 116; 112; 58; 47; 47; 119; 119; 119; 46; 118; 105; 100; 101; 111; 108; 97; 110;
46; 111; 114; 103; 47; 120; 50; 54; 52; 46; 104; 116; 109; 108; 32; 45; 32; 111; 112; 116; 105;
111; 110; 115; 58; 32; 99; 97; 98; 97; 99; 61; 48; 32; 114; 101; 102; 61; 49; 54; 32; 100; 101;
98; 108; 111; 99; 107; 61; 49; 58; 48; 58; 48; 32; 97; 110; 97; 108; 121; 115; 101; 61; 48; 120;
49; 58; 48; 120; 49; 51; 49; 32; 109; 101; 61; 116; 101; 115; 97; 32; 115; 117; 98; 109; 101;
61; 49; 49; 32; 112; 115; 121; 61; 49; 32; 112; 115; 121; 95; 114; 100; 61; 49; 46; 48; 48; 58;
48; 46; 48; 48; 32; 109; 105; 120; 101; 100; 95; 114; 101; 102; 61; 49; 32; 109; 101; 95; 114;
97; 110; 103; 101; 61; 50; 52; 32; 99; 104; 114; 111; 109; 97; 95; 109; 101; 61; 49; 32; 116;
114; 101; 108; 108; 105; 115; 61; 50; 32; 56; 120; 56; 100; 99; 116; 61; 48; 32; 99; 113; 109;
61; 48; 32; 100; 101; 97; 100; 122; 111; 110; 101; 61; 50; 49; 44; 49; 49; 32; 102; 97; 115;
116; 95; 112; 115; 107; 105; 112; 61; 48; 32; 99; 104; 114; 111; 109; 97; 95; 113; 112; 95; 111;
102; 102; 115; 101; 116; 61; 45; 50; 32; 116; 104; 114; 101; 97; 100; 115; 61; 54; 32; 108; 111;
111; 107; 97; 104; 101; 97; 100; 95; 116; 104; 114; 101; 97; 100; 115; 61; 49; 32; 115; 108;
105; 99; 101; 100; 95; 116; 104; 114; 101; 97; 100; 115; 61; 48; 32; 110; 114; 61; 48; 32; 100;
101; 99; 105; 109; 97; 116; 101; 61; 49; 32; 105; 110; 116; 101; 114; 108; 97; 99; 101; 100; 61;
48; 32; 98; 108; 117; 114; 97; 121; 95; 99; 111; 109; 112; 97; 116; 61; 48; 32; 99; 111; 110;
115; 116; 114; 97; 105; 110; 101; 100; 95; 105; 110; 116; 114; 97; 61; 48; 32; 98; 102; 114; 97;
109; 101; 115; 61; 48; 32; 119; 101; 105; 103; 104; 116; 112; 61; 48; 32; 107; 101; 121; 105;
110; 116; 61; 50; 53; 48; 32; 107; 101; 121; 105; 110; 116; 95; 109; 105; 110; 61; 50; 53; 32;
115; 99; 101; 110; 101; 99; 117; 116; 61; 52; 48; 32; 105; 110; 116; 114; 97; 95; 114; 101; 102;
114; 101; 115; 104; 61; 48; 32; 114; 99; 95; 108; 111; 111; 107; 97; 104; 101; 97; 100; 61; 54;
48; 32; 114; 99; 61; 99; 114; 102; 32; 109; 98; 116; 114; 101; 101; 61; 49; 32; 99; 114; 102;
61; 49; 56; 46; 48; 32; 113; 99; 111; 109; 112; 61; 48; 46; 54; 48; 32; 113; 112; 109; 105; 110;
61; 48; 32; 113; 112; 109; 97; 120; 61; 54; 57; 32; 113; 112; 115; 116; 101; 112; 61; 52; 32;
105; 112; 95; 114; 97; 116; 105; 111; 61; 49; 46; 52; 48; 32; 97; 113; 61; 49; 58; 49; 46; 48;
48; 0; 128; 0; 0; 1; 101; 136; 130; 6; 120; 140; 80; 0; 28; 171; 142; 0; 2; 251; 49; 192; 0; 95;
102; 251; 239; 190; 251; 239; 190; 251; 239; 190; 251; 239; 190; 251; 239; 174; 186; 235; 174;
186; 235; 174; 186; 235; 174; 186; 235; 174; 186; 235; 174; 186; 235; 174; 186; 235; 174; 186;
235; 174; 186; 235; 174; 186; 235; 174; 186; 235; 174; 186; 235; 174; 186; 235; 174; 186; 235;
174; 186; 235; 174; 186; 235; 174; 186; 235; 174; 186; 235; 174; 186; 235; 174; 186; 235; 174;
186; 235; 174; 186; 235; 174; 186; 235; 174; 186; 235; 174; 186; 235; 174; 186; 235; 174; 186;
235; 174; 186; 235; 174; 186; 235; 174; 186; 235; 174; 186; 235; 174; 186; 235; 174; 186; 235;
174; 186; 235; 174; 186; 235; 174; 186; 235; 174; 186; 235; 174; 186; 235; 174; 186; 235; 174;
186; 235; 174; 186; 235; 174; 186; 235; 174; 186; 235; 174; 186; 235; 174; 186; 235; 174; 186;
235; 174; 186; 235; 174; 186; 235; 174; 186; 235; 174; 186; 235; 174; 186; 235; 174; 186; 235;
174; 186; 235; 174; 186; 235; 174; 186; 235; 174; 186; 235; 174; 186; 235; 174; 186; 235; 174;
186; 235; 174; 186; 235; 174; 186; 235; 174; 186; 235; 174; 186; 235; 174; 186; 235; 174; 186;
235; 174; 186; 235; 174; 186; 235; 174; 186; 235; 174; 186; 235; 174; 186; 235; 192; 0; 0; 0; 1;
65; 154; 28; 12; 240; 9; 108; 0; 0; 0; 1; 65; 154; 42; 3; 60; 2; 91; 0; 0; 0; 1; 65; 154; 59; 3;
60; 2; 91; 0; 0; 0; 1; 65; 154; 73; 0; 207; 0; 150; 192; 0; 0; 0; 1; 65; 154; 89; 64; 207; 0;
150; 192; 0; 0; 0; 1; 65; 154; 105; 128; 207; 0; 150; 192; 0; 0; 0; 1; 65; 154; 121; 192; 207;
0; 150; 192; 0; 0; 0; 1; 65; 154; 136; 128; 51; 192; 37; 176; 0; 0; 0; 1; 65; 154; 152; 144; 51;
192; 37; 176; 0; 0; 0; 1; 65; 154; 168; 160; 51; 192; 37; 176; 0; 0; 0; 1; 65; 154; 184; 176;
51; 192; 37; 176; 0; 0; 0; 1; 65; 154; 200; 192; 51; 192; 37; 176; 0; 0; 0; 1; 65; 154; 216;
208; 51; 192; 37; 176; 0; 0; 0; 1; 65; 154; 232; 224; 51; 192; 37; 176; 0; 0; 0; 1; 65; 154;
248; 240; 51; 192; 37; 176; 0; 0; 0; 1; 65; 155; 0; 25; 224; 18; 216; 0; 0; 0; 1; 65; 155; 16;
25; 224; 18; 216; 0; 0; 0; 1; 65; 155; 32; 25; 224; 18; 216; 0; 0; 0; 1; 65; 155; 48; 25; 224;
18; 216; 0; 0; 0; 1; 65; 155; 64; 25; 224; 18; 216; 0; 0; 0; 1; 65; 155; 80; 25; 224; 18; 216;
0; 0; 0; 1; 65; 155; 96; 23; 224; 18; 216; 0; 0; 0; 1; 65; 155; 112; 23; 224; 18; 216; 0; 0; 0;
1; 65; 155; 128; 21; 224; 18; 216].
(** nal_unit_type, nal_ref_idc, and of a slice: first_mb_in_slice, slice_type,
    pic_parameter_set_id, frame_num, slice_qp_delta, disable_deblocking_filter_idc,
    slice_alpha_c0_offset_div2, slice_beta_offset_div2 *)
Definition shown_unit (e : nalu * N * N) : list Z :=
  let '(u, _, _) := e in
  [Z.of_N (nal_unit_type (nu_header u)); Z.of_N (nal_ref_idc (nu_header u))] ++
  match pl_slice (nu_payload u) with
  | Some s => let h := sl_slice_header s in
      [Z.of_N (first_mb_in_slice (sh_lead h)); Z.of_N (slice_type (sh_lead h)); Z.of_N (pic_parameter_set_id (sh_lead h));
       Z.of_N (frame_num (sh_pic h)); sh_slice_qp_delta h; Z.of_N (disable_deblocking_filter_idc (sh_dbk h));
       slice_alpha_c0_offset_div2 (sh_dbk h); slice_beta_offset_div2 (sh_dbk h)]
  | None => []
  end.
(** media/601.264.bsf, from the first packet *)
Definition trace_601 : list (list Z) := [
  [7; 3];
  [8; 3];
  [6; 0];
  [5; 3; 0; 7; 0; 0; -12; 0; 0; 0];
  [1; 2; 0; 5; 0; 1; -12; 0; 0; 0];
  [1; 2; 0; 5; 0; 2; -12; 0; 0; 0];
  [1; 2; 0; 5; 0; 3; -12; 0; 0; 0];
  [1; 2; 0; 5; 0; 4; -12; 0; 0; 0];
  [1; 2; 0; 5; 0; 5; -12; 0; 0; 0];
  [1; 2; 0; 5; 0; 6; -12; 0; 0; 0];
  [1; 2; 0; 5; 0; 7; -12; 0; 0; 0];
  [1; 2; 0; 5; 0; 8; -12; 0; 0; 0];
  [1; 2; 0; 5; 0; 9; -12; 0; 0; 0];
  [1; 2; 0; 5; 0; 10; -12; 0; 0; 0];
  [1; 2; 0; 5; 0; 11; -12; 0; 0; 0];
  [1; 2; 0; 5; 0; 12; -12; 0; 0; 0];
  [1; 2; 0; 5; 0; 13; -12; 0; 0; 0];
  [1; 2; 0; 5; 0; 14; -12; 0; 0; 0];
  [1; 2; 0; 5; 0; 15; -12; 0; 0; 0];
  [1; 2; 0; 5; 0; 16; -12; 0; 0; 0];
  [1; 2; 0; 5; 0; 17; -12; 0; 0; 0];
  [1; 2; 0; 5; 0; 18; -12; 0; 0; 0];
  [1; 2; 0; 5; 0; 19; -12; 0; 0; 0];
  [1; 2; 0; 5; 0; 20; -12; 0; 0; 0];
  [1; 2; 0; 5; 0; 21; -12; 0; 0; 0];
  [1; 2; 0; 5; 0; 22; -11; 0; 0; 0];
  [1; 2; 0; 5; 0; 23; -11; 0; 0; 0];
  [1; 2; 0; 5; 0; 24; -10; 0; 0; 0]]%Z.
Example media_601_trace :
  match fst (ParseBitstream true false media_601 (N.of_nat (length media_601)) (mkw new_state 0)) with
  | Ok l => map shown_unit l = trace_601
  | _ => False
  end.
Proof. vm_compute. reflexivity. Qed.
