(** The workload and mapping descriptions that come with the project, /repo/zigzag/inputs/workload and
    /repo/zigzag/inputs/mapping, one definition per file, field by field. *)
From Verif Require Import Base Model_MapFile Model_WorkFile.
Open Scope string_scope.
Open Scope list_scope.
Open Scope Z_scope.

(** inputs/workload/gemm_layer.yaml *)
Definition gemm_layer : list raw_layer :=
  [ mkRawLayer (Some 0) None (Some "Gemm")
      (Some "O[d0][d1]+=I[d0][d2]*W[d2][d1]")
      (Some []) (Some ["D0"; "D1"; "D2"]) (Some [128; 128; 128])
      (Some [("W", 8); ("I", 8); ("O", 32); ("O_final", 8)]) (Some [("I", 0); ("W", 0)]) None None None ].

(** inputs/workload/resnet18.yaml *)
Definition resnet18 : list raw_layer :=
  [ mkRawLayer (Some 0) (Some (Some "example_name_of_layer0")) (Some "Conv")
      (Some "O[b][k][oy][ox]+=W[k][c][fy][fx]*I[b][c][iy][ix]")
      (Some ["ix=2*ox+1*fx"; "iy=2*oy+1*fy"]) (Some ["B"; "K"; "C"; "OY"; "OX"; "FY"; "FX"]) (Some [1; 64; 3; 112; 112; 7; 7])
      (Some [("W", 8); ("I", 8); ("O", 16); ("O_final", 8)]) (Some [("I", 0); ("W", 0)]) None None None;
    mkRawLayer (Some 1) None (Some "Pooling")
      (Some "O[b][g][oy][ox]+=W[fx][fy]*I[b][g][iy][ix]")
      (Some ["ix=2*ox+1*fx"; "iy=2*oy+1*fy"]) (Some ["B"; "G"; "OY"; "OX"; "FX"; "FY"]) (Some [1; 64; 56; 56; 3; 3])
      (Some [("I", 8); ("W", 0); ("O", 16); ("O_final", 8)]) (Some [("I", 0); ("W", 1)]) None None None;
    mkRawLayer (Some 2) None (Some "Conv")
      (Some "O[b][k][oy][ox]+=W[k][c][fy][fx]*I[b][c][iy][ix]")
      (Some ["ix=1*ox+1*fx"; "iy=1*oy+1*fy"]) (Some ["B"; "K"; "C"; "OY"; "OX"; "FY"; "FX"]) (Some [1; 64; 64; 56; 56; 3; 3])
      (Some [("W", 8); ("I", 8); ("O", 16); ("O_final", 8)]) (Some [("I", 1); ("W", 2)]) None None None;
    mkRawLayer (Some 3) None (Some "Conv")
      (Some "O[b][k][oy][ox]+=W[k][c][fy][fx]*I[b][c][iy][ix]")
      (Some ["ix=1*ox+1*fx"; "iy=1*oy+1*fy"]) (Some ["B"; "K"; "C"; "OY"; "OX"; "FY"; "FX"]) (Some [1; 64; 64; 56; 56; 3; 3])
      (Some [("W", 8); ("I", 8); ("O", 16); ("O_final", 8)]) (Some [("I", 2); ("W", 3)]) None None None;
    mkRawLayer (Some 4) None (Some "Add")
      (Some "O[b][g][oy][ox]=W[b][g][oy][ox]+I[b][g][oy][ox]")
      None (Some ["B"; "G"; "OY"; "OX"]) (Some [1; 64; 56; 56])
      (Some [("W", 8); ("I", 8); ("O", 16); ("O_final", 8)]) (Some [("W", 1); ("I", 3)]) None None None;
    mkRawLayer (Some 5) None (Some "Conv")
      (Some "O[b][k][oy][ox]+=W[k][c][fy][fx]*I[b][c][iy][ix]")
      (Some ["ix=1*ox+1*fx"; "iy=1*oy+1*fy"]) (Some ["B"; "K"; "C"; "OY"; "OX"; "FY"; "FX"]) (Some [1; 64; 64; 56; 56; 3; 3])
      (Some [("W", 8); ("I", 8); ("O", 16); ("O_final", 8)]) (Some [("I", 4); ("W", 5)]) None None None;
    mkRawLayer (Some 6) None (Some "Conv")
      (Some "O[b][k][oy][ox]+=W[k][c][fy][fx]*I[b][c][iy][ix]")
      (Some ["ix=1*ox+1*fx"; "iy=1*oy+1*fy"]) (Some ["B"; "K"; "C"; "OY"; "OX"; "FY"; "FX"]) (Some [1; 64; 64; 56; 56; 3; 3])
      (Some [("W", 8); ("I", 8); ("O", 16); ("O_final", 8)]) (Some [("I", 5); ("W", 6)]) None None None;
    mkRawLayer (Some 7) None (Some "Add")
      (Some "O[b][g][oy][ox]=W[b][g][oy][ox]+I[b][g][oy][ox]")
      None (Some ["B"; "G"; "OY"; "OX"]) (Some [1; 64; 56; 56])
      (Some [("W", 8); ("I", 8); ("O", 16); ("O_final", 8)]) (Some [("W", 4); ("I", 6)]) None None None;
    mkRawLayer (Some 8) None (Some "Conv")
      (Some "O[b][k][oy][ox]+=W[k][c][fy][fx]*I[b][c][iy][ix]")
      (Some ["ix=2*ox+1*fx"; "iy=2*oy+1*fy"]) (Some ["B"; "K"; "C"; "OY"; "OX"; "FY"; "FX"]) (Some [1; 128; 64; 28; 28; 3; 3])
      (Some [("W", 8); ("I", 8); ("O", 16); ("O_final", 8)]) (Some [("I", 7); ("W", 8)]) None None None;
    mkRawLayer (Some 9) None (Some "Conv")
      (Some "O[b][k][oy][ox]+=W[k][c][fy][fx]*I[b][c][iy][ix]")
      (Some ["ix=1*ox+1*fx"; "iy=1*oy+1*fy"]) (Some ["B"; "K"; "C"; "OY"; "OX"; "FY"; "FX"]) (Some [1; 128; 128; 28; 28; 3; 3])
      (Some [("W", 8); ("I", 8); ("O", 16); ("O_final", 8)]) (Some [("I", 8); ("W", 9)]) None None None;
    mkRawLayer (Some 10) None (Some "Conv_downsample")
      (Some "O[b][k][oy][ox]+=W[k][c][fy][fx]*I[b][c][iy][ix]")
      (Some ["ix=2*ox+1*fx"; "iy=2*oy+1*fy"]) (Some ["B"; "K"; "C"; "OY"; "OX"; "FY"; "FX"]) (Some [1; 128; 64; 28; 28; 3; 3])
      (Some [("W", 8); ("I", 8); ("O", 16); ("O_final", 8)]) (Some [("I", 7); ("W", 10)]) None None None;
    mkRawLayer (Some 11) None (Some "Add")
      (Some "O[b][g][oy][ox]=W[b][g][oy][ox]+I[b][g][oy][ox]")
      None (Some ["B"; "G"; "OY"; "OX"]) (Some [1; 128; 28; 28])
      (Some [("W", 8); ("I", 8); ("O", 16); ("O_final", 8)]) (Some [("W", 10); ("I", 9)]) None None None;
    mkRawLayer (Some 12) None (Some "Conv")
      (Some "O[b][k][oy][ox]+=W[k][c][fy][fx]*I[b][c][iy][ix]")
      (Some ["ix=1*ox+1*fx"; "iy=1*oy+1*fy"]) (Some ["B"; "K"; "C"; "OY"; "OX"; "FY"; "FX"]) (Some [1; 128; 128; 28; 28; 3; 3])
      (Some [("W", 8); ("I", 8); ("O", 16); ("O_final", 8)]) (Some [("I", 11); ("W", 12)]) None None None;
    mkRawLayer (Some 13) None (Some "Conv")
      (Some "O[b][k][oy][ox]+=W[k][c][fy][fx]*I[b][c][iy][ix]")
      (Some ["ix=1*ox+1*fx"; "iy=1*oy+1*fy"]) (Some ["B"; "K"; "C"; "OY"; "OX"; "FY"; "FX"]) (Some [1; 128; 128; 28; 28; 3; 3])
      (Some [("W", 8); ("I", 8); ("O", 16); ("O_final", 8)]) (Some [("I", 12); ("W", 13)]) None None None;
    mkRawLayer (Some 14) None (Some "Add")
      (Some "O[b][g][oy][ox]=W[b][g][oy][ox]+I[b][g][oy][ox]")
      None (Some ["B"; "G"; "OY"; "OX"]) (Some [1; 128; 28; 28])
      (Some [("W", 8); ("I", 8); ("O", 16); ("O_final", 8)]) (Some [("W", 11); ("I", 13)]) None None None;
    mkRawLayer (Some 15) None (Some "Conv")
      (Some "O[b][k][oy][ox]+=W[k][c][fy][fx]*I[b][c][iy][ix]")
      (Some ["ix=2*ox+1*fx"; "iy=2*oy+1*fy"]) (Some ["B"; "K"; "C"; "OY"; "OX"; "FY"; "FX"]) (Some [1; 256; 128; 14; 14; 3; 3])
      (Some [("W", 8); ("I", 8); ("O", 16); ("O_final", 8)]) (Some [("I", 14); ("W", 15)]) None None None;
    mkRawLayer (Some 16) None (Some "Conv")
      (Some "O[b][k][oy][ox]+=W[k][c][fy][fx]*I[b][c][iy][ix]")
      (Some ["ix=1*ox+1*fx"; "iy=1*oy+1*fy"]) (Some ["B"; "K"; "C"; "OY"; "OX"; "FY"; "FX"]) (Some [1; 256; 256; 14; 14; 3; 3])
      (Some [("W", 8); ("I", 8); ("O", 16); ("O_final", 8)]) (Some [("I", 15); ("W", 16)]) None None None;
    mkRawLayer (Some 17) None (Some "Conv_downsample")
      (Some "O[b][k][oy][ox]+=W[k][c][fy][fx]*I[b][c][iy][ix]")
      (Some ["ix=2*ox+1*fx"; "iy=2*oy+1*fy"]) (Some ["B"; "K"; "C"; "OY"; "OX"; "FY"; "FX"]) (Some [1; 256; 128; 14; 14; 3; 3])
      (Some [("W", 8); ("I", 8); ("O", 16); ("O_final", 8)]) (Some [("I", 14); ("W", 17)]) None None None;
    mkRawLayer (Some 18) None (Some "Add")
      (Some "O[b][g][oy][ox]=W[b][g][oy][ox]+I[b][g][oy][ox]")
      None (Some ["B"; "G"; "OY"; "OX"]) (Some [1; 256; 14; 14])
      (Some [("W", 8); ("I", 8); ("O", 16); ("O_final", 8)]) (Some [("W", 17); ("I", 16)]) None None None;
    mkRawLayer (Some 19) None (Some "Conv")
      (Some "O[b][k][oy][ox]+=W[k][c][fy][fx]*I[b][c][iy][ix]")
      (Some ["ix=1*ox+1*fx"; "iy=1*oy+1*fy"]) (Some ["B"; "K"; "C"; "OY"; "OX"; "FY"; "FX"]) (Some [1; 256; 256; 14; 14; 3; 3])
      (Some [("W", 8); ("I", 8); ("O", 16); ("O_final", 8)]) (Some [("I", 18); ("W", 19)]) None None None;
    mkRawLayer (Some 20) None (Some "Conv")
      (Some "O[b][k][oy][ox]+=W[k][c][fy][fx]*I[b][c][iy][ix]")
      (Some ["ix=1*ox+1*fx"; "iy=1*oy+1*fy"]) (Some ["B"; "K"; "C"; "OY"; "OX"; "FY"; "FX"]) (Some [1; 256; 256; 14; 14; 3; 3])
      (Some [("W", 8); ("I", 8); ("O", 16); ("O_final", 8)]) (Some [("I", 19); ("W", 20)]) None None None;
    mkRawLayer (Some 21) None (Some "Add")
      (Some "O[b][g][oy][ox]=W[b][g][oy][ox]+I[b][g][oy][ox]")
      None (Some ["B"; "G"; "OY"; "OX"]) (Some [1; 256; 14; 14])
      (Some [("W", 8); ("I", 8); ("O", 16); ("O_final", 8)]) (Some [("W", 18); ("I", 20)]) None None None;
    mkRawLayer (Some 22) None (Some "Conv")
      (Some "O[b][k][oy][ox]+=W[k][c][fy][fx]*I[b][c][iy][ix]")
      (Some ["ix=2*ox+1*fx"; "iy=2*oy+1*fy"]) (Some ["B"; "K"; "C"; "OY"; "OX"; "FY"; "FX"]) (Some [1; 512; 256; 7; 7; 3; 3])
      (Some [("W", 8); ("I", 8); ("O", 16); ("O_final", 8)]) (Some [("I", 21); ("W", 22)]) None None None;
    mkRawLayer (Some 23) None (Some "Conv")
      (Some "O[b][k][oy][ox]+=W[k][c][fy][fx]*I[b][c][iy][ix]")
      (Some ["ix=1*ox+1*fx"; "iy=1*oy+1*fy"]) (Some ["B"; "K"; "C"; "OY"; "OX"; "FY"; "FX"]) (Some [1; 512; 512; 7; 7; 3; 3])
      (Some [("W", 8); ("I", 8); ("O", 16); ("O_final", 8)]) (Some [("I", 22); ("W", 23)]) None None None;
    mkRawLayer (Some 24) None (Some "Conv_downsample")
      (Some "O[b][k][oy][ox]+=W[k][c][fy][fx]*I[b][c][iy][ix]")
      (Some ["ix=2*ox+1*fx"; "iy=2*oy+1*fy"]) (Some ["B"; "K"; "C"; "OY"; "OX"; "FY"; "FX"]) (Some [1; 512; 256; 7; 7; 3; 3])
      (Some [("W", 8); ("I", 8); ("O", 16); ("O_final", 8)]) (Some [("I", 21); ("W", 24)]) None None None;
    mkRawLayer (Some 25) None (Some "Add")
      (Some "O[b][g][oy][ox]=W[b][g][oy][ox]+I[b][g][oy][ox]")
      None (Some ["B"; "G"; "OY"; "OX"]) (Some [1; 512; 7; 7])
      (Some [("W", 8); ("I", 8); ("O", 16); ("O_final", 8)]) (Some [("W", 24); ("I", 23)]) None None None;
    mkRawLayer (Some 26) None (Some "Conv")
      (Some "O[b][k][oy][ox]+=W[k][c][fy][fx]*I[b][c][iy][ix]")
      (Some ["ix=1*ox+1*fx"; "iy=1*oy+1*fy"]) (Some ["B"; "K"; "C"; "OY"; "OX"; "FY"; "FX"]) (Some [1; 512; 512; 7; 7; 3; 3])
      (Some [("W", 8); ("I", 8); ("O", 16); ("O_final", 8)]) (Some [("I", 25); ("W", 26)]) None None None;
    mkRawLayer (Some 27) None (Some "Conv")
      (Some "O[b][k][oy][ox]+=W[k][c][fy][fx]*I[b][c][iy][ix]")
      (Some ["ix=1*ox+1*fx"; "iy=1*oy+1*fy"]) (Some ["B"; "K"; "C"; "OY"; "OX"; "FY"; "FX"]) (Some [1; 512; 512; 7; 7; 3; 3])
      (Some [("W", 8); ("I", 8); ("O", 16); ("O_final", 8)]) (Some [("I", 26); ("W", 27)]) None None None;
    mkRawLayer (Some 28) None (Some "Add")
      (Some "O[b][g][oy][ox]=W[b][g][oy][ox]+I[b][g][oy][ox]")
      None (Some ["B"; "G"; "OY"; "OX"]) (Some [1; 512; 7; 7])
      (Some [("W", 8); ("I", 8); ("O", 16); ("O_final", 8)]) (Some [("W", 25); ("I", 27)]) None None None;
    mkRawLayer (Some 29) None (Some "Pooling")
      (Some "O[b][g][oy][ox]+=W[fx][fy]*I[b][g][iy][ix]")
      (Some ["ix=1*ox+1*fx"; "iy=1*oy+1*fy"]) (Some ["B"; "G"; "OY"; "OX"; "FX"; "FY"]) (Some [1; 512; 1; 1; 7; 7])
      (Some [("I", 8); ("W", 0); ("O", 16); ("O_final", 8)]) (Some [("I", 28); ("W", 29)]) None None None;
    mkRawLayer (Some 30) None (Some "Conv")
      (Some "O[b][k][oy][ox]+=W[k][c][fy][fx]*I[b][c][iy][ix]")
      (Some ["ix=1*ox+1*fx"; "iy=1*oy+1*fy"]) (Some ["B"; "K"; "C"; "OY"; "OX"; "FY"; "FX"]) (Some [1; 1000; 512; 1; 1; 1; 1])
      (Some [("W", 8); ("I", 8); ("O", 16); ("O_final", 8)]) (Some [("I", 29); ("W", 30)]) None None None ].

(** inputs/mapping/ascend_like.yaml *)
Definition ascend_like_mapping : list raw_entry :=
  [ mkRaw (Some "default") (Some (Some [("D1", ["K, 16"]); ("D2", ["C, 16"]); ("D3", ["OX, 2"]); ("D4", ["OY, 2"])]))
      (Some [("O", "O"); ("W", "I2"); ("I", "I1")]) None None;
    mkRaw (Some "Add") (Some (Some [("D1", ["G, 16"]); ("D2", ["C, 1"]); ("D3", ["OX, 1"]); ("D4", ["OY, 1"])]))
      (Some [("O", "O"); ("W", "I2"); ("I", "I1")]) None None ].

(** inputs/mapping/ascend_like_mixed.yaml *)
Definition ascend_like_mixed_mapping : list raw_entry :=
  [ mkRaw (Some "default") (Some (Some [("D1", ["K, 16"]); ("D2", ["C, 4"; "FX, 3"]); ("D3", ["OX, 2"]); ("D4", ["OY, 2"])]))
      (Some [("O", "O"); ("W", "I2"); ("I", "I1")]) None None;
    mkRaw (Some "Add") (Some (Some [("D1", ["G, 16"]); ("D2", ["C, 1"]); ("D3", ["OX, 1"]); ("D4", ["OY, 1"])]))
      (Some [("O", "O"); ("W", "I2"); ("I", "I1")]) None None ].

(** inputs/mapping/default.yaml *)
Definition default_mapping : list raw_entry :=
  [ mkRaw (Some "default") (Some (Some [("D1", ["K, 32"]); ("D2", ["C, 32"])]))
      (Some [("O", "O"); ("W", "I2"); ("I", "I1")]) None None ].

(** inputs/mapping/default_imc.yaml *)
Definition default_imc_mapping : list raw_entry :=
  [ mkRaw (Some "default") None
      (Some [("O", "O"); ("W", "I2"); ("I", "I1")]) (Some [("D1", ["K"]); ("D2", ["C"; "FX"; "FY"])]) None;
    mkRaw (Some "Add") None
      (Some [("O", "O"); ("W", "I2"); ("I", "I1")]) (Some [("D1", ["G"]); ("D2", ["C"])]) None ].

(** inputs/mapping/edge_tpu_like.yaml *)
Definition edge_tpu_like_mapping : list raw_entry :=
  [ mkRaw (Some "default") (Some (Some [("D1", ["K, 8"]); ("D2", ["C, 8"]); ("D3", ["OX, 4"]); ("D4", ["OY, 4"])]))
      (Some [("O", "O"); ("W", "I2"); ("I", "I1")]) None None;
    mkRaw (Some "Add") (Some (Some [("D1", ["G, 8"]); ("D2", ["C, 1"]); ("D3", ["OX, 1"]); ("D4", ["OY, 1"])]))
      (Some [("O", "O"); ("W", "I2"); ("I", "I1")]) None None;
    mkRaw (Some "Pooling") (Some (Some [("D1", ["G, 8"]); ("D2", ["C, 1"]); ("D3", ["OX, 1"]); ("D4", ["OY, 1"])]))
      (Some [("O", "O"); ("W", "I2"); ("I", "I1")]) None None ].

(** inputs/mapping/edge_tpu_like_mixed.yaml *)
Definition edge_tpu_like_mixed_mapping : list raw_entry :=
  [ mkRaw (Some "default") (Some (Some [("D1", ["K, 8"]); ("D2", ["C, 2"; "FX, 2"; "FY, 2"]); ("D3", ["OX, 2"; "OY, 2"]); ("D4", ["OX, 2"; "OY, 2"])]))
      (Some [("O", "O"); ("W", "I2"); ("I", "I1")]) (Some [("D1", ["K"]); ("D2", ["C"; "FX"; "FY"]); ("D3", ["OX"; "OY"]); ("D4", ["OX"; "OY"])]) None;
    mkRaw (Some "Add") (Some (Some [("D1", ["G, 8"]); ("D2", ["C, 1"]); ("D3", ["OX, 1"]); ("D4", ["OY, 1"])]))
      (Some [("O", "O"); ("W", "I2"); ("I", "I1")]) None None;
    mkRaw (Some "Pooling") (Some (Some [("D1", ["G, 8"]); ("D2", ["C, 1"]); ("D3", ["OX, 1"]); ("D4", ["OY, 1"])]))
      (Some [("O", "O"); ("W", "I2"); ("I", "I1")]) None None ].

(** inputs/mapping/gemm_l1.yaml *)
Definition gemm_l1_mapping : list raw_entry :=
  [ mkRaw (Some "default") (Some (Some [("D1", ["D0, 8"]); ("D2", ["D2, 8"]); ("D3", ["D1, 8"])]))
      (Some [("O", "O"); ("W", "I2"); ("I", "I1")]) None (Some [("D1", inr "*"); ("D2", inr "*"); ("D0", inr "*")]) ].

(** inputs/mapping/gemm_l1_l3.yaml *)
Definition gemm_l1_l3_mapping : list raw_entry :=
  [ mkRaw (Some "default") (Some (Some [("D1", ["D0, 8"]); ("D2", ["D2, 8"]); ("D3", ["D1, 8"])]))
      (Some [("O", "O"); ("W", "I2"); ("I", "I1")]) None (Some [("D1", inr "*"); ("D2", inr "*"); ("D0", inr "*")]) ].

(** inputs/mapping/meta_prototype_like.yaml *)
Definition meta_prototype_like_mapping : list raw_entry :=
  [ mkRaw (Some "default") (Some (Some [("D1", ["K, 32"]); ("D2", ["C, 2"]); ("D3", ["OX, 4"]); ("D4", ["OY, 4"])]))
      (Some [("O", "O"); ("W", "I2"); ("I", "I1")]) None None;
    mkRaw (Some "Add") (Some (Some [("D1", ["G, 32"]); ("D2", ["C, 1"]); ("D3", ["OX, 1"]); ("D4", ["OY, 1"])]))
      (Some [("O", "O"); ("W", "I2"); ("I", "I1")]) None None ].

(** inputs/mapping/meta_prototype_like_mixed.yaml *)
Definition meta_prototype_like_mixed_mapping : list raw_entry :=
  [ mkRaw (Some "default") (Some (Some [("D1", ["K, 32"]); ("D3", ["OX, 2"; "OY, 2"]); ("D4", ["OX, 2"; "OY, 2"])]))
      (Some [("O", "O"); ("W", "I2"); ("I", "I1")]) (Some [("D2", ["C"])]) None;
    mkRaw (Some "Add") (Some (Some [("D1", ["G, 32"]); ("D2", ["C, 1"]); ("D3", ["OX, 1"]); ("D4", ["OY, 1"])]))
      (Some [("O", "O"); ("W", "I2"); ("I", "I1")]) None None ].

(** inputs/mapping/tesla_npu_like.yaml *)
Definition tesla_npu_like_mapping : list raw_entry :=
  [ mkRaw (Some "default") (Some (Some [("D1", ["K, 32"]); ("D2", ["OX, 8"]); ("D3", ["OY, 4"])]))
      (Some [("O", "O"); ("W", "I2"); ("I", "I1")]) None None;
    mkRaw (Some "Add") (Some (Some [("D1", ["G, 32"]); ("D2", ["OX, 1"]); ("D3", ["OY, 1"])]))
      (Some [("O", "O"); ("W", "I2"); ("I", "I1")]) None None;
    mkRaw (Some "Pooling") (Some (Some [("D1", ["G, 32"]); ("D2", ["OX, 1"]); ("D3", ["OY, 1"])]))
      (Some [("O", "O"); ("W", "I2"); ("I", "I1")]) None None ].

(** inputs/mapping/tesla_npu_like_mixed.yaml *)
Definition tesla_npu_like_mixed_mapping : list raw_entry :=
  [ mkRaw (Some "default") None
      (Some [("O", "O"); ("W", "I2"); ("I", "I1")]) (Some [("D1", ["K"]); ("D2", ["OX"; "OY"])]) None;
    mkRaw (Some "Add") (Some (Some [("D1", ["G, 32"]); ("D2", ["OX, 1"]); ("D3", ["OY, 1"])]))
      (Some [("O", "O"); ("W", "I2"); ("I", "I1")]) None None;
    mkRaw (Some "Pooling") (Some (Some [("D1", ["G, 32"]); ("D2", ["OX, 1"]); ("D3", ["OY, 1"])]))
      (Some [("O", "O"); ("W", "I2"); ("I", "I1")]) None None ].

(** inputs/mapping/tpu_like.yaml *)
Definition tpu_like_mapping : list raw_entry :=
  [ mkRaw (Some "default") (Some (Some [("D1", ["K, 32"]); ("D2", ["C, 32"])]))
      (Some [("O", "O"); ("W", "I2"); ("I", "I1")]) None None;
    mkRaw (Some "Add") (Some (Some [("D1", ["G, 32"]); ("D2", ["C, 1"])]))
      (Some [("O", "O"); ("W", "I2"); ("I", "I1")]) None None;
    mkRaw (Some "Pooling") (Some (Some [("D1", ["G, 32"]); ("D2", ["C, 1"])]))
      (Some [("O", "O"); ("W", "I2"); ("I", "I1")]) None None;
    mkRaw (Some "example_name_of_layer0") (Some (Some [("D1", ["C, 32"]); ("D2", ["K, 32"])]))
      (Some [("O", "O"); ("W", "I2"); ("I", "I1")]) None (Some [("OX", inl 112); ("OY", inl 112); ("FX", inl 7); ("FY", inl 7); ("K", inl 2)]) ].

(** inputs/mapping/tpu_like_mixed.yaml *)
Definition tpu_like_mixed_mapping : list raw_entry :=
  [ mkRaw (Some "default") (Some (Some [("D1", ["K, 32"]); ("D2", ["C, 2"; "FX, 3"; "FY, 3"])]))
      (Some [("O", "O"); ("W", "I2"); ("I", "I1")]) (Some [("D1", ["K"]); ("D2", ["C"; "FX"; "FY"]); ("D3", ["K"; "OX"]); ("D4", ["OX"; "OY"])]) None;
    mkRaw (Some "Add") (Some (Some [("D1", ["G, 32"]); ("D2", ["C, 1"])]))
      (Some [("O", "O"); ("W", "I2"); ("I", "I1")]) None None;
    mkRaw (Some "Pooling") (Some (Some [("D1", ["G, 32"]); ("D2", ["C, 1"])]))
      (Some [("O", "O"); ("W", "I2"); ("I", "I1")]) None None ].

Definition shipped_workloads : list (list raw_layer) := [gemm_layer; resnet18].
Definition shipped_mappings : list (list raw_entry) :=
  [ascend_like_mapping; ascend_like_mixed_mapping; default_mapping; default_imc_mapping; edge_tpu_like_mapping; edge_tpu_like_mixed_mapping; gemm_l1_mapping; gemm_l1_l3_mapping; meta_prototype_like_mapping; meta_prototype_like_mixed_mapping; tesla_npu_like_mapping; tesla_npu_like_mixed_mapping; tpu_like_mapping; tpu_like_mixed_mapping].
