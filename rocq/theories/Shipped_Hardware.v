(** The hardware descriptions that come with the project, /repo/zigzag/inputs/hardware, one definition
    per file, field by field ([latency] and [force_double_buffering], which are not in the model of the
    document, left out).  The numbers are the decimals written. *)
From Coq Require Import QArith.
From Verif Require Import Base Model_AccelFile.
Open Scope string_scope.
Open Scope list_scope.
Open Scope Z_scope.

(** inputs/hardware/aimc.yaml *)
Definition aimc : raw_accel := mkRawAccel "aimc"
  [("cells", mkRawMemory 8 (Some (0 # 1)) (Some (19 # 200)) (Some (0 # 1)) None None
      ["I2"]
      [mkRawPort "rw_port_1" "read_write" 8 8 ["I2, fh"; "I2, tl"]]
      []);
   ("rf_1B", mkRawMemory 8 (Some (21 # 1000)) (Some (21 # 1000)) (Some (0 # 1)) None None
      ["I1"]
      [mkRawPort "r_port_1" "read" 8 8 ["I1, tl"];
       mkRawPort "w_port_1" "write" 8 8 ["I1, fh"]]
      ["D1"]);
   ("rf_2B", mkRawMemory 16 (Some (21 # 1000)) (Some (21 # 1000)) (Some (0 # 1)) None None
      ["O"]
      [mkRawPort "r_port_1" "read" 16 16 ["O, tl"];
       mkRawPort "r_port_2" "read" 16 16 ["O, th"];
       mkRawPort "w_port_1" "write" 16 16 ["O, fh"];
       mkRawPort "w_port_2" "write" 16 16 ["O, fl"]]
      ["D2"]);
   ("sram_256KB", mkRawMemory 262144 (Some (10404 # 25)) (Some (1892 # 5)) (Some (0 # 1)) None None
      ["I1"; "O"]
      [mkRawPort "r_port_1" "read" 64 512 ["I1, tl"; "O, tl"; "O, th"];
       mkRawPort "w_port_1" "write" 64 512 ["I1, fh"; "O, fh"; "O, fl"]]
      ["D1"; "D2"]);
   ("dram", mkRawMemory 10000000000 (Some (700 # 1)) (Some (750 # 1)) (Some (0 # 1)) None None
      ["I1"; "I2"; "O"]
      [mkRawPort "rw_port_1" "read_write" 64 64 ["I1, fh"; "I1, tl"; "I2, fh"; "I2, tl"; "O, fh"; "O, tl"; "O, fl"; "O, th"]]
      ["D1"; "D2"])]
  (mkRawArray ["D1"; "D2"] (Some true) [128; 128] (Some [8; 8]) None None (Some "analog") (Some (Some 8)) (Some 2))
  None.

(** inputs/hardware/ascend_like.yaml *)
Definition ascend_like : raw_accel := mkRawAccel "ascend_like"
  [("rf_1B", mkRawMemory 8 (Some (1 # 100)) (Some (1 # 100)) (Some (0 # 1)) None None
      ["I2"]
      [mkRawPort "r_port_1" "read" 8 8 ["I2, tl"];
       mkRawPort "w_port_1" "write" 8 8 ["I2, fh"]]
      ["D3"; "D4"]);
   ("rf_2B", mkRawMemory 16 (Some (1 # 50)) (Some (1 # 50)) (Some (0 # 1)) None None
      ["O"]
      [mkRawPort "r_port_1" "read" 16 16 ["O, tl"];
       mkRawPort "r_port_2" "read" 16 16 ["O, th"];
       mkRawPort "w_port_1" "write" 16 16 ["O, fh"];
       mkRawPort "w_port_2" "write" 16 16 ["O, fl"]]
      ["D2"]);
   ("rf_64KB_I", mkRawMemory 65536 (Some (664 # 25)) (Some (768 # 25)) (Some (0 # 1)) None None
      ["I1"]
      [mkRawPort "r_port_1" "read" 64 512 ["I1, tl"];
       mkRawPort "w_port_1" "write" 64 512 ["I1, fh"]]
      ["D1"; "D2"; "D3"; "D4"]);
   ("rf_64KB_W", mkRawMemory 65536 (Some (1254 # 25)) (Some (108 # 1)) (Some (0 # 1)) None None
      ["I2"]
      [mkRawPort "r_port_1" "read" 64 2048 ["I2, tl"];
       mkRawPort "w_port_1" "write" 64 2048 ["I2, fh"]]
      ["D1"; "D2"; "D3"; "D4"]);
   ("sram_256KB_O", mkRawMemory 2097152 (Some (616 # 5)) (Some (1064 # 5)) (Some (0 # 1)) None None
      ["O"]
      [mkRawPort "r_port_1" "read" 64 2048 ["O, tl"; "O, th"];
       mkRawPort "w_port_1" "write" 64 2048 ["O, fh"; "O, fl"]]
      ["D1"; "D2"; "D3"; "D4"]);
   ("sram_1MB_A", mkRawMemory 8388608 (Some (2328 # 5)) (Some (4128 # 5)) (Some (0 # 1)) None None
      ["I1"; "O"]
      [mkRawPort "r_port_1" "read" 64 4096 ["I1, tl"; "O, tl"; "O, th"];
       mkRawPort "w_port_1" "write" 64 4096 ["I1, fh"; "O, fh"; "O, fl"]]
      ["D1"; "D2"; "D3"; "D4"]);
   ("sram_1MB_W", mkRawMemory 8388608 (Some (2328 # 5)) (Some (4128 # 5)) (Some (0 # 1)) None None
      ["I2"]
      [mkRawPort "r_port_1" "read" 64 4096 ["I2, tl"];
       mkRawPort "w_port_1" "write" 64 4096 ["I2, fh"]]
      ["D1"; "D2"; "D3"; "D4"]);
   ("dram", mkRawMemory 10000000000 (Some (700 # 1)) (Some (750 # 1)) (Some (0 # 1)) None None
      ["I1"; "I2"; "O"]
      [mkRawPort "rw_port_1" "read_write" 64 64 ["I1, fh"; "I1, tl"; "I2, fh"; "I2, tl"; "O, fh"; "O, tl"; "O, fl"; "O, th"]]
      ["D1"; "D2"])]
  (mkRawArray ["D1"; "D2"; "D3"; "D4"] None [16; 16; 2; 2] (Some [8; 8]) (Some (1 # 25)) (Some (1 # 1)) None None None)
  None.

(** inputs/hardware/dimc.yaml *)
Definition dimc : raw_accel := mkRawAccel "dimc"
  [("cells", mkRawMemory 8 (Some (0 # 1)) (Some (19 # 200)) (Some (0 # 1)) None None
      ["I2"]
      [mkRawPort "rw_port_1" "read_write" 8 8 ["I2, fh"; "I2, tl"]]
      []);
   ("rf_1B", mkRawMemory 8 (Some (21 # 1000)) (Some (21 # 1000)) (Some (0 # 1)) None None
      ["I1"]
      [mkRawPort "r_port_1" "read" 8 8 ["I1, tl"];
       mkRawPort "w_port_1" "write" 8 8 ["I1, fh"]]
      ["D1"]);
   ("rf_2B", mkRawMemory 16 (Some (21 # 1000)) (Some (21 # 1000)) (Some (0 # 1)) None None
      ["O"]
      [mkRawPort "r_port_1" "read" 16 16 ["O, tl"];
       mkRawPort "r_port_2" "read" 16 16 ["O, th"];
       mkRawPort "w_port_1" "write" 16 16 ["O, fh"];
       mkRawPort "w_port_2" "write" 16 16 ["O, fl"]]
      ["D2"]);
   ("sram_256KB", mkRawMemory 262144 (Some (10404 # 25)) (Some (1892 # 5)) (Some (0 # 1)) None None
      ["I1"; "O"]
      [mkRawPort "r_port_1" "read" 64 512 ["I1, tl"; "O, tl"; "O, th"];
       mkRawPort "w_port_1" "write" 64 512 ["I1, fh"; "O, fh"; "O, fl"]]
      ["D1"; "D2"]);
   ("dram", mkRawMemory 10000000000 (Some (700 # 1)) (Some (750 # 1)) (Some (0 # 1)) None None
      ["I1"; "I2"; "O"]
      [mkRawPort "rw_port_1" "read_write" 64 64 ["I1, fh"; "I1, tl"; "I2, fh"; "I2, tl"; "O, fh"; "O, tl"; "O, fl"; "O, th"]]
      ["D1"; "D2"])]
  (mkRawArray ["D1"; "D2"] (Some true) [128; 128] (Some [8; 8]) None None (Some "digital") None (Some 1))
  None.

(** inputs/hardware/edge_tpu_like.yaml *)
Definition edge_tpu_like : raw_accel := mkRawAccel "edge_tpu_like"
  [("rf_1B", mkRawMemory 8 (Some (1 # 100)) (Some (1 # 100)) (Some (0 # 1)) None None
      ["I2"]
      [mkRawPort "r_port_1" "read" 8 8 ["I2, tl"];
       mkRawPort "w_port_1" "write" 8 8 ["I2, fh"]]
      ["D3"; "D4"]);
   ("rf_2B", mkRawMemory 16 (Some (1 # 50)) (Some (1 # 50)) (Some (0 # 1)) None None
      ["O"]
      [mkRawPort "r_port_1" "read" 16 16 ["O, tl"];
       mkRawPort "r_port_2" "read" 16 16 ["O, th"];
       mkRawPort "w_port_1" "write" 16 16 ["O, fh"];
       mkRawPort "w_port_2" "write" 16 16 ["O, fl"]]
      ["D2"]);
   ("sram_32KB", mkRawMemory 262144 (Some (229 # 10)) (Some (5201 # 100)) (Some (0 # 1)) None None
      ["I2"]
      [mkRawPort "r_port_1" "read" 64 512 ["I2, tl"];
       mkRawPort "w_port_1" "write" 64 512 ["I2, fh"]]
      ["D1"; "D2"; "D3"; "D4"]);
   ("sram_2MB", mkRawMemory 16777216 (Some (10404 # 25)) (Some (1892 # 5)) (Some (0 # 1)) None None
      ["I1"; "O"]
      [mkRawPort "r_port_1" "read" 64 2048 ["I1, tl"; "O, tl"; "O, th"];
       mkRawPort "w_port_1" "write" 64 2048 ["I1, fh"; "O, fh"; "O, fl"]]
      ["D1"; "D2"; "D3"; "D4"]);
   ("dram", mkRawMemory 10000000000 (Some (700 # 1)) (Some (750 # 1)) (Some (0 # 1)) None None
      ["I1"; "I2"; "O"]
      [mkRawPort "rw_port_1" "read_write" 64 64 ["I1, fh"; "I1, tl"; "I2, fh"; "I2, tl"; "O, fh"; "O, tl"; "O, fl"; "O, th"]]
      ["D1"; "D2"; "D3"; "D4"])]
  (mkRawArray ["D1"; "D2"; "D3"; "D4"] None [8; 8; 4; 4] None (Some (1 # 25)) (Some (1 # 1)) None None None)
  None.

(** inputs/hardware/eyeriss_like.yaml *)
Definition eyeriss_like : raw_accel := mkRawAccel "eyeriss_like"
  [("rf_64B_A", mkRawMemory 512 (Some (1 # 1)) (Some (3 # 2)) (Some (3 # 10)) None None
      ["I1"]
      [mkRawPort "r_port_1" "read" 8 8 ["I1, tl"];
       mkRawPort "w_port_1" "write" 8 8 ["I1, fh"]]
      []);
   ("rf_64B_W", mkRawMemory 512 (Some (1 # 1)) (Some (3 # 2)) (Some (3 # 10)) None None
      ["I2"]
      [mkRawPort "r_port_1" "read" 8 8 ["I2, tl"];
       mkRawPort "w_port_1" "write" 8 8 ["I2, fh"]]
      []);
   ("rf_16B", mkRawMemory 128 (Some (3 # 2)) (Some (2 # 1)) (Some (19 # 20)) None None
      ["O"]
      [mkRawPort "r_port_1" "read" 24 24 ["O, tl"; "O, th"];
       mkRawPort "w_port_1" "write" 24 24 ["O, fh"; "O, fl"]]
      []);
   ("sram_8KB", mkRawMemory 65536 (Some (10 # 1)) (Some (15 # 1)) (Some (3 # 1)) None None
      ["O"]
      [mkRawPort "rw_port_1" "read_write" 128 128 ["O, fh"; "O, tl"; "O, fl"; "O, th"]]
      ["D1"; "D2"]);
   ("sram_64KB", mkRawMemory 524288 (Some (20 # 1)) (Some (25 # 1)) (Some (6 # 1)) None None
      ["I2"]
      [mkRawPort "r_port_1" "read" 128 128 ["I2, tl"];
       mkRawPort "w_port_1" "write" 128 128 ["I2, fh"]]
      ["D1"; "D2"]);
   ("sram_1M", mkRawMemory 8388608 (Some (100 # 1)) (Some (130 # 1)) (Some (25 # 1)) None None
      ["I1"; "O"]
      [mkRawPort "rw_port_1" "read_write" 384 384 ["I1, fh"; "I1, tl"; "O, fh"; "O, tl"; "O, fl"; "O, th"]]
      ["D1"; "D2"]);
   ("dram", mkRawMemory 10000000000 (Some (1000 # 1)) (Some (1000 # 1)) (Some (0 # 1)) None None
      ["I1"; "I2"; "O"]
      [mkRawPort "rw_port_1" "read_write" 64 64 ["I1, fh"; "I1, tl"; "I2, fh"; "I2, tl"; "O, fh"; "O, tl"; "O, fl"; "O, th"]]
      ["D1"; "D2"])]
  (mkRawArray ["D1"; "D2"] None [14; 12] None (Some (1 # 2)) (Some (1 # 10)) None None None)
  None.

(** inputs/hardware/gemm_l1.yaml *)
Definition gemm_l1 : raw_accel := mkRawAccel "gemm_l1"
  [("reg_O", mkRawMemory 32 (Some (1 # 50)) (Some (1 # 50)) (Some (0 # 1)) None (Some false)
      ["O"]
      [mkRawPort "w_port_1" "write" 32 32 ["O, fh"];
       mkRawPort "r_port_1" "read" 32 32 ["O, tl"];
       mkRawPort "w_port_2" "write" 32 32 ["O, fl"];
       mkRawPort "r_port_2" "read" 32 32 ["O, th"]]
      ["D2"]);
   ("l1", mkRawMemory 4194304 (Some (229 # 10)) (Some (5201 # 100)) (Some (0 # 1)) None None
      ["I1"; "I2"; "O"]
      [mkRawPort "rw_port_1" "read_write" 64 512 ["I1, tl"];
       mkRawPort "rw_port_2" "read_write" 64 512 ["I2, tl"];
       mkRawPort "rw_port_3" "read_write" 64 2048 ["O, tl"; "O, fl"]]
      ["D1"; "D2"; "D3"])]
  (mkRawArray ["D1"; "D2"; "D3"] None [8; 8; 8] (Some [8; 8]) (Some (1 # 25)) (Some (1 # 1)) None None None)
  None.

(** inputs/hardware/gemm_l1_l3.yaml *)
Definition gemm_l1_l3 : raw_accel := mkRawAccel "gemm_l1_l3"
  [("reg_O", mkRawMemory 32 (Some (3 # 1)) (Some (4 # 1)) (Some (0 # 1)) None (Some false)
      ["O"]
      [mkRawPort "r_port_1" "read" 32 32 ["O, tl"];
       mkRawPort "r_port_2" "read" 32 32 ["O, th"];
       mkRawPort "w_port_1" "write" 32 32 ["O, fh"];
       mkRawPort "w_port_2" "write" 32 32 ["O, fl"]]
      ["D2"]);
   ("l1", mkRawMemory 943718 (Some (118 # 1)) (Some (708 # 5)) (Some (0 # 1)) None None
      ["I1"; "I2"; "O"]
      [mkRawPort "rw_port_1" "read_write" 64 512 ["I1, tl"];
       mkRawPort "rw_port_2" "read_write" 64 512 ["I2, tl"];
       mkRawPort "rw_port_3" "read_write" 64 2048 ["O, tl"; "O, fl"];
       mkRawPort "rw_port_4" "read_write" 64 512 ["I1, fh"; "I2, fh"; "O, fh"; "O, th"]]
      ["D1"; "D2"; "D3"]);
   ("l3", mkRawMemory 10000000000 (Some (16000 # 1)) (Some (24000 # 1)) (Some (0 # 1)) None None
      ["I1"; "I2"; "O"]
      [mkRawPort "rw_port_1" "read_write" 512 512 ["I1, fh"; "I1, tl"; "I2, fh"; "I2, tl"; "O, fh"; "O, tl"; "O, fl"; "O, th"]]
      ["D1"; "D2"; "D3"])]
  (mkRawArray ["D1"; "D2"; "D3"] None [8; 8; 8] (Some [8; 8]) (Some (1 # 25)) (Some (1 # 1)) None None None)
  None.

(** inputs/hardware/generic_array_cacti.yaml *)
Definition generic_array_cacti : raw_accel := mkRawAccel "generic_array"
  [("rf_I", mkRawMemory 1024 (Some (19 # 200)) (Some (19 # 200)) (Some (0 # 1)) None None
      ["I1"]
      [mkRawPort "r_port_1" "read" 16 16 ["I1, tl"];
       mkRawPort "w_port_1" "write" 16 16 ["I1, fh"]]
      []);
   ("rf_W", mkRawMemory 1024 (Some (19 # 200)) (Some (19 # 200)) (Some (0 # 1)) None None
      ["I2"]
      [mkRawPort "r_port_1" "read" 16 16 ["I2, tl"];
       mkRawPort "w_port_1" "write" 16 16 ["I2, fh"]]
      []);
   ("rf_O", mkRawMemory 1024 (Some (19 # 200)) (Some (19 # 200)) (Some (0 # 1)) None None
      ["O"]
      [mkRawPort "r_port_1" "read" 32 32 ["O, tl"];
       mkRawPort "r_port_2" "read" 32 32 ["O, th"];
       mkRawPort "w_port_1" "write" 32 32 ["O, fh"];
       mkRawPort "w_port_2" "write" 32 32 ["O, fl"]]
      []);
   ("sram_32MB", mkRawMemory 268435456 (Some (10404 # 25)) (Some (1892 # 5)) (Some (0 # 1)) None None
      ["I1"; "I2"; "O"]
      [mkRawPort "r_port_1" "read" 64 16384 ["I1, tl"; "O, tl"; "O, th"];
       mkRawPort "r_port_2" "read" 64 16384 ["I2, tl"; "O, tl"; "O, th"];
       mkRawPort "w_port_1" "write" 64 16384 ["I1, fh"; "O, fh"; "O, fl"];
       mkRawPort "w_port_2" "write" 64 16384 ["I2, fh"; "O, fh"; "O, fl"]]
      ["D1"; "D2"]);
   ("dram", mkRawMemory 10000000000 (Some (700 # 1)) (Some (750 # 1)) (Some (0 # 1)) None None
      ["I1"; "I2"; "O"]
      [mkRawPort "rw_port_1" "read_write" 64 2048 ["I1, fh"; "I1, tl"; "I2, fh"; "I2, tl"; "O, fh"; "O, tl"; "O, fl"; "O, th"]]
      ["D1"; "D2"])]
  (mkRawArray ["D1"; "D2"] None [256; 256] None (Some (1 # 25)) (Some (1 # 1)) None None None)
  None.

(** inputs/hardware/meta_prototype.yaml *)
Definition meta_prototype : raw_accel := mkRawAccel "meta_prototype"
  [("rf_1B", mkRawMemory 8 (Some (1 # 100)) (Some (1 # 100)) (Some (0 # 1)) None None
      ["I2"]
      [mkRawPort "r_port_1" "read" 8 8 ["I2, tl"];
       mkRawPort "w_port_1" "write" 8 8 ["I2, fh"]]
      ["D3"; "D4"]);
   ("rf_2B", mkRawMemory 16 (Some (1 # 50)) (Some (1 # 50)) (Some (0 # 1)) None None
      ["O"]
      [mkRawPort "r_port_1" "read" 16 16 ["O, tl"];
       mkRawPort "r_port_2" "read" 16 16 ["O, th"];
       mkRawPort "w_port_1" "write" 16 16 ["O, fh"];
       mkRawPort "w_port_2" "write" 16 16 ["O, fl"]]
      ["D2"]);
   ("sram_64KB", mkRawMemory 524288 (Some (664 # 25)) (Some (154 # 5)) (Some (0 # 1)) None None
      ["I2"]
      [mkRawPort "r_port_1" "read" 64 512 ["I2, tl"];
       mkRawPort "w_port_1" "write" 64 512 ["I2, fh"]]
      ["D1"; "D2"; "D3"; "D4"]);
   ("sram_32KB", mkRawMemory 262144 (Some (332 # 25)) (Some (77 # 5)) (Some (0 # 1)) None None
      ["I1"]
      [mkRawPort "r_port_1" "read" 64 256 ["I1, tl"];
       mkRawPort "w_port_1" "write" 64 256 ["I1, fh"]]
      ["D1"; "D2"; "D3"; "D4"]);
   ("sram_1MB_A", mkRawMemory 8388608 (Some (5202 # 25)) (Some (946 # 5)) (Some (0 # 1)) None None
      ["I1"; "O"]
      [mkRawPort "r_port_1" "read" 64 1024 ["I1, tl"; "O, tl"; "O, th"];
       mkRawPort "w_port_1" "write" 64 1024 ["I1, fh"; "O, fh"; "O, fl"]]
      ["D1"; "D2"; "D3"; "D4"]);
   ("sram_1MB_W", mkRawMemory 8388608 (Some (5202 # 25)) (Some (946 # 5)) (Some (0 # 1)) None None
      ["I2"]
      [mkRawPort "r_port_1" "read" 64 1024 ["I2, tl"];
       mkRawPort "w_port_1" "write" 64 1024 ["I2, fh"]]
      ["D1"; "D2"; "D3"; "D4"]);
   ("dram", mkRawMemory 10000000000 (Some (700 # 1)) (Some (750 # 1)) (Some (0 # 1)) None None
      ["I1"; "I2"; "O"]
      [mkRawPort "rw_port_1" "read_write" 64 64 ["I1, fh"; "I1, tl"; "I2, fh"; "I2, tl"; "O, fh"; "O, tl"; "O, fl"; "O, th"]]
      ["D1"; "D2"; "D3"; "D4"])]
  (mkRawArray ["D1"; "D2"; "D3"; "D4"] None [32; 2; 4; 4] None (Some (1 # 25)) (Some (1 # 1)) None None None)
  None.

(** inputs/hardware/tesla_npu_like.yaml *)
Definition tesla_npu_like : raw_accel := mkRawAccel "npu_like"
  [("rf_1B", mkRawMemory 8 (Some (1 # 100)) (Some (1 # 100)) (Some (0 # 1)) None None
      ["I2"]
      [mkRawPort "r_port_1" "read" 8 8 ["I2, tl"];
       mkRawPort "w_port_1" "write" 8 8 ["I2, fh"]]
      ["D2"; "D3"]);
   ("rf_4B", mkRawMemory 32 (Some (11 # 500)) (Some (11 # 500)) (Some (0 # 1)) None None
      ["O"]
      [mkRawPort "r_port_1" "read" 16 16 ["O, tl"];
       mkRawPort "r_port_2" "read" 16 16 ["O, th"];
       mkRawPort "w_port_1" "write" 16 16 ["O, fh"];
       mkRawPort "w_port_2" "write" 16 16 ["O, fl"]]
      []);
   ("sram_1KB_I", mkRawMemory 8192 (Some (239 # 50)) (Some (559 # 100)) (Some (0 # 1)) None None
      ["I1"]
      [mkRawPort "r_port_1" "read" 64 256 ["I1, tl"];
       mkRawPort "w_port_1" "write" 64 256 ["I1, fh"]]
      ["D1"; "D2"; "D3"]);
   ("sram_1KB_W", mkRawMemory 8192 (Some (239 # 50)) (Some (559 # 100)) (Some (0 # 1)) None None
      ["I2"]
      [mkRawPort "r_port_1" "read" 64 256 ["I2, tl"];
       mkRawPort "w_port_1" "write" 64 256 ["I2, fh"]]
      ["D1"; "D2"; "D3"]);
   ("sram_1MB_A", mkRawMemory 8388608 (Some (5202 # 25)) (Some (946 # 5)) (Some (0 # 1)) None None
      ["I1"; "O"]
      [mkRawPort "r_port_1" "read" 64 1024 ["I1, tl"; "O, tl"; "O, th"];
       mkRawPort "w_port_1" "write" 64 1024 ["I1, fh"; "O, fh"; "O, fl"]]
      ["D1"; "D2"; "D3"]);
   ("sram_1MB_W", mkRawMemory 8388608 (Some (5202 # 25)) (Some (946 # 5)) (Some (0 # 1)) None None
      ["I2"]
      [mkRawPort "r_port_1" "read" 64 1024 ["I2, tl"];
       mkRawPort "w_port_1" "write" 64 1024 ["I2, fh"]]
      ["D1"; "D2"; "D3"]);
   ("dram", mkRawMemory 10000000000 (Some (700 # 1)) (Some (750 # 1)) (Some (0 # 1)) None None
      ["I1"; "I2"; "O"]
      [mkRawPort "rw_port_1" "read_write" 64 64 ["I1, fh"; "I1, tl"; "I2, fh"; "I2, tl"; "O, fh"; "O, tl"; "O, fl"; "O, th"]]
      ["D1"; "D2"; "D3"])]
  (mkRawArray ["D1"; "D2"; "D3"] None [32; 32; 4] None (Some (1 # 25)) (Some (1 # 1)) None None None)
  None.

(** inputs/hardware/tpu_like.yaml *)
Definition tpu_like : raw_accel := mkRawAccel "tpu_like"
  [("rf_128B", mkRawMemory 1024 (Some (19 # 200)) (Some (19 # 200)) (Some (0 # 1)) None None
      ["I2"]
      [mkRawPort "r_port_1" "read" 8 8 ["I2, tl"];
       mkRawPort "w_port_1" "write" 8 8 ["I2, fh"]]
      []);
   ("rf_2B", mkRawMemory 16 (Some (21 # 1000)) (Some (21 # 1000)) (Some (0 # 1)) None None
      ["O"]
      [mkRawPort "r_port_1" "read" 16 16 ["O, tl"];
       mkRawPort "r_port_2" "read" 16 16 ["O, th"];
       mkRawPort "w_port_1" "write" 16 16 ["O, fh"];
       mkRawPort "w_port_2" "write" 16 16 ["O, fl"]]
      []);
   ("sram_2MB", mkRawMemory 16777216 (Some (10404 # 25)) (Some (1892 # 5)) (Some (0 # 1)) None None
      ["I1"; "O"]
      [mkRawPort "r_port_1" "read" 64 2048 ["I1, tl"; "O, tl"; "O, th"];
       mkRawPort "w_port_1" "write" 64 2048 ["I1, fh"; "O, fh"; "O, fl"]]
      ["D1"; "D2"]);
   ("dram", mkRawMemory 10000000000 (Some (700 # 1)) (Some (750 # 1)) (Some (0 # 1)) None None
      ["I1"; "I2"; "O"]
      [mkRawPort "rw_port_1" "read_write" 64 64 ["I1, fh"; "I1, tl"; "I2, fh"; "I2, tl"; "O, fh"; "O, tl"; "O, fl"; "O, th"]]
      ["D1"; "D2"])]
  (mkRawArray ["D1"; "D2"] None [32; 32] None (Some (1 # 25)) (Some (1 # 1)) None None None)
  None.

Definition shipped : list raw_accel := [aimc; ascend_like; dimc; edge_tpu_like; eyeriss_like; gemm_l1; gemm_l1_l3; generic_array_cacti; meta_prototype; tesla_npu_like; tpu_like].
