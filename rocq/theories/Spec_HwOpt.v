(** What the search over hardware configurations should mean. *)
From Coq Require Import QArith.
From Verif Require Import Base Model_Cme Model_HwOpt.
Local Open Scope string_scope.
Local Open Scope list_scope.
Local Open Scope Z_scope.

(** A configuration: the capacity of the memory in KiB and the three sizes of the array. *)
Definition offered (l1 : Z) (a : Z * Z * Z) : Prop :=
  In l1 [32; 64; 128; 256; 512] /\ let '(x, y, z) := a in In x [8; 16] /\ In y [8; 16] /\ In z [8; 16].

Definition read_cost (l1 r : Z) : Prop := In (l1, r) [(32, 95); (64, 104); (128, 118); (256, 132); (512, 147)].

(** [h'] is the description [h] for a configuration: the memory offers 80% of its capacity in bits,
    rounded down, and a write costs 20% more than a read; its first three ports are as wide as the
    faces of the array, which moves 8-bit inputs and 32-bit outputs; nothing else differs. *)
Definition configured {R} (h : hardware R) (l1 : Z) (a : Z * Z * Z) (h' : hardware R) : Prop :=
  let '(x, y, z) := a in
  10 * hw_size h' <= 8 * (l1 * 1024 * 8) < 10 * (hw_size h' + 1) /\
  (exists r, read_cost l1 r /\ hw_read h' = inject_Z r /\ (hw_write h' == hw_read h' + (2 # 10) * hw_read h')%Q) /\
  hw_array h' = [x; y; z] /\ hw_rest h' = hw_rest h /\
  exists b1 b2 b3 others, hw_ports h = ("rw_port_1", b1) :: ("rw_port_2", b2) :: ("rw_port_3", b3) :: others /\
    hw_ports h' = ("rw_port_1", x * y * 8) :: ("rw_port_2", y * z * 8) :: ("rw_port_3", x * z * 32) :: others.

(** the size of a dimension of the array *)
Inductive side (a : Z * Z * Z) : string -> Z -> Prop :=
| side1 : side a "D1" (fst (fst a))
| side2 : side a "D2" (snd (fst a))
| side3 : side a "D3" (snd a).

(** [m] unrolls, over each dimension of the array that the original mapping uses, the first layer
    dimension it unrolls there, all along; each divides the layer's size. *)
Definition spread (layer : dict string Z) (original : dict string (dict string Q)) (a : Z * Z * Z) (m : dict string (dict string Q)) : Prop :=
  keys m = keys original /\
  forall o, In o (keys original) -> exists d u rest size n, dget o original = Some ((d, u) :: rest) /\ side a o size /\
    dget d layer = Some n /\ (size | n) /\ dget o m = Some [(d, inject_Z size)].

(** The description can be configured; the mapping is over the array, of sizes that divide the layer. *)
Definition three_ports {R} (h : hardware R) : Prop :=
  exists b1 b2 b3 others, hw_ports h = ("rw_port_1", b1) :: ("rw_port_2", b2) :: ("rw_port_3", b3) :: others.
Definition over_array (original : dict string (dict string Q)) : Prop :=
  NoDup (keys original) /\ forall o, In o (keys original) -> In o ["D1"; "D2"; "D3"].
(** [k] divides the size of every layer dimension that is to be unrolled. *)
Definition divisible (layer : dict string Z) (original : dict string (dict string Q)) (k : Z) : Prop :=
  forall o, In o (keys original) -> exists d u rest n, dget o original = Some ((d, u) :: rest) /\ dget d layer = Some n /\ (k | n).

(** A configuration was evaluated, on its own description and with its own mapping. *)
Definition tried {R} (evaluate : hardware R -> dict string (dict string Q) -> result (list eval)) (layer : dict string Z)
  (original : dict string (dict string Q)) (h0 : hardware R) (x : Z * (Z * Z * Z)) (y : hardware R * dict string (dict string Q) * list eval) : Prop :=
  let '(h, m, cs) := y in configured h0 (fst x) (snd x) h /\ spread layer original (snd x) m /\ evaluate h m = Ok cs.
