(** Independent vocabulary for C50. *)
From Verif Require Import Base Model_DataMove Model_Cost Model_Graph Model_Hierarchy Model_Locality Spec_Hierarchy.
Open Scope string_scope.
Open Scope list_scope.
Open Scope Z_scope.

(** The three memory operands of a layer are different. *)
Definition three_operands (i : loc_layer) : Prop := lo_act i <> lo_out i /\ lo_weight i <> lo_act i /\ lo_weight i <> lo_out i.

(** More than one layer reads the output, or the layer that reads it reads more than one. *)
Definition branching (g : graph nat) (l : nat) : Prop :=
  (1 < length (successors g l))%nat \/ exists s, successors g l = [s] /\ (1 < length (predecessors g s))%nat.

(** The operand for which the output is needed next: the activations of the first layer that
    reads it; of the layer itself when it is the last one. *)
Definition needed_as (g : graph nat) (info : nat -> loc_layer) (final l : nat) (op : string) : Prop :=
  (l = final /\ op = lo_act (info l)) \/
  (l <> final /\ exists s rest, successors g l = s :: rest /\ op = lo_act (info s)).

Definition has (op : string) (m : level) : Prop := In op (keys (lv_dict m)).

(** All instances of the memory together, in bits *)
Definition capacity (oa : dict string Z) (m : level) : Z := ml_size (lv_mem m) * unroll_count oa m.

(** What has to fit: of a layer with weights, the activations, outputs and all weights of the
    workload as far as the memory holds these operands; of one without, all inputs and the
    outputs. *)
Definition if_held (op : string) (m : level) (bits : Z) : Z := if memb op (keys (lv_dict m)) then bits else 0.
Definition space_needed (info : nat -> loc_layer) (weights : Z) (l : nat) (m : level) : Z :=
  let i := info l in
  if Nat.eqb (lo_constants i) 0 then lo_input_bits i + lo_out_bits i
  else if_held (lo_act i) m (lo_act_bits i) + if_held (lo_out i) m (lo_out_bits i) + if_held (lo_weight i) m weights.

(** The [k]-th memory can keep the layer's output. *)
Definition can_keep (g : graph nat) (info : nat -> loc_layer) (levels : list level) (oa : dict string Z) (weights : Z)
    (final l k : nat) : Prop :=
  exists m op, nth_error levels k = Some m /\ needed_as g info final l op /\ has op m /\ has (lo_out (info l)) m /\
    space_needed info weights l m <= capacity oa m.

Definition lowest (P : nat -> Prop) (k : nat) : Prop := P k /\ forall j, P j -> (k <= j)%nat.

(** The levels found for a layer *)
Definition level_of (u : dict nat (dict string Z)) (l : nat) (op : string) (lv : Z) : Prop :=
  exists d, dget l u = Some d /\ dget op d = Some lv.

(** [k] is the last memory with the operand; -1 when there is none. *)
Definition last_with (levels : list level) (op : string) (lv : Z) : Prop :=
  (lv = -1 /\ forall m, In m levels -> ~ has op m) \/
  exists k m, lv = Z.of_nat k /\ nth_error levels k = Some m /\ has op m /\
    forall j m', nth_error levels j = Some m' -> has op m' -> (j <= k)%nat.

(** A memory can keep all weights: some layer with weights fits with them. *)
Definition can_keep_weights (g : graph nat) (info : nat -> loc_layer) (levels : list level) (oa : dict string Z) (weights : Z) (k : nat) : Prop :=
  exists m l, nth_error levels k = Some m /\ In l (g_nodes g) /\ ~ branching g l /\ lo_constants (info l) <> 0%nat /\
    has (lo_weight (info l)) m /\ length (lv_served m) = length oa /\ space_needed info weights l m <= capacity oa m.

(** What a pruned memory keeps of the operands *)
Definition keeps_operand (i : loc_layer) (ta tw to : Z) (k : nat) (op : string) : Prop :=
  (op = lo_act i /\ Z.of_nat k <= ta) \/ (op = lo_weight i /\ Z.of_nat k <= tw) \/ (op = lo_out i /\ Z.of_nat k <= to).

(** The same memory, apart from operands and ports *)
Definition same_memory (l l' : level) : Prop :=
  ml_size (lv_mem l') = ml_size (lv_mem l) /\ ml_read_energy (lv_mem l') = ml_read_energy (lv_mem l) /\
  ml_write_energy (lv_mem l') = ml_write_energy (lv_mem l) /\ lv_served l' = lv_served l.

(** All weights of the workload *)
Definition workload_weights (info : nat -> loc_layer) (layers : list nat) : Z :=
  zsum (map (fun l => if Nat.eqb (lo_constants (info l)) 0 then 0 else lo_weight_bits (info l)) layers).

(** The levels chosen for a layer: [first] and [final] are the first and last layers of the order in
    which they are visited, [first_listed] the first of the workload. *)
Definition levels_chosen (g : graph nat) (info : nat -> loc_layer) (levels : list level) (oa : dict string Z)
    (first final first_listed : nat) (u : dict nat (dict string Z)) (l : nat) : Prop :=
  exists a o, level_of u l (lo_act (info l)) a /\ level_of u l (lo_out (info l)) o /\ 0 <= a /\ 0 <= o /\
    (branching g l -> last_with levels (lo_out (info first_listed)) o) /\
    (~ branching g l -> exists k, o = Z.of_nat k /\ lowest (can_keep g info levels oa (workload_weights info (g_nodes g)) final l) k) /\
    (l = first -> (branching g l -> last_with levels (lo_act (info first_listed)) a) /\ (~ branching g l -> a = o)) /\
    (l <> first -> exists prev rest, predecessors g l = prev :: rest /\ level_of u prev (lo_out (info prev)) a).
