(** C87: reproducibility of runs, which is false in general. *)
From Coq Require Import QArith.
From Verif Require Import Base Model_Loma Model_Cacti Model_AccelFile Model_MapFile Model_WorkFile Model_Onnx Model_Run Model_OnnxRun Shipped_Hardware Shipped_Workload
  Spec_SpatialMap Spec_MapFile Spec_WorkFile Spec_AccelFile Spec_Run Spec_OnnxRun Spec_RunOrder
  Proof_WorkFileExample Proof_RunExample Proof_OnnxExample Proof_RunOrder Proof_RunOrderExample.
Local Open Scope string_scope.
Local Open Scope list_scope.
Local Open Scope Z_scope.

(** Two runs on the same files give the same results, energies, latencies and mappings, or fail with the same
    error, whatever the orders in which the generator visits sets and the elements that it picks from them,
    if the mapping file leaves the unrollings to the generator and first memories hold an element for each of
    the units that share them.  Still the same for both: the order [visit] of the served dimensions of a
    memory and of hints. *)
Theorem C87_files_partial : forall order1 order2 dim_order pick_dim pick_oa order1' order2' dim_order' pick_dim' pick_oa'
    visit order factorint lim mt mix nb free bank adc sim tech known hardware mapping,
  orders order1 -> orders order2 -> orders dim_order -> picks_dim pick_dim -> picks_oa pick_oa ->
  orders order1' -> orders order2' -> orders dim_order' -> picks_dim pick_dim' -> picks_oa pick_oa' ->
  (forall l, Permutation (order l) l) -> (forall l, Permutation (visit l) l) -> (forall n, lim = Some n -> 1 <= n) -> (1 <= nb)%nat ->
  unrolls_nothing mapping ->
  forall workload meaning, usable_files hardware workload mapping meaning -> roomy_files hardware workload mapping -> forall fuel fuel' opt,
  run order1 order2 dim_order visit pick_dim pick_oa factorint lim mt mix nb free fuel fuel' order bank adc sim tech known hardware workload mapping opt =
  run order1' order2' dim_order' visit pick_dim' pick_oa' factorint lim mt mix nb free fuel fuel' order bank adc sim tech known hardware workload mapping opt.
Proof. exact run_same. Qed.
Print Assumptions C87_files_partial.

(** The same for ONNX models. *)
Theorem C87_models_partial : forall order1 order2 dim_order pick_dim pick_oa order1' order2' dim_order' pick_dim' pick_oa'
    visit order factorint lim mt mix nb free bank adc sim tech known hardware mapping,
  orders order1 -> orders order2 -> orders dim_order -> picks_dim pick_dim -> picks_oa pick_oa ->
  orders order1' -> orders order2' -> orders dim_order' -> picks_dim pick_dim' -> picks_oa pick_oa' ->
  (forall l, Permutation (order l) l) -> (forall l, Permutation (visit l) l) -> (1 <= nb)%nat ->
  unrolls_nothing mapping ->
  forall m meaning, usable_model hardware m mapping meaning -> roomy_model hardware m mapping meaning -> forall fuel fuel' opt,
  run_onnx order1 order2 dim_order visit pick_dim pick_oa factorint lim mt mix nb free fuel fuel' order bank adc sim tech known hardware m mapping opt =
  run_onnx order1' order2' dim_order' visit pick_dim' pick_oa' factorint lim mt mix nb free fuel fuel' order bank adc sim tech known hardware m mapping opt.
Proof. exact model_same. Qed.
Print Assumptions C87_models_partial.

(** The mapping file unrolls too much on an array dimension: which of the two layer dimensions is taken off
    decides between 62 cycles and 17. *)
Theorem C87_removal_refuted : usable_files gemm_l1 [product_layer] crowded (map meaning_of [product_layer]) /\ picks_dim first_dim /\ picks_dim last_dim /\
  shown (run_with (fun l => l) (fun l => l) first_dim gemm_l1 [product_layer] crowded "energy") = Ok ((89603 # 50)%Q, 62%Q, [[0%nat]]) /\
  shown (run_with (fun l => l) (fun l => l) last_dim gemm_l1 [product_layer] crowded "energy") = Ok ((41513 # 50)%Q, 17%Q, [[0%nat]]).
Proof. split; [exact crowded_usable|]. split; [exact first_dim_picks|]. split; [exact last_dim_picks|]. split; vm_compute; reflexivity. Qed.
Print Assumptions C87_removal_refuted.

(** A register of 8 elements is shared by 12 units: which unrolling is cut depends on the order of its layer dimensions. *)
Theorem C87_capacity_refuted : usable_files (shared_by_16 64) [byte_layer [8; 6; 4] 8] twelve (map meaning_of [byte_layer [8; 6; 4] 8]) /\ orders (fun l => l) /\ orders (@rev string) /\
  shown (run_with (fun l => l) (fun l => l) first_dim (shared_by_16 64) [byte_layer [8; 6; 4] 8] twelve "energy") = Ok ((4808 # 25)%Q, 33%Q, [[0%nat]]) /\
  shown (run_with (@rev string) (fun l => l) first_dim (shared_by_16 64) [byte_layer [8; 6; 4] 8] twelve "energy") = Ok ((385 # 2)%Q, 37%Q, [[0%nat]]).
Proof. split; [exact twelve_usable|]. split; [exact same_orders|]. split; [exact reverse_orders|]. split; vm_compute; reflexivity. Qed.
Print Assumptions C87_capacity_refuted.

(** Hints are sets: of two equally good mappings the one that comes first by their order is evaluated. *)
Theorem C87_hint_refuted : usable_files (shared_by_16 64) [byte_layer [8; 4; 4] 64] hinted (map meaning_of [byte_layer [8; 4; 4] 64]) /\ unrolls_nothing hinted /\ orders (fun l => l) /\ orders (@rev string) /\
  shown (run_with (fun l => l) (fun l => l) first_dim (shared_by_16 64) [byte_layer [8; 4; 4] 64] hinted "energy") = Ok ((3569 # 25)%Q, 9%Q, [[0%nat]]) /\
  shown (run_with (fun l => l) (@rev string) first_dim (shared_by_16 64) [byte_layer [8; 4; 4] 64] hinted "energy") = Ok ((19733 # 50)%Q, 16%Q, [[0%nat]]).
Proof. split; [exact hinted_usable|]. split; [exact hinted_nothing|]. split; [exact same_orders|]. split; [exact reverse_orders|]. split; vm_compute; reflexivity. Qed.
Print Assumptions C87_hint_refuted.

(** 16 elements for 16 units *)
Example C87_met : unrolls_nothing plain_mapping /\ usable_files (shared_by_16 128) [byte_layer [8; 6; 4] 8] plain_mapping (map meaning_of [byte_layer [8; 6; 4] 8]) /\
  roomy_files (shared_by_16 128) [byte_layer [8; 6; 4] 8] plain_mapping /\ orders (fun l => l) /\ orders (@rev string) /\ picks_dim first_dim /\ picks_dim last_dim /\
  shown (run_with (fun l => l) (fun l => l) first_dim (shared_by_16 128) [byte_layer [8; 6; 4] 8] plain_mapping "energy") = Ok ((2518 # 25)%Q, 33%Q, [[0%nat]]).
Proof.
  split; [exact plain_nothing|]. split; [exact roomy_usable|]. split; [exact roomy_each|]. split; [exact same_orders|]. split; [exact reverse_orders|].
  split; [exact first_dim_picks|]. split; [exact last_dim_picks|]. vm_compute. reflexivity.
Qed.
Example C87_met_model : unrolls_nothing plain_mapping /\ usable_model (shared_by_16 256) small_model plain_mapping small_meaning /\ roomy_model (shared_by_16 256) small_model plain_mapping small_meaning /\
  shown (model_with (fun l => l) (fun l => l) first_dim (shared_by_16 256) small_model plain_mapping "energy") = Ok ((60601 # 50)%Q, 257%Q, [[0; 3]%nat]).
Proof. split; [exact plain_nothing|]. split; [exact roomy_model_usable|]. split; [exact roomy_model_each|]. vm_compute. reflexivity. Qed.
(** Accelerators that come with the project, with the layers of resnet18 *)
Example C87_met_shipped : forall f, In f [tpu_like; eyeriss_like; generic_array_cacti] ->
  usable_files f resnet18 plain_mapping (map meaning_of resnet18) /\ roomy_files f resnet18 plain_mapping.
Proof. exact shipped_reproducible. Qed.
