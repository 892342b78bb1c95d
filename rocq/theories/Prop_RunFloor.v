(** C86: no run reports less energy than its multiplications take, or less time than the array needs for them. *)
From Coq Require Import QArith.
From Verif Require Import Base Model_Loma Model_Cme Model_Cacti Model_AccelFile Model_Workload Model_WorkFile Model_Onnx Model_Run Model_OnnxRun Shipped_Hardware
  Spec_Loma Spec_SpatialMap Spec_Cme Spec_Pipeline Spec_WorkFile Spec_AccelFile Spec_Run Spec_OnnxRun Spec_RunFloor
  Proof_LomaFactors Proof_Cacti Proof_AccelFile Proof_WorkFileExample Proof_RunExample Proof_OnnxExample Proof_RunBound Proof_RunFloorExample.
Local Open Scope string_scope.
Local Open Scope list_scope.
Local Open Scope Z_scope.

(** If no memory has a negative price, the energy of a run from files is at least that of its
    multiplications, each at the price that the hardware description gives.  If each port serves one
    movement and the mapping gives no loop ordering, the latency is at least the number of
    multiplications over the number of units of the array. *)
Theorem C86_files : forall order1 order2 dim_order visit order pick_dim pick_oa factorint lim mt mix nb free bank adc sim tech known hardware mapping unit,
  (forall l, Permutation (order l) l) -> (forall l, Permutation (visit l) l) -> orders order1 -> orders order2 -> orders dim_order -> picks_dim pick_dim -> picks_oa pick_oa ->
  factorint_ok factorint -> (forall n, lim = Some n -> 1 <= n) -> (1 <= nb)%nat ->
  (exists cs p', priced sim tech known (memories hardware) cs p') -> ra_energy (rf_array hardware) = Some unit ->
  forall workload meaning, usable_files hardware workload mapping meaning ->
  exists enough, forall fuel, (enough <= fuel)%nat -> exists enough', forall fuel', (enough' <= fuel')%nat ->
  forall opt le, Spec_Pipeline.criterion opt le -> forall energy latency cmes,
  run order1 order2 dim_order visit pick_dim pick_oa factorint lim mt mix nb free fuel fuel' order bank adc sim tech known hardware workload mapping opt = Ok (energy, latency, cmes) ->
  (no_negative_price sim tech known hardware -> energy_needed unit (file_operations meaning) energy) /\
  (one_movement hardware -> ~ orders_loops mapping -> time_needed (zprod (ra_sizes (rf_array hardware))) (file_operations meaning) latency).
Proof. exact run_floor. Qed.
Print Assumptions C86_files.

(** The same for ONNX models. *)
Theorem C86_models : forall order1 order2 dim_order visit order pick_dim pick_oa factorint lim mt mix nb free bank adc sim tech known hardware mapping unit,
  (forall l, Permutation (order l) l) -> (forall l, Permutation (visit l) l) -> orders order1 -> orders order2 -> orders dim_order -> picks_dim pick_dim -> picks_oa pick_oa ->
  factorint_ok factorint -> (forall n, lim = Some n -> 1 <= n) -> (1 <= nb)%nat ->
  (exists cs p', priced sim tech known (memories hardware) cs p') -> ra_energy (rf_array hardware) = Some unit ->
  forall m meaning, usable_model hardware m mapping meaning ->
  exists enough, forall fuel, (enough <= fuel)%nat -> exists enough', forall fuel', (enough' <= fuel')%nat ->
  forall opt le, Spec_Pipeline.criterion opt le -> forall energy latency cmes,
  run_onnx order1 order2 dim_order visit pick_dim pick_oa factorint lim mt mix nb free fuel fuel' order bank adc sim tech known hardware m mapping opt = Ok (energy, latency, cmes) ->
  (no_negative_price sim tech known hardware -> energy_needed unit (model_operations meaning) energy) /\
  (one_movement hardware -> ~ orders_loops mapping -> time_needed (zprod (ra_sizes (rf_array hardware))) (model_operations meaning) latency).
Proof. exact model_floor. Qed.
Print Assumptions C86_models.

(** With a given loop ordering and a limit on the number of factors, loops get lost: 32 multiplications on
    one multiplier are reported to take 20 cycles. *)
Theorem C86_ordering_refuted : usable_files one_unit [tall_layer] ordered_mapping (map meaning_of [tall_layer]) /\ one_movement one_unit /\
  zprod (ra_sizes (rf_array one_unit)) = 1 /\ file_operations (map meaning_of [tall_layer]) = 32 /\
  shown (limited_run 2 one_unit [tall_layer] ordered_mapping "energy") = Ok ((2696 # 5)%Q, 20%Q, [[0%nat]]).
Proof. split; [exact ordered_usable|]. split; [exact one_unit_alone|]. split; [reflexivity|]. split; [reflexivity|]. vm_compute. reflexivity. Qed.
Print Assumptions C86_ordering_refuted.

(** With ports that serve several movements, C84's negative latency is below every such floor. *)
Theorem C86_shared_refuted : usable_files negative_file [small_conv] plain_mapping (map meaning_of [small_conv]) /\ ~ orders_loops plain_mapping /\
  file_operations (map meaning_of [small_conv]) = 48 /\
  shown (plain_run negative_file [small_conv] plain_mapping "latency") = Ok ((20484 # 5)%Q, (-8)%Q, [[0%nat]]).
Proof. split; [exact negative_usable|]. split; [exact plain_unordered|]. split; [reflexivity|]. vm_compute. reflexivity. Qed.
Print Assumptions C86_shared_refuted.

(** 48 multiplications on one multiplier, at 1/10 each *)
Example C86_met : usable_files one_unit [small_conv] plain_mapping (map meaning_of [small_conv]) /\ no_negative_price ex_sim 22 [] one_unit /\ one_movement one_unit /\
  ~ orders_loops plain_mapping /\ ra_energy (rf_array one_unit) = Some (1 # 10)%Q /\ zprod (ra_sizes (rf_array one_unit)) = 1 /\ file_operations (map meaning_of [small_conv]) = 48 /\
  shown (plain_run one_unit [small_conv] plain_mapping "energy") = Ok ((3784 # 5)%Q, 53%Q, [[0%nat]]).
Proof.
  split; [exact one_unit_usable|]. split; [exact one_unit_priced|]. split; [exact one_unit_alone|]. split; [exact plain_unordered|].
  split; [reflexivity|]. split; [reflexivity|]. split; [reflexivity|]. vm_compute. reflexivity.
Qed.
(** The accelerator that comes with the project *)
Example C86_met_model : usable_model gemm_l1 small_model onnx_mapping small_meaning /\ no_negative_price ex_sim 22 [] gemm_l1 /\
  ~ orders_loops onnx_mapping /\ model_operations small_meaning = 2560 /\ shown (plain_onnx gemm_l1 small_model onnx_mapping "energy") = Ok ((34809 # 50)%Q, 30%Q, [[0; 3]%nat]).
Proof. split; [exact small_model_usable|]. split; [exact gemm_priced|]. split; [exact onnx_unordered|]. split; [reflexivity|]. vm_compute. reflexivity. Qed.
