(** C84: whole runs, from the three files to energy and latency. *)
From Coq Require Import QArith Lia.
From Verif Require Import Base Model_Loma Model_Cme Model_Cacti Model_AccelFile Model_WorkFile Model_Evaluate Model_Run Shipped_Hardware Shipped_Workload
  Spec_Loma Spec_SpatialMap Spec_Convert Spec_Cme Spec_Search Spec_Pipeline Spec_Workload Spec_WorkFile Spec_AccelFile Spec_Run
  Proof_LomaFactors Proof_Cacti Proof_AccelFile Proof_WorkFileExample Proof_EvalExample Proof_SearchExample Proof_Run Proof_RunExample Prop_SpatialMap.
Local Open Scope string_scope.
Local Open Scope list_scope.
Local Open Scope Z_scope.

(** From usable files the accelerator and the workload are built, and every layer gets between one and
    the wished number of spatial mappings, each of which is ready for the search for temporal mappings
    and the evaluation of those (C80). *)
Theorem C84_layers : forall order1 order2 dim_order visit order pick_dim pick_oa mix nb free bank adc sim tech known hardware workload mapping meaning,
  (forall l, Permutation (order l) l) -> (forall l, Permutation (visit l) l) -> orders order1 -> orders order2 -> orders dim_order -> picks_dim pick_dim -> picks_oa pick_oa ->
  (1 <= nb)%nat -> usable_files hardware workload mapping meaning -> (exists cs p', priced sim tech known (memories hardware) cs p') ->
  exists a p' ls g, parse_accelerator bank adc sim tech known hardware = Ok (a, p') /\ parse_workload order workload mapping = Ok (ls, g) /\
    forall i, (i < length workload)%nat ->
    exists sms, spatials order1 order2 dim_order visit pick_dim pick_oa mix nb a (layer_at ls) i = Ok sms /\ (1 <= length sms <= nb)%nat /\
      forall sm, In sm sms -> exists rq ms loops, convert visit free a (layer_at ls) i sm = Ok rq /\ Forall2 memory_kept (memories hardware) ms /\ searchable rq loops 0 ms.
Proof. exact layers_built. Qed.
Print Assumptions C84_layers.

(** What is searched and evaluated for each of them is what the files say: the operands, the number of
    operations, the array, the memories for the operands, and the unrollings, lowered to what splits the
    layer evenly and, for every operand, each at the memory that serves its array dimension. *)
Theorem C84_request : forall order1 order2 dim_order visit order pick_dim pick_oa mix nb free bank adc sim tech known hardware workload mapping meaning,
  (forall l, Permutation (order l) l) -> (forall l, Permutation (visit l) l) -> orders order1 -> orders order2 -> orders dim_order -> picks_dim pick_dim -> picks_oa pick_oa ->
  (1 <= nb)%nat -> usable_files hardware workload mapping meaning -> (exists cs p', priced sim tech known (memories hardware) cs p') ->
  exists a p' ls g, parse_accelerator bank adc sim tech known hardware = Ok (a, p') /\ parse_workload order workload mapping = Ok (ls, g) /\
    forall i, (i < length workload)%nat ->
    exists r e ws loops l t en sms, nth_error workload i = Some r /\ nth_error meaning i = Some (e, ws, loops) /\ nth_error ls i = Some l /\ layer_as order mapping r e ws loops l /\
      rl_type r = Some t /\ Spec_MapFile.chosen (called r) t (map Model_MapFile.normalise mapping) en /\
      spatials order1 order2 dim_order visit pick_dim pick_oa mix nb a (layer_at ls) i = Ok sms /\ (1 <= length sms <= nb)%nat /\
      forall sm, In sm sms -> valid_user loops (combine (ra_dims (rf_array hardware)) (ra_sizes (rf_array hardware))) sm /\
        exists rq ms, convert visit free a (layer_at ls) i sm = Ok rq /\ Forall2 memory_kept (memories hardware) ms /\ searchable rq loops 0 ms /\
          rq_hierarchy rq = ac_hierarchy a /\ right_request hardware e loops en l free sm rq.
Proof. exact requests_made. Qed.
Print Assumptions C84_request.

(** A run from usable files, with any options and with enough steps, returns for the whole workload the
    sum of the best that was found for each layer, every layer once and after its sources; or no
    temporal mapping fits for some spatial mapping of a layer, or the mapping file orders loops in a way
    that does not go with the layer, and the run ends with that; or ports
    that serve several movements made an evaluation divide by zero cycles. *)
Theorem C84_run : forall order1 order2 dim_order visit order pick_dim pick_oa factorint lim mt mix nb free bank adc sim tech known hardware workload mapping meaning,
  (forall l, Permutation (order l) l) -> (forall l, Permutation (visit l) l) -> orders order1 -> orders order2 -> orders dim_order -> picks_dim pick_dim -> picks_oa pick_oa ->
  factorint_ok factorint -> (forall n, lim = Some n -> 1 <= n) -> (1 <= nb)%nat ->
  usable_files hardware workload mapping meaning -> (exists cs p', priced sim tech known (memories hardware) cs p') ->
  exists a p' ls g, parse_accelerator bank adc sim tech known hardware = Ok (a, p') /\ parse_workload order workload mapping = Ok (ls, g) /\
    exists enough, forall fuel, (enough <= fuel)%nat -> exists enough', forall fuel', (enough' <= fuel')%nat ->
    forall opt le, Spec_Pipeline.criterion opt le ->
    let spatials := spatials order1 order2 dim_order visit pick_dim pick_oa mix nb a (layer_at ls) in
    let convert := convert visit free a (layer_at ls) in
    let temporals := temporals factorint lim mt fuel (layer_at ls) in
    let evaluate := evaluate fuel' a in
    let result := run order1 order2 dim_order visit pick_dim pick_oa factorint lim mt mix nb free fuel fuel' order bank adc sim tech known hardware workload mapping opt in
    (exists energy latency cmes, result = Ok (energy, latency, cmes) /\ best_of_all (seq 0 (length workload)) (names (described workload)) spatials convert temporals evaluate le energy latency cmes) \/
    (exists x, result = Err x /\ (In x nothing_fits \/ In x refused /\ orders_loops mapping) /\ unmapped (seq 0 (length workload)) spatials convert temporals x) \/
    (result = Err ZeroDivisionError /\ ~ one_movement hardware).
Proof. exact run_ends. Qed.
Print Assumptions C84_run.

(** All temporal mappings found for a layer have their loops in the order that the entry for the layer
    in the mapping file gives. *)
Theorem C84_ordering : forall order1 order2 dim_order visit order pick_dim pick_oa factorint lim mt mix nb free bank adc sim tech known hardware workload mapping meaning,
  (forall l, Permutation (order l) l) -> (forall l, Permutation (visit l) l) -> orders order1 -> orders order2 -> orders dim_order -> picks_dim pick_dim -> picks_oa pick_oa ->
  factorint_ok factorint -> (forall n, lim = Some n -> 1 <= n) -> (1 <= nb)%nat ->
  usable_files hardware workload mapping meaning -> (exists cs p', priced sim tech known (memories hardware) cs p') ->
  exists a p' ls g, parse_accelerator bank adc sim tech known hardware = Ok (a, p') /\ parse_workload order workload mapping = Ok (ls, g) /\
    exists enough, forall fuel, (enough <= fuel)%nat -> forall i sms sm rq tm, (i < length workload)%nat ->
      spatials order1 order2 dim_order visit pick_dim pick_oa mix nb a (layer_at ls) i = Ok sms -> In sm sms -> convert visit free a (layer_at ls) i sm = Ok rq ->
      In tm (fst (temporals factorint lim mt fuel (layer_at ls) i rq)) ->
      exists r e ws loops t en p, nth_error workload i = Some r /\ nth_error meaning i = Some (e, ws, loops) /\ rl_type r = Some t /\
        Spec_MapFile.chosen (called r) t (map Model_MapFile.normalise mapping) en /\
        (forall op levels, In (op, levels) tm -> concat levels = p) /\ (~ In "*" (map fst loops) -> follows (ordered en loops) p).
Proof. exact run_ordered. Qed.
Print Assumptions C84_ordering.

(** Every description of multipliers that comes with the project is usable, and so are its workloads
    with the mappings that belong to the accelerators. *)
Theorem C84_shipped : (forall f, In f regular_hardware -> usable_accelerator f) /\
  forall f w m, In (f, w, m) shipped_runs -> usable_files f w m (map meaning_of w).
Proof. exact (conj regular_usable runs_usable). Qed.
Print Assumptions C84_shipped.

(** Ports that are not shared exclude the division by zero; shared ones do not, *)
Theorem C84_division_refuted : usable_files zero_file [small_conv] plain_mapping (map meaning_of [small_conv]) /\
  plain_run zero_file [small_conv] plain_mapping "energy" = Err ZeroDivisionError.
Proof. split; [exact zero_usable|vm_compute; reflexivity]. Qed.
Print Assumptions C84_division_refuted.

(** and can make the best latency of a run negative. *)
Theorem C84_negative_refuted : usable_files negative_file [small_conv] plain_mapping (map meaning_of [small_conv]) /\
  shown (plain_run negative_file [small_conv] plain_mapping "latency") = Ok ((20484 # 5)%Q, (-8)%Q, [[0%nat]]).
Proof. split; [exact negative_usable|vm_compute; reflexivity]. Qed.
Print Assumptions C84_negative_refuted.

(** Two layers on the accelerator gemm_l1 *)
Example C84_met : usable_files gemm_l1 two_layers gemm_entry (map meaning_of two_layers) /\
  (forall sim tech known, exists cs p', priced sim tech known (memories gemm_l1) cs p') /\
  picks_dim first_dim /\ picks_oa first_oa /\ factorint_ok factorint_td /\ Spec_Pipeline.criterion "energy" energy_le /\
  shown (plain_run gemm_l1 two_layers gemm_entry "energy") = Ok ((420119 # 100)%Q, 58%Q, [[0%nat; 1%nat]]).
Proof.
  split; [exact two_usable|]. split; [exact two_priced|]. destruct C16_met as (_ & _ & P1 & P2 & _). split; [exact P1|]. split; [exact P2|].
  split; [exact factorint_td_ok|]. split; [left; split; reflexivity|]. vm_compute. reflexivity.
Qed.
(** and nothing that fits *)
Example C84_met_none : usable_files little_file [small_conv] plain_mapping (map meaning_of [small_conv]) /\
  plain_run little_file [small_conv] plain_mapping "energy" = Err NoValidLoopOrdering.
Proof. split; [exact little_usable|vm_compute; reflexivity]. Qed.
(** An order of loops, of which the entry for another dimension is dropped; and one of a size that the
    layer does not have *)
Example C84_met_ordering :
  usable_files gemm_l1 first_layer (ordered_entry [("d0", inl 2); ("d2", inl 8); ("d0", inl 2); ("ox", inl 7)]) (map meaning_of first_layer) /\
  shown (plain_run gemm_l1 first_layer (ordered_entry [("d0", inl 2); ("d2", inl 8); ("d0", inl 2); ("ox", inl 7)]) "energy") = Ok ((117048 # 25)%Q, 63%Q, [[0%nat]]) /\
  usable_files gemm_l1 first_layer (ordered_entry [("d0", inl 3)]) (map meaning_of first_layer) /\
  plain_run gemm_l1 first_layer (ordered_entry [("d0", inl 3)]) "energy" = Err ValueError.
Proof. split; [exact ordered_usable|]. split; [vm_compute; reflexivity|]. split; [exact misordered_usable|vm_compute; reflexivity]. Qed.
