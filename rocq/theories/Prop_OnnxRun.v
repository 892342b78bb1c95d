(** C85: whole runs, from ONNX models to energy and latency. *)
From Coq Require Import QArith.
From Verif Require Import Base Model_Loma Model_Cme Model_Cacti Model_AccelFile Model_Workload Model_WorkFile Model_Onnx Model_Evaluate Model_Search Model_Run Model_OnnxRun Shipped_Hardware
  Spec_Loma Spec_SpatialMap Spec_Convert Spec_Cme Spec_Search Spec_Pipeline Spec_Workload Spec_WorkFile Spec_AccelFile Spec_Onnx Spec_Run Spec_OnnxRun
  Proof_LomaFactors Proof_Cacti Proof_AccelFile Proof_RunExample Proof_OnnxCourse Proof_OnnxExample Prop_SpatialMap.
Local Open Scope string_scope.
Local Open Scope list_scope.
Local Open Scope Z_scope.

(** Every convolution and product of a usable model becomes the layer that a workload file would describe
    as [node_as] does, and gets between one and the wished number of spatial mappings.  What is searched
    and evaluated for each of them is what model, mapping and hardware description say, and has as many
    multiplications as the operator. *)
Theorem C85_request : forall order1 order2 dim_order visit order pick_dim pick_oa mix nb free bank adc sim tech known hardware m mapping meaning,
  (forall l, Permutation (order l) l) -> (forall l, Permutation (visit l) l) -> orders order1 -> orders order2 -> orders dim_order -> picks_dim pick_dim -> picks_oa pick_oa ->
  (1 <= nb)%nat -> usable_model hardware m mapping meaning -> (exists cs p', priced sim tech known (memories hardware) cs p') ->
  exists a p' ls g, parse_accelerator bank adc sim tech known hardware = Ok (a, p') /\ parse_onnx order m mapping = Ok (ls, g) /\ length ls = length (om_nodes m) /\
    forall i, In i (operators_of meaning) ->
    exists o r l t en sms, node_at m meaning i o r /\ nth_error ls i = Some (Some l) /\
      let e := equation_for (taken_as o) (constant_second (feeding (graph_of m) i)) in
      let loops := loops_for (taken_as o) in
      layer_as order mapping r e (relations_for (taken_as o)) loops l /\
      rl_type r = Some t /\ Spec_MapFile.chosen (called r) t (map Model_MapFile.normalise mapping) en /\
      spatials order1 order2 dim_order visit pick_dim pick_oa mix nb a (onnx_layer_at ls) i = Ok sms /\ (1 <= length sms <= nb)%nat /\
      forall sm, In sm sms -> valid_user loops (combine (ra_dims (rf_array hardware)) (ra_sizes (rf_array hardware))) sm /\
        exists rq ms, convert visit free a (onnx_layer_at ls) i sm = Ok rq /\ Forall2 memory_kept (memories hardware) ms /\ searchable rq loops 0 ms /\
          rq_hierarchy rq = ac_hierarchy a /\ right_request hardware e loops en l free sm rq /\ rq_macs rq = operations o.
Proof. exact model_requests. Qed.
Print Assumptions C85_request.

(** A run of a usable model, with any options and with enough steps, returns the sum of the best that was
    found for each convolution and product, each once and after those that it depends on through the
    first two nodes feeding each node; or ends as in C84. *)
Theorem C85_run : forall order1 order2 dim_order visit order pick_dim pick_oa factorint lim mt mix nb free bank adc sim tech known hardware m mapping meaning,
  (forall l, Permutation (order l) l) -> (forall l, Permutation (visit l) l) -> orders order1 -> orders order2 -> orders dim_order -> picks_dim pick_dim -> picks_oa pick_oa ->
  factorint_ok factorint -> (forall n, lim = Some n -> 1 <= n) -> (1 <= nb)%nat ->
  usable_model hardware m mapping meaning -> (exists cs p', priced sim tech known (memories hardware) cs p') ->
  exists a p' ls g, parse_accelerator bank adc sim tech known hardware = Ok (a, p') /\ parse_onnx order m mapping = Ok (ls, g) /\
    exists enough, forall fuel, (enough <= fuel)%nat -> exists enough', forall fuel', (enough' <= fuel')%nat ->
    forall opt le, Spec_Pipeline.criterion opt le ->
    let spatials := spatials order1 order2 dim_order visit pick_dim pick_oa mix nb a (onnx_layer_at ls) in
    let convert := convert visit free a (onnx_layer_at ls) in
    let temporals := temporals factorint lim mt fuel (onnx_layer_at ls) in
    let evaluate := evaluate fuel' a in
    let result := run_onnx order1 order2 dim_order visit pick_dim pick_oa factorint lim mt mix nb free fuel fuel' order bank adc sim tech known hardware m mapping opt in
    (exists energy latency cmes, result = Ok (energy, latency, cmes) /\ best_of_all (operators_of meaning) (chain (graph_of m)) spatials convert temporals evaluate le energy latency cmes) \/
    (exists x, result = Err x /\ (In x nothing_fits \/ In x refused /\ orders_loops mapping) /\ unmapped (operators_of meaning) spatials convert temporals x) \/
    (result = Err ZeroDivisionError /\ ~ one_movement hardware).
Proof. exact model_ends. Qed.
Print Assumptions C85_run.

(** If at most two nodes feed each node, these are all dependencies; *)
Theorem C85_depends : forall ns, (forall v, length (feeding ns v) <= 2)%nat -> forall u v, chain ns u v <-> depends ns u v.
Proof. exact chain_depends. Qed.
Print Assumptions C85_depends.
(** they never are more. *)
Theorem C85_depends_sound : forall ns u v, chain ns u v -> depends ns u v.
Proof. exact chain_sound. Qed.
Print Assumptions C85_depends_sound.

(** All temporal mappings found for an operator have their loops in the order that the entry for it in the
    mapping file gives. *)
Theorem C85_ordering : forall order1 order2 dim_order visit order pick_dim pick_oa factorint lim mt mix nb free bank adc sim tech known hardware m mapping meaning,
  (forall l, Permutation (order l) l) -> (forall l, Permutation (visit l) l) -> orders order1 -> orders order2 -> orders dim_order -> picks_dim pick_dim -> picks_oa pick_oa ->
  factorint_ok factorint -> (forall n, lim = Some n -> 1 <= n) -> (1 <= nb)%nat ->
  usable_model hardware m mapping meaning -> (exists cs p', priced sim tech known (memories hardware) cs p') ->
  exists a p' ls g, parse_accelerator bank adc sim tech known hardware = Ok (a, p') /\ parse_onnx order m mapping = Ok (ls, g) /\
    exists enough, forall fuel, (enough <= fuel)%nat -> forall i sms sm rq tm, In i (operators_of meaning) ->
      spatials order1 order2 dim_order visit pick_dim pick_oa mix nb a (onnx_layer_at ls) i = Ok sms -> In sm sms -> convert visit free a (onnx_layer_at ls) i sm = Ok rq ->
      In tm (fst (temporals factorint lim mt fuel (onnx_layer_at ls) i rq)) ->
      exists o r t en p, node_at m meaning i o r /\ rl_type r = Some t /\ Spec_MapFile.chosen (called r) t (map Model_MapFile.normalise mapping) en /\
        (forall op levels, In (op, levels) tm -> concat levels = p) /\ follows (ordered en (loops_for (taken_as o))) p.
Proof. exact model_ordered. Qed.
Print Assumptions C85_ordering.

(** A node of three inputs that costs nothing loses a dependency: the last product of this model is
    evaluated before the one whose result it reads. *)
Theorem C85_order_refuted : usable_model gemm_l1 concat_model onnx_mapping concat_meaning /\ depends (graph_of concat_model) 4 6 /\
  shown (plain_onnx gemm_l1 concat_model onnx_mapping "energy") = Ok (552%Q, 14%Q, [[0; 1; 2; 3; 6; 4]%nat]).
Proof. split; [exact concat_usable|]. split; [exact concat_depends|]. vm_compute. reflexivity. Qed.
Print Assumptions C85_order_refuted.

(** A convolution, two nodes that cost nothing and a product on the accelerator gemm_l1 *)
Example C85_met : usable_model gemm_l1 small_model onnx_mapping small_meaning /\ operators_of small_meaning = [0; 3]%nat /\
  (forall sim tech known, exists cs p', priced sim tech known (memories gemm_l1) cs p') /\
  picks_dim first_dim /\ picks_oa first_oa /\ factorint_ok factorint_td /\ Spec_Pipeline.criterion "energy" energy_le /\
  (forall v, length (feeding (graph_of small_model) v) <= 2)%nat /\ chain (graph_of small_model) 0 3 /\
  shown (plain_onnx gemm_l1 small_model onnx_mapping "energy") = Ok ((34809 # 50)%Q, 30%Q, [[0; 3]%nat]).
Proof.
  split; [exact small_model_usable|]. split; [vm_compute; reflexivity|]. split; [exact two_priced|]. destruct C16_met as (_ & _ & P1 & P2 & _). split; [exact P1|]. split; [exact P2|].
  split; [exact factorint_td_ok|]. split; [left; split; reflexivity|]. split; [exact small_fed|]. split; [exact small_chain|]. vm_compute. reflexivity.
Qed.
