(** Model of evaluating a layer on an in-memory-computing array: zigzag/cost_model/cost_model_imc.py
    ([CostModelEvaluationForIMC]), as the cost model stage does for such arrays
    (stages/evaluation/cost_model_evaluation.py:40-52). *)
From Coq Require Import QArith.
From Verif Require Import Base Model_Alloc Model_Layer Model_Mapping Model_Links Model_Cost Model_Latency Model_Hierarchy Model_Evaluate Model_Imc.
Local Open Scope result_scope.

(** What is evaluated: the request (of which the energy of an operation, the number of units and the
    cycles of an operation are replaced by the array's), the array, and of the layer the names in its
    equation, its constant operands, the pairs of partially relevant dimensions of its activations, and
    the unrollings of [layer.spatial_mapping] on the wordline and bitline dimension, with the order in
    which the set of the latter's dimensions is listed (imc_unit.py:292); and the memories' names and areas. *)
Record imc_request := mkImcRequest {
  iq_request : request;
  iq_array : imc;
  iq_tokens : list string; iq_constants : list string;
  iq_pairs : list (string * string);
  iq_word : option (dict string Q); iq_bit : option (dict string Q); iq_order : list string;
  iq_mems : list mem_area }.

(** What the evaluation holds afterwards: energies (total, memories, array and its parts), latency,
    clock period, areas (total, array, memories and their parts). *)
Record imc_result := mkImcResult {
  ir_energy : Q; ir_memory_energy : Q; ir_array_energy : Q; ir_array_parts : dict string Q;
  ir_latency : latency;
  ir_tclk : Q; ir_tclk_parts : dict string Q;
  ir_area : Q; ir_array_area : Q; ir_array_area_parts : dict string Q; ir_memory_area : Q; ir_memory_area_parts : dict string Q }.

Section EvalImc.
  Variable iq : imc_request.
  Let rq := iq_request iq.
  Let a := iq_array iq.

  (** The inputs of [CostModelEvaluation], cost_model_imc.py:43-54: the cycles of an operation; the
      number of units is [math.prod(dimension_sizes.values())], imc_unit.py:51. *)
  Definition on_array : request :=
    mkRequest (rq_layer rq) (rq_r rq) (rq_ir rq) (rq_pr rq) (rq_ops rq) (rq_inputs rq) (rq_out rq) (rq_macs rq) (rq_size_out rq)
      (rq_links rq) (rq_hierarchy rq) (im_wordline a * im_bitline a * im_banks a) 0 (inject_Z (im_act a) / inject_Z (im_serial a))
      (rq_free rq) (rq_spatial rq) (rq_spatial_int rq) (rq_temporal rq).

  (** [calc_mac_energy_cost], cost_model_imc.py:79-84, with [get_energy_for_a_layer] reading the layer
      and the mapping, imc_array.py:457-474, imc_unit.py:164-178, 335-341; [fuel] bounds the passes of
      the adder tree's loop (imc_unit.py:408-434). *)
  Definition array_energy (fuel : nat) : result (dict string Q) :=
    _ <- get_act_layer_op (iq_tokens iq) (l_pr_loop (rq_layer rq)) (iq_constants iq) ;;
    w <- get_weight_layer_op (iq_tokens iq) (l_pr_loop (rq_layer rq)) (iq_constants iq) ;;
    ir <- dgetr w (l_ir (rq_layer rq)) ;;
    m <- mapped (mkImcLayer (iq_word iq) (iq_bit iq) ir (iq_pairs iq) (rq_macs rq)) (iq_order iq) ;;
    let '(rows, _, cols, times) := m in
    levels <- dgetr w (rq_temporal rq) ;;
    pre <- precharge a levels ;;
    layer_energy fuel a rows cols times (fst pre).

  (** [run], cost_model_imc.py:56-62; the array was constructed with the accelerator. *)
  Definition imc_evaluation (fuel tree_fuel : nat) : result imc_result :=
    built <- construct a ;;
    let '(area, tclk, _) := built in
    if (im_serial a =? 0)%Z then Err ZeroDivisionError
    else
      ci <- prepare on_array fuel ;;
      ind <- individual ci od_bit_unrolled ;;
      _ <- shared ci ind ;;
      acc <- calc_memory_word_access ci ;;
      parts <- array_energy tree_fuel ;;
      en <- calc_memory_energy_cost ci acc ;;
      let '(_, _, mem, _) := en in
      la <- calc_latency ci ;;
      let '(mem_area, mem_parts, all_area) := collect_area (total area) (iq_mems iq) in
      Ok (mkImcResult (mem + total parts) mem (total parts) parts la (total tclk) tclk all_area (total area) area mem_area mem_parts).
End EvalImc.
