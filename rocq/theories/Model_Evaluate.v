(** Model of evaluating one layer with a spatial and a temporal mapping on an accelerator:
    zigzag/stages/evaluation/cost_model_evaluation.py:40-61 and the constructors it goes through,
    mapping/temporal_mapping.py:22-43, mapping/spatial_mapping_internal.py:15-41,
    mapping/mapping.py:22-85 and cost_model/cost_model.py:315-366. *)
From Coq Require Import QArith.
From Verif Require Import Base Model_Alloc Model_Temporal Model_Decouple Model_SpatialInt Model_DataMove Model_Mapping Model_Links
  Model_Cost Model_Latency Model_Hierarchy.
Local Open Scope result_scope.

(** What the cost model stage holds.  [rq_cpo] is 1 for digital arrays and, for in-memory computing,
    activation_precision / bit_serial_precision (cost_model_imc.py:53). *)
Record request := mkRequest {
  rq_layer : layer;
  rq_r : dict string (list string); rq_ir : dict string (list string); rq_pr : list string;  (* relevancy *)
  rq_ops : list string;                            (* layer.layer_operands *)
  rq_inputs : list string; rq_out : string;
  rq_macs : Z; rq_size_out : Z;
  rq_links : links;                                (* layer.memory_operand_links *)
  rq_hierarchy : hierarchy;                        (* accelerator.memory_hierarchy *)
  rq_units : Z; rq_mac_cost : Q; rq_cpo : Q;
  rq_free : bool;                                  (* access_same_data_considered_as_no_access *)
  rq_spatial : dict string qlevels;                (* spatial_mapping.mapping_dict_origin *)
  rq_spatial_int : dict string qlevels;            (* spatial_mapping_int.mapping_dict_origin *)
  rq_temporal : dict string tmlevels }.

Section Evaluate.
  Variable rq : request.

  (** What [Mapping] reads of one operand: the spatial levels [sp] with their [counts], and the
      temporal mapping [tm] (temporal_mapping.py:67-155). *)
  Definition opinput_of (sp : dict string qlevels) (counts : dict string opcounts)
      (tm : dict string tmlevels * dict string Z * dict string (list Z) * Z) (op : string) : result (string * opinput) :=
    let '(st, mac, cycles, _) := tm in
    su <- dgetr op sp ;;
    c <- dgetr op counts ;;
    ls <- dgetr op st ;;
    m <- dgetr op mac ;;
    cyc <- dgetr op cycles ;;
    r <- dgetr op (rq_r rq) ;;
    ir <- dgetr op (rq_ir rq) ;;
    Ok (op, mkOpinput su c ls m cyc (top_sizes r ls) (top_sizes ir ls)).

  (** mapping.py:366-371: the read bandwidth towards the array of every memory of an input; comparing
      a missing one raises TypeError.  (The code reads it level by level between other computations:
      which exception comes first when several things are wrong may differ.) *)
  Definition read_bandwidth (hd : dict string (list memlvl)) (op : string) (lv : nat) : result Z :=
    mem_op <- layer_to_mem_op (rq_links rq) op ;;
    ms <- dgetr mem_op hd ;;
    m <- at_ ms lv ;;
    b <- bandwidth (ml_bw_max m) mem_op RdLow ;;
    of_option TypeError b.
  Definition read_bandwidths (hd : dict string (list memlvl)) (ois : dict string opinput) : result unit :=
    rfold (fun _ op =>
             oi <- dgetr op ois ;;
             rfold (fun _ lv => _ <- read_bandwidth hd op lv ;; Ok tt) tt (seq 0 (length (oi_temporal oi))))
      tt (rq_inputs rq).

  (** [Mapping.__init__], mapping.py:22-85, for the spatial levels [sp] *)
  Definition mapping_of (hd : dict string (list memlvl)) (sp : dict string qlevels) (counts : dict string opcounts)
      (tm : dict string tmlevels * dict string Z * dict string (list Z) * Z) : result (dict string (opdata * list pattern)) :=
    ois <- rmap (opinput_of sp counts tm) (rq_ops rq) ;;
    _ <- read_bandwidths hd ois ;;
    m <- build_mapping (rq_layer rq) (rq_r rq) (rq_ir rq) (rq_pr rq) (rq_inputs rq) (rq_out rq) (rq_macs rq) (rq_size_out rq)
           (snd tm) (rq_free rq) (fun op lv => match read_bandwidth hd op lv with Ok b => b | Err _ => 0 end) ois ;;
    Ok (snd m).

  (** The mappings are constructed, and then the evaluation, cost_model.py:315-366; [fuel] bounds
      the passes of the merge of temporal_mapping.py:67-93. *)
  Definition prepare (fuel : nat) : result inputs :=
    tm <- build_temporal_mapping (rq_ir rq) fuel (rq_temporal rq) ;;
    counts <- build_spatial (rq_layer rq) (rq_r rq) (rq_ir rq) (rq_pr rq) (rq_ops rq) (rq_spatial rq) ;;
    counts' <- build_spatial (rq_layer rq) (rq_r rq) (rq_ir rq) (rq_pr rq) (rq_ops rq) (rq_spatial_int rq) ;;
    acc <- accelerator (rq_hierarchy rq) ;;
    let '(hd, levels, sharing) := acc in
    m <- mapping_of hd (rq_spatial rq) counts tm ;;
    m' <- mapping_of hd (rq_spatial_int rq) counts' tm ;;
    Ok (mkInputs (rq_ops rq) (rq_inputs rq) (rq_out rq) (rq_links rq) hd levels sharing m m'
          (map (fun kv => (fst kv, unit_count (snd kv))) counts)
          (rq_macs rq) (rq_mac_cost rq) (rq_units rq) (snd tm) (rq_cpo rq)).

  (** [CostModelStage.run], cost_model_evaluation.py:40-61 *)
  Definition evaluation (fuel : nat) : result (Q * latency) := ci <- prepare fuel ;; evaluate ci.
End Evaluate.
