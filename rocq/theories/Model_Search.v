(** Model of searching the temporal mappings of one layer and evaluating each:
    zigzag/stages/mapping/temporal_mapping_generator_stage.py:41-82 above
    zigzag/stages/evaluation/cost_model_evaluation.py:40-61 and below one of the stages of
    zigzag/stages/results/reduce_stages.py:10-129. *)
From Coq Require Import QArith.
From Verif Require Import Base Model_Alloc Model_Links Model_Cost Model_Graph Model_Hierarchy Model_Evaluate Model_Layer Model_Cme Model_Pipeline Model_TemporalStage.
Local Open Scope result_scope.

Section Search.
  (** the request, whose temporal mapping is not read *)
  Variable rq : request.

  Definition with_temporal (tm : dict string (list (list tloop))) : request :=
    mkRequest (rq_layer rq) (rq_r rq) (rq_ir rq) (rq_pr rq) (rq_ops rq) (rq_inputs rq) (rq_out rq) (rq_macs rq) (rq_size_out rq) (rq_links rq)
      (rq_hierarchy rq) (rq_units rq) (rq_mac_cost rq) (rq_cpo rq) (rq_free rq) (rq_spatial rq) (rq_spatial_int rq) tm.

  (** [save_spatial_loop_dim_size], spatial_mapping_internal.py:175-184 *)
  Definition spatial_loop_dim_size : result (list (string * Q)) :=
    op <- of_option IndexError (nth_error (rq_inputs rq) 0) ;; ls <- dgetr op (rq_spatial rq) ;; Ok (concat ls).

  (** The memories as the allocator visits them, and the top memory of every operand,
      memory_allocator.py:90-93 *)
  Definition node_of (l : level) : memlevel := mkMem (lv_id l) (ml_size (lv_mem l)) (lv_operands l).
  Definition allocator_view : result (dict string nat * list memlevel) :=
    tops <- rmap (fun mem_op => l <- get_operand_top_level (rq_hierarchy rq) mem_op ;; Ok (mem_op, lv_id l)) (map snd (l_links (rq_layer rq))) ;;
    order <- topological_sort (h_graph (rq_hierarchy rq)) ;;
    Ok (tops, map node_of (pick (h_list (rq_hierarchy rq)) order)).

  (** [generate_temporal_mappings], temporal_mapping_generator_stage.py:52-82: the mappings found, and
      how the search ends.  [sizes] are the layer's dimensions, [o] is the ordering given by the user;
      [fuel] bounds the generation of orderings. *)
  Definition stage_mappings (factorint : Z -> list (Z * Z)) (lim : option Z) (sizes : list (string * Z)) (mt : mapping_type) (fuel : nat) (o : ordering)
    : result (list (dict string (list (list tloop))) * option exn) :=
    unrolled <- spatial_loop_dim_size ;;
    view <- allocator_view ;;
    Ok (temporal_stage factorint lim sizes unrolled (rq_layer rq) (rq_spatial rq) mt (fst view) (snd view) fuel o).
  (** without an ordering given by the user *)
  Definition loma_mappings (factorint : Z -> list (Z * Z)) (lim : option Z) (sizes : list (string * Z)) (mt : mapping_type) (fuel : nat)
    : result (list (dict string (list (list tloop))) * option exn) :=
    stage_mappings factorint lim sizes mt fuel [].

  (** [CostModelStage.run]; [fuel] bounds the passes of the merge of temporal_mapping.py:67-93 *)
  Definition evaluate_mapping (fuel ident : nat) (name : string) (tm : dict string (list (list tloop))) : result eval :=
    ci <- prepare (with_temporal tm) fuel ;; cme_of ci ident name.

  (** The stages one below the other: the best evaluation according to [less] *)
  Definition mapper_run (factorint : Z -> list (Z * Z)) (lim : option Z) (sizes : list (string * Z)) (mt : mapping_type) (less : eval -> eval -> bool)
      (fuel fuel' ident : nat) (name : string) : result (eval * list (eval * dict string (list (list tloop)))) :=
    es <- temporal_run (fun _ _ : unit => outcome (loma_mappings factorint lim sizes mt fuel)) (fun _ _ => evaluate_mapping fuel' ident name) tt tt ;;
    minimal_stage less false es.
End Search.
