(** Model of the bandwidth that an evaluation reports for a memory: zigzag/cost_model/cost_model.py:1115-1168
    ([get_inst_bandwidth], [get_total_inst_bandwidth]).  The maxima of cost_model.py:1037-1041 are not modelled: they
    are kept in attributes that nothing reads. *)
From Coq Require Import QArith Qround.
From Verif Require Import Base Model_Alloc Model_Decouple Model_DataMove Model_Mapping Model_Links Model_SpatialMap Model_Cost Model_Latency Model_Hierarchy Model_Evaluate.
Local Open Scope result_scope.

Section InstBw.
  Variables (h : hierarchy) (ci : inputs).

  (** What the evaluation has recorded about loading: the steps of [calc_latency], cost_model.py:607-629 *)
  Definition recorded : result loading :=
    ind <- individual ci od_effective_bit ;;
    sh <- shared ci ind ;;
    fl <- calc_double_buffer_flag ci ind sh ;;
    '(allowed, real) <- transfer_cycles ci (fst fl) ;;
    stall <- stall_slack_comb ci allowed real ;;
    loading_all ci real stall.

  (** [loading_bw_during_computation.get(port, {}).get(memory_operand, 0)] *)
  Definition borrowed_by (st : loading) (pt : port) (mem_op : string) : Z :=
    match dget (pt_id pt) (lo_bw st) with
    | Some d => match dget mem_op d with Some b => b | None => 0%Z end
    | None => 0%Z
    end.
  (** cost_model.py:1143-1155, one port *)
  Definition add_borrowed (st : loading) (l : level) (mem_op : string) (scaling : Q) (bw : four Z) (pt : port) : result (four Z) :=
    if existsb (fun s => eqb (fst (fst s)) mem_op) (pt_served pt) then
      let k := if memb "O"%string (lv_operands l) then WrHigh else RdLow in
      x <- four_get k bw ;;
      Ok (four_set k (x + Qceiling (inject_Z (borrowed_by st pt mem_op) * scaling))%Z bw)
    else Ok bw.
  (** [get_inst_bandwidth], cost_model.py:1115-1156.  The memory is given by its position in
      [mem_level_list]: levels of a hierarchy are equal ([MemoryLevel.__eq__], memory_level.py:155-163)
      only if they are the same, since they compare the numbers of their operands' levels. *)
  Definition inst_bandwidth (st : loading) (i : nat) (mem_op : string) (scaling : Q) : result (four Z) :=
    l <- of_option AssertionError (nth_error (h_list h) i) ;;
    ls <- get_memory_levels h mem_op ;;
    lv <- of_option ValueError (index_of i (map lv_id ls)) ;;
    start <- four_way 0%Z (Some (map (fun k => (k, 0%Z)) directions)) ;;
    op <- mem_to_layer_op (in_links ci) mem_op ;;
    p <- unit_mem (in_map_int ci) op lv ;;
    need <- rmap (fun k => b <- attr_of p BwInst k ;; x <- pdiv (inject_Z b * scaling) (in_cpo ci) ;; Ok (k, Qceiling x)) directions ;;
    scaled <- four_way 0%Z (Some need) ;;
    bw <- four_add 0%Z Z.add start scaled ;;
    rfold (add_borrowed st l mem_op scaling) bw (ml_ports (lv_mem l)).
  (** [get_total_inst_bandwidth], cost_model.py:1158-1168 *)
  Definition total_inst_bandwidth (st : loading) (i : nat) (scaling : Q) : result (four Z) :=
    l <- of_option AssertionError (nth_error (h_list h) i) ;;
    start <- four_way 0%Z (Some (map (fun k => (k, 0%Z)) directions)) ;;
    rfold (fun total mem_op => b <- inst_bandwidth st i mem_op scaling ;; four_add 0%Z Z.add total b) start (lv_operands l).
End InstBw.

(** The same for an evaluation of a request, cost_model_evaluation.py:40-61 *)
Definition reported_bandwidth (rq : request) (fuel : nat) (i : nat) (mem_op : string) (scaling : Q) : result (four Z) :=
  ci <- prepare rq fuel ;;
  _ <- evaluate ci ;;
  st <- recorded ci ;;
  inst_bandwidth (rq_hierarchy rq) ci st i mem_op scaling.
Definition reported_total (rq : request) (fuel : nat) (i : nat) (scaling : Q) : result (four Z) :=
  ci <- prepare rq fuel ;;
  _ <- evaluate ci ;;
  st <- recorded ci ;;
  total_inst_bandwidth (rq_hierarchy rq) ci st i scaling.
