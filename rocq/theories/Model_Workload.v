(** Model of workload graphs: zigzag/workload/dnn_workload.py, zigzag/workload/onnx_workload.py,
    zigzag/workload/dummy_node.py, and the parts of zigzag/parser/workload_factory.py and
    zigzag/parser/onnx that determine the sources of a node.

    Nodes have no [__eq__] or [__hash__] of their own, so a node of a graph is one object; here it
    is the position in the list it was created from. *)
From Verif Require Import Base Model_Graph.
Local Open Scope string_scope.
Local Open Scope list_scope.
Local Open Scope result_scope.

(** * Workloads described by the user *)

(** What matters of a layer's description: its identifier and its [operand_source]. *)
Record layerspec := mkLayerspec { ls_id : Z; ls_source : dict string Z }.

(** [LayerNodeFactory.create_operand_source], workload_factory.py:158-164 *)
Definition create_operand_source (id : Z) (source : dict string Z) : dict string Z :=
  filter (fun x => negb (eqb (snd x) id)) source.
(** [LayerNodeFactory.create_constant_operands], workload_factory.py:153-156 *)
Definition create_constant_operands (id : Z) (source : dict string Z) : list string :=
  keys (filter (fun x => eqb (snd x) id) source).

(** The graph and the table of nodes by identifier *)
Definition wstate : Type := (graph nat * dict Z nat)%type.

(** One round of [DNNWorkload.__init__], dnn_workload.py:21-33 *)
Definition dnn_step (st : wstate) (x : nat * layerspec) : result wstate :=
  let '(i, l) := x in
  let '(g, objs) := st in
  let objs := dset (ls_id l) i objs in
  let g := add_node i g in
  edges <- rmap (fun x : string * Z => match dget (snd x) objs with Some parent => Ok (parent, i) | None => Err AssertionError end)
             (create_operand_source (ls_id l) (ls_source l)) ;;
  Ok (add_edges_from edges g, objs).
(** [DNNWorkload.__init__], dnn_workload.py:12-33 *)
Definition dnn_workload (ls : list layerspec) : result (graph nat) :=
  st <- rfold dnn_step (no_graph, []) (combine (seq 0 (length ls)) ls) ;;
  Ok (fst st).

(** * Workloads from ONNX models *)

(** What matters of an ONNX node: whether there is a parser for its operator
    (onnx_model_parser.py:25-31, 53-57), and the names of its inputs and outputs. *)
Record onnxnode := mkOnnxnode { on_real : bool; on_inputs : list string; on_outputs : list string }.

(** [get_node_predecessors], onnx_operator_parser.py:66-74 *)
Definition get_node_predecessors (inputs : list string) (nodes_outputs : list (nat * list string)) : list nat :=
  flat_map (fun x => map fst (filter (fun n => memb x (snd n)) nodes_outputs)) inputs.

(** [get_operand_source_user_format], onnx_operator_parser.py:76-90 *)
Definition get_operand_source_user_format (id : nat) (predecessors : list nat) : result (dict string nat) :=
  match predecessors with
  | [] => Ok [("W", id); ("I", id)]
  | [p] => Ok [("W", id); ("I", p)]
  | [p; q] => Ok [("W", q); ("I", p)]
  | _ => Err ValueError
  end.
(** [DummyNode.__init__], dummy_node.py:21-31 *)
Definition dummy_source (predecessors : list nat) : dict string nat :=
  match predecessors with
  | [] => []
  | [p] => [("I", p)]
  | p :: q :: _ => [("I", p); ("W", q)]
  end.
(** The [input_operand_source] of the node that a parser creates: conv_parser.py:48-61 and
    gemm_parser.py:29, 41 followed by workload_factory.py:158-164, or default_node_parser.py:12-20. *)
Definition node_source (id : nat) (n : onnxnode) (nodes_outputs : list (nat * list string)) : result (dict string nat) :=
  let predecessors := get_node_predecessors (on_inputs n) nodes_outputs in
  if on_real n then
    source <- get_operand_source_user_format id predecessors ;;
    Ok (filter (fun x => negb (eqb (snd x) id)) source)
  else Ok (dummy_source predecessors).

(** [ONNXWorkload.add], onnx_workload.py:21-32.  The table of nodes by identifier maps positions
    to themselves, so it is the list of nodes added so far; the edges found so far are added again
    in each round, which changes nothing. *)
Definition onnx_add (g : graph nat) (id : nat) (source : dict string nat) : result (graph nat) :=
  let g := add_node id g in
  rfold (fun g x => if memb (snd x) (g_nodes g) then Ok (add_edge (snd x) id g) else Err KeyError) g source.

(** [ONNXModelParser.parse_workload_from_onnx_model_and_mapping], onnx_model_parser.py:59-108;
    what the parsers do apart from finding sources is in Model_Onnx. *)
Definition onnx_step (st : graph nat * list (nat * list string)) (x : nat * onnxnode) : result (graph nat * list (nat * list string)) :=
  let '(g, outs) := st in
  let '(id, n) := x in
  let outs := outs ++ [(id, on_outputs n)] in
  source <- node_source id n outs ;;
  g <- onnx_add g id source ;;
  Ok (g, outs).
Definition onnx_workload (ns : list onnxnode) : result (graph nat) :=
  st <- rfold onnx_step (no_graph, []) (combine (seq 0 (length ns)) ns) ;;
  Ok (fst st).

(** * Removing dummy nodes *)

Section Dummies.
  Context {A : Type} `{EqB A}.
  (** Which nodes are [DummyNode]s *)
  Variable dummy : A -> bool.

  (** The edges around one dummy node, onnx_workload.py:44-47.  The successors and predecessors
      are iterated while edges are added; the dummy node's own entries do not change by that. *)
  Definition bypass (g : graph A) (d : A) : graph A :=
    fold_left (fun g s => fold_left (fun g p => add_edge p s g) (predecessors g d) g) (successors g d) g.
  (** [ONNXWorkload.get_copy_no_dummy], onnx_workload.py:34-52 *)
  Definition get_copy_no_dummy (g : graph A) : result (graph A) :=
    let dummies := filter dummy (g_nodes g) in
    let g := remove_nodes_from dummies (fold_left bypass dummies g) in
    if forallb (fun x => negb (dummy x)) (g_nodes g) then Ok g else Err AssertionError.
End Dummies.

(** The workload of an ONNX model without dummy nodes, as used by
    stages/exploit_data_locality_stages.py:39 *)
Definition is_dummy (ns : list onnxnode) (i : nat) : bool :=
  match nth_error ns i with Some n => negb (on_real n) | None => false end.
Definition onnx_layers (ns : list onnxnode) : result (graph nat) :=
  g <- onnx_workload ns ;; get_copy_no_dummy (is_dummy ns) g.

(** * Evaluating the layers *)

(** [WorkloadStage.run], stages/workload_iterator.py:31-52: dummy nodes and, on in-memory compute
    arrays, pooling and addition layers ([skipped]) are passed over; [evaluate] is what the
    sub-stages yield for a layer.  A generator that fails after some results is modelled by the
    failure. *)
Definition workload_stage {A R} `{EqB A} (dummy skipped : A -> bool) (evaluate : A -> result (list R)) (g : graph A) : result (list (R * A)) :=
  order <- topological_sort g ;;
  rfold (fun out layer =>
    if dummy layer then Ok out else if skipped layer then Ok out else
    rs <- evaluate layer ;; Ok (out ++ map (fun r => (r, layer)) rs)) [] order.
