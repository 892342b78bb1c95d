(** Whole ONNX models: zigzag/parser/onnx/onnx_model_parser.py, with the parts of the operator parsers
    that Model_Onnx and Model_Workload leave out, and [get_hardware_performance_zigzag] (zigzag/api.py)
    on such a model.

    A model is given after shape inference and with its branches unrolled
    ([parse_dynamic_onnx_model], utils.py, is not modelled). *)
From Coq Require Import QArith.
From Verif Require Import Base Model_Text Model_Graph Model_Layer Model_MapFile Model_Workload Model_WorkFile Model_Onnx
  Model_Alloc Model_Cacti Model_AccelFile Model_TemporalStage Model_Cme Model_Pipeline Model_Run.
Local Open Scope string_scope.
Local Open Scope list_scope.
Local Open Scope Z_scope.
Local Open Scope result_scope.

(** [NodeProto]: a missing name is empty. *)
Record model_node := mkModelNode {
  mn_name : string; mn_type : string; mn_inputs : list string; mn_outputs : list string; mn_attrs : list (string * attribute) }.
(** [ModelProto]: the nodes, the shapes of the tensors as in Model_Onnx, and those of the initializers *)
Record onnx_model := mkModel { om_nodes : list model_node; om_tensors : list (string * list Z); om_weights : list (string * list Z) }.

(** [PARSER_MAPPING] and [get_parser_class], onnx_model_parser.py:24-29, 53-57 *)
Inductive op_parser := ConvOp | GemmOp | DefaultOp.
Definition parser_of (type : string) : op_parser :=
  if memb type ["QLinearConv"; "Conv"] then ConvOp else if memb type ["MatMul"; "Gemm"] then GemmOp else DefaultOp.
(** The part of a node that Model_Workload reads *)
Definition plain_node (n : model_node) : onnxnode :=
  mkOnnxnode (match parser_of (mn_type n) with DefaultOp => false | _ => true end) (mn_inputs n) (mn_outputs n).

(** [self.node.name], onnx_operator_parser.py:31-32 *)
Definition node_name (id : nat) (n : model_node) : string :=
  if eqb (mn_name n) "" then ("Op" ++ string_of_Z (Z.of_nat id))%string else mn_name n.

(** [node.input[0]] and [node.output[0]], utils.py:178-186 *)
Definition first_of_list (l : list string) : result string := of_option IndexError (nth_error l 0).

(** What the parsers pass to [LayerNodeFactory], conv_parser.py:48-104 and gemm_parser.py:29-85; a key
    that the data do not have is read as null (workload_factory.py:166-195). *)
Definition onnx_layer_data (id : nat) (n : model_node) (nd : node_data) (source : dict string nat) : layer_data :=
  {| ld_id := Z.of_nat id; ld_name := Some (node_name id n); ld_type := mn_type n; ld_equation := nd_equation nd;
     ld_relations := nd_relations nd; ld_dims := nd_loop_dims nd; ld_sizes := nd_loop_sizes nd;
     ld_precision := nd_precision nd; ld_source := map (fun x => (fst x, Z.of_nat (snd x))) source;
     ld_pr_dims := nd_pr_loop_dims nd; ld_pr_sizes := nd_pr_loop_sizes nd;
     ld_padding := match nd_padding nd with None => None | Some l => Some (map (fun p => [fst p; snd p]) l) end |}.

(** [parser.run()], onnx_model_parser.py:84-93: a layer, or [None] for a [DummyNode].  Of several errors
    of one node another one may be reported than by the code; a second input that is missing counts as
    one that is no initializer. *)
Definition create_node (order : list string -> list string) (mapping : list Model_MapFile.entry) (m : onnx_model)
    (id : nat) (n : model_node) (nodes_outputs : list (nat * list string)) : result (option built_layer) :=
  let predecessors := get_node_predecessors (mn_inputs n) nodes_outputs in
  let build (parse : string -> string -> result node_data) :=
    input <- first_of_list (mn_inputs n) ;;
    output <- first_of_list (mn_outputs n) ;;
    nd <- parse input output ;;
    source <- get_operand_source_user_format id predecessors ;;
    l <- create_layer order mapping (onnx_layer_data id n nd source) ;;
    Ok (Some l) in
  match parser_of (mn_type n) with
  | ConvOp => build (parse_conv (mn_attrs n) (om_tensors m))
  | GemmOp => build (fun input output => parse_gemm (mn_attrs n) (om_tensors m) (om_weights m) (length predecessors) input (nth 1 (mn_inputs n) "") output)
  | DefaultOp => Ok None
  end.

(** [parse_workload_from_onnx_model_and_mapping], onnx_model_parser.py:59-108 *)
Definition model_step (order : list string -> list string) (mapping : list Model_MapFile.entry) (m : onnx_model)
    (st : graph nat * list (nat * list string) * list (option built_layer)) (x : nat * model_node)
  : result (graph nat * list (nat * list string) * list (option built_layer)) :=
  let '(gs, ls) := st in
  let '(id, n) := x in
  l <- create_node order mapping m id n (snd gs ++ [(id, mn_outputs n)]) ;;
  gs <- onnx_step gs (id, plain_node n) ;;
  Ok (gs, ls ++ [l]).
Definition parse_nodes (order : list string -> list string) (mapping : list Model_MapFile.entry) (m : onnx_model) : result (list (option built_layer) * graph nat) :=
  st <- rfold (model_step order mapping m) (no_graph, [], []) (combine (seq 0 (length (om_nodes m))) (om_nodes m)) ;;
  Ok (snd st, fst (fst st)).
(** [run], onnx_model_parser.py:44-51 *)
Definition parse_onnx (order : list string -> list string) (m : onnx_model) (mapping_file : list raw_entry) : result (list (option built_layer) * graph nat) :=
  mapping <- parse_mapping mapping_file ;;
  parse_nodes order mapping m.

(** The layer of a node, and whether there is none, workload_iterator.py:33-35 *)
Definition onnx_layer_at (ls : list (option built_layer)) (i : nat) : result built_layer :=
  match nth_error ls i with Some (Some l) => Ok l | Some None => Err AttributeError | None => Err IndexError end.
Definition no_layer (ls : list (option built_layer)) (i : nat) : bool := match nth_error ls i with Some None => true | _ => false end.

(** [get_hardware_performance_zigzag] with an ONNX model, api.py:29-167; as [run] of Model_Run *)
Definition run_onnx (order1 order2 dim_order visit : list string -> list string) (pick_dim : string -> dict string Q -> string)
    (pick_oa : string -> dict string (dict string Q) -> string) (factorint : Z -> list (Z * Z)) (lim : option Z) (mt : mapping_type) (mix : bool) (nb : nat) (free : bool)
    (fuel fuel' : nat) (order : list string -> list string) (bank : Z -> Z -> Z -> Z -> result Q) (adc : Z -> Q) (sim : simulator) (tech : Z) (known : pool)
    (hardware : raw_accel) (m : onnx_model) (mapping : list raw_entry) (opt : string) :=
  _ <- opt_stage opt ;;
  w <- parse_onnx order m mapping ;;
  x <- parse_accelerator bank adc sim tech known hardware ;;
  let a := fst x in
  let layer := onnx_layer_at (fst w) in
  api (no_layer (fst w)) (fun _ => false) (snd w) (spatials order1 order2 dim_order visit pick_dim pick_oa mix nb a layer) (convert visit free a layer)
    (temporals factorint lim mt fuel layer) (evaluate fuel' a) order opt.
