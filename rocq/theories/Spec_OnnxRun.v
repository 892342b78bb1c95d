(** Independent vocabulary for C85: ONNX models whose runs are sure of their course, and the layers that
    their nodes are. *)
From Verif Require Import Base Model_Text Model_Layer Model_MapFile Model_Workload Model_WorkFile Model_AccelFile Model_Onnx Model_OnnxRun
  Spec_Layer Spec_MapFile Spec_Workload Spec_WorkFile Spec_Onnx Spec_Run.
Open Scope string_scope.
Open Scope list_scope.
Open Scope Z_scope.

(** * What the nodes compute *)

Inductive operator := Convolution (c : conv) | Product (p : product).

(** The first tensor of a list has the shape. *)
Definition first_shape (m : onnx_model) (names : list string) (shape : list Z) : Prop :=
  exists x rest, names = x :: rest /\ dget x (om_tensors m) = Some shape.
(** Node [n] is this convolution or product, by its type, attributes and shapes (C41, C42). *)
Definition is_operator (m : onnx_model) (n : model_node) (o : operator) : Prop :=
  match o with
  | Convolution c => In (mn_type n) ["Conv"; "QLinearConv"] /\ conv_positive c /\ attributes_of (mn_attrs n) c /\
      first_shape m (mn_inputs n) (input_shape c) /\ first_shape m (mn_outputs n) (output_shape c)
  | Product p => In (mn_type n) ["Gemm"; "MatMul"] /\ product_positive p /\ exists t, transposition (mn_attrs n) p t /\
      first_shape m (mn_inputs n) (left_shape p t) /\ first_shape m (mn_outputs n) (result_shape p)
  end.
(** Nodes of other types have no cost. *)
Definition costs_nothing (n : model_node) : Prop := ~ In (mn_type n) ["Conv"; "QLinearConv"; "Gemm"; "MatMul"].

(** * The layers that they are *)

(** Precisions in bits, with their defaults *)
Definition bits (attrs : list (string * attribute)) (name : string) (default : Z) : Z :=
  match dget name attrs with Some (AInt z) => z | _ => default end.
Definition weight_bits attrs := bits attrs "weight_size" 8.
Definition act_bits attrs := bits attrs "act_size" 8.
Definition output_bits attrs := bits attrs "output_size" (2 * act_bits attrs).

(** O = W * I for convolutions, O = I * W for products *)
Definition equation (out first second : written) : written_equation :=
  mkWE out "" "+=" "" first [mkFactor "" "*" "" second] "".
Definition batch_subs (p : product) : list string := firstn (length (pd_batch p)) ["b"; "h"].
Definition equation_for (o : operator) (constant : bool) : written_equation :=
  match o with
  | Convolution _ => equation (mkWritten "O" ["b"; "g"; "k"; "oy"; "ox"]) (mkWritten "W" ["g"; "k"; "c"; "fy"; "fx"]) (mkWritten "I" ["b"; "g"; "c"; "iy"; "ix"])
  | Product p => equation (mkWritten "O" (batch_subs p ++ ["d"; "k"])) (mkWritten "I" (batch_subs p ++ ["d"; "c"]))
      (mkWritten "W" ((if constant then [] else batch_subs p) ++ ["c"; "k"]))
  end.
(** [x] is the position read, stride * output + dilation * kernel. *)
Definition position (x o k : string) (a : axis) : written_relation :=
  mkWR x "" "" (mkTerm (Some (ax_stride a, "", "")) o) "" "" (mkTerm (Some (ax_dilation a, "", "")) k).
Definition relations_for (o : operator) : list written_relation :=
  match o with
  | Convolution c => [position "ix" "ox" "fx" (cv_x c); position "iy" "oy" "fy" (cv_y c)]
  | Product _ => []
  end.
Definition loops_for (o : operator) : list (string * Z) :=
  match o with
  | Convolution c => [("B", cv_batch c); ("K", cv_out c); ("G", cv_groups c); ("OX", ax_out (cv_x c)); ("OY", ax_out (cv_y c)); ("C", cv_in c);
      ("FX", ax_kernel (cv_x c)); ("FY", ax_kernel (cv_y c))]
  | Product p => [("C", pd_inner p); ("D", pd_rows p); ("K", pd_columns p)] ++ combine (batch_loops p) (pd_batch p)
  end.
(** The multiplications of the operator *)
Definition operations (o : operator) : Z := match o with Convolution c => conv_operations c | Product p => product_operations p end.
(** The windows of the two axes of a convolution are exchanged (C41). *)
Definition taken_as (o : operator) : operator := match o with Convolution c => Convolution (exchanged c) | Product p => Product p end.

(** The nodes that feed a node are the sources of its operands; what has none is constant, which is said by
    the node itself. *)
Definition sources_for (i : nat) (feeding : list nat) : dict string Z :=
  match feeding with
  | p :: q :: _ => [("W", Z.of_nat q); ("I", Z.of_nat p)]
  | [p] => [("W", Z.of_nat i); ("I", Z.of_nat p)]
  | [] => [("W", Z.of_nat i); ("I", Z.of_nat i)]
  end.
(** Fewer than two nodes feed the node: the second operand is constant. *)
Definition constant_second (feeding : list nat) : bool := (length feeding <? 2)%nat.

(** Node [n] at position [i], as it would be described in a workload file (C76); [o] has its windows exchanged already. *)
Definition node_as (i : nat) (n : model_node) (feeding : list nat) (o : operator) : raw_layer :=
  let attrs := mn_attrs n in
  let loops := loops_for o in
  mkRawLayer (Some (Z.of_nat i)) (Some (Some (if string_dec (mn_name n) "" then "Op" ++ string_of_Z (Z.of_nat i) else mn_name n)%string)) (Some (mn_type n))
    (Some (equation_text (equation_for o (constant_second feeding)))) (Some (map relation_text (relations_for o))) (Some (map fst loops)) (Some (map snd loops))
    (Some [("W", match o with Convolution _ => weight_bits attrs | Product _ => if constant_second feeding then weight_bits attrs else act_bits attrs end);
           ("I", act_bits attrs); ("O_final", act_bits attrs); ("O", output_bits attrs)])
    (Some (sources_for i feeding))
    (Some (match o with Convolution _ => Some ["IX"; "IY"] | Product _ => None end))
    (Some (match o with Convolution c => Some [ax_in (cv_x c); ax_in (cv_y c)] | Product _ => None end))
    (Some (match o with Convolution c => Some [[ax_before (cv_x c); ax_after (cv_x c)]; [ax_before (cv_y c); ax_after (cv_y c)]] | Product _ => None end)).

(** * Models whose runs are sure of their course *)

Definition graph_of (m : onnx_model) : list onnxnode :=
  map (fun n => mkOnnxnode (memb (mn_type n) ["Conv"; "QLinearConv"; "Gemm"; "MatMul"]) (mn_inputs n) (mn_outputs n)) (om_nodes m).
(** Node [i] is the operator [o], described by [r]. *)
Definition node_at (m : onnx_model) (meaning : list (option operator)) (i : nat) (o : operator) (r : raw_layer) : Prop :=
  exists n, nth_error (om_nodes m) i = Some n /\ nth_error meaning i = Some (Some o) /\ r = node_as i n (feeding (graph_of m) i) (taken_as o).

Record usable_model (hardware : raw_accel) (m : onnx_model) (mapping : list raw_entry) (meaning : list (option operator)) : Prop := {
  um_accelerator : usable_accelerator hardware;
  um_nodes : Forall2 (fun n x => match x with
      | Some o => is_operator m n o /\ precisions_plain (mn_attrs n) /\ 0 <= weight_bits (mn_attrs n) /\ 0 <= act_bits (mn_attrs n) /\ 0 <= output_bits (mn_attrs n)
      | None => costs_nothing n end) (om_nodes m) meaning;
  (** as ONNX demands; at most two nodes feed a convolution or product *)
  um_order : executable (graph_of m);
  um_sources : forall i o, nth_error meaning i = Some (Some o) -> (length (feeding (graph_of m) i) <= 2)%nat;
  um_mapping : proper_file mapping /\ exists data, parse_mapping mapping = Ok data;
  um_entries : forall i o r t p en, node_at m meaning i o r -> rl_type r = Some t -> rl_precision r = Some p -> Spec_MapFile.chosen (called r) t (map normalise mapping) en ->
    usable_entry hardware en /\ one_element hardware (en_links en) p }.

(** The positions of the convolutions and products *)
Definition operators_of (meaning : list (option operator)) : list nat :=
  filter (fun i => match nth_error meaning i with Some (Some _) => true | _ => false end) (seq 0 (length meaning)).
(** Chains of nodes, each fed by the one before; of the nodes that feed one the first two count. *)
Inductive chain (ns : list onnxnode) : nat -> nat -> Prop :=
| chain_one u v : In u (firstn 2 (feeding ns v)) -> chain ns u v
| chain_more u v w : In u (firstn 2 (feeding ns v)) -> chain ns v w -> chain ns u w.
