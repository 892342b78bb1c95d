(** C41, C42: layers read from ONNX models. *)
From Verif Require Import Base Model_Pr Model_Text Model_Layer Model_Onnx Spec_Pr Spec_Loma Spec_Layer Spec_Onnx
  Proof_Elements Proof_Onnx Proof_Gemm.
Open Scope string_scope.
Open Scope list_scope.
Open Scope Z_scope.

(** * C41 *)

(** Every convolution is read and built, with the windows of the two axes exchanged: the
    layer computes the convolution whose horizontal axis has the vertical axis's kernel,
    stride, dilation and padding.  Operations, outputs and weights are counted right all the
    same; inputs as the exchanged convolution reads them. *)
Theorem C41_axes_exchanged c attrs tensors input output order links :
  conv_positive c -> attributes_of attrs c -> precisions_plain attrs ->
  dget input tensors = Some (input_shape c) -> dget output tensors = Some (output_shape c) ->
  (forall l, Permutation (order l) l) ->
  exists nd ln, parse_conv attrs tensors input output = Ok nd /\ layer_node_of order links nd = Ok ln /\
    computes (exchanged c) nd ln /\
    ln_macs ln = conv_operations c /\
    dget "O" (ln_size_elem ln) = Some (zprod (output_shape c)) /\
    dget "W" (ln_size_elem ln) = Some (cv_groups c * cv_out c * cv_in c * ax_kernel (cv_y c) * ax_kernel (cv_x c)) /\
    (axis_ok (cv_y (exchanged c)) -> axis_ok (cv_x (exchanged c)) ->
     dget "I" (ln_size_elem ln) = Some (inputs_read (exchanged c))).
Proof. exact (conv_layer c attrs tensors input output order links). Qed.
Print Assumptions C41_axes_exchanged.

(** For windows that are alike along both axes the layer computes the convolution itself,
    and its inputs are counted as read wherever the axes are in the exact region.  Missing
    for the full property: windows that differ, where it is false. *)
Theorem C41_square_partial c attrs tensors input output order links :
  conv_positive c -> attributes_of attrs c -> precisions_plain attrs -> square c ->
  dget input tensors = Some (input_shape c) -> dget output tensors = Some (output_shape c) ->
  (forall l, Permutation (order l) l) ->
  exists nd ln, parse_conv attrs tensors input output = Ok nd /\ layer_node_of order links nd = Ok ln /\
    computes c nd ln /\ ln_macs ln = conv_operations c /\
    (axis_ok (cv_y c) -> axis_ok (cv_x c) -> dget "I" (ln_size_elem ln) = Some (inputs_read c)).
Proof. exact (conv_square_layer c attrs tensors input output order links). Qed.
Print Assumptions C41_square_partial.

Example C41_met : conv_positive usual_conv /\ square usual_conv /\
  attributes_of (conv_attributes usual_conv) usual_conv /\ precisions_plain (conv_attributes usual_conv) /\
  axis_ok (cv_y usual_conv) /\ axis_ok (cv_x usual_conv) /\
  exists nd ln, parse_conv (conv_attributes usual_conv) (conv_tensors usual_conv) "x" "y" = Ok nd /\
    layer_node_of same_order [] nd = Ok ln /\ ln_macs ln = 118013952 /\ dget "I" (ln_size_elem ln) = Some (3 * 224 * 224).
Proof.
  split; [repeat split|]. split; [repeat split|].
  split; [exact (proj1 (conv_attributes_ok usual_conv))|]. split; [exact (proj1 (proj2 (conv_attributes_ok usual_conv)))|].
  split; [exact usual_axis|]. split; [exact usual_axis|].
  eexists. eexists. split; [vm_compute; reflexivity|]. split; [vm_compute; reflexivity|]. split; vm_compute; reflexivity.
Qed.

(** A kernel one high and three wide on an 8 by 8 input, 8 by 6 outputs: all 64 inputs are
    read, the layer has 48. *)
Theorem C41_wide_kernel_refuted :
  conv_positive flat_conv /\ attributes_of (conv_attributes flat_conv) flat_conv /\
  axis_ok (cv_y flat_conv) /\ axis_ok (cv_x flat_conv) /\ inputs_read flat_conv = 64 /\
  exists nd ln, parse_conv (conv_attributes flat_conv) (conv_tensors flat_conv) "x" "y" = Ok nd /\
    layer_node_of same_order [] nd = Ok ln /\ dget "I" (ln_size_elem ln) = Some 48 /\ ~ computes flat_conv nd ln.
Proof. exact flat_example. Qed.
Print Assumptions C41_wide_kernel_refuted.

(** * C42 *)

(** Every product of matrices, with up to two batch dimensions and the first operand
    possibly stored transposed, is read and built; its loops are the inner dimension, rows,
    columns and batches, with their sizes; operations are their product; its operands are
    subscripted and sized as the matrices are, the second with the batches unless it is
    constant. *)
Theorem C42_product p t attrs tensors weights predecessors input weight output order links :
  product_positive p -> transposition attrs p t -> precisions_plain attrs ->
  dget input tensors = Some (left_shape p t) -> dget output tensors = Some (result_shape p) ->
  (forall l, Permutation (order l) l) ->
  exists nd ln, parse_gemm attrs tensors weights predecessors input weight output = Ok nd /\ layer_node_of order links nd = Ok ln /\
    ln_operands ln = ["O"; "I"; "W"] /\
    ln_sizes ln = [("C", pd_inner p); ("D", pd_rows p); ("K", pd_columns p)] ++ combine (batch_loops p) (pd_batch p) /\
    ln_macs ln = product_operations p /\
    (let tokens := disassembly (create_equation (nd_equation nd)) in
     get_r_layer_dims tokens "O" = Ok (batch_loops p ++ ["D"; "K"]) /\
     get_r_layer_dims tokens "I" = Ok (batch_loops p ++ ["D"; "C"]) /\
     get_r_layer_dims tokens "W" = Ok ((if Nat.ltb predecessors 2 then [] else batch_loops p) ++ ["C"; "K"])) /\
    dget "O" (ln_size_elem ln) = Some (zprod (result_shape p)) /\
    dget "I" (ln_size_elem ln) = Some (zprod (left_shape p t)) /\
    dget "W" (ln_size_elem ln) = Some ((if Nat.ltb predecessors 2 then 1 else zprod (pd_batch p)) * pd_inner p * pd_columns p).
Proof. exact (gemm_layer p t attrs tensors weights predecessors input weight output order links). Qed.
Print Assumptions C42_product.

(** The dimensions in the equation are those with sizes. *)
Theorem C42_dimensions p t attrs tensors weights predecessors input weight output order links nd ln :
  product_positive p -> transposition attrs p t -> precisions_plain attrs ->
  dget input tensors = Some (left_shape p t) -> dget output tensors = Some (result_shape p) ->
  (forall l, Permutation (order l) l) ->
  parse_gemm attrs tensors weights predecessors input weight output = Ok nd -> layer_node_of order links nd = Ok ln ->
  forall d, (exists op subs, In op (ln_operands ln) /\ get_r_layer_dims (disassembly (create_equation (nd_equation nd))) op = Ok subs /\ In d subs)
            <-> In d (keys (ln_sizes ln)).
Proof. exact (gemm_dims p t attrs tensors weights predecessors input weight output order links nd ln). Qed.
Print Assumptions C42_dimensions.

(** A first operand without a known shape is refused, whatever the weights: the shape is
    never inferred. *)
Theorem C42_shape_needed attrs tensors weights predecessors input weight output :
  dget input tensors = Some [] -> exists e, parse_gemm attrs tensors weights predecessors input weight output = Err e.
Proof. exact (shape_needed attrs tensors weights predecessors input weight output). Qed.
Print Assumptions C42_shape_needed.

Example C42_met : product_positive four_products /\ transposition [] four_products false /\
  transposition [("transA", AInt 1)] stored_transposed true /\
  (exists nd ln, parse_gemm [] [("a", [4; 8; 16]); ("y", [4; 8; 32])] [] 2 "a" "b" "y" = Ok nd /\ layer_node_of same_order [] nd = Ok ln /\
     nd_equation nd = "O[b][d][k]+=I[b][d][c]*W[b][c][k]" /\ ln_macs ln = 16384 /\ dget "W" (ln_size_elem ln) = Some 2048) /\
  (exists nd ln, parse_gemm [("transA", AInt 1)] [("a", [16; 8]); ("y", [8; 32])] [] 1 "a" "b" "y" = Ok nd /\ layer_node_of same_order [] nd = Ok ln /\
     nd_equation nd = "O[d][k]+=I[d][c]*W[c][k]" /\ ln_macs ln = 4096 /\ dget "I" (ln_size_elem ln) = Some 128).
Proof. exact gemm_example. Qed.
