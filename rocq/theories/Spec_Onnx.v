(** What ONNX says about convolutions and matrix products, for C41 and C42. *)
From Verif Require Import Base Model_Layer Model_Onnx Spec_Pr Spec_Loma Spec_Layer.
Open Scope string_scope.
Open Scope list_scope.
Open Scope Z_scope.

(** A two-dimensional ONNX convolution: batch, groups, input and output channels per group,
    and for the vertical and horizontal axis the sizes of input, output and kernel, stride,
    dilation and padding before and after. *)
Record axis := mkAxis {
  ax_in : Z; ax_out : Z; ax_kernel : Z; ax_stride : Z; ax_dilation : Z; ax_before : Z; ax_after : Z }.
Record conv := mkConv {
  cv_batch : Z; cv_groups : Z; cv_in : Z; cv_out : Z; cv_y : axis; cv_x : axis }.

Definition axis_positive (a : axis) : Prop :=
  0 < ax_in a /\ 0 < ax_out a /\ 0 < ax_kernel a /\ 0 < ax_stride a /\ 0 < ax_dilation a.
Definition conv_positive (c : conv) : Prop :=
  0 < cv_batch c /\ 0 < cv_groups c /\ 0 < cv_in c /\ 0 < cv_out c /\
  axis_positive (cv_y c) /\ axis_positive (cv_x c).

(** Shapes and attributes in the ONNX order: the vertical axis first, paddings before both
    axes first.  An absent attribute has its default. *)
Definition input_shape (c : conv) : list Z := [cv_batch c; cv_groups c * cv_in c; ax_in (cv_y c); ax_in (cv_x c)].
Definition output_shape (c : conv) : list Z := [cv_batch c; cv_groups c * cv_out c; ax_out (cv_y c); ax_out (cv_x c)].
Definition value_or (d : attribute) (o : option attribute) : attribute := match o with Some a => a | None => d end.
Definition attributes_of (attrs : list (string * attribute)) (c : conv) : Prop :=
  dget "kernel_shape" attrs = Some (AInts [ax_kernel (cv_y c); ax_kernel (cv_x c)]) /\
  value_or (AInts [1; 1]) (dget "strides" attrs) = AInts [ax_stride (cv_y c); ax_stride (cv_x c)] /\
  value_or (AInts [1; 1]) (dget "dilations" attrs) = AInts [ax_dilation (cv_y c); ax_dilation (cv_x c)] /\
  value_or (AInt 1) (dget "group" attrs) = AInt (cv_groups c) /\
  value_or (AInts [0; 0; 0; 0]) (dget "pads" attrs)
    = AInts [ax_before (cv_y c); ax_before (cv_x c); ax_after (cv_y c); ax_after (cv_x c)].
(** Precisions are absent or integers. *)
Definition precisions_plain (attrs : list (string * attribute)) : Prop :=
  forall name, In name ["weight_size"; "act_size"; "output_size"] ->
    dget name attrs = None \/ exists z, dget name attrs = Some (AInt z).

(** Multiplications of the convolution: one per output element, input channel of its group
    and kernel position. *)
Definition conv_operations (c : conv) : Z :=
  (cv_batch c * (cv_groups c * cv_out c) * ax_out (cv_y c) * ax_out (cv_x c)) *
  (cv_in c * ax_kernel (cv_y c) * ax_kernel (cv_x c)).

(** Output position [o] and kernel position [k] read input position
    [stride * o + dilation * k - before]; those outside the input are padding. *)
Definition positions_read (a : axis) : list Z :=
  filter (fun v => (0 <=? v) && (v <? ax_in a))
    (map (fun v => v - ax_before a) (all_indices (ax_stride a) (ax_out a) (ax_dilation a) (ax_kernel a))).
(** Input elements read, for every image and channel. *)
Definition inputs_read (c : conv) : Z :=
  cv_batch c * (cv_groups c * cv_in c) * distinct (positions_read (cv_y c)) * distinct (positions_read (cv_x c)).

(** The padded extent that the outputs need. *)
Definition ax_extent (a : axis) : Z := ax_stride a * (ax_out a - 1) + ax_dilation a * (ax_kernel a - 1) + 1.
(** Either nothing is padded before and nothing read beyond the input, in the exact region
    of C01; or neighbouring windows touch and the whole input is read. *)
Definition axis_ok (a : axis) : Prop :=
  let g := Z.gcd (ax_stride a) (ax_dilation a) in
  (ax_before a = 0 /\ ax_extent a <= ax_in a /\
   (ax_kernel a <= ax_stride a / g \/ ax_dilation a / g <= ax_out a)) \/
  (ax_dilation a = 1 /\ ax_stride a <= ax_kernel a /\ 0 <= ax_before a /\ ax_in a <= ax_extent a - ax_before a).

(** Kernel, stride, dilation and padding of one axis with sizes of the other. *)
Definition with_window (a w : axis) : axis :=
  mkAxis (ax_in a) (ax_out a) (ax_kernel w) (ax_stride w) (ax_dilation w) (ax_before w) (ax_after w).
(** The convolution with the windows of the two axes exchanged. *)
Definition exchanged (c : conv) : conv :=
  mkConv (cv_batch c) (cv_groups c) (cv_in c) (cv_out c)
    (with_window (cv_y c) (cv_x c)) (with_window (cv_x c) (cv_y c)).
(** The windows of the two axes agree. *)
Definition square (c : conv) : Prop :=
  ax_kernel (cv_y c) = ax_kernel (cv_x c) /\ ax_stride (cv_y c) = ax_stride (cv_x c) /\
  ax_dilation (cv_y c) = ax_dilation (cv_x c) /\ ax_before (cv_y c) = ax_before (cv_x c) /\
  ax_after (cv_y c) = ax_after (cv_x c).

(** The layer computes convolution [c]: its loops and their sizes, the positions read, the
    paddings, and the subscripts of its operands. *)
Definition computes (c : conv) (nd : node_data) (ln : layer_node) : Prop :=
  ln_operands ln = ["O"; "W"; "I"] /\
  ln_sizes ln = [("B", cv_batch c); ("K", cv_out c); ("G", cv_groups c);
                 ("OX", ax_out (cv_x c)); ("OY", ax_out (cv_y c)); ("C", cv_in c);
                 ("FX", ax_kernel (cv_x c)); ("FY", ax_kernel (cv_y c))] /\
  rmap create_relation (nd_relations nd) =
    Ok [mkRel "IX" (ax_stride (cv_x c)) "OX" (ax_dilation (cv_x c)) "FX";
        mkRel "IY" (ax_stride (cv_y c)) "OY" (ax_dilation (cv_y c)) "FY"] /\
  create_padding nd = Ok [("IX", (ax_before (cv_x c), ax_after (cv_x c)));
                          ("IY", (ax_before (cv_y c), ax_after (cv_y c)))] /\
  create_pr_layer_dim_sizes nd = Some [("IX", ax_in (cv_x c)); ("IY", ax_in (cv_y c))] /\
  let tokens := disassembly (create_equation (nd_equation nd)) in
  get_r_layer_dims tokens "O" = Ok ["B"; "G"; "K"; "OY"; "OX"] /\
  get_r_layer_dims tokens "W" = Ok ["G"; "K"; "C"; "FY"; "FX"] /\
  get_r_layer_dims tokens "I" = Ok ["B"; "G"; "C"; "IY"; "IX"].

(** * Products of matrices *)

(** At most two batch dimensions, the rows and inner dimension of the first operand and the
    columns of the second. *)
Record product := mkProduct { pd_batch : list Z; pd_rows : Z; pd_inner : Z; pd_columns : Z }.
Definition product_positive (p : product) : Prop :=
  (length (pd_batch p) <= 2)%nat /\ (forall n, In n (pd_batch p) -> 0 < n) /\
  0 < pd_rows p /\ 0 < pd_inner p /\ 0 < pd_columns p.
(** The first operand may be stored transposed; only without batches. *)
Definition left_shape (p : product) (transposed : bool) : list Z :=
  if transposed then [pd_inner p; pd_rows p] else pd_batch p ++ [pd_rows p; pd_inner p].
Definition result_shape (p : product) : list Z := pd_batch p ++ [pd_rows p; pd_columns p].
Definition transposition (attrs : list (string * attribute)) (p : product) (transposed : bool) : Prop :=
  (dget "transA" attrs = None \/ dget "transA" attrs = Some (AInt 0)) /\ transposed = false \/
  (exists z, dget "transA" attrs = Some (AInt z) /\ z <> 0) /\ transposed = true /\ pd_batch p = [].
(** One multiplication for each batch, row, inner position and column. *)
Definition product_operations (p : product) : Z := zprod (pd_batch p) * pd_rows p * pd_inner p * pd_columns p.
(** The names of the batch loops. *)
Definition batch_loops (p : product) : list string := firstn (length (pd_batch p)) ["B"; "H"].
