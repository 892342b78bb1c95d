(** From ONNX nodes to layer descriptions: zigzag/parser/onnx/conv_parser.py,
    gemm_parser.py, onnx_operator_parser.py and utils.py.

    Of an ONNX model only the shapes of named tensors are modelled, as one association
    list in the order in which they are searched (graph inputs, outputs, value_info,
    initializers; utils.py:152-172); of a node its attributes, its first input and output
    and the predecessors found (Model_Workload).  Attributes that are tensors are not
    modelled: they count as of another type. *)
From Verif Require Import Base Model_Decouple Model_Text Model_Layer.
Open Scope string_scope.
Open Scope list_scope.
Open Scope Z_scope.
Open Scope result_scope.

Inductive attribute := AInt (z : Z) | AInts (l : list Z) | AOther.

(** [get_attribute_ints_with_name], utils.py:85-110. *)
Definition get_attribute (name : string) (attrs : list (string * attribute)) (default : option attribute)
  : result attribute :=
  match dget name attrs with
  | Some AOther => Err NotImplementedError
  | Some a => Ok a
  | None => match default with Some d => Ok d | None => Err ValueError end
  end.

(** What the parsers do with an attribute: index it, or use it as a number. *)
Definition item (a : attribute) (i : nat) : result Z :=
  match a with
  | AInts l => of_option IndexError (nth_error l i)
  | _ => Err TypeError
  end.
Definition number (a : attribute) : result Z :=
  match a with AInt z => Ok z | _ => Err TypeError end.

(** [get_weight_precision] and the like, onnx_operator_parser.py:92-128; lists as
    precisions are a [TypeError] here (the code fails later). *)
Definition precision (name : string) (default : Z) (attrs : list (string * attribute)) : result Z :=
  match get_attribute name attrs (Some (AInt default)) with
  | Err NotImplementedError => Err ValueError
  | Err e => Err e
  | Ok a => number a
  end.
Definition get_weight_precision := precision "weight_size" 8.
Definition get_activation_precision := precision "act_size" 8.
Definition get_intermediate_output_precision (attrs : list (string * attribute)) : result Z :=
  a <- get_activation_precision attrs ;;
  precision "output_size" (2 * a) attrs.

(** [l[i]] and, from the end, [l[-i]]. *)
Definition at_front (l : list Z) (i : nat) : result Z := of_option IndexError (nth_error l i).
Definition at_back (l : list Z) (i : nat) : result Z :=
  if Nat.leb i (length l) then at_front l (length l - i) else Err IndexError.

(** [math.ceil(a / b)] of integers, without rounding. *)
Definition ceil_div (a b : Z) : result Z :=
  if b =? 0 then Err ZeroDivisionError else Ok (Qceiling (inject_Z a / inject_Z b)).

(** * Convolutions *)

Definition conv_equation_text : string := "O[b][g][k][oy][ox]+=W[g][k][c][fy][fx]*I[b][g][c][iy][ix]".

(** [f"ix={s}*ox+{d}*fx"], conv_parser.py:86-89. *)
Definition conv_relation (i : string) (s : Z) (o : string) (d : Z) (f : string) : string :=
  (i ++ "=" ++ string_of_Z s ++ "*" ++ o ++ "+" ++ string_of_Z d ++ "*" ++ f)%string.

(** [ConvParser.get_layer_node_user_format], conv_parser.py:34-104. *)
Definition conv_user_format (attrs : list (string * attribute))
    (kernel_shape strides dilations : attribute) (group_size : Z) (padding : attribute)
    (ia_shape oa_shape : list Z) : result node_data :=
  act <- get_activation_precision attrs ;;
  weight <- get_weight_precision attrs ;;
  intermediate <- get_intermediate_output_precision attrs ;;
  ia0 <- at_front ia_shape 0 ;;
  oa0 <- at_front oa_shape 0 ;;
  if negb (ia0 =? oa0) then Err AssertionError
  else
  let batch_size := if 0 <? oa0 then oa0 else 1 in
  oa1 <- at_front oa_shape 1 ;;
  size_k <- ceil_div oa1 group_size ;;
  size_ox <- at_front oa_shape 3 ;;
  size_oy <- at_front oa_shape 2 ;;
  ia1 <- at_front ia_shape 1 ;;
  size_c <- ceil_div ia1 group_size ;;
  size_ix <- at_front ia_shape 3 ;;
  size_iy <- at_front ia_shape 2 ;;
  size_fx <- item kernel_shape 0 ;;
  size_fy <- item kernel_shape 1 ;;
  s0 <- item strides 0 ;; d0 <- item dilations 0 ;;
  s1 <- item strides 1 ;; d1 <- item dilations 1 ;;
  p0 <- item padding 0 ;; p2 <- item padding 2 ;;
  p1 <- item padding 1 ;; p3 <- item padding 3 ;;
  Ok (mkNode conv_equation_text
        ["B"; "K"; "G"; "OX"; "OY"; "C"; "FX"; "FY"]
        [batch_size; size_k; group_size; size_ox; size_oy; size_c; size_fx; size_fy]
        [("W", weight); ("I", act); ("O_final", act); ("O", intermediate)]
        [conv_relation "ix" s0 "ox" d0 "fx"; conv_relation "iy" s1 "oy" d1 "fy"]
        (Some ["IX"; "IY"]) (Some [size_ix; size_iy])
        (Some [(p0, p2); (p1, p3)])).

(** [generate_layer_node_for_conv], conv_parser.py:106-132, up to the factory. *)
Definition parse_conv (attrs : list (string * attribute)) (tensors : list (string * list Z))
    (input output : string) : result node_data :=
  kernel_shape <- get_attribute "kernel_shape" attrs None ;;
  strides <- get_attribute "strides" attrs (Some (AInts [1; 1])) ;;
  dilations <- get_attribute "dilations" attrs (Some (AInts [1; 1])) ;;
  group <- get_attribute "group" attrs (Some (AInt 1)) ;;
  padding <- get_attribute "pads" attrs (Some (AInts [0; 0; 0; 0])) ;;
  ia_shape <- dgetr input tensors ;;
  oa_shape <- dgetr output tensors ;;
  group_size <- number group ;;
  conv_user_format attrs kernel_shape strides dilations group_size padding ia_shape oa_shape.

(** * Matrix products *)

(** [GemmParser.get_layer_node_user_format], gemm_parser.py:19-85; [predecessors] is how
    many were found. *)
Definition gemm_user_format (attrs : list (string * attribute)) (predecessors : nat)
    (input_shape output_shape : list Z) : result node_data :=
  act <- get_activation_precision attrs ;;
  weight <- get_weight_precision attrs ;;
  intermediate <- get_intermediate_output_precision attrs ;;
  let weights_are_constant := Nat.ltb predecessors 2 in
  size_d <- at_back input_shape 2 ;;
  out_d <- at_back output_shape 2 ;;
  if negb (size_d =? out_d) then Err AssertionError
  else
  size_c <- at_back input_shape 1 ;;
  size_k <- at_back output_shape 1 ;;
  bh <- match input_shape with
        | [_; _] => Ok (0, 0)
        | [b; _; _] =>
            o <- at_front output_shape 0 ;;
            if negb (b =? o) then Err AssertionError
            else Ok (if b =? 0 then 1 else b, 0)
        | [b; h; _; _] =>
            o <- at_front output_shape 0 ;;
            if negb (b =? o) then Err AssertionError
            else
            o' <- at_front output_shape 1 ;;
            if negb (h =? o') then Err AssertionError
            else Ok (if b =? 0 then 1 else b, if h =? 0 then 0 else h)
        | _ => Err ValueError
        end ;;
  let '(batch_size, size_h) := bh in
  let has_b := negb (batch_size =? 0) in
  let has_h := negb (size_h =? 0) in
  let dims := (if has_b then ["B"] else []) ++ (if has_h then ["H"] else []) in
  let sizes := (if has_b then [batch_size] else []) ++ (if has_h then [size_h] else []) in
  let layer_dim_b_h := ((if has_b then "[b]" else "") ++ (if has_h then "[h]" else ""))%string in
  let part_out := ("O" ++ layer_dim_b_h ++ "[d][k]")%string in
  let part_in := ("I" ++ layer_dim_b_h ++ "[d][c]")%string in
  let part_weight := ("W" ++ (if weights_are_constant then "" else layer_dim_b_h) ++ "[c][k]")%string in
  Ok (mkNode (part_out ++ "+=" ++ part_in ++ "*" ++ part_weight)%string
        (["C"; "D"; "K"] ++ dims) ([size_c; size_d; size_k] ++ sizes)
        [("W", if weights_are_constant then weight else act); ("I", act); ("O_final", act); ("O", intermediate)]
        [] None None None).

(** [infer_input_activation_shape], gemm_parser.py:112-137; [weights] are the initializers'
    dimensions. *)
Definition infer_input_shape (attrs : list (string * attribute)) (weights : list (string * list Z))
    (weight : string) (output_shape : list Z) : result (list Z) :=
  match dget weight weights with
  | None => Err ValueError
  | Some [w0; w1] =>
      tb <- get_attribute "transB" attrs (Some (AInt 0)) ;;
      let c := match tb with AInt 0 => w0 | AInts [] => w0 | _ => w1 end in
      match output_shape with [b; _] => Ok [b; c] | _ => Err AssertionError end
  | Some _ => Err AssertionError
  end.

(** [generate_layer_node], gemm_parser.py:87-110, up to the factory. *)
Definition parse_gemm (attrs : list (string * attribute)) (tensors : list (string * list Z))
    (weights : list (string * list Z)) (predecessors : nat) (input weight output : string) : result node_data :=
  input_shape <- dgetr input tensors ;;
  output_shape <- dgetr output tensors ;;
  if negb (Nat.eqb (length input_shape) (length output_shape)) then Err AssertionError
  else
  trans <- get_attribute "transA" attrs (Some (AInt 0)) ;;
  input_shape <- match trans with
                 | AInt 0 | AInts [] => Ok input_shape
                 | _ => match input_shape with [x; y] => Ok [y; x] | _ => Err AssertionError end
                 end ;;
  input_shape <- match input_shape with
                 | [] => infer_input_shape attrs weights weight output_shape
                 | _ => Ok input_shape
                 end ;;
  gemm_user_format attrs predecessors input_shape output_shape.
