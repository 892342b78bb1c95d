(** Layers: from the user's description of a layer to loop relevancy, derived sizes and
    the user's temporal ordering.  zigzag/parser/workload_factory.py,
    zigzag/workload/layer_node.py, zigzag/workload/layer_attributes.py. *)
From Coq Require Import Ascii.
From Verif Require Import Base Model_Pr Model_Text Model_Alloc.
Open Scope string_scope.
Open Scope list_scope.
Open Scope Z_scope.
Open Scope result_scope.

(** * The equation *)

(** [create_equation], workload_factory.py:112-119. *)
Definition create_equation (text : string) : string :=
  let e := replace "+=" "=" text in
  let e := replace "++" "+" e in
  let e := replace "*" " * " e in
  let e := replace "=" " = " e in
  replace "+" " + " e.

(** The character class of the tokenizer, layer_attributes.py:40; the commas are part of
    the class. *)
Definition is_token (c : ascii) : bool :=
  is_alnum c || existsb (Ascii.eqb c) [","%char; "="%char; "*"%char; "+"%char].

(** [__get_disassembly], layer_attributes.py:38-40. *)
Definition disassembly (equation : string) : list string := findall is_token equation.

(** [x in ["=", "*", "+"]]. *)
Definition is_operator (x : string) : bool := memb x ["="; "*"; "+"].

(** [__get_operand_start_indices], layer_attributes.py:42-44. *)
Definition start_indices (tokens : list string) : list nat :=
  0%nat :: map (fun ix => S (fst ix))
               (filter (fun ix => is_operator (snd ix)) (combine (seq 0 (length tokens)) tokens)).

(** [get_contained_operands], layer_attributes.py:46-48. *)
Definition contained_operands (tokens : list string) : result (list string) :=
  rmap (fun idx => of_option IndexError (nth_error tokens idx)) (start_indices tokens).

(** [get_r_layer_dims], layer_attributes.py:50-59; a slice whose end is before its start
    is empty. *)
Definition get_r_layer_dims (tokens : list string) (layer_op : string) : result (list string) :=
  layer_operands <- contained_operands tokens ;;
  match index_of layer_op layer_operands with
  | None => Err AssertionError
  | Some i =>
      let slice_indices := (start_indices tokens ++ [S (length tokens)])%list in
      a <- of_option IndexError (nth_error slice_indices i) ;;
      b <- of_option IndexError (nth_error slice_indices (S i)) ;;
      Ok (map upper (firstn ((b - 1) - (a + 1)) (skipn (a + 1) tokens)))
  end.

(** * Relations between dimensions *)

(** [LayerDimRelation]: dim_1 = coef_2 * dim_2 + coef_3 * dim_3. *)
Record relation := mkRel {
  rel_1 : string; rel_coef_2 : Z; rel_2 : string; rel_coef_3 : Z; rel_3 : string }.

(** One term of LAYER_DIM_RELATION_REGEX: an optional word with a star, and a word. *)
Definition parse_term (s : string) : option (option string * string * string) :=
  let '(w, r) := span is_word s in
  if eqb w "" then None
  else match skip_space r with
       | String "*" r' =>
           let '(w', r'') := span is_word (skip_space r') in
           if eqb w' "" then None else Some (Some w, w', r'')
       | _ => Some (None, w, r)
       end.

(** [re.search(LAYER_DIM_RELATION_REGEX, s)], workload_validator.py:13: the five groups.
    [$] also matches before a final newline. *)
Definition parse_relation (s : string)
  : option (string * option string * string * option string * string) :=
  let '(d1, r) := span is_word s in
  if eqb d1 "" then None
  else match skip_space r with
       | String "=" r1 =>
           match parse_term (skip_space r1) with
           | None => None
           | Some (c2, d2, r2) =>
               match skip_space r2 with
               | String "+" r3 =>
                   match parse_term (skip_space r3) with
                   | None => None
                   | Some (c3, d3, r4) =>
                       if eqb r4 "" || eqb r4 (String (ascii_of_nat 10) "")
                       then Some (d1, c2, d2, c3, d3) else None
                   end
               | _ => None
               end
           end
       | _ => None
       end.

Definition coefficient (c : option string) : result Z :=
  match c with Some w => int_of_word w | None => Ok 1 end.

(** One iteration of [create_layer_dim_relations], workload_factory.py:135-146; [LayerDim]
    capitalises names (datatypes.py:66-68). *)
Definition create_relation (s : string) : result relation :=
  match parse_relation s with
  | None => Err AssertionError
  | Some (d1, c2, d2, c3, d3) =>
      k2 <- coefficient c2 ;;
      k3 <- coefficient c3 ;;
      Ok (mkRel (upper d1) k2 (upper d2) k3 (upper d3))
  end.

(** [extract_pr_loop_info], layer_attributes.py:166-188. *)
Definition pr_loop_of (rels : list relation) : dict string (string * string) :=
  dict_of (map (fun r => (rel_1 r, (rel_2 r, rel_3 r))) rels).
Definition pr_loop_list_of (rels : list relation) : list string :=
  flat_map (fun r => [rel_1 r; rel_2 r; rel_3 r]) rels.
Definition pr_scaling_of (rels : list relation) : dict string (Z * Z) :=
  dict_of (map (fun r => (rel_1 r, (rel_coef_2 r, rel_coef_3 r))) rels).

(** * Relevancy *)

(** What is stored for one operand: r_dims, ir_dims, pr_dims. *)
Record relevancy := mkRelevancy {
  rv_r : list string; rv_ir : list string; rv_pr : dict string (string * string) }.

(** [layer_dim_sizes[layer_dim] != 1] for every element, in a list comprehension. *)
Fixpoint not_one (sizes : dict string Z) (dims : list string) : result (list string) :=
  match dims with
  | [] => Ok []
  | d :: ds =>
      n <- dgetr d sizes ;;
      rest <- not_one sizes ds ;;
      Ok (if n =? 1 then rest else d :: rest)
  end.

Section Relevancy.
  (** Iteration order of a Python set: some rearrangement of its elements. *)
  Variable order : list string -> list string.

  (** One iteration of [extract_relevancy_info], layer_node.py:82-98. *)
  Definition relevancy_of (tokens : list string) (sizes : dict string Z)
      (pr_loop : dict string (string * string)) (pr_loop_list : list string) (op : string)
    : result relevancy :=
    r_loop_list <- get_r_layer_dims tokens op ;;
    let ir_loop_list := order (filter (fun d => negb (memb d r_loop_list)) (keys sizes)) in
    if existsb (fun d => dmem d pr_loop) r_loop_list then
      ir <- not_one sizes (filter (fun d => negb (memb d pr_loop_list)) ir_loop_list) ;;
      Ok (mkRelevancy (filter (fun d => negb (memb d pr_loop_list)) r_loop_list) ir pr_loop)
    else
      r <- not_one sizes r_loop_list ;;
      ir <- not_one sizes ir_loop_list ;;
      Ok (mkRelevancy r ir []).

  (** [extract_relevancy_info], layer_node.py:68-100. *)
  Definition extract_relevancy_info (tokens : list string) (sizes : dict string Z)
      (pr_loop : dict string (string * string)) (pr_loop_list : list string)
    : result (dict string relevancy) :=
    ops <- contained_operands tokens ;;
    rfold (fun d op => rv <- relevancy_of tokens sizes pr_loop pr_loop_list op ;;
                       Ok (dset op rv d)) [] ops.
End Relevancy.

(** [create_pr_decoupled_relevancy_info], layer_node.py:55-66: the tagged versions of all
    derived dimensions are added for every operand (the names are capitalised). *)
Definition decoupled_relevancy (pr_loop : dict string (string * string)) (rv : relevancy)
  : list string * list string :=
  ((rv_r rv ++ map (fun p => String.append p "_R") (keys pr_loop))%list,
   (rv_ir rv ++ map (fun p => String.append p "_IR") (keys pr_loop))%list).

(** * The layer node *)

(** The description of a layer, after validation and defaults. *)
Record node_data := mkNode {
  nd_equation : string;
  nd_loop_dims : list string;
  nd_loop_sizes : list Z;
  nd_precision : dict string Z;
  nd_relations : list string;
  nd_pr_loop_dims : option (list string);
  nd_pr_loop_sizes : option (list Z);
  nd_padding : option (list (Z * Z)) }.

(** [create_layer_dim_sizes], workload_factory.py:121-126; [zip] stops at the shorter. *)
Definition create_layer_dim_sizes (nd : node_data) : dict string Z :=
  dict_of (combine (map upper (nd_loop_dims nd)) (nd_loop_sizes nd)).

(** [create_padding], workload_factory.py:166-180. *)
Definition create_padding (nd : node_data) : result (dict string (Z * Z)) :=
  match nd_pr_loop_dims nd, nd_padding nd with
  | Some dims, Some data =>
      l <- rmap (fun id => p <- of_option IndexError (nth_error data (fst id)) ;; Ok (upper (snd id), p))
                (combine (seq 0 (length dims)) dims) ;;
      Ok (dict_of l)
  | _, _ => Ok []
  end.

(** [create_pr_layer_dim_sizes], workload_factory.py:182-192. *)
Definition create_pr_layer_dim_sizes (nd : node_data) : option (dict string Z) :=
  match nd_pr_loop_dims nd, nd_pr_loop_sizes nd with
  | Some dims, Some sizes => Some (dict_of (combine (map upper dims) sizes))
  | _, _ => None
  end.

(** [calc_pr_dimension_size_total], layer_node.py:299-313, with its lookups;
    layer_attributes.py:267-268 gives (0, 0) for a dimension without padding. *)
Definition total_pr_size (sizes : dict string Z) (pr_loop : dict string (string * string))
    (scaling : dict string (Z * Z)) (padding : dict string (Z * Z)) (dim : string) : result Z :=
  ab <- dgetr dim pr_loop ;;
  a <- dgetr (fst ab) sizes ;;
  b <- dgetr (snd ab) sizes ;;
  sc <- dgetr dim scaling ;;
  Ok (calc_pr_dimension_size_total (fst sc) a (snd sc) b
        (match dget dim padding with Some p => p | None => (0, 0) end)).

(** [calc_tensor_dim], layer_node.py:273-290, with all dimension sizes of the layer; the
    third branch cannot be reached then. *)
Definition full_tensor_dim (sizes : dict string Z) (pr_loop : dict string (string * string))
    (scaling : dict string (Z * Z)) (pr_sizes : dict string Z) (dim : string) : result Z :=
  match dget dim sizes with
  | Some n => Ok n
  | None =>
      match dget dim pr_loop with
      | Some (da, db) =>
          a <- dgetr da sizes ;;
          b <- dgetr db sizes ;;
          sc <- dgetr dim scaling ;;
          m <- dgetr dim pr_sizes ;;
          Ok (Z.min m (calc_pr_dimension_size (fst sc) a (snd sc) b))
      | None => Err ValueError
      end
  end.

(** [self.operand_size_elem[layer_op]], layer_node.py:330-335.  The code computes the
    sizes of all dimensions of the operand again for every derived dimension. *)
Definition operand_size_elem (sizes : dict string Z) (pr_loop : dict string (string * string))
    (scaling : dict string (Z * Z)) (pr_sizes : dict string Z) (rv : relevancy) : result Z :=
  rs <- rmap (fun d => dgetr d sizes) (rv_r rv) ;;
  ps <- rmap (fun p =>
          let all_dims := (rv_r rv ++ keys (rv_pr rv))%list in
          dims <- rmap (fun d => n <- full_tensor_dim sizes pr_loop scaling pr_sizes d ;; Ok (d, n)) all_dims ;;
          dgetr p (dict_of dims)) (keys (rv_pr rv)) ;;
  Ok (zprod rs * zprod ps).

(** A built layer: what the later stages read from a [LayerNode]. *)
Record layer_node := mkLayerNode {
  ln_operands : list string;                    (* layer_operands, the output first *)
  ln_sizes : dict string Z;                     (* layer_dim_sizes *)
  ln_relevancy : dict string relevancy;         (* loop_relevancy_info *)
  ln_decoupled : dict string (list string * list string);   (* pr_decoupled_relevancy_info *)
  ln_layer : layer;                             (* what the allocator and the mapping read *)
  ln_size_elem : dict string Z;                 (* operand_size_elem *)
  ln_size_bit : dict string Z;                  (* operand_size_bit *)
  ln_macs : Z;                                  (* total_mac_count *)
  ln_reuse : dict string Q }.                   (* operand_data_reuse *)

(** [final_output_precision], layer_attributes.py:102-107. *)
Definition final_output_precision (precision : dict string Z) : result Z :=
  match dget "O_final" precision with Some n => Ok n | None => dgetr "O" precision end.

(** [LayerNode.__init__] and [extract_layer_info], layer_node.py:150-195, 324-348, on the
    attributes of [create_node_attr], workload_factory.py:70-92; [links] are the memory
    operand links.  final_output_precision is a property evaluated on demand in the code. *)
Definition layer_node_of (order : list string -> list string) (links : list (string * string))
    (nd : node_data) : result layer_node :=
  let tokens := disassembly (create_equation (nd_equation nd)) in
  let sizes := create_layer_dim_sizes nd in
  rels <- rmap create_relation (nd_relations nd) ;;
  padding <- create_padding nd ;;
  ops <- contained_operands tokens ;;
  let pr_loop := pr_loop_of rels in
  let scaling := pr_scaling_of rels in
  pr_sizes <- match create_pr_layer_dim_sizes nd with
              | Some (x :: l) => Ok (x :: l)
              | _ => rmap (fun d => n <- total_pr_size sizes pr_loop scaling padding d ;; Ok (d, n))
                          (keys pr_loop)
              end ;;
  rel <- extract_relevancy_info order tokens sizes pr_loop (pr_loop_list_of rels) ;;
  elems <- rfold (fun d op => rv <- dgetr op rel ;;
                     n <- operand_size_elem sizes pr_loop scaling pr_sizes rv ;; Ok (dset op n d))
                 [] ops ;;
  bits <- rmap (fun on => p <- dgetr (fst on) (nd_precision nd) ;; Ok (fst on, snd on * p)) elems ;;
  reuse <- rmap (fun on => if snd on =? 0 then Err ZeroDivisionError
                           else Ok (fst on, (inject_Z (zprod (values sizes)) / inject_Z (snd on))%Q)) elems ;;
  final <- final_output_precision (nd_precision nd) ;;
  Ok (mkLayerNode ops sizes rel
        (map (fun orv => (fst orv, decoupled_relevancy pr_loop (snd orv))) rel)
        (mkLayer links (nd_precision nd) final
           (map (fun orv => (fst orv, (rv_r (snd orv) ++ keys (rv_pr (snd orv)))%list)) rel)
           (map (fun orv => (fst orv, rv_ir (snd orv))) rel)
           pr_loop scaling pr_sizes (keys sizes))
        elems bits (zprod (values sizes)) reuse).

(** [get_act_layer_op], layer_node.py:197-222; [pop] of an empty list is an [IndexError]. *)
Definition last_r {A} (l : list A) : result A := of_option IndexError (nth_error l (length l - 1)).
Definition get_act_layer_op (tokens : list string) (pr_loop : dict string (string * string))
    (constants : list string) : result string :=
  ops <- contained_operands tokens ;;
  let inputs := tl ops in
  match constants with
  | [w] => last_r (filter (fun o => negb (eqb o w)) inputs)
  | [] => of_option IndexError (nth_error inputs 1)
  | _ =>
      match keys pr_loop with
      | [] => of_option IndexError (nth_error inputs 0)
      | p :: _ =>
          related <- rmap (fun o => ds <- get_r_layer_dims tokens o ;; Ok (o, ds)) ops ;;
          last_r (map fst (filter (fun od => memb p (snd od)) (dict_of related)))
      end
  end.

(** [get_weight_layer_op], layer_node.py:224-238. *)
Definition get_weight_layer_op (tokens : list string) (pr_loop : dict string (string * string))
    (constants : list string) : result string :=
  ops <- contained_operands tokens ;;
  match constants with
  | [w] => Ok w
  | [] => of_option IndexError (nth_error (tl ops) 0)
  | _ => act <- get_act_layer_op tokens pr_loop constants ;;
         last_r (filter (fun o => negb (eqb o act)) constants)
  end.

(** * The user's temporal ordering *)

(** An entry: dimension and factor; [None] is a factor that is not an integer
    ("*", layer_attributes.py:194-199). *)
Definition ordering := list (string * option Z).

(** The products per dimension of [is_complete], layer_attributes.py:210-215: [None] when
    a factor is not an integer. *)
Fixpoint all_loops (o : ordering) (acc : dict string Z) : option (dict string Z) :=
  match o with
  | [] => Some acc
  | (d, Some n) :: o' =>
      all_loops o' (dset d ((match dget d acc with Some x => x | None => 1 end) * n) acc)
  | (_, None) :: _ => None
  end.

(** Equality of dictionaries (order does not matter). *)
Definition dict_eqb (a b : dict string Z) : bool :=
  Nat.eqb (length a) (length b) &&
  forallb (fun kv => match dget (fst kv) b with Some v => snd kv =? v | None => false end) a.

(** [is_complete], layer_attributes.py:207-220.  The loop over the dictionary deletes
    entries of the dictionary it iterates over: after the first deletion the next step of
    the iteration raises [RuntimeError], also when the deleted entry was the last. *)
Definition is_complete (o : ordering) (required : dict string Z) : result bool :=
  match all_loops o [] with
  | None => Ok false
  | Some loops =>
      if existsb (fun kv => snd kv =? 1) loops then Err RuntimeError
      else Ok (dict_eqb loops required)
  end.

(** [remove_invalid_layer_dims], layer_attributes.py:222-230: entries are deleted from the
    last to the first, so the positions of the others stay valid. *)
Fixpoint remove_at {A} (i : nat) (l : list A) : list A :=
  match l, i with
  | [], _ => []
  | _ :: l', O => l'
  | x :: l', S i' => x :: remove_at i' l'
  end.
Definition remove_invalid_layer_dims (dims : list string) (o : ordering) : ordering :=
  fold_left (fun data ie => if memb (fst (snd ie)) dims then data else remove_at (fst ie) data)
            (rev (combine (seq 0 (length o)) o)) o.

Definition wildcard : string := "*".

(** [get_constraints], layer_attributes.py:235-255: the pins on dimensions and the pins on
    dimensions with sizes.  [len] is [len(self.data)]. *)
Definition constraints_step (len : Z)
    (st : bool * dict Z string * dict Z (string * Z)) (ce : nat * (string * option Z))
  : bool * dict Z string * dict Z (string * Z) :=
  let '(outer_loop, ps, qs) := st in
  let '(cnt, (d, f)) := ce in
  let pos := if outer_loop : bool then Z.of_nat cnt - len else Z.of_nat cnt in
  match f with
  | None => if eqb d wildcard then (true, ps, qs) else (outer_loop, dset pos d ps, qs)
  | Some n => (outer_loop, ps, dset pos (d, n) qs)
  end.
Definition get_constraints (o : ordering) : dict Z string * dict Z (string * Z) :=
  let '(_, ps, qs) :=
    fold_left (constraints_step (Z.of_nat (length o))) (combine (seq 0 (length o)) o) (false, [], []) in
  (ps, qs).
