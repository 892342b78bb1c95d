(** Model of reading a workload description: parser/workload_validator.py, the normalisation of
    parser/upgraded_validator.py:67-100, parser/workload_factory.py:28-92 and
    stages/parser/workload_parser.py:39-69.

    A description is a list of layers, given with its structure: values have the types that the
    schema names and there are no other fields (cerberus refuses them; that is not modelled).  Fields
    that are missing are [None]; for a field that may be null, [Some None] is a written null. *)
From Coq Require Import Ascii.
From Verif Require Import Base Model_Text Model_Graph Model_Layer Model_MapFile Model_Workload.
Open Scope string_scope.
Open Scope list_scope.
Open Scope Z_scope.
Open Scope result_scope.

(** * The document, workload_validator.py:28-87 *)
Record raw_layer := mkRawLayer {
  rl_id : option Z; rl_name : option (option string); rl_type : option string; rl_equation : option string;
  rl_relations : option (list string); rl_dims : option (list string); rl_sizes : option (list Z);
  rl_precision : option (dict string Z); rl_source : option (dict string Z);
  rl_pr_dims : option (option (list string)); rl_pr_sizes : option (option (list Z));
  rl_padding : option (option (list (list Z))) }.

(** A normalised layer *)
Record layer_data := mkLayerData {
  ld_id : Z; ld_name : option string; ld_type : string; ld_equation : string;
  ld_relations : list string; ld_dims : list string; ld_sizes : list Z;
  ld_precision : dict string Z; ld_source : dict string Z;
  ld_pr_dims : option (list string); ld_pr_sizes : option (list Z); ld_padding : option (list (list Z)) }.

(** [add_defaults_to_doc] with [get_default], upgraded_validator.py:77-92: a default also replaces what
    is required: an identifier is 0, a text or list empty. *)
Definition normalise_layer (r : raw_layer) : layer_data :=
  {| ld_id := default 0 (rl_id r); ld_name := default None (rl_name r); ld_type := default "" (rl_type r);
     ld_equation := default "" (rl_equation r); ld_relations := default [] (rl_relations r);
     ld_dims := default [] (rl_dims r); ld_sizes := default [] (rl_sizes r);
     ld_precision := default [] (rl_precision r); ld_source := default [] (rl_source r);
     ld_pr_dims := default None (rl_pr_dims r); ld_pr_sizes := default None (rl_pr_sizes r);
     ld_padding := default None (rl_padding r) |}.

(** * The schema *)

(** workload_validator.py:14-25 *)
Definition allowed_operators : list string :=
  ["Max"; "Conv"; "Pooling"; "Add"; "Conv_downsample"; "Gemm"; "Pool"; "MaxPool"; "AveragePool"; "GlobalAveragePool"].

(** One or more subscripts in brackets, "(\[\w+\])+" or, with [opt], "(\[(?:\w+)?\])+": what follows
    them.  [inside]: after an opening bracket; [some]: a character was read since. *)
Fixpoint brackets (opt inside some : bool) (s : string) : option string :=
  match s with
  | EmptyString => if inside then None else Some EmptyString
  | String c r =>
      if inside then
        if Ascii.eqb c "]" then (if some || opt then brackets opt false false r else None)
        else if is_word c then brackets opt true true r else None
      else if Ascii.eqb c "[" then brackets opt true false r else Some s
  end.
Definition subscripts (opt : bool) (s : string) : option string :=
  match s with String "[" _ => brackets opt false false s | _ => None end.
(** "\w(\[\w+\])+", or the empty subscripts of the last operand *)
Definition operand_prefix (opt : bool) (s : string) : option string :=
  match s with String c r => if is_word c then subscripts opt r else None | EmptyString => None end.
(** EQUATION_REGEX, workload_validator.py:12 *)
Definition equation_regex (s : string) : bool :=
  match s with
  | String "O" r =>
      match subscripts false r with
      | None => false
      | Some r =>
          let r := skip_space r in
          let r := match r with String "+" r' => skip_space r' | _ => r end in
          match r with
          | String "=" r =>
              match operand_prefix false (skip_space r) with
              | None => false
              | Some r =>
                  match skip_space r with
                  | String o r =>
                      (Ascii.eqb o "*" || Ascii.eqb o "+") &&
                      match operand_prefix true (skip_space r) with Some r => eqb (skip_space r) "" | None => false end
                  | EmptyString => false
                  end
              end
          | _ => false
          end
      end
  | _ => false
  end.

(** workload_validator.py:28-87; a text that is empty does not match either regular expression *)
Definition layer_schema (d : layer_data) : bool :=
  memb (ld_type d) allowed_operators && equation_regex (ld_equation d) &&
  forallb (fun s => match parse_relation s with Some _ => true | None => false end) (ld_relations d) &&
  (forallb (fun k => memb k ["I"; "W"; "O"; "O_final"]) (keys (ld_precision d)) &&
   memb "O" (keys (ld_precision d)) && memb "O_final" (keys (ld_precision d))) &&
  forallb (fun k => memb k ["W"; "I"]) (keys (ld_source d)) &&
  match ld_padding d with None => true | Some l => forallb (fun p => Nat.eqb (length p) 2) l end.

(** [__validate_single_layer], workload_validator.py:125-139: after normalisation the dimensions are
    always there, but may be null, which has no length. *)
Definition same_length {A B} (x : option (list A)) (dims : option (list B)) : result bool :=
  match x with
  | None => Ok true
  | Some l => d <- of_option TypeError dims ;; Ok (Nat.eqb (length l) (length d))
  end.
Definition validate_layer (d : layer_data) : result bool :=
  b1 <- same_length (ld_padding d) (ld_pr_dims d) ;;
  b2 <- same_length (ld_pr_sizes d) (ld_pr_dims d) ;;
  Ok (b1 && b2).
(** [validate], workload_validator.py:107-123 *)
Definition validate_workload (data : list layer_data) : result bool :=
  bs <- rmap validate_layer data ;;
  Ok (forallb layer_schema data && forallb (fun b => b) bs).

(** [_parse_workload_data], workload_parser.py:45-56 *)
Definition parse_workload_data (file : list raw_layer) : result (list layer_data) :=
  let data := map normalise_layer file in
  ok <- validate_workload data ;;
  if ok then Ok data else Err ValueError.

(** * Construction *)

(** A layer of the workload, with what the factory passes on; [bl_node] is what [LayerNode] derives. *)
Record built_layer := mkBuiltLayer {
  bl_id : Z; bl_name : string; bl_type : string; bl_node : layer_node;
  bl_constants : list string; bl_source : dict string Z; bl_mapping : mapping_attr }.

(** [self.node_name], workload_factory.py:57 *)
Definition layer_name (d : layer_data) : string :=
  match ld_name d with Some n => n | None => ("Layer" ++ string_of_Z (ld_id d))%string end.

(** [padding_data[i][0], padding_data[i][1]], workload_factory.py:177-179 *)
Definition padding_pair (l : list Z) : result (Z * Z) :=
  a <- of_option IndexError (nth_error l 0) ;; b <- of_option IndexError (nth_error l 1) ;; Ok (a, b).
(** The part of the description that Model_Layer reads.  (The code looks at the paddings that have a
    dimension; after validation that is all of them.) *)
Definition node_data_of (d : layer_data) : result node_data :=
  p <- match ld_padding d with None => Ok None | Some l => ps <- rmap padding_pair l ;; Ok (Some ps) end ;;
  Ok (mkNode (ld_equation d) (ld_dims d) (ld_sizes d) (ld_precision d) (ld_relations d) (ld_pr_dims d) (ld_pr_sizes d) p).

(** [LayerNodeFactory.create], workload_factory.py:59-92: the attributes of the node, of the mapping,
    and the node itself. *)
Definition create_layer (order : list string -> list string) (mapping : list entry) (d : layer_data) : result built_layer :=
  nd <- node_data_of d ;;
  _ <- rmap create_relation (nd_relations nd) ;;
  _ <- create_padding nd ;;
  a <- create_mapping_attr (layer_name d) (ld_type d) (keys (create_layer_dim_sizes nd)) mapping ;;
  n <- layer_node_of order (at_links a) nd ;;
  Ok (mkBuiltLayer (ld_id d) (layer_name d) (ld_type d) n (create_constant_operands (ld_id d) (ld_source d))
        (create_operand_source (ld_id d) (ld_source d)) a).

(** [WorkloadFactory.create], workload_factory.py:35-43, and [DNNWorkload]: the layers in order and
    the graph of their positions. *)
Definition create_workload (order : list string -> list string) (mapping : list entry) (data : list layer_data)
  : result (list built_layer * graph nat) :=
  ls <- rmap (create_layer order mapping) data ;;
  g <- dnn_workload (map (fun d => mkLayerspec (ld_id d) (ld_source d)) data) ;;
  Ok (ls, g).

(** [parse_workload], workload_parser.py:39-43 *)
Definition parse_workload (order : list string -> list string) (file : list raw_layer) (mapping_file : list raw_entry)
  : result (list built_layer * graph nat) :=
  data <- parse_workload_data file ;;
  mapping <- parse_mapping mapping_file ;;
  create_workload order mapping data.
