(** Independent vocabulary for C76: workload descriptions that are accepted, and what is read. *)
From Coq Require Import Ascii.
From Verif Require Import Base Model_Text Model_Alloc Model_Graph Model_Layer Model_MapFile Model_Workload Model_WorkFile
  Spec_Pr Spec_Layer Spec_MapFile Spec_Workload.
Open Scope string_scope.
Open Scope list_scope.
Open Scope Z_scope.

(** * Descriptions that are accepted *)

(** Any white space *)
Definition spaces (s : string) : Prop :=
  forall c, In c (characters s) -> In (nat_of_ascii c) [9; 10; 11; 12; 13; 28; 29; 30; 31; 32]%nat.
Definition words (l : list string) : Prop := l <> [] /\ forall s, In s l -> wordlike s /\ s <> "".

(** The output [O] and two operands of one character, with subscripts; only those of the last operand
    may be empty. *)
Definition equation_form (e : written_equation) : Prop :=
  wr_name (we_out e) = "O" /\ words (wr_subs (we_out e)) /\
  spaces (we_gap1 e) /\ spaces (we_gap2 e) /\ spaces (we_end e) /\
  (we_assign e = "=" \/ exists g, spaces g /\ we_assign e = ("+" ++ g ++ "=")%string) /\
  (exists c, wr_name (we_first e) = String c "" /\ wordlike (String c "")) /\ words (wr_subs (we_first e)) /\
  exists f, we_rest e = [f] /\ spaces (fa_before f) /\ spaces (fa_after f) /\ (fa_op f = "*" \/ fa_op f = "+") /\
    (exists c, wr_name (fa_operand f) = String c "" /\ wordlike (String c "")) /\
    wr_subs (fa_operand f) <> [] /\ forall s, In s (wr_subs (fa_operand f)) -> wordlike s.

(** One side of a relation: a word, or two words with a star between. *)
Definition term_form (t : string) : Prop :=
  (wordlike t /\ t <> "") \/
  exists w g g' d, t = (w ++ g ++ "*" ++ g' ++ d)%string /\ wordlike w /\ w <> "" /\ spaces g /\ spaces g' /\ wordlike d /\ d <> "".
(** "ix = 2 * ox + fx"; a final line break is overlooked. *)
Definition relation_form (s : string) : Prop :=
  exists d g1 g2 t g3 g4 t' z, s = (d ++ g1 ++ "=" ++ g2 ++ t ++ g3 ++ "+" ++ g4 ++ t' ++ z)%string /\
    wordlike d /\ d <> "" /\ spaces g1 /\ spaces g2 /\ term_form t /\ spaces g3 /\ spaces g4 /\ term_form t' /\
    (z = "" \/ z = String "010" "").

(** Something is given for each of the derived dimensions that are named. *)
Definition one_each {A} (x : option (option (list A))) (dims : option (option (list string))) : Prop :=
  forall l, x = Some (Some l) -> exists ds, dims = Some (Some ds) /\ length l = length ds.

Record proper_layer (r : raw_layer) : Prop := {
  pl_type : exists t, rl_type r = Some t /\
    In t ["Max"; "Conv"; "Pooling"; "Add"; "Conv_downsample"; "Gemm"; "Pool"; "MaxPool"; "AveragePool"; "GlobalAveragePool"];
  pl_equation : exists e, rl_equation r = Some (equation_text e) /\ equation_form e;
  pl_relations : forall l s, rl_relations r = Some l -> In s l -> relation_form s;
  pl_precision : exists d, rl_precision r = Some d /\ In "O" (keys d) /\ In "O_final" (keys d) /\
    forall k, In k (keys d) -> In k ["I"; "W"; "O"; "O_final"];
  pl_source : forall d k, rl_source r = Some d -> In k (keys d) -> k = "I" \/ k = "W";
  pl_pairs : forall l p, rl_padding r = Some (Some l) -> In p l -> length p = 2%nat;
  pl_padding : one_each (rl_padding r) (rl_pr_dims r);
  pl_sizes : one_each (rl_pr_sizes r) (rl_pr_dims r) }.

(** What is asked of layers that are not checked, such as those made from ONNX nodes: as above, with any
    type, equation and relations *)
Record well_written (r : raw_layer) : Prop := {
  ww_type : exists t, rl_type r = Some t;
  ww_precision : exists d, rl_precision r = Some d /\ In "O" (keys d) /\ In "O_final" (keys d) /\
    forall k, In k (keys d) -> In k ["I"; "W"; "O"; "O_final"];
  ww_pairs : forall l p, rl_padding r = Some (Some l) -> In p l -> length p = 2%nat;
  ww_padding : one_each (rl_padding r) (rl_pr_dims r);
  ww_sizes : one_each (rl_pr_sizes r) (rl_pr_dims r) }.

(** Paddings or sizes are given for derived dimensions that are not named. *)
Definition unnamed_dims (r : raw_layer) : Prop :=
  (rl_pr_dims r = None \/ rl_pr_dims r = Some None) /\
  ((exists l, rl_padding r = Some (Some l)) \/ exists l, rl_pr_sizes r = Some (Some l)).

(** What is read for a field that may be missing *)
Definition field {A} (o : option A) (missing x : A) : Prop := o = Some x \/ (o = None /\ x = missing).
Definition layer_read (r : raw_layer) (d : layer_data) : Prop :=
  field (rl_id r) 0 (ld_id d) /\ field (rl_name r) None (ld_name d) /\ rl_type r = Some (ld_type d) /\
  rl_equation r = Some (ld_equation d) /\ field (rl_relations r) [] (ld_relations d) /\
  field (rl_dims r) [] (ld_dims d) /\ field (rl_sizes r) [] (ld_sizes d) /\ rl_precision r = Some (ld_precision d) /\
  field (rl_source r) [] (ld_source d) /\ field (rl_pr_dims r) None (ld_pr_dims d) /\
  field (rl_pr_sizes r) None (ld_pr_sizes d) /\ field (rl_padding r) None (ld_padding d).

(** * Descriptions that make sense *)

Definition relation_of (r : written_relation) : relation :=
  mkRel (upper (wl_1 r)) (coef_of (wl_2 r)) (upper (wt_dim (wl_2 r))) (coef_of (wl_3 r)) (upper (wt_dim (wl_3 r))).

(** The padding of a derived dimension *)
Definition padding_at (r : raw_layer) (d : string) : Z * Z :=
  match rl_pr_dims r, rl_padding r with
  | Some (Some dims), Some (Some ps) =>
      match find (fun x => eqb (fst x) d) (combine (map upper dims) ps) with
      | Some (_, [a; b]) => (a, b)
      | _ => (0, 0)
      end
  | _, _ => (0, 0)
  end.
(** Number of indices of a derived dimension *)
Definition indices_of (loops : list (string * Z)) (r : relation) : Z :=
  distinct (all_indices (rel_coef_2 r) (size_of loops (rel_2 r)) (rel_coef_3 r) (size_of loops (rel_3 r))).

(** Layer [r] is written with equation [e] and relations [ws], and has the given [loops]. *)
Record sensible_layer (r : raw_layer) (e : written_equation) (ws : list written_relation) (loops : list (string * Z)) : Prop := {
  sy_equation : rl_equation r = Some (equation_text e) /\ plain_equation e /\ NoDup (map wr_name (operands_of e));
  sy_relations : field (rl_relations r) [] (map relation_text ws) /\ forall w, In w ws -> good_relation w;
  sy_loops : exists dims sizes, rl_dims r = Some dims /\ rl_sizes r = Some sizes /\ length sizes = length dims /\
    loops = combine (map upper dims) sizes /\ NoDup (map upper dims) /\ forall n, In n sizes -> 0 < n;
  sy_sensible : sensible (map relation_of ws) (map fst loops);
  sy_operands : forall w, In w (operands_of e) -> all_or_none (map relation_of ws) (dims_of w) /\ separate (map relation_of ws) (dims_of w) loops;
  sy_precision : forall w d, In w (operands_of e) -> rl_precision r = Some d -> In (wr_name w) (keys d);
  sy_named : forall dims, rl_pr_dims r = Some (Some dims) -> NoDup (map upper dims);
  (** sizes of the derived dimensions are given, or what is not padding is not empty *)
  sy_derived :
    (exists dims n sizes, rl_pr_dims r = Some (Some dims) /\ rl_pr_sizes r = Some (Some (n :: sizes)) /\
       (forall x, In x (n :: sizes) -> 0 < x) /\ forall x, In x ws -> In (upper (wl_1 x)) (map upper dims)) \/
    ((forall sizes, rl_pr_sizes r = Some (Some sizes) -> sizes = []) /\
     forall x, In x ws -> fst (padding_at r (upper (wl_1 x))) + snd (padding_at r (upper (wl_1 x))) < indices_of loops (relation_of x)) }.

(** Each source is the layer itself or an earlier layer. *)
Definition identifier (r : raw_layer) : Z := default 0 (rl_id r).
Definition described (file : list raw_layer) : list layerspec :=
  map (fun r => mkLayerspec (identifier r) (default [] (rl_source r))) file.

(** * What is built *)

(** The mapping of a layer (C47) *)
Definition mapped_as (mapping : list raw_entry) (name type : string) (dims : list string) (a : mapping_attr) : Prop :=
  exists en, chosen name type (map normalise mapping) en /\
    (match en_spatial en with None => at_spatial a = [] | Some user => describes user (at_spatial a) end) /\
    at_hint a = en_hint en /\ at_links a = en_links en /\ NoDup (keys (at_links a)) /\ (forall op, In op (keys (at_links a)) <-> In op ["O"; "W"; "I"]) /\
    at_ordering a = filter (fun x => memb (fst x) dims) (create_ordering en).

Record layer_as (order : list string -> list string) (mapping : list raw_entry) (r : raw_layer) (e : written_equation)
    (ws : list written_relation) (loops : list (string * Z)) (l : built_layer) : Prop := {
  as_id : bl_id l = identifier r;
  as_name : field (match rl_name r with Some (Some n) => Some n | _ => None end) ("Layer" ++ string_of_Z (identifier r))%string (bl_name l);
  as_type : rl_type r = Some (bl_type l);
  as_operands : ln_operands (bl_node l) = map wr_name (operands_of e);
  as_sizes : ln_sizes (bl_node l) = loops;
  as_operations : ln_macs (bl_node l) = zprod (map snd loops);
  as_constants : forall op, In op (bl_constants l) <-> In (op, identifier r) (default [] (rl_source r));
  as_source : forall op s, In (op, s) (bl_source l) <-> In (op, s) (default [] (rl_source r)) /\ s <> identifier r;
  as_mapping : mapped_as mapping (bl_name l) (bl_type l) (map fst loops) (bl_mapping l);
  as_derived : forall w, In w ws -> exists n, dget (upper (wl_1 w)) (l_pr_sizes (ln_layer (bl_node l))) = Some n /\ 0 < n;
  (** the node is the one of C32 and C66 for what is written *)
  as_node : exists nd, layer_node_of order (at_links (bl_mapping l)) nd = Ok (bl_node l) /\
    rl_equation r = Some (nd_equation nd) /\ nd_relations nd = map relation_text ws /\
    rmap create_relation (nd_relations nd) = Ok (map relation_of ws) /\
    rl_precision r = Some (nd_precision nd) /\
    (forall w, In w (operands_of e) -> get_r_layer_dims (disassembly (create_equation (nd_equation nd))) (wr_name w) = Ok (dims_of w)) }.
