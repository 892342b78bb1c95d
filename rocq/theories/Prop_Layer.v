(** C32, C34, C35, C64, C65, C66: layers described by the user. *)
From Verif Require Import Base Model_Pr Model_Loma Model_Perm Model_Alloc Model_Text Model_Layer Model_TemporalStage
  Spec_Pr Spec_Loma Spec_Layer
  Proof_Text Proof_Ordering Proof_TemporalStage Proof_Relevancy Proof_Elements Proof_Node Proof_LomaRun Proof_LomaFactors.
Open Scope string_scope.
Open Scope list_scope.
Open Scope Z_scope.

(** * C32 *)

(** For every operand of a built layer, each dimension of size other than 1 is relevant,
    irrelevant or part of a derived dimension, and only one of these; an operand without
    derived dimensions among its subscripts has none stored; relevant dimensions are
    subscripts, irrelevant ones are not. *)
Theorem C32_partition order links nd ln rels op subs :
  (forall l, Permutation (order l) l) ->
  layer_node_of order links nd = Ok ln ->
  rmap create_relation (nd_relations nd) = Ok rels -> NoDup (map rel_1 rels) ->
  In op (ln_operands ln) -> get_r_layer_dims (node_tokens nd) op = Ok subs ->
  exists rv, dget op (ln_relevancy ln) = Some rv /\
    (forall d n, dget d (ln_sizes ln) = Some n -> n <> 1 ->
       one_of (In d (rv_r rv)) (In d (rv_ir rv)) (part_of (rv_pr rv) d)) /\
    ((forall d, In d subs -> ~ In d (map rel_1 rels)) -> rv_pr rv = []) /\
    ((exists d, In d subs /\ In d (map rel_1 rels)) -> rv_pr rv = pr_loop_of rels) /\
    (forall d, In d (rv_r rv) -> In d subs) /\ (forall d, In d (rv_ir rv) -> ~ In d subs).
Proof. exact (fun P B R N I S => node_relevancy order links nd ln rels op subs P B R I S N). Qed.
Print Assumptions C32_partition.

(** A loop is irrelevant exactly when the element accessed does not depend on it, for
    operands with all derived dimensions or none. *)
Theorem C32_irrelevant_is_independent order links nd ln rels op subs :
  (forall l, Permutation (order l) l) ->
  layer_node_of order links nd = Ok ln ->
  rmap create_relation (nd_relations nd) = Ok rels ->
  In op (ln_operands ln) -> get_r_layer_dims (node_tokens nd) op = Ok subs ->
  sensible rels (keys (ln_sizes ln)) -> all_or_none rels subs ->
  exists rv, dget op (ln_relevancy ln) = Some rv /\
    forall d n, dget d (ln_sizes ln) = Some n -> n <> 1 -> (In d (rv_ir rv) <-> independent rels subs d).
Proof. exact (node_semantic order links nd ln rels op subs). Qed.
Print Assumptions C32_irrelevant_is_independent.

Example C32_met : exists ln rv, layer_node_of same_order [] conv_node = Ok ln /\
  dget "I" (ln_relevancy ln) = Some rv /\ rv_r rv = ["B"; "C"] /\ rv_ir rv = ["K"] /\
  rv_pr rv = [("IX", ("OX", "FX")); ("IY", ("OY", "FY"))].
Proof. eexists. eexists. split; [vm_compute; reflexivity|]. split; [reflexivity|]. repeat split. Qed.

(** With only some of the derived dimensions, loops the operand does not depend on are
    not irrelevant: [W[ix]] does not depend on [OY], and [OY] is counted in its size. *)
Theorem C32_mixed_refuted :
  exists order links nd ln rels subs rv,
  (forall l, Permutation (order l) l) /\ layer_node_of order links nd = Ok ln /\
  rmap create_relation (nd_relations nd) = Ok rels /\ sensible rels (keys (ln_sizes ln)) /\
  In "W" (ln_operands ln) /\ get_r_layer_dims (node_tokens nd) "W" = Ok subs /\
  dget "W" (ln_relevancy ln) = Some rv /\ dget "OY" (ln_sizes ln) = Some 8 /\
  independent rels subs "OY" /\ ~ In "OY" (rv_ir rv) /\
  dget "W" (ln_size_elem ln) = Some 100 /\ elements_touched rels subs (ln_sizes ln) = 10.
Proof. exact mixed_example. Qed.
Print Assumptions C32_mixed_refuted.

(** * C34 *)

(** An ordering with an open factor is not complete; otherwise, unless some product is 1,
    it is complete exactly when the products are the required sizes. *)
Theorem C34_complete_partial (o : ordering) (required : dict string Z) :
  NoDup (keys required) -> (forall d n, In (d, n) required -> n <> 1) ->
  ((exists d, In (d, None) o) -> is_complete o required = Ok false) /\
  forall loops, all_given o loops ->
    ((exists d, In d (map fst loops) /\ loop_product d loops = 1) -> is_complete o required = Err RuntimeError) /\
    ((forall d, In d (map fst loops) -> loop_product d loops <> 1) ->
     exists b, is_complete o required = Ok b /\ (b = true <-> forall d, loop_product d loops = size_or_1 d required)).
Proof. exact (complete_spec o required). Qed.
Print Assumptions C34_complete_partial.

Example C34_met : is_complete [("K", Some 2); ("C", Some 3); ("K", Some 4)] [("C", 3); ("K", 8)] = Ok true /\
  is_complete [("K", Some 2); ("C", Some 3)] [("C", 3); ("K", 8)] = Ok false.
Proof. split; vm_compute; reflexivity. Qed.

(** A loop of size 1 makes the check fail instead of being ignored. *)
Theorem C34_unit_loop_refuted :
  is_complete [("K", Some 8); ("C", Some 1)] [("K", 8)] = Err RuntimeError.
Proof. vm_compute. reflexivity. Qed.
Print Assumptions C34_unit_loop_refuted.

(** * C35 *)

(** The constraints of an ordering make the generator yield exactly the rearrangements of
    the loops that meet it, whatever the loops. *)
Theorem C35_pins (o : ordering) (E : list (string * Z)) : E <> [] -> (length o <= length E)%nat ->
  let '(ps, qs) := get_constraints o in
  exists V keep,
    (forall fuel, (length V <= fuel)%nat ->
       constrained_permutations loop_ltb fuel E [positions_valid ps; positions_sizes_valid qs] = Ok (filter keep V)) /\
    (forall p, In p V <-> Permutation p E) /\ (forall p, In p V -> keep p = true <-> meets o p).
Proof. exact (constraints_generate o E). Qed.
Print Assumptions C35_pins.

(** Removal keeps the entries on dimensions of the layer, in order. *)
Theorem C35_removal dims (o : ordering) :
  remove_invalid_layer_dims dims o = filter (fun e => memb (fst e) dims) o.
Proof. exact (remove_invalid_spec dims o). Qed.
Print Assumptions C35_removal.

Example C35_met : get_constraints [("K", Some 2); ("C", None); ("*", None); ("OX", Some 4); ("B", None)]
  = ([(1, "C"); (-1, "B")], [(0, ("K", 2)); (-2, ("OX", 4))]).
Proof. vm_compute. reflexivity. Qed.

(** Together they lose the wildcard: the factory removes it as an unknown dimension, and
    an entry meant for the outermost loop is pinned to the innermost. *)
Theorem C35_wildcard_refuted :
  exists dims (o : ordering) p,
    get_constraints (remove_invalid_layer_dims dims o) = ([(0, "K")], []) /\
    get_constraints o = ([(-1, "K")], []) /\
    meets o p /\ ~ meets (remove_invalid_layer_dims dims o) p.
Proof. exact wildcard_example. Qed.
Print Assumptions C35_wildcard_refuted.

(** * C64 *)

(** Operands and subscripts of an equation are read as written. *)
Theorem C64_equation (e : written_equation) : plain_equation e ->
  let tokens := disassembly (create_equation (equation_text e)) in
  contained_operands tokens = Ok (map wr_name (operands_of e)) /\
  forall i w, nth_error (operands_of e) i = Some w ->
    (forall j w', (j < i)%nat -> nth_error (operands_of e) j = Some w' -> wr_name w' <> wr_name w) ->
    get_r_layer_dims tokens (wr_name w) = Ok (dims_of w).
Proof. exact (equation_read e). Qed.
Print Assumptions C64_equation.

(** So are relations. *)
Theorem C64_relation (r : written_relation) : good_relation r ->
  create_relation (relation_text r) =
  Ok (mkRel (upper (wl_1 r)) (coef_of (wl_2 r)) (upper (wt_dim (wl_2 r)))
            (coef_of (wl_3 r)) (upper (wt_dim (wl_3 r)))).
Proof. exact (relation_read r). Qed.
Print Assumptions C64_relation.

Example C64_met : plain_equation conv_equation /\ accepted conv_equation /\
  equation_text conv_equation = "O[b][k][oy][ox]+=W[k][c][fy][fx]*I[b][c][iy][ix]" /\
  create_relation "ix = 2*ox + fx" = Ok (mkRel "IX" 2 "OX" 1 "FX").
Proof. exact conv_example. Qed.

(** Two accepted forms are not read as written: [+ =] with a gap, and names with [_]. *)
Theorem C64_gap_refuted : exists e, accepted e /\ equation_text e = "O[k] + = W[k]*I[k]" /\
  contained_operands (disassembly (create_equation (equation_text e))) = Ok ["O"; "="; "W"; "I"].
Proof. exact gap_example. Qed.
Print Assumptions C64_gap_refuted.

Theorem C64_underscore_refuted : exists e, accepted e /\ equation_text e = "O[k_1]+=W[k_1]*I[k]" /\
  get_r_layer_dims (disassembly (create_equation (equation_text e))) "W" = Ok ["K"; "1"].
Proof. exact underscore_example. Qed.
Print Assumptions C64_underscore_refuted.

(** * C65 *)

(** A complete ordering is the one that is allocated. *)
Theorem C65_complete factorint lim layer_sizes unrolled ly spatial mt tops nodes (o : ordering) given required fuel :
  NoDup (keys layer_sizes) ->
  get_temporal_loops layer_sizes unrolled = Ok required ->
  all_given o given -> (forall d, In d (map fst given) -> loop_product d given <> 1) ->
  (forall d, loop_product d given = size_or_1 d required) ->
  temporal_stage factorint lim layer_sizes unrolled ly spatial mt tops nodes fuel o =
  match allocator_run ly spatial mt tops given nodes with Ok m => ([m], None) | Err e => ([], Some e) end.
Proof. exact (stage_complete factorint lim layer_sizes unrolled ly spatial mt tops nodes o given required fuel). Qed.
Print Assumptions C65_complete.

(** With an incomplete ordering, the mappings are the allocations of exactly the orders of
    the loops that meet it. *)
Theorem C65_constrained factorint lim layer_sizes unrolled ly spatial mt tops nodes (o : ordering) required lpfs :
  get_temporal_loops layer_sizes unrolled = Ok required ->
  is_complete o required = Ok false ->
  engine_lpfs factorint (pinned_sizes (get_constraints o)) lim layer_sizes unrolled = Ok lpfs ->
  lpfs <> [] -> (length o <= length lpfs)%nat ->
  (forall p e, Permutation p lpfs -> allocator_run ly spatial mt tops p nodes = Err e ->
     e = MemoryHierarchyTooSmall \/ e = MemoryTooSmall) ->
  exists enough, forall fuel, (enough <= fuel)%nat ->
    let '(mappings, error) := temporal_stage factorint lim layer_sizes unrolled ly spatial mt tops nodes fuel o in
    (forall m, In m mappings <-> exists p, Permutation p lpfs /\ meets o p /\ allocator_run ly spatial mt tops p nodes = Ok m) /\
    (error = None \/ error = Some NoValidLoopOrdering) /\
    (error = None <-> mappings <> []).
Proof. exact (stage_mappings factorint lim layer_sizes unrolled ly spatial mt tops nodes o required lpfs). Qed.
Print Assumptions C65_constrained.

Example C65_met : exists lpfs,
  get_temporal_loops [("K", 4); ("C", 3); ("OX", 2)] [("OX", 2%Q)] = Ok [("K", 4); ("C", 3)] /\
  is_complete [("C", None)] [("K", 4); ("C", 3)] = Ok false /\
  engine_lpfs factorint_td (pinned_sizes (get_constraints [("C", None)])) None [("K", 4); ("C", 3); ("OX", 2)] [("OX", 2%Q)] = Ok lpfs /\
  lpfs <> [] /\ (1 <= length lpfs)%nat /\
  meets [("C", None)] [("C", 3); ("K", 2); ("K", 2)] /\ ~ meets [("C", None)] [("K", 2); ("C", 3); ("K", 2)].
Proof. exact pinned_example. Qed.

(** * C66 *)

(** The size stored for an operand is the number of its elements in the tensor that the
    layer touches. *)
Theorem C66_elements_partial order links nd ln rels op subs padding :
  (forall l, Permutation (order l) l) ->
  layer_node_of order links nd = Ok ln ->
  rmap create_relation (nd_relations nd) = Ok rels ->
  In op (ln_operands ln) -> get_r_layer_dims (node_tokens nd) op = Ok subs ->
  (forall d n, In (d, n) (ln_sizes ln) -> 0 < n) ->
  sensible rels (keys (ln_sizes ln)) -> all_or_none rels subs -> separate rels subs (ln_sizes ln) ->
  create_padding nd = Ok padding -> create_pr_layer_dim_sizes nd = None ->
  (forall r, In r rels -> padding_ok (ln_sizes ln) (pad_of padding) r) ->
  dget op (ln_size_elem ln) =
    Some (elements_inside (in_tensor rels (ln_sizes ln) (pad_of padding)) rels subs (ln_sizes ln)).
Proof. exact (fun P B R I S Z G A Ap => node_elements order links nd ln rels op subs P B R I S Z G A Ap padding). Qed.
Print Assumptions C66_elements_partial.

(** With sizes of the derived dimensions given that are not too small. *)
Theorem C66_given_sizes_partial order links nd ln rels op subs given :
  (forall l, Permutation (order l) l) ->
  layer_node_of order links nd = Ok ln ->
  rmap create_relation (nd_relations nd) = Ok rels ->
  In op (ln_operands ln) -> get_r_layer_dims (node_tokens nd) op = Ok subs ->
  (forall d n, In (d, n) (ln_sizes ln) -> 0 < n) ->
  sensible rels (keys (ln_sizes ln)) -> all_or_none rels subs -> separate rels subs (ln_sizes ln) ->
  create_pr_layer_dim_sizes nd = Some given ->
  (forall r, In r rels -> exact_count (ln_sizes ln) r /\ exists m, dget (rel_1 r) given = Some m /\
     distinct (all_indices (rel_coef_2 r) (size_of (ln_sizes ln) (rel_2 r)) (rel_coef_3 r) (size_of (ln_sizes ln) (rel_3 r))) <= m) ->
  dget op (ln_size_elem ln) = Some (elements_touched rels subs (ln_sizes ln)).
Proof. exact (fun P B R I S Z G A Ap => node_elements_given order links nd ln rels op subs P B R I S Z G A Ap given). Qed.
Print Assumptions C66_given_sizes_partial.

(** Without padding it is never less than the number of elements touched. *)
Theorem C66_not_below order links nd ln rels op subs :
  (forall l, Permutation (order l) l) ->
  layer_node_of order links nd = Ok ln ->
  rmap create_relation (nd_relations nd) = Ok rels ->
  In op (ln_operands ln) -> get_r_layer_dims (node_tokens nd) op = Ok subs ->
  (forall d n, In (d, n) (ln_sizes ln) -> 0 < n) ->
  sensible rels (keys (ln_sizes ln)) -> all_or_none rels subs -> separate rels subs (ln_sizes ln) ->
  create_pr_layer_dim_sizes nd = None -> nd_padding nd = None ->
  exists n, dget op (ln_size_elem ln) = Some n /\ elements_touched rels subs (ln_sizes ln) <= n.
Proof. exact (node_elements_over order links nd ln rels op subs). Qed.
Print Assumptions C66_not_below.

(** Number of operations, size in bits and reuse follow from it. *)
Theorem C66_bits_and_reuse order links nd ln op : layer_node_of order links nd = Ok ln -> In op (ln_operands ln) ->
  exists n p, dget op (ln_size_elem ln) = Some n /\ dget op (nd_precision nd) = Some p /\
    dget op (ln_size_bit ln) = Some (n * p) /\ n <> 0 /\
    ln_macs ln = zprod (values (create_layer_dim_sizes nd)) /\
    dget op (ln_reuse ln) = Some (inject_Z (ln_macs ln) / inject_Z n)%Q.
Proof. exact (node_bits order links nd ln op). Qed.
Print Assumptions C66_bits_and_reuse.

(** Sizes and paddings are those given, under capitalised names. *)
Theorem C66_as_given nd :
  (length (nd_loop_dims nd) = length (nd_loop_sizes nd) -> NoDup (map upper (nd_loop_dims nd)) ->
   create_layer_dim_sizes nd = combine (map upper (nd_loop_dims nd)) (nd_loop_sizes nd)) /\
  (forall dims data, nd_pr_loop_dims nd = Some dims -> nd_padding nd = Some data -> length dims = length data ->
   NoDup (map upper dims) -> create_padding nd = Ok (combine (map upper dims) data)) /\
  (forall dims sizes, nd_pr_loop_dims nd = Some dims -> nd_pr_loop_sizes nd = Some sizes -> length dims = length sizes ->
   NoDup (map upper dims) -> create_pr_layer_dim_sizes nd = Some (combine (map upper dims) sizes)).
Proof. exact (conj (read_sizes nd) (conj (read_padding nd) (read_derived nd))). Qed.
Print Assumptions C66_as_given.

(** A layer with readable relations, positive sizes, subscripts and precisions for all its
    operands is built. *)
Theorem C66_built order links nd rels padding ops :
  (forall l, Permutation (order l) l) ->
  rmap create_relation (nd_relations nd) = Ok rels -> create_padding nd = Ok padding ->
  contained_operands (node_tokens nd) = Ok ops ->
  (forall d n, In (d, n) (create_layer_dim_sizes nd) -> 0 < n) ->
  sensible rels (keys (create_layer_dim_sizes nd)) ->
  match create_pr_layer_dim_sizes nd with
  | Some (x :: l) => (forall r, In r rels -> In (rel_1 r) (keys (x :: l))) /\ forall d n, In (d, n) (x :: l) -> 0 < n
  | _ => forall r, In r rels -> fst (pad_of padding (rel_1 r)) + snd (pad_of padding (rel_1 r)) <
           calc_pr_dimension_size (rel_coef_2 r) (size_or_1 (rel_2 r) (create_layer_dim_sizes nd))
                                  (rel_coef_3 r) (size_or_1 (rel_3 r) (create_layer_dim_sizes nd))
  end ->
  (forall op, In op ops -> exists subs, get_r_layer_dims (node_tokens nd) op = Ok subs /\
     all_or_none rels subs /\ separate rels subs (create_layer_dim_sizes nd)) ->
  (forall op, In op ops -> In op (keys (nd_precision nd))) ->
  In "O_final" (keys (nd_precision nd)) \/ In "O" (keys (nd_precision nd)) ->
  exists ln, layer_node_of order links nd = Ok ln.
Proof. exact (node_total order links nd rels padding ops). Qed.
Print Assumptions C66_built.

Example C66_met : exists ln, layer_node_of same_order [] conv_node = Ok ln /\
  sensible [mkRel "IX" 2 "OX" 1 "FX"; mkRel "IY" 2 "OY" 1 "FY"] (keys (ln_sizes ln)) /\
  all_or_none [mkRel "IX" 2 "OX" 1 "FX"; mkRel "IY" 2 "OY" 1 "FY"] ["B"; "C"; "IY"; "IX"] /\
  separate [mkRel "IX" 2 "OX" 1 "FX"; mkRel "IY" 2 "OY" 1 "FY"] ["B"; "C"; "IY"; "IX"] (ln_sizes ln) /\
  rmap create_relation (nd_relations conv_node) = Ok [mkRel "IX" 2 "OX" 1 "FX"; mkRel "IY" 2 "OY" 1 "FY"] /\
  create_padding conv_node = Ok [("IX", (1, 0)); ("IY", (1, 0))] /\
  create_pr_layer_dim_sizes conv_node = None /\
  dget "I" (ln_size_elem ln) = Some (4 * (16 * 16)).
Proof. exact conv_sizes_example. Qed.

(** Outside the region of C01 it is too large. *)
Theorem C66_sparse_refuted :
  exists order links nd ln rels, layer_node_of order links nd = Ok ln /\
  rmap create_relation (nd_relations nd) = Ok rels /\
  dget "I" (ln_size_elem ln) = Some 11 /\ elements_touched rels ["IX"] (ln_sizes ln) = 8.
Proof. exact sparse_example. Qed.
Print Assumptions C66_sparse_refuted.
