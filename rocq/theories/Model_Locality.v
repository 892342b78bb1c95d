(** Model of zigzag/stages/exploit_data_locality_stages.py.

    Layers are the nodes of the workload graph without dummies (Model_Workload); what the stages
    read of a layer is [info].  The memories are the levels of a hierarchy (Model_Hierarchy) in
    the order in which they were added; [oa] are the sizes of the array's dimensions. *)
From Verif Require Import Base Model_DataMove Model_Cost Model_Graph Model_Hierarchy.
Open Scope string_scope.
Open Scope list_scope.
Open Scope Z_scope.
Open Scope result_scope.

(** A layer: the memory operands of its activations, weights and outputs
    ([memory_operand_links] of [get_act_layer_op], [get_weight_layer_op], [output_operand]; see
    Model_Layer), the number of constant operands, and sizes in bits ([operand_size_bit]): of
    activations, weights, outputs, and of all inputs together. *)
Record loc_layer := mkLoc {
  lo_act : string; lo_weight : string; lo_out : string; lo_constants : nat;
  lo_act_bits : Z; lo_weight_bits : Z; lo_out_bits : Z; lo_input_bits : Z }.

Definition enumerate {A} (l : list A) : list (nat * A) := combine (seq 0 (length l)) l.
Definition updates : Type := dict nat (dict string Z).

Section Search.
  Variables (g : graph nat) (info : nat -> loc_layer) (levels : list level) (oa : dict string Z).

  (** [__get_top_mem_level_for_op], 71-80 *)
  Definition top_level_for (op : string) : Z :=
    fold_left (fun top kl => if memb op (keys (lv_dict (snd kl))) then Z.max (Z.of_nat (fst kl)) top else top) (rev (enumerate levels)) (-1).

  Definition is_adder (l : nat) : bool := Nat.eqb (lo_constants (info l)) 0.
  (** [each_layer_io_data_size], [mem_update_list] and [weight_size_entire_workload] for one
      layer, 82-110 *)
  Definition io_sizes (l : nat) : dict string Z :=
    let i := info l in
    dset (lo_out i) (lo_out_bits i) (dset (lo_act i) (if is_adder l then lo_input_bits i else lo_act_bits i) []).
  Definition no_levels (l : nat) : dict string Z := dset (lo_out (info l)) (-1) (dset (lo_act (info l)) (-1) []).
  Definition all_weights (order : list nat) : Z :=
    zsum (map (fun l => lo_weight_bits (info l)) (filter (fun l => negb (is_adder l)) order)).

  (** [update_io_mem_level], 258-264 *)
  Definition update_io (l : nat) (op : string) (target : Z) (u : updates) : result updates :=
    d <- dgetr l u ;;
    match dget op d with
    | Some lv => if (lv =? -1) || (target <? lv) then Ok (dset l (dset op target d) u) else Ok u
    | None => Ok u
    end.

  (** [next(self.workload_no_dummy.successors(layer))] *)
  Definition next_of (xs : list nat) : result nat := match xs with [] => Err StopIteration | x :: _ => Ok x end.

  (** 151-154 *)
  Definition is_branch (l : nat) : result bool :=
    if (1 <? Z.of_nat (out_degree g l)) then Ok true
    else if Nat.eqb (out_degree g l) 1 then s <- next_of (successors g l) ;; Ok (1 <? Z.of_nat (in_degree g s))
    else Ok false.

  (** [check_if_mem_serve_all_oa_dims], 226-231; the served dimensions are a set. *)
  Definition serves_all (m : level) : bool := Nat.eqb (length (lv_served m)) (length oa).

  (** One memory of the loop in [update_top_mem_level], 172-218.  The state: levels per layer and the
      level of the weights. *)
  Definition try_memory (weights : Z) (first final : bool) (l : nat) (st : updates * Z) (km : nat * level) : result (updates * Z) :=
    let '(u, wl) := st in
    let '(k, m) := km in
    let i := info l in
    let served := keys (lv_dict m) in
    let available := ml_size (lv_mem m) * unroll_count oa m in
    act_next <- (if final then Ok (lo_act i) else s <- next_of (successors g l) ;; Ok (lo_act (info s))) ;;
    let io_both := memb act_next served && memb (lo_out i) served in
    let serve_weight := memb (lo_weight i) served in
    let served := if is_adder l && io_both then [lo_out i; lo_act i] else served in
    if io_both || serve_weight then
      sizes <- rmap (fun op => dgetr op (io_sizes l)) (filter (fun op => negb (eqb op (lo_weight i))) served) ;;
      let required := zsum sizes + (if memb (lo_weight i) served then weights else 0) in
      if required <=? available then
        u <- (if io_both then
                u <- (if first then update_io l (lo_act i) (Z.of_nat k) u else Ok u) ;;
                update_io l (lo_out i) (Z.of_nat k) u
              else Ok u) ;;
        Ok (u, if (Z.of_nat k <? wl) && serves_all m && serve_weight then Z.of_nat k else wl)
      else Ok st
    else Ok st.

  (** One layer of [update_top_mem_level], 139-218; [first] and [final] are the first and last layer
      of the order, [top_act] and [top_out] the levels of 53-62. *)
  Definition try_layer (weights top_act top_out : Z) (first final : nat) (st : updates * Z) (l : nat) : result (updates * Z) :=
    let i := info l in
    branch <- is_branch l ;;
    u <- (if Nat.eqb l first then Ok (fst st)
          else
            prev <- next_of (predecessors g l) ;;
            d <- dgetr prev (fst st) ;;
            lv <- dgetr (lo_out (info prev)) d ;;
            update_io l (lo_act i) lv (fst st)) ;;
    if branch then
      u <- (if Nat.eqb l first then update_io l (lo_act i) top_act u else Ok u) ;;
      u <- update_io l (lo_out i) top_out u ;;
      Ok (u, snd st)
    else rfold (try_memory weights (Nat.eqb l first) (Nat.eqb l final) l) (u, snd st) (rev (enumerate levels)).

  (** [__init__], 36-69, and [update_top_mem_level], 132-224 *)
  Definition search_levels : result (updates * Z) :=
    match g_nodes g with
    | [] => Err IndexError
    | l0 :: _ =>
        let i0 := info l0 in
        let top_act := top_level_for (lo_act i0) in
        let top_out := top_level_for (lo_out i0) in
        order <- topological_sort g ;;
        let u := fold_left (fun u l => dset l (no_levels l) u) order [] in
        st <- match order with
              | [] => Ok (u, top_level_for (lo_weight i0))
              | first :: _ => rfold (try_layer (all_weights order) top_act top_out first (last order 0%nat)) (u, top_level_for (lo_weight i0)) order
              end ;;
        if forallb (fun d => forallb (fun x => 0 <=? snd x) (snd d)) (fst st) then Ok st else Err AssertionError
    end.

  (** [update_mem_level_for_loading_data], 233-256, run after the above on demand *)
  Definition load_from_top (u : updates) : result updates :=
    match g_nodes g with
    | [] => Err IndexError
    | l0 :: _ =>
        order <- topological_sort g ;;
        match order with
        | [] => Ok u
        | first :: _ =>
            rfold (fun u l =>
              u <- (if Nat.eqb l first then update_io l (lo_act (info l)) (top_level_for (lo_act (info l0))) u else Ok u) ;;
              if Nat.eqb l (last order 0%nat) then update_io l (lo_out (info l)) (top_level_for (lo_out (info l0))) u else Ok u) u order
        end
    end.

  (** [run], 112-130; a StopIteration inside a generator becomes a RuntimeError. *)
  Definition search_stage (always_from_top : bool) : result (updates * Z) :=
    match (st <- search_levels ;; if always_from_top then u <- load_from_top (fst st) ;; Ok (u, snd st) else Ok st) with
    | Err StopIteration => Err RuntimeError
    | r => r
    end.
End Search.

(** [generate_accelerator_with_removing_unused_memory], 299-382.  The new hierarchy is built from
    the description of the old one: a memory keeps the operands whose target it does not exceed,
    and the port functions of those operands.  Ports are copied with their identifiers there and
    numbered anew here. *)
Definition kept_operands (l : loc_layer) (ta tw to : Z) (k : nat) (m : memspec) : list string :=
  (if memb (lo_act l) (ms_operands m) && (Z.of_nat k <=? ta) then [lo_act l] else []) ++
  (if memb (lo_weight l) (ms_operands m) && (Z.of_nat k <=? tw) then [lo_weight l] else []) ++
  (if memb (lo_out l) (ms_operands m) && (Z.of_nat k <=? to) then [lo_out l] else []).
Definition prune_memory (l : loc_layer) (ta tw to : Z) (km : nat * memspec) : list memspec :=
  let '(k, m) := km in
  match kept_operands l ta tw to k m with
  | [] => []
  | ops =>
      [mkMemspec (ms_size m) (ms_r_cost m) (ms_w_cost m) ops
         (map (fun p => mkPortspec (ps_name p) (ps_type p) (ps_bw_min p) (ps_bw_max p) (filter (fun a => memb (fst a) ops) (ps_alloc p))) (ms_ports m))
         (ms_served m)]
  end.
Definition prune (l : loc_layer) (ta tw to : Z) (ms : list memspec) : list memspec :=
  flat_map (prune_memory l ta tw to) (enumerate ms).
Definition exploit_stage (port_counter : nat) (ms : list memspec) (id : nat) (l : loc_layer) (u : updates) (weight_level : Z) : result hierarchy :=
  d <- dgetr id u ;;
  ta <- of_option IndexError (dget (lo_act l) d) ;;
  to <- of_option IndexError (dget (lo_out l) d) ;;
  build port_counter (prune l ta (if Nat.eqb (lo_constants l) 0 then ta else weight_level) to ms).
