(** Model of the memory allocator (zigzag/opt/loma/memory_allocator.py) and of the
    tensor sizes it asks the layer for (zigzag/workload/layer_node.py:267-322).

    Memory operands, layer operands and layer dimensions are strings.  Loop sizes
    are exact rationals (float rounding not modelled). *)
From Verif Require Import Base Model_Pr.
Open Scope result_scope.

(** * What the allocator reads from the layer *)
Record layer := mkLayer {
  l_links : list (string * string);           (* (layer operand, memory operand) *)
  l_precision : dict string Z;                (* per layer operand, bits *)
  l_final_precision : Z;                      (* operand_precision.final_output_precision *)
  l_r_or_pr : dict string (list string);      (* get_r_or_pr_layer_dims *)
  l_ir : dict string (list string);           (* get_ir_layer_dims *)
  l_pr_loop : dict string (string * string);  (* pr_loop *)
  l_pr_scaling : dict string (Z * Z);         (* pr_scaling_factors, the numbers *)
  l_pr_sizes : dict string Z;                 (* pr_layer_dim_sizes *)
  l_dims : list string                        (* layer_dim_sizes.layer_dims *)
}.

(** [layer_dim_sizes[d]] on the [defaultdict(lambda: 1)] of calc_loops_size. *)
Definition size_of_dim (sizes : dict string Q) (d : string) : Q :=
  match dget d sizes with Some q => q | None => 1%Q end.

(** [calc_tensor_dim], layer_node.py:273-290, on a [defaultdict(lambda: 1)].  The
    insertion of a missing related dimension with size 1 as a side effect of reading
    it is not modelled: it could only turn the final [ValueError] of a later
    dimension into 1.  [int(q)] of a positive number is its floor. *)
Definition calc_tensor_dim (ly : layer) (sizes : dict string Q) (dim : string) : result Q :=
  match dget dim sizes with
  | Some q => Ok q
  | None =>
      match dget dim (l_pr_loop ly) with
      | Some (da, db) =>
          let a := Qfloor (size_of_dim sizes da) in
          let b := Qfloor (size_of_dim sizes db) in
          sc <- dgetr dim (l_pr_scaling ly) ;;
          let n := calc_pr_dimension_size (fst sc) a (snd sc) b in
          m <- dgetr dim (l_pr_sizes ly) ;;
          Ok (inject_Z (Z.min m n))
      | None => if memb dim (l_dims ly) then Ok 1%Q else Err ValueError
      end
  end.

(** [calc_tensor_size], layer_node.py:267-271. *)
Definition calc_tensor_size (ly : layer) (op : string) (sizes : dict string Q) : result Q :=
  dims <- dgetr op (l_r_or_pr ly) ;;
  qs <- rmap (calc_tensor_dim ly sizes) dims ;;
  Ok (qprod qs).

(** * The allocator *)

(** [Loop], zigzag/opt/loma/loop.py: dimension, size, and whether it is temporal. *)
Record aloop := mkLoop { a_dim : string; a_size : Q; a_temporal : bool }.

(** A temporal loop of the ordering: dimension and integer size. *)
Notation tloop := (string * Z)%type.
Definition of_tloop (t : tloop) : aloop := mkLoop (fst t) (inject_Z (snd t)) true.
Definition of_spatial (s : string * Q) : aloop := mkLoop (fst s) (snd s) false.

(** A memory level: identity, capacity in bits, operands it stores.  Equality of
    MemoryLevel objects (memory_level.py:155-163) is modelled by the identity: two
    levels storing the same operand differ in [mem_level_of_operands]. *)
Record memlevel := mkMem { m_id : nat; m_size : Z; m_operands : list string }.

Inductive mapping_type := UNEVEN | EVEN.

(** State per memory operand: [allocated], [unallocated], the operand's entry of
    [temporal_mapping_dict] and of [mem_level] (both keyed by layer operand in the
    code; layer and memory operands are linked one to one, C33). *)
Record opstate := mkOp {
  o_layer_op : string;
  o_alloc : list aloop;
  o_unalloc : list tloop;
  o_map : list (list tloop);
  o_level : nat }.

Section Allocator.
  Variable ly : layer.
  (** [spatial_mapping.mapping_dict_origin]: loops per layer operand and level. *)
  Variable spatial : dict string (list (list (string * Q))).
  Variable mtype : mapping_type.
  (** [top_levels], memory_allocator.py:91: identity of the top memory per operand. *)
  Variable top_levels : dict string nat.

  (** [get_unrolling], spatial_mapping_internal.py:57-61 *)
  Definition get_unrolling (op : string) (level : nat) : result (list (string * Q)) :=
    ls <- dgetr op spatial ;; of_option IndexError (nth_error ls level).

  (** [get_unrolling_all], spatial_mapping_internal.py:63-77 *)
  Definition get_unrolling_all (op : string) (min_level : nat) : result (list (string * Q)) :=
    ls <- dgetr op spatial ;; Ok (concat (skipn min_level ls)).

  (** memory_allocator.py:34-79 *)
  Definition init_op (ordering : list tloop) (lm : string * string) : result (string * opstate) :=
    let '(layer_op, mem_op) := lm in
    s0 <- get_unrolling layer_op 0 ;;
    Ok (mem_op, mkOp layer_op (map of_spatial s0) ordering [] 1).
  Definition init_state (ordering : list tloop) : result (dict string opstate) :=
    rmap (init_op ordering) (l_links ly).

  (** The name of the output memory operand, zigzag/datatypes.py:104. *)
  Definition output_mem_op : string := "O".

  (** [get_precision], memory_allocator.py:153-175 *)
  Definition get_precision (mem_op : string) (st : opstate) : result Z :=
    if eqb mem_op output_mem_op then
      ir <- dgetr (o_layer_op st) (l_ir ly) ;;
      sp <- get_unrolling_all (o_layer_op st) (o_level st) ;;
      if existsb (fun d => memb d ir) (map fst sp ++ map fst (o_unalloc st))
      then dgetr (o_layer_op st) (l_precision ly)
      else Ok (l_final_precision ly)
    else dgetr (o_layer_op st) (l_precision ly).

  (** memory_allocator.py:229-231: product of the loop sizes per dimension. *)
  Definition dim_sizes (loops : list aloop) : dict string Q :=
    fold_left (fun d l => dset (a_dim l) (size_of_dim d (a_dim l) * a_size l)%Q d) loops [].

  (** [calc_loops_size], memory_allocator.py:216-235 *)
  Definition calc_loops_size (loops : list aloop) (op : string) (precision : Z) : result Q :=
    t <- calc_tensor_size ly op (dim_sizes loops) ;; Ok (t * inject_Z precision)%Q.

  (** The loop of [calc_size_slices], memory_allocator.py:198-214, from index
      [length pre] on ([db_support] is never set by its only caller). *)
  Fixpoint slices (alloc : list aloop) (op : string) (precision : Z) (cap : Z)
      (pre rest : list tloop) : result (list Q) :=
    size <- calc_loops_size (alloc ++ map of_tloop pre) op precision ;;
    if Qle_bool size (inject_Z cap) then
      match rest with
      | [] => Ok [size]
      | t :: rest' => ss <- slices alloc op precision cap (pre ++ [t]) rest' ;; Ok (size :: ss)
      end
    else match pre with [] => Err MemoryTooSmall | _ => Ok [] end.

  (** [calc_size_slices], memory_allocator.py:177-214 *)
  Definition calc_size_slices (mem_op : string) (st : opstate) (cap : Z) : result (list Q) :=
    p <- get_precision mem_op st ;;
    slices (o_alloc st) (o_layer_op st) p cap [] (o_unalloc st).

  (** Per operand of [find_best_loop_combination]: sizes, index offset, accesses. *)
  Record cand := mkCand { c_sizes : list Q; c_offset : nat; c_accesses : list Q }.

  Definition is_top (node : memlevel) (mem_op : string) : result bool :=
    t <- dgetr mem_op top_levels ;; Ok (Nat.eqb (m_id node) t).

  (** memory_allocator.py:251-282: for a top level only the largest slice is kept;
      accesses = unallocated iterations x size, 0 at the top. *)
  Definition candidates (node : memlevel) (mem_op : string) (st : opstate) (sizes : list Q)
    : result cand :=
    top <- is_top node mem_op ;;
    if top then
      s <- of_option IndexError (nth_error sizes (length sizes - 1)) ;;
      Ok (mkCand [s] (length sizes - 1) [0%Q])
    else
      Ok (mkCand sizes 0
            (map (fun is => (inject_Z (zprod (map snd (skipn (fst is) (o_unalloc st)))) * snd is)%Q)
                 (combine (seq 0 (length sizes)) sizes))).

  (** [(i // prod(maxs[k+1:])) % maxs[k]] for every k, memory_allocator.py:294-295. *)
  Fixpoint digits (i : nat) (maxs : list nat) : list nat :=
    match maxs with
    | [] => []
    | m :: ms => ((i / fold_right Nat.mul 1 ms) mod m)%nat :: digits i ms
    end.

  Definition nthq (l : list Q) (k : nat) : Q := nth k l 0%Q.

  (** Sum over the operands of the entries selected by the digits, lines 292-298. *)
  Fixpoint comb_sum (f : cand -> list Q) (cs : list cand) (ds : list nat) : Q :=
    match cs, ds with
    | c :: cs', d :: ds' => (nthq (f c) d + comb_sum f cs' ds')%Q
    | _, _ => 0%Q
    end.
  Fixpoint comb_idxs (cs : list cand) (ds : list nat) : list nat :=
    match cs, ds with
    | c :: cs', d :: ds' => (d + c_offset c)%nat :: comb_idxs cs' ds'
    | _, _ => []
    end.

  (** One iteration of the search, lines 290-308; the accumulator is
      (best_accesses, best_loop_idxs), [None] being infinity. *)
  Definition search_step (valid : list nat -> bool) (cap : Z) (cs : list cand)
      (best : option Q * list nat) (i : nat) : result (option Q * list nat) :=
    let ds := digits i (map (fun c => length (c_sizes c)) cs) in
    let size := comb_sum c_sizes cs ds in
    let acc := comb_sum c_accesses cs ds in
    let idxs := comb_idxs cs ds in
    if negb (Qle_bool size (inject_Z cap)) then
      match i with O => Err MemoryTooSmall | _ => Ok best end
    else if (match fst best with None => true | Some b => Qle_bool acc b end) && valid idxs
    then Ok (Some acc, idxs)
    else Ok best.

  Definition search (valid : list nat -> bool) (cap : Z) (cs : list cand)
    : result (list nat) :=
    let nb := fold_right Nat.mul 1%nat (map (fun c => length (c_sizes c)) cs) in
    best <- rfold (search_step valid cap cs) (None, map (fun _ => O) cs) (seq 0 nb) ;;
    Ok (snd best).

  (** [(i + offset, loop)] pairs, memory_allocator.py:326-335. *)
  Definition numbered (start : nat) (ls : list tloop) : list (nat * tloop) :=
    combine (seq start (length ls)) ls.
  Definition n_temporal (st : opstate) : nat := length (filter a_temporal (o_alloc st)).
  Definition eq_numbered (x y : nat * tloop) : bool :=
    Nat.eqb (fst x) (fst y) && eqb (fst (snd x)) (fst (snd y)) && (snd (snd x) =? snd (snd y)).

  (** [is_valid_idx_combination_for_mapping_type], memory_allocator.py:311-339 *)
  Definition valid_idxs (sts : list opstate) (idxs : list nat) : bool :=
    match mtype with
    | UNEVEN => true
    | EVEN =>
        let alloc := flat_map (fun si => numbered (n_temporal (fst si))
                                 (firstn (snd si) (o_unalloc (fst si)))) (combine sts idxs) in
        let remain := flat_map (fun si => numbered (n_temporal (fst si) + snd si)
                                 (skipn (snd si) (o_unalloc (fst si)))) (combine sts idxs) in
        negb (existsb (fun x => existsb (eq_numbered x) remain) alloc)
    end.

  (** Lines 121-151 for one operand. *)
  Definition commit (node : memlevel) (st : dict string opstate) (mi : string * nat)
    : result (dict string opstate) :=
    let '(mem_op, k) := mi in
    o <- dgetr mem_op st ;;
    let taken := firstn k (o_unalloc o) in
    let left := skipn k (o_unalloc o) in
    sp <- get_unrolling (o_layer_op o) (o_level o) ;;
    top <- is_top node mem_op ;;
    if top && negb (match left with [] => true | _ => false end)
    then Err MemoryHierarchyTooSmall
    else Ok (dset mem_op (mkOp (o_layer_op o)
               (o_alloc o ++ map of_tloop taken ++ map of_spatial sp)
               left (o_map o ++ [taken]) (S (o_level o))) st).

  (** [allocate_node], memory_allocator.py:99-151 *)
  Definition allocate_node (st : dict string opstate) (node : memlevel)
    : result (dict string opstate) :=
    let ops := filter (fun op => memb op (map snd (l_links ly))) (m_operands node) in
    sts <- rmap (fun op => dgetr op st) ops ;;
    all_sizes <- rmap (fun os => calc_size_slices (fst os) (snd os) (m_size node)) (combine ops sts) ;;
    cs <- rmap (fun x => candidates node (fst (fst x)) (snd (fst x)) (snd x))
               (combine (combine ops sts) all_sizes) ;;
    idxs <- search (valid_idxs sts) (m_size node) cs ;;
    rfold (commit node) st (combine ops idxs).

  (** [run] up to the construction of the TemporalMapping, memory_allocator.py:81-97;
      [nodes] is the topological order.  The result is [temporal_mapping_dict]. *)
  Definition allocator_run (ordering : list tloop) (nodes : list memlevel)
    : result (dict string (list (list tloop))) :=
    st0 <- init_state ordering ;;
    st <- rfold allocate_node st0 nodes ;;
    Ok (map (fun kv => (o_layer_op (snd kv), o_map (snd kv))) st).
End Allocator.
