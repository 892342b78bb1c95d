(** Model of building a memory hierarchy from the (parsed) hardware description:
    zigzag/parser/accelerator_factory.py:146-246, parser/accelerator_validator.py:207-245,
    hardware/architecture/memory_port.py, memory_level.py:47-132, memory_hierarchy.py and
    accelerator.py:47-90.  Cost extraction with CACTI is not modelled: costs are given.  Nodes
    of the graph are [MemoryLevel]s that hash by their identifier, which is their position in
    [mem_level_list]; the graph is over those positions. *)
From Coq Require Import QArith Ascii.
From Verif Require Import Base Model_DataMove Model_Cost Model_Graph.
Local Open Scope string_scope.
Local Open Scope list_scope.
Local Open Scope result_scope.

(** * The description of a memory *)

(** [MemoryPortType], memory_port.py:9-12 *)
Inductive ptype := PRead | PWrite | PReadWrite.
(** An entry of "ports"; an allocation ["I1, fh"] is given split, as accelerator_factory.py:211
    does. *)
Record portspec := mkPortspec {
  ps_name : string; ps_type : ptype; ps_bw_min : Z; ps_bw_max : Z; ps_alloc : list (string * string) }.
(** An entry of "memories"; only what the hierarchy reads. *)
Record memspec := mkMemspec {
  ms_size : Z; ms_r_cost : Q; ms_w_cost : Q; ms_operands : list string; ms_ports : list portspec; ms_served : list string }.

(** * Validation, accelerator_validator.py:207-245 *)

(** the port rules of [validate_single_memory], 231-245 *)
Definition port_valid (p : portspec) : bool :=
  forallb (fun a =>
    negb (memb (snd a) ["fh"; "fl"] && match ps_type p with PRead => true | _ => false end) &&
    negb (memb (snd a) ["th"; "tl"] && match ps_type p with PWrite => true | _ => false end)) (ps_alloc p) &&
  negb (ps_bw_max p <? ps_bw_min p)%Z.
(** served dimensions, 226-229, and the above.  The schema itself (cerberus) is not modelled. *)
Definition memory_valid (oa_dims : list string) (m : memspec) : bool :=
  forallb (fun d => memb d oa_dims) (ms_served m) && forallb port_valid (ms_ports m).

(** * Port allocation *)

(** [translate_to_data_direction], accelerator_factory.py:235-246 *)
Definition translate (x : string) : result direction :=
  if eqb x "fh" then Ok WrHigh else if eqb x "fl" then Ok WrLow else if eqb x "th" then Ok RdHigh
  else if eqb x "tl" then Ok RdLow else Err ValueError.

(** [PORT_REGEX], accelerator_validator.py:17: ["^[r]?[w]?_port_\d+$"] (ASCII digits; a newline
    at the end, which Python's [$] would allow, is not). *)
Definition digit (c : ascii) : bool := let n := nat_of_ascii c in (48 <=? n)%nat && (n <=? 57)%nat.
Fixpoint digits (s : string) : bool := match s with EmptyString => true | String c s => digit c && digits s end.
Definition drop (c : ascii) (s : string) : string := match s with String c' s' => if Ascii.eqb c c' then s' else s | _ => s end.
Definition port_regex (s : string) : bool :=
  let t := drop "w"%char (drop "r"%char s) in
  prefix "_port_" t &&
  match substring 6 (String.length t - 6) t with EmptyString => false | d => digits d end.

(** [create_port_allocation], accelerator_factory.py:202-215, and [PortAllocation.__init__],
    memory_port.py:92-99 *)
Definition allocation := dict string (dict direction string).
Definition allocate_one (name : string) (acc : allocation) (a : string * string) : result allocation :=
  d <- translate (snd a) ;; inner <- dgetr (fst a) acc ;; Ok (dset (fst a) (dset d name inner) acc).
Definition create_port_allocation (m : memspec) : result allocation :=
  let start := fold_left (fun d op => dset op [] d) (ms_operands m) [] in
  acc <- rfold (fun acc p => rfold (allocate_one (ps_name p)) acc (ps_alloc p)) start (ms_ports m) ;;
  if forallb (fun x => forallb (fun y => port_regex (snd y)) (snd x)) acc then Ok acc else Err AssertionError.

(** * Memory levels *)

(** A [MemoryLevel], memory_level.py:66-96: [lv_mem] is what the evaluation reads, [lv_dict] is
    [mem_level_of_operands]. *)
Record level := mkLevel { lv_id : nat; lv_dict : dict string nat; lv_mem : memlvl; lv_served : list string }.
Definition lv_operands (l : level) : list string := ml_operands (lv_mem l).

(** A port being filled: the port, its [bw_min], and whether it is used *)
Definition filling := (port * Z * bool)%type.
Definition add_function (f : string * nat * direction) (x : filling) : filling :=
  let '(p, bmin, _) := x in (mkPort (pt_id p) (pt_name p) (pt_bw_max p) (pt_served p ++ [f]), bmin, true).
Definition bandwidths := dict string (dict direction (option Z)).
Definition set_bandwidth (op : string) (d : direction) (b : Z) (bw : bandwidths) : result bandwidths :=
  inner <- dgetr op bw ;; Ok (dset op (dset d (Some b) inner) bw).
(** one iteration of the inner loop of [__allocate_ports], memory_level.py:107-115 *)
Definition fill_one (op : string) (lv : nat) (st : list filling * bandwidths * bandwidths) (x : direction * string)
  : result (list filling * bandwidths * bandwidths) :=
  let '(ps, bmin, bmax) := st in
  i <- of_option ValueError (index_of (snd x) (map (fun y : filling => pt_name (fst (fst y))) ps)) ;;
  y <- of_option IndexError (nth_error ps i) ;;
  let ps := firstn i ps ++ add_function (op, lv, fst x) y :: skipn (S i) ps in
  bmin <- set_bandwidth op (fst x) (snd (fst y)) bmin ;;
  bmax <- set_bandwidth op (fst x) (pt_bw_max (fst (fst y))) bmax ;;
  Ok (ps, bmin, bmax).
(** [__allocate_ports], memory_level.py:98-117 *)
Definition allocate_ports (ports : list filling) (operands : list string) (levels : dict string nat) (al : allocation)
  : result (list port * bandwidths * bandwidths) :=
  let none := fold_left (fun d op => dset op (map (fun k => (k, None)) directions) d) operands [] in
  st <- rfold (fun st ol => a <- dgetr (fst ol) al ;; rfold (fill_one (fst ol) (snd ol)) st a) (ports, none, none) levels ;;
  let '(ps, bmin, bmax) := st in
  Ok (map (fun y : filling => fst (fst y)) (filter snd ps), bmin, bmax).

(** [create_memory_ports], accelerator_factory.py:155-165, numbering as memory_port.py:53-56 *)
Fixpoint create_memory_ports (next : nat) (ps : list portspec) : list filling :=
  match ps with
  | [] => []
  | p :: ps => (mkPort next (ps_name p) (ps_bw_max p) [], ps_bw_min p, false) :: create_memory_ports (S next) ps
  end.

(** * The hierarchy *)

(** [MemoryHierarchy], memory_hierarchy.py:25-45; [self.operands] holds the keys of [nb_levels].
    [h_port] is [MemoryPort.port_id_counter]. *)
Record hierarchy := mkHierarchy { h_nb : dict string nat; h_list : list level; h_graph : graph nat; h_port : nat }.
Definition no_hierarchy (port_counter : nat) : hierarchy := mkHierarchy [] [] no_graph port_counter.

Definition pick {A} (l : list A) (is : list nat) : list A :=
  flat_map (fun i => match nth_error l i with Some x => [x] | None => [] end) is.
(** [node_list], utils.py:180-182 *)
Definition node_list (h : hierarchy) : list level := pick (h_list h) (g_nodes (h_graph h)).
Definition holds (op : string) (l : level) : bool := memb op (lv_operands l).

(** [max] of a Python sequence *)
Definition max_of (l : list nat) : result nat := match l with [] => Err ValueError | x :: l => Ok (fold_left Nat.max l x) end.
(** 'the' level of a memory: [max(node.mem_level_of_operands.values())] *)
Definition top_number (l : level) : result nat := max_of (map snd (lv_dict l)).
(** [get_operator_top_level], memory_hierarchy.py:137-147: the memories *)
Definition get_operator_top_level (h : hierarchy) (op : string) : result (list level) :=
  xs <- rmap (fun l => n <- top_number l ;; Ok (l, n)) (filter (holds op) (node_list h)) ;;
  match xs with
  | [] => Ok []
  | _ => top <- max_of (map snd xs) ;; Ok (map fst (filter (fun x => Nat.eqb (snd x) top) xs))
  end.
(** [get_top_memories], 126-135 *)
Definition get_top_memories (h : hierarchy) : result (list level * nat) :=
  xs <- rmap (fun l => n <- top_number l ;; Ok (l, n)) (node_list h) ;;
  top <- max_of (map snd xs) ;; Ok (map fst (filter (fun x => Nat.eqb (snd x) top) xs), top).

(** [add_memory], 47-105, called through [add_memory_to_graph], accelerator_factory.py:183-196.
    The set [to_edge_from] is iterated in order of insertion; its order only affects the order in
    which the predecessors of the new node are listed, which nothing modelled here reads. *)
Definition add_memory (h : hierarchy) (m : memspec) : result hierarchy :=
  al <- create_port_allocation m ;;
  let nb := fold_left (fun d op => dset op (match dget op d with None => 1 | Some n => S n end)%nat d) (ms_operands m) (h_nb h) in
  let levels := fold_left (fun d op => dset op (length (filter (holds op) (node_list h))) d) (ms_operands m) [] in
  x <- allocate_ports (create_memory_ports (h_port h) (ms_ports m)) (ms_operands m) levels al ;;
  let '(ports, bmin, bmax) := x in
  let id := length (h_list h) in
  let l := mkLevel id levels (mkMemlvl (ms_operands m) (ms_size m) (ms_r_cost m) (ms_w_cost m) bmin bmax ports) (ms_served m) in
  tops <- rmap (get_operator_top_level h) (ms_operands m) ;;
  let from := map lv_id (concat tops) in
  Ok (mkHierarchy nb (h_list h ++ [l]) (add_edges_from (map (fun u => (u, id)) from) (add_node id (h_graph h)))
        (h_port h + length (ms_ports m))).

(** the loop of [AcceleratorFactory.create], accelerator_factory.py:57-61 *)
Definition build (port_counter : nat) (ms : list memspec) : result hierarchy := rfold add_memory (no_hierarchy port_counter) ms.

(** [get_memory_levels], memory_hierarchy.py:107-112; the same expression in
    accelerator.py:47-51 and 66-68 *)
Definition get_memory_levels (h : hierarchy) (op : string) : result (list level) :=
  order <- topological_sort (h_graph h) ;; Ok (filter (holds op) (pick (h_list h) order)).
(** [get_inner_memories] and [get_outer_memories], 118-124 *)
Definition get_inner_memories (h : hierarchy) : list level :=
  pick (h_list h) (filter (fun i => Nat.eqb (in_degree (h_graph h) i) 0) (g_nodes (h_graph h))).
Definition get_outer_memories (h : hierarchy) : list level :=
  pick (h_list h) (filter (fun i => Nat.eqb (out_degree (h_graph h) i) 0) (g_nodes (h_graph h))).
(** [get_operand_top_level], 149-156 *)
Definition get_operand_top_level (h : hierarchy) (op : string) : result level :=
  n <- dgetr op (h_nb h) ;;
  of_option ValueError (find (fun l => match dget op (lv_dict l) with Some v => (Z.of_nat v =? Z.of_nat n - 1)%Z | None => false end) (rev (h_list h))).

(** * The accelerator *)

(** [__generate_memory_hierarchy_dict], accelerator.py:57-68 (the sizes of 69-73 are those of the
    same memories) *)
Definition mem_hierarchy_dict (h : hierarchy) : result (dict string (list level)) :=
  rmap (fun op => ls <- get_memory_levels h op ;; Ok (op, ls)) (keys (h_nb h)).
(** equality of two dictionaries, whatever their orders *)
Definition dict_eqb (d d' : dict string nat) : bool :=
  Nat.eqb (length d) (length d') &&
  forallb (fun x => match dget (fst x) d' with Some v => Nat.eqb v (snd x) | None => false end) d.
(** [__generate_mem_sharing_list], 75-83 *)
Definition share (acc : list (dict string nat)) (l : level) : list (dict string nat) :=
  if (1 <? length (lv_dict l))%nat && negb (existsb (dict_eqb (lv_dict l)) acc) then acc ++ [lv_dict l] else acc.
Definition mem_sharing_list (hd : dict string (list level)) : list (dict string nat) :=
  fold_left (fun acc x => fold_left share (snd x) acc) hd [].
(** [unroll_count], memory_level.py:127-132 *)
Definition unroll_count (oa : dict string Z) (l : level) : Z :=
  zprod (map snd (filter (fun x => negb (memb (fst x) (lv_served l))) oa)).

(** what the evaluation is given: cost_model.py:338-341 *)
Definition accelerator (h : hierarchy) : result (dict string (list memlvl) * list memlvl * list (list (string * nat))) :=
  hd <- mem_hierarchy_dict h ;;
  Ok (map (fun x => (fst x, map lv_mem (snd x))) hd, map lv_mem (h_list h), mem_sharing_list hd).
