{"id": "C01", "title": "Partially-relevant dimension size is the number of distinct indices", "statement": "For a relation c = sa*x + sb*y, the size the layer reports for the derived dimension equals the number of distinct values c takes when x ranges over 0..A-1 and y over 0..B-1. Where the code's formula departs from that count, the departing region is characterised exactly and exhibited.", "quantifier": "all positive strides sa, sb and all positive sizes A, B", "why_tests_cant": "the count is a statement about every stride/size combination, including coprime and non-coprime strides; a test compares a handful of quadruples", "anchors": ["zigzag/workload/layer_node.py:LayerNode.calc_pr_dimension_size", "zigzag/workload/layer_node.py:LayerNode.calc_pr_dimension_size_total"]}
{"id": "C02", "title": "Temporal loops cover the layer left over by spatial unrolling", "statement": "For every layer dimension, (product of the spatial unrollings of that dimension) x (temporal loop size handed to the mapper, 1 if absent) is at least the layer size, so no iteration is lost; with one unrolling per dimension it exceeds the layer size by less than one unrolling; no dimension outside the layer gets a loop and no loop of size 1 is emitted.", "quantifier": "all layers and all lists of rational (greedy) unrollings of at least 1, repeated dimensions included", "why_tests_cant": "depends on arbitrary repeated and fractional unrollings; the deletion path for fully unrolled dimensions interacts with repetitions", "anchors": ["zigzag/opt/loma/engine.py:LomaEngine.get_temporal_loops"]}
{"id": "C03", "title": "Loop prime factorisation is lossless", "statement": "The loops the mapper permutes multiply, per layer dimension, to exactly the temporal loop size of the dimension; every loop is a prime number; when nothing is left to schedule exactly one dummy loop of size 1 on the first layer dimension is produced.", "quantifier": "all temporal loop size dictionaries with sizes >= 2", "why_tests_cant": "requires correctness for every integer size, not a set of sizes", "anchors": ["zigzag/opt/loma/engine.py:LomaEngine.get_prime_factors"]}
{"id": "C04", "title": "Limiting the number of loop factors never changes the workload", "statement": "Merging factors down to a limit keeps, per dimension, the product of the loops; ends with at most max(limit, number of dimensions) loops; always terminates; and never drops or invents a dimension. The number of orderings announced before the search is the number of different orderings of these loops.", "quantifier": "all multisets of loops and all limits, no user constraints", "why_tests_cant": "a loop whose body rewrites three parallel dictionaries; invariants over all iterations are needed", "anchors": ["zigzag/opt/loma/engine.py:LomaEngine.limit_lpfs", "zigzag/opt/loma/engine.py:LomaEngine.find_smallest_non_static_pf", "zigzag/opt/loma/engine.py:LomaEngine.update_min_lpf_factor", "zigzag/opt/loma/engine.py:LomaEngine.compute_nb_permutations"]}
{"id": "C05", "title": "User-fixed loop sizes leave the workload unchanged", "statement": "When the user pins loops of given sizes in the temporal ordering, splitting the factors accordingly keeps, per dimension, the product of all loops equal to the temporal loop size. Where a limit makes loops merge, those merged are not pinned as long as two others of the dimension are left.", "quantifier": "all factorisations and all pinned sizes that divide the loop size of their dimension", "why_tests_cant": "tests use pinned sizes that are prime powers; composite pinned sizes take a different path", "anchors": ["zigzag/opt/loma/engine.py:LomaEngine.reduce_static_fps", "zigzag/opt/loma/engine.py:LomaEngine.find_smallest_non_static_pf"]}
{"id": "C06", "title": "Loop orderings are exactly the distinct permutations of the loops", "statement": "The ordering generator terminates, yields only permutations of the given multiset of loops, yields no ordering twice, and yields every distinct permutation.", "quantifier": "all non-empty finite multisets over a totally ordered set", "why_tests_cant": "the generator mutates a linked list in place; completeness over all multisets is a combinatorial induction", "anchors": ["zigzag/opt/loma/multipermute.py:permutations", "zigzag/opt/loma/multipermute.py:init"]}
{"id": "C07", "title": "Constrained orderings are exactly the orderings that satisfy the constraints", "statement": "With user constraints the generator yields precisely those orderings of the unconstrained generator, in the same sequence, that place the required dimension (and size) at every pinned position, positions counted from the end when negative.", "quantifier": "all multisets and all position constraints", "why_tests_cant": "the filtered and unfiltered generator are separate copies of the same loop; equality of whole streams is needed", "anchors": ["zigzag/opt/loma/multipermute.py:constrainded_permutations", "zigzag/opt/loma/multipermute.py:StaticPositionsConstraint", "zigzag/opt/loma/multipermute.py:StaticPositionsAndSizesConstraint"]}
{"id": "C08", "title": "Memory allocation keeps every loop, once, in order", "statement": "When an ordering is allocated successfully, for every operand the concatenation over its memory levels (inner to outer) of the allocated loops is exactly the ordering, and the operand gets as many levels as memories that store it.", "quantifier": "all orderings, hierarchies, operand precisions, both mapping types", "why_tests_cant": "the allocator's state evolves over all memories of an arbitrary hierarchy", "anchors": ["zigzag/opt/loma/memory_allocator.py:MemoryAllocator.run", "zigzag/opt/loma/memory_allocator.py:MemoryAllocator.allocate_node"]}
{"id": "C09", "title": "Allocated data fits in the memory", "statement": "For every memory in the hierarchy, the operand tiles the allocator assigns to it together occupy no more bits than the memory's capacity, in the even and in the uneven mapping type.", "quantifier": "all orderings, hierarchies, precisions and both mapping types", "why_tests_cant": "capacity is checked on combinations enumerated by index arithmetic over every operand subset", "anchors": ["zigzag/opt/loma/memory_allocator.py:MemoryAllocator.find_best_loop_combination", "zigzag/opt/loma/memory_allocator.py:MemoryAllocator.calc_size_slices"]}
{"id": "C10", "title": "The allocator picks a combination with the fewest accesses", "statement": "Among all combinations of loop prefixes that fit (and, for even mapping, that split every loop position the same way for all operands), the chosen one has the minimal number of accesses to the level above; mixed-radix enumeration visits every combination.", "quantifier": "all operand counts, size lists and capacities", "why_tests_cant": "optimality quantifies over every alternative combination", "anchors": ["zigzag/opt/loma/memory_allocator.py:MemoryAllocator.find_best_loop_combination", "zigzag/opt/loma/memory_allocator.py:MemoryAllocator.is_valid_idx_combination_for_even_mapping_type"]}
{"id": "C11", "title": "The mapper yields every feasible ordering or reports that there is none", "statement": "The temporal mapping engine yields one mapping per ordering whose allocation succeeds, in generation order, and raises its no-valid-ordering error exactly when no ordering can be allocated.", "quantifier": "all layers, accelerators and allocation outcomes", "why_tests_cant": "over all outcome sequences of an arbitrary number of orderings", "anchors": ["zigzag/opt/loma/engine.py:LomaEngine.run"]}
{"id": "C12", "title": "Merging stationary loops down keeps the mapping", "statement": "The iterative merge-down of bottom irrelevant loops terminates; per operand it keeps the number of levels, the loops and their inner-to-outer order; afterwards no memory level above the lowest starts with an irrelevant loop.", "quantifier": "all temporal mappings", "why_tests_cant": "fixpoint iteration with list-removal by value; needs an inductive measure", "anchors": ["zigzag/mapping/temporal_mapping.py:TemporalMapping.innermost_stationary_loop_merge_down"]}
{"id": "C13", "title": "Cycle counts are consistent", "statement": "For every operand the cycles covered per level are non-decreasing, each divides the next, and the top level equals the product of all temporal loops; hence allocating one ordering can never trigger the 'total cycle count is not the same' assertion.", "quantifier": "all temporal mappings with positive loop sizes", "why_tests_cant": "quantifies over all mappings produced by the allocator", "anchors": ["zigzag/mapping/temporal_mapping.py:TemporalMapping.calc_cycle_cabl_level"]}
{"id": "C14", "title": "Decoupling partially relevant loops preserves the iteration count", "statement": "Replacing each partially relevant loop by a relevant and an irrelevant loop keeps the product of loop sizes, per level and in total, and leaves other loops untouched and in order; data sizes telescope to the total derived-dimension size.", "quantifier": "all mappings over all level structures, exact rational arithmetic", "why_tests_cant": "telescoping products over arbitrary nesting", "anchors": ["zigzag/mapping/mapping_assist_funcs.py:decouple_pr_loop", "zigzag/mapping/mapping_assist_funcs.py:replace_pr_loop_in_mapping"]}
{"id": "C15", "title": "Spatial unit counts factor into unique and duplicate units", "statement": "At every architecture level and for every operand, units holding unique data x units holding duplicates = product of all unrollings at and above that level; broadcast scope and bandwidth boost are the ratios of consecutive levels.", "quantifier": "all spatial mappings", "why_tests_cant": "algebraic identity over arbitrary level lists", "anchors": ["zigzag/mapping/spatial_mapping_internal.py:SpatialMappingInternal.calc_unit_count", "zigzag/mapping/spatial_mapping_internal.py:SpatialMappingInternal.calc_data_serve_scope", "zigzag/mapping/spatial_mapping_internal.py:SpatialMappingInternal.calc_mem_bw_boost_factor"]}
{"id": "C16", "title": "A reduced user spatial mapping is valid", "statement": "After check-and-reduce, the mapping passes the validity check: no unknown layer dimension, no unrolling above the maximum, no array dimension over-utilised, no layer dimension unrolled beyond its size; a mapping that is already valid is not changed; no unrolling is ever increased.", "quantifier": "all spatial mappings, array sizes, maximum unrollings, layer sizes and all choices of the arbitrary dimension to drop", "why_tests_cant": "the code drops arbitrary set elements; all choices must be covered", "anchors": ["zigzag/mapping/spatial_mapping.py:SpatialMapping.check_and_reduce", "zigzag/mapping/spatial_mapping.py:SpatialMapping.is_valid"]}
{"id": "C17", "title": "Converting a spatial mapping distributes each unrolling exactly once", "statement": "For every operand, each array dimension of the user mapping is attached to exactly one memory level, namely the lowest that serves it or a final level on top; per layer dimension the product over levels equals the product in the user mapping, hence it is identical for all operands.", "quantifier": "all user mappings and all memory hierarchies", "why_tests_cant": "quantifies over hierarchies and mappings simultaneously", "anchors": ["zigzag/stages/mapping/spatial_mapping_conversion.py:SpatialMappingConversionStage.generate_mapping_per_mem_lvl"]}
{"id": "C18", "title": "Greedy unrolling never exceeds the array and divides the layer exactly", "statement": "The limited unrolling is positive, at most the requested one and at most the array dimension, and on the array dimension holding a layer dimension's largest unrolling, unrolling x temporal remainder equals the layer size.", "quantifier": "all layer sizes and unrollings over any number of array dimensions", "why_tests_cant": "fractional arithmetic over arbitrary sizes; several array dimensions interact", "anchors": ["zigzag/stages/mapping/spatial_mapping_conversion.py:SpatialMappingConversionStage.generate_limited_user_spatial_mapping"]}
{"id": "C19", "title": "Automatically generated unrollings respect the innermost memory capacity", "statement": "After limiting to memory capacity, the product of the unrollings served by a memory times the precision is at most its capacity.", "quantifier": "all generated mappings and capacities", "why_tests_cant": "equal unroll factors on two dimensions are needed to expose collisions in the rewriting map", "anchors": ["zigzag/stages/mapping/spatial_mapping_generation.py:SpatialMappingGeneratorStage.limit_unrolling_to_mem_capacity"]}
{"id": "C20", "title": "Automatically generated unrollings respect the innermost memory bandwidth", "statement": "After limiting to bandwidth, each relevant dimension's maximum unrolling times the operand precision is at most the bandwidth of every memory serving it, never increases, and irrelevant dimensions are untouched.", "quantifier": "all maximum unrollings, bandwidths and precisions", "why_tests_cant": "quantifies over all hierarchies and operand/dimension relations", "anchors": ["zigzag/stages/mapping/spatial_mapping_generation.py:SpatialMappingGeneratorStage.limit_unrolling_to_mem_bandwidth", "zigzag/stages/mapping/spatial_mapping_generation.py:SpatialMappingGeneratorStage.get_max_unrolling"]}
{"id": "C21", "title": "Partial-sum flags identify where output is final", "statement": "A memory level is flagged as holding partial sums iff some output-irrelevant loop of size > 1 lies above it; flags are monotone (once final, final for all higher levels) and the extra top flag is always final; output precision follows the flags.", "quantifier": "all combined mappings", "why_tests_cant": "iff over all level structures", "anchors": ["zigzag/mapping/mapping.py:Mapping.get_psum_flags", "zigzag/mapping/mapping.py:Mapping.gen_data_precision_dict"]}
{"id": "C22", "title": "No traffic between the top memory and the outside world", "statement": "After a mapping is built, for every operand the top memory level has zero read-to-high and write-by-high in every data-movement attribute, and all other directions and levels are unaffected by this step.", "quantifier": "all mappings", "why_tests_cant": "frame property over all attributes and levels", "anchors": ["zigzag/mapping/mapping.py:Mapping.disable_data_traffic_external", "zigzag/mapping/data_movement.py:DataMovePattern.update_single_dir_data"]}
{"id": "C23", "title": "Data access counts are conserved between adjacent memory levels", "statement": "Each memory moves the tile of the loops inside it once for every time these loops run. So for input operands without a sliding window the accesses times the reuse inside equal the MAC count: reads toward the array never exceed the MACs and never increase outwards (a dilated window may read elements no MAC uses). For outputs, at every memory the writes minus the read-backs are exactly the output size, read-backs being one per reduction iteration outside but the first.", "quantifier": "all mappings with positive loops, exact arithmetic", "why_tests_cant": "monotonicity over arbitrary level lists", "anchors": ["zigzag/mapping/mapping.py:Mapping.calc_data_access"]}
{"id": "C24", "title": "Energy totals equal their breakdown", "statement": "Total energy = MAC energy + memory energy; memory energy = sum over operands and levels of the per-level breakdown = sum of the four-direction breakdown; all are non-negative for non-negative costs and additive in the access counts.", "quantifier": "all access counts, hierarchies and costs", "why_tests_cant": "sums over arbitrary numbers of operands and levels", "anchors": ["zigzag/cost_model/cost_model.py:CostModelEvaluation.calc_memory_energy_cost", "zigzag/cost_model/cost_model.py:CostModelEvaluation.calc_mac_energy_cost"]}
{"id": "C25", "title": "Latency never decreases when stalls and (off)loading are added", "statement": "ideal temporal cycles <= latency0 <= latency1 <= latency2, stall is never negative, and the four reported MAC utilisations are correspondingly non-increasing.", "quantifier": "all port activities and loading cycles that the model can produce", "why_tests_cant": "depends on sign of accumulated stall over all port configurations", "anchors": ["zigzag/cost_model/cost_model.py:CostModelEvaluation.calc_overall_latency", "zigzag/cost_model/cost_model.py:CostModelEvaluation.combine_data_transfer_rate_per_physical_port"]}
{"id": "C26", "title": "Adding evaluations is a commutative, associative sum with the empty evaluation as identity", "statement": "Energy, latency and per-operand per-level breakdowns of a sum are the sums, operand missing on one side included; the order of addition is irrelevant for all numeric fields; adding the empty cumulative evaluation changes no numeric field.", "quantifier": "all evaluations with arbitrary operand sets and level counts", "why_tests_cant": "algebraic laws over arbitrary dictionaries of lists", "anchors": ["zigzag/cost_model/cost_model.py:CostModelEvaluationABC.__add__", "zigzag/cost_model/cost_model.py:CumulativeCME"]}
{"id": "C27", "title": "Multiplying an evaluation is repeated addition", "statement": "Evaluation x n has n times the energy, latency and breakdown entries; x 1 is the identity on the numeric fields, utilisations are unchanged, and it distributes over addition.", "quantifier": "all evaluations and all positive integers n", "why_tests_cant": "law over all n", "anchors": ["zigzag/cost_model/cost_model.py:CostModelEvaluationABC.__mul__"]}
{"id": "C28", "title": "Selecting stages return a minimum", "statement": "The minimal-energy, minimal-latency and minimal-EDP stages return an element of the sub-stage's stream whose criterion is minimal (with the documented tie-break, the earliest on full ties); they fail with an error on an empty stream.", "quantifier": "all finite streams of evaluations", "why_tests_cant": "over all streams, ties included", "anchors": ["zigzag/stages/results/reduce_stages.py:MinimalEnergyStage", "zigzag/stages/results/reduce_stages.py:MinimalLatencyStage", "zigzag/stages/results/reduce_stages.py:MinimalEDPStage"]}
{"id": "C29", "title": "The sum stage adds up every result exactly once", "statement": "The sum stage's energy and latency equal the sums over the stream, independent of order.", "quantifier": "all finite streams", "why_tests_cant": "over all streams", "anchors": ["zigzag/stages/results/reduce_stages.py:SumStage"]}
{"id": "C30", "title": "Memory hierarchy levels are numbered 0..n-1 per operand", "statement": "After adding any sequence of memories, each listing its operands once, for every operand the level numbers are exactly 0..n-1 in order of addition, n being the reported number of levels; the graph is acyclic (every edge goes from an earlier to a later memory); the reported top level of an operand is the last memory added for it.", "quantifier": "all sequences of memory additions", "why_tests_cant": "over all histories", "anchors": ["zigzag/hardware/architecture/memory_hierarchy.py:MemoryHierarchy.add_memory", "zigzag/hardware/architecture/memory_hierarchy.py:MemoryHierarchy.get_operand_top_level"]}
{"id": "C31", "title": "Bottom-up order of memories agrees with their level numbers", "statement": "The innermost-to-outermost list of memories of an operand (topological order filtered by operand) is ordered by the operand's level number.", "quantifier": "all sequences of memory additions and all topological orders", "why_tests_cant": "edges are derived from the maximum level over all operands, so unusual sharing patterns matter", "anchors": ["zigzag/hardware/architecture/memory_hierarchy.py:MemoryHierarchy.get_memory_levels", "zigzag/hardware/architecture/memory_hierarchy.py:MemoryHierarchy.get_operator_top_level"]}
{"id": "C32", "title": "Loop relevancy partitions the dimensions", "statement": "For every operand each layer dimension of size > 1 is relevant, irrelevant or part of a partially-relevant relation, exclusively; operands without a derived dimension have no partially relevant loops.", "quantifier": "all equations, dimension sizes and relations", "why_tests_cant": "over all equations", "anchors": ["zigzag/workload/layer_node.py:LoopRelevancyInfo.extract_relevancy_info"]}
{"id": "C33", "title": "Layer operands and memory operands are linked one-to-one", "statement": "A constructed link table is a bijection: converting either way and back gives the same operand; construction fails exactly when two layer operands share a memory operand.", "quantifier": "all link tables", "why_tests_cant": "bijection over all dictionaries", "anchors": ["zigzag/workload/layer_attributes.py:MemoryOperandLinks"]}
{"id": "C34", "title": "User temporal ordering completeness check", "statement": "The completeness check returns true exactly when, per dimension, the product of the user's loops equals the required temporal loop size (dimensions of product 1 ignored), and never crashes.", "quantifier": "all user orderings and required sizes", "why_tests_cant": "crash needs a loop of size 1 in the ordering", "anchors": ["zigzag/workload/layer_attributes.py:LayerTemporalOrdering.is_complete"]}
{"id": "C35", "title": "User ordering constraints pin the intended positions", "statement": "Entries before a '*' wildcard are pinned from the inside, entries after it from the outside (negative positions), each with its dimension and optional size; removing invalid dimensions keeps exactly the valid entries in order.", "quantifier": "all user orderings", "why_tests_cant": "over all lists with any number of wildcards", "anchors": ["zigzag/workload/layer_attributes.py:LayerTemporalOrdering.get_constraints", "zigzag/workload/layer_attributes.py:LayerTemporalOrdering.remove_invalid_layer_dims"]}
{"id": "C36", "title": "Shared-port updating window is the length of the union", "statement": "For periodic activities whose periods divide the longest one, the computed union of updating windows is at least each single window, at most their sum and at most the total computation time, and equals the number of time steps in which at least one window is open.", "quantifier": "all lists of periodic activities", "why_tests_cant": "set-union cardinality over arbitrary periods", "anchors": ["zigzag/cost_model/cost_model.py:CostModelEvaluation.__calc_mem_updating_window_union"]}
{"id": "C37", "title": "Balanced reduction of loading cycles is conservative", "statement": "Reducing loading cycles keeps result + reduction = original for each entry, reduces in total no more than the available surplus, and never reduces an entry below its required minimum.", "quantifier": "all cycle lists, minima and surpluses", "why_tests_cant": "over all list lengths and orders", "anchors": ["zigzag/cost_model/cost_model.py:CostModelEvaluation.reduce_balanced"]}
{"id": "C38", "title": "Double buffering never over-commits a shared memory", "statement": "If the operands of each shared memory fit at half utilisation accounting, the sum of tiles plus double-buffered copies granted never exceeds the memory.", "quantifier": "all utilisations and sharing groups", "why_tests_cant": "the utilisation is updated while iterating operands", "anchors": ["zigzag/cost_model/cost_model.py:CostModelEvaluation.calc_double_buffer_flag"]}
{"id": "C39", "title": "Data on-loading accounts for every level", "statement": "On-loading cycles are at least the loading time of every single operand taken alone and at most the sum over both operands of all their level-to-level transfers.", "quantifier": "all per-level loading times and sharing flags", "why_tests_cant": "over all level counts and sharing patterns", "anchors": ["zigzag/cost_model/cost_model.py:CostModelEvaluation.calc_onloading_combined"]}
{"id": "C40", "title": "Memory word accesses bound the data moved", "statement": "The number of word accesses times the port width is at least the bits moved per period times periods times units, and exceeds it by less than one minimum-width access per period (before integer truncation).", "quantifier": "all amounts, precisions, bandwidths, period counts", "why_tests_cant": "rounding behaviour over all rationals", "anchors": ["zigzag/cost_model/cost_model.py:CostModelEvaluation._calc_memory_access"]}
{"id": "C41", "title": "Convolution parsing assigns kernel, stride and padding to the right axis", "statement": "The layer produced for an ONNX convolution relates input column index to output column and kernel column (and rows likewise), so that the derived input extents equal the ONNX input width and height.", "quantifier": "all kernel shapes, strides, dilations and paddings", "why_tests_cant": "needs non-square kernels or asymmetric strides", "anchors": ["zigzag/parser/onnx/conv_parser.py:ConvParser"]}
{"id": "C42", "title": "Matrix-multiply parsing keeps the operation count", "statement": "The layer produced for a Gemm/MatMul has operations = batch x rows x inner x columns, and dimensions named in its equation are exactly those with sizes.", "quantifier": "all tensor shapes", "why_tests_cant": "over all shapes and ranks", "anchors": ["zigzag/parser/onnx/gemm_parser.py:GemmParser"]}
{"id": "C43", "title": "Removing dummy nodes keeps the data dependencies", "statement": "In the workload without dummy nodes there is a dependency path from one real layer to another iff there was one in the full workload; no dummy remains and no real layer is lost.", "quantifier": "all workload graphs", "why_tests_cant": "reachability over all graphs", "anchors": ["zigzag/workload/onnx_workload.py:ONNXWorkload", "zigzag/workload/workload_abc.py:WorkloadABC.get_copy_no_dummy"]}
{"id": "C44", "title": "Workload graphs are acyclic", "statement": "A workload described by the user is built exactly when every source names an earlier layer, its edges are exactly the named sources and go from earlier to later layers, so a topological order always exists; the same holds for workloads from ONNX models whose nodes are in executable order, as the standard requires.", "quantifier": "all workload descriptions that parse", "why_tests_cant": "over all workloads", "anchors": ["zigzag/workload/dnn_workload.py:DNNWorkload", "zigzag/workload/onnx_workload.py:ONNXWorkload.add"]}
{"id": "C45", "title": "Parallel evaluation gathers every result", "statement": "The multiprocessing gather stage yields every result of every spawned sub-stage, in any completion order, without failing.", "quantifier": "all numbers of parallel jobs and all completion orders", "why_tests_cant": "failure depends on the number of jobs; concurrency orders cannot be enumerated", "anchors": ["zigzag/stages/run_opt_stages.py:MultiProcessingGatherStage"]}
{"id": "C46", "title": "Simulated annealing returns the best state seen", "statement": "Whatever the random choices, every visited state is a permutation of the initial loop order and the returned state's criterion is minimal over the initial and all evaluated states.", "quantifier": "all random streams, iteration counts and cost functions", "why_tests_cant": "over all random streams", "anchors": ["zigzag/opt/salsa/engine.py:SalsaEngine.run_simulated_annealing_opt", "zigzag/opt/salsa/state.py:SalsaState.swap"]}
{"id": "C47", "title": "Mapping selection follows the documented priority", "statement": "For a layer, the mapping entry used is the one for its exact name if present, otherwise the one for its operator type, otherwise the default; error iff none exists.", "quantifier": "all mapping files", "why_tests_cant": "over all entry lists and orders", "anchors": ["zigzag/parser/mapping_factory.py:MappingFactory"]}
{"id": "C48", "title": "Saved per-layer results do not overwrite each other", "statement": "Two layers with different names write to different result files.", "quantifier": "all layer names", "why_tests_cant": "collision requires particular names", "anchors": ["zigzag/stages/results/save.py:CompleteSaveStage", "zigzag/stages/results/save.py:SimpleSaveStage"]}
{"id": "C49", "title": "Static loop extraction assigns every loop to the right level", "statement": "The printed mapping lists every temporal loop of the ordering from outermost to innermost (the extracted list: innermost first) together with, per operand, the memory that holds it, also when equal loops occur in several levels; the spatial loops follow.", "quantifier": "all completed mappings", "why_tests_cant": "over all mappings", "anchors": ["zigzag/mapping/utils.py:get_temporal_loops"]}
{"id": "C50", "title": "Inter-layer data locality picks memories that fit", "statement": "The memory level chosen for keeping a layer's data on chip is large enough for that layer's tensors, and the pruned accelerator keeps, per operand, exactly the levels up to the chosen one.", "quantifier": "all workloads and hierarchies", "why_tests_cant": "over all hierarchies and size sequences", "anchors": ["zigzag/stages/exploit_data_locality_stages.py:SearchInterLayerDataLocalityStage"]}
{"id": "C51", "title": "Adder-tree hardware counts", "statement": "The cost of an in-memory-compute adder tree that adds up rows sums exactly the one-bit adders of a balanced tree; the energy loop for a partially used tree terminates, counts exactly the adders with one and with two used operands and so no more than the full tree has; trees with place values are never counted with fewer adders than their sums need.", "quantifier": "all power-of-two tree sizes, precisions and mapped row counts", "why_tests_cant": "while-loop with halving; over all sizes", "anchors": ["zigzag/hardware/architecture/imc_array.py:ImcArray", "zigzag/hardware/architecture/imc_unit.py:ImcUnit.get_regular_adder_trees_energy"]}
{"id": "C52", "title": "Four-way data movement arithmetic is direction-wise", "statement": "Adding and scaling four-way data movements acts on each direction separately, is commutative, associative and distributive, and construction fails exactly when a direction is missing.", "quantifier": "all values", "why_tests_cant": "algebraic law", "anchors": ["zigzag/mapping/data_movement.py:FourWayDataMoving"]}
{"id": "C53", "title": "Even mappings split the loops of operands sharing a memory at the same point", "statement": "In an even mapping, for every memory shared by several operands: an operand that takes temporal loops there never ends further out in the loop ordering than any other operand of that memory.", "quantifier": "all orderings, hierarchies and precisions, even mapping type", "why_tests_cant": "the check compares numbered loops of all operand pairs at every memory of an arbitrary hierarchy", "anchors": ["zigzag/opt/loma/memory_allocator.py:MemoryAllocator.is_valid_idx_combination_for_even_mapping_type"]}
{"id": "C54", "title": "More hardware utilization ranks a spatial mapping higher", "statement": "The indicator used to rank generated spatial mappings is defined for every non-empty mapping, and a mapping with a higher hardware utilization always gets a higher indicator, whatever the diversity of its dimensions (as its documentation says).", "quantifier": "all pairs of valid spatial mappings", "why_tests_cant": "ranks every pair of an unbounded set of mappings", "anchors": ["zigzag/mapping/spatial_mapping.py:SpatialMapping.get_performance_indicator"]}
{"id": "C55", "title": "Spatial mapping generation always succeeds with valid mappings", "statement": "When every innermost memory can hold one element of each of its operands and pass one per cycle, the generator never fails, even if the user's partial mapping asks too much or the hints name unknown dimensions; it returns at least one and at most the requested number of mappings, and each unrolls whole numbers, covers exactly the array's dimensions, and exceeds neither array, layer nor the bandwidth-limited maxima.", "quantifier": "all layers, innermost memories, array sizes, hints, user mappings, requested counts, and all orders in which Python iterates sets", "why_tests_cant": "the fallback that guarantees a candidate must exist for every layer and array, and set iteration order is not reproducible", "anchors": ["zigzag/stages/mapping/spatial_mapping_generation.py:SpatialMappingGeneratorStage.generate_spatial_mappings"]}
{"id": "C56", "title": "Generated spatial mappings are the best-ranked valid completions", "statement": "The generator ranks all valid completions of the user's mapping (one hinted layer dimension, or with mixing several, by divisors of the maximum, on every free array dimension) by the performance indicator and returns the first ones, lowered only where an innermost memory's capacity requires it.", "quantifier": "all layers, arrays, hints, user mappings and requested counts", "why_tests_cant": "optimality quantifies over every completion", "anchors": ["zigzag/stages/mapping/spatial_mapping_generation.py:SpatialMappingGeneratorStage.generate_spatial_mappings", "zigzag/stages/mapping/spatial_mapping_generation.py:SpatialMappingGeneratorStage.generate_spatial_mapping_single_oa_dim"]}
{"id": "C57", "title": "Asking for more spatial mappings does not change those already found", "statement": "The mappings generated when n are requested are the first n of those generated when more are requested.", "quantifier": "all layers, arrays, memories and request counts", "why_tests_cant": "candidates share mutable objects, so the effect of limiting one on another depends on the whole candidate set", "anchors": ["zigzag/stages/mapping/spatial_mapping_generation.py:SpatialMappingGeneratorStage.generate_spatial_mappings"]}
{"id": "C58", "title": "Transfer periods, amounts and bandwidths account for all accesses", "statement": "For every memory and direction, the number of periods times their length is the latency, periods times the amount per period times the number of memories is the access count, the average bandwidth is the amount in bits over the period, and the instant bandwidth and transfer window scale it by the outermost irrelevant loops; read-backs of outputs mirror the writes exactly where partial sums are stored. For operands with a sliding window the reads toward the array overstate the amount.", "quantifier": "all mappings of whole loop sizes", "why_tests_cant": "relates seven tables computed by different formulas over arbitrary level structures", "anchors": ["zigzag/mapping/mapping.py:Mapping.calc_req_mem_bw_and_data_transfer_rate"]}
{"id": "C59", "title": "Data sizes per memory level are those of the loop tiles", "statement": "The data size of an operand at a level is the number of distinct elements its loops up to that level touch, per memory and over all distinct memories, in elements and in bits at the level's precision; the effective size is the share outside the outermost run of relevant loops.", "quantifier": "all mappings", "why_tests_cant": "over all level structures and sliding windows", "anchors": ["zigzag/mapping/mapping.py:Mapping.calc_data_size", "zigzag/mapping/mapping.py:Mapping.calc_effective_data_size"]}
{"id": "C60", "title": "Complete mappings are always built", "statement": "Combining a spatial mapping with a temporal mapping of matching level counts and loop sizes of at least one never fails: no missing key, out-of-range index or division by zero, and every operand gets one unit memory per level.", "quantifier": "all layers, spatial and temporal mappings", "why_tests_cant": "an absence of failures over all structures", "anchors": ["zigzag/mapping/mapping.py:Mapping.__init__"]}
{"id": "C61", "title": "Memories that hold several operands are reported as sharing, once each", "statement": "The list of shared memories that the accelerator derives from its hierarchy contains, once each, exactly the operand-to-level tables of the memories that hold more than one operand; no operand and level occurs in two different entries, so allocation and buffer sizing count each physical memory once.", "quantifier": "all sequences of memory additions", "why_tests_cant": "the list is collected over all operands' level lists with duplicates removed by comparison of tables", "anchors": ["zigzag/hardware/architecture/accelerator.py:Accelerator.recalculate_memory_hierarchy_information", "zigzag/hardware/architecture/memory_hierarchy.py:MemoryHierarchy.add_memory"]}
{"id": "C62", "title": "Ports serve exactly the data movements allocated to them", "statement": "For a memory whose ports have different names: each port that is kept serves exactly the (operand, level, direction) movements for which it is the last port listed in the description, no movement is lost, the minimum and maximum bandwidth reported for an operand and direction are those of that port (or absent when no port is listed), and port identifiers are unique over the whole hierarchy. In validated descriptions read ports only read and write ports only write.", "quantifier": "all memory descriptions and hierarchies", "why_tests_cant": "over all port lists and allocations", "anchors": ["zigzag/hardware/architecture/memory_level.py:MemoryLevel", "zigzag/parser/accelerator_factory.py:MemoryFactory.create_port_allocation", "zigzag/hardware/architecture/memory_port.py:MemoryPort"]}
{"id": "C63", "title": "Every layer is evaluated once, after the layers it depends on", "statement": "When a workload is run, each layer that is not a dummy (nor, on in-memory-compute arrays, pooling or addition) is evaluated exactly once and after all layers it depends on, and every result is yielded together with its layer; on workloads without cycles this fails only if an evaluation does.", "quantifier": "all workload graphs and evaluation functions", "why_tests_cant": "over all graphs", "anchors": ["zigzag/stages/workload_iterator.py:WorkloadStage.run"]}
{"id": "C64", "title": "Equations and relations are read as written", "statement": "A layer equation with names of letters and digits, blanks anywhere between its parts and '=' or '+=' is read as exactly the operands and subscripts written, and a dimension relation as exactly its dimensions and coefficients, 1 where none is written; the accepted spellings that are not read as written ('+ =' with a gap, names with '_') are known.", "quantifier": "all texts of that form", "why_tests_cant": "over all texts", "anchors": ["zigzag/workload/layer_attributes.py:LayerEquation.disassembly", "zigzag/parser/workload_factory.py:LayerNodeFactory.create_equation", "zigzag/parser/workload_factory.py:LayerNodeFactory.create_layer_dim_relations"]}
{"id": "C65", "title": "User orderings are respected by the temporal mapping stage", "statement": "A complete user ordering is the only one mapped; with an incomplete one, the mappings produced are the allocations of exactly those orders of the loops that meet every entry of the ordering, and the stage ends in an error exactly when there is none.", "quantifier": "all layers, orderings, memories and loop factorisations", "why_tests_cant": "over all loop orders", "anchors": ["zigzag/stages/mapping/temporal_mapping_generator_stage.py:TemporalMappingGeneratorStage.generate_temporal_mappings"]}
{"id": "C66", "title": "Operand sizes are numbers of elements", "statement": "The size stored for an operand of a layer is the number of different elements of its tensor that the layer's loops touch (padding not counted), its size in bits that times the precision, and its reuse the operations per element.", "quantifier": "all equations, sizes, relations and paddings", "why_tests_cant": "over all loop sizes and strides", "anchors": ["zigzag/workload/layer_node.py:LayerNode.extract_layer_info", "zigzag/workload/layer_node.py:LayerNode.calc_tensor_size", "zigzag/workload/layer_node.py:LayerNode.calc_pr_dimension_size_total"]}
{"id": "C67", "title": "The tool returns the sum over layers of each layer's best evaluation", "statement": "The energy and latency returned are the totals of one evaluation that sums, over the layers of the workload that are not dummies or skipped, each once and after those it depends on, the best evaluation by the chosen criterion among all spatial mappings generated for the layer and all temporal mappings generated for each; there is a result whenever every layer has mappings that can all be evaluated; an unknown criterion is refused.", "quantifier": "all workloads, criteria, mapping generators and evaluations", "why_tests_cant": "over all numbers of layers and mappings and all ties", "anchors": ["zigzag/api.py:get_hardware_performance_zigzag", "zigzag/stages/main.py:MainStage.run", "zigzag/stages/mapping/spatial_mapping_generation.py:SpatialMappingGeneratorStage.run", "zigzag/stages/mapping/temporal_mapping_generator_stage.py:TemporalMappingGeneratorStage.run", "zigzag/stages/evaluation/cost_model_evaluation.py:CostModelStage.run"]}
{"id": "C68", "title": "Rows an in-memory-compute mapping occupies", "statement": "The rows counted for a mapping are those that hold the weights unrolled on the bitlines: one for each unrolled index, and with dimensions on the wordlines that slide over one on the bitlines, those that hold the shifted copies of the weights; columns are the unrollings on the wordlines and activations the operations per unrolled operation.", "quantifier": "all layers and unrollings on wordlines and bitlines", "why_tests_cant": "over all unrollings and set orders", "anchors": ["zigzag/hardware/architecture/imc_unit.py:ImcUnit.get_mapped_oa_dim", "zigzag/hardware/architecture/imc_unit.py:ImcUnit.calculate_mapped_rows_when_diagonal_mapping_found"]}
{"id": "C69", "title": "In-memory-compute energy never exceeds the peak", "statement": "The energy of a layer whose mapping fits the array is, in every part except precharging and in total, at most the array's peak energy per cycle times the cycles used, and equal to it when the whole array is used; precharging costs nothing when a cell group holds one weight and otherwise at most one precharge per read.", "quantifier": "all valid arrays, numbers of rows, columns and activations, loops and reads", "why_tests_cant": "over all arrays and mappings", "anchors": ["zigzag/hardware/architecture/imc_array.py:ImcArray.get_energy_for_a_layer", "zigzag/hardware/architecture/imc_array.py:ImcArray.get_peak_energy_single_cycle", "zigzag/hardware/architecture/imc_unit.py:ImcUnit.get_precharge_energy"]}
{"id": "C70", "title": "In-memory-compute arrays are built with meaningful area, clock and peak performance", "statement": "Every array the validator accepts, with two rows or more and a power-of-two number of them when digital, is built; the parts of its area, clock period and peak energy are not negative, totals are positive and the peak figures are operations per cycle over them; other numbers of rows are refused; the reported area is that of the array and one instance of each memory, and the breakdown adds up to it when memory names differ.", "quantifier": "all arrays, memories and names", "why_tests_cant": "over all sizes and precisions", "anchors": ["zigzag/hardware/architecture/imc_array.py:ImcArray.get_area", "zigzag/hardware/architecture/imc_array.py:ImcArray.get_tclk", "zigzag/hardware/architecture/imc_array.py:ImcArray.get_macro_level_peak_performance", "zigzag/cost_model/cost_model_imc.py:CostModelEvaluationForIMC.collect_area_data"]}
{"id": "C71", "title": "Automatically extracted memory costs do not depend on history", "statement": "For sizes in whole bytes, every answer is CACTI's cost for the memory asked (a register file as a static memory 128 times larger), whatever was asked before and whatever the pool holds from it; an answered request is answered the same later without another run; a request fails exactly when CACTI does or the pool knows only a memory of the other kind with the same numbers; sizes not in whole bytes are never answered.", "quantifier": "all histories of requests, pools and CACTI answers", "why_tests_cant": "over all histories", "anchors": ["zigzag/cacti/cacti_parser.py:CactiParser.get_item", "zigzag/cacti/cacti_parser.py:CactiParser.item_exists", "zigzag/cacti/cacti_master/cacti_top.py:run_cacti", "zigzag/hardware/architecture/memory_instance.py:MemoryInstance"]}
{"id": "C72", "title": "The hardware search returns the best configuration", "statement": "Every combination of offered memory capacity and array sizes is evaluated once, on a description that depends only on the file and that combination and with the mapping for that array; the evaluation returned is the first among the fastest, with the least energy among those; there is a result whenever 16 divides the unrolled layer dimensions and evaluations succeed, and none if it does not.", "quantifier": "all descriptions, layers, mappings and evaluation functions", "why_tests_cant": "over all evaluation functions and ties", "anchors": ["zigzag/stages/hardware_opt_stages.py:HardwareOptimizerStage.run", "zigzag/stages/hardware_opt_stages.py:HardwareOptimizerStage._accelerator_and_workload_iterator", "zigzag/stages/hardware_opt_stages.py:HardwareOptimizerStage._update_workload_spatial_mapping"]}
{"id": "C73", "title": "A hardware description is read as it is written, or refused", "statement": "Exactly the proper hardware descriptions are accepted. An accepted description of multipliers becomes an accelerator exactly when the costs of a unit are given, ports only move operands that their memory holds, and memory costs are written or can be extracted; the accelerator then has the name, dimensions, sizes, memories, ports, operands, costs and dataflows written, in that order. An in-memory-computing description (no dimension repeated) likewise yields the array with the parameters written: wordlines, bitlines and banks from the lowest numbered dimension on. Outside these conditions construction fails after acceptance, the last size of a repeated dimension wins, an array of unspecified type is digital, and some improper descriptions make the validator itself raise; each is exhibited.", "quantifier": "every description (any names, numbers, memories, ports, allocations, dataflows), every earlier history of extracted memory costs and every behaviour of CACTI", "why_tests_cant": "the set of descriptions is infinite and a test reads the few files in the repository; the equivalence between acceptance and a successful construction is about all others", "anchors": ["zigzag/parser/accelerator_validator.py:AcceleratorValidator", "zigzag/parser/accelerator_factory.py:AcceleratorFactory", "zigzag/parser/accelerator_factory.py:MemoryFactory", "zigzag/stages/parser/accelerator_parser.py:AcceleratorParserStage"]}
{"id": "C74", "title": "Evaluating a layer on an accelerator with a valid mapping succeeds", "statement": "If every movement an operand may need has a port with a positive width, every memory stores only operands that the layer has, the mapping divides the same loops over the memories of every operand and operations take whole cycles, then the evaluation of the layer ends with a result or with a division by zero cycles, and with nothing else; it divides by zero exactly when the (possibly negative) cycles of loading data before and after the computation cancel those of the computation. When every port serves a single movement, or at most one of its transfers happens once, it always succeeds and the latency covers all loops. Valid requests with shared ports whose evaluation divides by zero or results in a negative latency are exhibited, and so are failures when each of the conditions is left out.", "quantifier": "all layers, memory hierarchies, port allocations, spatial mappings (whole and fractional) and temporal mappings", "why_tests_cant": "a test evaluates a few layers on a few accelerators; that no lookup, reshape or division fails depends on all tables built from the request together", "anchors": ["zigzag/cost_model/cost_model.py:CostModelEvaluation", "zigzag/mapping/mapping.py:Mapping", "zigzag/mapping/temporal_mapping.py:TemporalMapping", "zigzag/mapping/spatial_mapping_internal.py:SpatialMappingInternal", "zigzag/stages/evaluation/cost_model_evaluation.py:CostModelStage"]}
{"id": "C75", "title": "The energy of an evaluation is that of its operations and of the accesses its loops make", "statement": "For a valid layer, accelerator and mapping with whole loop sizes, the reported energy is the energy of an operation times the number of operations, plus, for every operand, every memory that stores it and every direction, the energy of a read or write times a number of accesses. Inputs are read towards the array and written from above, outputs are written from the array and read outwards, and come back only where a loop outside still reduces them; nothing moves beyond the outermost memory. The accesses are those needed to move, once in every iteration of the loops outside (temporal loops that do not change the operand being counted inside; spatial loops outside counted as repetitions), the distinct elements used by the loops inside, at full precision for partial sums and final precision otherwise, in words of the port that the description allocates; when asked for, reads of the same input by consecutive iterations count once. Partial sums are counted as coming back as often as they go out.", "quantifier": "all layers, memory hierarchies, port allocations, whole spatial mappings and temporal mappings; towards the array for units that do not use overlapping data", "why_tests_cant": "the energy of a few layers can be compared with stored numbers, but that each access counted is one the loops make is a statement about all nests, memories and ports", "anchors": ["zigzag/cost_model/cost_model.py:CostModelEvaluation.calc_memory_energy_cost", "zigzag/cost_model/cost_model.py:CostModelEvaluation.calc_memory_word_access", "zigzag/mapping/mapping.py:Mapping", "zigzag/stages/evaluation/cost_model_evaluation.py:CostModelStage"]}
{"id": "C76", "title": "Workload descriptions are read as written", "statement": "A workload file is accepted exactly when every layer has an allowed operator type, an equation of the documented form, relations of the documented form, precisions for the outputs, sources for weights and inputs only, and paddings or sizes for exactly the named derived dimensions; it is then read as written, with documented defaults. A workload of accepted layers that make sense, whose sources are earlier layers, is built with every accepted mapping: identifiers, names, operands, loop sizes, operation counts, constants, sources and mappings are those written, and the graph has an edge for each use of an earlier layer. Acceptance alone does not ensure this: the descriptions that are accepted and then fail or are built with senseless numbers are exhibited.", "quantifier": "all workload files (any number of layers, any texts), all mapping files, all iteration orders of sets", "why_tests_cant": "the accepted texts and the combinations of present and missing fields are infinite; tests parse a few files", "anchors": ["zigzag/parser/workload_validator.py:WorkloadValidator", "zigzag/parser/upgraded_validator.py:UpgradedValidator", "zigzag/parser/workload_factory.py:LayerNodeFactory", "zigzag/stages/parser/workload_parser.py:WorkloadParserStage"]}
{"id": "C77", "title": "Evaluations on in-memory-compute arrays", "statement": "Evaluating a valid request on a valid in-memory-compute array whose cell groups hold one weight succeeds, or divides by zero cycles; with ports that serve one movement it succeeds and the latency covers all loops at the cycles of a serial activation. Latency and memory energy are those of a digital array with as many units and the same cycles per operation. The energy is that of the array plus that of the accesses the loops make; the array spends at most its peak energy in every cycle of every activation, and exactly that when all of it is used. Clock period and area are those of the array and of one instance of each memory. On an array whose cell groups hold several weights no layer can be evaluated: the evaluation reads an attribute that does not exist.", "quantifier": "all valid requests (layers, hierarchies, spatial and temporal mappings), all valid arrays, all mappings without diagonal unrolling", "why_tests_cant": "a result depends on the layer, the mapping, every memory and the array together; tests fix a few", "anchors": ["zigzag/cost_model/cost_model_imc.py:CostModelEvaluationForIMC", "zigzag/hardware/architecture/imc_array.py:ImcArray.get_energy_for_a_layer", "zigzag/hardware/architecture/imc_unit.py:ImcUnit.get_precharge_energy"]}
{"id": "C78", "title": "Where the time of an evaluation comes from", "statement": "When every port of the accelerator makes one movement, the latency of an evaluation is that of the temporal loops plus the stall, plus loading and unloading. The stall is that of the transfer that is late the most: what it takes at the width of its port beyond the time it is allowed, over all periods but the first. It is allowed its whole period with a second buffer, else the part in which its data are gone through last. Loading takes, for the slowest input, the sum over its levels of the slower end; unloading the same for the output. Bits, periods and repetitions of a transfer are those of the loops around it. A memory has a second buffer for an operand only when everything in use fits together with all second buffers, and for all operands when everything fits twice.", "quantifier": "all valid requests (layers, hierarchies, spatial and temporal mappings) with whole loop sizes and ports of one movement", "why_tests_cant": "the longest transfer can be at any level of any operand, and depends on the layer, the mapping and all memories", "anchors": ["zigzag/cost_model/cost_model.py:CostModelEvaluation.calc_latency", "zigzag/cost_model/cost_model.py:CostModelEvaluation.calc_double_buffer_flag", "zigzag/cost_model/cost_model.py:CostModelEvaluation.combine_data_transfer_rate_per_physical_port", "zigzag/cost_model/cost_model.py:CostModelEvaluation.calc_data_loading_latency"]}
{"id": "C79", "title": "The bandwidth reported for a memory is what its transfers ask for", "statement": "When every port of the accelerator makes one movement, the bandwidth an evaluation reports for an operand at a memory in a direction is what the transfer of that operand there asks for: its bits per operation, rounded down, times how often the data are gone through in a period, scaled, per cycle, rounded up; nothing where nothing moves. The part of a transfer that occurs once and goes on during the computation is added, always under writing from above in memories that hold outputs and under reading towards the array in others. The total of a memory is the sum over its operands. If periods divide what moves in them, the array does not wait when no port is narrower than what is reported for it. Departures to know: because of the rounding the array may wait although all ports are wide enough, and a reported bandwidth can be negative where nothing moves.", "quantifier": "all valid requests (layers, hierarchies, spatial and temporal mappings) with whole loop sizes and ports of one movement, all scalings", "why_tests_cant": "the value depends on the layer, the mapping, all memories and the stall, and rounding errors show for some sizes only", "anchors": ["zigzag/cost_model/cost_model.py:CostModelEvaluation.get_inst_bandwidth", "zigzag/cost_model/cost_model.py:CostModelEvaluation.get_total_inst_bandwidth", "zigzag/cost_model/cost_model.py:CostModelEvaluation.calc_data_loading_latency"]}
{"id": "C80", "title": "The mapper returns the best of all mappings that fit, and each of them can be evaluated", "statement": "Given a layer, an accelerator and a spatial mapping, the temporal mapper tries every order of loops that cover the layer; the mappings it hands on are exactly those that can be stored, each is a mapping that the cost model accepts, and the stage above returns one whose energy, latency or product is least among all. If no order can be stored the search says so. With an order given by the user, everything found has its loops in that order, and an order that does not go with the loops of the layer is reported. The only other failure is a division by zero cycles in an evaluation, which cannot happen when every port makes one movement; then latencies are at least the cycles of the loops. Departures to know: on shared ports a search can find sixty mappings and fail on every one of them, or return one with a negative latency.", "quantifier": "all layers, hierarchies with the needed ports, spatial mappings of sizes at least 1, mapping types, limits on the number of loops, criteria, factorisations", "why_tests_cant": "mapper, allocator and cost model are tested apart; that everything found is acceptable further down has to hold for every ordering of every layer", "anchors": ["zigzag/stages/mapping/temporal_mapping_generator_stage.py:TemporalMappingGeneratorStage.run", "zigzag/mapping/temporal_mapping.py:TemporalMapping", "zigzag/opt/loma/engine.py:LomaEngine.run", "zigzag/stages/evaluation/cost_model_evaluation.py:CostModelStage.run", "zigzag/stages/results/reduce_stages.py:MinimalEnergyStage.run"]}
{"id": "C81", "title": "The reported utilisation of a memory is what it keeps over its size, and at most 1 for mappings that are found", "statement": "For every mapping that suits the request, the utilisation reported for an operand in one of its memories is the bits of the tile that the loops inside make it keep there, divided by the size of the memory; the shared utilisation adds up all operands of that memory; the effective variants do the same for the part in use at a time. For every mapping that the search finds, all of these lie between 0 and 1, although allocator and cost model compute the tiles separately. Departure to know: this needs final outputs that take no more bits than partial sums; otherwise a memory can be reported three times full.", "quantifier": "all valid requests with loops of whole sizes; all layers, hierarchies, spatial mappings, mapping types, limits and factorisations for the search", "why_tests_cant": "the allocator decides with its own tile sizes and precisions whether a mapping fits; that the cost model agrees has to hold for every mapping of every layer", "anchors": ["zigzag/cost_model/cost_model.py:CostModelEvaluation.calc_memory_utilization", "zigzag/opt/loma/memory_allocator.py:MemoryAllocator.allocate_node", "zigzag/mapping/mapping.py:Mapping.calc_data_size"]}
{"id": "C82", "title": "The breakdown chart shows where the energy and time of every evaluation go", "statement": "For evaluations on one accelerator whose memories all differ, the breakdown chart is drawn without an exception: there is one bar for the operations and one for every memory in order of size, every part of a bar is the energy that the evaluation reports for that operand, memory and direction, the sections of the latency stack up to the ideal time, the time of the loops and the three totals, and the printed totals are the energy and latency of the evaluation; layer names are cut at the last but one slash; evaluations that are themselves sums over layers are left out of the chart. Departures to know: when one memory instance is used for two levels its energy is counted once per level; for evaluations on accelerators that differ (such as those with memories removed) the chart fails or draws energy for the wrong memory; a latency section can be negative.", "quantifier": "all lists of evaluations, hierarchies, orders in which sets are iterated, and layer names", "why_tests_cant": "whether the bars add up depends on how operands share memories, on equality of memories and on the accelerators of all evaluations drawn", "anchors": ["zigzag/visualization/results/plot_cme.py:bar_plot_cost_model_evaluations_breakdown", "zigzag/visualization/results/plot_cme.py:get_energy_array", "zigzag/visualization/results/plot_cme.py:get_latency_array", "zigzag/visualization/results/plot_cme.py:shorten_onnx_layer_name", "zigzag/hardware/architecture/memory_instance.py:MemoryInstance.__eq__"]}
{"id": "C83", "title": "Costs of cell arrays from CACTI are those of the array asked for, whatever was asked before", "statement": "Every call for the cost of an in-memory-computing cell array asks CACTI for the rows and bits of the array (28 nm as 32 nm at nine tenths of the supply, rows over 32 bits as parts of 32 bits) and, when CACTI has an answer, returns the numbers of that answer, whatever earlier calls left in the output file, and leaves the current directory as it was; rows of n times 32 bits cost n times the energy and area of rows of 32 bits; the cells of an array are asked for as a memory whose rows are the weights on a word line, one after the other; the cost of writing a weight is that of writing a row over the weights in it. Departures to know: when CACTI fails but an earlier call had an answer, the costs of the earlier array are returned silently; after an exception the current directory is not restored; rows that are no whole number of bytes are asked for with too short a line.", "quantifier": "all technologies, memory types, sizes and widths, all histories of calls and contents of the output file, all answers of CACTI", "why_tests_cant": "CACTI's output file is shared by all calls of a process and between runs, so the result depends on the history of calls", "anchors": ["zigzag/hardware/architecture/get_cacti_cost.py:get_cacti_cost", "zigzag/hardware/architecture/get_cacti_cost.py:CactiConfig.cacti_auto", "zigzag/hardware/architecture/get_cacti_cost.py:get_w_cost_per_weight_from_cacti", "zigzag/hardware/architecture/imc_unit.py:ImcUnit.get_single_cell_array_cost_from_cacti"]}
{"id": "C84", "title": "A run from three files returns the sum of the best mapping of every layer, or says why not", "statement": "From an accepted hardware description in which every operand is stored and every movement between memories has a port, an accepted workload whose layers have the usual three operands, and an accepted mapping whose loop orderings, if any, give sizes of at least one, the API builds the accelerator and the workload, gives every layer between one and the requested number of spatial mappings, and either returns the energy and latency of the sum over all layers (each once, after its sources) of the evaluation that is best for the chosen criterion among all temporal mappings found for all spatial mappings of the layer, or raises that no temporal mapping fits for one of them or that an ordering given in the mapping file does not go with the loops of the layer; every temporal mapping found has its loops in the order that the file gives; what is searched and evaluated is what the files say (operands, loops, relations, memories, array, unrolling, options); nothing else can go wrong except a division by zero cycles, and only if some port serves several movements.", "quantifier": "all hardware, workload and mapping files of that kind, all orders of traversal of sets, all LPF limits, mapping types, criteria, numbers of spatial mappings and mixed-spatial-mapping options", "why_tests_cant": "the property spans the three parsers, both mapping generators, conversion, evaluation and reduction, over all files", "anchors": ["zigzag/api.py:get_hardware_performance_zigzag", "zigzag/stages/parser/accelerator_parser.py:AcceleratorParserStage", "zigzag/stages/parser/workload_parser.py:WorkloadParserStage", "zigzag/stages/mapping/spatial_mapping_generation.py:SpatialMappingGeneratorStage", "zigzag/stages/mapping/temporal_mapping_generator_stage.py:TemporalMappingGeneratorStage"]}
{"id": "C85", "title": "A run of an ONNX model returns the sum of the best mapping of every convolution and matrix product", "statement": "From an ONNX model in executable order whose convolutions and matrix products have shapes and attributes as the standard says and at most two nodes feeding them, an accepted hardware description and an accepted mapping, every convolution and product becomes the layer that a workload file would describe with the same loops (kernel, stride and padding of the two axes exchanged, C41), sources, precisions and number of multiplications; nodes of other types cost nothing; and the API returns the energy and latency of the sum over these layers of the evaluation that is best for the chosen criterion, each layer once and, if at most two nodes feed each node, after all layers it depends on; or it raises that no temporal mapping fits, that the given loop ordering does not go with the layer, or, only if some port serves several movements, a division by zero cycles.", "quantifier": "all such models, hardware descriptions and mappings, all orders of traversal of sets, all LPF limits, mapping types, criteria, numbers of spatial mappings and mixed-spatial-mapping options", "why_tests_cant": "the property spans ONNX parsing, both mapping generators, conversion, evaluation and reduction, over all models", "anchors": ["zigzag/api.py:get_hardware_performance_zigzag", "zigzag/parser/onnx/onnx_model_parser.py:ONNXModelParser", "zigzag/parser/onnx/onnx_operator_parser.py:ONNXOperatorParser", "zigzag/parser/onnx/conv_parser.py:ConvParser", "zigzag/parser/onnx/gemm_parser.py:GemmParser", "zigzag/stages/parser/onnx_model_parser.py:ONNXModelParserStage"]}
{"id": "C86", "title": "A run reports no less energy than its multiplications cost and, with dedicated ports and no given loop ordering, no less time than the array needs for them", "statement": "Whenever a run from a workload file or an ONNX model succeeds, the energy it returns is at least the number of multiplications of all layers times the price of one in the hardware description, provided no memory has a negative price per access. The latency it returns, times the number of units of the array, is at least the number of multiplications, provided each memory port serves one movement and the mapping file gives no loop ordering. Neither proviso on the latency can be dropped: a given ordering together with a limit on the number of loop factors can lose loops, so that 32 multiplications on one multiplier take 20 cycles; and shared ports can give a negative latency.", "quantifier": "all accepted hardware descriptions, workloads or models and mappings, all orders of traversal of sets, all LPF limits, mapping types, criteria, numbers of spatial mappings and mixed-spatial-mapping options", "why_tests_cant": "a bound on every result of the whole tool: it needs every mapping that any search may return, for all layers and accelerators", "anchors": ["zigzag/api.py:get_hardware_performance_zigzag", "zigzag/cost_model/cost_model.py:CostModelEvaluation", "zigzag/opt/loma/engine.py:LomaEngine", "zigzag/mapping/spatial_mapping_internal.py:SpatialMappingInternal", "zigzag/stages/mapping/spatial_mapping_generation.py:SpatialMappingGeneratorStage"]}
{"id": "C87", "title": "The result of a run follows from its files alone, not from the order in which sets happen to be iterated over", "statement": "Two runs on the same hardware, workload and mapping give the same energy, latency and mappings, whatever order Python uses to iterate over sets of dimensions and whichever element it takes first. Python leaves this order open; here it follows from digests of pickled names, so renaming dimensions or another pickle format can change it. The claim is false in three ways: when the mapping file unrolls more on an array dimension than fits, an arbitrary unrolling is taken off (62 cycles or 17 for the same files); when a first memory is too small for the units that share it, unrollings are cut in the order of a set (33 cycles or 37); when hints are given as sets, of equally ranked mappings the first by that order is evaluated (9 cycles or 16). It holds when the mapping file leaves the unrollings to the generator and first memories hold an element for each unit that shares them, for a fixed order of the array dimensions that a memory serves and of hints.", "quantifier": "all accepted hardware descriptions, workloads or models and mappings, and any two ways of iterating over sets and of taking elements from them", "why_tests_cant": "a test sees one order of iteration: that of its interpreter and of the names it uses", "anchors": ["zigzag/mapping/spatial_mapping.py:SpatialMapping.check_and_reduce", "zigzag/stages/mapping/spatial_mapping_generation.py:SpatialMappingGeneratorStage", "zigzag/datatypes.py:OperandABC.__hash__", "zigzag/utils.py:hash_sha512", "zigzag/api.py:get_hardware_performance_zigzag"]}
{"id": "C88", "title": "Saved result files say what was evaluated", "statement": "The complete JSON file of an evaluation holds, under their keys, exactly its total, operational and memory energy, its energy and word accesses per operand, level and direction, its utilisations, its mappings loop by loop, and onloading, computation and offloading times that add up to the total latency; the simple file holds the same energy and latency; files about in-memory-computing arrays also hold the clock period, the areas and the parts of both and of the energy. Values are converted by shape, at any depth: lists, tuples and sets to lists, dicts to objects, operands used as keys to their names. The claim is false in three ways: the sum of no layers has no utilisations, so its complete file cannot be written (AttributeError); an operand and a text of the same name as keys of one dict become one key and a value is lost; operands used as keys in what an object's own method returns are not converted (TypeError), unless the method does so itself, as the shipped ones do. It holds for all evaluations of layers and for sums of one or more.", "quantifier": "all evaluations the cost model gives and sums of them, all values of any depth whose dicts have keys of distinct texts", "why_tests_cant": "the conversion is recursive and goes back and forth between the JSON encoder and the objects' own methods; a test saves a few evaluations and rarely reads every number back", "anchors": ["zigzag/utils.py:json_repr_handler", "zigzag/cost_model/cost_model.py:CostModelEvaluationABC.__jsonrepr__", "zigzag/cost_model/cost_model.py:CostModelEvaluationABC.__simplejsonrepr__", "zigzag/cost_model/cost_model_imc.py:CostModelEvaluationForIMC.__jsonrepr__", "zigzag/mapping/data_movement.py:FourWayDataMoving.__jsonrepr__", "zigzag/stages/results/save.py:CompleteSaveStage.save_to_json", "zigzag/stages/results/save.py:SimpleSaveStage.save_to_json"]}
{"id": "C89", "title": "Configuration files for CACTI set every option once, to the value asked for", "statement": "A configuration written for CACTI sets each of its options exactly once: to the value given for it, or else to its default, where defaults can be changed beforehand; a missing value is an IndexError. A sweep of an option writes one file per listed value, in order, with defaults for the others. Memories are simulated with the size, bus width, ports, banks and technology asked for, as RAM for the type sram and as main memory for any other; the block size in bytes is set to the bus width in bits. The claim is false in two ways: when two options are swept, no file sets both; names that are not options are passed over without an error.", "quantifier": "all tables of options with separate labels, in particular the one of the code, all lists of names and values, all memories", "why_tests_cant": "the file is only seen by an external program, which fills in what is not set", "anchors": ["zigzag/cacti/cacti_master/cacti_config_creator.py:CactiConfig.cacti_auto", "zigzag/cacti/cacti_master/cacti_config_creator.py:CactiConfig.change_default_value", "zigzag/cacti/cacti_master/cacti_top.py:run_cacti"]}
