{
 "claims": [
  {
   "property": "C01",
   "status": "proved",
   "theorems": [
    "C01_pr_size_exact_iff",
    "C01_pr_size_refuted",
    "C01_pr_size_never_under",
    "C01_pr_size_contiguous",
    "C01_total_counts_unpadded"
   ],
   "note": "The unrestricted equality is false of the code; the exact region where it holds is characterised (iff) and a departing case is exhibited."
  },
  {
   "property": "C02",
   "status": "proved",
   "theorems": [
    "C02_temporal_loops_cover",
    "C02_temporal_loops_tight"
   ],
   "note": "Unrollings are at least 1; the tightness bound needs all but the first unrolling of the dimension to be whole numbers. Floats are exact rationals."
  },
  {
   "property": "C03",
   "status": "proved",
   "theorems": [
    "C03_prime_factors_lossless",
    "C03_dummy_loop",
    "C03_factorint_exists"
   ],
   "note": "For every function meeting the contract of sympy's factorint; trial division is shown to meet it."
  },
  {
   "property": "C04",
   "status": "proved",
   "theorems": [
    "C04_limit_keeps_workload",
    "C04_engine_loops_cover_layer",
    "C04_announced_number"
   ],
   "note": "Without pinned loops. With pinned loops the property fails: see C05_pins_with_limit_refuted. The announced number uses exact integer division; the code divides floats, which rounds for numbers above 2^53."
  },
  {
   "property": "C05",
   "status": "partial",
   "theorems": [
    "C05_pins_refuted",
    "C05_repeated_pins_refuted",
    "C05_pins_with_limit_refuted",
    "C05_prime_power_pins_keep_workload_partial",
    "C05_limit_merges_unpinned",
    "C05_prime_pins_with_limit_partial",
    "C05_prime_pins_can_be_met_partial",
    "C05_power_pins_with_limit_partial",
    "C05_power_pins_can_be_met_partial",
    "C05_used_up_refuted",
    "C05_pinned_from_both_sides_partial"
   ],
   "note": "False in general (four refutations). Proved for distinct pins of prime-power size without a limit; with a limit that leaves room for the pins, for primes and for powers that do not use up their prime, where the pins can moreover be met and the whole search yields exactly the allocations of the pinned loops with the others, in every order, between them. Missing: what happens to sizes with several primes, beyond the refutation."
  },
  {
   "property": "C06",
   "status": "proved",
   "theorems": [
    "C06_orderings_are_permutations",
    "C06_loops_are_ordered",
    "C06_empty_multiset"
   ],
   "note": "The pointer program on a heap of list nodes is modelled; proved for every strict total order and every non-empty multiset. The empty multiset raises IndexError."
  },
  {
   "property": "C07",
   "status": "proved",
   "theorems": [
    "C07_constrained_orderings",
    "C07_missing_position_is_an_error"
   ],
   "note": "For pins at existing positions; a pin at a non-existing position raises IndexError (proved)."
  },
  {
   "property": "C08",
   "status": "proved",
   "theorems": [
    "C08_allocation_keeps_loops"
   ],
   "note": "For any visiting order of the memories that includes the operand's top memory."
  },
  {
   "property": "C09",
   "status": "proved",
   "theorems": [
    "C09_allocated_data_fits"
   ],
   "note": "Exact rational sizes; no assumption on loop sizes or precisions."
  },
  {
   "property": "C10",
   "status": "proved",
   "theorems": [
    "C10_fewest_accesses"
   ],
   "note": "Loop sizes are at least 1 and no loop runs over a derived (pr) dimension; optimality is per memory, given the tiles of the memories below."
  },
  {
   "property": "C11",
   "status": "proved",
   "theorems": [
    "C11_allocator_only_capacity_errors",
    "C11_mapper_end_to_end",
    "C11_run_yields_feasible"
   ],
   "note": "End to end through factorisation, permutation generator and allocator, without user constraints; also for an arbitrary allocation function."
  },
  {
   "property": "C12",
   "status": "proved",
   "theorems": [
    "C12_merge_down"
   ],
   "note": "Merge-down terminates within levels x loops passes; every level boundary moves past exactly the reuse loops after it; loops, order and level count kept; stationary cycles at the multipliers characterised."
  },
  {
   "property": "C13",
   "status": "proved",
   "theorems": [
    "C13_cycle_counts",
    "C13_unequal_refused",
    "C13_allocated_accepted",
    "C13_top_loop_sizes"
   ],
   "note": "Cycle counts characterised for every accepted mapping; unequal products are refused with AssertionError; mappings made by the allocator model are always accepted; outermost relevant/reuse loop sizes characterised."
  },
  {
   "property": "C14",
   "status": "proved",
   "theorems": [
    "C14_decoupling",
    "C14_products_and_telescoping",
    "C14_shared_dimension_refuted"
   ],
   "note": "For layers whose derived dimensions do not share a related dimension (the code breaks otherwise: refutation given). Exact rationals for floats."
  },
  {
   "property": "C15",
   "status": "proved",
   "theorems": [
    "C15_counts",
    "C15_accepts",
    "C15_rejects",
    "C15_unique_elements"
   ],
   "note": "Float products are exact rationals; rounding (half to even, 3 digits) is modelled and characterised. Duplicate count equals the product of non-data loops."
  },
  {
   "property": "C16",
   "status": "proved",
   "theorems": [
    "C16_validity",
    "C16_reduce",
    "C16_valid_unchanged"
   ],
   "note": "For every choice of arbitrary set elements. Inputs: maxima and sizes at least 1, the mapping covers exactly the array dimensions."
  },
  {
   "property": "C17",
   "status": "proved",
   "theorems": [
    "C17_distribution"
   ],
   "note": "All hierarchies (lists of served dimensions per level) and mappings; operands compared through the user mapping."
  },
  {
   "property": "C18",
   "status": "partial",
   "theorems": [
    "C18_bounds",
    "C18_limited",
    "C18_exact_partial",
    "C18_exact_refuted"
   ],
   "note": "Bounds and minimal exact split proved; exactness of the total holds when no later array dimension unrolls the layer dimension and is refuted otherwise. Exact rationals for floats."
  },
  {
   "property": "C19",
   "status": "partial",
   "theorems": [
    "C19_capacity_partial",
    "C19_one_unrolling_partial",
    "C19_capacity_refuted"
   ],
   "note": "False for equal unrollings (refuted: 4 and 4 in room for 8 become 3 and 3). Proved: totality, only lowers, keeps what fits, keeps irrelevant dimensions, fits when the unrollings seen are pairwise different."
  },
  {
   "property": "C20",
   "status": "proved",
   "theorems": [
    "C20_total",
    "C20_bandwidth",
    "C20_max_unrolling"
   ],
   "note": "Exact characterisation of the cut unrollings; total on complete hierarchies. A bandwidth below the precision gives maximum 0."
  },
  {
   "property": "C21",
   "status": "proved",
   "theorems": [
    "C21_flags",
    "C21_monotone",
    "C21_precision",
    "C21_traffic"
   ],
   "note": "For outputs without sliding window (the code never gives the output one)."
  },
  {
   "property": "C22",
   "status": "proved",
   "theorems": [
    "C22_external",
    "C22_frame"
   ],
   "note": "Every attribute; the frame theorem covers other levels and directions."
  },
  {
   "property": "C23",
   "status": "proved",
   "theorems": [
    "C23_inputs",
    "C23_outputs",
    "C23_reuse",
    "C23_balance",
    "C23_reads_within_macs_refuted"
   ],
   "note": "Exact rationals for floats. Reads within MACs is refuted for dilated windows, which the statement allows."
  },
  {
   "property": "C24",
   "status": "proved",
   "theorems": [
    "C24_totals",
    "C24_reached",
    "C24_nonnegative",
    "C24_additive"
   ],
   "note": "Floats are exact rationals. Access counts produced by an evaluation meet the hypotheses (C24_reached)."
  },
  {
   "property": "C25",
   "status": "partial",
   "theorems": [
    "C25_totals_partial",
    "C25_chain_partial",
    "C25_stall_covers",
    "C25_no_stall",
    "C25_activities",
    "C25_chain_refuted"
   ],
   "note": "False in general: loading can shorten the latency (refuted by a complete evaluation). Stall >= 0, temporal <= latency0 and the defining equations hold always; the whole chain is proved when no port serves two transfers that happen once per layer."
  },
  {
   "property": "C26",
   "status": "proved",
   "theorems": [
    "C26_sum",
    "C26_defined",
    "C26_defined_positive",
    "C26_commutative",
    "C26_associative",
    "C26_identity",
    "C26_empty_empty",
    "C26_adds_up",
    "C26_evaluations",
    "C26_grouping_refuted"
   ],
   "note": "Entry-wise sums, commutativity, associativity when both groupings are defined, identity. Exactly when a sum is defined is C26_defined; with different accelerators only one grouping may be defined (C26_grouping_refuted)."
  },
  {
   "property": "C27",
   "status": "proved",
   "theorems": [
    "C27_multiple",
    "C27_one",
    "C27_utilizations",
    "C27_distributes",
    "C27_repeated_addition",
    "C27_zero"
   ],
   "note": "For every non-zero integer; zero raises ZeroDivisionError (proved)."
  },
  {
   "property": "C28",
   "status": "proved",
   "theorems": [
    "C28_energy",
    "C28_latency",
    "C28_edp",
    "C28_empty",
    "C28_cumulative"
   ],
   "note": "Any finite list; the result is the first best in the documented order. The EDP stage has no tie-break beyond being first."
  },
  {
   "property": "C29",
   "status": "proved",
   "theorems": [
    "C29_total",
    "C29_defined",
    "C29_order"
   ],
   "note": "Also: the stage is defined for evaluations of one accelerator with positive cycle counts, and an empty sequence gives the empty evaluation."
  },
  {
   "property": "C30",
   "status": "proved",
   "theorems": [
    "C30_levels",
    "C30_acyclic",
    "C30_edges",
    "C30_top",
    "C30_inner",
    "C30_outer",
    "C30_instances",
    "C30_total",
    "C30_repeated_refuted"
   ],
   "note": "For hierarchies whose memories list their operands once (C30_repeated_refuted shows why); building succeeds for well-formed port allocations (C30_total)."
  },
  {
   "property": "C31",
   "status": "partial",
   "theorems": [
    "C31_sorted_partial",
    "C31_sharing_stays_partial",
    "C31_sorted_refuted"
   ],
   "note": "Proved when the largest level number does not go down along an operand's memories (in particular when operands that share a memory share all later ones), for every topological order. False in general: C31_sorted_refuted gives a seven-memory hierarchy in which the memories of I1 come out as levels 0, 2, 1."
  },
  {
   "property": "C32",
   "status": "proved",
   "theorems": [
    "C32_partition",
    "C32_irrelevant_is_independent",
    "C32_mixed_refuted"
   ],
   "note": "All equations, sizes and relations with distinct derived dimensions; irrelevant = independent for operands with all derived dimensions or none; mixed operands refuted (C32_mixed_refuted)."
  },
  {
   "property": "C33",
   "status": "proved",
   "theorems": [
    "C33_bijection",
    "C33_table",
    "C33_fails",
    "C33_succeeds",
    "C33_contains"
   ],
   "note": "Bijection, and construction fails exactly on a repeated memory operand."
  },
  {
   "property": "C34",
   "status": "partial",
   "theorems": [
    "C34_complete_partial",
    "C34_unit_loop_refuted"
   ],
   "note": "Characterised for all orderings; 'never crashes' is refuted: a product of 1 raises RuntimeError."
  },
  {
   "property": "C35",
   "status": "partial",
   "theorems": [
    "C35_pins",
    "C35_removal",
    "C35_wildcard_refuted"
   ],
   "note": "Constraints and removal proved for all orderings; end to end the factory removes the wildcard, refuted."
  },
  {
   "property": "C36",
   "status": "proved",
   "theorems": [
    "C36_union",
    "C36_bounds",
    "C36_not_nested"
   ],
   "note": "For periods that divide the longest; other periods raise ValueError (proved), unless a window is always open."
  },
  {
   "property": "C37",
   "status": "partial",
   "theorems": [
    "C37_conservative_partial",
    "C37_minimum_partial",
    "C37_single_partial",
    "C37_no_surplus",
    "C37_minimum_refuted"
   ],
   "note": "Conservation and the surplus bound proved for all lists; the minimum is refuted (two entries 10, minima 1, surplus 100 give -8) and proved when the surplus does not exceed what the largest entry can give."
  },
  {
   "property": "C38",
   "status": "proved",
   "theorems": [
    "C38_shared",
    "C38_alone",
    "C38_utilization",
    "C38_bits"
   ],
   "note": "Sharing groups disjoint, utilizations non-negative. Also: everything is granted below half, and the exact rule for a memory of one's own."
  },
  {
   "property": "C39",
   "status": "partial",
   "theorems": [
    "C39_two_inputs_partial",
    "C39_one_input_partial",
    "C39_offloading",
    "C39_half_shared_refuted"
   ],
   "note": "Upper bound and non-negativity always; the lower bound is refuted when an operand has two half-shared transfers and proved for at most one; single-input layers count unshared transfers only (proved)."
  },
  {
   "property": "C40",
   "status": "proved",
   "theorems": [
    "C40_words",
    "C40_bounds",
    "C40_truncated_refuted"
   ],
   "note": "The exact word count is characterised end to end; the statement's bound without truncation is C40_bounds, with the final truncation words may fall short by less than one (refutation for the truncated count)."
  },
  {
   "property": "C41",
   "status": "partial",
   "theorems": [
    "C41_axes_exchanged",
    "C41_square_partial",
    "C41_wide_kernel_refuted"
   ],
   "note": "Axes are exchanged in general (proved); the property holds exactly as stated when kernel, stride, dilation and padding agree along both axes; refuted for a 1x3 kernel."
  },
  {
   "property": "C42",
   "status": "proved",
   "theorems": [
    "C42_product",
    "C42_dimensions",
    "C42_shape_needed"
   ],
   "note": "Ranks 2 to 4, transposed first operand, constant or computed weights."
  },
  {
   "property": "C43",
   "status": "proved",
   "theorems": [
    "C43_edges",
    "C43_paths",
    "C43_onnx",
    "C43_onnx_refuted"
   ],
   "note": "All graphs. C43_onnx extends it to the dependencies of the ONNX model when no node has more than two feeding nodes; C43_onnx_refuted shows a concatenation of three layers losing one, because dummy nodes keep two sources only."
  },
  {
   "property": "C44",
   "status": "proved",
   "theorems": [
    "C44_described",
    "C44_described_sorted",
    "C44_onnx_edges",
    "C44_onnx"
   ],
   "note": "Described workloads: unconditional. ONNX: models in executable order; without it C44_onnx_edges still excludes backward edges, and a self-edge only arises for a dummy node consuming its own output."
  },
  {
   "property": "C45",
   "status": "partial",
   "theorems": [
    "C45_gathers_partial",
    "C45_ends",
    "C45_never_twice",
    "C45_any_order",
    "C45_few_refuted",
    "C45_failing_job_refuted"
   ],
   "note": "Holds with no job or at least ten when none fails; false with one to nine jobs (ZeroDivisionError) and when a job fails (waits forever); both departures are theorems."
  },
  {
   "property": "C46",
   "status": "proved",
   "theorems": [
    "C46_best",
    "C46_succeeds",
    "C46_neighbours",
    "C46_orders_cover",
    "C46_loops_exist",
    "C46_stage",
    "C46_total_latency_refuted",
    "C46_failing_process",
    "C46_nothing_left",
    "C46_unrolled_twice_refuted"
   ],
   "note": "For every random draw, exponential and evaluation function; the criterion by which the stage compares for latency differs from the engine's, shown in C46_total_latency_refuted; failing processes make the stage wait forever."
  },
  {
   "property": "C47",
   "status": "proved",
   "theorems": [
    "C47_priority",
    "C47_error",
    "C47_any_order",
    "C47_accepted_file",
    "C47_written_mapping",
    "C47_accepted_texts",
    "C47_senseless_refuted"
   ],
   "note": "Priority, error and order independence for all entry lists; accepted files are read as written; C47_senseless_refuted shows what the validator lets through."
  },
  {
   "property": "C48",
   "status": "partial",
   "theorems": [
    "C48_same_file",
    "C48_own_file",
    "C48_kinds",
    "C48_run",
    "C48_overwritten",
    "C48_different_names_refuted"
   ],
   "note": "Two names give one file exactly when they differ at most in slashes and underscores; for other names every file is shown to hold its own evaluation."
  },
  {
   "property": "C49",
   "status": "proved",
   "theorems": [
    "C49_loops_reported",
    "C49_printed",
    "C49_fully_spatial",
    "C49_allocated"
   ],
   "note": "For all mappings in which all operands have the same loops, shown to include every mapping the allocator makes; printing fails for a layer without temporal loops (C49_fully_spatial)."
  },
  {
   "property": "C50",
   "status": "partial",
   "theorems": [
    "C50_levels",
    "C50_handed_on",
    "C50_input_fits_partial",
    "C50_weights_partial",
    "C50_succeeds",
    "C50_pruned",
    "C50_from_top_ignored",
    "C50_larger_input_refuted",
    "C50_added_weights_refuted"
   ],
   "note": "Chosen levels fully characterised (lowest memory that can keep the data) and the pruned accelerator proved exact; that the data fits is refuted for an input larger than the previous output and for weights in workloads with weight-less layers, and proved otherwise."
  },
  {
   "property": "C51",
   "status": "proved",
   "theorems": [
    "C51_tree_inputs",
    "C51_area",
    "C51_peak",
    "C51_used_adders",
    "C51_no_more_than_tree",
    "C51_layer_energy",
    "C51_place_value_count",
    "C51_place_value_width",
    "C51_place_value_refuted"
   ],
   "note": "Regular trees: area, peak and layer energy count the adders of an explicit balanced tree, the loop ends within depth+1 steps for every number of used rows. Place-value trees are counted with d*2^(d-1) adders more than needed (C51_place_value_count); that they are exact is refuted."
  },
  {
   "property": "C52",
   "status": "proved",
   "theorems": [
    "C52_construct",
    "C52_default",
    "C52_set",
    "C52_add",
    "C52_mul",
    "C52_add_comm",
    "C52_add_assoc",
    "C52_add_zero",
    "C52_mul_distr",
    "C52_add_missing",
    "C52_pattern_new",
    "C52_pattern_set",
    "C52_pattern_update"
   ],
   "note": "Numbers are abstract; the algebraic laws hold where the numbers' own do (exact arithmetic)."
  },
  {
   "property": "C53",
   "status": "proved",
   "theorems": [
    "C53_even_mapping_is_even"
   ],
   "note": "Positions are positions in the loop ordering."
  },
  {
   "property": "C54",
   "status": "partial",
   "theorems": [
    "C54_indicator_partial",
    "C54_more_units_rank_higher_refuted"
   ],
   "note": "The documented ranking is false of the code (refuted: 2x2x2 beats 9). Definedness, value and bounds are proved."
  },
  {
   "property": "C55",
   "status": "proved",
   "theorems": [
    "C55_generated_mappings_valid",
    "C55_hints"
   ],
   "note": "Without the optional diagonal extension (enable_ox_unrolling), which is off by default."
  },
  {
   "property": "C56",
   "status": "proved",
   "theorems": [
    "C56_best_completions"
   ],
   "note": "fate describes how shared objects may be lowered by limiting other candidates; exact when nothing exceeds the capacity."
  },
  {
   "property": "C57",
   "status": "partial",
   "theorems": [
    "C57_prefix_partial",
    "C57_prefix_refuted"
   ],
   "note": "Refuted: limiting the third mapping lowers the first two through shared objects. Proved when no valid completion exceeds the capacity."
  },
  {
   "property": "C58",
   "status": "proved",
   "theorems": [
    "C58_inputs",
    "C58_outputs",
    "C58_derived_refuted"
   ],
   "note": "Whole loop sizes. The sliding-window departure named in the statement is exhibited by C58_derived_refuted."
  },
  {
   "property": "C59",
   "status": "proved",
   "theorems": [
    "C59_sizes"
   ],
   "note": "Exact rationals for floats; rounding to nearest is part of the statement."
  },
  {
   "property": "C60",
   "status": "proved",
   "theorems": [
    "C60_total"
   ],
   "note": "Tables of the spatial and temporal mapping are those proved in C13 and C15."
  },
  {
   "property": "C61",
   "status": "proved",
   "theorems": [
    "C61_groups",
    "C61_disjoint",
    "C61_members"
   ],
   "note": "All hierarchies."
  },
  {
   "property": "C62",
   "status": "proved",
   "theorems": [
    "C62_served",
    "C62_all_served",
    "C62_bandwidth",
    "C62_ids",
    "C62_types",
    "C62_same_name_refuted"
   ],
   "note": "All hierarchies whose memories have differently named ports; C62_same_name_refuted shows that with equal names the first port takes the movements of both."
  },
  {
   "property": "C63",
   "status": "proved",
   "theorems": [
    "C63_each_once",
    "C63_total"
   ],
   "note": "All graphs and evaluation functions; a generator failing half-way is modelled as the failure."
  },
  {
   "property": "C64",
   "status": "proved",
   "theorems": [
    "C64_equation",
    "C64_relation",
    "C64_gap_refuted",
    "C64_underscore_refuted"
   ],
   "note": "All texts of the stated form; departures of other accepted spellings refuted as theorems."
  },
  {
   "property": "C65",
   "status": "proved",
   "theorems": [
    "C65_complete",
    "C65_constrained"
   ],
   "note": "All layers, orderings and memories; ordering not longer than the loops, allocation failing only for lack of memory."
  },
  {
   "property": "C66",
   "status": "partial",
   "theorems": [
    "C66_elements_partial",
    "C66_given_sizes_partial",
    "C66_not_below",
    "C66_bits_and_reuse",
    "C66_as_given",
    "C66_built",
    "C66_sparse_refuted"
   ],
   "note": "Exact in the region of C01 (and with padding for unit second stride), upper bound without padding everywhere; refuted outside. Operands whose subscripts share loops are outside."
  },
  {
   "property": "C67",
   "status": "proved",
   "theorems": [
    "C67_optimum",
    "C67_cost_model",
    "C67_result",
    "C67_criterion"
   ],
   "note": "Mapping generators and evaluation are parameters of the chain; C67_cost_model has the cost model in place. Data locality stages are not in the chain."
  },
  {
   "property": "C68",
   "status": "partial",
   "theorems": [
    "C68_plain",
    "C68_diagonal_partial",
    "C68_set_order_refuted",
    "C68_stride_refuted",
    "C68_single_dimension_fails",
    "C68_unpaired_fails"
   ],
   "note": "Proved without dimensions irrelevant to the weights on the wordlines, and with them for stride one, two or more bitline dimensions and the set listed in the mapping's order. Otherwise refuted: set order, strides; one bitline dimension or an unpaired dimension always ends in an error."
  },
  {
   "property": "C69",
   "status": "partial",
   "theorems": [
    "C69_bounded",
    "C69_full",
    "C69_succeeds",
    "C69_precharge_partial",
    "C69_precharge_refuted"
   ],
   "note": "Every part but precharging is proved for every valid array. Precharging: nothing with one weight in a cell group (C69_precharge_partial); with several, the code never reaches the formula, it raises AttributeError (C69_precharge_refuted)."
  },
  {
   "property": "C70",
   "status": "proved",
   "theorems": [
    "C70_constructs",
    "C70_rows_power_of_two",
    "C70_negative_clock_refuted",
    "C70_total_area",
    "C70_equal_names_refuted",
    "C70_instances_refuted"
   ],
   "note": "Floats as exact rationals; CACTI's and the ADC's area given and not negative. With one row the clock period can be negative, equal memory names lose parts of the breakdown, instances are not counted: refutations."
  },
  {
   "property": "C71",
   "status": "proved",
   "theorems": [
    "C71_answers",
    "C71_repeated",
    "C71_succeeds",
    "C71_other_kind_refuted",
    "C71_whole_bytes",
    "C71_overwritten_refuted",
    "C71_instance"
   ],
   "note": "CACTI is an arbitrary function that answers about what it was asked; numbers exact. Clash of kinds and sizes that are not whole bytes: refutations."
  },
  {
   "property": "C72",
   "status": "proved",
   "theorems": [
    "C72_all_configurations",
    "C72_best",
    "C72_succeeds",
    "C72_indivisible_fails",
    "C72_left_mapping_refuted"
   ],
   "note": "Evaluation is an arbitrary function of description and mapping. The layer keeps the last configuration's mapping, not the best one's: refutation."
  },
  {
   "property": "C73",
   "status": "proved",
   "theorems": [
    "C73_accepted",
    "C73_regular",
    "C73_written",
    "C73_imc",
    "C73_imc_workable",
    "C73_extracted",
    "C73_accepted_not_built_refuted",
    "C73_repeated_dimension_refuted",
    "C73_untyped_refuted",
    "C73_validator_raises_refuted"
   ],
   "note": "The statement covers the departures, each shown by a _refuted theorem: accepted descriptions that do not build (missing unit energy, port of a foreign operand, automatic memory without read port or of unknown type, IMC with one dimension, null ADC resolution or odd rows), repeated dimensions, untyped IMC, validator that raises. Dimensions of IMC arrays are assumed not repeated."
  },
  {
   "property": "C74",
   "status": "proved",
   "theorems": [
    "C74_only_division",
    "C74_division_when",
    "C74_dedicated_ports",
    "C74_few_single_transfers",
    "C74_division_refuted",
    "C74_negative_latency_refuted",
    "C74_whole_cycles_refuted",
    "C74_unread_refuted",
    "C74_closed_refuted",
    "C74_foreign_refuted"
   ],
   "note": "Ok or ZeroDivisionError for every valid request, with the exact condition; success when ports are dedicated; valid requests that divide by zero or give a negative latency exhibited"
  },
  {
   "property": "C75",
   "status": "proved",
   "theorems": [
    "C75_energy"
   ],
   "note": "C75_energy: the energy as operations plus accesses, the accesses characterised over the request alone (layer, description of memories, spatial and temporal loops). Towards the array counts are characterised for units without overlapping data (no_overlap); loop sizes are whole. Finding stated by the theorem: read-backs of partial sums are counted as often as the writes, also in the first iteration, when nothing was stored."
  },
  {
   "property": "C76",
   "status": "proved",
   "theorems": [
    "C76_accepted",
    "C76_built",
    "C76_shipped",
    "C76_accepted_fails_refuted",
    "C76_positive_refuted",
    "C76_sizes_refuted"
   ],
   "note": "Acceptance is characterised exactly and construction proved for sensible layers; C76_*_refuted show that acceptance alone does not suffice."
  },
  {
   "property": "C77",
   "status": "proved",
   "theorems": [
    "C77_only_division",
    "C77_dedicated_ports",
    "C77_as_digital",
    "C77_energy",
    "C77_figures",
    "C77_several_weights_refuted"
   ],
   "note": "The statement covers the departure (several weights in a cell group: AttributeError), shown by C77_several_weights_refuted. Mappings with diagonal unrolling are C68's subject. Floats as exact rationals."
  },
  {
   "property": "C78",
   "status": "proved",
   "theorems": [
    "C78_times"
   ],
   "note": "For accelerators whose ports make one movement each; shared ports are C25, C36, C37 and C39."
  },
  {
   "property": "C79",
   "status": "proved",
   "theorems": [
    "C79_reported",
    "C79_enough_refuted",
    "C79_negative_refuted"
   ],
   "note": "Ports of one movement, whole loop sizes, whole cycles per operation. The departures named in the statement are proved by C79_enough_refuted and C79_negative_refuted."
  },
  {
   "property": "C80",
   "status": "proved",
   "theorems": [
    "C80_found_can_be_evaluated",
    "C80_best_is_returned",
    "C80_dedicated_ports",
    "C80_ordering",
    "C80_division_refuted",
    "C80_negative_refuted"
   ],
   "note": "Covers the whole path from a layer with a spatial mapping to the evaluation returned, without orderings from the user. Departures (C80_division_refuted, C80_negative_refuted) are part of the statement."
  },
  {
   "property": "C81",
   "status": "proved",
   "theorems": [
    "C81_reported",
    "C81_found_fits",
    "C81_wide_outputs_refuted"
   ],
   "note": "C81_reported, C81_found_fits for final precision at most the output precision and whole unrollings; C81_wide_outputs_refuted shows the condition is needed."
  },
  {
   "property": "C82",
   "status": "proved",
   "theorems": [
    "C82_evaluations",
    "C82_breakdowns",
    "C82_sums",
    "C82_names",
    "C82_same_memory_refuted",
    "C82_more_memories_refuted",
    "C82_fewer_memories_refuted"
   ],
   "note": "Not modelled: the drawing itself. Two memories are the same key of a dict exactly when they have the same label. The departures are proved as refutations."
  },
  {
   "property": "C83",
   "status": "proved",
   "theorems": [
    "C83_costs",
    "C83_proportional",
    "C83_array",
    "C83_weight",
    "C83_stale_refuted",
    "C83_directory_refuted",
    "C83_bytes_refuted"
   ],
   "note": "CACTI, the file system and float() are parameters; one file name is used. The departures are proved as refutations."
  },
  {
   "property": "C84",
   "status": "proved",
   "theorems": [
    "C84_layers",
    "C84_request",
    "C84_run",
    "C84_ordering",
    "C84_shipped",
    "C84_division_refuted",
    "C84_negative_refuted"
   ],
   "note": "whole runs from the three files, with or without user-given orderings; every departure (division by zero cycles, negative latency on shared ports) is exhibited. IMC arrays are outside: C77 covers their evaluation."
  },
  {
   "property": "C85",
   "status": "proved",
   "theorems": [
    "C85_request",
    "C85_run",
    "C85_depends",
    "C85_depends_sound",
    "C85_ordering",
    "C85_order_refuted"
   ],
   "note": "Whole runs of ONNX models. C85_order_refuted: with a cost-free node of three inputs a layer is evaluated before one it depends on (the statement covers this: order is claimed for at most two nodes feeding each node)."
  },
  {
   "property": "C86",
   "status": "proved",
   "theorems": [
    "C86_files",
    "C86_models",
    "C86_ordering_refuted",
    "C86_shared_refuted"
   ],
   "note": "Energy floor for all runs with non-negative memory prices; latency floor where each port serves one movement and the mapping gives no loop ordering. Both provisos on the latency are necessary: C86_ordering_refuted and C86_shared_refuted give runs below the floor without them."
  },
  {
   "property": "C87",
   "status": "partial",
   "theorems": [
    "C87_files_partial",
    "C87_models_partial",
    "C87_removal_refuted",
    "C87_capacity_refuted",
    "C87_hint_refuted"
   ],
   "note": "False in general: three refutations with two admissible iteration orders each (user unrollings that do not fit, first memories too small for the sharing units, hints). Proved for mapping files without unrollings and roomy first memories, from workload files and ONNX models, with the order of served dimensions and hints fixed."
  },
  {
   "property": "C88",
   "status": "partial",
   "theorems": [
    "C88_values_partial",
    "C88_exactly_partial",
    "C88_complete_partial",
    "C88_complete_imc_partial",
    "C88_loops",
    "C88_simple",
    "C88_simple_imc",
    "C88_layers_partial",
    "C88_sums_partial",
    "C88_nothing_refuted",
    "C88_same_text_refuted",
    "C88_names_refuted"
   ],
   "note": "Proved for values whose dicts have keys of distinct texts, for evaluations of layers and sums of at least one. Refuted: the sum of no layers has no complete file; an operand and a text of the same name merge; operands as keys in what an object's method returns raise a TypeError."
  },
  {
   "property": "C89",
   "status": "partial",
   "theorems": [
    "C89_options",
    "C89_default",
    "C89_given",
    "C89_missing",
    "C89_sweep_partial",
    "C89_changed",
    "C89_memory",
    "C89_two_swept_refuted",
    "C89_unknown_refuted"
   ],
   "note": "Proved for default and given values, for a sweep of one option, for changed defaults and for the request of run_cacti. Refuted: a sweep of two options leaves one of them out of every file; unknown names are ignored."
  }
 ]
}
