# Design of the ZigZag model and proofs

## Scope and method

The subject is the Python code of ZigZag in `/repo`. The model is a set of shallow, executable Gallina functions that mirror the Python functions branch by branch. Python exceptions are values of a result type. Proofs live apart from the models; each property's theorems live in a `Prop_*.v` file that contains only theorem statements closed by `exact`, with `Print Assumptions` beneath, and non-vacuity `Example`s.

File layout in `rocq/theories`: `Base.v` (result type, Python dict as association list, list/product lemmas), `Model_*.v` (definitions only, every one citing file and lines), `Spec_*.v` where a property needs an independent specification, `Proof_*.v`, `Prop_*.v`.

## Conventions of the model

- `LayerDim`, `LayerOperand`, `MemoryOperand`, `OADimension` are Coq strings. The code compares SHA-512 hashes of names; equality of hashes is trusted to be equality of names.
- A Python dict is an association list in insertion order; `d[k]=v` overwrites in place or appends; `del` removes; missing key is a `KeyError` value.
- Python `int` is `Z` (or `nat` for lengths/indices). Python `float` is an exact rational `Q` unless a definition says otherwise: floating-point rounding is NOT modelled.
- `while` loops are fuelled and return an explicit out-of-fuel error; theorems prove that the error does not occur for the fuel the model supplies.
- `set` iteration order and random numbers are universally quantified oracles.

## Trusted base

- Coq 8.16.1's kernel (and `vm_compute`).
- The axioms listed by `Print Assumptions` beneath each theorem. The intent is `Closed under the global context` everywhere; exceptions are listed in the last section.
- The faithfulness of the reading of the Python code; the code has not been run.
- External libraries are represented by their contract only: sympy's `factorint`, networkx's graph and topological sort, numpy reshapes, `random`, multiprocessing.

## Not modelled

Logging, drawing (`visualization/`; the numbers of the breakdown chart are modelled), pickling, YAML/ONNX file parsing and JSON printing as text, the Cacti subprocess, floating-point rounding, wall-clock behaviour, OS scheduling beyond arbitrary completion orders.

## Plan per property

### C01 Partially-relevant dimension size is the number of distinct indices

- Model: Model_Pr: `calc_pr_dimension_size` as Z function.
- Proof: Spec: explicit list of all sa*x+sb*y, `nodup`, length. Prove the exact count formula `ab - max(0,b-sa')max(0,a-sb')` by counting value classes; equality with the code in the region b<=sa/g or a>=sb/g; refutation outside.
- Result: proved. The unrestricted equality is false of the code; the exact region where it holds is characterised (iff) and a departing case is exhibited.

### C02 Temporal loops cover the layer left over by spatial unrolling

- Model: Model_Loma: `get_temporal_loops` over association lists with Q unrollings; the swallowed KeyError is an explicit branch.
- Proof: Induction over the spatial loops with invariant spatial_so_far*remaining >= size.
- Result: proved. Unrollings are at least 1; the tightness bound needs all but the first unrolling of the dimension to be whole numbers. Floats are exact rationals.

### C03 Loop prime factorisation is lossless

- Model: Model_Loma: `prime_factors` by trial division with fuel (the code calls sympy.factorint; its contract is what is modelled).
- Proof: Product/primality by induction; loops = flattened counts.
- Result: proved. For every function meeting the contract of sympy's factorint; trial division is shown to meet it.

### C04 Limiting the number of loop factors never changes the workload

- Model: Model_Loma: `limit_lpfs` step and loop, three dictionaries; `compute_nb_permutations` with exact division.
- Proof: Invariant per iteration: per-dim product; measure = number of loops. Number of orderings: an explicit enumeration by first elements, counted by induction (its length times the factorials of the multiplicities is the factorial of the length); factors stay distinct when merged.
- Result: proved. Without pinned loops. With pinned loops the property fails: see C05_pins_with_limit_refuted. The announced number uses exact integer division; the code divides floats, which rounds for numbers above 2^53.

### C05 User-fixed loop sizes leave the workload unchanged

- Model: Model_Loma: `reduce_static_fps`, `find_smallest_non_static_pf`. Spec_LomaCount: how often a loop is in a list, how many are left over, pins as powers of primes, places of positions. Spec_PinStage: the entries of an ordering on both sides of a wildcard.
- Proof: Refutations by vm_compute (C=6, pinned 6; C=60, pinned 4, limit 2). Prime-power pins without a limit: invariant over the pins. With a limit: invariant over the pins on the multiplicity of each factor; by the pigeonhole principle the dimension merged next has two spare loops, and the choice among the factors (induction) takes spare ones, so products and pinned loops are kept. An ordering that meets the pins is built by filling the other places. For whole orderings (Proof_LomaPinStage): the pins recorded for an ordering are its entries, and a list meets the ordering exactly if it starts with the inner entries and ends with the outer ones.
- Result: partial. False in general (four refutations). Proved for distinct pins of prime-power size without a limit; with a limit that leaves room for the pins, for primes and for powers that do not use up their prime, where the pins can moreover be met and the whole search yields exactly the allocations of the pinned loops with the others, in every order, between them. Missing: what happens to sizes with several primes, beyond the refutation.

### C06 Loop orderings are exactly the distinct permutations of the loops

- Model: Model_Perm: linked list as a Coq list with the positions of i and j; step function and fuelled run.
- Proof: Soundness: step preserves Permutation. Completeness: the visited sequence equals the recursive cool-lex listing, which is proved to enumerate all distinct permutations.
- Result: proved. The pointer program on a heap of list nodes is modelled; proved for every strict total order and every non-empty multiset. The empty multiset raises IndexError.

### C07 Constrained orderings are exactly the orderings that satisfy the constraints

- Model: Model_Perm: constrained copy of the generator, validity predicates with Python negative indexing.
- Proof: Stream equality with `filter`.
- Result: proved. For pins at existing positions; a pin at a non-existing position raises IndexError (proved).

### C08 Memory allocation keeps every loop, once, in order

- Model: Model_Alloc: allocator state, `allocate_node`, run over the list of memory nodes.
- Proof: Invariant: allocated ++ unallocated = ordering per operand.
- Result: proved. For any visiting order of the memories that includes the operand's top memory.

### C09 Allocated data fits in the memory

- Model: Model_Alloc: `find_best_loop_combination`, sizes in bits.
- Proof: Best combination always satisfies the capacity test of its iteration; slices bounded.
- Result: proved. Exact rational sizes; no assumption on loop sizes or precisions.

### C10 The allocator picks a combination with the fewest accesses

- Model: Model_Alloc: mixed-radix index enumeration.
- Proof: Enumeration covers all digit vectors; fold-minimum lemma.
- Result: proved. Loop sizes are at least 1 and no loop runs over a derived (pr) dimension; optimality is per memory, given the tiles of the memories below.

### C11 The mapper yields every feasible ordering or reports that there is none

- Model: Model_Loma: run loop with an outcome oracle per ordering.
- Proof: Induction over the ordering stream.
- Result: proved. End to end through factorisation, permutation generator and allocator, without user constraints; also for an arbitrary allocation function.

### C12 Merging stationary loops down keeps the mapping

- Model: Model_Temporal: `innermost_stationary_loop_merge_down` fuelled.
- Proof: Concat preserved, measure, fixpoint condition.
- Result: proved. Merge-down terminates within levels x loops passes; every level boundary moves past exactly the reuse loops after it; loops, order and level count kept; stationary cycles at the multipliers characterised.

### C13 Cycle counts are consistent

- Model: Model_Temporal: `calc_cycle_cabl_level`.
- Proof: Prefix products; divisibility.
- Result: proved. Cycle counts characterised for every accepted mapping; unequal products are refused with AssertionError; mappings made by the allocator model are always accepted; outermost relevant/reuse loop sizes characterised.

### C14 Decoupling partially relevant loops preserves the iteration count

- Model: Model_Decouple over Q.
- Proof: Product telescoping by induction over loops.
- Result: proved. For layers whose derived dimensions do not share a related dimension (the code breaks otherwise: refutation given). Exact rationals for floats.

### C15 Spatial unit counts factor into unique and duplicate units

- Model: Model_SpatialInt over Q (rounding excluded, stated).
- Proof: Suffix-product algebra.
- Result: proved. Float products are exact rationals; rounding (half to even, 3 digits) is modelled and characterised. Duplicate count equals the product of non-data loops.

### C16 A reduced user spatial mapping is valid

- Model: Model_SpatialMap; arbitrary choice of dropped dim = oracle.
- Proof: Each while loop: measure = number of entries; exit condition = validity.
- Result: proved. For every choice of arbitrary set elements. Inputs: maxima and sizes at least 1, the mapping covers exactly the array dimensions.

### C17 Converting a spatial mapping distributes each unrolling exactly once

- Model: Model_Conversion: `generate_mapping_per_mem_lvl`.
- Proof: Invariant: attached product * remaining product = total.
- Result: proved. All hierarchies (lists of served dimensions per level) and mappings; operands compared through the user mapping.

### C18 Greedy unrolling never exceeds the array and divides the layer exactly

- Model: Model_Conversion: `generate_limited_user_spatial_mapping` over Q.
- Proof: Ceiling arithmetic; refutation of exactness for several OA dims.
- Result: partial. Bounds and minimal exact split proved; exactness of the total holds when no later array dimension unrolls the layer dimension and is refuted otherwise. Exact rationals for floats.

### C19 Automatically generated unrollings respect the innermost memory capacity

- Model: Model_Generation: capacity limiting incl. factor_map.
- Proof: Refutation witness; positive theorem for distinct factors.
- Result: partial. False for equal unrollings (refuted: 4 and 4 in room for 8 become 3 and 3). Proved: totality, only lowers, keeps what fits, keeps irrelevant dimensions, fits when the unrollings seen are pairwise different.

### C20 Automatically generated unrollings respect the innermost memory bandwidth

- Model: Model_Generation: bandwidth limiting.
- Proof: Floor-division lemma, induction over hierarchy.
- Result: proved. Exact characterisation of the cut unrollings; total on complete hierarchies. A bandwidth below the precision gives maximum 0.

### C21 Partial-sum flags identify where output is final

- Model: Model_Mapping: psum flags, precision.
- Proof: iff by suffix products.
- Result: proved. For outputs without sliding window (the code never gives the output one).

### C22 No traffic between the top memory and the outside world

- Model: Model_Mapping: disable_external.
- Proof: Frame lemma.
- Result: proved. Every attribute; the frame theorem covers other levels and directions.

### C23 Data access counts are conserved between adjacent memory levels

- Model: Model_Mapping: calc_data_access over Q.
- Proof: Suffix products.
- Result: proved. Exact rationals for floats. Reads within MACs is refuted for dilated windows, which the statement allows.

### C24 Energy totals equal their breakdown

- Model: Model_Cost: `calc_memory_energy_cost` on access counts of `calc_memory_word_access`.
- Proof: Sum algebra over operands, levels and directions; link from the word access model.
- Result: proved. Floats are exact rationals. Access counts produced by an evaluation meet the hypotheses (C24_reached).

### C25 Latency never decreases when stalls and (off)loading are added

- Model: Model_Latency: transfer cycles, stalls per port, on/off-loading, overall latency; `evaluate` end to end.
- Proof: Invariant over the loading fold (times stay non-negative when ports serve at most one single-period transfer), order lemmas over Q; refuted by a complete evaluation otherwise.
- Result: partial. False in general: loading can shorten the latency (refuted by a complete evaluation). Stall >= 0, temporal <= latency0 and the defining equations hold always; the whole chain is proved when no port serves two transfers that happen once per layer.

### C26 Adding evaluations is a commutative, associative sum with the empty evaluation as identity

- Model: Model_Cme: `__add__` on all attributes of evaluations (three dictionaries, cycle and energy numbers, utilizations, layer ids, accelerator); `cme_of` builds them from `evaluate`.
- Proof: Entry-wise specification (operand, level, direction) of the merge for any set order; laws derived from it; success characterised exactly.
- Result: proved. Entry-wise sums, commutativity, associativity when both groupings are defined, identity. Exactly when a sum is defined is C26_defined; with different accelerators only one grouping may be defined (C26_grouping_refuted).

### C27 Multiplying an evaluation is repeated addition

- Model: Model_Cme: `__mul__`.
- Proof: Entry-wise multiple, laws derived from the specifications of sum and multiple.
- Result: proved. For every non-zero integer; zero raises ZeroDivisionError (proved).

### C28 Selecting stages return a minimum

- Model: Model_Cme: the three Minimal stages as folds over the generated list.
- Proof: Fold invariant: first of the best so far, for any total preorder the test decides.
- Result: proved. Any finite list; the result is the first best in the documented order. The EDP stage has no tie-break beyond being first.

### C29 The sum stage adds up every result exactly once

- Model: Model_Cme: SumStage.
- Proof: Induction from the right with the C26 specification; permutation lemma for totals.
- Result: proved. Also: the stage is defined for evaluations of one accelerator with positive cycle counts, and an empty sequence gives the empty evaluation.

### C30 Memory hierarchy levels are numbered 0..n-1 per operand

- Model: Model_Graph, Model_Hierarchy: build adds memories one by one, with ports, level numbers, edges and the topological sort of networkx.
- Proof: Invariant over the history (Proof_Hierarchy.hinv); the sort is proved to succeed exactly on acyclic graphs (Proof_Graph.sort_iff). A memory that lists an operand twice breaks the count: refuted.
- Result: proved. For hierarchies whose memories list their operands once (C30_repeated_refuted shows why); building succeeds for well-formed port allocations (C30_total).

### C31 Bottom-up order of memories agrees with their level numbers

- Model: Model_Hierarchy: get_memory_levels over topological_sort; the theorem quantifies over every topological order.
- Proof: Proved when heights do not go down along an operand, in particular when operands that share a memory share all later ones; refuted in general with three operands.
- Result: partial. Proved when the largest level number does not go down along an operand's memories (in particular when operands that share a memory share all later ones), for every topological order. False in general: C31_sorted_refuted gives a seven-memory hierarchy in which the memories of I1 come out as levels 0, 2, 1.

### C32 Loop relevancy partitions the dimensions

- Model: Model_Layer: relevancy_of, extract_relevancy_info, layer_node_of, from the equation text on.
- Proof: Partition by case analysis on the two branches; irrelevant = independent of the loop, by evaluating the subscripts at two points. Operands with some but not all derived dimensions: refuted.
- Result: proved. All equations, sizes and relations with distinct derived dimensions; irrelevant = independent for operands with all derived dimensions or none; mixed operands refuted (C32_mixed_refuted).

### C33 Layer operands and memory operands are linked one-to-one

- Model: Model_Links: `MemoryOperandLinks`.
- Proof: Inverse tables via NoDup.
- Result: proved. Bijection, and construction fails exactly on a repeated memory operand.

### C34 User temporal ordering completeness check

- Model: Model_Layer: is_complete with RuntimeError value.
- Proof: Invariant of the product loop. A product of 1 raises RuntimeError (deletion during iteration): refutes 'never crashes'.
- Result: partial. Characterised for all orderings; 'never crashes' is refuted: a product of 1 raises RuntimeError.

### C35 User ordering constraints pin the intended positions

- Model: Model_Layer: get_constraints, remove_invalid_layer_dims.
- Proof: Constraints connected to the constrained permutation generator: it yields exactly the orders that meet the ordering. The factory removes the wildcard first: refuted end to end.
- Result: partial. Constraints and removal proved for all orderings; end to end the factory removes the wildcard, refuted.

### C36 Shared-port updating window is the length of the union

- Model: Model_Latency: `window_union` on the longest period, numpy reshape failing otherwise.
- Proof: Counting over the time grid; periodicity.
- Result: proved. For periods that divide the longest; other periods raise ValueError (proved), unless a window is always open.

### C37 Balanced reduction of loading cycles is conservative

- Model: Model_Latency: `reduce_balanced`.
- Proof: Loop invariants (conservation, surplus); refutation of the minimum.
- Result: partial. Conservation and the surplus bound proved for all lists; the minimum is refuted (two entries 10, minima 1, surplus 100 give -8) and proved when the surplus does not exceed what the largest entry can give.

### C38 Double buffering never over-commits a shared memory

- Model: Model_Cost: `calc_double_buffer_flag` with the shared utilization updated while iterating.
- Proof: Invariant over the visiting log, per sharing group.
- Result: proved. Sharing groups disjoint, utilizations non-negative. Also: everything is granted below half, and the exact rule for a memory of one's own.

### C39 Data on-loading accounts for every level

- Model: Model_Latency: `onloading`, `offloading`.
- Proof: Fold over levels, min/max algebra; refutation for two half-shared transfers.
- Result: partial. Upper bound and non-negativity always; the lower bound is refuted when an operand has two half-shared transfers and proved for at most one; single-input layers count unshared transfers only (proved).

### C40 Memory word accesses bound the data moved

- Model: Model_Cost: `calc_memory_access` for every operand, level and direction.
- Proof: Ceiling and floor bounds.
- Result: proved. The exact word count is characterised end to end; the statement's bound without truncation is C40_bounds, with the final truncation words may fall short by less than one (refutation for the truncated count).

### C41 Convolution parsing assigns kernel, stride and padding to the right axis

- Model: Model_Onnx: attributes and shapes of a Conv node, the equation, sizes, relations and paddings made of them, then the factory of Model_Layer; square or not, grouped or not.
- Proof: For every convolution: it is read and built, and computes the convolution with the windows of the axes exchanged (C41_axes_exchanged); so the property holds when the windows agree (C41_square_partial) and fails otherwise (C41_wide_kernel_refuted). Input counts against positions read, padding excluded, in the region of C01.
- Result: partial. Axes are exchanged in general (proved); the property holds exactly as stated when kernel, stride, dilation and padding agree along both axes; refuted for a 1x3 kernel.

### C42 Matrix-multiply parsing keeps the operation count

- Model: Model_Onnx: Gemm and MatMul nodes of rank 2 to 4, transA, constant or computed second operand.
- Proof: Every such product is read and built, loops, operations, subscripts and sizes as the matrices have (C42_product, C42_dimensions); without a shape it is refused (C42_shape_needed).
- Result: proved. Ranks 2 to 4, transposed first operand, constant or computed weights.

### C43 Removing dummy nodes keeps the data dependencies

- Model: Model_Workload: get_copy_no_dummy on graphs, onnx_workload and node sources from ONNX models.
- Proof: Floyd-Warshall style invariant: after some dummies, edges are exactly chains through them. From ONNX models, dependencies are kept when no node has more than two feeding nodes; refuted for three (DummyNode keeps two sources).
- Result: proved. All graphs. C43_onnx extends it to the dependencies of the ONNX model when no node has more than two feeding nodes; C43_onnx_refuted shows a concatenation of three layers losing one, because dummy nodes keep two sources only.

### C44 Workload graphs are acyclic

- Model: Model_Workload: dnn_workload, onnx_workload.
- Proof: Invariant over the list of layers; success characterised; sorting by Proof_Graph.sort_ok.
- Result: proved. Described workloads: unconditional. ONNX: models in executable order; without it C44_onnx_edges still excludes backward edges, and a self-edge only arises for a dummy node consuming its own output.

### C45 Parallel evaluation gathers every result

- Model: Model_Gather: the main process and the pool as steps in any order: submit, end of a job (answer queued, or pool terminated), receive, leave.
- Proof: Invariant over all reachable states. With ten jobs or more, or none, all succeeding: every run ends (C45_ends) and ends complete (C45_gathers_partial), in any order (C45_any_order), nothing twice (C45_never_twice). One to nine jobs: always ZeroDivisionError (C45_few_refuted). A failing job: waits forever (C45_failing_job_refuted).
- Result: partial. Holds with no job or at least ten when none fails; false with one to nine jobs (ZeroDivisionError) and when a job fails (waits forever); both departures are theorems.

### C46 Simulated annealing returns the best state seen

- Model: Model_Salsa.v: the loops found from layer and unrollings, the annealing walk with the random draws as a list, evaluation and exponential as parameters, and the stage that gathers the answers of the processes (None = waits forever).
- Proof: Invariant of the walk: every evaluated order is a permutation of the start and the best is the first least; the initial swap never accepts a worse best; orders cover the layer by the LOMA cover theorem; stage by folding over the answers. Assumed: exp a >= 1 for a >= 0, positive temperature and criterion.
- Result: proved. For every random draw, exponential and evaluation function; the criterion by which the stage compares for latency differs from the engine's, shown in C46_total_latency_refuted; failing processes make the stage wait forever.

### C47 Mapping selection follows the documented priority

- Model: Model_MapFile.v: normalisation and schema of mapping files, choice of the entry, reading of unrollings, hints, links and orderings, create_mapping_attr.
- Proof: Choice by case analysis on the names present; regular expressions as spans of character classes, read back by lemmas on texts; an accepted file never fails later. Values whose types the schema refuses are not represented.
- Result: proved. Priority, error and order independence for all entry lists; accepted files are read as written; C47_senseless_refuted shows what the validator lets through.

### C48 Saved per-layer results do not overwrite each other

- Model: Model_Pipeline: names of files, what they hold after a run.
- Proof: Same file exactly when names differ at most in slashes and underscores (C48_same_file); each layer's file holds its best evaluation otherwise (C48_own_file, C48_run, C48_kinds); refuted for names that are alike (C48_overwritten, C48_different_names_refuted).
- Result: partial. Two names give one file exactly when they differ at most in slashes and underscores; for other names every file is shown to hold its own evaluation.

### C49 Static loop extraction assigns every loop to the right level

- Model: Model_Report.v: mapping/utils.py and print_mapping.py (column widths and rules left out); memory names per operand given lowest first.
- Proof: Invariant: after k loops every operand's levels lack exactly their k innermost loops, so the first level containing the next loop is the first non-empty one; printing by induction; mappings of the allocator, after merging down, meet the hypothesis.
- Result: proved. For all mappings in which all operands have the same loops, shown to include every mapping the allocator makes; printing fails for a layer without temporal loops (C49_fully_spatial).

### C50 Inter-layer data locality picks memories that fit

- Model: both stages of exploit_data_locality_stages.py (Model_Locality): sizes, search over layers and memories, loading from the top, removal of memories and rebuilding of the hierarchy
- Proof: Invariant over the order of layers and, per layer, over the memories from the top: the level kept is the lowest that can keep the data (C50_levels), handed on to the next layer (C50_handed_on, C50_input_fits_partial); weights (C50_weights_partial, all layers have weights); success (C50_succeeds); the pruned hierarchy (C50_pruned). Refuted: an input larger than the previous output, weights beside layers without weights; the option for loading from the top has no effect (C50_from_top_ignored).
- Result: partial. Chosen levels fully characterised (lowest memory that can keep the data) and the pruned accelerator proved exact; that the data fits is refuted for an input larger than the previous output and for weights in workloads with weight-less layers, and proved otherwise.

### C51 Adder-tree hardware counts

- Model: Adder trees of imc_array.py and imc_unit.py (Model_Imc): counts of regular and place-value trees, the halving loop over used inputs; CACTI costs and the ADC's area are given.
- Proof: Induction over the depth of an explicit tree of adders; the loop's state is the subtree that holds the last used input.
- Result: proved. Regular trees: area, peak and layer energy count the adders of an explicit balanced tree, the loop ends within depth+1 steps for every number of used rows. Place-value trees are counted with d*2^(d-1) adders more than needed (C51_place_value_count); that they are exact is refuted.

### C52 Four-way data movement arithmetic is direction-wise

- Model: Model_DataMove.
- Proof: Case analysis on directions; algebra.
- Result: proved. Numbers are abstract; the algebraic laws hold where the numbers' own do (exact arithmetic).

### C53 Even mappings split the loops of operands sharing a memory at the same point

- Model: Model_Alloc: validity of index combinations.
- Proof: Numbered loops are positions of the ordering; interval disjointness.
- Result: proved. Positions are positions in the loop ordering.

### C54 More hardware utilization ranks a spatial mapping higher

- Model: Model_SpatialMap: hw_utilization, get_performance_indicator.
- Proof: Bounds by arithmetic; a counterexample to the documented ranking.
- Result: partial. The documented ranking is false of the code (refuted: 2x2x2 beats 9). Definedness, value and bounds are proved.

### C55 Spatial mapping generation always succeeds with valid mappings

- Model: Model_Generation: generate_spatial_mappings with oracles for set iteration orders.
- Proof: Chains C16, C20 and C19; the all-ones completion is always valid.
- Result: proved. Without the optional diagonal extension (enable_ox_unrolling), which is off by default.

### C56 Generated spatial mappings are the best-ranked valid completions

- Model: Model_Generation: candidate enumeration, ranking, selection and in-place limiting.
- Proof: Membership characterisation of the enumeration, insertion-sort lemmas, heap invariant for shared objects.
- Result: proved. fate describes how shared objects may be lowered by limiting other candidates; exact when nothing exceeds the capacity.

### C57 Asking for more spatial mappings does not change those already found

- Model: Model_Generation: shared objects modelled as heap locations.
- Proof: Refutation witness; prefix theorem when nothing exceeds the capacity.
- Result: partial. Refuted: limiting the third mapping lowers the first two through shared objects. Proved when no valid completion exceeds the capacity.

### C58 Transfer periods, amounts and bandwidths account for all accesses

- Model: Model_Mapping: transfer rates and instants.
- Proof: Exact divisions from whole loop products; refutation for sliding windows.
- Result: proved. Whole loop sizes. The sliding-window departure named in the statement is exhibited by C58_derived_refuted.

### C59 Data sizes per memory level are those of the loop tiles

- Model: Model_Mapping: data sizes.
- Proof: Tile elements of the loops (C01), exact products.
- Result: proved. Exact rationals for floats; rounding to nearest is part of the statement.

### C60 Complete mappings are always built

- Model: Model_Mapping: build_mapping with Python failures as values.
- Proof: Each lookup, index and division shown to succeed.
- Result: proved. Tables of the spatial and temporal mapping are those proved in C13 and C15.

### C61 Memories that hold several operands are reported as sharing, once each

- Model: Model_Hierarchy: mem_hierarchy_dict, mem_sharing_list.
- Proof: Level tables are disjoint by uniqueness of level numbers; the loop invariant gives exactness.
- Result: proved. All hierarchies.

### C62 Ports serve exactly the data movements allocated to them

- Model: Model_Hierarchy: create_port_allocation, allocate_ports, create_memory_ports, memory_valid.
- Proof: The allocation table holds the last port listed; the filling loop serves exactly the table's entries. Equal port names: refuted.
- Result: proved. All hierarchies whose memories have differently named ports; C62_same_name_refuted shows that with equal names the first port takes the movements of both.

### C63 Every layer is evaluated once, after the layers it depends on

- Model: Model_Workload: workload_stage.
- Proof: Soundness of the topological sort, filtered.
- Result: proved. All graphs and evaluation functions; a generator failing half-way is modelled as the failure.

### C64 Equations and relations are read as written

- Model: Model_Text (str.replace, str.upper, re.findall for the patterns used), Model_Layer: create_equation, disassembly, create_relation.
- Proof: Tokenizer run over the concatenation of the written parts; decimal round trip for coefficients. '+ =' and '_': refuted.
- Result: proved. All texts of the stated form; departures of other accepted spellings refuted as theorems.

### C65 User orderings are respected by the temporal mapping stage

- Model: Model_TemporalStage: temporal_stage on top of the LOMA engine and the allocator.
- Proof: Combination of C34, C35 and the engine's run.
- Result: proved. All layers, orderings and memories; ordering not longer than the loops, allocation failing only for lack of memory.

### C66 Operand sizes are numbers of elements

- Model: Model_Layer: layer_node_of, operand_size_elem, total_pr_size.
- Proof: The touched elements are a product of the value sets of the subscripts (loops not shared); each counted with C01. Exact in C01's region, with padding for unit second stride; upper bound otherwise; refuted outside the region.
- Result: partial. Exact in the region of C01 (and with padding for unit second stride), upper bound without padding everywhere; refuted outside. Operands whose subscripts share loops are outside.

### C67 The tool returns the sum over layers of each layer's best evaluation

- Model: Model_Pipeline: the chain of stages of the API, generators as lists; mapping generation, conversion and evaluation as parameters, also with the cost model of Model_Cme in place. Data locality stages not in the chain.
- Proof: Composition of C28, C29 and C63: least of leasts; order and uniqueness from the workload stage; totality from those of the parts.
- Result: proved. Mapping generators and evaluation are parameters of the chain; C67_cost_model has the cost model in place. Data locality stages are not in the chain.

### C68 Rows an in-memory-compute mapping occupies

- Model: get_mapped_oa_dim and calculate_mapped_rows_when_diagonal_mapping_found (Model_Imc), the order of Python sets as an argument.
- Proof: Invariants of the loops that fill the tables of paired dimensions; rows of shifted copies counted as distinct positions. One dimension on the bitlines, unpaired dimensions, strides and set orders: refuted or shown to fail.
- Result: partial. Proved without dimensions irrelevant to the weights on the wordlines, and with them for stride one, two or more bitline dimensions and the set listed in the mapping's order. Otherwise refuted: set order, strides; one bitline dimension or an unpaired dimension always ends in an error.

### C69 In-memory-compute energy never exceeds the peak

- Model: get_energy_for_a_layer, get_peak_energy_single_cycle and get_precharge_energy (Model_Imc).
- Proof: Part by part: each is a product with one factor bounded by the array's; trees by C51. The precharging formula reads an attribute the data movement pattern lacks, hence a refutation.
- Result: partial. Every part but precharging is proved for every valid array. Precharging: nothing with one weight in a cell group (C69_precharge_partial); with several, the code never reaches the formula, it raises AttributeError (C69_precharge_refuted).

### C70 In-memory-compute arrays are built with meaningful area, clock and peak performance

- Model: get_area, get_tclk, peak performance and collect_area_data (Model_Imc); the validator's conditions as hypotheses.
- Proof: Each part is shown not negative; the multipliers' part is positive. One row: negative clock period (refuted).
- Result: proved. Floats as exact rationals; CACTI's and the ADC's area given and not negative. With one row the clock period can be negative, equal memory names lose parts of the breakdown, instances are not counted: refutations.

### C71 Automatically extracted memory costs do not depend on history

- Model: the pool as an association list, look-up, creation and parsing of CACTI's lines, sessions of requests; CACTI itself is an arbitrary function
- Proof: invariant of the pool (names tell numbers, costs come from CACTI) over sessions; refutations by computation
- Result: proved. CACTI is an arbitrary function that answers about what it was asked; numbers exact. Clash of kinds and sizes that are not whole bytes: refutations.

### C72 The hardware search returns the best configuration

- Model: the enumeration of configurations, in-place updates of the shared description, the mapping update and the search loop; evaluation is an arbitrary function
- Proof: invariant over the loop: the description depends only on the last update; least element of a fold
- Result: proved. Evaluation is an arbitrary function of description and mapping. The layer keeps the last configuration's mapping, not the best one's: refutation.

### C73 A hardware description is read as it is written, or refused

- Model: Model_AccelFile models the validator (schema rules on values, regular expressions, extra rules, exceptions), the factory (multiplier and in-memory arrays, dataflows, ports, memories with written or extracted costs over Model_Hierarchy, Model_Imc and Model_Cacti) and parse_accelerator; presence and types of fields, done by cerberus, are the shape of the input. Shipped_Hardware transcribes the eleven descriptions of inputs/hardware.
- Proof: Acceptance by matching every regular expression and rule with its reading; construction by inversion of the loops over memories, with the port allocation and sharing lemmas of C61/C62, cost answers of C71, and the construction theorem of C70; sorted dimensions by uniqueness of strictly sorted permutations.
- Result: proved. The statement covers the departures, each shown by a _refuted theorem: accepted descriptions that do not build (missing unit energy, port of a foreign operand, automatic memory without read port or of unknown type, IMC with one dimension, null ADC resolution or odd rows), repeated dimensions, untyped IMC, validator that raises. Dimensions of IMC arrays are assumed not repeated.

### C74 Evaluating a layer on an accelerator with a valid mapping succeeds

- Model: The constructors of the hierarchy, the temporal and spatial mapping, the unit memories and the evaluation, composed into one function of a request (layer, relevancy, hierarchy, mappings) with every lookup, attribute error, reshape and division that may fail
- Proof: validity of the request is carried through each constructor (tables complete, entries positive, cycle counts that divide each other) and then through the evaluation; few single transfers make loading non-negative; the failing requests are evaluated
- Result: proved. Ok or ZeroDivisionError for every valid request, with the exact condition; success when ports are dedicated; valid requests that divide by zero or give a negative latency exhibited

### C75 The energy of an evaluation is that of its operations and of the accesses its loops make

- Model: Model_Evaluate with all constructors of C74 and the energy part of Model_Cost
- Proof: From the inputs that prepare builds (C74) the tables of unit memories are connected, operand by operand and level by level, with the loops of the request: tiles with Proof_MappingMain (elem_exact, iterations_outside), the merged temporal nest with C12, words with C40, ports with C62/C73, and the sum with C24. Spec_EvalEnergy states accesses over the request alone.
- Result: proved. C75_energy: the energy as operations plus accesses, the accesses characterised over the request alone (layer, description of memories, spatial and temporal loops). Towards the array counts are characterised for units without overlapping data (no_overlap); loop sizes are whole. Finding stated by the theorem: read-backs of partial sums are counted as often as the writes, also in the first iteration, when nothing was stored.

### C76 Workload descriptions are read as written

- Model: The validator with its regular expressions as recursive functions on texts, normalisation with defaults, the factories for nodes and mappings, and the workload graph; both shipped workload files and all shipped mapping files as data.
- Proof: Regular expressions characterised by induction over texts (both directions); construction from C64, C66, C47 and C44; the shipped files by a checker proved sound. Accepted descriptions that fail are refutations.
- Result: proved. Acceptance is characterised exactly and construction proved for sensible layers; C76_*_refuted show that acceptance alone does not suffice.

### C77 Evaluations on in-memory-compute arrays

- Model: The evaluation with the array's own energy, clock and area in place of the operational array's (Model_EvalImc over Model_Evaluate and Model_Imc).
- Proof: Reduction to the digital evaluation with the same units and cycles; then C74, C75, C69 and C70.
- Result: proved. The statement covers the departure (several weights in a cell group: AttributeError), shown by C77_several_weights_refuted. Mappings with diagonal unrolling are C68's subject. Floats as exact rationals.

### C78 Where the time of an evaluation comes from

- Model: The whole evaluation (Model_Evaluate, Model_Mapping, Model_Hierarchy, Model_Cost, Model_Latency).
- Proof: Rows of the mapping by C58 and C59, ports by C62, windows per port, then maxima and sums over ports and levels; second buffers by C38 in bits.
- Result: proved. For accelerators whose ports make one movement each; shared ports are C25, C36, C37 and C39.

### C79 The bandwidth reported for a memory is what its transfers ask for

- Model: Model_InstBw on top of the whole evaluation.
- Proof: Rows of the mapping from C78 with the bandwidth column; what loading records per port, followed through all operands and levels; sums over directions. Departures by vm_compute on valid requests.
- Result: proved. Ports of one movement, whole loop sizes, whole cycles per operation. The departures named in the statement are proved by C79_enough_refuted and C79_negative_refuted.

### C80 The mapper returns the best of all mappings that fit, and each of them can be evaluated

- Model: Model_Search: the stages one below the other, on the models of the engine, the allocator, the hierarchy and the evaluation; with loop orderings given by the user (Model_TemporalStage) as without.
- Proof: Topological order and top memories of the hierarchy (C30, C31) make the allocator's inputs complete; its invariants (C08) make each result a valid request (C74); C11 and C65 for the orderings, C28 for the least. Departures by vm_compute on searchable requests.
- Result: proved. Covers the whole path from a layer with a spatial mapping to the evaluation returned, without orderings from the user. Departures (C80_division_refuted, C80_negative_refuted) are part of the statement.

### C81 The reported utilisation of a memory is what it keeps over its size, and at most 1 for mappings that are found

- Model: Model_Cost (utilisation), Model_Mapping (tile sizes), Model_Search; tiles in terms of the loops in Spec_EvalTime, fractions in Spec_Util.
- Proof: Tile sizes from C59/C75, sharing groups from C61. For found mappings the allocator's bound (C09) is carried over: same positions of memories (C30/C31), loops merged downwards are irrelevant and do not change a tile, and the evaluation sees at most the reduction loops the allocator saw. Departure by vm_compute.
- Result: proved. C81_reported, C81_found_fits for final precision at most the output precision and whole unrollings; C81_wide_outputs_refuted shows the condition is needed.

### C82 The breakdown chart shows where the energy and time of every evaluation go

- Model: Model_Chart: accumulation per operand and memory, the arrays, order of the bars, printed totals, names; equality of memories by a label. What a chart should show is Spec_Chart.
- Proof: Invariant over the accumulation: every charge adds to exactly one number; exchange of sums for the total; sums over layers are filtered out first. Evaluations come from Model_Evaluate and Model_Cme, their breakdown from C24. Departures by vm_compute on evaluated requests.
- Result: proved. Not modelled: the drawing itself. Two memories are the same key of a dict exactly when they have the same label. The departures are proved as refutations.

### C83 Costs of cell arrays from CACTI are those of the array asked for, whatever was asked before

- Model: Model_ImcCacti: configuration, output file as text table, scaling, current directory and files as state; CACTI, path resolution and reading a number are parameters. Spec_ImcCacti: a tool that appends one line per run.
- Proof: Invariant over cells and rows of the table: the list of a column ends with the last row's cell; independence of the world by choosing the result before the world. Departures by vm_compute.
- Result: proved. CACTI, the file system and float() are parameters; one file name is used. The departures are proved as refutations.

### C84 A run from three files returns the sum of the best mapping of every layer, or says why not

- Model: Model_Run: the stages of the API composed from the files on (Model_AccelFile, Model_WorkFile, Model_MapFile, Model_Generation, Model_Convert, Model_Search, Model_Evaluate, Model_Pipeline). Spec_Run: files that are usable, the best of all, layers without a mapping, a request that says what the files say, loops that follow the ordering of the file.
- Proof: Every stage's theorem (C16, C17, C19, C30, C65, C67, C73, C74, C76, C80) is discharged from the files: the hierarchy built and the layers built make every request searchable and right; fuel bounds are made uniform over layers and spatial mappings. A boolean check of usable files with its soundness is run on the descriptions that come with the project. Departures by vm_compute of whole runs.
- Result: proved. whole runs from the three files, with or without user-given orderings; every departure (division by zero cycles, negative latency on shared ports) is exhibited. IMC arrays are outside: C77 covers their evaluation.

### C85 A run of an ONNX model returns the sum of the best mapping of every convolution and matrix product

- Model: Model_OnnxRun: the ONNX model parser as a whole (choice of operator parsers, names, sources, layers and graph) composed with the stages of Model_Run. Spec_OnnxRun: operators, the raw layer each node stands for, usable models, chains of nodes through the first two that feed each node.
- Proof: Induction over the nodes: every node is created as the raw layer of Spec_OnnxRun (texts printed from the written equation and relations, so that C76's reading of layers applies), the graph is that of C43/C44. The course of the run is that of C84, which was proved for any way in which layers are described (Proof_RunCourse). The ordering departure (a concatenation of three tensors) by vm_compute of a whole run.
- Result: proved. Whole runs of ONNX models. C85_order_refuted: with a cost-free node of three inputs a layer is evaluated before one it depends on (the statement covers this: order is claimed for at most two nodes feeding each node).

### C86 A run reports no less energy than its multiplications cost and, with dedicated ports and no given loop ordering, no less time than the array needs for them

- Model: Nothing new is modelled: the runs of C84 and C85. Spec_RunFloor: non-negative prices, the multiplications of a file and of a model, the two floors.
- Proof: Every spatial mapping generated or given stays within each array dimension as a product (Proof_RunSpatial), so the unrolling is at most the number of units; every temporal mapping found without a given ordering covers the loops that are left (C02 to C05), so the ideal cycles times the units reach the number of multiplications; stalls are not negative with dedicated ports (C78); memory energy is a sum of non-negative words times non-negative prices (C75). Sums over layers by C84 and C85. The departures by vm_compute of whole runs.
- Result: proved. Energy floor for all runs with non-negative memory prices; latency floor where each port serves one movement and the mapping gives no loop ordering. Both provisos on the latency are necessary: C86_ordering_refuted and C86_shared_refuted give runs below the floor without them.

### C87 The result of a run follows from its files alone, not from the order in which sets happen to be iterated over

- Model: Nothing new is modelled: the runs of C84 and C85, whose oracles are the orders of sets. Spec_RunOrder: mapping files without unrollings, memories with room for an element per unit.
- Proof: The candidates of the generator and their ranking do not mention the oracles (Proof_Generation.generate_full); an empty user mapping is reduced to itself; every candidate asks at most as many elements of a first memory as units share it, so the limit on capacity leaves it alone (C20); hence the spatial mappings are equal, and the stages above are functions of them. The departures by vm_compute of whole runs under two admissible orders each.
- Result: partial. False in general: three refutations with two admissible iteration orders each (user unrollings that do not fit, first memories too small for the sharing units, hints). Proved for mapping files without unrollings and roomy first memories, from workload files and ONNX models, with the order of served dimensions and hints fixed.

### C88 Saved result files say what was evaluated

- Model: Model_Json: values by shape, json_repr_handler, json.dump with it as default, and the two representations of an evaluation. The JSON text itself (digits, quoting, indentation) and infinite floats are left out; accelerator, layer and memory utilisation are given as values. Spec_Json: the JSON a value stands for, reading under a path.
- Proof: Induction over nested derivations of what a value stands for, with two cases: met by the encoder or converted first; fuel is the maximum over the parts. Conversely by induction over fuel and, inside, over the value: whatever is saved stands for its JSON, when keys have distinct texts. Evaluations and sums are well-formed (C26, C29), from which their dicts have distinct operands and complete movements. The departures by computation.
- Result: partial. Proved for values whose dicts have keys of distinct texts, for evaluations of layers and sums of at least one. Refuted: the sum of no layers has no complete file; an operand and a text of the same name merge; operands as keys in what an object's method returns raise a TypeError.

### C89 Configuration files for CACTI set every option once, to the value asked for

- Model: Model_CactiFile: the table of options, changing defaults, the three kinds of requests of cacti_auto and the one run_cacti makes, down to the text of the lines. The fixed first part of the file and the call of CACTI are left out. Spec_CactiFile: the lines of a file that begin with a label.
- Proof: If no label begins another, a line for one option never begins with the label of another (strings that begin the same text are comparable); induction over the table. First mentions by induction over the names; changed defaults by induction with an offset. The table of the code by vm_compute.
- Result: partial. Proved for default and given values, for a sweep of one option, for changed defaults and for the request of run_cacti. Refuted: a sweep of two options leaves one of them out of every file; unknown names are ignored.
