(** C08, C09, C10, C11, C53: the memory allocator. *)
From Verif Require Import Base Model_Loma Spec_Loma Model_Perm Model_Alloc Spec_Alloc Proof_AllocTile
  Proof_AllocRun Proof_AllocErr Model_Engine Proof_Engine Proof_LomaFactors.
Open Scope string_scope.

(** C08.  [nodes] are the memories in visiting order. *)
Theorem C08_allocation_keeps_loops :
  forall ly spatial mtype tops ordering,
  NoDup (map snd (l_links ly)) -> NoDup (map fst (l_links ly)) ->
  forall nodes tm, (forall n, In n nodes -> NoDup (m_operands n)) ->
  allocator_run ly spatial mtype tops ordering nodes = Ok tm ->
  forall lop mop, In (lop, mop) (l_links ly) ->
  (exists n, In n nodes /\ In mop (m_operands n) /\ dget mop tops = Some (m_id n)) ->
  exists levels, dget lop tm = Some levels /\
    concat levels = ordering /\ length levels = storing mop nodes.
Proof. exact run_keeps_loops. Qed.
Print Assumptions C08_allocation_keeps_loops.

(** C09.  Both mapping types; no assumption on sizes or precisions. *)
Theorem C09_allocated_data_fits :
  forall ly spatial mtype tops ordering,
  NoDup (map snd (l_links ly)) -> NoDup (map fst (l_links ly)) ->
  forall pre node post tm, (forall n, In n (pre ++ node :: post) -> NoDup (m_operands n)) ->
  allocator_run ly spatial mtype tops ordering (pre ++ node :: post) = Ok tm ->
  (total_bits ly spatial ordering pre node (tile_start ly tm pre) (tile_stop ly tm pre)
   <= inject_Z (m_size node))%Q.
Proof. exact run_fits. Qed.
Print Assumptions C09_allocated_data_fits.

(** C10.  Any other way [stop] to end the tiles of the operands in this memory, with
    everything that comes before left as it is, that fits, that is even when the
    mapping has to be even and that keeps all loops in an operand's top memory,
    causes at least as many accesses. *)
Theorem C10_fewest_accesses :
  forall ly spatial mtype tops ordering,
  NoDup (map snd (l_links ly)) -> NoDup (map fst (l_links ly)) ->
  layer_numbers_ok ly ->
  (forall d s, In (d, s) ordering -> 1 <= s /\ dget d (l_pr_loop ly) = None) ->
  (forall lop lvls lvl l, dget lop spatial = Some lvls -> In lvl lvls -> In l lvl -> loop_ok ly l) ->
  (0 <= l_final_precision ly /\ forall lop p, dget lop (l_precision ly) = Some p -> 0 <= p) ->
  forall pre node post tm, (forall n, In n (pre ++ node :: post) -> NoDup (m_operands n)) ->
  allocator_run ly spatial mtype tops ordering (pre ++ node :: post) = Ok tm ->
  forall stop : string -> nat,
  (forall lop mop, In (lop, mop) (stored_links ly node) ->
     (tile_start ly tm pre lop <= stop lop <= length ordering)%nat /\
     (is_top_of tops node mop = true -> stop lop = length ordering)) ->
  (total_bits ly spatial ordering pre node (tile_start ly tm pre) stop <= inject_Z (m_size node))%Q ->
  (mtype = EVEN -> even_choice (stored_links ly node) (tile_start ly tm pre) stop) ->
  (total_accesses ly spatial ordering tops pre node (tile_start ly tm pre) (tile_stop ly tm pre)
   <= total_accesses ly spatial ordering tops pre node (tile_start ly tm pre) stop)%Q.
Proof. exact run_fewest. Qed.
Print Assumptions C10_fewest_accesses.

(** C53.  Even mappings are even. *)
Theorem C53_even_mapping_is_even :
  forall ly spatial mtype tops ordering,
  NoDup (map snd (l_links ly)) -> NoDup (map fst (l_links ly)) ->
  forall pre node post tm, mtype = EVEN ->
  (forall n, In n (pre ++ node :: post) -> NoDup (m_operands n)) ->
  allocator_run ly spatial mtype tops ordering (pre ++ node :: post) = Ok tm ->
  even_choice (stored_links ly node) (tile_start ly tm pre) (tile_stop ly tm pre).
Proof. exact run_even. Qed.
Print Assumptions C53_even_mapping_is_even.

(** C11.  The allocator fails with the two capacity exceptions only. *)
Theorem C11_allocator_only_capacity_errors :
  forall ly spatial mtype tops ordering nodes, complete_inputs ly spatial tops nodes ->
  NoDup (map snd (l_links ly)) ->
  (forall n, In n nodes -> NoDup (m_operands n)) ->
  capacity_outcome (allocator_run ly spatial mtype tops ordering nodes).
Proof. exact run_outcome. Qed.
Print Assumptions C11_allocator_only_capacity_errors.

(** C11.  End to end: the engine tries every ordering of loops that cover the layer,
    yields one mapping per ordering that can be allocated and reports
    "no valid loop ordering" exactly when none can. *)
Theorem C11_mapper_end_to_end :
  forall factorint lim layer_sizes unrolled ly spatial mt tops nodes,
  factorint_ok factorint -> layer_sizes <> [] ->
  NoDup (keys layer_sizes) -> (forall d n, In (d, n) layer_sizes -> 1 <= n) ->
  (forall d s, In (d, s) unrolled -> (1 <= s)%Q) -> (forall l, lim = Some l -> 1 <= l) ->
  complete_inputs ly spatial tops nodes ->
  NoDup (map fst (l_links ly)) -> NoDup (map snd (l_links ly)) ->
  (forall n, In n nodes -> NoDup (m_operands n)) ->
  exists lpfs V,
    (forall d n, In (d, n) layer_sizes ->
      (inject_Z n <= qprod (unrollings_of d unrolled) * inject_Z (loop_product d lpfs))%Q) /\
    (forall p, In p V <-> Permutation p lpfs) /\ NoDup V /\
    forall fuel, (length V <= fuel)%nat -> exists ms e,
      loma_engine factorint lim layer_sizes unrolled ly spatial mt tops nodes fuel = Ok (ms, e) /\
      ms = flat_map (fun p => match allocator_run ly spatial mt tops p nodes with
                              | Ok m => [m] | Err _ => [] end) V /\
      (e = None <-> exists p m, Permutation p lpfs /\ allocator_run ly spatial mt tops p nodes = Ok m) /\
      (e = Some NoValidLoopOrdering <-> forall p, Permutation p lpfs ->
         allocator_run ly spatial mt tops p nodes = Err MemoryTooSmall \/
         allocator_run ly spatial mt tops p nodes = Err MemoryHierarchyTooSmall) /\
      (e = None \/ e = Some NoValidLoopOrdering).
Proof. exact engine_end_to_end. Qed.
Print Assumptions C11_mapper_end_to_end.

(** A layer O[k][ox] += W[k][fx] * I[ox+fx] on a register file for O, a buffer for
    all three operands and an off-chip memory. *)
Definition ex_layer : layer :=
  mkLayer [("O", "O"); ("W", "I2"); ("I", "I1")] [("O", 16); ("W", 8); ("I", 8)] 8
    [("O", ["K"; "OX"]); ("W", ["K"; "FX"]); ("I", ["IX"])]
    [("O", ["FX"]); ("W", ["OX"]); ("I", ["K"])]
    [("IX", ("OX", "FX"))] [("IX", (1, 1))] [("IX", 10)] ["K"; "OX"; "FX"].
Definition ex_spatial : dict string (list (list (string * Q))) :=
  [("O", [[]; [("K", 2%Q)]; []; []]); ("W", [[("K", 2%Q)]; []; []]); ("I", [[]; [("K", 2%Q)]; []])].
Definition ex_nodes : list memlevel :=
  [mkMem 0 16 ["O"]; mkMem 1 330 ["I1"; "I2"; "O"]; mkMem 2 100000 ["O"; "I1"; "I2"]].
Definition ex_tops : dict string nat := [("O", 2); ("I2", 2); ("I1", 2)]%nat.
Definition ex_ordering : list tloop := [("FX", 3); ("OX", 4); ("K", 8); ("OX", 2)].

Example C08_met : allocator_run ex_layer ex_spatial UNEVEN ex_tops ex_ordering ex_nodes =
  Ok [("O", [[("FX", 3)]; [("OX", 4)]; [("K", 8); ("OX", 2)]]);
      ("W", [[("FX", 3); ("OX", 4)]; [("K", 8); ("OX", 2)]]);
      ("I", [[("FX", 3); ("OX", 4); ("K", 8); ("OX", 2)]; []])].
Proof. vm_compute. reflexivity. Qed.

Example C53_met : allocator_run ex_layer ex_spatial EVEN ex_tops ex_ordering ex_nodes =
  Ok [("O", [[("FX", 3)]; [("OX", 4)]; [("K", 8); ("OX", 2)]]);
      ("W", [[("FX", 3); ("OX", 4)]; [("K", 8); ("OX", 2)]]);
      ("I", [[("FX", 3); ("OX", 4)]; [("K", 8); ("OX", 2)]])].
Proof. vm_compute. reflexivity. Qed.

(** The buffer holds O: 8 x 8 bits, W: 6 x 8 bits, I: 10 x 8 bits, and stopping W one
    loop earlier would fit as well but cost more accesses. *)
Example C09_met :
  match allocator_run ex_layer ex_spatial UNEVEN ex_tops ex_ordering ex_nodes with
  | Ok tm =>
      let pre := firstn 1 ex_nodes in let node := mkMem 1 330 ["I1"; "I2"; "O"] in
      let start := tile_start ex_layer tm pre in let stop := tile_stop ex_layer tm pre in
      let other := fun o => if eqb o "W" then 1%nat else stop o in
      (total_bits ex_layer ex_spatial ex_ordering pre node start stop == 192)%Q /\
      (total_bits ex_layer ex_spatial ex_ordering pre node start other == 192)%Q /\
      (total_accesses ex_layer ex_spatial ex_ordering ex_tops pre node start stop == 1872)%Q /\
      (total_accesses ex_layer ex_spatial ex_ordering ex_tops pre node start other == 4176)%Q
  | Err _ => False
  end.
Proof. vm_compute. repeat split; reflexivity. Qed.

Example C11_inputs_met :
  complete_inputs ex_layer ex_spatial ex_tops ex_nodes /\ layer_numbers_ok ex_layer /\
  NoDup (map fst (l_links ex_layer)) /\ NoDup (map snd (l_links ex_layer)) /\
  (forall n, In n ex_nodes -> NoDup (m_operands n)).
Proof.
  split; [|split; [|split; [|split]]].
  - intros lop mop H. cbn in H.
    repeat (destruct H as [H|H]; [injection H as <- <-; cbn;
      split; [tauto|split; [tauto|split; [tauto|split;
        [eexists; split; [reflexivity|]; intros d Hd; cbn in Hd;
         repeat (destruct Hd as [<-|Hd]; [cbn; tauto|]); destruct Hd
        |eexists; split; [reflexivity|cbn; lia]]]]]|]).
    destruct H.
  - split; intros d; cbn; destruct (eqb_spec d "IX"); intros; try discriminate;
      cbn in *; destruct (String.eqb_spec d "IX"); try discriminate; try contradiction.
    + injection H as <- <-. lia.
    + injection H as <-. lia.
  - repeat constructor; cbn; intuition discriminate.
  - repeat constructor; cbn; intuition discriminate.
  - intros n H. cbn in H. repeat (destruct H as [<-|H]; [repeat constructor; cbn; intuition discriminate|]).
    destruct H.
Qed.
