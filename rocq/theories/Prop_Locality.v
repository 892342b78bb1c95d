(** C50: keeping data on chip between layers. *)
From Coq Require Import QArith Sorted.
From Verif Require Import Base Model_DataMove Model_Cost Model_Graph Model_Hierarchy Model_Locality Spec_Graph Spec_Hierarchy Spec_Locality.
From Verif Require Import Proof_Locality.
Open Scope string_scope.
Open Scope list_scope.
Open Scope Z_scope.

(** The levels that the search returns: the output of a layer is left in the lowest memory that
    holds it and the next layer's input and is large enough for all that the layer and the weights
    need; at branches in the last memory for outputs.  The input is where the first layer it comes
    from left it. *)
Theorem C50_levels g info levels oa l0 rest u wl : graph_ok g -> (forall l, In l (g_nodes g) -> three_operands (info l)) ->
  (forall m, In m levels -> NoDup (keys (lv_dict m))) -> g_nodes g = l0 :: rest -> search_levels g info levels oa = Ok (u, wl) ->
  exists order first tail init final, topological_order g order /\ order = first :: tail /\ order = init ++ [final] /\
    forall l, In l (g_nodes g) -> levels_chosen g info levels oa first final l0 u l.
Proof.
  exact (fun O T N E H => match search_spec g info levels oa O T N l0 rest u wl E H with
    ex_intro _ o (ex_intro _ f (ex_intro _ t (ex_intro _ i (ex_intro _ z (conj A (conj B (conj C (conj D _)))))))) =>
      ex_intro _ o (ex_intro _ f (ex_intro _ t (ex_intro _ i (ex_intro _ z (conj A (conj B (conj C D))))))) end).
Qed.
Print Assumptions C50_levels.

(** Outside branches the next layer finds its input where the output was left, and it fits there
    together with the weights unless it is larger than the output was. *)
Theorem C50_handed_on g info levels oa l0 rest u wl : graph_ok g -> (forall l, In l (g_nodes g) -> three_operands (info l)) ->
  (forall m, In m levels -> NoDup (keys (lv_dict m))) -> g_nodes g = l0 :: rest -> search_levels g info levels oa = Ok (u, wl) ->
  forall l s o, In l (g_nodes g) -> ~ branching g l -> successors g l = [s] -> level_of u l (lo_out (info l)) o -> level_of u s (lo_act (info s)) o.
Proof. exact (fun O T N E H => handed_on g info levels oa O T N l0 rest u wl E H). Qed.
Print Assumptions C50_handed_on.

Theorem C50_input_fits_partial g info levels oa l0 rest u wl : graph_ok g -> (forall l, In l (g_nodes g) -> three_operands (info l)) ->
  (forall m, In m levels -> NoDup (keys (lv_dict m))) -> g_nodes g = l0 :: rest -> search_levels g info levels oa = Ok (u, wl) ->
  forall l s o m, (forall x, In x (g_nodes g) -> 0 <= lo_act_bits (info x)) -> In l (g_nodes g) -> ~ branching g l -> successors g l = [s] ->
    lo_constants (info l) <> 0%nat -> lo_act_bits (info s) <= lo_out_bits (info l) -> level_of u l (lo_out (info l)) (Z.of_nat o) -> nth_error levels o = Some m ->
    has (lo_act (info s)) m /\ if_held (lo_act (info s)) m (lo_act_bits (info s)) + if_held (lo_weight (info l)) m (workload_weights info (g_nodes g)) <= capacity oa m.
Proof. exact (fun O T N E H => input_fits g info levels oa O T N l0 rest u wl E H). Qed.
Print Assumptions C50_input_fits_partial.

(** When every layer has weights, they are taken from the last memory for weights or from one that
    serves the whole array and holds all weights beside the data of a layer. *)
Theorem C50_weights_partial g info levels oa l0 rest u wl : graph_ok g -> (forall l, In l (g_nodes g) -> three_operands (info l)) ->
  (forall m, In m levels -> NoDup (keys (lv_dict m))) -> g_nodes g = l0 :: rest -> search_levels g info levels oa = Ok (u, wl) ->
  (forall l, In l (g_nodes g) -> lo_constants (info l) <> 0%nat) ->
  last_with levels (lo_weight (info l0)) wl \/ exists k, wl = Z.of_nat k /\ can_keep_weights g info levels oa (workload_weights info (g_nodes g)) k.
Proof. exact (fun O T N E H => weights_fit g info levels oa O T N l0 rest u wl E H). Qed.
Print Assumptions C50_weights_partial.

(** The search succeeds for a workload with one first and one last layer if some memory is large enough. *)
Theorem C50_succeeds g info levels oa l0 rest big : graph_ok g -> (forall l, In l (g_nodes g) -> three_operands (info l)) ->
  (forall m, In m levels -> NoDup (keys (lv_dict m))) -> ranked g ->
  (forall a b, In a (g_nodes g) -> In b (g_nodes g) -> predecessors g a = [] -> predecessors g b = [] -> a = b) ->
  (forall a b, In a (g_nodes g) -> In b (g_nodes g) -> successors g a = [] -> successors g b = [] -> a = b) ->
  (forall l m op, In l (g_nodes g) -> In m levels -> has op m -> op = lo_act (info l) \/ op = lo_weight (info l) \/ op = lo_out (info l)) ->
  In big levels ->
  (forall l, In l (g_nodes g) -> has (lo_act (info l)) big /\ has (lo_out (info l)) big /\ space_needed info (workload_weights info (g_nodes g)) l big <= capacity oa big) ->
  g_nodes g = l0 :: rest -> exists u wl, search_levels g info levels oa = Ok (u, wl).
Proof.
  exact (fun O T N R S1 S2 I B1 B2 E => match search_total g info levels oa O T N R S1 S2 I big B1 B2 l0 rest E with
    ex_intro _ (u, wl) H => ex_intro _ u (ex_intro _ wl H) end).
Qed.
Print Assumptions C50_succeeds.

(** The accelerator given to a layer: the memories that keep an operand, in their order, unchanged
    but for the operands. *)
Theorem C50_pruned k ms h id l u wl ta to : build k ms = Ok h -> (forall m, In m ms -> well_allocated m) ->
  level_of u id (lo_act l) ta -> level_of u id (lo_out l) to ->
  let tw := if Nat.eqb (lo_constants l) 0 then ta else wl in
  exists h' js, exploit_stage k ms id l u wl = Ok h' /\ StronglySorted lt js /\
    Forall2 (fun j l' => exists lv, nth_error (h_list h) j = Some lv /\ same_memory lv l' /\ forall op, stores op l' <-> stores op lv /\ keeps_operand l ta tw to j op) js (h_list h') /\
    forall j lv op, nth_error (h_list h) j = Some lv -> stores op lv -> keeps_operand l ta tw to j op -> In j js.
Proof. exact (pruned_hierarchy k ms h id l u wl ta to). Qed.
Print Assumptions C50_pruned.

(** Asking for the workload's input and output to be in the top memories has no effect. *)
Theorem C50_from_top_ignored g info levels oa l0 rest u wl : graph_ok g -> (forall l, In l (g_nodes g) -> three_operands (info l)) ->
  (forall m, In m levels -> NoDup (keys (lv_dict m))) -> g_nodes g = l0 :: rest -> search_levels g info levels oa = Ok (u, wl) ->
  (forall l, In l (g_nodes g) -> lo_act (info l) = lo_act (info l0) /\ lo_out (info l) = lo_out (info l0)) ->
  search_stage g info levels oa true = Ok (u, wl).
Proof. exact (fun O T N E H => from_top_ignored g info levels oa O T N l0 rest u wl E H). Qed.
Print Assumptions C50_from_top_ignored.

(** A chain of three layers on an array with an SRAM: the outputs of the second are too large for it. *)
Example C50_chain : search_levels ex_chain ex_info ex_levels ex_oa =
  Ok ([(0%nat, [("I1", 1); ("O", 1)]); (1%nat, [("I1", 1); ("O", 2)]); (2%nat, [("I1", 2); ("O", 2)])], 1) /\
  graph_ok ex_chain /\ (forall l, In l (g_nodes ex_chain) -> three_operands (ex_info l)) /\ (forall m, In m ex_levels -> NoDup (keys (lv_dict m))) /\
  ~ branching ex_chain 0 /\ ranked ex_chain /\
  (forall a b, In a (g_nodes ex_chain) -> In b (g_nodes ex_chain) -> predecessors ex_chain a = [] -> predecessors ex_chain b = [] -> a = b) /\
  (forall a b, In a (g_nodes ex_chain) -> In b (g_nodes ex_chain) -> successors ex_chain a = [] -> successors ex_chain b = [] -> a = b) /\
  build 0 ex_memories = Ok ex_hierarchy /\ (forall m, In m ex_memories -> well_allocated m).
Proof.
  split; [vm_compute; reflexivity|]. split; [|split; [|split; [|split; [|split; [|split; [|split; [|split]]]]]]].
  - split; [|split].
    + cbn. repeat (constructor; [cbn; intuition discriminate|]). constructor.
    + cbn. repeat (constructor; [cbn; intuition discriminate|]). constructor.
    + cbn. intros a b [E|[E|[]]]; injection E as <- <-; tauto.
  - cbn. intros l [<-|[<-|[<-|[]]]]; repeat split; discriminate.
  - vm_compute. intros m [<-|[<-|[<-|[]]]]; repeat (constructor; [cbn; intuition discriminate|]); constructor.
  - intros [H|(s & E & H)]; [cbn in H; lia|]. cbn in E. injection E as <-. cbn in H. lia.
  - exists (fun n => n). cbn. intros a b [E|[E|[]]]; injection E as <- <-; lia.
  - cbn. intros a b [<-|[<-|[<-|[]]]] [<-|[<-|[<-|[]]]]; try discriminate; reflexivity.
  - cbn. intros a b [<-|[<-|[<-|[]]]] [<-|[<-|[<-|[]]]]; try discriminate; reflexivity.
  - vm_compute. reflexivity.
  - intros m I p op s Ip Ia. repeat (destruct I as [<-|I]; [destruct Ip as [<-|[]]; cbn in Ia; repeat (destruct Ia as [Ia|Ia]; [injection Ia as <- <-; split; [cbn; tauto|split; [|reflexivity]]; ((exists WrHigh; reflexivity) || (exists WrLow; reflexivity) || (exists RdHigh; reflexivity) || (exists RdLow; reflexivity))|]); destruct Ia|]). destruct I.
Qed.

(** The accelerator of its second layer has no DRAM for the input. *)
Example C50_pruned_met : exists h, exploit_stage 0 ex_memories 1 (ex_info 1) [(0%nat, [("I1", 1); ("O", 1)]); (1%nat, [("I1", 1); ("O", 2)])] 1 = Ok h /\
  map (fun l => (ml_operands (lv_mem l), ml_size (lv_mem l))) (h_list h) = [(["O"], 16); (["I1"; "I2"; "O"], 1000); (["O"], 100000)].
Proof. eexists. split; vm_compute; reflexivity. Qed.

(** An input that is larger than the previous output (a layer between them was removed) is put
    where it does not fit. *)
Theorem C50_larger_input_refuted : exists u wl m, search_levels ex_chain ex_grown ex_levels ex_oa = Ok (u, wl) /\
  level_of u 2 (lo_act (ex_grown 2)) 1 /\ nth_error ex_levels 1 = Some m /\ capacity ex_oa m < lo_act_bits (ex_grown 2).
Proof. do 3 eexists. split; [vm_compute; reflexivity|]. split; [eexists; split; vm_compute; reflexivity|]. split; vm_compute; reflexivity. Qed.
Print Assumptions C50_larger_input_refuted.

(** A layer without weights lowers their level to a memory that does not hold them. *)
Theorem C50_added_weights_refuted : exists u m, search_levels ex_split ex_add ex_levels ex_oa = Ok (u, 1) /\
  nth_error ex_levels 1 = Some m /\ capacity ex_oa m < workload_weights ex_add (g_nodes ex_split).
Proof. do 2 eexists. split; [vm_compute; reflexivity|]. split; vm_compute; reflexivity. Qed.
Print Assumptions C50_added_weights_refuted.

(** Two first layers, or nothing large enough: the search fails. *)
Example C50_two_sources : search_stage (mkGraph [0%nat; 1%nat; 2%nat] [(0%nat, 2%nat); (1%nat, 2%nat)]) ex_info ex_levels ex_oa false = Err RuntimeError.
Proof. vm_compute. reflexivity. Qed.
Example C50_too_large : search_stage ex_chain (fun _ => ex_layer 200000 1 1) ex_levels ex_oa false = Err AssertionError.
Proof. vm_compute. reflexivity. Qed.
