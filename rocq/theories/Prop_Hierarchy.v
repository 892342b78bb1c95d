(** C30, C31, C61, C62: building memory hierarchies. *)
From Coq Require Import QArith.
From Verif Require Import Base Model_DataMove Model_Cost Model_Graph Model_Hierarchy Spec_Graph Spec_Hierarchy.
From Verif Require Import Proof_Graph Proof_Hierarchy Proof_Sharing Proof_Ports Proof_Outer.
Local Open Scope string_scope.
Local Open Scope list_scope.
Local Open Scope nat_scope.

(** * C30 *)

(** The memories are those described, in order; numbered per operand in order of addition; the
    number of levels is reported. *)
Theorem C30_levels k ms h op : operands_once ms -> build k ms = Ok h ->
  Forall2 described ms (h_list h) /\
  map (fun l => dget op (lv_dict l)) (holders h op) = map Some (seq 0 (length (holders h op))) /\
  dget op (h_nb h) = (if Nat.eqb (length (holders h op)) 0 then None else Some (length (holders h op))).
Proof.
  exact (fun O E => conj (proj2 (build_inv k ms h E)) (conj (levels_in_order k ms h op E) (nb_counts k ms O h op E))).
Qed.
Print Assumptions C30_levels.

(** Edges lead from earlier to later memories; the graph has no cycles, can be sorted, and the
    memories of an operand are listed once each. *)
Theorem C30_acyclic k ms h : build k ms = Ok h ->
  (forall u v, In (u, v) (g_edges (h_graph h)) -> u < v < length (h_list h)) /\
  acyclic (h_graph h) /\
  exists L, topological_sort (h_graph h) = Ok L /\ topological_order (h_graph h) L /\
    forall op, exists ls, get_memory_levels h op = Ok ls /\ Permutation ls (holders h op).
Proof.
  exact (fun E => let I := proj1 (build_inv k ms h E) in
    conj (fun u v => edges_forward h u v I) (conj (ranked_acyclic _ (hierarchy_ranked h I))
      (match levels_perm k ms h E with
       | ex_intro _ L (conj A (conj B C)) => ex_intro _ L (conj A (conj B (fun op => match C op with ex_intro _ ls (conj P (conj _ R)) => ex_intro _ ls (conj P R) end)))
       end))).
Qed.
Print Assumptions C30_acyclic.

(** An edge leads to a memory from the memories that hold one of its operands and are the
    highest to do so. *)
Theorem C30_edges k ms h u v : build k ms = Ok h -> (In (u, v) (g_edges (h_graph h)) <->
  exists lu lv op, nth_error (h_list h) u = Some lu /\ nth_error (h_list h) v = Some lv /\ u < v /\
    stores op lu /\ stores op lv /\
    forall w lw, w < v -> nth_error (h_list h) w = Some lw -> stores op lw -> height lw <= height lu).
Proof. exact (fun E => hi_edges h (proj1 (build_inv k ms h E)) u v). Qed.
Print Assumptions C30_edges.

(** The top level of an operand is the last memory added for it. *)
Theorem C30_top k ms h op : operands_once ms -> build k ms = Ok h ->
  ((exists l, In l (h_list h) /\ stores op l) -> exists l, get_operand_top_level h op = Ok l /\ last_such (stores op) (h_list h) l) /\
  ((forall l, In l (h_list h) -> ~ stores op l) -> get_operand_top_level h op = Err KeyError).
Proof. exact (fun O E => conj (top_is_last k ms h op O E) (top_absent k ms h op O E)). Qed.
Print Assumptions C30_top.

(** The inner memories are those at level 0 for all their operands. *)
Theorem C30_inner k ms h : build k ms = Ok h ->
  forall l, In l (get_inner_memories h) <-> In l (h_list h) /\ forall op n, dget op (lv_dict l) = Some n -> n = 0.
Proof. exact (inner_spec k ms h). Qed.
Print Assumptions C30_inner.

(** A memory after which no memory stores any of its operands is an outer one; when heights do
    not go down there are no others. *)
Theorem C30_outer k ms h i l : build k ms = Ok h -> nth_error (h_list h) i = Some l ->
  ((forall op j l', i < j -> nth_error (h_list h) j = Some l' -> stores op l -> ~ stores op l') -> In l (get_outer_memories h)) /\
  (heights_grow h -> In l (get_outer_memories h) -> forall op j l', i < j -> nth_error (h_list h) j = Some l' -> stores op l -> ~ stores op l').
Proof. exact (outer_spec k ms h i l). Qed.
Print Assumptions C30_outer.

(** The instances of a memory, times the units that each serves, are all units of the array. *)
Theorem C30_instances oa l :
  (unroll_count oa l * zprod (map snd (filter (fun x => memb (fst x) (lv_served l)) oa)) = zprod (map snd oa))%Z.
Proof. exact (instances_cover oa l). Qed.
Print Assumptions C30_instances.

(** Building succeeds. *)
Theorem C30_total k ms : (forall m, In m ms -> well_allocated m) -> exists h, build k ms = Ok h.
Proof. exact (build_total k ms). Qed.
Print Assumptions C30_total.

(** A memory that lists an operand twice makes the number of levels wrong. *)
Theorem C30_repeated_refuted : exists ms h, build 0 ms = Ok h /\ length (holders h "I1") = 1 /\
  dget "I1" (h_nb h) = Some 2 /\ get_operand_top_level h "I1" = Err ValueError.
Proof. exists [ex_memory ["I1"; "I1"]]. eexists. split; [vm_compute; reflexivity|]. vm_compute. repeat split. Qed.
Print Assumptions C30_repeated_refuted.

Example C30_met : operands_once ex_memories /\ (forall m, In m ex_memories -> well_allocated m) /\
  exists h, build 0 ex_memories = Ok h /\ h_nb h = [("I1", 3); ("I2", 3); ("O", 2)] /\
    g_edges (h_graph h) = [(0, 2); (1, 2); (2, 4); (3, 4)] /\ map lv_id (get_inner_memories h) = [0; 1; 3] /\
    map lv_id (get_outer_memories h) = [4].
Proof.
  split; [|split].
  - intros m [<-|[<-|[<-|[<-|[<-|[]]]]]]; cbn; repeat (apply NoDup_cons; [cbn; intuition discriminate|]); apply NoDup_nil.
  - intros m [<-|[<-|[<-|[<-|[<-|[]]]]]] p op s [<-|[]]; cbn; intros Q;
      repeat match type of Q with _ \/ _ => destruct Q as [Q|Q] | False => destruct Q end; injection Q as <- <-; (split; [tauto|split; [|reflexivity]]);
      first [exists WrHigh; reflexivity|exists RdLow; reflexivity].
  - eexists. split; [vm_compute; reflexivity|]. vm_compute. repeat split.
Qed.

(** * C31 *)

(** When the heights do not go down along the memories of an operand, every topological order
    lists them by level number. *)
Theorem C31_sorted_partial k ms h L op : build k ms = Ok h -> heights_grow h -> topological_order (h_graph h) L ->
  filter (fun l => memb op (ml_operands (lv_mem l))) (pick (h_list h) L) = holders h op.
Proof. exact (fun E => grown_order h L op (proj1 (build_inv k ms h E))). Qed.
Print Assumptions C31_sorted_partial.

(** So it is when operands that share a memory share all later ones. *)
Theorem C31_sharing_stays_partial k ms h op : build k ms = Ok h ->
  (forall op i j li lj, i < j -> nth_error (h_list h) i = Some li -> nth_error (h_list h) j = Some lj -> stores op li -> stores op lj ->
     forall op', stores op' li -> stores op' lj) ->
  get_memory_levels h op = Ok (holders h op).
Proof.
  exact (fun E Q => match levels_perm k ms h E with
    | ex_intro _ L (conj _ (conj T C)) => match C op with
      | ex_intro _ ls (conj P (conj F _)) => eq_trans P (f_equal Ok (eq_trans F (grown_order h L op (proj1 (build_inv k ms h E)) (stay_grow h (proj1 (build_inv k ms h E)) Q) T))) end end).
Qed.
Print Assumptions C31_sharing_stays_partial.

(** In general they are not: with three operands the memories of I1 are listed as levels 0, 2, 1. *)
Theorem C31_sorted_refuted : exists h ls, build 0 ex_unsorted = Ok h /\ operands_once ex_unsorted /\ get_memory_levels h "I1" = Ok ls /\
  map (fun l => dget "I1" (lv_dict l)) ls = [Some 0; Some 2; Some 1].
Proof.
  do 2 eexists. split; [vm_compute; reflexivity|]. split; [|split; vm_compute; reflexivity].
  intros m [<-|[<-|[<-|[<-|[<-|[<-|[<-|[]]]]]]]]; cbn; repeat (apply NoDup_cons; [cbn; intuition discriminate|]); apply NoDup_nil.
Qed.
Print Assumptions C31_sorted_refuted.

Example C31_met : exists h, build 0 ex_memories = Ok h /\
  (forall op i j li lj, i < j -> nth_error (h_list h) i = Some li -> nth_error (h_list h) j = Some lj -> stores op li -> stores op lj ->
     forall op', stores op' li -> stores op' lj).
Proof.
  eexists. split; [vm_compute; reflexivity|]. intros op i j li lj L Ei Ej Si Sj op' S'.
  destruct i as [|[|[|[|[|i]]]]], j as [|[|[|[|[|j]]]]]; try lia; cbn [nth_error h_list] in Ei, Ej;
    try (destruct i; discriminate); try (destruct j; discriminate); injection Ei as <-; injection Ej as <-; unfold stores in *; cbn in *;
    intuition (subst; first [discriminate|tauto]).
Qed.

(** * C61 *)

(** The sharing groups are the levels of the memories with more than one operand, once each. *)
Theorem C61_groups k ms h : build k ms = Ok h -> exists hd, mem_hierarchy_dict h = Ok hd /\ NoDup (mem_sharing_list hd) /\
  forall g, In g (mem_sharing_list hd) <-> exists l, In l (h_list h) /\ g = lv_dict l /\ 1 < length (lv_dict l).
Proof. exact (sharing_spec k ms h). Qed.
Print Assumptions C61_groups.

(** A group lists an operand and level once, and no two groups share one. *)
Theorem C61_disjoint k ms h hd : build k ms = Ok h -> mem_hierarchy_dict h = Ok hd ->
  (forall g, In g (mem_sharing_list hd) -> NoDup g) /\
  (forall g g' x, In g (mem_sharing_list hd) -> In g' (mem_sharing_list hd) -> In x g -> In x g' -> g = g').
Proof. exact (groups_disjoint k ms h hd). Qed.
Print Assumptions C61_disjoint.

(** The level numbers of a memory are listed per operand once. *)
Theorem C61_members k ms h l op n : build k ms = Ok h -> In l (h_list h) -> (In (op, n) (lv_dict l) <-> dget op (lv_dict l) = Some n) /\
  (In op (keys (lv_dict l)) <-> stores op l).
Proof.
  exact (fun E Il => let I := proj1 (build_inv k ms h E) in
    conj (conj (In_dget op n (lv_dict l) (hi_keys h I l Il)) (dget_In op n (lv_dict l))) (level_keys h l op I Il)).
Qed.
Print Assumptions C61_members.

Example C61_met : exists h hd, build 0 ex_memories = Ok h /\ mem_hierarchy_dict h = Ok hd /\
  mem_sharing_list hd = [[("I1", 1); ("I2", 1)]; [("I1", 2); ("I2", 2); ("O", 1)]].
Proof. do 2 eexists. split; [vm_compute; reflexivity|]. split; vm_compute; reflexivity. Qed.

(** * C62 *)

(** Each port of a built memory is one of those described, serves something, and serves exactly
    the movements for which it is the last port listed, at the operand's level. *)
Theorem C62_served k ms h i m l pt : names_once ms -> build k ms = Ok h -> nth_error ms i = Some m -> nth_error (h_list h) i = Some l ->
  In pt (ml_ports (lv_mem l)) ->
  exists p, In p (ms_ports m) /\ pt_name pt = ps_name p /\ pt_bw_max pt = ps_bw_max p /\ pt_served pt <> [] /\ NoDup (pt_served pt) /\
    forall op lv d, In (op, lv, d) (pt_served pt) <-> dget op (lv_dict l) = Some lv /\ moved_by m op d p.
Proof. exact (fun N E Em El => proj1 (level_ports k ms h i m l N E Em El) pt). Qed.
Print Assumptions C62_served.

(** No movement is forgotten. *)
Theorem C62_all_served k ms h i m l op lv d p : names_once ms -> build k ms = Ok h -> nth_error ms i = Some m -> nth_error (h_list h) i = Some l ->
  dget op (lv_dict l) = Some lv -> moved_by m op d p ->
  exists pt, In pt (ml_ports (lv_mem l)) /\ pt_name pt = ps_name p /\ In (op, lv, d) (pt_served pt).
Proof. exact (fun N E Em El => proj1 (proj2 (level_ports k ms h i m l N E Em El)) op lv d p). Qed.
Print Assumptions C62_all_served.

(** The bandwidths of an operand and direction are those of its port, or missing. *)
Theorem C62_bandwidth k ms h i m l op d : names_once ms -> build k ms = Ok h -> nth_error ms i = Some m -> nth_error (h_list h) i = Some l -> stores op l ->
  (forall p, moved_by m op d p -> get2 (ml_bw_min (lv_mem l)) op d = Some (Some (ps_bw_min p)) /\ get2 (ml_bw_max (lv_mem l)) op d = Some (Some (ps_bw_max p))) /\
  ((forall p, ~ moved_by m op d p) -> get2 (ml_bw_min (lv_mem l)) op d = Some None /\ get2 (ml_bw_max (lv_mem l)) op d = Some None).
Proof.
  exact (fun N E Em El S => conj (fun p => proj1 (proj2 (proj2 (level_ports k ms h i m l N E Em El))) op d p S)
    (proj2 (proj2 (proj2 (level_ports k ms h i m l N E Em El))) op d S)).
Qed.
Print Assumptions C62_bandwidth.

(** Ports are numbered uniquely over all memories. *)
Theorem C62_ids k ms h : names_once ms -> build k ms = Ok h -> NoDup (map pt_id (flat_map (fun l => ml_ports (lv_mem l)) (h_list h))).
Proof. exact (fun N E => proj1 (build_ids k ms N h E)). Qed.
Print Assumptions C62_ids.

(** Validated descriptions have ports move only what their type allows. *)
Theorem C62_types oa m op d p : memory_valid oa m = true -> moved_by m op d p -> may_move (ps_type p) d /\ (ps_bw_min p <= ps_bw_max p)%Z.
Proof. exact (valid_moves oa m op d p). Qed.
Print Assumptions C62_types.

(** When two ports have the same name, the first takes the movements of both. *)
Theorem C62_same_name_refuted : exists m h l, build 0 [m] = Ok h /\ nth_error (h_list h) 0 = Some l /\
  map ps_alloc (ms_ports m) = [[("I1", "fh")]; [("I1", "tl")]] /\ map pt_served (ml_ports (lv_mem l)) = [[("I1", 0, WrHigh); ("I1", 0, RdLow)]].
Proof.
  exists (mkMemspec 8 1 1 ["I1"] [mkPortspec "rw_port_1" PReadWrite 8 8 [("I1", "fh")]; mkPortspec "rw_port_1" PReadWrite 8 8 [("I1", "tl")]] []).
  do 2 eexists. split; [vm_compute; reflexivity|]. vm_compute. repeat split.
Qed.
Print Assumptions C62_same_name_refuted.

Example C62_met : names_once ex_memories /\ memory_valid [] (ex_memory ["I1"; "I2"]) = true /\
  exists h l, build 0 ex_memories = Ok h /\ nth_error (h_list h) 2 = Some l /\ 
    ml_ports (lv_mem l) = [mkPort 2 "rw_port_1" 16 [("I1", 1, WrHigh); ("I1", 1, RdLow); ("I2", 1, WrHigh); ("I2", 1, RdLow)]] /\
    moved_by (ex_memory ["I1"; "I2"]) "I1" WrHigh (mkPortspec "rw_port_1" PReadWrite 8 16 [("I1", "fh"); ("I1", "tl"); ("I2", "fh"); ("I2", "tl")]).
Proof.
  split; [|split; [reflexivity|]].
  - intros m [<-|[<-|[<-|[<-|[<-|[]]]]]]; cbn; repeat (apply NoDup_cons; [cbn; intuition discriminate|]); apply NoDup_nil.
  - do 2 eexists. split; [vm_compute; reflexivity|]. split; [vm_compute; reflexivity|]. split; [vm_compute; reflexivity|].
    exists [], []. split; [reflexivity|]. split; [left; reflexivity|]. intros y [].
Qed.
