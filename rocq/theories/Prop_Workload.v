(** C43, C44, C63: workload graphs. *)
From Verif Require Import Base Model_Graph Spec_Graph Model_Workload Spec_Workload Proof_Graph Proof_Workload.
Local Open Scope string_scope.
Local Open Scope list_scope.
Local Open Scope nat_scope.

(** * C43 *)

(** The copy without dummy nodes has all other nodes, and an edge exactly where there was one or
    a chain of edges through dummy nodes. *)
Theorem C43_edges {A} `{EqB A} (dummy : A -> bool) g : graph_ok g -> exists g', get_copy_no_dummy dummy g = Ok g' /\ graph_ok g' /\
  g_nodes g' = filter (fun x => negb (dummy x)) (g_nodes g) /\
  forall u v, In (u, v) (g_edges g') <-> dummy u = false /\ dummy v = false /\ through dummy g u v.
Proof. exact (no_dummy_spec dummy g). Qed.
Print Assumptions C43_edges.

(** So paths between layers are kept, and none are added. *)
Theorem C43_paths {A} `{EqB A} (dummy : A -> bool) g g' : graph_ok g -> get_copy_no_dummy dummy g = Ok g' ->
  (forall x, In x (g_nodes g') <-> In x (g_nodes g) /\ dummy x = false) /\
  forall u v, dummy u = false -> dummy v = false -> (path g' u v <-> path g u v).
Proof. exact (no_dummy_paths dummy g g'). Qed.
Print Assumptions C43_paths.

(** From the ONNX model: when no node has more than two nodes feeding it, the workload without
    dummies depends exactly as the model does. *)
Theorem C43_onnx ns : executable ns -> (forall v, length (feeding ns v) <= 2) ->
  exists g, onnx_layers ns = Ok g /\ g_nodes g = filter (fun v => negb (is_dummy ns v)) (seq 0 (length ns)) /\
    forall u v, is_dummy ns u = false -> is_dummy ns v = false -> (path g u v <-> depends ns u v).
Proof. exact (onnx_layers_spec ns). Qed.
Print Assumptions C43_onnx.

(** With three inputs to a dummy node (a concatenation), a dependency is lost. *)
Theorem C43_onnx_refuted : let ns := [mkOnnxnode true ["x"] ["a"]; mkOnnxnode true ["x"] ["b"]; mkOnnxnode true ["x"] ["c"];
    mkOnnxnode false ["a"; "b"; "c"] ["d"]; mkOnnxnode true ["d"] ["y"]] in
  executable ns /\ depends ns 2 4 /\ exists g, onnx_layers ns = Ok g /\ ~ path g 2 4.
Proof. exact concat_lost. Qed.
Print Assumptions C43_onnx_refuted.

Example C43_met : let ns := [mkOnnxnode true ["x"; "w"] ["a"]; mkOnnxnode false ["a"] ["b"]; mkOnnxnode true ["a"; "v"] ["c"];
    mkOnnxnode false ["b"; "c"] ["d"]; mkOnnxnode true ["d"] ["y"]] in
  executable ns /\ (forall v, length (feeding ns v) <= 2) /\
  exists g, onnx_workload ns = Ok g /\ graph_ok g /\ g_edges g = [(0, 1); (0, 2); (1, 3); (2, 3); (3, 4)] /\
    exists g', onnx_layers ns = Ok g' /\ g_nodes g' = [0; 2; 4] /\ g_edges g' = [(0, 2); (2, 4); (0, 4)].
Proof. exact chain_example. Qed.

(** * C44 *)

(** A workload described by the user is built exactly when sources come first; its edges are the
    sources named, and lead from earlier to later layers. *)
Theorem C44_described ls : ((exists g, dnn_workload ls = Ok g) <-> sources_earlier ls) /\ (forall e, dnn_workload ls = Err e -> e = AssertionError) /\
  forall g, dnn_workload ls = Ok g -> graph_ok g /\ g_nodes g = seq 0 (length ls) /\
    (forall u v, In (u, v) (g_edges g) <-> names ls u v) /\ (forall u v, In (u, v) (g_edges g) -> u < v).
Proof.
  exact (conj (proj1 (dnn_ok ls)) (conj (proj2 (dnn_ok ls)) (fun g E => match dnn_spec ls g E with
    | conj W (conj N T) => conj W (conj N (conj T (fun u v I => proj1 (names_lt ls u v (proj1 (T u v) I))))) end))).
Qed.
Print Assumptions C44_described.

(** So it has no cycles and can be sorted. *)
Theorem C44_described_sorted ls g : dnn_workload ls = Ok g -> acyclic g /\ exists order, topological_sort g = Ok order /\ topological_order g order.
Proof.
  exact (fun E => match dnn_spec ls g E with
    | conj W (conj N T) => let K := ranked_lt g (fun u v I => proj1 (names_lt ls u v (proj1 (T u v) I))) in conj (ranked_acyclic g K) (sort_ok g W K) end).
Qed.
Print Assumptions C44_described_sorted.

(** Edges of an ONNX workload do not lead backwards; a node that leads to itself is a dummy node
    that consumes its own output. *)
Theorem C44_onnx_edges ns g u v : onnx_workload ns = Ok g -> In (u, v) (g_edges g) ->
  u <= v < length ns /\ (u = v -> is_dummy ns v = true /\ feeds ns v v).
Proof. exact (onnx_edges_le ns g u v). Qed.
Print Assumptions C44_onnx_edges.

(** For models in executable order: which workloads are built, their edges, and that they can be
    sorted. *)
Theorem C44_onnx ns : executable ns ->
  ((exists g, onnx_workload ns = Ok g) <-> forall v n, nth_error ns v = Some n -> on_real n = true -> length (feeding ns v) <= 2) /\
  forall g, onnx_workload ns = Ok g -> graph_ok g /\ g_nodes g = seq 0 (length ns) /\
    (forall u v, In (u, v) (g_edges g) <-> In u (firstn 2 (feeding ns v))) /\
    acyclic g /\ exists order, topological_sort g = Ok order /\ topological_order g order.
Proof. exact (fun X => conj (onnx_ok ns X) (onnx_sorted ns X)). Qed.
Print Assumptions C44_onnx.

Example C44_met : exists g, dnn_workload [mkLayerspec 7 [("I", 7); ("W", 7)]%Z; mkLayerspec 3 [("I", 7); ("W", 3)]%Z; mkLayerspec 4 [("X", 7); ("Y", 3)]%Z] = Ok g /\
  g_edges g = [(0, 1); (0, 2); (1, 2)].
Proof. eexists. split; [vm_compute; reflexivity|reflexivity]. Qed.

(** * C63 *)

(** Each layer that is not passed over is evaluated once, after those it depends on, and its
    results are yielded with it. *)
Theorem C63_each_once {A R} `{EqB A} (dummy skipped : A -> bool) (evaluate : A -> result (list R)) g res :
  graph_ok g -> workload_stage dummy skipped evaluate g = Ok res ->
  exists evaluated vals, NoDup evaluated /\
    (forall x, In x evaluated <-> In x (g_nodes g) /\ dummy x = false /\ skipped x = false) /\
    (forall u v, In u evaluated -> In v evaluated -> path g u v -> before evaluated u v) /\
    Forall2 (fun x rs => evaluate x = Ok rs) evaluated vals /\
    res = flat_map (fun p => map (fun r => (r, fst p)) (snd p)) (combine evaluated vals).
Proof. exact (stage_once dummy skipped evaluate g res). Qed.
Print Assumptions C63_each_once.

(** It succeeds on workloads without cycles when the evaluations do. *)
Theorem C63_total {A R} `{EqB A} (dummy skipped : A -> bool) (evaluate : A -> result (list R)) g :
  graph_ok g -> ranked g -> (forall x, In x (g_nodes g) -> dummy x = false -> skipped x = false -> exists rs, evaluate x = Ok rs) ->
  exists res, workload_stage dummy skipped evaluate g = Ok res.
Proof. exact (stage_total dummy skipped evaluate g). Qed.
Print Assumptions C63_total.

Example C63_met : exists g, onnx_workload [mkOnnxnode true ["x"] ["a"]; mkOnnxnode false ["a"] ["b"]; mkOnnxnode true ["b"] ["c"]] = Ok g /\
  workload_stage (Nat.eqb 1) (fun _ => false) (fun x => Ok [x; x + 10]) g = Ok [(0, 0); (10, 0); (2, 2); (12, 2)].
Proof. eexists. split; vm_compute; reflexivity. Qed.
