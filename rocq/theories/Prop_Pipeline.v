(** The result of the whole tool (C67) and the files it leaves (C48). *)
From Coq Require Import QArith Ascii.
From Verif Require Import Base Model_Text Model_Graph Model_Workload Model_Cost Model_Cme Model_Pipeline Spec_Cme Spec_Graph Spec_Workload Spec_Pipeline Proof_Pipeline Proof_CostExample.
Open Scope string_scope.
Open Scope list_scope.

(** ** C67 *)

(** What is returned is the sum over the layers of the best evaluation of each; layers are
    evaluated once, each after those it depends on; best is among all spatial mappings and
    all temporal mappings of each. *)
Theorem C67_optimum :
  forall A S C T (H : EqB A) dummy skipped (workload : graph A) (spatials : A -> result (list S)) (convert : A -> S -> result C)
    (temporals : A -> C -> list T * option exn) (evaluate : A -> C -> T -> result eval) order opt le,
  (forall l, Permutation (order l) l) -> criterion opt le -> graph_ok workload ->
  (forall l s c t e, convert l s = Ok c -> evaluate l c t = Ok e -> well_formed e /\ exists i, ev_layers e = inl i) ->
  forall energy latency cmes, api dummy skipped workload spatials convert temporals evaluate order opt = Ok (energy, latency, cmes) ->
  exists total rs, cmes = [(total, rs)] /\ energy = ev_energy total /\ latency = ev_l2 total /\ summed (map fst rs) total /\
    let layers := map (fun r => fst (snd r)) rs in
    NoDup layers /\
    (forall x, In x layers <-> In x (g_nodes workload) /\ dummy x = false /\ skipped x = false) /\
    (forall u v, In u layers -> In v layers -> path workload u v -> before layers u v) /\
    forall b l others, In (b, (l, others)) rs ->
      explored spatials convert temporals evaluate l /\ candidate spatials convert temporals evaluate l b /\
      forall e, candidate spatials convert temporals evaluate l e -> le b e.
Proof. exact @api_spec. Qed.
Print Assumptions C67_optimum.

(** The same with the cost model in place. *)
Theorem C67_cost_model :
  forall A S C T (H : EqB A) dummy skipped (workload : graph A) (spatials : A -> result (list S)) (convert : A -> S -> result C)
    (temporals : A -> C -> list T * option exn) (prepare : A -> C -> T -> result inputs) ident accelerator order opt le,
  (forall l c t ci, prepare l c t = Ok ci -> NoDup (in_ops ci)) ->
  (forall l, Permutation (order l) l) -> criterion opt le -> graph_ok workload ->
  let evaluate := fun l c t => rbind (prepare l c t) (fun ci => cme_of ci (ident l) accelerator) in
  forall energy latency cmes, api dummy skipped workload spatials convert temporals evaluate order opt = Ok (energy, latency, cmes) ->
  exists total rs, cmes = [(total, rs)] /\ energy = ev_energy total /\ latency = ev_l2 total /\ summed (map fst rs) total /\
    let layers := map (fun r => fst (snd r)) rs in
    NoDup layers /\
    (forall x, In x layers <-> In x (g_nodes workload) /\ dummy x = false /\ skipped x = false) /\
    (forall u v, In u layers -> In v layers -> path workload u v -> before layers u v) /\
    forall b l others, In (b, (l, others)) rs ->
      explored spatials convert temporals evaluate l /\ candidate spatials convert temporals evaluate l b /\
      forall e, candidate spatials convert temporals evaluate l e -> le b e.
Proof. exact @api_cost. Qed.
Print Assumptions C67_cost_model.

(** There is a result when the dependencies have no cycle, every layer has mappings and all
    can be evaluated. *)
Theorem C67_result :
  forall A S C T (H : EqB A) dummy skipped (workload : graph A) (spatials : A -> result (list S)) (convert : A -> S -> result C)
    (temporals : A -> C -> list T * option exn) (evaluate : A -> C -> T -> result eval) order opt le,
  (forall l, Permutation (order l) l) -> criterion opt le -> graph_ok workload ->
  (forall l s c t e, convert l s = Ok c -> evaluate l c t = Ok e -> well_formed e /\ exists i, ev_layers e = inl i) ->
  forall name, ranked workload ->
  (forall l e, candidate spatials convert temporals evaluate l e -> positive e /\ ev_acc e = Some name) ->
  (forall x, In x (g_nodes workload) -> dummy x = false -> skipped x = false -> explored spatials convert temporals evaluate x) ->
  exists r, api dummy skipped workload spatials convert temporals evaluate order opt = Ok r.
Proof. exact @api_ok. Qed.
Print Assumptions C67_result.

(** Other criteria are refused, whatever the workload. *)
Theorem C67_criterion :
  forall A S C T (H : EqB A) dummy skipped (workload : graph A) (spatials : A -> result (list S)) (convert : A -> S -> result C)
    (temporals : A -> C -> list T * option exn) (evaluate : A -> C -> T -> result eval) order opt,
  ~ In opt ["energy"; "latency"; "EDP"] ->
  api dummy skipped workload spatials convert temporals evaluate order opt = Err NotImplementedError.
Proof. exact @api_criterion. Qed.
Print Assumptions C67_criterion.

Example C67_met :
  graph_ok ex_workload /\ criterion "latency" latency_le /\
  (forall l c t ci, ex_prepare l c t = Ok ci -> NoDup (in_ops ci)) /\
  exists e t rs, ex_api "latency" = Ok (e, 134%Q, [(t, rs)]) /\ map (fun r => fst (snd r)) rs = [0; 2]%nat /\
    map (fun r => ev_l2 (fst r)) rs = [67%Q; 67%Q] /\
    (exists a, cost ex_prepare (fun l => l) "acc" 0%nat 0%nat 0%nat = Ok a /\ (67 < ev_l2 a)%Q).
Proof. exact ex_api_met. Qed.

(** ** C48 *)

(** Two evaluations are written to the same file exactly when what they are called after
    differs at most in slashes and underscores. *)
Theorem C48_same_file :
  forall folder kind name e e', file_name folder kind name e = file_name folder kind name e' <-> alike (label name e) (label name e').
Proof. exact file_alike. Qed.
Print Assumptions C48_same_file.

(** So files keep their own evaluation when no two names are alike. *)
Theorem C48_own_file :
  forall folder kind name es files e, pairwise_unlike (map (label name) es) -> In e es ->
  dget (file_name folder kind name e) (save_all folder kind name es files) = Some e.
Proof. exact saved_own. Qed.
Print Assumptions C48_own_file.

(** A complete file is never overwritten by a simple one. *)
Theorem C48_kinds :
  forall folder name name' e e', file_name folder "complete" name e <> file_name folder "simple" name' e'.
Proof. exact kinds_apart. Qed.
Print Assumptions C48_kinds.

(** After a run of the tool each layer's file holds its best evaluation, the overall file
    the sum, and the pickle all bests in order. *)
Theorem C48_run :
  forall A S C T (H : EqB A) dummy skipped (workload : graph A) (spatials : A -> result (list S)) (convert : A -> S -> result C)
    (temporals : A -> C -> list T * option exn) (evaluate : A -> C -> T -> result eval) order opt le,
  (forall l, Permutation (order l) l) -> criterion opt le -> graph_ok workload ->
  forall ident name,
  (forall l c t e, evaluate l c t = Ok e -> well_formed e /\ ev_layers e = inl (ident l)) ->
  forall folder files energy latency cmes,
  api dummy skipped workload spatials convert temporals evaluate order opt = Ok (energy, latency, cmes) ->
  (forall x y, In x (g_nodes workload) -> In y (g_nodes workload) -> dummy x = false -> skipped x = false -> dummy y = false -> skipped y = false ->
     x <> y -> ~ alike (name (ident x)) (name (ident y))) ->
  forall x, In x (g_nodes workload) -> dummy x = false -> skipped x = false ->
  exists b others total rs, cmes = [(total, rs)] /\ In (b, (x, others)) rs /\
    dget (folder ++ "/" ++ replace "/" "_" (name (ident x)) ++ "_complete.json")%string (saved folder name cmes files) = Some b /\
    dget (folder ++ "/overall_simple.json")%string (saved folder name cmes files) = Some total /\
    pickled cmes = Some (map fst rs).
Proof. exact @api_saved. Qed.
Print Assumptions C48_run.

(** With names that are alike the later evaluation replaces the earlier one. *)
Theorem C48_overwritten :
  forall folder kind name l1 e l2 e' files, alike (label name e) (label name e') ->
  dget (file_name folder kind name e) (save_all folder kind name (l1 ++ e :: l2 ++ [e']) files) = Some e'.
Proof. exact overwritten. Qed.
Print Assumptions C48_overwritten.

(** Different layer names may give one file. *)
Theorem C48_different_names_refuted :
  exists name e e', name 0%nat <> name 1%nat /\ ev_layers e = inl 0%nat /\ ev_layers e' = inl 1%nat /\
    file_name "outputs" "complete" name e = file_name "outputs" "complete" name e' /\
    ~ exists f, dget f (save_all "outputs" "complete" name [e; e'] []) = Some e.
Proof. exact collision. Qed.
Print Assumptions C48_different_names_refuted.

Example C48_met : pairwise_unlike ["conv1/a"; "conv1_b"; "fc"; "overall"] /\ alike "conv1/a" "conv1_a" /\
  file_name "outputs" "simple" (fun _ => "conv1/a") (mkEval [] [] [] 0 0 0 0 0 0 0 0 0 0 None (inl 3%nat) None) = "outputs/conv1_a_simple.json".
Proof. exact names_met. Qed.
