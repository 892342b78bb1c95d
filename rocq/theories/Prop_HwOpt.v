(** C72: the search over hardware configurations. *)
From Coq Require Import QArith ZArith Lia.
From Verif Require Import Base Model_Cme Model_HwOpt Spec_Cme Spec_HwOpt Proof_HwOpt.
Local Open Scope string_scope.
Local Open Scope list_scope.
Local Open Scope Z_scope.

(** Each combination of an offered capacity and offered sizes is tried, once. *)
Theorem C72_all_configurations : NoDup configurations /\ forall l1 a, In (l1, a) configurations <-> offered l1 a.
Proof. exact (conj configurations_once offered_iff). Qed.
Print Assumptions C72_all_configurations.

(** What the search returns is the first of the fastest evaluations, and among those the least in
    energy, over all configurations; each was evaluated on the description that the file and the
    configuration give, whatever was tried before, and with the mapping for its array. *)
Theorem C72_best {R} evaluate layer original (h : hardware R) b left : over_array original ->
  optimize evaluate true [("Gemm", layer, original)] h = Ok (b, left) ->
  exists runs, Forall2 (tried evaluate layer original h) configurations runs /\
    first_best latency_le (concat (map snd runs)) b /\ spread layer original (16, 16, 16) left.
Proof. exact (optimize_best evaluate layer original h b left). Qed.
Print Assumptions C72_best.

(** It succeeds when the layer can be spread over the largest array and evaluations do. *)
Theorem C72_succeeds {R} evaluate layer original (h : hardware R) : over_array original -> three_ports h -> divisible layer original 16 ->
  (forall h m, exists c cs, evaluate h m = Ok (c :: cs)) ->
  exists b left, optimize evaluate true [("Gemm", layer, original)] h = Ok (b, left).
Proof. exact (optimize_total evaluate layer original h). Qed.
Print Assumptions C72_succeeds.

(** A dimension that only the smaller sizes divide makes the whole search fail: nothing is returned. *)
Theorem C72_indivisible_fails {R} evaluate layer original (h : hardware R) : over_array original -> ~ divisible layer original 16 ->
  forall r, optimize evaluate true [("Gemm", layer, original)] h <> Ok r.
Proof. exact (optimize_indivisible evaluate layer original h). Qed.
Print Assumptions C72_indivisible_fails.

(** The layer is left with the mapping of the last configuration, not that of the best one. *)
Theorem C72_left_mapping_refuted : exists evaluate layer original (h : hardware unit) b left,
  over_array original /\ divisible layer original 16 /\ optimize evaluate true [("Gemm", layer, original)] h = Ok (b, left) /\
  forall h' cs, evaluate h' left = Ok cs -> ~ In b cs.
Proof.
  exists ex_evaluate, ex_layer, ex_mapping, ex_hardware. do 2 eexists.
  split; [exact ex_over|]. split; [exact ex_divisible|]. split; [vm_compute; reflexivity|].
  intros h' cs E I. injection E as <-. destruct I as [I|[]]. apply (f_equal ev_l2) in I. vm_compute in I. discriminate I.
Qed.
Print Assumptions C72_left_mapping_refuted.

(** The conditions are met by the shipped description and a layer of 32 x 48 x 64: the smallest
    array is best for these evaluations, with the smallest memory (the least energy). *)
Example C72_met : over_array ex_mapping /\ three_ports ex_hardware /\ divisible ex_layer ex_mapping 16 /\
  (forall h m, exists c cs, ex_evaluate h m = Ok (c :: cs)) /\
  match optimize ex_evaluate true [("Gemm", ex_layer, ex_mapping)] ex_hardware with
  | Ok (b, m) => ev_l2 b = 512%Q /\ ev_energy b = 95%Q /\ m = [("D1", [("D", 16%Q)]); ("D2", [("C", 16%Q)]); ("D3", [("K", 16%Q)])]
  | Err _ => False
  end.
Proof.
  split; [exact ex_over|]. split; [repeat eexists|]. split; [exact ex_divisible|]. split; [intros h m; do 2 eexists; reflexivity|].
  vm_compute. repeat split.
Qed.
