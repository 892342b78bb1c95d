(** C80: the search of temporal mappings and the evaluation of all that it finds. *)
From Coq Require Import QArith.
From Verif Require Import Base Model_Alloc Model_Loma Model_Mapping Model_Hierarchy Model_Evaluate Model_Cme Model_Search
  Spec_Loma Spec_Temporal Spec_Cme Spec_Evaluate Spec_Search Proof_LomaFactors Proof_EvalExample Proof_Search Proof_SearchGiven Proof_SearchExample.
Local Open Scope string_scope.
Local Open Scope list_scope.
Local Open Scope Z_scope.

(** All orderings of loops that cover the layer are tried; the mappings found are those that fit into
    the memories, each can be evaluated, and none missing is reported. *)
Theorem C80_found_can_be_evaluated : forall rq sizes port_counter ms, searchable rq sizes port_counter ms ->
  forall factorint lim mt, factorint_ok factorint -> (forall l, lim = Some l -> 1 <= l) ->
  exists unrolled tops nodes loops orderings, spatial_loop_dim_size rq = Ok unrolled /\ allocator_view rq = Ok (tops, nodes) /\
    (forall d n, In (d, n) sizes -> (inject_Z n <= qprod (unrollings_of d unrolled) * inject_Z (loop_product d loops))%Q) /\
    (forall p, In p orderings <-> Permutation p loops) /\ NoDup orderings /\
    forall fuel, (length orderings <= fuel)%nat -> exists found e, loma_mappings rq factorint lim sizes mt fuel = Ok (found, e) /\
      (forall tm, In tm found <-> exists p, Permutation p loops /\ allocator_run (rq_layer rq) (rq_spatial rq) mt tops p nodes = Ok tm) /\
      search_ends found loops e /\
      forall tm, In tm found -> valid_request (with_temporal rq tm) /\ exists p, Permutation p loops /\ forall op levels, In (op, levels) tm -> concat levels = p.
Proof. exact search_ok. Qed.
Print Assumptions C80_found_can_be_evaluated.

(** The best of the mappings found is returned; the search fails when nothing is found, or when an
    evaluation divides by zero cycles (C74). *)
Theorem C80_best_is_returned : forall rq sizes port_counter ms factorint lim mt less le,
  searchable rq sizes port_counter ms -> factorint_ok factorint -> (forall l, lim = Some l -> 1 <= l) -> criterion less le ->
  exists enough, forall fuel, (enough <= fuel)%nat -> exists found e enough', loma_mappings rq factorint lim sizes mt fuel = Ok (found, e) /\
    forall fuel' ident name, (enough' <= fuel')%nat ->
    (forall tm, In tm found -> (exists x, evaluate_mapping rq fuel' ident name tm = Ok x) \/ evaluate_mapping rq fuel' ident name tm = Err ZeroDivisionError) /\
    ((found = [] /\ exists x, In x nothing_fits /\ mapper_run rq factorint lim sizes mt less fuel fuel' ident name = Err x) \/
     (mapper_run rq factorint lim sizes mt less fuel fuel' ident name = Err ZeroDivisionError /\
        exists tm, In tm found /\ evaluate_mapping rq fuel' ident name tm = Err ZeroDivisionError) \/
     exists best, mapper_run rq factorint lim sizes mt less fuel fuel' ident name = Ok (best, []) /\
       (exists tm, In tm found /\ evaluate_mapping rq fuel' ident name tm = Ok best) /\
       forall tm, In tm found -> exists x, evaluate_mapping rq fuel' ident name tm = Ok x /\ le best x).
Proof. exact mapper_searches. Qed.
Print Assumptions C80_best_is_returned.

(** With ports that serve one movement of one operand each, all that is found is evaluated, to at least
    the cycles of its loops. *)
Theorem C80_dedicated_ports : forall rq sizes port_counter ms factorint lim mt less le,
  searchable rq sizes port_counter ms -> dedicated_ports ms -> factorint_ok factorint -> (forall l, lim = Some l -> 1 <= l) -> criterion less le ->
  exists enough, forall fuel, (enough <= fuel)%nat -> exists found e enough', loma_mappings rq factorint lim sizes mt fuel = Ok (found, e) /\
    forall fuel' ident name, (enough' <= fuel')%nat ->
    (forall tm, In tm found -> exists x, evaluate_mapping rq fuel' ident name tm = Ok x /\
       forall op levels, In (op, levels) tm -> (inject_Z (cycles (concat levels)) * rq_cpo rq <= ev_l2 x)%Q) /\
    ((found = [] /\ exists x, In x nothing_fits /\ mapper_run rq factorint lim sizes mt less fuel fuel' ident name = Err x) \/
     exists best, mapper_run rq factorint lim sizes mt less fuel fuel' ident name = Ok (best, []) /\
       (exists tm, In tm found /\ evaluate_mapping rq fuel' ident name tm = Ok best) /\
       forall tm, In tm found -> exists x, evaluate_mapping rq fuel' ident name tm = Ok x /\ le best x).
Proof. exact mapper_dedicated. Qed.
Print Assumptions C80_dedicated_ports.

(** With an ordering given by the user, the loops of everything found are in that order, all can be
    evaluated, and when nothing is found that is reported: nothing fits, or the ordering does not go
    with the loops of the layer. *)
Theorem C80_ordering : forall rq sizes port_counter ms, searchable rq sizes port_counter ms ->
  forall factorint lim mt, factorint_ok factorint -> (forall l, lim = Some l -> 1 <= l) ->
  forall ordering, proper_ordering sizes ordering ->
  exists enough, forall fuel, (enough <= fuel)%nat -> exists found e, stage_mappings rq factorint lim sizes mt fuel ordering = Ok (found, e) /\
    (found <> [] /\ e = None \/
     found = [] /\ exists x, e = Some x /\ (In x nothing_fits \/ ordering <> [] /\ In x refused)) /\
    forall tm, In tm found -> valid_request (with_temporal rq tm) /\
      exists p, (forall op levels, In (op, levels) tm -> concat levels = p) /\ (~ In "*" (map fst sizes) -> follows ordering p).
Proof. exact search_given. Qed.
Print Assumptions C80_ordering.

(** On shared ports a search may find 60 mappings and fail on all of them, *)
Theorem C80_division_refuted : searchable (small_request zero_widths) ex_sizes 0 (small_accelerator zero_widths) /\
  (exists found, loma_mappings (small_request zero_widths) factorint_td None ex_sizes UNEVEN 100 = Ok (found, None) /\ length found = 60%nat /\
     Forall (fun tm => evaluate_mapping (small_request zero_widths) 100 0 "layer" tm = Err ZeroDivisionError) found) /\
  mapper_run (small_request zero_widths) factorint_td None ex_sizes UNEVEN less_energy 100 100 0 "layer" = Err ZeroDivisionError.
Proof.
  split; [exact (small_searchable zero_widths (or_introl eq_refl))|]. split; [|vm_compute; reflexivity].
  eexists. split; [vm_compute; reflexivity|]. split; [reflexivity|]. repeat (constructor; [vm_compute; reflexivity|]). constructor.
Qed.
Print Assumptions C80_division_refuted.

(** or return one that takes less than no time. *)
Theorem C80_negative_refuted : searchable (small_request negative_widths) ex_sizes 0 (small_accelerator negative_widths) /\
  exists best, mapper_run (small_request negative_widths) factorint_td None ex_sizes UNEVEN less_latency 100 100 0 "layer" = Ok (best, []) /\ (ev_l2 best == -8)%Q.
Proof. split; [exact (small_searchable negative_widths (or_intror eq_refl))|]. eexists. split; vm_compute; reflexivity. Qed.
Print Assumptions C80_negative_refuted.

(** Twelve mappings of different energies *)
Example C80_met : searchable ex_request ex_sizes 0 ex_accelerator /\ dedicated_ports ex_accelerator /\ factorint_ok factorint_td /\ criterion less_energy energy_le /\
  (exists found, loma_mappings ex_request factorint_td None ex_sizes UNEVEN 100 = Ok (found, None) /\ length found = 12%nat /\
     exists tm x, In tm found /\ evaluate_mapping ex_request 100 0 "layer" tm = Ok x /\ (ev_energy x == 3724 # 5)%Q) /\
  exists best, mapper_run ex_request factorint_td None ex_sizes UNEVEN less_energy 100 100 0 "layer" = Ok (best, []) /\ (ev_energy best == 3064 # 5)%Q.
Proof.
  split; [exact ex_searchable|]. split; [exact ex_dedicated|]. split; [exact factorint_td_ok|]. split; [left; split; reflexivity|]. split.
  - eexists. split; [vm_compute; reflexivity|]. split; [reflexivity|]. eexists _, _. split; [right; left; reflexivity|]. split; vm_compute; reflexivity.
  - eexists. split; vm_compute; reflexivity.
Qed.
(** and none *)
Example C80_met_none : mapper_run (ex_request_on [with_size 64 ex_external] 1) factorint_td None ex_sizes UNEVEN less_energy 100 100 0 "layer" = Err NoValidLoopOrdering.
Proof. vm_compute. reflexivity. Qed.

(** The innermost loop given with its size and the next one without: two mappings; a loop that is
    unrolled completely cannot be given. *)
Example C80_met_ordering : proper_ordering ex_sizes [("C", Some 2); ("OX", None)] /\ ~ In "*" (map fst ex_sizes) /\
  (exists found, stage_mappings ex_request factorint_td None ex_sizes UNEVEN 100 [("C", Some 2); ("OX", None)] = Ok (found, None) /\ length found = 2%nat) /\
  proper_ordering ex_sizes [("K", Some 2)] /\
  stage_mappings ex_request factorint_td None ex_sizes UNEVEN 100 [("K", Some 2)] = Ok ([], Some KeyError).
Proof.
  split; [|split; [|split; [|split]]].
  - intros d f [Q|[Q|[]]]; injection Q as <- <-; (split; [cbn; tauto|intros n Q; congruence || (injection Q as <-; discriminate)]).
  - cbn. intuition discriminate.
  - eexists. split; vm_compute; reflexivity.
  - intros d f [Q|[]]; injection Q as <- <-. split; [cbn; tauto|intros n Q; injection Q as <-; discriminate].
  - vm_compute. reflexivity.
Qed.
