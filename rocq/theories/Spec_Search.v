(** Independent vocabulary for C80: what the search of temporal mappings can work on. *)
From Coq Require Import QArith.
From Verif Require Import Base Model_Alloc Model_Cme Model_DataMove Model_Links Model_Hierarchy Model_Evaluate Model_Mapping
  Spec_Alloc Spec_Decouple Spec_SpatialInt Spec_Mapping Spec_Hierarchy Spec_Evaluate Spec_Cme.
Local Open Scope string_scope.
Local Open Scope list_scope.

(** A dimension that is not derived and is not named like a part of a derived dimension. *)
Definition loop_dim (rq : request) (d : string) : Prop :=
  ~ In d (keys (l_pr_loop (rq_layer rq))) /\
  (forall p, In p (keys (l_pr_loop (rq_layer rq))) -> d <> String.append p "_R" /\ d <> String.append p "_IR").

(** The dimension [d] of a loop means something for an operand whose relevant and irrelevant
    dimensions are [r] and [ir]. *)
Definition known_dim (rq : request) (op : string) (r ir : list string) (d : string) : Prop :=
  In d r \/ In d ir \/ (In op (rq_pr rq) /\ exists p da db, In (p, (da, db)) (l_pr_loop (rq_layer rq)) /\ (d = da \/ d = db)).

(** The relevancy of the dimensions [sizes] of the layer for an operand. *)
Definition relevancy_ok (rq : request) (sizes : list (string * Z)) (op : string) (r ir : list string) : Prop :=
  dget op (rq_r rq) = Some r /\ dget op (rq_ir rq) = Some ir /\ NoDup r /\
  dget op (l_r_or_pr (rq_layer rq)) = Some (r ++ (if in_dec string_dec op (rq_pr rq) then keys (l_pr_loop (rq_layer rq)) else [])) /\
  dget op (l_ir (rq_layer rq)) = Some ir /\ (forall d, In d r -> In d (l_dims (rq_layer rq))) /\
  (forall d, In d r -> ~ In d ir) /\
  (forall d, In d (r ++ ir) -> ~ In d (keys (l_pr_loop (rq_layer rq))) /\
     forall p, In p (keys (l_pr_loop (rq_layer rq))) -> d <> String.append p "_R" /\ d <> String.append p "_IR") /\
  (In op (rq_pr rq) -> forall d x p, In d (r ++ ir) -> runs_over (rq_layer rq) p x -> fst x <> d) /\
  forall d n, In (d, n) sizes -> loop_dim rq d /\ (n = 1%Z \/ known_dim rq op r ir d).

(** A spatial mapping: one level for the array and one per memory of the operand, sizes at least 1,
    dimensions that are known unless the size is 1, as many units for all operands. *)
Record spatial_ready (rq : request) (sp : dict string (list (list (string * Q)))) : Prop := {
  sr_levels : forall op mem_op, dget op (lk_data (rq_links rq)) = Some mem_op ->
    exists su, dget op sp = Some su /\ length su = S (length (holders (rq_hierarchy rq) mem_op)) /\
      forall x r ir, dget op (rq_r rq) = Some r -> dget op (rq_ir rq) = Some ir -> In x (concat su) -> (1 <= snd x)%Q /\ loop_dim rq (fst x) /\ ((snd x == 1)%Q \/ known_dim rq op r ir (fst x));
  sr_units : forall op op' su su', In op (rq_ops rq) -> In op' (rq_ops rq) -> dget op sp = Some su -> dget op' sp = Some su' ->
    (unrolled_from 0 su == unrolled_from 0 su')%Q }.

(** A layer with dimensions [sizes], an accelerator and a spatial mapping; no temporal mapping. *)
Record searchable (rq : request) (sizes : list (string * Z)) (port_counter : nat) (ms : list memspec) : Prop := {
  se_hardware : sound_hardware rq port_counter ms;
  se_layer : sound_layer rq;
  se_links : l_links (rq_layer rq) = lk_data (rq_links rq);
  se_sizes : sizes <> [] /\ NoDup (keys sizes) /\ forall d n, In (d, n) sizes -> (1 <= n)%Z;
  se_relevancy : forall op, In op (rq_ops rq) -> exists r ir, relevancy_ok rq sizes op r ir;
  (** every operand is stored somewhere *)
  se_stored : forall op mem_op, dget op (lk_data (rq_links rq)) = Some mem_op -> exists m, In m ms /\ In mem_op (ms_operands m);
  se_spatial : spatial_ready rq (rq_spatial rq);
  se_spatial_int : spatial_ready rq (rq_spatial_int rq);
  se_units : (0 < rq_units rq)%Z;
  se_cycles : exists z, (rq_cpo rq == inject_Z z)%Q /\ (0 < z)%Z }.

(** How the search ends when nothing fits into the memories; the last two when no loop is left to order. *)
Definition nothing_fits : list exn := [NoValidLoopOrdering; MemoryTooSmall; MemoryHierarchyTooSmall].
Definition search_ends {A} (found : list A) (loops : list (string * Z)) (e : option exn) : Prop :=
  (found <> [] -> e = None) /\
  (found = [] -> exists x, e = Some x /\ In x nothing_fits /\ (loops <> [] -> x = NoValidLoopOrdering)).

(** An ordering given by the user speaks of loops of the layer and gives sizes from 1 on. *)
Definition proper_ordering (sizes : list (string * Z)) (o : list (string * option Z)) : Prop :=
  forall d f, In (d, f) o -> In d (map fst sizes) /\ forall n, f = Some n -> (1 <= n)%Z.
(** Loop [i] from the inside is over the dimension that the ordering says, and has the size that it gives. *)
Definition follows (o : list (string * option Z)) (loops : list (string * Z)) : Prop :=
  forall i d f, nth_error o i = Some (d, f) -> exists n, nth_error loops i = Some (d, n) /\ forall m, f = Some m -> n = m.
(** How an ordering that does not go with the loops of the layer is reported *)
Definition refused : list exn := [RuntimeError; KeyError; ValueError; IndexError].

(** What the stages of reduce_stages.py compare, and the order in which they look for the least. *)
Definition criterion (less : eval -> eval -> bool) (le : eval -> eval -> Prop) : Prop :=
  (less = less_energy /\ le = energy_le) \/ (less = less_latency /\ le = latency_le) \/ (less = less_edp /\ le = edp_le).
