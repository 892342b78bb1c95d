(** C02, C03, C04, C05, C11: the LOMA engine around the permutation generator. *)
From Verif Require Import Base Model_Loma Spec_Loma Proof_LomaLoops Proof_LomaFactors
  Proof_LomaPins Proof_LomaRun.
From Coq Require Import Znumtheory.
Open Scope string_scope.

(** C02.  Unrollings of at least 1: the temporal loops exist, are on layer
    dimensions, are larger than 1, and with the unrollings cover the layer. *)
Theorem C02_temporal_loops_cover :
  forall layer spatial,
  NoDup (keys layer) -> (forall d n, In (d, n) layer -> 1 <= n) ->
  (forall d s, In (d, s) spatial -> (1 <= s)%Q) ->
  exists loops, get_temporal_loops layer spatial = Ok loops /\
    NoDup (keys loops) /\
    (forall d n, In (d, n) loops -> 1 < n /\ In d (keys layer)) /\
    (forall d n, In (d, n) layer ->
       (inject_Z n <= qprod (unrollings_of d spatial) * inject_Z (size_or_1 d loops))%Q).
Proof. exact temporal_loops_cover. Qed.
Print Assumptions C02_temporal_loops_cover.

(** C02.  The excess is below one unrolling whenever all but the first unrolling
    of the dimension are whole numbers (in particular for one unrolling). *)
Theorem C02_temporal_loops_tight :
  forall layer spatial loops,
  NoDup (keys layer) -> (forall d n, In (d, n) layer -> 1 <= n) ->
  (forall d s, In (d, s) spatial -> (1 <= s)%Q) ->
  get_temporal_loops layer spatial = Ok loops ->
  forall d n, In (d, n) layer ->
    (forall s, In s (tl (unrollings_of d spatial)) ->
               exists z, 1 <= z /\ (s == inject_Z z)%Q) ->
    (qprod (unrollings_of d spatial) * (inject_Z (size_or_1 d loops) - 1) < inject_Z n)%Q.
Proof. exact temporal_loops_tight. Qed.
Print Assumptions C02_temporal_loops_tight.

Example C02_met :
  get_temporal_loops [("K", 64); ("C", 10); ("OX", 7); ("FX", 3)]
                     [("K", 32%Q); ("C", (10 # 3)%Q); ("FX", 3%Q); ("G", 2%Q)]
  = Ok [("K", 2); ("C", 3); ("OX", 7)].
Proof. reflexivity. Qed.

(** C02 outside its range: a zero unrolling is a crash. *)
Example C02_zero_unrolling :
  get_temporal_loops [("K", 64)] [("K", 0%Q)] = Err ZeroDivisionError.
Proof. reflexivity. Qed.

(** C03.  Without limit and pins, for every correct [factorint]. *)
Theorem C03_prime_factors_lossless :
  forall factorint, factorint_ok factorint ->
  forall layer_dims loops, NoDup (keys loops) ->
  (forall d n, In (d, n) loops -> 1 < n) -> loops <> [] ->
  exists st lpfs, get_prime_factors factorint None None layer_dims loops = Ok (st, lpfs) /\
    (forall d, loop_product d lpfs = size_or_1 d loops) /\
    (forall d f, In (d, f) lpfs -> prime f /\ In d (keys loops)).
Proof. exact prime_factors_nolimit. Qed.
Print Assumptions C03_prime_factors_lossless.

Theorem C03_dummy_loop :
  forall factorint d layer_dims lim, (forall l, lim = Some l -> 1 <= l) ->
  exists st, get_prime_factors factorint None lim (d :: layer_dims) [] = Ok (st, [(d, 1)]).
Proof. exact prime_factors_dummy. Qed.
Print Assumptions C03_dummy_loop.

(** The assumed contract is satisfiable: trial division meets it. *)
Theorem C03_factorint_exists : factorint_ok factorint_td.
Proof. exact factorint_td_ok. Qed.
Print Assumptions C03_factorint_exists.

Example C03_met :
  get_prime_factors factorint_td None None ["K"; "C"] [("K", 12); ("C", 35)]
  = Ok (initial_factors factorint_td [("K", 12); ("C", 35)],
        [("K", 2); ("K", 2); ("K", 3); ("C", 5); ("C", 7)]).
Proof. vm_compute. reflexivity. Qed.

(** C04.  Limit at least the number of loop dimensions (the engine raises smaller
    limits to that number: next theorem). *)
Theorem C04_limit_keeps_workload :
  forall factorint, factorint_ok factorint ->
  forall layer_dims loops lim, NoDup (keys loops) ->
  (forall d n, In (d, n) loops -> 1 < n) -> loops <> [] ->
  Z.of_nat (length loops) <= lim ->
  exists st lpfs, get_prime_factors factorint None (Some lim) layer_dims loops = Ok (st, lpfs) /\
    (forall d, loop_product d lpfs = size_or_1 d loops) /\
    Z.of_nat (length lpfs) = Z.min lim (Z.of_nat (length (initial_lpfs factorint loops))) /\
    (forall d f, In (d, f) lpfs -> 2 <= f /\ In d (keys loops)) /\
    (forall d, In d (keys loops) -> exists f, In (d, f) lpfs).
Proof. exact prime_factors_limit. Qed.
Print Assumptions C04_limit_keeps_workload.

(** C02 + C03 + C04 end to end: the loops handed to the permutation generator. *)
Theorem C04_engine_loops_cover_layer :
  forall factorint layer spatial lim,
  factorint_ok factorint -> layer <> [] ->
  NoDup (keys layer) -> (forall d n, In (d, n) layer -> 1 <= n) ->
  (forall d s, In (d, s) spatial -> (1 <= s)%Q) ->
  (forall l, lim = Some l -> 1 <= l) ->
  exists lpfs, engine_lpfs factorint None lim layer spatial = Ok lpfs /\ lpfs <> [] /\
    (forall d n, In (d, n) layer ->
      (inject_Z n <= qprod (unrollings_of d spatial) * inject_Z (loop_product d lpfs))%Q) /\
    (forall d f, In (d, f) lpfs -> 1 <= f /\ In d (keys layer)) /\
    (forall l, lim = Some l ->
       Z.of_nat (length lpfs) <= Z.max l (Z.of_nat (length layer))).
Proof. exact engine_ok. Qed.
Print Assumptions C04_engine_loops_cover_layer.

Example C04_met :
  engine_lpfs factorint_td None (Some 4) [("K", 64); ("C", 12); ("OX", 7); ("FX", 3)]
     [("K", 2%Q); ("FX", 3%Q)] =
  Ok [("K", 32); ("C", 3); ("C", 4); ("OX", 7)].
Proof. vm_compute. reflexivity. Qed.

(** C05.  False of the code: pinning the loop [C = 6] of a dimension of temporal
    size 6 makes the loops of that dimension multiply to 18. *)
Theorem C05_pins_refuted :
  exists pins dims loops st lpfs,
    (forall d s, In (d, s) pins -> (s | size_or_1 d loops)) /\
    get_prime_factors factorint_td (Some pins) None dims loops = Ok (st, lpfs) /\
    loop_product "C" lpfs = 18 /\ size_or_1 "C" loops = 6.
Proof.
  exists [("C", 6)], ["C"], [("C", 6)]. do 2 eexists.
  split; [|split; [vm_compute; reflexivity|split; reflexivity]].
  intros d s [E|[]]. injection E as <- <-. exists 1. reflexivity.
Qed.
Print Assumptions C05_pins_refuted.

(** C05.  Also false for pins that multiply to the dimension when one is repeated. *)
Theorem C05_repeated_pins_refuted :
  exists pins dims loops st lpfs,
    zprod (map snd pins) = size_or_1 "C" loops /\
    get_prime_factors factorint_td (Some pins) None dims loops = Ok (st, lpfs) /\
    loop_product "C" lpfs = 8 /\ size_or_1 "C" loops = 16.
Proof.
  exists [("C", 4); ("C", 4)], ["C"], [("C", 16)]. do 2 eexists.
  split; [reflexivity|split; [vm_compute; reflexivity|split; reflexivity]].
Qed.
Print Assumptions C05_repeated_pins_refuted.

(** C05.  A limit on top of a (prime) pin breaks it as well. *)
Theorem C05_pins_with_limit_refuted :
  exists pins dims loops st lpfs,
    (forall d s, In (d, s) pins -> prime s) /\
    get_prime_factors factorint_td (Some pins) (Some 1) dims loops = Ok (st, lpfs) /\
    loop_product "C" lpfs = 128 /\ size_or_1 "C" loops = 16.
Proof.
  exists [("C", 2)], ["C"], [("C", 16)]. do 2 eexists.
  split; [|split; [vm_compute; reflexivity|split; reflexivity]].
  intros d s [E|[]]. injection E as <- <-. exact prime_2.
Qed.
Print Assumptions C05_pins_with_limit_refuted.

(** C05, the part that holds: distinct pins of prime-power size, no limit. *)
Theorem C05_prime_power_pins_keep_workload_partial :
  forall factorint pins layer_dims loops st lpfs,
  factorint_ok factorint -> NoDup (keys loops) ->
  (forall d n, In (d, n) loops -> 1 < n) -> loops <> [] ->
  NoDup pins -> (forall d s, In (d, s) pins -> prime_power s) ->
  get_prime_factors factorint (Some pins) None layer_dims loops = Ok (st, lpfs) ->
  forall d, loop_product d lpfs = size_or_1 d loops.
Proof. exact pins_conserve. Qed.
Print Assumptions C05_prime_power_pins_keep_workload_partial.

Example C05_partial_met : exists st lpfs,
  get_prime_factors factorint_td (Some [("C", 4); ("K", 9); ("C", 8)]) None ["C"; "K"]
     [("C", 96); ("K", 54)] = Ok (st, lpfs) /\
  lpfs = [("C", 3); ("C", 4); ("C", 8); ("K", 2); ("K", 3); ("K", 9)].
Proof. do 2 eexists. split; vm_compute; reflexivity. Qed.

(** C11.  [alloc] is the allocation of one ordering; it may fail only with the two
    "memory too small" errors. *)
Theorem C11_run_yields_feasible :
  forall (O M : Type) (alloc : O -> result M) (orderings : list O),
  (forall o e, In o orderings -> alloc o = Err e ->
     e = MemoryHierarchyTooSmall \/ e = MemoryTooSmall) ->
  fst (loma_run alloc orderings)
    = flat_map (fun o => match alloc o with Ok m => [m] | Err _ => [] end) orderings /\
  (snd (loma_run alloc orderings) = None <-> exists o m, In o orderings /\ alloc o = Ok m) /\
  (snd (loma_run alloc orderings) = Some NoValidLoopOrdering <->
     forall o, In o orderings -> exists e, alloc o = Err e) /\
  (forall e, snd (loma_run alloc orderings) = Some e -> e = NoValidLoopOrdering).
Proof. exact @loma_run_spec. Qed.
Print Assumptions C11_run_yields_feasible.

Example C11_met :
  loma_run (fun o : Z => if (o <? 3)%Z then Err MemoryTooSmall else Ok (10 * o)) [1; 4; 2; 7]
  = ([40; 70], None) /\
  loma_run (fun o : Z => @Err Z MemoryHierarchyTooSmall) [1; 4] = ([], Some NoValidLoopOrdering).
Proof. split; reflexivity. Qed.
