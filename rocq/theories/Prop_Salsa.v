(** Simulated annealing (C46). *)
From Coq Require Import QArith.
From Verif Require Import Base Model_Loma Model_Cme Model_Salsa Spec_Loma Spec_Cme Spec_Salsa Proof_Salsa.
Open Scope string_scope.
Open Scope list_scope.
Open Scope Z_scope.

(** For all random draws: every state that is evaluated is a permutation of the start, which
    is the first; the state returned is the first of them with the least criterion. *)
Theorem C46_best :
  forall (exponential : Q -> Q) (evaluate : list loop -> result eval) name T0,
  (forall a, (0 <= a)%Q -> (1 <= exponential a)%Q) -> (0 < T0)%Q ->
  forall start, (forall o e, Permutation o start -> evaluate o = Ok e -> (0 < criterion_of name e)%Q) ->
  forall draws w, (forall d, In d draws -> (snd d < 1)%Q) -> anneal exponential evaluate name T0 start draws = Ok w ->
  (forall s, In s (wk_evaluated w) -> Permutation (fst s) start /\ evaluate (fst s) = Ok (snd s)) /\
  first_least (opt_criterion name) (wk_evaluated w) (wk_best w) /\
  (exists e, hd_error (wk_evaluated w) = Some (start, e)) /\
  length (wk_evaluated w) = (3 + length draws)%nat.
Proof. exact anneal_spec. Qed.
Print Assumptions C46_best.

(** It succeeds when there are loops and every order of them can be evaluated. *)
Theorem C46_succeeds :
  forall (exponential : Q -> Q) (evaluate : list loop -> result eval) name T0,
  (forall a, (0 <= a)%Q -> (1 <= exponential a)%Q) -> (0 < T0)%Q ->
  forall start, (forall o e, Permutation o start -> evaluate o = Ok e -> (0 < criterion_of name e)%Q) ->
  forall draws, name = "energy" \/ name = "latency" -> start <> [] -> (forall o, Permutation o start -> exists e, evaluate o = Ok e) ->
  (forall d, In d draws -> drawn (length start) d) ->
  exists w, anneal exponential evaluate name T0 start draws = Ok w.
Proof. exact anneal_ok. Qed.
Print Assumptions C46_succeeds.

(** Two positions are exchanged to get the next state. *)
Theorem C46_neighbours :
  forall (i j : nat) (l l' : list loop), swap i j l = Ok l' -> exchanged i j l l' /\ Permutation l' l.
Proof. exact swap_spec. Qed.
Print Assumptions C46_neighbours.

(** Every order of the loops found covers the layer, and all loops are prime. *)
Theorem C46_orders_cover :
  forall factorint layer spatial lpfs, factorint_ok factorint ->
  NoDup (keys layer) -> (forall d n, In (d, n) layer -> 1 <= n) -> (forall d s, In (d, s) spatial -> (1 <= s)%Q) ->
  salsa_lpfs factorint layer spatial = Ok lpfs ->
  forall o, Permutation o lpfs ->
    (forall d n, In (d, n) layer -> (inject_Z n <= qprod (unrollings_of d spatial) * inject_Z (loop_product d o))%Q) /\
    (forall d f, In (d, f) o -> Znumtheory.prime f /\ In d (keys layer)).
Proof. exact salsa_cover. Qed.
Print Assumptions C46_orders_cover.

(** Loops are found when every unrolling is on its own dimension of the layer. *)
Theorem C46_loops_exist :
  forall layer spatial, NoDup (map fst spatial) -> (forall d s, In (d, s) spatial -> In d (keys layer) /\ ~ (s == 0)%Q) ->
  exists loops, salsa_temporal_loops layer spatial = Ok loops.
Proof. exact salsa_defined. Qed.
Print Assumptions C46_loops_exist.

(** Several processes: what the stage keeps was evaluated by one of them and is best of
    their answers; by energy it is best of all that they evaluated. *)
Theorem C46_stage :
  forall (exponential : Q -> Q) (evaluate : list loop -> result eval) name T0 (lpfs : list loop)
    (walks : list (list loop * list (nat * nat * Q) * walk)) answers b,
  (forall a, (0 <= a)%Q -> (1 <= exponential a)%Q) -> (0 < T0)%Q ->
  (forall o e, Permutation o lpfs -> evaluate o = Ok e -> (0 < criterion_of name e)%Q) ->
  (forall start ds w, In (start, ds, w) walks ->
     Permutation start lpfs /\ (forall d, In d ds -> (snd d < 1)%Q) /\ anneal exponential evaluate name T0 start ds = Ok w) ->
  Permutation answers (map (fun x => Ok (snd (wk_best (snd x)))) walks) ->
  salsa_stage name answers = Some (Ok b) ->
  (exists x o, In x walks /\ In (o, b) (wk_evaluated (snd x)) /\ Permutation o lpfs /\ evaluate o = Ok b) /\
  (forall x, In x walks -> (if eqb name "energy" then energy_le else latency_le) b (snd (wk_best (snd x)))) /\
  (name = "energy" -> forall x o e, In x walks -> In (o, e) (wk_evaluated (snd x)) -> (ev_energy b <= ev_energy e)%Q).
Proof. exact stage_spec. Qed.
Print Assumptions C46_stage.

(** By latency the processes minimise the latency without loading, the stage the total one:
    an evaluated order with less total latency may be lost. *)
Theorem C46_total_latency_refuted : exists w b,
  anneal (fun _ => 1%Q) latency_cost "latency" (1 # 20) [("K", 2); ("C", 3)] [(0, 1, 1 # 2)%nat] = Ok w /\
  salsa_stage "latency" [Ok (snd (wk_best w))] = Some (Ok b) /\
  exists o e, In (o, e) (wk_evaluated w) /\ (ev_l2 e < ev_l2 b)%Q.
Proof. exact latency_other. Qed.
Print Assumptions C46_total_latency_refuted.

(** When a process fails, for instance because an order does not fit, the stage waits
    forever. *)
Theorem C46_failing_process :
  forall name answers x, name = "energy" \/ name = "latency" -> In (Err x) answers -> salsa_stage name answers = None.
Proof. exact stage_waits. Qed.
Print Assumptions C46_failing_process.

(** It fails when no loop is left to order, and when a dimension is unrolled again after
    nothing is left of it. *)
Theorem C46_nothing_left :
  forall (exponential : Q -> Q) (evaluate : list loop -> result eval) name T0 d draws e, name = "energy" \/ name = "latency" -> evaluate [] = Ok e ->
  anneal exponential evaluate name T0 [] (d :: draws) = Err ValueError.
Proof. exact nothing_left. Qed.
Print Assumptions C46_nothing_left.
Theorem C46_unrolled_twice_refuted :
  salsa_temporal_loops [("K", 4); ("C", 6)] [("K", 4%Q); ("K", 2%Q)] = Err KeyError /\
  get_temporal_loops [("K", 4); ("C", 6)] [("K", 4%Q); ("K", 2%Q)] = Ok [("C", 6)].
Proof. vm_compute. split; reflexivity. Qed.
Print Assumptions C46_unrolled_twice_refuted.

Example C46_met :
  (exists w, ex_walk = Ok w /\ map (fun s => map snd (fst s)) (wk_evaluated w) = [[2; 3; 2]; [2; 3; 2]; [2; 3; 2]; [2; 3; 2]; [3; 2; 2]; [3; 2; 2]] /\
     ev_energy (snd (wk_best w)) = 3%Q) /\
  salsa_lpfs factorint_td [("K", 12); ("C", 6); ("FX", 3)] [("K", 2%Q); ("FX", 3%Q)] = Ok [("K", 2); ("K", 3); ("C", 2); ("C", 3)].
Proof. split; [eexists; split; [vm_compute; reflexivity|split; reflexivity]|vm_compute; reflexivity]. Qed.
