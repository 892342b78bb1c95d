(** C04, C05: how many orderings are announced, and which loops are merged next to
    pinned ones. *)
From Verif Require Import Base Model_Loma Model_Perm Spec_Loma Spec_Perm Spec_LomaCount Proof_LomaFactors
  Proof_LomaCount Proof_LomaPinLimit Proof_LomaPinPower.
From Coq Require Import Permutation Znumtheory.
Open Scope string_scope.

(** C04.  The number of orderings announced before the search is the number of
    orderings the generator then yields ([C06_orderings_are_permutations]: each
    permutation of the loops once), with or without a limit on the loops. *)
Theorem C04_announced_number :
  forall factorint, factorint_ok factorint ->
  forall d0 layer_dims loops lim, NoDup (keys loops) ->
  (forall d n, In (d, n) loops -> 1 < n) ->
  (forall l, lim = Some l -> 1 <= l /\ Z.of_nat (length loops) <= l) ->
  exists st lpfs V,
    get_prime_factors factorint None lim (d0 :: layer_dims) loops = Ok (st, lpfs) /\
    (forall fuel, (length V <= fuel)%nat -> permutations loop_ltb fuel lpfs = Ok V) /\
    compute_nb_permutations st = Z.of_nat (length V).
Proof. exact announced_number. Qed.
Print Assumptions C04_announced_number.

Example C04_announced_met : exists st lpfs,
  get_prime_factors factorint_td None (Some 5) ["K"; "C"] [("K", 64); ("C", 6)] = Ok (st, lpfs) /\
  lpfs = [("K", 4); ("K", 4); ("K", 4); ("C", 2); ("C", 3)] /\
  compute_nb_permutations st = 20.
Proof. do 2 eexists. vm_compute. repeat split. Qed.

(** C05.  Merging to meet the limit, where loops are pinned: as long as two loops of
    the dimension are not pinned, the two merged are unpinned ones, the first two in
    the order of the factors.  Loops pinned for other dimensions play no part. *)
Theorem C05_limit_merges_unpinned :
  forall pins d fs cs,
  length fs = length cs -> (forall c, In c cs -> 1 <= c) ->
  2 <= zsum (map (fun fc => spare pins d (fst fc) (snd fc)) (combine fs cs)) ->
  exists a b fa fb ca cb,
    find_smallest_non_static_pf pins d fs cs = Ok (a, b) /\ (a <= b)%nat /\
    nth_error fs a = Some fa /\ nth_error cs a = Some ca /\
    nth_error fs b = Some fb /\ nth_error cs b = Some cb /\
    1 <= spare pins d fa ca /\ 1 <= spare pins d fb cb /\
    (a = b <-> 2 <= spare pins d fa ca) /\
    (forall m f c, (m < b)%nat -> m <> a -> nth_error fs m = Some f ->
       nth_error cs m = Some c -> spare pins d f c = 0).
Proof. exact merges_spare. Qed.
Print Assumptions C05_limit_merges_unpinned.

Example C05_limit_merges_met :
  let pins := [("C", 2); ("K", 3); ("C", 2)] in
  zsum (map (fun fc => spare pins "C" (fst fc) (snd fc)) (combine [2; 3; 5] [2; 1; 4])) = 5 /\
  find_smallest_non_static_pf pins "C" [2; 3; 5] [2; 1; 4] = Ok (1%nat, 2%nat).
Proof. split; reflexivity. Qed.

(** C05, a further part that holds: pins of prime size, with or without a limit.  Each
    pinned loop can be split off as often as it is pinned; no dimension has more than
    [P] pins and a limit leaves room for [P + 1] loops per dimension.  Then the loops
    still multiply to the workload, their number is the limit (or what there was), and
    every pinned loop is there as often as it is pinned. *)
Theorem C05_prime_pins_with_limit_partial :
  forall factorint, factorint_ok factorint ->
  forall pins P layer_dims loops lim, NoDup (keys loops) ->
  (forall d n, In (d, n) loops -> 1 < n) -> loops <> [] ->
  (forall d s, In (d, s) pins -> prime s /\ (s ^ occurs pins d s | size_or_1 d loops)) ->
  (forall d, In d (keys loops) -> loops_on pins d <= P) ->
  (forall l, lim = Some l -> Z.of_nat (length loops) * (P + 1) <= l) ->
  exists st lpfs,
    get_prime_factors factorint (Some pins) lim layer_dims loops = Ok (st, lpfs) /\
    (forall d, loop_product d lpfs = size_or_1 d loops) /\
    Z.of_nat (length lpfs) =
      (let n := Z.of_nat (length (initial_lpfs factorint loops)) in
       match lim with Some l => Z.min l n | None => n end) /\
    (forall d s, occurs pins d s <= occurs lpfs d s).
Proof. exact pins_with_limit. Qed.
Print Assumptions C05_prime_pins_with_limit_partial.

(** C05.  Such pins can be met: when the positions exist and stand for different places,
    the generator yields at least one ordering, and exactly those that have every pinned
    loop in its place. *)
Theorem C05_prime_pins_can_be_met_partial :
  forall factorint, factorint_ok factorint ->
  forall (qs : dict Z (string * Z)) P layer_dims loops lim, NoDup (keys loops) ->
  (forall d n, In (d, n) loops -> 1 < n) -> loops <> [] ->
  (forall d s, In (d, s) (values qs) ->
     prime s /\ (s ^ occurs (values qs) d s | size_or_1 d loops)) ->
  (forall d, In d (keys loops) -> loops_on (values qs) d <= P) ->
  (forall l, lim = Some l -> Z.of_nat (length loops) * (P + 1) <= l) ->
  exists st lpfs,
    get_prime_factors factorint (Some (values qs)) lim layer_dims loops = Ok (st, lpfs) /\
    ((forall pos x, In (pos, x) qs -> position_in (length lpfs) pos) ->
     NoDup (map (place_of (length lpfs)) (keys qs)) ->
     exists V N, V <> [] /\
       (forall fuel, (N <= fuel)%nat ->
          constrained_permutations loop_ltb fuel lpfs
            [positions_valid []; positions_sizes_valid qs] = Ok V) /\
       (forall p, In p V <-> Permutation p lpfs /\
          forall pos d s, In (pos, (d, s)) qs -> loop_at p pos d s)).
Proof. exact pins_met. Qed.
Print Assumptions C05_prime_pins_can_be_met_partial.

Example C05_can_be_met_met :
  constrained_permutations loop_ltb 100 [("C", 2); ("C", 16); ("K", 3); ("K", 15)]
    [positions_valid []; positions_sizes_valid [(0, ("C", 2)); (-1, ("K", 3))]]
  = Ok [[("C", 2); ("K", 15); ("C", 16); ("K", 3)]; [("C", 2); ("C", 16); ("K", 15); ("K", 3)]].
Proof. vm_compute. reflexivity. Qed.

Example C05_prime_pins_with_limit_met :
  let pins := [("C", 2); ("K", 3)] in
  let loops := [("C", 32); ("K", 45)] in
  (forall d s, In (d, s) pins -> prime s /\ (s ^ occurs pins d s | size_or_1 d loops)) /\
  (forall d, In d (keys loops) -> loops_on pins d <= 1) /\
  exists st, get_prime_factors factorint_td (Some pins) (Some 4) ["C"; "K"] loops =
    Ok (st, [("C", 2); ("C", 16); ("K", 3); ("K", 15)]).
Proof.
  split; [|split].
  - intros d s [E|[E|[]]]; injection E as <- <-.
    + split; [exact prime_2|]. exists 16. reflexivity.
    + split; [exact prime_3|]. exists 15. reflexivity.
  - intros d [<-|[<-|[]]]; vm_compute; discriminate.
  - eexists. vm_compute. reflexivity.
Qed.

(** C05.  The same for pins that are powers of primes, with or without a limit: the
    powers of one prime pinned in a dimension divide its size together, the higher ones
    among them do not use up the prime, and none of those is pinned twice. *)
Theorem C05_power_pins_with_limit_partial :
  forall factorint, factorint_ok factorint ->
  forall loops, NoDup (keys loops) -> (forall d n, In (d, n) loops -> 1 < n) ->
  forall ts : list (string * Z * Z),
  (forall d p m, In (d, p, m) ts -> prime p /\ 1 <= m /\
     (p ^ exponents false ts d p | size_or_1 d loops) /\
     (2 <= m -> (p ^ (exponents true ts d p + 1) | size_or_1 d loops) /\
                occurs (powers ts) d (p ^ m) <= 1)) ->
  forall P layer_dims lim, loops <> [] ->
  (forall d, In d (keys loops) -> loops_on (powers ts) d <= P) ->
  (forall l, lim = Some l -> Z.of_nat (length loops) * (P + 1) <= l) ->
  exists st lpfs,
    get_prime_factors factorint (Some (powers ts)) lim layer_dims loops = Ok (st, lpfs) /\
    (forall d, loop_product d lpfs = size_or_1 d loops) /\
    Z.of_nat (length lpfs) =
      (let n := Z.of_nat (length (initial_lpfs factorint loops))
                - zsum (map (fun t => snd t - 1) ts) in
       match lim with Some l => Z.min l n | None => n end) /\
    (forall d s, occurs (powers ts) d s <= occurs lpfs d s).
Proof. exact power_pins_with_limit. Qed.
Print Assumptions C05_power_pins_with_limit_partial.

Theorem C05_power_pins_can_be_met_partial :
  forall factorint, factorint_ok factorint ->
  forall (qs : dict Z (string * Z)) ts P layer_dims loops lim, NoDup (keys loops) ->
  values qs = powers ts ->
  (forall d n, In (d, n) loops -> 1 < n) -> loops <> [] ->
  (forall d p m, In (d, p, m) ts -> prime p /\ 1 <= m /\
     (p ^ exponents false ts d p | size_or_1 d loops) /\
     (2 <= m -> (p ^ (exponents true ts d p + 1) | size_or_1 d loops) /\
                occurs (powers ts) d (p ^ m) <= 1)) ->
  (forall d, In d (keys loops) -> loops_on (values qs) d <= P) ->
  (forall l, lim = Some l -> Z.of_nat (length loops) * (P + 1) <= l) ->
  exists st lpfs,
    get_prime_factors factorint (Some (values qs)) lim layer_dims loops = Ok (st, lpfs) /\
    ((forall pos x, In (pos, x) qs -> position_in (length lpfs) pos) ->
     NoDup (map (place_of (length lpfs)) (keys qs)) ->
     exists V N, V <> [] /\
       (forall fuel, (N <= fuel)%nat ->
          constrained_permutations loop_ltb fuel lpfs
            [positions_valid []; positions_sizes_valid qs] = Ok V) /\
       (forall p, In p V <-> Permutation p lpfs /\
          forall pos d s, In (pos, (d, s)) qs -> loop_at p pos d s)).
Proof. exact power_pins_met. Qed.
Print Assumptions C05_power_pins_can_be_met_partial.

Example C05_power_pins_met :
  let ts := [("C", 2, 3); ("K", 3, 1); ("C", 2, 1)] in
  let loops := [("C", 96); ("K", 45)] in
  powers ts = [("C", 8); ("K", 3); ("C", 2)] /\
  (forall d p m, In (d, p, m) ts -> prime p /\ 1 <= m /\
     (p ^ exponents false ts d p | size_or_1 d loops) /\
     (2 <= m -> (p ^ (exponents true ts d p + 1) | size_or_1 d loops) /\
                occurs (powers ts) d (p ^ m) <= 1)) /\
  (forall d, In d (keys loops) -> loops_on (powers ts) d <= 2) /\
  exists st, get_prime_factors factorint_td (Some (powers ts)) (Some 6) ["C"; "K"] loops =
    Ok (st, [("C", 2); ("C", 6); ("C", 8); ("K", 3); ("K", 3); ("K", 5)]).
Proof.
  split; [reflexivity|]. split; [|split].
  - intros d p m [E|[E|[E|[]]]]; injection E as <- <- <-.
    + split; [exact prime_2|]. split; [discriminate|]. split; [exists 6; reflexivity|].
      intros _. split; [exists 6; reflexivity|vm_compute; discriminate].
    + split; [exact prime_3|]. split; [discriminate|]. split; [exists 15; reflexivity|].
      intros H. exfalso. apply H. reflexivity.
    + split; [exact prime_2|]. split; [discriminate|]. split; [exists 6; reflexivity|].
      intros H. exfalso. apply H. reflexivity.
  - intros d [<-|[<-|[]]]; vm_compute; discriminate.
  - eexists. vm_compute. reflexivity.
Qed.

(** C05.  The same room does not do for pins that use up a prime: with [C = 4] pinned in
    a dimension of size 60 and a limit of 2, the loops of the dimension multiply to 120. *)
Theorem C05_used_up_refuted :
  exists pins dims loops st lpfs,
    (forall d s, In (d, s) pins -> prime_power s /\ (s | size_or_1 d loops)) /\
    loops_on pins "C" = 1 /\
    get_prime_factors factorint_td (Some pins) (Some 2) dims loops = Ok (st, lpfs) /\
    loop_product "C" lpfs = 120 /\ size_or_1 "C" loops = 60.
Proof.
  exists [("C", 4)], ["C"], [("C", 60)]. do 2 eexists.
  split; [|split; [reflexivity|split; [vm_compute; reflexivity|split; reflexivity]]].
  intros d s [E|[]]. injection E as <- <-. split.
  - exists 2, 2. split; [exact prime_2|]. split; [discriminate|reflexivity].
  - exists 15. reflexivity.
Qed.
Print Assumptions C05_used_up_refuted.
