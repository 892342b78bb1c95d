(** C05, C65: what the search yields for orderings given as loops of prime-power size. *)
From Coq Require Import Permutation Znumtheory.
From Verif Require Import Base Model_Loma Model_Alloc Model_Layer Model_TemporalStage
  Spec_Loma Spec_LomaCount Spec_PinStage Proof_LomaFactors Proof_LomaPinStage.
Open Scope string_scope.
Open Scope list_scope.
Open Scope Z_scope.

(** C05, C65.  An ordering gives the innermost loops and, after a wildcard, the outermost
    ones.  Their sizes are powers of primes that divide the sizes left to the temporal
    mapping, a power above the prime itself at most once and not using the prime up, and
    something is left for other loops.  A limit on the loops leaves room for the pinned
    ones.  Then there are other loops that complete the pinned ones to exactly the sizes
    required, within the limit; and the mappings found are the allocations of the pinned
    loops with these others, in every order, between them. *)
Theorem C05_pinned_from_both_sides_partial :
  forall factorint, factorint_ok factorint ->
  forall lim layer_sizes unrolled ly spatial mt tops nodes (o : ordering) loops inner outer ts P,
  NoDup (keys layer_sizes) -> (forall d n, In (d, n) layer_sizes -> 1 <= n) ->
  (forall d s, In (d, s) unrolled -> (1 <= s)%Q) ->
  get_temporal_loops layer_sizes unrolled = Ok loops ->
  entries inner outer o -> inner ++ outer = powers ts -> ts <> [] ->
  (forall d p m, In (d, p, m) ts -> prime p /\ 1 <= m /\
     (p ^ exponents false ts d p | size_or_1 d loops) /\
     (2 <= m -> (p ^ (exponents true ts d p + 1) | size_or_1 d loops) /\
                occurs (powers ts) d (p ^ m) <= 1)) ->
  (exists d, loop_product d (inner ++ outer) <> size_or_1 d loops) ->
  (forall d, In d (keys loops) -> loops_on (inner ++ outer) d <= P) ->
  (forall l, lim = Some l -> Z.of_nat (length loops) * (P + 1) <= l) ->
  exists rest,
    (forall d, loop_product d (inner ++ rest ++ outer) = size_or_1 d loops) /\
    (forall l, lim = Some l -> Z.of_nat (length (inner ++ rest ++ outer)) <= l) /\
    ((forall p e, Permutation p rest ->
        allocator_run ly spatial mt tops (inner ++ p ++ outer) nodes = Err e ->
        e = MemoryHierarchyTooSmall \/ e = MemoryTooSmall) ->
     exists enough, forall fuel, (enough <= fuel)%nat ->
       let '(mappings, error) := temporal_stage factorint lim layer_sizes unrolled ly spatial mt tops nodes fuel o in
       (forall m, In m mappings <-> exists p, Permutation p rest /\
          allocator_run ly spatial mt tops (inner ++ p ++ outer) nodes = Ok m) /\
       (error = None \/ error = Some NoValidLoopOrdering) /\
       (error = None <-> mappings <> [])).
Proof. exact stage_entries. Qed.
Print Assumptions C05_pinned_from_both_sides_partial.

Example C05_pinned_met :
  let ts := [("C", 2, 3); ("K", 3, 1); ("C", 2, 1)] in
  let layer_sizes := [("C", 96); ("K", 180); ("OX", 1)] in
  let loops := [("C", 96); ("K", 45)] in
  let o := [("C", Some 8); ("K", Some 3); ("*", None); ("C", Some 2)] in
  get_temporal_loops layer_sizes [("K", 4%Q)] = Ok loops /\
  entries [("C", 8); ("K", 3)] [("C", 2)] o /\
  [("C", 8); ("K", 3)] ++ [("C", 2)] = powers ts /\
  (forall d p m, In (d, p, m) ts -> prime p /\ 1 <= m /\
     (p ^ exponents false ts d p | size_or_1 d loops) /\
     (2 <= m -> (p ^ (exponents true ts d p + 1) | size_or_1 d loops) /\
                occurs (powers ts) d (p ^ m) <= 1)) /\
  loop_product "C" [("C", 8); ("K", 3); ("C", 2)] <> size_or_1 "C" loops /\
  (forall d, In d (keys loops) -> loops_on (powers ts) d <= 2) /\
  engine_lpfs factorint_td (pinned_sizes (get_constraints o)) (Some 6) layer_sizes [("K", 4%Q)] =
    Ok [("C", 2); ("C", 6); ("C", 8); ("K", 3); ("K", 3); ("K", 5)].
Proof.
  split; [vm_compute; reflexivity|]. split; [left; reflexivity|]. split; [reflexivity|].
  split; [|split; [|split]].
  - intros d p m [E|[E|[E|[]]]]; injection E as <- <- <-.
    + split; [exact prime_2|]. split; [discriminate|]. split; [exists 6; reflexivity|].
      intros _. split; [exists 6; reflexivity|vm_compute; discriminate].
    + split; [exact prime_3|]. split; [discriminate|]. split; [exists 15; reflexivity|].
      intros H. exfalso. apply H. reflexivity.
    + split; [exact prime_2|]. split; [discriminate|]. split; [exists 6; reflexivity|].
      intros H. exfalso. apply H. reflexivity.
  - vm_compute. discriminate.
  - intros d [<-|[<-|[]]]; vm_compute; discriminate.
  - vm_compute. reflexivity.
Qed.
