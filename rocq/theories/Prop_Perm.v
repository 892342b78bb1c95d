(** C06, C07: the ordering generator. *)
From Verif Require Import Base Model_Perm Spec_Perm Proof_PermProps.
Open Scope string_scope.

(** C06.  For every strict total order on the elements and every non-empty multiset
    [E]: the generator terminates (any fuel from the number of results on), yields
    no ordering twice and yields exactly the permutations of [E]. *)
Theorem C06_orderings_are_permutations :
  forall (A : Type) (ltb : A -> A -> bool),
  (forall x, ltb x x = false) ->
  (forall x y z, ltb x y = true -> ltb y z = true -> ltb x z = true) ->
  (forall x y, ltb x y = false -> ltb y x = false -> x = y) ->
  forall E, E <> [] -> exists V,
    NoDup V /\ (forall p, In p V <-> Permutation p E) /\
    forall fuel, (length V <= fuel)%nat -> permutations ltb fuel E = Ok V.
Proof. exact @permutations_ok. Qed.
Print Assumptions C06_orderings_are_permutations.

(** The loops of the mapper, (dimension, size) pairs, are ordered that way. *)
Theorem C06_loops_are_ordered :
  (forall x, loop_ltb x x = false) /\
  (forall x y z, loop_ltb x y = true -> loop_ltb y z = true -> loop_ltb x z = true) /\
  (forall x y, loop_ltb x y = false -> loop_ltb y x = false -> x = y).
Proof. exact (conj loop_ltb_irr (conj loop_ltb_trans loop_ltb_tot)). Qed.
Print Assumptions C06_loops_are_ordered.

Example C06_met :
  permutations loop_ltb 100 [("C", 2); ("K", 3); ("C", 2)] =
  Ok [[("K", 3); ("C", 2); ("C", 2)]; [("C", 2); ("K", 3); ("C", 2)];
      [("C", 2); ("C", 2); ("K", 3)]].
Proof. vm_compute. reflexivity. Qed.

Example C06_count :
  match permutations Z.ltb 1000 [1; 1; 2; 2; 3] with Ok V => length V = 30%nat | Err _ => False end.
Proof. vm_compute. reflexivity. Qed.

(** C06.  The empty multiset is the one input that crashes. *)
Theorem C06_empty_multiset :
  forall (A : Type) (ltb : A -> A -> bool) fuel, permutations ltb fuel [] = Err IndexError.
Proof. reflexivity. Qed.
Print Assumptions C06_empty_multiset.

(** C07.  [ps] pins dimensions and [qs] pins dimensions with sizes, at positions
    that exist: the constrained generator yields the unconstrained sequence
    filtered by "every pin is met". *)
Theorem C07_constrained_orderings :
  forall (E : list (string * Z)) (ps : dict Z string) (qs : dict Z (string * Z)), E <> [] ->
  (forall pos d, In (pos, d) ps -> position_in (length E) pos) ->
  (forall pos d s, In (pos, (d, s)) qs -> position_in (length E) pos) ->
  exists V keep,
    (forall fuel, (length V <= fuel)%nat -> permutations loop_ltb fuel E = Ok V) /\
    (forall fuel, (length V <= fuel)%nat ->
       constrained_permutations loop_ltb fuel E [positions_valid ps; positions_sizes_valid qs]
       = Ok (filter keep V)) /\
    (forall p, In p V <-> Permutation p E) /\
    (forall p, In p V -> (keep p = true <->
       (forall pos d, In (pos, d) ps -> dim_at p pos d) /\
       (forall pos d s, In (pos, (d, s)) qs -> loop_at p pos d s))).
Proof. exact constrained_ok. Qed.
Print Assumptions C07_constrained_orderings.

Example C07_met :
  constrained_permutations loop_ltb 100 [("C", 2); ("K", 3); ("C", 2); ("OX", 5)]
     [positions_valid [(0, "C")]; positions_sizes_valid [(-1, ("K", 3))]] =
  Ok [[("C", 2); ("OX", 5); ("C", 2); ("K", 3)]; [("C", 2); ("C", 2); ("OX", 5); ("K", 3)]].
Proof. vm_compute. reflexivity. Qed.

(** C07.  A pin at a position no ordering has is an error, not an empty result. *)
Theorem C07_missing_position_is_an_error :
  forall (E : list (string * Z)) pos d, E <> [] ->
  ~ position_in (length E) pos -> forall fuel,
  constrained_permutations loop_ltb (S fuel) E [positions_valid [(pos, d)]; positions_sizes_valid []]
  = Err IndexError.
Proof. exact constrained_out_of_range. Qed.
Print Assumptions C07_missing_position_is_an_error.
