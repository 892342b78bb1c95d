(** Independent vocabulary for C15. *)
From Coq Require Import QArith.
From Verif Require Import Base Model_Alloc Spec_Alloc Spec_Decouple Model_SpatialInt.

(** [n] is the integer nearest to [q]; in the middle between two, the even one. *)
Definition nearest (q : Q) (n : Z) : Prop :=
  (q - (1 # 2) <= inject_Z n <= q + (1 # 2))%Q /\
  ((inject_Z n == q - (1 # 2))%Q \/ (inject_Z n == q + (1 # 2))%Q -> Z.even n = true).

(** Product of the loops at level [lv] and above. *)
Definition unrolled_from (lv : nat) (levels : list (list (string * Q))) : Q :=
  iterations_of (concat (skipn lv levels)).

(** The mapping of one operand after decoupling: only operands with derived
    dimensions are changed. *)
Definition decoupled_for (ly : layer) (pr_ops : list string) (op : string)
    (ls ls' : list (list (string * Q))) : Prop :=
  (In op pr_ops /\ decoupled_levels ly [] ls ls') \/ (~ In op pr_ops /\ ls' = ls).

(** The loops that make units hold different data of the operand. *)
Definition data_loops (ly : layer) (r : list string) (l : list (string * Q)) : list (string * Q) :=
  filter (fun x => memb (fst x) (r ++ map (fun p => String.append p "_R"%string) (keys (l_pr_loop ly)))) l.
(** The others: units hold the same data. *)
Definition copy_loops (ly : layer) (r : list string) (l : list (string * Q)) : list (string * Q) :=
  filter (fun x => negb (memb (fst x) (r ++ map (fun p => String.append p "_R"%string) (keys (l_pr_loop ly))))) l.

(** Complete inputs: every operand has levels and relevant dimensions, unrollings are
    at least 1, and the operands with derived dimensions meet what C14 asks for. *)
Definition spatial_inputs (ly : layer) (r_dims ir_dims : dict string (list string))
    (pr_ops layer_operands : list string) (mapping : dict string (list (list (string * Q)))) : Prop :=
  derived_ok ly /\ (forall op, In op pr_ops -> In op layer_operands) /\
  forall op, In op layer_operands -> exists ls r,
    dget op mapping = Some ls /\ ls <> [] /\ dget op r_dims = Some r /\
    (forall x, In x (concat ls) -> (1 <= snd x)%Q) /\
    (In op pr_ops -> operand_ok ly
       (r ++ match dget op ir_dims with Some l => l | None => [] end) (concat ls)).

(** The counts of an operand whose unrollings per level are [ls], and [ls'] after
    decoupling. *)
Record right_counts (ly : layer) (r : list string) (ls ls' : list (list (string * Q)))
    (c : opcounts) : Prop := {
  rc_levels : length (unit_count c) = length ls /\ length (unit_unique c) = length ls /\
    length (unit_duplicate c) = length ls /\ length (data_serve_scope c) = pred (length ls) /\
    length (mem_bw_boost c) = pred (length ls);
  (** units at and above a level; exact when that is a whole number *)
  rc_units : forall lv n, nth_error (unit_count c) lv = Some n ->
    (exists t, nearest (unrolled_from lv ls * 1000) t /\ nearest (inject_Z t / 1000) n) /\
    (forall m, (unrolled_from lv ls == inject_Z m)%Q -> n = m);
  rc_product : forall lv u d, nth_error (unit_unique c) lv = Some u ->
    nth_error (unit_duplicate c) lv = Some d -> (u * d == unrolled_from lv ls)%Q;
  rc_unique : forall lv u, nth_error (unit_unique c) lv = Some u ->
    (u == iterations_of (data_loops ly r (concat (skipn lv ls'))))%Q;
  rc_duplicate : forall lv d, nth_error (unit_duplicate c) lv = Some d ->
    (d == iterations_of (copy_loops ly r (concat (skipn lv ls'))))%Q;
  (** broadcast scope: the copying loops of the level, i.e. the ratio to the next *)
  rc_scope : forall lv q, nth_error (data_serve_scope c) lv = Some q ->
    exists l, nth_error ls' lv = Some l /\ (q == iterations_of (copy_loops ly r l))%Q /\
      forall a b, nth_error (unit_duplicate c) lv = Some a ->
        nth_error (unit_duplicate c) (S lv) = Some b -> (a == q * b)%Q;
  (** bandwidth boost: likewise for the data loops, rounded *)
  rc_boost : forall lv n, nth_error (mem_bw_boost c) lv = Some n ->
    exists l, nth_error ls' lv = Some l /\ nearest (iterations_of (data_loops ly r l)) n /\
      forall a b, nth_error (unit_unique c) lv = Some a ->
        nth_error (unit_unique c) (S lv) = Some b -> (a == iterations_of (data_loops ly r l) * b)%Q }.
