(** Independent vocabulary for C12 and C13. *)
From Verif Require Import Base Model_Alloc.

(** The loop is over one of the dimensions. *)
Definition over (dims : list string) (x : tloop) : Prop := In (fst x) dims.

Definition starts_over (dims : list string) (l : list tloop) : Prop :=
  match l with [] => False | x :: _ => over dims x end.

(** Loops of the memory levels below level [k], innermost first. *)
Definition below (k : nat) (levels : list (list tloop)) : list tloop := concat (firstn k levels).

(** Loops of level [k] and above. *)
Definition from (k : nat) (levels : list (list tloop)) : list tloop := concat (skipn k levels).

(** [new] is [old] with every boundary between two levels moved outwards past the
    reuse loops that follow it, and no further. *)
Definition merged_down (ir : list string) (old new : list (list tloop)) : Prop :=
  length new = length old /\
  concat new = concat old /\
  forall k, (0 < k < length old)%nat ->
    (exists moved, below k new = below k old ++ moved /\ Forall (over ir) moved) /\
    ~ starts_over ir (from k new).

(** The product of the sizes of the reuse loops at the start of an ordering. *)
Inductive leading_product (dims : list string) : list tloop -> Z -> Prop :=
| lead_nil : leading_product dims [] 1
| lead_stop x l : ~ over dims x -> leading_product dims (x :: l) 1
| lead_more x l p : over dims x -> leading_product dims l p ->
    leading_product dims (x :: l) (snd x * p).

Definition cycles (loops : list tloop) : Z := zprod (map snd loops).

(** Bound on the number of passes over the mapping: levels times loops, per operand. *)
Definition passes_bound (m : dict string (list (list tloop))) : nat :=
  S (fold_right (fun kv n => length (snd kv) * length (concat (snd kv)) + n) 0 m)%nat.

(** [cs] are the cycle counts of the levels: those of the loops at and below the
    level; each divides the next. *)
Definition cycle_counts (levels : list (list tloop)) (cs : list Z) : Prop :=
  length cs = length levels /\
  (forall k c, nth_error cs k = Some c -> c = cycles (below (S k) levels)) /\
  (forall k c c', nth_error cs k = Some c -> nth_error cs (S k) = Some c' ->
     (c | c') /\ ((forall d s, In (d, s) (concat levels) -> 1 <= s) -> 1 <= c <= c')).

(** The reuse (irrelevant) dimensions of an operand. *)
Definition reuse_dims (ir_dims : dict string (list string)) (op : string) : list string :=
  match dget op ir_dims with Some l => l | None => [] end.

(** The product of the outermost loops of a level that are all over [dims]: the level
    is [inner ++ outer] with [outer] the longest such run. *)
Definition outer_run (dims : list string) (level : list tloop) (p : Z) : Prop :=
  exists inner outer, level = inner ++ outer /\ p = cycles outer /\ Forall (over dims) outer /\
    forall x rest, inner = rest ++ [x] -> ~ over dims x.
