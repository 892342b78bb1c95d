(** Independent specification for C01: count distinct indices by listing them. *)
From Verif Require Import Base.

(** [0, 1, ..., n-1] *)
Definition zrange (n : Z) : list Z := map Z.of_nat (seq 0 (Z.to_nat n)).

(** Every index [sa*x + sb*y] with [x] in [0..a-1] and [y] in [0..b-1]. *)
Definition all_indices (sa a sb b : Z) : list Z :=
  flat_map (fun x => map (fun y => sa * x + sb * y) (zrange b)) (zrange a).

(** How many different values occur in a list. *)
Definition distinct (l : list Z) : Z := Z.of_nat (length (nodup Z.eq_dec l)).

(** The indices that fall inside the tensor when the first [left] and the last [right]
    of the [n] index positions are padding. *)
Definition unpadded (n left right : Z) (l : list Z) : list Z :=
  filter (fun c => (left <=? c) && (c <? n - right)) l.
