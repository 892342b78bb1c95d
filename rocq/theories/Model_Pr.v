(** Model of the partially-relevant (pr) dimension size computation. *)
From Verif Require Import Base.

(** [LayerNode.calc_pr_dimension_size], zigzag/workload/layer_node.py:315-322.
    Python [//] on positive ints is [Z.div]; [max(0, .)] is [Z.max]. *)
Definition calc_pr_dimension_size (sa a sb b : Z) : Z :=
  let gcd_value := Z.gcd sa sb in
  a * b - Z.max 0 (b - sa / gcd_value) * (a - sb / gcd_value).

(** [LayerNode.calc_pr_dimension_size_total],
    zigzag/workload/layer_node.py:299-313.  The lookups of the two related
    dimensions and of the padding pair are arguments here. *)
Definition calc_pr_dimension_size_total (sa a sb b : Z) (padding : Z * Z) : Z :=
  calc_pr_dimension_size sa a sb b - (fst padding + snd padding).
