(** C01. *)
From Verif Require Import Base Model_Pr Spec_Pr Proof_Pr.

(** C01.  The reported derived-dimension size is the number of distinct indices
    exactly when the second size does not exceed [sa/g] or the first size is at
    least [sb/g] ([g = gcd sa sb]). *)
Theorem C01_pr_size_exact_iff :
  forall sa a sb b, 0 < sa -> 0 < sb -> 0 < a -> 0 < b ->
  (calc_pr_dimension_size sa a sb b = distinct (all_indices sa a sb b) <->
   (b <= sa / Z.gcd sa sb \/ sb / Z.gcd sa sb <= a)).
Proof. exact pr_size_iff. Qed.
Print Assumptions C01_pr_size_exact_iff.

Example C01_exact_region_met :
  calc_pr_dimension_size 2 14 3 5 = distinct (all_indices 2 14 3 5)
  /\ distinct (all_indices 2 14 3 5) = 37.
Proof. vm_compute. split; reflexivity. Qed.

(** C01.  The unrestricted statement is false of the code: one output column, a
    kernel of three with dilation two over stride one touches 3 columns, the code
    reports 5. *)
Theorem C01_pr_size_refuted :
  exists sa a sb b, 0 < sa /\ 0 < sb /\ 0 < a /\ 0 < b /\
    calc_pr_dimension_size sa a sb b = 5 /\ distinct (all_indices sa a sb b) = 3.
Proof. exists 1, 1, 2, 3. vm_compute. repeat split; reflexivity. Qed.
Print Assumptions C01_pr_size_refuted.

(** C01.  When the code is wrong it over-estimates, never under-estimates. *)
Theorem C01_pr_size_never_under :
  forall sa a sb b, 0 < sa -> 0 < sb -> 0 < a -> 0 < b ->
  distinct (all_indices sa a sb b) <= calc_pr_dimension_size sa a sb b.
Proof. exact pr_size_over. Qed.
Print Assumptions C01_pr_size_never_under.

(** C01.  Unit kernel stride and a kernel at least as wide as the output stride:
    the derived size is the length of the contiguous input range. *)
Theorem C01_pr_size_contiguous :
  forall sa a b, 0 < sa -> 0 < a -> sa <= b ->
  calc_pr_dimension_size sa a 1 b = sa * (a - 1) + (b - 1) + 1.
Proof. exact pr_size_unit_stride. Qed.
Print Assumptions C01_pr_size_contiguous.

Example C01_contiguous_met : calc_pr_dimension_size 2 112 1 7 = 229.
Proof. reflexivity. Qed.

(** C01.  In that case the layer's total, with the padding taken off, is the number of
    distinct indices that lie inside the unpadded tensor. *)
Theorem C01_total_counts_unpadded :
  forall sa a b left right, 0 < sa -> 0 < a -> sa <= b -> 0 <= left -> 0 <= right ->
  left + right <= sa * (a - 1) + b ->
  calc_pr_dimension_size_total sa a 1 b (left, right)
  = distinct (unpadded (sa * (a - 1) + b) left right (all_indices sa a 1 b)).
Proof. exact pr_total_unpadded. Qed.
Print Assumptions C01_total_counts_unpadded.

Example C01_total_met : calc_pr_dimension_size_total 2 112 1 7 (3, 2) = 224.
Proof. reflexivity. Qed.
