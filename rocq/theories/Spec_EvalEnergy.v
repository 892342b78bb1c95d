(** Independent vocabulary for C75: the energy of an evaluation in terms of the request alone. *)
From Coq Require Import QArith.
From Verif Require Import Base Model_Alloc Model_DataMove Model_Links Model_Hierarchy Model_Evaluate
  Spec_Alloc Spec_Decouple Spec_Temporal Spec_Mapping Spec_Cost Spec_Hierarchy.
Local Open Scope list_scope.

(** The memories that store a memory operand, innermost first. *)
Definition memories_for (ms : list memspec) (mem_op : string) : list memspec :=
  filter (fun m => memb mem_op (ms_operands m)) ms.

(** Energy of an access: reading for data that leave a memory, writing for data that enter it. *)
Definition cost_of (m : memspec) (k : direction) : Q :=
  match k with RdLow | RdHigh => ms_r_cost m | WrLow | WrHigh => ms_w_cost m end.
(** Energy of [n lv k] accesses at level [lv] in direction [k], for all levels and directions. *)
Definition spent_in (ms : list memspec) (n : nat -> direction -> Z) : Q :=
  qsum (map (fun x => qsum (map (fun k => inject_Z (n (fst x) k) * cost_of (snd x) k)%Q [RdLow; WrLow; RdHigh; WrHigh]))
         (combine (seq 0 (length ms)) ms)).

(** Towards the array move the tiles of the memories below with all the units they feed, towards
    the next memory those of the memory itself: memory levels and spatial levels inside. *)
Definition inside (k : direction) (lv : nat) : nat * nat :=
  match k with RdLow | WrLow => (lv, S lv) | RdHigh | WrHigh => (S lv, S lv) end.
Definition towards_array (k : direction) : Prop := k = RdLow \/ k = WrLow.

(** Partial sums cross between the levels that [k] connects: a loop outside the tile reduces the output. *)
Definition partial_sums (rq : request) (su : list (list (string * Q))) (tm : list (list (string * Z))) (lv : nat) (k : direction) : Prop :=
  let i := fst (inside k lv) in reduces_above (reuse_dims (rq_ir rq) (rq_out rq)) su tm i (S i).

(** Inputs come in from above and go towards the array.  Outputs go out; they come back where they
    are partial sums.  Nothing moves beyond the outermost memory. *)
Definition moving (rq : request) (op : string) (su : list (list (string * Q))) (tm : list (list (string * Z))) (lv : nat) (k : direction) : Prop :=
  (In op (rq_inputs rq) /\ (k = RdLow \/ (k = WrHigh /\ (S lv < length tm)%nat))) \/
  (op = rq_out rq /\
     (k = WrLow \/ (k = RdLow /\ partial_sums rq su tm lv k) \/
      ((S lv < length tm)%nat /\ (k = RdHigh \/ (k = WrHigh /\ partial_sums rq su tm lv k))))).

(** Bits of an element: partial sums have the output's full precision. *)
Definition bits_moved (rq : request) (op : string) (su : list (list (string * Q))) (tm : list (list (string * Z))) (lv : nat) (k : direction) (b : Z) : Prop :=
  (In op (rq_inputs rq) \/ (op = rq_out rq /\ partial_sums rq su tm lv k) -> dget op (l_precision (rq_layer rq)) = Some b) /\
  (op = rq_out rq -> ~ partial_sums rq su tm lv k -> b = l_final_precision (rq_layer rq)).

(** Successive iterations that use the data once fetched: when asked for, the reads of the array from
    the innermost memory are saved over the first loops that do not change an input. *)
Definition same_data (rq : request) (op : string) (tm : list (list (string * Z))) (lv : nat) (k : direction) (c : Z) : Prop :=
  (rq_free rq = true /\ In op (rq_inputs rq) /\ lv = 0%nat /\ k = RdLow -> leading_product (reuse_dims (rq_ir rq) op) (concat tm) c) /\
  (~ (rq_free rq = true /\ In op (rq_inputs rq) /\ lv = 0%nat /\ k = RdLow) -> c = 1%Z).

(** [n] accesses of a memory: in each of [reps] iterations outside, a tile of [elements] moves through
    port [p], word by word (C40). *)
Definition accesses (rq : request) (op mem_op : string) (su : list (list (string * Q))) (tm : list (list (string * Z)))
    (m : memspec) (lv : nat) (k : direction) (n : Z) : Prop :=
  (~ moving rq op su tm lv k -> n = 0%Z) /\
  (moving rq op su tm lv k -> exists p b elements same reps,
     moved_by m mem_op k p /\ bits_moved rq op su tm lv k b /\ same_data rq op tm lv k same /\
     (inject_Z elements == tile_elements (rq_layer rq) op (within su tm (fst (inside k lv)) (snd (inside k lv))))%Q /\
     (inject_Z (same * reps) == iterations_of (outside su tm (fst (inside k lv)) (snd (inside k lv))))%Q /\
     words (elements * b) (ps_bw_min p) (ps_bw_max p) reps n).

(** The counts [n] of an operand are right at all its memories: [tm] are the temporal loops as
    requested, [tm'] with the loops that do not change the operand merged downwards (C12).  Towards
    the array this needs that neighbouring units do not use overlapping data. *)
Definition right_accesses (rq : request) (ms : list memspec) (op mem_op : string) (n : nat -> direction -> Z) : Prop :=
  exists su tm tm', dget op (rq_spatial rq) = Some su /\ dget op (rq_temporal rq) = Some tm /\
    merged_down (reuse_dims (rq_ir rq) op) tm tm' /\
    forall lv m k, nth_error (memories_for ms mem_op) lv = Some m ->
      (towards_array k -> no_overlap (rq_layer rq) (rq_pr rq) op su lv) ->
      accesses rq op mem_op su tm' m lv k (n lv k).

(** All loops have whole sizes. *)
Definition whole_request (rq : request) : Prop :=
  forall op su tm, dget op (rq_spatial rq) = Some su -> dget op (rq_temporal rq) = Some tm -> whole_sizes (whole_nest su tm).

(** The memory operand of a layer operand *)
Definition stored_as (rq : request) (op : string) : string :=
  match dget op (lk_data (rq_links rq)) with Some mem_op => mem_op | None => EmptyString end.
