(** Independent vocabulary for C78: the times of an evaluation in terms of the request alone. *)
From Coq Require Import QArith Qround.
From Verif Require Import Base Model_Alloc Model_DataMove Model_Links Model_Hierarchy Model_Latency Model_Evaluate
  Spec_Alloc Spec_Decouple Spec_Temporal Spec_Mapping Spec_Cost Spec_Hierarchy Spec_EvalEnergy.
Local Open Scope list_scope.

(** The unrolling of an operand in a spatial mapping. *)
Definition unrolling (sp : dict string (list (list (string * Q)))) (op : string) : list (list (string * Q)) :=
  match dget op sp with Some su => su | None => [] end.

(** One kind of transfer: [tr_bits] move through a port of [tr_width] bits per cycle in each of
    [tr_count] periods of [tr_period] operations.  In a period the data are gone through [tr_outer]
    times; without a second buffer they can be replaced only while they are gone through last. *)
Record transfer := mkTransfer { tr_bits : Z; tr_width : Z; tr_period : Z; tr_count : Z; tr_outer : Z }.

(** The run of outermost loops over [dims] in the temporal loops of the outermost of [i] memories. *)
Definition outer_of (dims : list string) (tm : list (list (string * Z))) (i : nat) (o : Z) : Prop :=
  match i with O => o = 1%Z | S j => exists level, nth_error tm j = Some level /\ outer_run dims level o end.

(** The transfer [t] of an operand at its memory [lv] in direction [k] is as its loops make it. *)
Definition right_transfer (rq : request) (ms : list memspec) (op : string) (su : list (list (string * Q))) (tm : list (list (string * Z)))
    (lv : nat) (k : direction) (t : transfer) : Prop :=
  (exists b elements same, bits_moved rq op su tm lv k b /\ same_data rq op tm lv k same /\
     ((towards_array k -> no_overlap (rq_layer rq) (rq_pr rq) op su lv) ->
        (inject_Z elements == tile_elements (rq_layer rq) op (within su tm (fst (inside k lv)) (snd (inside k lv))))%Q) /\
     tr_bits t = (elements * b)%Z /\ tr_period t = (same * cycles (below (fst (inside k lv)) tm))%Z) /\
  (tr_period t * tr_count t = cycles (concat tm))%Z /\
  outer_of (reuse_dims (rq_ir rq) op) tm (fst (inside k lv)) (tr_outer t) /\
  exists m p, nth_error (memories_for ms (stored_as rq op)) lv = Some m /\ moved_by m (stored_as rq op) k p /\ tr_width t = ps_bw_max p.

(** The bits of an operand that its memory [lv] keeps at a time. *)
Definition kept_bits (rq : request) (op : string) (su : list (list (string * Q))) (tm : list (list (string * Z))) (lv : nat) (bits : Z) : Prop :=
  exists b elements, bits_moved rq op su tm lv RdHigh b /\ bits = (elements * b)%Z /\
    (inject_Z elements == tile_elements (rq_layer rq) op (within su tm (S lv) (S lv)))%Q.
(** Those of them in use at a time: the outermost loops there that change the operand go through the rest. *)
Definition live_bits (rq : request) (op : string) (su : list (list (string * Q))) (tm : list (list (string * Z))) (lv : nat) (bits : Z) : Prop :=
  exists all o, kept_bits rq op su tm lv all /\ outer_of (reuse_dims (rq_r rq) op) tm (S lv) o /\ bits = (all / o)%Z.

(** Cycles that a transfer takes. *)
Definition duration (t : transfer) : Z := Qceiling (inject_Z (tr_bits t) / inject_Z (tr_width t)).
(** Bits per operation that it asks for: those of a period per operation (rounded down), as many times
    as the data are gone through, since they can be replaced only while they are gone through last. *)
Definition asked (t : transfer) : Z := tr_bits t / tr_period t * tr_outer t.
(** Cycles that there are for it, when an operation takes [z]: with a second buffer all of the period. *)
Definition time_window (z : Z) (double : bool) (t : transfer) : Z := (if double then tr_period t else tr_period t / tr_outer t) * z.
(** What it keeps the array waiting for over all periods but the first. *)
Definition wait (z : Z) (double : bool) (t : transfer) : Z := (duration t - time_window z double t) * (tr_count t - 1).

(** Cycles that it takes before the computation starts, or after it has ended.  A transfer of which
    there is just one goes on during the computation of [computing] cycles, but [first] bits. *)
Definition loading_time (computing first : Z) (t : transfer) : Z :=
  if (tr_count t =? 1)%Z then Z.max (Qceiling (inject_Z first / inject_Z (tr_width t))) (duration t - computing) else duration t.

(** [x] is the greatest of the values of [f] that [P] allows, if it is not 0. *)
Definition greatest_or_0 {A} (P : A -> Prop) (f : A -> Z) (x : Z) : Prop :=
  (0 <= x)%Z /\ (forall a, P a -> (f a <= x)%Z) /\ (x = 0%Z \/ exists a, P a /\ f a = x).

Section Timing.
  Variables (rq : request) (ms : list memspec) (z : Z).
  (** the temporal loops of every operand, its transfers, the bits its innermost memory keeps, which
      of its memories (1 is the innermost, 0 the array) have a second buffer *)
  Variables (tm : string -> list (list (string * Z))) (tr : string -> nat -> direction -> transfer) (first : string -> Z)
    (double : string -> nat -> bool).
  Let su op := unrolling (rq_spatial_int rq) op.

  Definition is_transfer (x : string * nat * direction) : Prop :=
    let '(op, lv, k) := x in In op (rq_ops rq) /\ (lv < length (tm op))%nat /\ moving rq op (su op) (tm op) lv k.
  Definition waits (x : string * nat * direction) : Z :=
    let '(op, lv, k) := x in wait z (double op (fst (inside k lv))) (tr op lv k).
  (** Loading goes over all levels: at each, the slower end determines. *)
  Definition loading_of (stall : Z) (op : string) (inner outer : direction) : Z :=
    let load lv k := loading_time (cycles (concat (tm op)) * z + stall) (first op) (tr op lv k) in
    zsum (map (fun lv => Z.max (load lv inner) (load (S lv) outer)) (seq 0 (length (tm op) - 1))).

  Record timing (la : latency) : Prop := {
    tg_loops : forall op, In op (rq_ops rq) -> exists given, dget op (rq_temporal rq) = Some given /\ merged_down (reuse_dims (rq_ir rq) op) given (tm op);
    tg_transfers : forall op lv k, is_transfer (op, lv, k) -> right_transfer rq ms op (su op) (tm op) lv k (tr op lv k);
    tg_first : forall op, In op (rq_ops rq) -> kept_bits rq op (su op) (tm op) 0 (first op);
    tg_stall : greatest_or_0 is_transfer waits (la_stall la);
    tg_on : (exists n, (la_on la == inject_Z n)%Q /\ greatest_or_0 (fun op => In op (rq_inputs rq)) (fun op => loading_of (la_stall la) op WrHigh RdLow) n);
    tg_off : (la_off la == inject_Z (loading_of (la_stall la) (rq_out rq) RdHigh WrLow))%Q;
    tg_computation : forall op, In op (rq_ops rq) -> (la_temporal la == inject_Z (cycles (concat (tm op)) * z))%Q;
    tg_total : (la_total2 la == la_temporal la + inject_Z (la_stall la) + la_on la + la_off la)%Q }.
End Timing.

(** The operands that the memory at position [i] keeps, each with the number of the memory for the operand. *)
Definition resident (rq : request) (ms : list memspec) (i : nat) (x : string * nat) : Prop :=
  In (fst x) (rq_ops rq) /\ (exists m, nth_error ms i = Some m /\ In (stored_as rq (fst x)) (ms_operands m)) /\
  snd x = length (memories_for (firstn i ms) (stored_as rq (fst x))).

(** Second buffers.  A memory that keeps one operand has one when what is in use fits twice.  In a
    memory that keeps several, what is in use fits together with all second buffers; all have one when
    everything fits twice. *)
Definition right_buffers (rq : request) (ms : list memspec) (tm : string -> list (list (string * Z))) (double : string -> nat -> bool) : Prop :=
  exists live : string -> nat -> Z,
    (forall op lv, In op (rq_ops rq) -> (lv < length (tm op))%nat -> live_bits rq op (unrolling (rq_spatial rq) op) (tm op) lv (live op lv)) /\
    (forall op, In op (rq_ops rq) -> double op 0%nat = false) /\
    forall i m, nth_error ms i = Some m ->
      exists ops, NoDup ops /\ (forall x, In x ops <-> resident rq ms i x) /\
        let used l := zsum (map (fun x : string * nat => live (fst x) (snd x)) l) in
        let doubled := filter (fun x : string * nat => double (fst x) (S (snd x))) ops in
        (doubled <> [] -> used ops + used doubled <= ms_size m)%Z /\
        ((2 * used ops <= ms_size m)%Z -> doubled = ops).

(** The loops of the mapping used for times have whole sizes too. *)
Definition whole_time_loops (rq : request) : Prop :=
  forall op su tm, dget op (rq_spatial_int rq) = Some su -> dget op (rq_temporal rq) = Some tm -> whole_sizes (whole_nest su tm).
