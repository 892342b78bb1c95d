(** Independent vocabulary for C81: what part of a memory an evaluation reports as used. *)
From Coq Require Import QArith.
From Verif Require Import Base Model_Alloc Model_Links Model_Hierarchy Model_Evaluate
  Spec_Alloc Spec_Temporal Spec_Mapping Spec_Latency Spec_Hierarchy Spec_EvalEnergy Spec_EvalTime.
Local Open Scope list_scope.

(** For every operand and every memory of it ([loops] are its temporal loops), [ind] gives the bits of the
    operand and [sh] those of all operands that the memory keeps, both divided by the size of the memory.
    [bits op lv] are the bits of the operand [op] in its memory [lv]. *)
Record right_utilisation (rq : request) (ms : list memspec) (loops : string -> list (list (string * Z))) (bits : string -> nat -> Z)
    (ind sh : dict string (list Q)) : Prop := {
  ru_levels : forall op, In op (rq_ops rq) -> exists us us', dget op ind = Some us /\ dget op sh = Some us' /\
    length us = length (loops op) /\ length us' = length (loops op);
  ru_memories : forall i m, nth_error ms i = Some m -> exists ops, NoDup ops /\ (forall x, In x ops <-> resident rq ms i x) /\
    forall x, In x ops -> (snd x < length (loops (fst x)))%nat /\
      (util ind x == inject_Z (bits (fst x) (snd x)) / inject_Z (ms_size m))%Q /\
      (util sh x == inject_Z (zsum (map (fun y => bits (fst y) (snd y)) ops)) / inject_Z (ms_size m))%Q }.

(** No memory is reported to be used more than entirely. *)
Definition within_size (rq : request) (loops : string -> list (list (string * Z))) (ind sh : dict string (list Q)) : Prop :=
  forall op lv, In op (rq_ops rq) -> (lv < length (loops op))%nat -> (0 <= util ind (op, lv) <= util sh (op, lv) /\ util sh (op, lv) <= 1)%Q.

(** Unrollings have whole sizes. *)
Definition whole_unrollings (rq : request) : Prop :=
  forall op su x, dget op (rq_spatial rq) = Some su -> In x (concat su) -> exists z, (snd x == inject_Z z)%Q.

(** Outputs that are complete do not take more bits than partial sums. *)
Definition final_smaller (rq : request) : Prop :=
  forall full, dget (rq_out rq) (l_precision (rq_layer rq)) = Some full -> (l_final_precision (rq_layer rq) <= full)%Z.

(** What the evaluation reports of the memories: [ind] and [sh] of all that they keep, [ind'] and [sh'] of
    what is in use at a time.  The loops that do not change an operand are merged downwards (C12). *)
Definition reported (rq : request) (ms : list memspec) (ind sh ind' sh' : dict string (list Q)) (loops : string -> list (list (string * Z))) : Prop :=
  exists kept live,
    (forall op, In op (rq_ops rq) -> exists given, dget op (rq_temporal rq) = Some given /\ merged_down (reuse_dims (rq_ir rq) op) given (loops op)) /\
    (forall op lv, In op (rq_ops rq) -> (lv < length (loops op))%nat ->
       kept_bits rq op (unrolling (rq_spatial rq) op) (loops op) lv (kept op lv) /\
       live_bits rq op (unrolling (rq_spatial rq) op) (loops op) lv (live op lv) /\ (0 <= live op lv <= kept op lv)%Z) /\
    right_utilisation rq ms loops kept ind sh /\ right_utilisation rq ms loops live ind' sh'.
