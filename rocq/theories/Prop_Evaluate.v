(** C74: the evaluation of a layer on an accelerator does not raise. *)
From Coq Require Import QArith.
From Verif Require Import Base Model_Alloc Model_Temporal Model_Mapping Model_Links Model_Cost Model_Latency Model_Hierarchy Model_Evaluate
  Spec_Temporal Spec_Cost Spec_Latency Spec_Hierarchy Spec_Evaluate Proof_EvalExample.
Local Open Scope Q_scope.

(** A valid request is evaluated, or a division by zero cycles is attempted. *)
Theorem C74_only_division : forall rq fuel,
  valid_request rq -> (passes_bound (rq_temporal rq) <= fuel)%nat ->
  (exists r, evaluation rq fuel = Ok r) \/ evaluation rq fuel = Err ZeroDivisionError.
Proof. exact evaluation_only. Qed.
Print Assumptions C74_only_division.

(** The division is by zero exactly when on-loading and off-loading cycles cancel those of the computation. *)
Theorem C74_division_when : forall rq fuel,
  valid_request rq -> (passes_bound (rq_temporal rq) <= fuel)%nat ->
  exists ci stall on off flags allowed real st, prepare rq fuel = Ok ci /\ transfer_cycles ci flags = Ok (allowed, real) /\
    loading_all ci real stall = Ok st /\ onloading ci st = Ok on /\ offloading ci st = Ok off /\
    let computing := inject_Z (in_total ci) * in_cpo ci + inject_Z stall in
    0 < computing /\
    ((exists r, evaluation rq fuel = Ok r /\ la_total2 (snd r) == computing + on + off) \/
     (evaluation rq fuel = Err ZeroDivisionError /\ (computing + on == 0 \/ computing + on + off == 0))).
Proof. exact evaluation_total. Qed.
Print Assumptions C74_division_when.

(** When every port serves one movement of one operand, evaluation succeeds and the latency covers the loops. *)
Theorem C74_dedicated_ports : forall rq fuel port_counter ms,
  valid_request rq -> sound_hardware rq port_counter ms -> dedicated_ports ms -> (passes_bound (rq_temporal rq) <= fuel)%nat ->
  exists r, evaluation rq fuel = Ok r /\
    forall op tm, dget op (rq_temporal rq) = Some tm -> inject_Z (cycles (concat tm)) * rq_cpo rq <= la_total2 (snd r).
Proof. exact evaluation_dedicated. Qed.
Print Assumptions C74_dedicated_ports.

(** Also when ports that are shared make at most one transfer that happens once. *)
Theorem C74_few_single_transfers : forall rq fuel ci,
  valid_request rq -> (passes_bound (rq_temporal rq) <= fuel)%nat -> prepare rq fuel = Ok ci -> few_single ci ->
  exists r, evaluation rq fuel = Ok r /\
    forall op tm, dget op (rq_temporal rq) = Some tm -> inject_Z (cycles (concat tm)) * rq_cpo rq <= la_total2 (snd r).
Proof. exact evaluation_ok. Qed.
Print Assumptions C74_few_single_transfers.

(** Valid requests on shared ports may divide by zero, *)
Theorem C74_division_refuted : valid_request (chain_request zero_widths) /\ evaluation (chain_request zero_widths) 100 = Err ZeroDivisionError.
Proof. split; [exact (chain_valid zero_widths (or_introl eq_refl))|vm_compute; reflexivity]. Qed.
Print Assumptions C74_division_refuted.

(** or take less than no time. *)
Theorem C74_negative_latency_refuted : exists r,
  valid_request (chain_request negative_widths) /\ evaluation (chain_request negative_widths) 100 = Ok r /\ la_total2 (snd r) < 0.
Proof. eexists. split; [exact (chain_valid negative_widths (or_intror eq_refl))|]. split; vm_compute; reflexivity. Qed.
Print Assumptions C74_negative_latency_refuted.

(** The conditions are needed: fractions of cycles per operation, *)
Theorem C74_whole_cycles_refuted : valid_request (serial_request 1) /\ evaluation (serial_request (5 # 4)) 100 = Err ValueError.
Proof. split; [exact serial_valid|vm_compute; reflexivity]. Qed.
Print Assumptions C74_whole_cycles_refuted.

(** a memory that cannot be read, *)
Theorem C74_unread_refuted : evaluation (ex_request_on unread_accelerator 1) 100 = Err TypeError.
Proof. vm_compute. reflexivity. Qed.
Print Assumptions C74_unread_refuted.

(** outputs that can neither leave nor return, *)
Theorem C74_closed_refuted : evaluation (ex_request_on closed_accelerator 1) 100 = Err ValueError.
Proof. vm_compute. reflexivity. Qed.
Print Assumptions C74_closed_refuted.

(** and a memory for something that the layer does not have. *)
Theorem C74_foreign_refuted : evaluation (ex_request_on foreign_accelerator 1) 100 = Err KeyError.
Proof. vm_compute. reflexivity. Qed.
Print Assumptions C74_foreign_refuted.

Example C74_met : valid_request ex_request /\ sound_hardware ex_request 0 ex_accelerator /\ dedicated_ports ex_accelerator /\
  (passes_bound (rq_temporal ex_request) <= 100)%nat /\ exists r, evaluation ex_request 100 = Ok r /\ la_total2 (snd r) == 28.
Proof.
  split; [exact (ex_valid ex_accelerator (or_introl eq_refl))|]. split; [exact (ex_hardware ex_accelerator (or_introl eq_refl))|]. split; [exact ex_dedicated|].
  split; [now apply Nat.leb_le|]. eexists. split; [vm_compute; reflexivity|]. vm_compute. reflexivity.
Qed.
Example C74_met_shared : valid_request (ex_request_on shared_accelerator 1) /\ exists r, evaluation (ex_request_on shared_accelerator 1) 100 = Ok r.
Proof. split; [exact (ex_valid shared_accelerator (or_intror eq_refl))|]. eexists. vm_compute. reflexivity. Qed.
