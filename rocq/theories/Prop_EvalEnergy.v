(** C75: what the energy of an evaluation is made up of. *)
From Coq Require Import QArith.
From Verif Require Import Base Model_DataMove Model_Hierarchy Model_Evaluate Spec_Temporal Spec_Mapping Spec_Evaluate Spec_EvalEnergy
  Proof_EvalEnergy Proof_EvalExample Proof_EvalEnergyExample.
Local Open Scope Q_scope.

(** The energy is that of the operations and of the accesses of every memory that holds an operand,
    and the accesses are those of the loops around it. *)
Theorem C75_energy : forall rq fuel port_counter ms,
  valid_request rq -> sound_hardware rq port_counter ms -> (passes_bound (rq_temporal rq) <= fuel)%nat ->
  whole_request rq -> (1 <= rq_size_out rq)%Z ->
  forall energy latency, evaluation rq fuel = Ok (energy, latency) ->
  exists n : string -> nat -> direction -> Z,
    energy == rq_mac_cost rq * inject_Z (rq_macs rq) + qsum (map (fun op => spent_in (memories_for ms (stored_as rq op)) (n op)) (rq_ops rq)) /\
    forall op, In op (rq_ops rq) -> right_accesses rq ms op (stored_as rq op) (n op).
Proof. exact energy_accounted. Qed.
Print Assumptions C75_energy.

Example C75_met : valid_request ex_request /\ sound_hardware ex_request 0 ex_accelerator /\
  (passes_bound (rq_temporal ex_request) <= 100)%nat /\ whole_request ex_request /\ (1 <= rq_size_out ex_request)%Z /\
  (forall op su lv, dget op (rq_spatial ex_request) = Some su -> no_overlap (rq_layer ex_request) (rq_pr ex_request) op su lv) /\
  exists energy latency, evaluation ex_request 100 = Ok (energy, latency) /\ energy == 14568 # 10.
Proof.
  split; [exact (ex_valid ex_accelerator (or_introl eq_refl))|]. split; [exact (ex_hardware ex_accelerator (or_introl eq_refl))|].
  split; [now apply Nat.leb_le|]. split; [exact (ex_whole ex_accelerator)|]. split; [discriminate|]. split; [exact ex_apart|].
  do 2 eexists. split; [vm_compute; reflexivity|]. vm_compute. reflexivity.
Qed.
