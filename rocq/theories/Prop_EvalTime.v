(** C78: what the time of an evaluation is made up of. *)
From Coq Require Import QArith.
From Verif Require Import Base Model_Hierarchy Model_Latency Model_Evaluate Spec_Temporal Spec_Evaluate Spec_EvalEnergy Spec_EvalTime
  Proof_EvalTime Proof_EvalExample Proof_EvalEnergyExample Proof_EvalTimeExample.
Local Open Scope Q_scope.

(** On an accelerator whose ports make one movement each, the array waits for the transfer that is
    late the most; loading goes level by level over the slower of both ends; what may be late follows
    from the loops, the widths of the ports and the second buffers that fit. *)
Theorem C78_times : forall rq fuel port_counter ms z,
  valid_request rq -> sound_hardware rq port_counter ms -> (passes_bound (rq_temporal rq) <= fuel)%nat ->
  whole_request rq -> whole_time_loops rq -> (1 <= rq_size_out rq)%Z -> dedicated_ports ms -> NoDup (rq_inputs rq) -> rq_cpo rq == inject_Z z ->
  forall energy la, evaluation rq fuel = Ok (energy, la) ->
  exists tm tr first double, timing rq ms z tm tr first double la /\ right_buffers rq ms tm double.
Proof. exact times_right. Qed.
Print Assumptions C78_times.

Example C78_met : valid_request narrow_request /\ sound_hardware narrow_request 0 narrow_accelerator /\
  (passes_bound (rq_temporal narrow_request) <= 100)%nat /\ whole_request narrow_request /\ whole_time_loops narrow_request /\
  (1 <= rq_size_out narrow_request)%Z /\ dedicated_ports narrow_accelerator /\ NoDup (rq_inputs narrow_request) /\ rq_cpo narrow_request == inject_Z 1 /\
  exists energy la, evaluation narrow_request 100 = Ok (energy, la) /\ la_stall la = 36%Z /\ la_on la == 48 /\ la_off la == 1 /\ la_total2 la == 24 + 36 + 48 + 1.
Proof.
  split; [exact narrow_valid|]. split; [exact narrow_hardware|]. split; [now apply Nat.leb_le|]. split; [exact (ex_whole narrow_accelerator)|]. split; [exact narrow_times|].
  split; [discriminate|]. split; [exact narrow_dedicated|]. split; [exact narrow_inputs|]. split; [reflexivity|].
  do 2 eexists. split; [vm_compute; reflexivity|]. now vm_compute.
Qed.
