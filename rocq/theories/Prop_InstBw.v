(** C79: the bandwidth that an evaluation reports for a memory. *)
From Coq Require Import QArith.
From Verif Require Import Base Model_DataMove Model_Hierarchy Model_Latency Model_Evaluate Model_InstBw
  Spec_Temporal Spec_Evaluate Spec_EvalEnergy Spec_EvalTime Spec_InstBw
  Proof_InstBw Proof_EvalExample Proof_EvalEnergyExample Proof_EvalTimeExample Proof_InstBwExample.

(** On an accelerator whose ports make one movement each: what is reported for an operand in a
    direction is what its transfer asks for; what moves during the computation is added, in one
    direction.  What is reported for all operands is the sum. *)
Theorem C79_reported : forall rq fuel port_counter ms z,
  valid_request rq -> sound_hardware rq port_counter ms -> (passes_bound (rq_temporal rq) <= fuel)%nat ->
  whole_time_loops rq -> (1 <= rq_size_out rq)%Z -> dedicated_ports ms -> (rq_cpo rq == inject_Z z)%Q -> whole_request rq -> NoDup (rq_inputs rq) ->
  forall energy la, evaluation rq fuel = Ok (energy, la) ->
  exists tm tr first double borrowed, timing rq ms z tm tr first double la /\ right_buffers rq ms tm double /\
    right_borrowed rq z (la_stall la) tm tr first borrowed /\
    (forall i m op lv scaling, nth_error ms i = Some m -> resident rq ms i (op, lv) ->
      exists f, reported_bandwidth rq fuel i (stored_as rq op) scaling = Ok f /\ right_bandwidth rq z tm tr borrowed scaling m op lv f) /\
    (forall i m scaling, nth_error ms i = Some m ->
      exists fs f, Forall2 (fun mem_op g => reported_bandwidth rq fuel i mem_op scaling = Ok g) (ms_operands m) fs /\
        reported_total rq fuel i scaling = Ok f /\ forall k, dget k f = Some (zsum (map (said k) fs))) /\
    (* when periods divide what moves in them, ports as wide as what is reported keep the array from waiting *)
    ((forall op lv k, is_transfer rq tm (op, lv, k) ->
        (tr_period (tr op lv k) | tr_bits (tr op lv k))%Z /\ (tr_count (tr op lv k) = 1%Z -> (first op <= tr_bits (tr op lv k))%Z) /\
        forall i f, resident rq ms i (op, lv) -> reported_bandwidth rq fuel i (stored_as rq op) 1 = Ok f -> (said k f <= tr_width (tr op lv k))%Z) ->
     la_stall la = 0%Z).
Proof. exact bandwidth_right. Qed.
Print Assumptions C79_reported.

(** Without that condition they do not: bits per operation are rounded down. *)
Theorem C79_enough_refuted : valid_request odd_request /\ sound_hardware odd_request 0 odd_accelerator /\ dedicated_ports odd_accelerator /\
  wide_enough odd_request 100 odd_accelerator = true /\
  exists energy la, evaluation odd_request 100 = Ok (energy, la) /\ la_stall la = 7%Z.
Proof.
  split; [exact odd_valid|]. split; [exact odd_hardware|]. split; [exact odd_dedicated|]. split; [vm_compute; reflexivity|].
  do 2 eexists. split; vm_compute; reflexivity.
Qed.
Print Assumptions C79_enough_refuted.

(** A reported bandwidth can be negative, and in a direction in which nothing moves. *)
Theorem C79_negative_refuted : valid_request rounded_request /\ sound_hardware rounded_request 0 rounded_accelerator /\ dedicated_ports rounded_accelerator /\
  nth_error rounded_accelerator 4 = Some ex_external /\
  exists f, reported_total rounded_request 100 4 1 = Ok f /\ dget WrHigh f = Some (-1)%Z.
Proof.
  split; [exact rounded_valid|]. split; [exact rounded_hardware|]. split; [exact rounded_dedicated|]. split; [reflexivity|].
  eexists. split; vm_compute; reflexivity.
Qed.
Print Assumptions C79_negative_refuted.

Example C79_met : valid_request narrow_request /\ sound_hardware narrow_request 0 narrow_accelerator /\
  (passes_bound (rq_temporal narrow_request) <= 100)%nat /\ whole_time_loops narrow_request /\ (1 <= rq_size_out narrow_request)%Z /\
  dedicated_ports narrow_accelerator /\ (rq_cpo narrow_request == inject_Z 1)%Q /\ whole_request narrow_request /\ NoDup (rq_inputs narrow_request) /\
  (exists energy la, evaluation narrow_request 100 = Ok (energy, la)) /\
  exists f, reported_total narrow_request 100 3 1 = Ok f /\ forall k, dget k f <> None.
Proof.
  split; [exact narrow_valid|]. split; [exact narrow_hardware|]. split; [now apply Nat.leb_le|]. split; [exact narrow_times|].
  split; [discriminate|]. split; [exact narrow_dedicated|]. split; [reflexivity|]. split; [exact (ex_whole narrow_accelerator)|]. split; [exact narrow_inputs|].
  split; [do 2 eexists; vm_compute; reflexivity|]. eexists. split; [vm_compute; reflexivity|]. intros k. destruct k; vm_compute; discriminate.
Qed.
