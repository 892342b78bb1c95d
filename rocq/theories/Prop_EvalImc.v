(** C77: evaluations on in-memory-computing arrays. *)
From Coq Require Import QArith.
From Verif Require Import Base Model_DataMove Model_Latency Model_Hierarchy Model_Evaluate Model_Imc Model_EvalImc
  Spec_Temporal Spec_Mapping Spec_Evaluate Spec_EvalEnergy Spec_Imc Spec_EvalImc Proof_EvalExample Proof_EvalEnergyExample Proof_EvalImc.
Local Open Scope Q_scope.

(** A valid request whose cell groups hold one weight is evaluated, or a division by zero cycles is attempted. *)
Theorem C77_only_division : forall iq w fuel tree_fuel,
  valid_request (iq_request iq) -> (passes_bound (rq_temporal (iq_request iq)) <= fuel)%nat ->
  valid (iq_array iq) -> im_analog (iq_array iq) = true \/ (2 <= im_bitline (iq_array iq))%Z -> plain_mapping iq w ->
  (Z.to_nat (Z.log2 (im_bitline (iq_array iq))) < tree_fuel)%nat -> (im_cells (iq_array iq) <= im_weight (iq_array iq))%Z ->
  (exists r, imc_evaluation iq fuel tree_fuel = Ok r) \/ imc_evaluation iq fuel tree_fuel = Err ZeroDivisionError.
Proof. exact evaluated_only. Qed.
Print Assumptions C77_only_division.

(** With ports that serve one movement it succeeds, and the latency covers all loops at the cycles that
    the serial activations take. *)
Theorem C77_dedicated_ports : forall iq w fuel tree_fuel,
  valid_request (iq_request iq) -> (passes_bound (rq_temporal (iq_request iq)) <= fuel)%nat ->
  valid (iq_array iq) -> im_analog (iq_array iq) = true \/ (2 <= im_bitline (iq_array iq))%Z -> plain_mapping iq w ->
  (Z.to_nat (Z.log2 (im_bitline (iq_array iq))) < tree_fuel)%nat -> (im_cells (iq_array iq) <= im_weight (iq_array iq))%Z ->
  forall port_counter ms, sound_hardware (iq_request iq) port_counter ms -> dedicated_ports ms ->
  exists r, imc_evaluation iq fuel tree_fuel = Ok r /\
    forall op tm, dget op (rq_temporal (iq_request iq)) = Some tm -> inject_Z (cycles (concat tm)) * serial_cycles (iq_array iq) <= la_total2 (ir_latency r).
Proof. exact evaluated_dedicated. Qed.
Print Assumptions C77_dedicated_ports.

(** Latency and memory energy are those of a digital array with as many units and the same cycles per
    operation, whatever its operations cost. *)
Theorem C77_as_digital : forall iq w fuel tree_fuel,
  valid_request (iq_request iq) -> (passes_bound (rq_temporal (iq_request iq)) <= fuel)%nat ->
  valid (iq_array iq) -> im_analog (iq_array iq) = true \/ (2 <= im_bitline (iq_array iq))%Z -> plain_mapping iq w ->
  (Z.to_nat (Z.log2 (im_bitline (iq_array iq))) < tree_fuel)%nat -> (im_cells (iq_array iq) <= im_weight (iq_array iq))%Z ->
  forall c, let d := digital (iq_request iq) (units_of (iq_array iq)) c (serial_cycles (iq_array iq)) in
  (forall e la, evaluation d fuel = Ok (e, la) -> exists r, imc_evaluation iq fuel tree_fuel = Ok r /\ ir_latency r = la /\
     e == ir_memory_energy r + c * inject_Z (rq_macs (iq_request iq))) /\
  (forall r, imc_evaluation iq fuel tree_fuel = Ok r -> exists e, evaluation d fuel = Ok (e, ir_latency r) /\
     e == ir_memory_energy r + c * inject_Z (rq_macs (iq_request iq))).
Proof. exact evaluated_as_digital. Qed.
Print Assumptions C77_as_digital.

(** The energy is that of the array and of the accesses that the loops make (C75); the array spends no
    more than its peak energy in every cycle of every activation, and that much if all of it is used. *)
Theorem C77_energy : forall iq w fuel tree_fuel,
  valid_request (iq_request iq) -> (passes_bound (rq_temporal (iq_request iq)) <= fuel)%nat ->
  valid (iq_array iq) -> im_analog (iq_array iq) = true \/ (2 <= im_bitline (iq_array iq))%Z -> plain_mapping iq w ->
  (Z.to_nat (Z.log2 (im_bitline (iq_array iq))) < tree_fuel)%nat -> (im_cells (iq_array iq) <= im_weight (iq_array iq))%Z ->
  forall port_counter ms r, sound_hardware (iq_request iq) port_counter ms -> whole_request (iq_request iq) -> (1 <= rq_size_out (iq_request iq))%Z ->
  imc_evaluation iq fuel tree_fuel = Ok r ->
  (exists n : string -> nat -> direction -> Z,
    ir_energy r == ir_array_energy r + qsum (map (fun op => spent_in (memories_for ms (stored_as (iq_request iq) op)) (n op)) (rq_ops (iq_request iq))) /\
    forall op, In op (rq_ops (iq_request iq)) -> right_accesses (iq_request iq) ms op (stored_as (iq_request iq) op) (n op)) /\
  ir_array_energy r = total (ir_array_parts r) /\
  forall pk, peak_energy (iq_array iq) = Ok pk -> let uses := serial_cycles (iq_array iq) * activations iq in
    (within_array iq -> ir_array_energy r * inject_Z (im_banks (iq_array iq)) <= total pk * uses) /\
    (fills_array iq -> ir_array_energy r * inject_Z (im_banks (iq_array iq)) == total pk * uses).
Proof. exact evaluated_energy. Qed.
Print Assumptions C77_energy.

(** Clock period and area are those of the array, and one instance of every memory. *)
Theorem C77_figures : forall iq w fuel tree_fuel,
  valid_request (iq_request iq) -> (passes_bound (rq_temporal (iq_request iq)) <= fuel)%nat ->
  valid (iq_array iq) -> im_analog (iq_array iq) = true \/ (2 <= im_bitline (iq_array iq))%Z -> plain_mapping iq w ->
  (Z.to_nat (Z.log2 (im_bitline (iq_array iq))) < tree_fuel)%nat -> (im_cells (iq_array iq) <= im_weight (iq_array iq))%Z ->
  forall r, imc_evaluation iq fuel tree_fuel = Ok r ->
  exists perf, construct (iq_array iq) = Ok (ir_array_area_parts r, ir_tclk_parts r, perf) /\
    ir_tclk r = total (ir_tclk_parts r) /\ 0 < ir_tclk r /\ ir_array_area r = total (ir_array_area_parts r) /\
    ir_area r == ir_array_area r + qsum (map ma_area (iq_mems iq)).
Proof. exact evaluated_figures. Qed.
Print Assumptions C77_figures.

(** No layer is evaluated on an array whose cell groups hold more than one weight. *)
Theorem C77_several_weights_refuted : forall iq w fuel tree_fuel,
  valid_request (iq_request iq) -> (passes_bound (rq_temporal (iq_request iq)) <= fuel)%nat ->
  valid (iq_array iq) -> im_analog (iq_array iq) = true \/ (2 <= im_bitline (iq_array iq))%Z -> plain_mapping iq w ->
  (Z.to_nat (Z.log2 (im_bitline (iq_array iq))) < tree_fuel)%nat ->
  forall levels, (im_weight (iq_array iq) < im_cells (iq_array iq))%Z -> dget w (rq_temporal (iq_request iq)) = Some levels -> levels <> [] ->
  imc_evaluation iq fuel tree_fuel = Err AttributeError.
Proof. exact several_weights. Qed.
Print Assumptions C77_several_weights_refuted.

Example C77_met : valid_request (iq_request (ex_imc 8)) /\ (passes_bound (rq_temporal (iq_request (ex_imc 8))) <= 100)%nat /\ valid (iq_array (ex_imc 8)) /\
  plain_mapping (ex_imc 8) "W" /\ (Z.to_nat (Z.log2 (im_bitline (iq_array (ex_imc 8)))) < 10)%nat /\ within_array (ex_imc 8) /\
  sound_hardware ex_request 0 ex_accelerator /\ dedicated_ports ex_accelerator /\ whole_request ex_request /\
  exists r, imc_evaluation (ex_imc 8) 100 10 = Ok r /\ la_total2 (ir_latency r) == 100 /\ ~ ir_array_energy r == 0.
Proof.
  split; [exact (ex_valid ex_accelerator (or_introl eq_refl))|]. split; [now apply Nat.leb_le|]. split; [exact (ex_array_valid 8)|]. split; [exact (ex_plain 8)|]. split; [now apply Nat.ltb_lt|].
  split; [split; vm_compute; discriminate|]. split; [exact (ex_hardware ex_accelerator (or_introl eq_refl))|]. split; [exact ex_dedicated|]. split; [exact (ex_whole ex_accelerator)|].
  eexists. split; [vm_compute; reflexivity|]. split; [vm_compute; reflexivity|vm_compute; discriminate].
Qed.
Example C77_several_met : imc_evaluation (ex_imc 16) 100 10 = Err AttributeError.
Proof. vm_compute. reflexivity. Qed.
