(** C81: the utilisation of the memories that an evaluation reports. *)
From Coq Require Import QArith.
From Verif Require Import Base Model_Alloc Model_Loma Model_Mapping Model_Cost Model_Latency Model_Hierarchy Model_Evaluate Model_Search
  Spec_Loma Spec_Temporal Spec_Latency Spec_Evaluate Spec_EvalEnergy Spec_EvalTime Spec_Search Spec_Util
  Proof_LomaFactors Proof_EvalExample Proof_SearchExample Proof_Util Proof_UtilExample.
Local Open Scope string_scope.
Local Open Scope list_scope.
Local Open Scope Z_scope.

(** For any mapping that suits the request: the bits that the loops make the memories keep, and those in
    use at a time, divided by the sizes; operands in the same memory are added up. *)
Theorem C81_reported : forall rq fuel port_counter ms, valid_request rq -> sound_hardware rq port_counter ms ->
  (passes_bound (rq_temporal rq) <= fuel)%nat -> whole_request rq -> 1 <= rq_size_out rq ->
  exists ci ind sh ind' sh' loops, prepare rq fuel = Ok ci /\ individual ci od_bit_unrolled = Ok ind /\ Model_Cost.shared ci ind = Ok sh /\
    individual ci od_effective_bit = Ok ind' /\ Model_Cost.shared ci ind' = Ok sh' /\ reported rq ms ind sh ind' sh' loops /\
    forall op lv, In op (rq_ops rq) -> (lv < length (loops op))%nat -> exists i m, nth_error ms i = Some m /\ resident rq ms i (op, lv).
Proof. exact reports. Qed.
Print Assumptions C81_reported.

(** For the mappings that the search finds it is at most 1, *)
Theorem C81_found_fits : forall rq sizes port_counter ms factorint lim mt,
  searchable rq sizes port_counter ms -> whole_unrollings rq -> 1 <= rq_size_out rq -> final_smaller rq ->
  factorint_ok factorint -> (forall l, lim = Some l -> 1 <= l) ->
  exists enough, forall fuel, (enough <= fuel)%nat -> exists found e, loma_mappings rq factorint lim sizes mt fuel = Ok (found, e) /\
    forall tm fuel', In tm found -> (passes_bound tm <= fuel')%nat ->
      exists ci ind sh ind' sh' loops, prepare (with_temporal rq tm) fuel' = Ok ci /\ individual ci od_bit_unrolled = Ok ind /\ Model_Cost.shared ci ind = Ok sh /\
        individual ci od_effective_bit = Ok ind' /\ Model_Cost.shared ci ind' = Ok sh' /\ reported (with_temporal rq tm) ms ind sh ind' sh' loops /\
        within_size (with_temporal rq tm) loops ind sh /\ within_size (with_temporal rq tm) loops ind' sh'.
Proof. exact found_within. Qed.
Print Assumptions C81_found_fits.

(** unless final outputs take more bits than partial sums: then a memory may be reported as three times full. *)
Theorem C81_wide_outputs_refuted : searchable wide_request ex_sizes 0 ex_accelerator /\ whole_unrollings wide_request /\ 1 <= rq_size_out wide_request /\
  exists found tm ind sh, loma_mappings wide_request factorint_td None ex_sizes UNEVEN 100 = Ok (found, None) /\ In tm found /\
    utilisations wide_request tm = Ok (ind, sh) /\ (util sh ("O", 0%nat) == 3)%Q.
Proof.
  split; [exact wide_searchable|]. split; [exact wide_unrollings|]. split; [discriminate|]. eexists _, _, _, _. split; [vm_compute; reflexivity|]. split; [left; reflexivity|].
  split; vm_compute; reflexivity.
Qed.
Print Assumptions C81_wide_outputs_refuted.

(** A full register, and an external memory of which the operands take 7/128 together *)
Example C81_met : searchable ex_request ex_sizes 0 ex_accelerator /\ whole_unrollings ex_request /\ 1 <= rq_size_out ex_request /\ final_smaller ex_request /\ factorint_ok factorint_td /\
  exists found tm ind sh, loma_mappings ex_request factorint_td None ex_sizes UNEVEN 100 = Ok (found, None) /\ In tm found /\
    utilisations ex_request tm = Ok (ind, sh) /\ (util ind ("I", 0%nat) == 1)%Q /\ (util ind ("I", 1%nat) == 3 # 128)%Q /\ (util sh ("I", 1%nat) == 7 # 128)%Q.
Proof.
  split; [exact ex_searchable|]. split; [exact ex_unrollings|]. split; [discriminate|]. split; [exact ex_final|]. split; [exact factorint_td_ok|].
  eexists _, _, _, _. split; [vm_compute; reflexivity|]. split; [right; left; reflexivity|]. split; [vm_compute; reflexivity|]. split; [|split]; vm_compute; reflexivity.
Qed.
