(** C88: saved files say what was evaluated. *)
From Coq Require Import QArith.
From Verif Require Import Base Model_DataMove Model_Cost Model_Cme Model_Json Spec_DataMove Spec_Cme Spec_Json Proof_Json Proof_JsonExample Proof_CostExample.
Local Open Scope string_scope.

(** Whatever stands for JSON is saved as it, whether it is met by the encoder or converted first. *)
Theorem C88_values_partial : forall simple i v j, stands simple i v j ->
  (i = false -> exists n, forall fuel, (n <= fuel)%nat -> dump fuel simple v = Ok j) /\
  (i = true -> exists w, handler simple v = Ok w /\ (exists n, forall fuel, (n <= fuel)%nat -> dump fuel simple w = Ok j) /\ stands simple false w j).
Proof. exact stands_saves. Qed.
Print Assumptions C88_values_partial.

(** Nothing else is saved: exactly what stands for JSON can be, whatever the fuel. *)
Theorem C88_exactly_partial : forall simple v j, tidy v -> ((exists fuel, dump fuel simple v = Ok j) <-> stands simple false v j).
Proof. exact exactly_saved. Qed.
Print Assumptions C88_exactly_partial.

(** The complete file of an evaluation: its numbers and its inputs. *)
Theorem C88_complete_partial : forall e utilization accelerator layer spatial temporal ju ja jl js jt, well_formed e -> ev_utils e <> None ->
  stands false true utilization ju -> stands false true accelerator ja -> stands false true layer jl -> stands false true spatial js -> stands false true temporal jt ->
  exists n j, (forall fuel, (n <= fuel)%nat -> save_complete fuel e utilization accelerator layer spatial temporal = Ok j) /\ file_about e j /\
    under ["outputs"; "memory"; "utilization"] j = Some ju /\
    under ["inputs"] j = Some (JObject [("accelerator", ja); ("layer", jl); ("spatial_mapping", js); ("temporal_mapping", jt)]).
Proof. exact complete_file. Qed.
Print Assumptions C88_complete_partial.

(** On an in-memory-computing array: also the parts of energy, time, clock and area. *)
Theorem C88_complete_imc_partial : forall e m utilization accelerator layer spatial temporal ju ja jl js jt, well_formed e -> ev_utils e <> None ->
  NoDup (keys (im_energy_parts m)) -> NoDup (keys (im_clock_parts m)) -> NoDup (keys (im_imc_parts m)) -> NoDup (keys (im_mem_parts m)) ->
  stands false true utilization ju -> stands false true accelerator ja -> stands false true layer jl -> stands false true spatial js -> stands false true temporal jt ->
  exists n j, (forall fuel, (n <= fuel)%nat -> save_complete_imc fuel e m utilization accelerator layer spatial temporal = Ok j) /\ file_about e j /\ imc_file_about e m j /\
    under ["outputs"; "memory"; "utilization"] j = Some ju /\
    under ["inputs"] j = Some (JObject [("accelerator", ja); ("layer", jl); ("spatial_mapping", js); ("temporal_mapping", jt)]).
Proof. exact complete_file_imc. Qed.
Print Assumptions C88_complete_imc_partial.

(** The loops of mappings are saved per operand and level, in order. *)
Theorem C88_loops : forall A (show : A -> string) (d : dict string (list (list A))), NoDup (keys d) ->
  exists v j, loops_value show d = Ok v /\ (forall i, stands false i v j) /\
    j = JObject (map (fun x => (fst x, JList (map (fun level => JList (map (fun loop => JText (show loop)) level)) (snd x)))) d).
Proof. exact @loops_file. Qed.
Print Assumptions C88_loops.

(** The simple file: the energy and the latency of the complete one *)
Theorem C88_simple : forall e fuel, (3 <= fuel)%nat -> save_simple fuel e = Ok (JObject [("energy", JNumber (ev_energy e)); ("latency", JNumber (ev_l2 e))]).
Proof. exact simple_file. Qed.
Print Assumptions C88_simple.

Theorem C88_simple_imc : forall e m fuel, (3 <= fuel)%nat ->
  save_simple_imc fuel e m = Ok (JObject [("energy", JNumber (ev_energy e)); ("latency", JNumber (ev_l2 e)); ("tclk (ns)", JNumber (im_clock m)); ("area", JNumber (im_area m))]).
Proof. exact simple_file_imc. Qed.
Print Assumptions C88_simple_imc.

(** What the cost model gives can be saved. *)
Theorem C88_layers_partial : forall utilization accelerator layer spatial temporal ju ja jl js jt,
  stands false true utilization ju -> stands false true accelerator ja -> stands false true layer jl -> stands false true spatial js -> stands false true temporal jt ->
  forall ci i name e, NoDup (in_ops ci) -> cme_of ci i name = Ok e ->
  exists n j, (forall fuel, (n <= fuel)%nat -> save_complete fuel e utilization accelerator layer spatial temporal = Ok j) /\ file_about e j.
Proof. exact layer_saved. Qed.
Print Assumptions C88_layers_partial.

(** So can the sum of one or more layers. *)
Theorem C88_sums_partial : forall utilization accelerator layer spatial temporal ju ja jl js jt,
  stands false true utilization ju -> stands false true accelerator ja -> stands false true layer jl -> stands false true spatial js -> stands false true temporal jt ->
  forall X order (l : list (eval * X)) t all, (forall l, Permutation (order l) l) -> (forall e x, In (e, x) l -> well_formed e) -> l <> [] ->
  sum_stage order l = Ok (t, all) ->
  exists n j, (forall fuel, (n <= fuel)%nat -> save_complete fuel t utilization accelerator layer spatial temporal = Ok j) /\ file_about t j.
Proof. exact sum_saved. Qed.
Print Assumptions C88_sums_partial.

(** The sum of no layers cannot be saved in full, although it is summed and has a simple file. *)
Theorem C88_nothing_refuted : forall order,
  sum_stage (X := unit) order [] = Ok (empty_cme, []) /\ save_simple 3 empty_cme = Ok (JObject [("energy", JNumber 0); ("latency", JNumber 0)]) /\
  forall fuel utilization accelerator layer spatial temporal, save_complete fuel empty_cme utilization accelerator layer spatial temporal = Err AttributeError.
Proof. intros order. repeat split; reflexivity. Qed.
Print Assumptions C88_nothing_refuted.

(** An operand and a text of the same name are one key in the file: only the last value is kept. *)
Theorem C88_same_text_refuted : exists d d', NoDup (map fst d) /\ length d = 2%nat /\
  (forall fuel, (4 <= fuel)%nat -> dump fuel false (VSet [VDict d]) = Ok (JList [JObject d'])) /\ length d' = 1%nat.
Proof. exact same_text. Qed.
Print Assumptions C88_same_text_refuted.

(** Operands as keys are converted only where the handler goes: what an object's own method returns is not looked into. *)
Theorem C88_names_refuted : exists v j, stands false true v j /\ (forall fuel, (2 <= fuel)%nat -> dump fuel false v = Err TypeError) /\
  forall fuel, (3 <= fuel)%nat -> dump fuel false (VObject (Some v) None) = Err TypeError.
Proof. exact names_left. Qed.
Print Assumptions C88_names_refuted.

(** * The hypotheses are met *)

Example C88_met : exists e, NoDup (in_ops shared_ci) /\ cme_of shared_ci 0 "acc" = Ok e /\ exists utilization layer spatial temporal ju jl js jt,
  tidy utilization /\ tidy layer /\ tidy temporal /\ stands false true utilization ju /\ stands false true layer jl /\ stands false true spatial js /\ stands false true temporal jt /\
  exists j, save_complete 20 e utilization (VText "acc") layer spatial temporal = Ok j /\ under ["outputs"; "energy"; "energy_total"] j = Some (JNumber (ev_energy e)) /\
    under ["inputs"; "temporal_mapping"; "W"] j = Some (JList [JList [JText "(C, 4)"]; JList []]) /\ under ["inputs"; "layer"; "loop_dimensions"; "K"] j = Some (JInt 32) /\
    under ["outputs"; "memory"; "utilization"; "O"] j = Some (JList [JNumber (1 # 2)]).
Proof. exact saved_layer. Qed.

Example C88_met_imc : exists e j, cme_of shared_ci 0 "acc" = Ok e /\ well_formed e /\ ev_utils e <> None /\ NoDup (keys (im_energy_parts the_numbers)) /\
  save_complete_imc 20 e the_numbers VNone (VText "acc") (VText "layer") VNone VNone = Ok j /\ imc_file_about e the_numbers j.
Proof. exact saved_imc. Qed.
