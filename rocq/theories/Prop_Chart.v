(** C82: breakdown charts. *)
From Coq Require Import QArith.
From Verif Require Import Base Model_DataMove Model_Cost Model_Hierarchy Model_Evaluate Model_Cme Model_Chart Spec_Chart Proof_Chart Proof_ChartEval Proof_ChartExample.
Local Open Scope string_scope.
Local Open Scope list_scope.

(** The chart of evaluations on one accelerator whose memories are all different can be drawn, every
    part of a bar is the energy of an operand in a memory and a direction, and the totals printed are
    the energies and latencies of the evaluations. *)
Theorem C82_evaluations : forall label set_order number c0 cs,
  let h := pd_hierarchy c0 in
  (forall l, Permutation (set_order l) l) -> h_list h <> [] ->
  NoDup (map lv_id (h_list h)) -> NoDup (map label (h_list h)) ->
  (forall c, In c (c0 :: cs) -> evaluated_on h c) ->
  exists ch, bar_plot label set_order number (c0 :: cs) = Ok ch /\ right_chart h (c0 :: cs) ch /\
    Forall2 (fun c t => (t == ev_energy (pd_eval c))%Q) (c0 :: cs) (ch_totals ch).
Proof. exact charted. Qed.
Print Assumptions C82_evaluations.

(** So can that of any evaluations whose breakdowns have no more levels than the first accelerator
    has memories, such as evaluations that were added up or multiplied before. *)
Theorem C82_breakdowns : forall label set_order number c0 cs,
  let h := pd_hierarchy c0 in
  (forall l, Permutation (set_order l) l) -> h_list h <> [] ->
  NoDup (map lv_id (h_list h)) -> NoDup (map label (h_list h)) ->
  (forall c, In c (c0 :: cs) -> single c /\ drawable h c) -> (exists c, In c (c0 :: cs) /\ pd_ops c <> []) ->
  exists ch, bar_plot label set_order number (c0 :: cs) = Ok ch /\ right_chart h (c0 :: cs) ch.
Proof. exact drawn. Qed.
Print Assumptions C82_breakdowns.

(** Evaluations of more than one layer are left out. *)
Theorem C82_sums : forall label set_order number cs c cs', ~ single c ->
  bar_plot label set_order number (cs ++ c :: cs') = bar_plot label set_order number (cs ++ cs').
Proof. exact sums_left_out. Qed.
Print Assumptions C82_sums.

(** The name under a bar is the layer's name from the last but one slash on. *)
Theorem C82_names : forall name, shortened name (shorten_onnx_layer_name name).
Proof. exact shortened_ok. Qed.
Print Assumptions C82_names.

(** When two levels are made of one memory with the same attributes, what is spent in either is drawn
    for both: the total printed is more than the energy of the evaluation. *)
Theorem C82_same_memory_refuted : exists label c ch, evaluated_on (pd_hierarchy c) c /\
  bar_plot label as_is no_number [c] = Ok ch /\
  exists t, ch_totals ch = [t] /\ (ev_energy (pd_eval c) == 14568 # 10)%Q /\ (t == 15168 # 10)%Q.
Proof.
  exists registers_same, ex_plotted. eexists. split; [exact ex_evaluated|]. split; [vm_compute; reflexivity|].
  eexists. split; [vm_compute; reflexivity|]. split; vm_compute; reflexivity.
Qed.
Print Assumptions C82_same_memory_refuted.

(** Evaluations on accelerators that differ cannot be drawn when a later one has more memories. *)
Theorem C82_more_memories_refuted : exists c c', evaluated_on (pd_hierarchy c) c /\ evaluated_on (pd_hierarchy c') c' /\
  bar_plot all_differ as_is no_number [c; c'] = Err IndexError.
Proof. exists ex_plotted, deep_plotted. split; [exact ex_evaluated|]. split; [exact deep_evaluated|]. vm_compute. reflexivity. Qed.
Print Assumptions C82_more_memories_refuted.

(** When it has fewer, what it spends in its outermost memory, which is 20 times as expensive, is
    drawn for a buffer of the first one; and a section of the latency may be negative (C25). *)
Theorem C82_fewer_memories_refuted : exists c c' ch, evaluated_on (pd_hierarchy c) c /\ evaluated_on (pd_hierarchy c') c' /\
  bar_plot all_differ as_is no_number [c; c'] = Ok ch /\
  map (fun l => ml_operands (lv_mem l)) (ch_mems ch) = [["I1"]; ["I2"]; ["O"]; ["I1"; "I2"]; ["I1"; "I2"]; ["I1"; "I2"; "O"]] /\
  (exists bar, nth_error (concat (skipn 1 (ch_energy ch))) 4 = Some bar /\ nth_error bar 0 = Some [120; 0; 0; 0]%Q) /\
  (exists bar, nth_error (concat (skipn 1 (ch_energy ch))) 6 = Some bar /\ nth_error bar 0 = Some [0; 0; 0; 0]%Q) /\
  (exists row x, nth_error (ch_latency ch) 0 = Some row /\ nth_error row 3 = Some x /\ (x < 0)%Q).
Proof.
  exists deep_plotted, ex_plotted. eexists. split; [exact deep_evaluated|]. split; [exact ex_evaluated|]. split; [vm_compute; reflexivity|].
  split; [vm_compute; reflexivity|]. split; [eexists; split; vm_compute; reflexivity|]. split; [eexists; split; vm_compute; reflexivity|].
  do 2 eexists. split; [vm_compute; reflexivity|]. split; vm_compute; reflexivity.
Qed.
Print Assumptions C82_fewer_memories_refuted.

Example C82_met : h_list (pd_hierarchy ex_plotted) <> [] /\ NoDup (map lv_id (h_list (pd_hierarchy ex_plotted))) /\
  NoDup (map all_differ (h_list (pd_hierarchy ex_plotted))) /\ evaluated_on (pd_hierarchy ex_plotted) ex_plotted /\
  (ev_energy (pd_eval ex_plotted) == 14568 # 10)%Q /\ shorten_onnx_layer_name (pd_name ex_plotted) = "conv2/Conv".
Proof.
  split; [vm_compute; discriminate|]. split; [exact (proj1 ids_differ)|]. split; [exact (proj1 labels_differ)|]. split; [exact ex_evaluated|].
  split; vm_compute; reflexivity.
Qed.
