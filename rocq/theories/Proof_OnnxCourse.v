(** Runs of ONNX models (C85). *)
From Coq Require Import QArith Lia.
From Verif Require Import Base Model_Text Model_DataMove Model_Alloc Model_Loma Model_Links Model_Cost Model_Latency Model_Graph Model_Hierarchy Model_Layer Model_MapFile Model_WorkFile
  Model_Cacti Model_AccelFile Model_SpatialMap Model_Generation Model_Convert Model_Evaluate Model_TemporalStage Model_Search Model_Cme Model_Workload Model_Onnx Model_Pipeline Model_Run Model_OnnxRun
  Spec_Layer Spec_MapFile Spec_Graph Spec_Workload Spec_WorkFile Spec_AccelFile Spec_Hierarchy Spec_Temporal Spec_SpatialMap Spec_Convert Spec_Evaluate Spec_Loma Spec_Cme Spec_Search Spec_Pipeline Spec_Latency Spec_Onnx Spec_Run Spec_OnnxRun
  Proof_AllocSearch Proof_Bandwidth Proof_Energy Proof_Latency Proof_Graph Proof_Workload Proof_WorkFile Proof_AccelFile Proof_EvalPrepare Proof_EvalExample Proof_CmeMore Proof_Pipeline Proof_Search Proof_SearchGiven
  Proof_RunHardware Proof_RunLayer Proof_RunSpatial Proof_RunSearch Proof_RunRequest Proof_RunGeneration Proof_RunChain Proof_RunCourse Proof_OnnxRun.
Open Scope string_scope.
Open Scope list_scope.
Open Scope Z_scope.

Lemma no_star o : ~ In "*" (map fst (loops_for o)).
Proof. intros I. apply memb_In in I. destruct o as [c|p]; [discriminate|]. revert I. unfold loops_for, batch_loops. destruct (pd_batch p) as [|x [|y [|z l]]]; vm_compute; discriminate. Qed.

(** Exchanging windows does not change the number of multiplications. *)
Lemma loops_operations o : positive_operator o -> zprod (map snd (loops_for (taken_as o))) = operations o.
Proof.
  destruct o as [c|[batch rows inner columns]].
  - intros _. cbn [taken_as loops_for operations map snd exchanged with_window cv_batch cv_out cv_groups cv_x cv_y cv_in ax_out ax_kernel]. unfold conv_operations. rewrite !zprod_cons. change (zprod []) with 1. ring.
  - intros (Lb & _). cbn [pd_batch] in Lb. cbn [taken_as loops_for operations]. unfold product_operations. cbn [pd_inner pd_rows pd_columns pd_batch].
    destruct batch as [|x [|y [|z l]]]; [| | |cbn in Lb; lia]; unfold batch_loops; cbn [pd_batch length firstn combine app map snd]; rewrite !zprod_cons; change (zprod []) with 1; ring.
Qed.

Section Run.
  Variables order1 order2 dim_order visit order : list string -> list string.
  Variable pick_dim : string -> dict string Q -> string.
  Variable pick_oa : string -> dict string (dict string Q) -> string.
  Variable factorint : Z -> list (Z * Z).
  Variables (lim : option Z) (mt : mapping_type) (mix : bool) (nb : nat) (free : bool).
  Variables (bank : Z -> Z -> Z -> Z -> result Q) (adc : Z -> Q) (sim : simulator) (tech : Z) (known : pool).
  Variables (hardware : raw_accel) (m : onnx_model) (mapping : list raw_entry) (meaning : list (option operator)).
  Hypothesis order_perm : forall l, Permutation (order l) l.
  Hypothesis visit_perm : forall l, Permutation (visit l) l.
  Hypotheses (Ho1 : orders order1) (Ho2 : orders order2) (Hdo : orders dim_order) (Hpd : picks_dim pick_dim) (Hpo : picks_oa pick_oa).
  Hypothesis factors : factorint_ok factorint.
  Hypothesis limit : forall n, lim = Some n -> 1 <= n.
  Hypothesis some : (1 <= nb)%nat.
  Hypothesis usable : usable_model hardware m mapping meaning.
  Hypothesis costs : exists cs p', priced sim tech known (memories hardware) cs p'.

  Notation run' := (fun fuel fuel' => run_onnx order1 order2 dim_order visit pick_dim pick_oa factorint lim mt mix nb free fuel fuel' order bank adc sim tech known hardware m mapping).
  Notation read := (model_read order hardware m mapping meaning order_perm usable).

  Lemma model_ends : exists a p' ls g, parse_accelerator bank adc sim tech known hardware = Ok (a, p') /\ parse_onnx order m mapping = Ok (ls, g) /\
    exists enough, forall fuel, (enough <= fuel)%nat -> exists enough', forall fuel', (enough' <= fuel')%nat ->
    forall opt le, Spec_Pipeline.criterion opt le ->
    let spatials := spatials order1 order2 dim_order visit pick_dim pick_oa mix nb a (onnx_layer_at ls) in
    let convert := convert visit free a (onnx_layer_at ls) in
    let temporals := temporals factorint lim mt fuel (onnx_layer_at ls) in
    let evaluate := evaluate fuel' a in
    (exists energy latency cmes, run' fuel fuel' opt = Ok (energy, latency, cmes) /\
       best_of_all (operators_of meaning) (chain (graph_of m)) spatials convert temporals evaluate le energy latency cmes) \/
    (exists x, run' fuel fuel' opt = Err x /\ (In x nothing_fits \/ In x refused /\ orders_loops mapping) /\ unmapped (operators_of meaning) spatials convert temporals x) \/
    (run' fuel fuel' opt = Err ZeroDivisionError /\ ~ one_movement hardware).
  Proof.
    destruct read as (ls & g & Ew & Gk & Ls & On & Nn & Ra & Eg & _).
    assert (Nd : NoDup (operators_of meaning)) by (apply NoDup_filter, seq_NoDup).
    destruct (given_ends order1 order2 dim_order visit order pick_dim pick_oa factorint lim mt mix nb free bank adc sim tech known hardware mapping order_perm visit_perm Ho1 Ho2 Hdo Hpd Hpo factors limit some
      (um_accelerator _ _ _ _ usable) (um_mapping _ _ _ _ usable) costs (onnx_layer_at ls) _ (node_about m meaning) Ls On (no_layer ls) g _ Nn Nd Ra (fun u v => proj2 (Eg u v)) Gk) as (a & p' & Ea & n & Hn).
    exists a, p', ls, g. split; [exact Ea|]. split; [exact Ew|]. exists n. intros fuel F. destruct (Hn fuel F) as (n' & Hn'). exists n'. intros fuel' F' opt le Cr. specialize (Hn' fuel' F' opt le Cr). cbv zeta in Hn' |- *.
    assert (Er : run' fuel fuel' opt = api (no_layer ls) (fun _ => false) g (spatials order1 order2 dim_order visit pick_dim pick_oa mix nb a (onnx_layer_at ls)) (convert visit free a (onnx_layer_at ls))
      (temporals factorint lim mt fuel (onnx_layer_at ls)) (evaluate fuel' a) order opt).
    { unfold run_onnx. destruct (criterion_ok opt le Cr) as (less & Eo & _). rewrite Eo. cbn [rbind]. rewrite Ew. cbn [rbind]. rewrite Ea. reflexivity. }
    cbv beta in Er |- *. rewrite Er. exact Hn'.
  Qed.

  Lemma model_ordered : exists a p' ls g, parse_accelerator bank adc sim tech known hardware = Ok (a, p') /\ parse_onnx order m mapping = Ok (ls, g) /\
    exists enough, forall fuel, (enough <= fuel)%nat -> forall i sms sm rq tm, In i (operators_of meaning) ->
      spatials order1 order2 dim_order visit pick_dim pick_oa mix nb a (onnx_layer_at ls) i = Ok sms -> In sm sms -> convert visit free a (onnx_layer_at ls) i sm = Ok rq ->
      In tm (fst (temporals factorint lim mt fuel (onnx_layer_at ls) i rq)) ->
      exists o r t en p, node_at m meaning i o r /\ rl_type r = Some t /\ Spec_MapFile.chosen (called r) t (map normalise mapping) en /\
        (forall op levels, In (op, levels) tm -> concat levels = p) /\ follows (ordered en (loops_for (taken_as o))) p.
  Proof.
    destruct read as (ls & g & Ew & Gk & Ls & On & Nn & Ra & Eg & _).
    destruct (given_ordered order1 order2 dim_order visit order pick_dim pick_oa factorint lim mt mix nb free bank adc sim tech known hardware mapping order_perm visit_perm Ho1 Ho2 Hdo Hpd Hpo factors limit some
      (um_accelerator _ _ _ _ usable) (um_mapping _ _ _ _ usable) costs (onnx_layer_at ls) _ (node_about m meaning) Ls On) as (a & p' & Ea & n & Hn).
    exists a, p', ls, g. split; [exact Ea|]. split; [exact Ew|]. exists n. intros fuel F i sms sm rq tm Li Es Im Eq It.
    destruct (Hn fuel F i sms sm rq tm Li Es Im Eq It) as (r & e & ws & loops & t & en & p & (o & Na & _ & _ & ->) & Et & Ch & Hc & Hf). exists o, r, t, en, p.
    split; [exact Na|]. split; [exact Et|]. split; [exact Ch|]. split; [exact Hc|]. apply Hf. exact (no_star (taken_as o)).
  Qed.

  Lemma model_right : exists a p' ls g, parse_accelerator bank adc sim tech known hardware = Ok (a, p') /\ parse_onnx order m mapping = Ok (ls, g) /\ length ls = length (om_nodes m) /\
    forall i, In i (operators_of meaning) ->
    exists o r l t en sms, node_at m meaning i o r /\ nth_error ls i = Some (Some l) /\
      let e := equation_for (taken_as o) (constant_second (feeding (graph_of m) i)) in
      let loops := loops_for (taken_as o) in
      layer_as order mapping r e (relations_for (taken_as o)) loops l /\
      rl_type r = Some t /\ Spec_MapFile.chosen (called r) t (map normalise mapping) en /\
      spatials order1 order2 dim_order visit pick_dim pick_oa mix nb a (onnx_layer_at ls) i = Ok sms /\ (1 <= length sms <= nb)%nat /\
      forall sm, In sm sms -> valid_user loops (combine (ra_dims (rf_array hardware)) (ra_sizes (rf_array hardware))) sm /\
        exists rq ms, convert visit free a (onnx_layer_at ls) i sm = Ok rq /\ Forall2 mem_of (memories hardware) ms /\ searchable rq loops 0 ms /\
          rq_hierarchy rq = ac_hierarchy a /\ right_request hardware e loops en l free sm rq /\ rq_macs rq = operations o.
  Proof.
    destruct read as (ls & g & Ew & Gk & Ls & On & Nn & Ra & Eg & Ln).
    destruct (given_right order1 order2 dim_order visit order pick_dim pick_oa factorint lim mt mix nb free bank adc sim tech known hardware mapping order_perm visit_perm Ho1 Ho2 Hdo Hpd Hpo limit some
      (um_accelerator _ _ _ _ usable) (um_mapping _ _ _ _ usable) costs (onnx_layer_at ls) _ (node_about m meaning) Ls On) as (a & p' & Ea & H).
    exists a, p', ls, g. split; [exact Ea|]. split; [exact Ew|]. split; [exact Ln|]. intros i L. destruct (H i L) as (r & e & ws & loops & l & t & en & sms & (o & Na & -> & -> & ->) & El & H').
    exists o, r, l, t, en, sms. split; [exact Na|]. split; [unfold onnx_layer_at in El; destruct (nth_error ls i) as [[y|]|]; try discriminate; now injection El as ->|]. cbv zeta.
    destruct H' as (A & Et & Ch & Es & Le & H'). split; [exact A|]. split; [exact Et|]. split; [exact Ch|]. split; [exact Es|]. split; [exact Le|]. intros sm Is.
    destruct (H' sm Is) as (V & rq & ms & Ec & Me & Se & Eh & R). split; [exact V|]. exists rq, ms. split; [exact Ec|]. split; [exact Me|]. split; [exact Se|]. split; [exact Eh|]. split; [exact R|].
    rewrite (rr_operations _ _ _ _ _ _ _ _ R). apply loops_operations. destruct Na as (nd & E & Ex & _). destruct (node_meaning hardware m mapping meaning usable i nd E) as (x & Ex' & Hx).
    assert (x = Some o) by congruence. subst x. exact (operator_positive m nd o (proj1 Hx)).
  Qed.
End Run.

(** Only spatial mappings and requests; the search for temporal mappings plays no part. *)
Definition model_requests order1 order2 dim_order visit order pick_dim pick_oa mix nb free bank adc sim tech known hardware m mapping meaning op vp h1 h2 h3 h4 h5 :=
  model_right order1 order2 dim_order visit order pick_dim pick_oa (fun _ => []) None UNEVEN mix nb free bank adc sim tech known hardware m mapping meaning op vp h1 h2 h3 h4 h5 ltac:(discriminate).

(** If at most two nodes feed each node, all dependencies count. *)
Lemma chain_depends ns : (forall v, length (feeding ns v) <= 2)%nat -> forall u v, chain ns u v <-> depends ns u v.
Proof.
  intros F u v. assert (E : forall a b, In a (firstn 2 (feeding ns b)) <-> feeds ns a b) by (intros a b; rewrite firstn_all2 by apply F; apply In_feeding).
  split; induction 1; [apply depends_one|eapply depends_more|apply chain_one|eapply chain_more]; try (apply E; eassumption); eassumption.
Qed.
(** In any case chains are dependencies, and between sources of operators none is lost. *)
Lemma chain_sound ns u v : chain ns u v -> depends ns u v.
Proof.
  assert (E : forall a b, In a (firstn 2 (feeding ns b)) -> feeds ns a b) by (intros a b I; apply In_feeding; rewrite <- (firstn_skipn 2 (feeding ns b)); apply in_or_app; now left).
  induction 1; [apply depends_one|eapply depends_more]; try (apply E; eassumption); eassumption.
Qed.
