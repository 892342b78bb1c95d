(** C86 for runs from workload files and from ONNX models. *)
From Coq Require Import QArith Lia.
From Verif Require Import Base Model_Text Model_DataMove Model_Alloc Model_Loma Model_Graph Model_Layer Model_MapFile Model_WorkFile
  Model_Cacti Model_AccelFile Model_Evaluate Model_Search Model_Cme Model_Workload Model_Pipeline Model_Run Model_Onnx Model_OnnxRun
  Spec_Layer Spec_MapFile Spec_Graph Spec_Workload Spec_WorkFile Spec_AccelFile Spec_SpatialMap Spec_Loma Spec_Cme Spec_Search Spec_Pipeline Spec_Onnx Spec_Run Spec_OnnxRun Spec_RunFloor
  Proof_AllocSearch Proof_Bandwidth Proof_Energy Proof_Pipeline Proof_RunCourse Proof_RunFloor Proof_Run Proof_OnnxRun Proof_OnnxCourse.
Open Scope string_scope.
Open Scope list_scope.
Open Scope Z_scope.

Lemma zsum_seq {X} (f : option X -> Z) (l : list X) n : zsum (map (fun i => f (nth_error l (i - n))) (seq n (length l))) = zsum (map (fun x => f (Some x)) l).
Proof.
  revert n. induction l as [|x l IH]; intros n; [reflexivity|]. cbn [length seq map]. rewrite Nat.sub_diag. cbn [nth_error].
  change (f (Some x) + zsum (map (fun i => f (nth_error (x :: l) (i - n))) (seq (S n) (length l))) = f (Some x) + zsum (map (fun x => f (Some x)) l)). f_equal. rewrite <- (IH (S n)). f_equal.
  apply map_ext_in. intros i I. apply in_seq in I. replace (i - n)%nat with (S (i - S n)) by lia. reflexivity.
Qed.
Lemma zsum_filter {X} (p : X -> bool) (f : X -> Z) l : (forall x, In x l -> p x = false -> f x = 0) -> zsum (map f (filter p l)) = zsum (map f l).
Proof.
  induction l as [|x l IH]; intros H; [reflexivity|]. cbn [filter map]. specialize (IH (fun y Iy => H y (or_intror Iy))). change (zsum (f x :: map f l)) with (f x + zsum (map f l)).
  destruct (p x) eqn:E; [cbn [map]; change (zsum (f x :: map f (filter p l))) with (f x + zsum (map f (filter p l))); lia|]. rewrite (H x (or_introl eq_refl) E). lia.
Qed.

Section Bound.
  Variables order1 order2 dim_order visit order : list string -> list string.
  Variable pick_dim : string -> dict string Q -> string.
  Variable pick_oa : string -> dict string (dict string Q) -> string.
  Variable factorint : Z -> list (Z * Z).
  Variables (lim : option Z) (mt : mapping_type) (mix : bool) (nb : nat) (free : bool).
  Variables (bank : Z -> Z -> Z -> Z -> result Q) (adc : Z -> Q) (sim : simulator) (tech : Z) (known : pool).
  Variables (hardware : raw_accel) (mapping : list raw_entry) (unit : Q).
  Hypothesis order_perm : forall l, Permutation (order l) l.
  Hypothesis visit_perm : forall l, Permutation (visit l) l.
  Hypotheses (Ho1 : orders order1) (Ho2 : orders order2) (Hdo : orders dim_order) (Hpd : picks_dim pick_dim) (Hpo : picks_oa pick_oa).
  Hypothesis factors : factorint_ok factorint.
  Hypothesis limit : forall n, lim = Some n -> 1 <= n.
  Hypothesis some : (1 <= nb)%nat.
  Hypothesis costs : exists cs p', priced sim tech known (memories hardware) cs p'.
  Hypothesis unit_cost : ra_energy (rf_array hardware) = Some unit.

  Lemma run_floor workload meaning : usable_files hardware workload mapping meaning ->
    exists enough, forall fuel, (enough <= fuel)%nat -> exists enough', forall fuel', (enough' <= fuel')%nat ->
    forall opt le, Spec_Pipeline.criterion opt le -> forall energy latency cmes,
    run order1 order2 dim_order visit pick_dim pick_oa factorint lim mt mix nb free fuel fuel' order bank adc sim tech known hardware workload mapping opt = Ok (energy, latency, cmes) ->
    (no_negative_price sim tech known hardware -> energy_needed unit (file_operations meaning) energy) /\
    (one_movement hardware -> ~ orders_loops mapping -> time_needed (zprod (ra_sizes (rf_array hardware))) (file_operations meaning) latency).
  Proof.
    intros files. destruct (workload_read order lim nb bank adc tech hardware workload mapping meaning order_perm limit some files) as (ls & g & Ew & Gk & Ls & On & Nn & Ra & _).
    destruct (given_floor order1 order2 dim_order visit order pick_dim pick_oa factorint lim mt mix nb free bank adc sim tech known hardware mapping order_perm visit_perm Ho1 Ho2 Hdo Hpd Hpo factors limit some
      (uf_accelerator _ _ _ _ files) (uf_mapping _ _ _ _ files) costs (layer_at ls) _ (written_at workload meaning) Ls On unit
      (fun i => match nth_error meaning (i - 0) with Some x => zprod (map snd (snd x)) | None => 0 end) unit_cost) with (dummy := fun _ : nat => false) (g := g) as (a & p' & Ea & n & Hn); try assumption.
    { intros i r e ws loops (_ & E). rewrite Nat.sub_0_r, E. reflexivity. }
    { apply seq_NoDup. }
    exists n. intros fuel F. destruct (Hn fuel F) as (n' & Hn'). exists n'. intros fuel' F' opt le Cr energy latency cmes R. specialize (Hn' fuel' F' opt le Cr energy latency cmes).
    assert (Q : length workload = length meaning) by exact (F2_len _ _ _ (uf_layers _ _ _ _ files)). rewrite Q in Hn'.
    rewrite (zsum_seq (fun x => match x with Some x => zprod (map snd (snd x)) | None => 0 end) meaning 0) in Hn'. apply Hn'.
    unfold run in R. destruct (criterion_ok opt le Cr) as (less & Eo & _). rewrite Eo in R. cbn [rbind] in R. rewrite Ew in R. cbn [rbind] in R. rewrite Ea in R. exact R.
  Qed.

  Lemma model_floor m meaning : usable_model hardware m mapping meaning ->
    exists enough, forall fuel, (enough <= fuel)%nat -> exists enough', forall fuel', (enough' <= fuel')%nat ->
    forall opt le, Spec_Pipeline.criterion opt le -> forall energy latency cmes,
    run_onnx order1 order2 dim_order visit pick_dim pick_oa factorint lim mt mix nb free fuel fuel' order bank adc sim tech known hardware m mapping opt = Ok (energy, latency, cmes) ->
    (no_negative_price sim tech known hardware -> energy_needed unit (model_operations meaning) energy) /\
    (one_movement hardware -> ~ orders_loops mapping -> time_needed (zprod (ra_sizes (rf_array hardware))) (model_operations meaning) latency).
  Proof.
    intros usable. destruct (model_read order hardware m mapping meaning order_perm usable) as (ls & g & Ew & Gk & Ls & On & Nn & Ra & _).
    set (count := fun x : option (option operator) => match x with Some (Some o) => operations o | _ => 0 end).
    destruct (given_floor order1 order2 dim_order visit order pick_dim pick_oa factorint lim mt mix nb free bank adc sim tech known hardware mapping order_perm visit_perm Ho1 Ho2 Hdo Hpd Hpo factors limit some
      (um_accelerator _ _ _ _ usable) (um_mapping _ _ _ _ usable) costs (onnx_layer_at ls) _ (node_about m meaning) Ls On unit
      (fun i => count (nth_error meaning (i - 0))) unit_cost) with (dummy := no_layer ls) (g := g) as (a & p' & Ea & n & Hn); try assumption.
    { intros i r e ws loops (o & Na & -> & -> & ->). destruct Na as (nd & E & Ex & _). rewrite Nat.sub_0_r, Ex. unfold count. apply loops_operations.
      destruct (node_meaning hardware m mapping meaning usable i nd E) as (x & Ex' & Hx). assert (x = Some o) by congruence. subst x. exact (operator_positive m nd o (proj1 Hx)). }
    { apply NoDup_filter, seq_NoDup. }
    exists n. intros fuel F. destruct (Hn fuel F) as (n' & Hn'). exists n'. intros fuel' F' opt le Cr energy latency cmes R. specialize (Hn' fuel' F' opt le Cr energy latency cmes).
    unfold operators_of in Hn'. rewrite zsum_filter in Hn' by (intros i _ E; rewrite Nat.sub_0_r; unfold count; destruct (nth_error meaning i) as [[o|]|]; [discriminate|reflexivity|reflexivity]).
    rewrite (zsum_seq count meaning 0) in Hn'. apply Hn'.
    unfold run_onnx in R. destruct (criterion_ok opt le Cr) as (less & Eo & _). rewrite Eo in R. cbn [rbind] in R. rewrite Ew in R. cbn [rbind] in R. rewrite Ea in R. exact R.
  Qed.
End Bound.
