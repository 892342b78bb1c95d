(** Evaluations on in-memory-computing arrays (C77). *)
From Coq Require Import QArith Qround Lia Lqa.
From Verif Require Import Base Model_Alloc Model_Temporal Model_Decouple Model_SpatialInt Model_Layer Model_DataMove Model_Mapping Model_Links Model_Cost Model_Latency Model_Hierarchy Model_Evaluate Model_Imc Model_EvalImc
  Spec_Temporal Spec_Mapping Spec_Cost Spec_Hierarchy Spec_Evaluate Spec_EvalEnergy Spec_Imc Spec_EvalImc Proof_AllocSearch Proof_EvalTotal Proof_EvalPrepare Proof_Imc Proof_EvalEnergy Proof_EvalExample.
Local Open Scope string_scope.
Local Open Scope list_scope.
Local Open Scope result_scope.

(** * The same request with another energy per operation *)
Definition with_cost (c : Q) (ci : inputs) : inputs :=
  mkInputs (in_ops ci) (in_inputs ci) (in_out ci) (in_links ci) (in_hier ci) (in_levels ci) (in_sharing ci) (in_map ci) (in_map_int ci)
    (in_unit_count ci) (in_macs ci) c (in_units ci) (in_total ci) (in_cpo ci).
Lemma prepare_energy rq units c c' cycles fuel :
  prepare (digital rq units c' cycles) fuel = rbind (prepare (digital rq units c cycles) fuel) (fun ci => Ok (with_cost c' ci)).
Proof.
  unfold prepare. change (mapping_of (digital rq units c' cycles)) with (mapping_of (digital rq units c cycles)).
  cbn [digital rq_layer rq_r rq_ir rq_pr rq_ops rq_inputs rq_out rq_macs rq_size_out rq_links rq_hierarchy rq_units rq_mac_cost rq_cpo rq_free rq_spatial rq_spatial_int rq_temporal].
  destruct (build_temporal_mapping _ _ _) as [tm|]; [|reflexivity]. cbn [rbind]. destruct (build_spatial _ _ _ _ _ (rq_spatial rq)) as [cs|]; [|reflexivity]. cbn [rbind].
  destruct (build_spatial _ _ _ _ _ (rq_spatial_int rq)) as [cs'|]; [|reflexivity]. cbn [rbind]. destruct (accelerator _) as [((hd & lvs) & sh)|]; [|reflexivity]. cbn [rbind].
  destruct (mapping_of _ _ (rq_spatial rq) _ _) as [m|]; [|reflexivity]. cbn [rbind]. destruct (mapping_of _ _ (rq_spatial_int rq) _ _) as [m'|]; [|reflexivity]. reflexivity.
Qed.
Lemma prepare_macs rq fuel ci : prepare rq fuel = Ok ci -> in_macs ci = rq_macs rq /\ in_mac_cost ci = rq_mac_cost rq.
Proof.
  unfold prepare. intros Q. do 3 (apply rbind_Ok in Q; destruct Q as (? & _ & Q)). apply rbind_Ok in Q. destruct Q as (((hd & lvs) & sh) & _ & Q). do 2 (apply rbind_Ok in Q; destruct Q as (? & _ & Q)).
  now injection Q as <-.
Qed.
(** The latency is the same and the energies differ in the operations. *)
Lemma evaluate_energy c ci :
  evaluate (with_cost c ci) = rbind (individual ci od_bit_unrolled) (fun ind => rbind (shared ci ind) (fun _ => rbind (calc_memory_word_access ci) (fun acc =>
    rbind (calc_memory_energy_cost ci acc) (fun en => rbind (calc_latency ci) (fun la => Ok ((snd (fst en) + c * inject_Z (in_macs ci))%Q, la)))))).
Proof.
  unfold evaluate. change (individual (with_cost c ci)) with (individual ci). destruct (individual ci _) as [ind|]; [|reflexivity]. cbn [rbind].
  change (shared (with_cost c ci)) with (shared ci). destruct (shared ci ind) as [sh|]; [|reflexivity]. cbn [rbind].
  change (calc_memory_word_access (with_cost c ci)) with (calc_memory_word_access ci). destruct (calc_memory_word_access ci) as [acc|]; [|reflexivity]. cbn [rbind].
  unfold calc_memory_energy_cost. change (operand_energy (with_cost c ci)) with (operand_energy ci).
  destruct (rmap _ acc) as [es|]; [|reflexivity]. cbn [rbind]. change (calc_latency (with_cost c ci)) with (calc_latency ci). destruct (calc_latency ci); reflexivity.
Qed.

(** * The array *)
Lemma mapped_options l order : (forall d n, In (d, n) (unrollings (il_word l)) -> ~ In d (il_ir l)) ->
  (forall d n, In (d, n) (unrollings (il_word l) ++ unrollings (il_bit l)) -> (1 <= n)%Q) ->
  exists rows adders cols times, Model_Imc.mapped l order = Ok (rows, adders, cols, times) /\
    rows = Qceiling (times_unrolled (il_bit l)) /\ (cols == times_unrolled (il_word l))%Q /\ (times == inject_Z (il_macs l) / (times_unrolled (il_word l) * times_unrolled (il_bit l)))%Q.
Proof.
  intros N S1.
  assert (G : forall ls : list (string * Q), (forall d n, In (d, n) ls -> (1 <= n)%Q) -> (1 <= qprod (map snd ls))%Q).
  { induction ls as [|(x, n) ls IH]; intros H; [apply Qle_refl|]. cbn [map snd]. rewrite qprod_cons.
    assert (A1 := H x n (or_introl eq_refl)). assert (A2 := IH (fun x n I => H x n (or_intror I))). nra. }
  assert (Gw := G (unrollings (il_word l)) (fun d n I => S1 d n (in_or_app _ _ _ (or_introl I)))). assert (Gb := G (unrollings (il_bit l)) (fun d n I => S1 d n (in_or_app _ _ _ (or_intror I)))).
  unfold Model_Imc.mapped. fold (unrollings (il_word l)) (unrollings (il_bit l)). fold (times_unrolled (il_word l)) (times_unrolled (il_bit l)) in *.
  change (1 <= times_unrolled (il_word l))%Q in Gw. change (1 <= times_unrolled (il_bit l))%Q in Gb.
  assert (Nz : Qeq_bool (qprod (map snd (unrollings (il_word l))) * qprod (map snd (unrollings (il_bit l)))) 0 = false).
  { change (Qeq_bool (times_unrolled (il_word l) * times_unrolled (il_bit l)) 0 = false). apply nonzero. nra. }
  assert (X : match il_word l with Some w => existsb (fun d => memb d (il_ir l)) (keys w) | None => false end = false).
  { destruct (il_word l) as [wd|]; [|reflexivity]. destruct (existsb _ _) eqn:E; [|easy]. apply existsb_exists in E as (d & I & M). apply memb_In in M. apply in_map_iff in I as ((d' & n) & <- & I). now elim (N d' n). }
  rewrite X. cbn [negb orb]. exists (Qceiling (times_unrolled (il_bit l))), (Qceiling (times_unrolled (il_bit l))).
  unfold times_unrolled, unrollings in *. destruct (il_bit l) as [bd|], (il_word l) as [wd|]; cbn [rbind]; rewrite Nz; eexists _, _; (split; [reflexivity|]); (split; [reflexivity|]); split; reflexivity.
Qed.

Lemma filter_last {A} (f : A -> bool) l : (exists x, In x l /\ f x = true) -> exists y, last_r (filter f l) = Ok y.
Proof.
  intros (x & I & F). assert (J : In x (filter f l)) by now apply filter_In. unfold last_r. destruct (filter f l) as [|y t]; [destruct J|].
  destruct (nth_error (y :: t) (length (y :: t) - 1)) eqn:E; [eexists; reflexivity|]. apply nth_error_None in E. cbn [length] in E. lia.
Qed.

Section OnArray.
  Variables (iq : imc_request) (w : string) (tree_fuel : nat).
  Let rq := iq_request iq.
  Let a := iq_array iq.
  Hypothesis VA : valid a.
  Hypothesis PM : plain_mapping iq w.
  Hypothesis TF : (Z.to_nat (Z.log2 (im_bitline a)) < tree_fuel)%nat.

  Lemma array_energy_is levels : dget w (rq_temporal rq) = Some levels -> exists rows cols times,
    rows = Qceiling (times_unrolled (iq_bit iq)) /\ (cols == times_unrolled (iq_word iq))%Q /\ (times == activations iq)%Q /\
    array_energy iq tree_fuel = (pre <- precharge a levels ;; layer_energy tree_fuel a rows cols times (fst pre)).
  Proof.
    intros L. destruct (pm_weights _ _ PM) as (Ec & Iw). destruct (pm_activations _ _ PM) as (act & Ia & Na). destruct (pm_word _ _ PM) as (ir & Ei & Ni).
    destruct (mapped_options (mkImcLayer (iq_word iq) (iq_bit iq) ir (iq_pairs iq) (rq_macs rq)) (iq_order iq) Ni (pm_sizes _ _ PM)) as (rows & ad & cols & times & Em & Er & Ecol & Et).
    exists rows, cols, times. do 3 (split; [assumption|]). unfold array_energy, get_act_layer_op, get_weight_layer_op. rewrite (pm_equation _ _ PM), Ec. cbn [rbind tl].
    destruct (filter_last (fun o => negb (eqb o w)) (rq_inputs (iq_request iq))) as (y & ->).
    { exists act. split; [exact Ia|]. destruct (eqb_spec act w); [contradiction|reflexivity]. }
    cbn [rbind]. unfold dgetr. rewrite Ei. cbn [of_option rbind]. fold rq. rewrite Em. cbn [rbind]. rewrite L. reflexivity.
  Qed.

  Lemma array_bounds parts levels : dget w (rq_temporal rq) = Some levels -> im_cells a <= im_weight a -> (0 <= rq_macs rq)%Z -> array_energy iq tree_fuel = Ok parts ->
    forall pk, peak_energy a = Ok pk -> let uses := (serial_cycles a * activations iq)%Q in
    (within_array iq -> (total parts * inject_Z (im_banks a) <= total pk * uses)%Q) /\ (fills_array iq -> (total parts * inject_Z (im_banks a) == total pk * uses)%Q).
  Proof.
    intros L C M E pk Ep uses. destruct (array_energy_is levels L) as (rows & cols & times & Er & Ecol & Et & EQ). rewrite EQ, (precharge_one a levels VA C) in E. cbn [rbind fst] in E.
    assert (G : forall ls : list (string * Q), (forall d n, In (d, n) ls -> (1 <= n)%Q) -> (1 <= qprod (map snd ls))%Q).
    { induction ls as [|(x, n) ls IH]; intros H; [apply Qle_refl|]. cbn [map snd]. rewrite qprod_cons.
      assert (A1 := H x n (or_introl eq_refl)). assert (A2 := IH (fun x n I => H x n (or_intror I))). nra. }
    assert (Gw : (1 <= times_unrolled (iq_word iq))%Q) by (apply G; intros d n I; apply (pm_sizes _ _ PM d n), in_or_app; now left).
    assert (Gb : (1 <= times_unrolled (iq_bit iq))%Q) by (apply G; intros d n I; apply (pm_sizes _ _ PM d n), in_or_app; now right).
    assert (T0 : (0 <= times)%Q).
    { rewrite Et. unfold activations. apply Qle_shift_div_l; [nra|]. rewrite Qmult_0_l. change 0%Q with (inject_Z 0). rewrite <- Zle_Qle. exact M. }
    assert (R0 : (0 <= rows)%Z).
    { rewrite Er. assert (K := Qle_ceiling (times_unrolled (iq_bit iq))). assert (K2 : (inject_Z 1 <= inject_Z (Qceiling (times_unrolled (iq_bit iq))))%Q) by (eapply Qle_trans; [exact Gb|exact K]). rewrite <- Zle_Qle in K2. lia. }
    assert (Eu : (inject_Z (im_act a) / inject_Z (im_serial a) * times == uses)%Q) by (unfold uses, serial_cycles; now rewrite Et).
    split.
    - intros (B1 & B2). destruct (bound_le a tree_fuel rows cols times 0 parts pk VA TF E Ep T0) as (_ & B); [split; [exact R0|rewrite Er; exact B1]|rewrite Ecol; split; [lra|exact B2]|].
      rewrite Eu in B. setoid_replace (total parts - 0)%Q with (total parts) in B by ring. exact B.
    - intros (B1 & B2). assert (B := bound_eq a tree_fuel rows cols times 0 parts pk VA TF E Ep T0). specialize (B ltac:(rewrite Er; exact B1) ltac:(rewrite Ecol; exact B2)). cbv zeta in B.
      rewrite Eu in B. setoid_replace (total parts - 0)%Q with (total parts) in B by ring. exact B.
  Qed.
End OnArray.

(** * The evaluation *)
Lemma digital_self iq : on_array iq = digital (iq_request iq) (units_of (iq_array iq)) 0 (serial_cycles (iq_array iq)).
Proof. reflexivity. Qed.

(** When the array's energy is known, the evaluation is that of a digital array. *)
Lemma imc_as_digital iq fuel tree_fuel area tclk perf parts c : construct (iq_array iq) = Ok (area, tclk, perf) -> im_serial (iq_array iq) <> 0%Z -> array_energy iq tree_fuel = Ok parts ->
  let d := digital (iq_request iq) (units_of (iq_array iq)) c (serial_cycles (iq_array iq)) in
  match evaluation d fuel with
  | Ok (e, la) => exists r, imc_evaluation iq fuel tree_fuel = Ok r /\ ir_latency r = la /\ (e == ir_memory_energy r + c * inject_Z (rq_macs (iq_request iq)))%Q /\
      ir_energy r = (ir_memory_energy r + total parts)%Q /\ ir_array_energy r = total parts /\ ir_array_parts r = parts /\
      ir_tclk_parts r = tclk /\ ir_tclk r = total tclk /\ ir_array_area_parts r = area /\ ir_array_area r = total area /\
      (ir_memory_area r, ir_memory_area_parts r, ir_area r) = collect_area (total area) (iq_mems iq)
  | Err x => imc_evaluation iq fuel tree_fuel = Err x
  end.
Proof.
  intros Ec Es Ea d. unfold evaluation, imc_evaluation. rewrite Ec. cbn [rbind]. rewrite (proj2 (Z.eqb_neq _ 0) Es). unfold d.
  rewrite (prepare_energy (iq_request iq) (units_of (iq_array iq)) 0 c (serial_cycles (iq_array iq)) fuel), digital_self.
  destruct (prepare _ fuel) as [ci|x] eqn:Ep; [|reflexivity]. apply prepare_macs in Ep. destruct Ep as (Em & _). cbn [rbind]. rewrite evaluate_energy, Em.
  destruct (individual ci _) as [ind|]; [|reflexivity]. cbn [rbind]. destruct (shared ci ind) as [sh|]; [|reflexivity]. cbn [rbind].
  destruct (calc_memory_word_access ci) as [acc|]; [|reflexivity]. cbn [rbind]. rewrite Ea. cbn [rbind].
  destruct (calc_memory_energy_cost ci acc) as [(((bd & fu) & mem) & tot)|]; [|reflexivity]. cbn [rbind fst snd]. destruct (calc_latency ci) as [la|]; [|reflexivity]. cbn [rbind].
  destruct (collect_area (total area) (iq_mems iq)) as ((ma & mp) & al). eexists. split; [reflexivity|]. cbn [ir_latency ir_memory_energy ir_energy ir_array_energy ir_array_parts ir_tclk_parts ir_tclk ir_array_area_parts ir_array_area ir_memory_area ir_memory_area_parts ir_area].
  cbn [digital rq_macs]. repeat (split; [reflexivity|]). reflexivity.
Qed.

Lemma serial_whole a : valid a -> exists z, (serial_cycles a == inject_Z z)%Q /\ (0 < z)%Z.
Proof.
  intros VA. destruct (wf_serial _ VA) as (k & Ek). destruct (wf_act _ VA) as (n & En). assert (O := wf_order _ VA). rewrite Ek, En in O.
  assert (L : (k <= n)%nat) by (apply Z.pow_le_mono_r_iff in O; lia). exists (2 ^ Z.of_nat (n - k))%Z. split; [|apply Z.pow_pos_nonneg; lia].
  unfold serial_cycles. rewrite En, Ek. replace (Z.of_nat n) with (Z.of_nat (n - k) + Z.of_nat k) by lia. rewrite Z.pow_add_r, inject_Z_mult by lia.
  assert (P : (0 < 2 ^ Z.of_nat k)%Z) by (apply Z.pow_pos_nonneg; lia). apply inject_pos in P. field. intros E. rewrite E in P. discriminate P.
Qed.
Lemma digital_valid rq units c cycles : valid_request rq -> (0 < units)%Z -> (exists z, (cycles == inject_Z z)%Q /\ (0 < z)%Z) -> valid_request (digital rq units c cycles).
Proof.
  intros V U C. constructor.
  - destruct (vr_hardware _ V) as (pc & ms & SH). exists pc, ms. destruct SH. constructor; assumption.
  - destruct (vr_layer _ V). constructor; assumption.
  - destruct (vr_temporal _ V). constructor; assumption.
  - destruct (vr_spatial _ V). constructor; assumption.
  - destruct (vr_spatial_int _ V). constructor; assumption.
  - exact U.
  - exact C.
Qed.
Lemma digital_hardware rq units c cycles pc ms : sound_hardware rq pc ms -> sound_hardware (digital rq units c cycles) pc ms.
Proof. intros SH. destruct SH. constructor; assumption. Qed.

Section Evaluated.
  Variables (iq : imc_request) (w : string) (fuel tree_fuel : nat).
  Let rq := iq_request iq.
  Let a := iq_array iq.
  Hypothesis V : valid_request rq.
  Hypothesis HF : (passes_bound (rq_temporal rq) <= fuel)%nat.
  Hypothesis VA : valid a.
  Hypothesis RA : im_analog a = true \/ (2 <= im_bitline a)%Z.
  Hypothesis PM : plain_mapping iq w.
  Hypothesis TF : (Z.to_nat (Z.log2 (im_bitline a)) < tree_fuel)%nat.

  Lemma weight_levels : exists levels, dget w (rq_temporal rq) = Some levels.
  Proof.
    apply key_dget. apply (proj2 (tf_operands _ (vr_temporal _ V) w)). apply (proj2 (proj1 (sl_operands _ (vr_layer _ V) w))). right. exact (proj2 (pm_weights _ _ PM)).
  Qed.
  Lemma units_pos : (0 < units_of a)%Z.
  Proof. unfold units_of. assert (A1 := wf_word _ VA). assert (A2 := wf_bit _ VA). assert (A3 := wf_banks _ VA). nia. Qed.
  Lemma serial_nonzero : im_serial a <> 0%Z.
  Proof. destruct (wf_serial _ VA) as (k & ->). apply Z.pow_nonzero; lia. Qed.
  Lemma on_valid c : valid_request (digital rq (units_of a) c (serial_cycles a)).
  Proof. apply digital_valid; [exact V|exact units_pos|exact (serial_whole a VA)]. Qed.

  (** Cell groups of several weights *)
  Lemma several_weights levels : (im_weight a < im_cells a)%Z -> dget w (rq_temporal rq) = Some levels -> levels <> [] -> imc_evaluation iq fuel tree_fuel = Err AttributeError.
  Proof.
    intros Hc L N. destruct (construct_ok a VA RA) as (area & tclk & pk & t1 & t2 & t3 & Ec & _). unfold imc_evaluation. fold a. rewrite Ec. cbn [rbind]. rewrite (proj2 (Z.eqb_neq _ 0) serial_nonzero).
    assert (V' := on_valid 0). destruct (vr_hardware _ V') as (pc & ms & SH). destruct (prepared _ fuel pc ms V' SH HF) as (ci & Ep & C & _). rewrite digital_self. fold a rq. rewrite Ep. cbn [rbind].
    destruct (individual_total ci C od_bit_unrolled) as (ind & Ei & Si); [|rewrite Ei].
    { intros op od ps I M. destruct (link_known ci C op I) as (m & Hm). destruct (op_levels ci C op m Hm) as (n & od0 & ps0 & od' & ps' & ms' & uc & A & _ & _ & _ & L' & _ & _ & _ & _ & B & _). rewrite M in A. injection A as <- <-. lia. }
    cbn [rbind].
    destruct (shared_total ci C ind Si) as (sh & Es & _). rewrite Es. cbn [rbind]. destruct (accesses_total ci C) as (acc & Ea & _). rewrite Ea. cbn [rbind].
    destruct (array_energy_is iq w tree_fuel PM levels L) as (rows & cols & times & _ & _ & _ & EQ). rewrite EQ. fold a. rewrite (precharge_several a levels VA Hc N). reflexivity.
  Qed.

  (** Cell groups of one weight *)
  Hypothesis CW : (im_cells a <= im_weight a)%Z.
  Lemma one_weight : exists parts, array_energy iq tree_fuel = Ok parts.
  Proof.
    destruct weight_levels as (levels & L). destruct (array_energy_is iq w tree_fuel PM levels L) as (rows & cols & times & _ & _ & _ & EQ). rewrite EQ. fold a. rewrite (precharge_one a levels VA CW). cbn [rbind fst].
    exact (Proof_Imc.energy_total tree_fuel a rows cols times 0 VA TF).
  Qed.

  Lemma evaluated_as_digital c : let d := digital rq (units_of a) c (serial_cycles a) in
    (forall e la, evaluation d fuel = Ok (e, la) -> exists r, imc_evaluation iq fuel tree_fuel = Ok r /\ ir_latency r = la /\ (e == ir_memory_energy r + c * inject_Z (rq_macs rq))%Q) /\
    (forall r, imc_evaluation iq fuel tree_fuel = Ok r -> exists e, evaluation d fuel = Ok (e, ir_latency r) /\ (e == ir_memory_energy r + c * inject_Z (rq_macs rq))%Q).
  Proof.
    intros d. destruct (construct_ok a VA RA) as (area & tclk & pk & t1 & t2 & t3 & Ec & _). destruct one_weight as (parts & Ea).
    assert (H := imc_as_digital iq fuel tree_fuel area tclk _ parts c Ec serial_nonzero Ea). cbv zeta in H. fold rq a in H. fold d in H. split.
    - intros e la E. rewrite E in H. destruct H as (r & Er & El & Ee & _). now exists r.
    - intros r Er. destruct (evaluation d fuel) as [(e & la)|x]; [|congruence]. destruct H as (r' & Er' & <- & Ee & _). rewrite Er in Er'. injection Er' as <-. exists e. now split.
  Qed.

  Lemma evaluated_only : (exists r, imc_evaluation iq fuel tree_fuel = Ok r) \/ imc_evaluation iq fuel tree_fuel = Err ZeroDivisionError.
  Proof.
    destruct (construct_ok a VA RA) as (area & tclk & pk & t1 & t2 & t3 & Ec & _). destruct one_weight as (parts & Ea).
    assert (H := imc_as_digital iq fuel tree_fuel area tclk _ parts 0 Ec serial_nonzero Ea). cbv zeta in H. fold rq a in H.
    destruct (evaluation_only _ fuel (on_valid 0) HF) as [((e & la) & E)|E]; rewrite E in H; [left; destruct H as (r & H & _); now exists r|now right].
  Qed.

  Lemma evaluated_dedicated pc ms : sound_hardware rq pc ms -> dedicated_ports ms -> exists r, imc_evaluation iq fuel tree_fuel = Ok r /\
    forall op tm, dget op (rq_temporal rq) = Some tm -> (inject_Z (cycles (concat tm)) * serial_cycles a <= la_total2 (ir_latency r))%Q.
  Proof.
    intros SH D. destruct (evaluation_dedicated _ fuel pc ms (on_valid 0) (digital_hardware _ _ _ _ _ _ SH) D HF) as ((e & la) & E & L).
    destruct (proj1 (evaluated_as_digital 0) e la E) as (r & Er & El & _). exists r. split; [exact Er|]. rewrite El. exact L.
  Qed.

  Lemma evaluated_energy pc ms r : sound_hardware rq pc ms -> whole_request rq -> (1 <= rq_size_out rq)%Z -> imc_evaluation iq fuel tree_fuel = Ok r ->
    (exists n : string -> nat -> direction -> Z,
      (ir_energy r == ir_array_energy r + qsum (map (fun op => spent_in (memories_for ms (stored_as rq op)) (n op)) (rq_ops rq)))%Q /\
      forall op, In op (rq_ops rq) -> right_accesses rq ms op (stored_as rq op) (n op)) /\
    ir_array_energy r = total (ir_array_parts r) /\
    forall pk, peak_energy a = Ok pk -> let uses := (serial_cycles a * activations iq)%Q in
      (within_array iq -> (ir_array_energy r * inject_Z (im_banks a) <= total pk * uses)%Q) /\
      (fills_array iq -> (ir_array_energy r * inject_Z (im_banks a) == total pk * uses)%Q).
  Proof.
    intros SH W S1 Er. destruct (construct_ok a VA RA) as (area & tclk & pk & t1 & t2 & t3 & Ec & _). destruct one_weight as (parts & Ea). destruct weight_levels as (levels & L).
    assert (H := imc_as_digital iq fuel tree_fuel area tclk _ parts 0 Ec serial_nonzero Ea). cbv zeta in H. fold rq a in H.
    destruct (evaluation (digital rq (units_of a) 0 (serial_cycles a)) fuel) as [(e & la)|x] eqn:E; [|congruence]. destruct H as (r' & Er' & El & Ee & E1 & E2 & E3 & _). rewrite Er in Er'. injection Er' as <-.
    split; [|split].
    - destruct (energy_accounted _ fuel pc ms (on_valid 0) (digital_hardware _ _ _ _ _ _ SH) HF W S1 e la E) as (n & En & Hn). exists n. split; [|exact Hn].
      rewrite E1, E2, Qplus_comm. apply Qplus_comp; [reflexivity|]. rewrite Qmult_0_l, Qplus_0_r in Ee. rewrite <- Ee, En. cbn [digital rq_mac_cost rq_macs]. rewrite Qmult_0_l, Qplus_0_l. reflexivity.
    - now rewrite E2, E3.
    - intros pk' Ep. rewrite E2. exact (array_bounds iq w tree_fuel VA PM TF parts levels L CW (proj1 (sl_sizes _ (vr_layer _ V))) Ea pk' Ep).
  Qed.

  Lemma evaluated_figures r : imc_evaluation iq fuel tree_fuel = Ok r -> exists perf, construct a = Ok (ir_array_area_parts r, ir_tclk_parts r, perf) /\
    ir_tclk r = total (ir_tclk_parts r) /\ (0 < ir_tclk r)%Q /\ ir_array_area r = total (ir_array_area_parts r) /\
    (ir_area r == ir_array_area r + qsum (map ma_area (iq_mems iq)))%Q.
  Proof.
    intros Er. destruct (construct_ok a VA RA) as (area & tclk & pk & t1 & t2 & t3 & Ec & _ & _ & _ & _ & (_ & Pt & _) & _). destruct one_weight as (parts & Ea).
    assert (H := imc_as_digital iq fuel tree_fuel area tclk _ parts 0 Ec serial_nonzero Ea). cbv zeta in H. fold rq a in H.
    destruct (evaluation (digital rq (units_of a) 0 (serial_cycles a)) fuel) as [(e & la)|x] eqn:E; [|congruence]. destruct H as (r' & Er' & _ & _ & _ & _ & _ & E4 & E5 & E6 & E7 & E8). rewrite Er in Er'. injection Er' as <-.
    exists (t1, t2, t3). rewrite E4, E5, E6, E7. do 4 (split; [easy|]). unfold collect_area in E8. injection E8 as E8 _ E9. rewrite E9, (mem_area_sum (iq_mems iq) 0). ring.
  Qed.
End Evaluated.

(** * A convolution on digital arrays in memory *)
Definition ex_array (cells : Z) : imc := mkImc false 2 8 8 0 2 4 1 cells (1 # 100) 0.
Definition ex_tokens : list string := ["O"; "k"; "ox"; "="; "I"; "c"; "ix"; "*"; "W"; "c"; "k"; "fx"].
Definition ex_imc (cells : Z) : imc_request :=
  mkImcRequest ex_request (ex_array cells) ex_tokens ["W"] [("OX", "FX")] (Some [("K", 2%Q)]) None [] [mkMemArea "rf" (1 # 10) 2; mkMemArea "sram" 2 1].
Lemma ex_array_valid cells : valid (ex_array cells).
Proof. split; cbn; try lia; try (now compute); intros; first [now exists 1%nat|now exists 3%nat|now exists 2%nat]. Qed.
Lemma ex_plain cells : plain_mapping (ex_imc cells) "W".
Proof.
  constructor; cbn [ex_imc iq_request iq_tokens iq_constants iq_word iq_bit].
  - reflexivity.
  - split; [reflexivity|right; now left].
  - exists "I". split; [now left|discriminate].
  - exists ["OX"]. split; [reflexivity|]. intros d n [E|[]] [F|[]]. congruence.
  - intros d n [E|[]]. injection E as <- <-. discriminate.
Qed.
