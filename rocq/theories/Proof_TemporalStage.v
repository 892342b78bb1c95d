(** Proofs about the temporal mapping stage (C65). *)
From Verif Require Import Base Model_Loma Model_Perm Model_Alloc Model_Layer Model_TemporalStage
  Spec_Loma Spec_Layer Proof_LomaRun Proof_LomaFactors Proof_PermProps Proof_Ordering.
Open Scope string_scope.
Open Scope list_scope.
Open Scope Z_scope.

Lemma legacy_given o loops : all_given o loops -> legacy o = loops.
Proof.
  unfold all_given. intros ->. unfold legacy. rewrite map_map. cbn.
  induction loops as [|[d n] l IH]; cbn; [reflexivity|]. now rewrite IH.
Qed.

Lemma loops_no_one layer spatial loops : get_temporal_loops layer spatial = Ok loops ->
  NoDup (keys layer) -> NoDup (keys loops) /\ forall d n, In (d, n) loops -> n <> 1.
Proof.
  unfold get_temporal_loops. intros H Nd.
  destruct (rfold temporal_loops_step layer spatial) as [s|] eqn:E; [|discriminate]. cbn in H. injection H as <-.
  assert (N : forall sp d d', NoDup (keys d) -> rfold temporal_loops_step d sp = Ok d' -> NoDup (keys d')).
  { clear. induction sp as [|x sp IH]; intros d d' Nd H; cbn [rfold] in H; [injection H as <-; exact Nd|].
    destruct (temporal_loops_step d x) as [d1|] eqn:E; [|discriminate]. apply (IH d1); [|exact H].
    unfold temporal_loops_step in E. destruct x as [dim q]. destruct (dget dim d); [|injection E as <-; exact Nd].
    destruct (Qeq_bool q 0); [discriminate|]. cbn zeta in E.
    destruct (Qceiling _ =? 1); injection E as <-; [now apply NoDup_ddel|now apply NoDup_dset]. }
  split.
  - specialize (N spatial layer s Nd E). clear -N. induction s as [|[k v] s IH]; cbn; [constructor|].
    inversion N as [|? ? Hn Hd]; subst. destruct (1 <? v); [|now apply IH]. cbn. constructor; [|now apply IH].
    intros Hi. apply Hn. apply in_map_iff in Hi. destruct Hi as ([k' v'] & Ek & Hi). cbn in Ek. subst k'.
    apply filter_In in Hi. change k with (fst (k, v')). now apply List.in_map.
  - intros d n H. apply filter_In in H. destruct H as [_ H]. cbn in H. lia.
Qed.

Section Stage.
  Variables (factorint : Z -> list (Z * Z)) (lim : option Z)
    (layer_sizes : list (string * Z)) (unrolled : list (string * Q))
    (ly : layer) (spatial : dict string (list (list (string * Q)))) (mt : mapping_type)
    (tops : dict string nat) (nodes : list memlevel).
  Let alloc ordering := allocator_run ly spatial mt tops ordering nodes.

  (** A complete ordering is allocated as it is, and nothing else. *)
  Lemma stage_complete o given required fuel :
    NoDup (keys layer_sizes) -> get_temporal_loops layer_sizes unrolled = Ok required ->
    all_given o given ->
    (forall d, In d (map fst given) -> loop_product d given <> 1) ->
    (forall d, loop_product d given = size_or_1 d required) ->
    temporal_stage factorint lim layer_sizes unrolled ly spatial mt tops nodes fuel o
    = match alloc given with Ok m => ([m], None) | Err e => ([], Some e) end.
  Proof.
    intros Nd Hr Hg H1 Hp. destruct (loops_no_one _ _ _ Hr Nd) as [Nr N1].
    destruct (complete_spec o required Nr N1) as [_ C]. destruct (C given Hg) as [_ C2].
    destruct (C2 H1) as (b & Eb & Hb).
    assert (b = true) by (now apply Hb). subst b.
    unfold temporal_stage. rewrite Hr. cbn [rbind]. rewrite Eb. cbn [rbind]. rewrite (legacy_given o given Hg).
    fold (alloc given). destruct (alloc given); reflexivity.
  Qed.

  (** Otherwise the orderings of the factored loops that meet every entry are tried. *)
  Lemma stage_constrained o required lpfs :
    get_temporal_loops layer_sizes unrolled = Ok required ->
    is_complete o required = Ok false ->
    engine_lpfs factorint (pinned_sizes (get_constraints o)) lim layer_sizes unrolled = Ok lpfs ->
    lpfs <> [] -> (length o <= length lpfs)%nat ->
    exists tried,
      (forall p, In p tried <-> Permutation p lpfs /\ meets o p) /\
      exists enough, forall fuel, (enough <= fuel)%nat ->
        temporal_stage factorint lim layer_sizes unrolled ly spatial mt tops nodes fuel o
        = loma_run alloc tried.
  Proof.
    intros Hr Hc El Hne L.
    pose proof (constraints_generate o lpfs Hne L) as G. pose proof (fun p => pins_meet o p) as M.
    destruct (get_constraints o) as [ps qs] eqn:Ep.
    destruct G as (V & keep & G1 & G2 & G3).
    assert (F : forall p, In p (filter keep V) <-> Permutation p lpfs /\ meets o p).
    { intros p. rewrite filter_In. split.
      - intros [Hp Hk]. split; [now apply G2|now apply G3].
      - intros [Hp Hk]. assert (In p V) by (now apply G2). split; [assumption|now apply G3]. }
    unfold temporal_stage. rewrite Hr. cbn [rbind]. rewrite Hc. cbn [rbind]. rewrite Ep, El. cbn [rbind].
    destruct (pinned_sizes (ps, qs)) as [ss|] eqn:Es.
    - exists (filter keep V). split; [exact F|]. exists (length V). intros fuel Hf. cbn [fst snd].
      rewrite (G1 fuel Hf). reflexivity.
    - assert (E0 : ps = [] /\ qs = []) by (destruct ps, qs; cbn in Es; try discriminate; auto).
      destruct E0 as [-> ->].
      destruct (permutations_ok loop_ltb loop_ltb_irr loop_ltb_trans loop_ltb_tot lpfs Hne) as (V' & _ & A & B).
      exists V'. split.
      + intros p. rewrite A. split; [|tauto]. intros Hp. split; [exact Hp|]. apply M.
        * pose proof (Permutation_length Hp) as Lp. unfold loop, ordering in *. lia.
        * split; [intros pos d []|intros pos d s []].
      + exists (length V'). intros fuel Hf. rewrite (B fuel Hf). reflexivity.
  Qed.
End Stage.

(** The mappings of the stage, when allocation fails only for lack of memory. *)
Lemma stage_mappings factorint lim layer_sizes unrolled ly spatial mt tops nodes (o : ordering) required lpfs :
  get_temporal_loops layer_sizes unrolled = Ok required ->
  is_complete o required = Ok false ->
  engine_lpfs factorint (pinned_sizes (get_constraints o)) lim layer_sizes unrolled = Ok lpfs ->
  lpfs <> [] -> (length o <= length lpfs)%nat ->
  (forall p e, Permutation p lpfs -> allocator_run ly spatial mt tops p nodes = Err e ->
     e = MemoryHierarchyTooSmall \/ e = MemoryTooSmall) ->
  exists enough, forall fuel, (enough <= fuel)%nat ->
    let '(mappings, error) := temporal_stage factorint lim layer_sizes unrolled ly spatial mt tops nodes fuel o in
    (forall m, In m mappings <-> exists p, Permutation p lpfs /\ meets o p /\ allocator_run ly spatial mt tops p nodes = Ok m) /\
    (error = None \/ error = Some NoValidLoopOrdering) /\
    (error = None <-> mappings <> []).
Proof.
  intros Hr Hc He Ne Hl Ha.
  destruct (stage_constrained factorint lim layer_sizes unrolled ly spatial mt tops nodes o required lpfs Hr Hc He Ne Hl)
    as (tried & Ht & enough & Hrun).
  exists enough. intros fuel Hf. rewrite (Hrun fuel Hf).
  destruct (loma_run_spec (fun ordering => allocator_run ly spatial mt tops ordering nodes) tried) as (S1 & S2 & S3 & S4).
  { intros p e Hp. apply Ha. now apply Ht. }
  destruct (loma_run (fun ordering => allocator_run ly spatial mt tops ordering nodes) tried) as [mappings error]. cbn [fst snd] in *.
  assert (Mem : forall m, In m mappings <-> exists p, In p tried /\ allocator_run ly spatial mt tops p nodes = Ok m).
  { intros m. rewrite S1, in_flat_map. split; intros (p & Hp & H); exists p; split; auto.
    - destruct (allocator_run _ _ _ _ p _); [destruct H as [<-|[]]; reflexivity|destruct H].
    - rewrite H. now left. }
  split; [|split].
  - intros m. rewrite Mem. split; intros (p & H).
    + exists p. destruct H as [H1 H2]. apply Ht in H1. tauto.
    + exists p. destruct H as (H1 & H2 & H3). split; [apply Ht; auto|exact H3].
  - destruct error as [e|]; [right; f_equal; now apply S4|now left].
  - rewrite S2. split.
    + intros (p & m & Hp & Hm). intros E. assert (In m mappings) by (apply Mem; eauto). rewrite E in H. destruct H.
    + intros N. destruct mappings as [|m l]; [congruence|]. destruct (proj1 (Mem m) (or_introl eq_refl)) as (p & Hp & Hm). eauto.
Qed.

Lemma pinned_example : exists lpfs,
  get_temporal_loops [("K", 4); ("C", 3); ("OX", 2)] [("OX", 2%Q)] = Ok [("K", 4); ("C", 3)] /\
  is_complete [("C", None)] [("K", 4); ("C", 3)] = Ok false /\
  engine_lpfs factorint_td (pinned_sizes (get_constraints [("C", None)])) None [("K", 4); ("C", 3); ("OX", 2)] [("OX", 2%Q)] = Ok lpfs /\
  lpfs <> [] /\ (1 <= length lpfs)%nat /\
  meets [("C", None)] [("C", 3); ("K", 2); ("K", 2)] /\ ~ meets [("C", None)] [("K", 2); ("C", 3); ("K", 2)].
Proof.
  eexists. split; [vm_compute; reflexivity|]. split; [vm_compute; reflexivity|]. split; [vm_compute; reflexivity|].
  split; [discriminate|]. split; [cbn; lia|]. split.
  - intros [|[|i]] e H N; cbn in H; try discriminate. injection H as <-. exists ("C", 3).
    split; [split; [reflexivity|discriminate]|]. split; [reflexivity|]. intros B. exfalso. apply B.
    intros [|j] e Hj He; [|lia]. cbn in He. injection He as <-. discriminate.
  - intros M. destruct (M 0%nat ("C", None)) as (x & F & B & _); [reflexivity|discriminate|].
    assert (B' : nth_error [("K", 2); ("C", 3); ("K", 2)] 0 = Some x).
    { apply B. intros [|j] e Hj He; [|lia]. cbn in He. injection He as <-. discriminate. }
    cbn in B'. injection B' as <-. destruct F as [F _]. discriminate.
Qed.
