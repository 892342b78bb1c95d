(** Proof of the end-to-end statement about the mapper (C11). *)
From Verif Require Import Base Model_Loma Spec_Loma Proof_LomaFactors Proof_LomaPins Proof_LomaRun Model_Perm Proof_PermProps
  Model_Alloc Spec_Alloc Proof_AllocErr Model_Engine.

Lemma engine_end_to_end factorint lim layer_sizes unrolled ly spatial mt tops nodes :
  factorint_ok factorint -> layer_sizes <> [] ->
  NoDup (keys layer_sizes) -> (forall d n, In (d, n) layer_sizes -> 1 <= n) ->
  (forall d s, In (d, s) unrolled -> (1 <= s)%Q) -> (forall l, lim = Some l -> 1 <= l) ->
  complete_inputs ly spatial tops nodes ->
  NoDup (map fst (l_links ly)) -> NoDup (map snd (l_links ly)) ->
  (forall n, In n nodes -> NoDup (m_operands n)) ->
  exists lpfs V,
    (forall d n, In (d, n) layer_sizes ->
      (inject_Z n <= qprod (unrollings_of d unrolled) * inject_Z (loop_product d lpfs))%Q) /\
    (forall p, In p V <-> Permutation p lpfs) /\ NoDup V /\
    forall fuel, (length V <= fuel)%nat -> exists ms e,
      loma_engine factorint lim layer_sizes unrolled ly spatial mt tops nodes fuel = Ok (ms, e) /\
      ms = flat_map (fun p => match allocator_run ly spatial mt tops p nodes with
                              | Ok m => [m] | Err _ => [] end) V /\
      (e = None <-> exists p m, Permutation p lpfs /\ allocator_run ly spatial mt tops p nodes = Ok m) /\
      (e = Some NoValidLoopOrdering <-> forall p, Permutation p lpfs ->
         allocator_run ly spatial mt tops p nodes = Err MemoryTooSmall \/
         allocator_run ly spatial mt tops p nodes = Err MemoryHierarchyTooSmall) /\
      (e = None \/ e = Some NoValidLoopOrdering).
Proof.
  intros Hf Hne Hnd Hsz Hun Hlim Hwf Hl1 Hl2 Hops.
  destruct (engine_ok factorint layer_sizes unrolled lim Hf Hne Hnd Hsz Hun Hlim) as (lpfs & E & Hnil & Hcov & _).
  destruct (permutations_ok loop_ltb loop_ltb_irr loop_ltb_trans loop_ltb_tot lpfs Hnil)
    as (V & HndV & HV & Hrun).
  exists lpfs, V. split; [exact Hcov|]. split; [exact HV|]. split; [exact HndV|].
  intros fuel Hfuel. unfold loma_engine. rewrite E. cbn [rbind]. rewrite (Hrun fuel Hfuel). cbn [rbind].
  set (alloc := fun o => allocator_run ly spatial mt tops o nodes).
  assert (Hout : forall o e, alloc o = Err e -> e = MemoryHierarchyTooSmall \/ e = MemoryTooSmall).
  { intros o e Eo. assert (H := run_outcome ly spatial mt tops o nodes Hwf Hl2 Hops).
    fold (alloc o) in H. rewrite Eo in H. cbn in H. tauto. }
  destruct (loma_run_spec alloc V (fun o e _ => Hout o e)) as (H1 & H2 & H3 & H4).
  destruct (loma_run alloc V) as (ms & e). cbn [fst snd] in *.
  exists ms, e. split; [reflexivity|]. split; [exact H1|]. split; [|split].
  - rewrite H2. split; intros (p & m & Hp & Ep); exists p, m; (split; [now apply HV|exact Ep]).
  - rewrite H3. split; intros H p Hp.
    + destruct (H p (proj2 (HV p) Hp)) as (err & Ep). destruct (Hout _ _ Ep) as [->| ->]; [now right|now left].
    + apply HV in Hp. destruct (H p Hp) as [Ep|Ep]; eexists; exact Ep.
  - destruct e as [e|]; [right|now left]. f_equal. now apply H4.
Qed.
