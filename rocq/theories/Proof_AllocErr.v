(** Which exceptions the allocator can raise (C11). *)
From Verif Require Import Base Model_Pr Model_Alloc Spec_Alloc Proof_AllocSearch Proof_AllocTile Proof_Alloc Proof_AllocRun.
Open Scope result_scope.

(** A result, or one of the two capacity exceptions. *)
Definition capacity_outcome {A} (r : result A) : Prop :=
  match r with
  | Ok _ => True
  | Err e => e = MemoryTooSmall \/ e = MemoryHierarchyTooSmall
  end.

Lemma outcome_bind {A B} (r : result A) (f : A -> result B) :
  capacity_outcome r -> (forall a, r = Ok a -> capacity_outcome (f a)) -> capacity_outcome (rbind r f).
Proof. intros Hr Hf. destruct r as [a|e]; cbn in *; [now apply Hf|exact Hr]. Qed.

Lemma outcome_rmap {A B} (f : A -> result B) l : (forall x, In x l -> capacity_outcome (f x)) -> capacity_outcome (rmap f l).
Proof.
  induction l as [|x l IH]; intros H; cbn; [exact I|].
  assert (Hx := H x (or_introl eq_refl)). destruct (f x); [|exact Hx].
  assert (Hl := IH (fun y Hy => H y (or_intror Hy))). destruct (rmap f l); [exact I|exact Hl].
Qed.

Lemma outcome_rfold_any {A B} (f : A -> B -> result A) : forall l a,
  (forall a x, In x l -> capacity_outcome (f a x)) -> capacity_outcome (rfold f a l).
Proof.
  induction l as [|x l IH]; intros a H; cbn; [exact I|].
  assert (Hx := H a x (or_introl eq_refl)). destruct (f a x); [|exact Hx].
  apply IH. intros a' y Hy. apply H. now right.
Qed.

Lemma dgetr_key {K V} `{EqB K} (k : K) (d : dict K V) : In k (keys d) -> exists v, dgetr k d = Ok v /\ dget k d = Some v.
Proof. intros Hk. destruct (key_dget k d Hk) as (v & E). exists v. unfold dgetr. rewrite E. now split. Qed.

Section Err.
  Variable ly : layer.
  Variable spatial : dict string (list (list (string * Q))).
  Variable mtype : mapping_type.
  Variable tops : dict string nat.
  Variable ordering : list tloop.
  Variable all_nodes : list memlevel.

  (** The layer, the spatial mapping and the hierarchy describe every operand. *)
  Definition complete_inputs : Prop :=
    (forall lop mop, In (lop, mop) (l_links ly) ->
       In lop (keys (l_precision ly)) /\ In lop (keys (l_ir ly)) /\ In mop (keys tops) /\
       (exists dims, dget lop (l_r_or_pr ly) = Some dims /\
          forall d, In d dims ->
            match dget d (l_pr_loop ly) with
            | Some _ => In d (keys (l_pr_scaling ly)) /\ In d (keys (l_pr_sizes ly))
            | None => In d (l_dims ly)
            end) /\
       (exists lvls, dget lop spatial = Some lvls /\ (storing mop all_nodes < length lvls)%nat)).

  Hypothesis Hwf : complete_inputs.

  Lemma tensor_dim_ok sizes d :
    match dget d (l_pr_loop ly) with
    | Some _ => In d (keys (l_pr_scaling ly)) /\ In d (keys (l_pr_sizes ly))
    | None => In d (l_dims ly)
    end -> exists q, calc_tensor_dim ly sizes d = Ok q.
  Proof.
    intros H. unfold calc_tensor_dim. destruct (dget d sizes) as [q|]; [now exists q|].
    destruct (dget d (l_pr_loop ly)) as [[da db]|].
    - destruct H as (H1 & H2). destruct (dgetr_key d _ H1) as (sc & -> & _).
      destruct (dgetr_key d _ H2) as (m & -> & _). cbn. eexists. reflexivity.
    - apply memb_In in H. rewrite H. eexists. reflexivity.
  Qed.

  Lemma loops_size_ok loops lop mop p : In (lop, mop) (l_links ly) -> exists q, calc_loops_size ly loops lop p = Ok q.
  Proof.
    intros Hl. destruct (Hwf _ _ Hl) as (_ & _ & _ & (dims & Ed & Hd) & _).
    unfold calc_loops_size, calc_tensor_size, dgetr. rewrite Ed. cbn [of_option rbind].
    assert (Hq : exists qs, rmap (calc_tensor_dim ly (dim_sizes loops)) dims = Ok qs).
    { clear Ed. induction dims as [|d dims IH]; cbn; [now exists []|].
      destruct (tensor_dim_ok (dim_sizes loops) d (Hd d (or_introl eq_refl))) as (q & ->).
      destruct (IH (fun x Hx => Hd x (or_intror Hx))) as (qs & ->). now exists (q :: qs). }
    destruct Hq as (qs & ->). cbn. eexists. reflexivity.
  Qed.

  Lemma precision_exists pre lm o ls : okop spatial tops ordering pre lm o ls -> In lm (l_links ly) ->
    exists p, get_precision ly spatial (snd lm) o = Ok p.
  Proof.
    intros Hok Hl. destruct lm as [lop mop]. destruct (Hwf _ _ Hl) as (H1 & H2 & _).
    destruct (dgetr_key lop _ H1) as (p & Ep & _). destruct (dgetr_key lop _ H2) as (ir & Eir & _).
    unfold get_precision. cbn [snd]. rewrite (ok_op _ _ _ _ _ _ _ Hok). cbn [fst].
    destruct (eqb mop output_mem_op); [|now exists p].
    rewrite Eir. cbn [rbind]. unfold get_unrolling_all, dgetr. assert (Esp := ok_sp _ _ _ _ _ _ _ Hok); cbn [fst] in Esp; rewrite Esp. cbn [of_option rbind].
    destruct (existsb _ _).
    - unfold dgetr in Ep. now exists p.
    - eexists. reflexivity.
  Qed.

  Lemma slices_outcome alloc lop mop p cap : In (lop, mop) (l_links ly) -> forall rest pre,
    capacity_outcome (slices ly alloc lop p cap pre rest).
  Proof.
    intros Hl. induction rest as [|t rest IH]; intros pre; cbn [slices];
      destruct (loops_size_ok (alloc ++ map of_tloop pre) lop mop p Hl) as (q & ->); cbn [rbind];
      destruct (Qle_bool q (inject_Z cap)).
    - exact I.
    - destruct pre; cbn; tauto.
    - apply outcome_bind; [apply IH|]. intros; exact I.
    - destruct pre; cbn; tauto.
  Qed.

  Lemma search_outcome valid cap cs : capacity_outcome (search valid cap cs).
  Proof.
    unfold search. apply outcome_bind; [|intros; exact I].
    apply outcome_rfold_any. intros a i _. unfold search_step.
    destruct (negb _); [destruct i; cbn; tauto|]. destruct (_ && _); exact I.
  Qed.

  Lemma storing_mono m pre node post : all_nodes = pre ++ node :: post -> In m (m_operands node) ->
    (S (storing m pre) <= storing m all_nodes)%nat.
  Proof.
    intros -> Hm. unfold storing. rewrite filter_app, app_length. cbn [filter].
    apply memb_In in Hm. rewrite Hm. cbn. lia.
  Qed.

  (** What the commit needs: the operands' states in [st]. *)
  Lemma commit_outcome node : forall l st, NoDup (map fst l) ->
    (forall m k, In (m, k) l -> exists o sp, dget m st = Some o /\
       get_unrolling spatial (o_layer_op o) (o_level o) = Ok sp /\ In m (keys tops)) ->
    capacity_outcome (rfold (commit spatial tops node) st l).
  Proof.
    induction l as [|[m k] l IH]; intros st Hnd H; cbn [rfold]; [exact I|].
    cbn in Hnd. inversion Hnd as [|? ? Hni Hnd']; subst.
    destruct (H m k (or_introl eq_refl)) as (o & sp & Ho & Hsp & Ht).
    unfold commit at 1. unfold dgetr. rewrite Ho. cbn [of_option rbind]. rewrite Hsp. cbn [rbind].
    unfold is_top. destruct (dgetr_key m _ Ht) as (t & -> & _). cbn [rbind].
    destruct (_ && _); [cbn; tauto|]. apply IH; [assumption|].
    intros m' k' Hin. destruct (H m' k' (or_intror Hin)) as (o' & sp' & Ho' & H').
    exists o', sp'. split; [|assumption]. rewrite dget_dset_neq; [assumption|].
    intros ->. apply Hni. now apply (in_map fst) in Hin.
  Qed.

  Hypothesis Hnd_mem : NoDup (map snd (l_links ly)).

  Lemma allocate_outcome pre node post st : all_nodes = pre ++ node :: post -> NoDup (m_operands node) ->
    inv ly spatial tops ordering pre st -> capacity_outcome (allocate_node ly spatial mtype tops st node).
  Proof.
    intros Hsplit Hnd (Hk & Hinv). unfold allocate_node.
    set (ops := filter (fun op => memb op (map snd (l_links ly))) (m_operands node)).
    assert (Hops : forall m, In m ops -> In m (m_operands node) /\ exists lop o ls,
      In (lop, m) (l_links ly) /\ dget m st = Some o /\ okop spatial tops ordering pre (lop, m) o ls).
    { intros m Hm. apply filter_In in Hm. destruct Hm as (Hm & Hl). split; [assumption|].
      apply memb_In in Hl. destruct (in_map_link ly m Hl) as (lop & Hlm).
      destruct (Hinv _ Hlm) as (o & ls & Ho & Hok). now exists lop, o, ls. }
    apply outcome_bind.
    { apply outcome_rmap. intros m Hm. destruct (Hops m Hm) as (_ & lop & o & ls & _ & Ho & _).
      unfold dgetr. rewrite Ho. exact I. }
    intros sts Ests. destruct (rmap_combine _ _ _ Ests) as (S1 & S2 & S3).
    assert (Hrow : forall m o, In (m, o) (combine ops sts) -> In m ops /\ dget m st = Some o).
    { intros m o Hin. split; [rewrite <- S1; now apply (in_map fst) in Hin|].
      apply (S3 (m, o)) in Hin. now apply dgetr_Ok in Hin. }
    apply outcome_bind.
    { apply outcome_rmap. intros [m o] Hin. cbn [fst snd]. destruct (Hrow _ _ Hin) as (Hm & Ho).
      destruct (Hops m Hm) as (_ & lop & o' & ls & Hl & Ho' & Hok). rewrite Ho in Ho'. injection Ho' as <-.
      unfold calc_size_slices. destruct (precision_exists _ _ _ _ Hok Hl) as (p & Ep). cbn [snd] in Ep. rewrite Ep.
      cbn [rbind]. rewrite (ok_op _ _ _ _ _ _ _ Hok). cbn [fst]. now apply (slices_outcome _ lop m). }
    intros sizes Esizes. destruct (rmap_combine _ _ _ Esizes) as (Z1 & Z2 & Z3).
    apply outcome_bind.
    { apply outcome_rmap. intros [[m o] ss] Hin. cbn [fst snd].
      assert (Hin1 : In (m, o) (combine ops sts)) by (rewrite <- Z1; now apply (in_map fst) in Hin).
      destruct (Hrow _ _ Hin1) as (Hm & Ho). destruct (Hops m Hm) as (_ & lop & o' & ls & Hl & _ & _).
      destruct (Hwf _ _ Hl) as (_ & _ & Ht & _). destruct (dgetr_key m _ Ht) as (t & Et & _).
      unfold candidates, is_top. rewrite Et. cbn [rbind].
      destruct (Nat.eqb (m_id node) t); [|exact I].
      assert (Hss : ss <> []).
      { specialize (Z3 _ Hin). cbn [fst snd] in Z3. unfold calc_size_slices in Z3. apply rbind_Ok in Z3.
        destruct Z3 as (p & _ & Z3). apply slices_ok in Z3. destruct Z3 as (Z3 & _). now apply Z3. }
      destruct (nth_error ss (length ss - 1)) as [s|] eqn:En; [exact I|].
      exfalso. apply nth_error_None in En. destruct ss; [contradiction|cbn in En; lia]. }
    intros cs Ecs. apply outcome_bind; [apply search_outcome|]. intros idxs Eidx.
    assert (Hsub : forall m k, In (m, k) (combine ops idxs) -> In m ops) by (intros m k; apply in_combine_l).
    apply commit_outcome.
    - assert (Hops_nd : NoDup ops) by now apply NoDup_filter.
      clear - Hops_nd. revert idxs. induction ops as [|m l IH]; intros [|k ks]; cbn; try constructor.
      + inversion Hops_nd; subst. intros Hin. apply in_map_iff in Hin. destruct Hin as ([m' k'] & Em & Hin). cbn in Em. subst m'.
        now apply in_combine_l in Hin.
      + inversion Hops_nd; subst. now apply IH.
    - intros m k Hin. destruct (Hops m (Hsub _ _ Hin)) as (Hmn & lop & o & ls & Hl & Ho & Hok).
      destruct (Hwf _ _ Hl) as (_ & _ & Ht & _ & (lvls & El & Hlen)).
      assert (Hlv := ok_level _ _ _ _ _ _ _ Hok). assert (Hle := ok_len _ _ _ _ _ _ _ Hok). cbn [snd] in Hle.
      assert (Hst := storing_mono m pre node post Hsplit Hmn).
      destruct (nth_error lvls (o_level o)) as [sp|] eqn:En.
      + exists o, sp. split; [assumption|]. split; [|assumption]. unfold get_unrolling, dgetr.
        rewrite (ok_op _ _ _ _ _ _ _ Hok). cbn [fst]. rewrite El. cbn [of_option rbind]. now rewrite En.
      + exfalso. apply nth_error_None in En. lia.
  Qed.

  Hypothesis Hnd_lay : NoDup (map fst (l_links ly)).
  Hypothesis Hnd_ops : forall n, In n all_nodes -> NoDup (m_operands n).

  Lemma nodes_outcome : forall nodes pre st, all_nodes = pre ++ nodes -> inv ly spatial tops ordering pre st ->
    capacity_outcome (rfold (allocate_node ly spatial mtype tops) st nodes).
  Proof.
    induction nodes as [|n nodes IH]; intros pre st Hs Hi; cbn [rfold]; [exact I|].
    assert (Hn : NoDup (m_operands n)) by (apply Hnd_ops; rewrite Hs; apply in_or_app; right; now left).
    assert (Ho := allocate_outcome pre n nodes st Hs Hn Hi).
    destruct (allocate_node ly spatial mtype tops st n) as [st1|e] eqn:E; [|exact Ho].
    apply (IH (pre ++ [n])); [now rewrite <- app_assoc|].
    now destruct (inv_step ly spatial mtype tops ordering Hnd_mem pre st n st1 Hn Hi E) as (Hi1 & _).
  Qed.

  Lemma run_outcome : capacity_outcome (allocator_run ly spatial mtype tops ordering all_nodes).
  Proof.
    unfold allocator_run. apply outcome_bind.
    - unfold init_state. apply outcome_rmap. intros [lop mop] Hin. unfold init_op.
      destruct (Hwf _ _ Hin) as (_ & _ & _ & _ & (lvls & El & Hlen)).
      unfold get_unrolling, dgetr. rewrite El. cbn [of_option rbind].
      destruct lvls as [|l0 lvls]; [cbn in Hlen; lia|]. exact I.
    - intros st0 E0. apply outcome_bind; [|intros; exact I].
      apply (nodes_outcome all_nodes []); [reflexivity|]. now apply inv_init.
  Qed.
End Err.
