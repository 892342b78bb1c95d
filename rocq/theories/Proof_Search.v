(** Proofs for C80. *)
From Coq Require Import QArith Lia.
From Verif Require Import Base Model_Alloc Model_Loma Model_Perm Model_DataMove Model_Mapping Model_Links Model_Cost Model_Graph Model_Hierarchy Model_Latency Model_Evaluate Model_Layer Model_Engine Model_Cme Model_Pipeline
  Model_TemporalStage Model_Search
  Spec_Loma Spec_Alloc Spec_Decouple Spec_SpatialInt Spec_Temporal Spec_Mapping Spec_Graph Spec_Hierarchy Spec_Evaluate Spec_Cme Spec_Search
  Proof_Alloc Proof_AllocSearch Proof_AllocRun Proof_AllocErr Proof_LomaLoops Proof_LomaFactors Proof_LomaOnes Proof_LomaPins Proof_LomaRun Proof_PermProps Proof_Engine Proof_Links Proof_Bandwidth Proof_Hierarchy Proof_EvalExample Proof_CmeMore Proof_Reduce Proof_Pipeline.
Local Open Scope string_scope.
Local Open Scope list_scope.
Local Open Scope Z_scope.

(** The operands of a mapping found are those of the layer. *)
Lemma run_keys ly spatial mt tops ordering nodes tm : NoDup (map snd (l_links ly)) -> NoDup (map fst (l_links ly)) ->
  (forall n, In n nodes -> NoDup (m_operands n)) -> allocator_run ly spatial mt tops ordering nodes = Ok tm -> keys tm = map fst (l_links ly).
Proof.
  intros N1 N2 Hn E. unfold allocator_run in E. apply rbind_Ok in E. destruct E as (st0 & E0 & E). apply rbind_Ok in E. destruct E as (st & E1 & E).
  assert (Et : tm = map (fun kv => (o_layer_op (snd kv), o_map (snd kv))) st) by congruence. subst tm. clear E.
  destruct (inv_run ly spatial mt tops ordering N1 nodes [] st0 st Hn (inv_init ly spatial tops ordering st0 N1 E0) E1) as ((Hk & Hi) & _). clear E0 E1.
  assert (Hop : forall m o, In (m, o) st -> exists lop, In (lop, m) (l_links ly) /\ o_layer_op o = lop).
  { intros m o' Hin. assert (Hm : In m (map snd (l_links ly))) by (rewrite <- Hk; now apply (List.in_map fst) in Hin).
    destruct (in_map_link ly m Hm) as (lop & Hlm). exists lop. split; [assumption|].
    destruct (Hi _ Hlm) as (o2 & ls & Ho2 & Hok). cbn in Ho2.
    assert (E : dget m st = Some o') by (apply In_dget; [rewrite Hk; assumption|assumption]).
    rewrite E in Ho2. injection Ho2 as <-. exact (ok_op _ _ _ _ _ _ _ Hok). }
  unfold keys. rewrite map_map. cbn [fst]. clear Hi. revert Hk Hop N1. generalize (l_links ly). induction st as [|[m o] st IH];
    intros [|[lop m'] links] Hk Hop Hnd; cbn in Hk |- *; try discriminate; [reflexivity|].
  injection Hk as <- Hk. cbn in Hnd. inversion Hnd as [|? ? Hni Hnd']; subst. f_equal.
  - destruct (Hop m o (or_introl eq_refl)) as (lop' & Hin & Eo). rewrite Eo.
    destruct Hin as [E|Hin]; [congruence|]. exfalso. apply Hni. now apply (List.in_map snd) in Hin.
  - apply IH; [assumption| |assumption]. intros m2 o2 Hin2.
    destruct (Hop m2 o2 (or_intror Hin2)) as (lop2 & Hin & Eo). exists lop2. split; [|assumption].
    destruct Hin as [E|Hin]; [|assumption]. exfalso. injection E as _ E. apply Hni.
    rewrite E, <- Hk. now apply (List.in_map fst) in Hin2.
Qed.

Section Search.
  Variables (rq : request) (sizes : list (string * Z)) (pc : nat) (ms : list memspec).
  Hypothesis R : searchable rq sizes pc ms.
  Let ly := rq_layer rq.
  Let h := rq_hierarchy rq.

  Lemma links_once : NoDup (map fst (l_links ly)) /\ NoDup (map snd (l_links ly)).
  Proof.
    unfold ly. rewrite (se_links _ _ _ _ R). destruct (sl_links _ (se_layer _ _ _ _ R)) as (data & ND & El).
    unfold make_links in El. destruct (Nat.eqb_spec (length (reverse_dict data)) (length data)) as [L|]; [|discriminate]. injection El as El. rewrite <- El. cbn [lk_data].
    split; [exact ND|]. now apply reverse_length_nodup.
  Qed.

  Lemma view : exists tops nodes, allocator_view rq = Ok (tops, nodes) /\ (forall n, In n nodes -> NoDup (m_operands n)) /\
    (forall mem_op, storing mem_op nodes = length (holders h mem_op)) /\
    forall op mem_op, In (op, mem_op) (l_links ly) -> In mem_op (keys tops) /\ exists n, In n nodes /\ In mem_op (m_operands n) /\ dget mem_op tops = Some (m_id n).
  Proof.
    destruct links_once as (N1 & N2). assert (SH := se_hardware _ _ _ _ R). assert (Hb := sh_built _ _ _ SH). fold h in Hb. destruct (sh_once _ _ _ SH) as (_ & HO).
    destruct (levels_perm pc ms h Hb) as (L & El & T & HL). destruct (build_inv pc ms h Hb) as (HI & F).
    assert (St : forall op mem_op, In (op, mem_op) (l_links ly) -> exists l, get_operand_top_level h mem_op = Ok l /\ last_such (stores mem_op) (h_list h) l).
    { intros op mem_op Il. apply (top_is_last pc ms h mem_op HO Hb). unfold ly in Il, N1. rewrite (se_links _ _ _ _ R) in Il, N1.
      destruct (se_stored _ _ _ _ R op mem_op (In_dget _ _ _ N1 Il)) as (m & Im & Io). destruct (Forall2_in_l _ _ _ m F Im) as (l & Ilv & D).
      exists l. split; [exact Ilv|]. unfold stores. destruct D as (-> & _). exact Io. }
    assert (Et : exists tops, rmap (fun mem_op => rbind (get_operand_top_level h mem_op) (fun l => Ok (mem_op, lv_id l))) (map snd (l_links ly)) = Ok tops /\ map fst tops = map snd (l_links ly) /\
      forall mem_op i, In (mem_op, i) tops -> exists l, i = lv_id l /\ last_such (stores mem_op) (h_list h) l).
    { clear - St. revert St. generalize (l_links ly). induction l as [|[op mo] l IH]; intros St; cbn [map snd rmap].
      - exists []. split; [reflexivity|]. split; [reflexivity|]. intros ? ? [].
      - destruct (St op mo (or_introl eq_refl)) as (lv & -> & La). cbn [rbind]. destruct IH as (tops & -> & K & I); [intros; apply (St op0); now right|].
        exists ((mo, lv_id lv) :: tops). cbn. split; [reflexivity|]. split; [now rewrite K|]. intros mem_op i [Q|Q]; [injection Q as <- <-; now exists lv|now apply I]. }
    destruct Et as (tops & Et & Kt & It). exists tops, (map node_of (pick (h_list h) L)). split; [|split; [|split]].
    - unfold allocator_view. fold h ly. rewrite Et. cbn [rbind]. rewrite El. reflexivity.
    - intros n In'. apply in_map_iff in In'. destruct In' as (l & <- & Il). cbn. apply In_pick in Il. destruct Il as (i & _ & Ei). apply nth_error_In in Ei.
      destruct (Forall2_in_r _ _ _ l F Ei) as (m & Im & D). unfold lv_operands. destruct D as (-> & _). now apply HO.
    - intros mem_op. destruct (HL mem_op) as (ls & _ & Els & P). unfold storing. rewrite <- (Permutation_length P), Els. clear. induction (pick (h_list h) L) as [|l p IH]; [reflexivity|].
      cbn [map filter node_of m_operands]. unfold holds at 1. destruct (memb mem_op (lv_operands l)); cbn [length]; now rewrite IH.
    - intros op mem_op Il. assert (Ik : In mem_op (keys tops)) by (unfold keys; rewrite Kt; now apply (List.in_map snd) in Il). split; [exact Ik|].
      apply key_dget in Ik. destruct Ik as (i & Ei). destruct (It mem_op i (dget_In _ _ _ Ei)) as (l & -> & (l1 & l2 & Eh & S & _)).
      assert (Ih : In l (h_list h)) by (rewrite Eh; apply in_or_app; right; now left). exists (node_of l). split; [|split; [exact S|exact Ei]].
      apply List.in_map. apply In_pick. apply In_nth_error in Ih. destruct Ih as (j & Ej). exists j. split; [|exact Ej].
      destruct T as (P & _). rewrite (hi_nodes h HI) in P. apply (Permutation_in _ (Permutation_sym P)). apply in_seq. split; [lia|]. cbn. now apply nth_error_Some; rewrite Ej.
  Qed.

  Lemma spatial_known op mem_op su : dget op (lk_data (rq_links rq)) = Some mem_op -> dget op (rq_spatial rq) = Some su -> forall x, In x (concat su) -> (1 <= snd x)%Q.
  Proof.
    intros Hl Hs x Ix. destruct (sr_levels _ _ (se_spatial _ _ _ _ R) op mem_op Hl) as (su' & Hs' & _ & K). rewrite Hs in Hs'. injection Hs' as <-.
    destruct (se_relevancy _ _ _ _ R op) as (r & ir & Hr & Hir & _). { apply (proj2 (sl_operands _ (se_layer _ _ _ _ R) op)). exact (dget_Some_key _ _ _ Hl). }
    exact (proj1 (K x r ir Hr Hir Ix)).
  Qed.

  Lemma dims_ok : exists unrolled, spatial_loop_dim_size rq = Ok unrolled /\ forall d s, In (d, s) unrolled -> (1 <= s)%Q.
  Proof.
    assert (SL := se_layer _ _ _ _ R). destruct (sl_inputs _ SL) as (Ne & Hi). unfold spatial_loop_dim_size. destruct (rq_inputs rq) as [|op ops]; [congruence|]. cbn [nth_error of_option rbind].
    destruct (Hi op (or_introl eq_refl)) as (m & Hl & _). destruct (sr_levels _ _ (se_spatial _ _ _ _ R) op m Hl) as (su & Hs & _).
    exists (concat su). unfold dgetr. rewrite Hs. split; [reflexivity|]. intros d s Is. exact (spatial_known op m su Hl Hs (d, s) Is).
  Qed.

  Lemma view_complete tops nodes : (forall mem_op, storing mem_op nodes = length (holders h mem_op)) -> (forall op mem_op, In (op, mem_op) (l_links ly) -> In mem_op (keys tops)) ->
    Proof_AllocErr.complete_inputs ly (rq_spatial rq) tops nodes.
  Proof.
    intros St Kt op mem_op Il. assert (Il' := Il). destruct links_once as (N1 & _). unfold ly in Il', N1. rewrite (se_links _ _ _ _ R) in Il', N1.
    assert (SL := se_layer _ _ _ _ R). assert (Hl : dget op (lk_data (rq_links rq)) = Some mem_op) by (apply In_dget; assumption).
    assert (Io : In op (rq_ops rq)) by (apply (proj2 (sl_operands _ SL op)); exact (dget_Some_key _ _ _ Hl)).
    destruct (sl_precision _ SL) as (_ & Hp). destruct (Hp op Io) as (p & Ep & _). destruct (se_relevancy _ _ _ _ R op Io) as (r & ir & Hr & Hir & _ & Hd & Hk & Hin & _ & Hnp & _).
    split; [exact (dget_Some_key _ _ _ Ep)|]. split; [exact (dget_Some_key _ _ _ Hk)|]. split; [exact (Kt op mem_op Il)|]. split.
    - eexists. split; [exact Hd|]. intros d Id. assert (DO := sl_derived _ SL). apply in_app_or in Id. destruct Id as [Id|Id].
      + destruct (dget d (l_pr_loop ly)) as [v|] eqn:Ev; [|now apply Hin]. exfalso. destruct (Hnp d (in_or_app _ _ _ (or_introl Id))) as (Q & _). apply Q. exact (dget_Some_key _ _ _ Ev).
      + destruct (in_dec string_dec op (rq_pr rq)); [|destruct Id]. destruct (key_dget _ _ Id) as (ab & Eab). unfold ly. rewrite Eab.
        destruct (dok_scale _ DO d ab (dget_In _ _ _ Eab)) as (sa & sb & m & Es & _ & _ & Em & _). split; [exact (dget_Some_key _ _ _ Es)|exact (dget_Some_key _ _ _ Em)].
    - destruct (sr_levels _ _ (se_spatial _ _ _ _ R) op mem_op Hl) as (su & Hs & L & _). exists su. split; [exact Hs|]. rewrite St, L. unfold h. lia.
  Qed.

  (** Allocated orderings are mappings that suit the request. *)
  Lemma allocated_fits mt tops nodes lpfs p tm : (forall n, In n nodes -> NoDup (m_operands n)) -> (forall mem_op, storing mem_op nodes = length (holders h mem_op)) ->
    (forall op mem_op, In (op, mem_op) (l_links ly) -> exists n, In n nodes /\ In mem_op (m_operands n) /\ dget mem_op tops = Some (m_id n)) ->
    (forall d f, In (d, f) lpfs -> 1 <= f /\ exists n, In (d, n) sizes /\ (n = 1 -> f = 1)) -> Permutation p lpfs -> allocator_run ly (rq_spatial rq) mt tops p nodes = Ok tm ->
    valid_request (with_temporal rq tm) /\ forall op levels, In (op, levels) tm -> concat levels = p.
  Proof.
    intros Hn St Ht Hf P Er. destruct links_once as (N1 & N2). assert (K := run_keys _ _ _ _ _ _ _ N2 N1 Hn Er).
    assert (SL := se_layer _ _ _ _ R). assert (SH := se_hardware _ _ _ _ R). assert (El := se_links _ _ _ _ R). fold ly in El.
    assert (Nt : NoDup (keys tm)) by now rewrite K.
    assert (Lv : forall op levels, In (op, levels) tm -> exists mem_op, dget op (lk_data (rq_links rq)) = Some mem_op /\ concat levels = p /\ length levels = length (holders h mem_op)).
    { intros op levels I. assert (Ik : In op (map fst (l_links ly))) by (rewrite <- K; now apply (List.in_map fst) in I). apply in_map_iff in Ik. destruct Ik as ([op' mem_op] & Q & Il). cbn in Q. subst op'.
      exists mem_op. split; [rewrite <- El; now apply In_dget|].
      destruct (run_keeps_loops ly (rq_spatial rq) mt tops p N2 N1 nodes tm Hn Er op mem_op Il (Ht op mem_op Il)) as (levels' & E & C & L).
      rewrite (In_dget _ _ _ Nt I) in E. injection E as <-. now rewrite <- St. }
    split; [|intros op levels I; now destruct (Lv op levels I) as (_ & _ & C & _)].
    assert (Hp : forall x, In x p -> 1 <= snd x /\ exists n, In (fst x, n) sizes /\ (n = 1 -> snd x = 1)) by (intros [d f] Ix; apply (Permutation_in _ P) in Ix; exact (Hf d f Ix)).
    assert (SF : forall sp, spatial_ready rq sp -> spatial_fits (with_temporal rq tm) sp).
    { intros sp [Sl Su]. constructor; cbn [rq_temporal with_temporal rq_ops]; [|exact Su]. intros op levels Hd. apply dget_In in Hd.
      destruct (Lv op levels Hd) as (mem_op & Hl & C & L). destruct (Sl op mem_op Hl) as (su & Hs & Ls & Kn). exists su. split; [exact Hs|].
      assert (Io : In op (rq_ops rq)) by (apply (proj2 (sl_operands _ SL op)); exact (dget_Some_key _ _ _ Hl)).
      destruct (se_relevancy _ _ _ _ R op Io) as (r & ir & Hr & Hir & Nr & Hro & _ & _ & Hdis & Hnp & Hpr & Hkn).
      assert (Wn : forall x, In x (whole_nest su levels) -> (1 <= snd x)%Q /\ loop_dim rq (fst x) /\ ((snd x == 1)%Q \/ known_dim rq op r ir (fst x))).
      { intros x Ix. unfold whole_nest, within in Ix. apply in_app_or in Ix. destruct Ix as [Ix|Ix].
        - rewrite <- (map_length (map (fun y : tloop => (fst y, inject_Z (snd y)))) levels), firstn_all, <- concat_map, C in Ix. apply in_map_iff in Ix. destruct Ix as (y & <- & Iy).
          destruct (Hp y Iy) as (G & n & D & U). cbn [fst snd]. split; [change 1%Q with (inject_Z 1); now rewrite <- Zle_Qle|]. destruct (Hkn _ n D) as (LD & Kd). split; [exact LD|].
          destruct Kd as [->|Kd]; [left; now rewrite (U eq_refl)|now right].
        - rewrite firstn_all in Ix. exact (Kn x r ir Hr Hir Ix). }
      exists (mkOpinput su (Model_SpatialInt.mkCounts [] [] [] [] []) levels 0 [] [] []). split; [reflexivity|]. split; [reflexivity|]. constructor; cbn [oi_spatial oi_temporal with_temporal rq_layer rq_r rq_ir rq_pr].
      - split; [rewrite Ls, L; reflexivity|]. intros ->. cbn in L. destruct (se_stored _ _ _ _ R op mem_op Hl) as (m & Im & Iom).
        assert (Hb := sh_built _ _ _ SH). destruct (build_inv pc ms _ Hb) as (_ & F). destruct (Forall2_in_l _ _ _ m F Im) as (l & Ilv & D).
        assert (Ih : In l (holders h mem_op)). { apply filter_In. split; [exact Ilv|]. apply memb_In. destruct D as (D & _). unfold lv_operands in D. now rewrite D. }
        destruct (holders h mem_op); [destruct Ih|discriminate].
      - exists r, ir. split; [exact Hr|]. split; [exact Hir|]. split; [exact Nr|]. split; [exact Hro|]. split; [exact Hdis|]. split; [exact Hnp|]. split; [exact Hpr|].
        intros x Ix. destruct (Wn x Ix) as (_ & _ & [I|[I|[I|(I & q & da & db & Iq & Q)]]]); [now left|right; now left|right; right; now left|right; right; right]. split; [exact I|]. exists q, da, db. now split.
      - intros x Ix. destruct (Wn x Ix) as (G & (Q & _) & _). now split.
      - intros x q Ix Iq. destruct (Wn x Ix) as (_ & (_ & Q) & _). exact (Q q Iq). }
    constructor; cbn [with_temporal rq_spatial rq_spatial_int rq_units rq_cpo].
    - exists pc, ms. destruct SH. constructor; assumption.
    - destruct SL. constructor; assumption.
    - constructor; cbn [with_temporal rq_temporal rq_ops rq_links rq_hierarchy].
      + exact Nt.
      + intros op. rewrite K, El. symmetry. apply (proj2 (sl_operands _ SL op)).
      + exists p. split; [intros x Ix; now apply Hp|]. intros op levels I. now destruct (Lv op levels I) as (_ & _ & C & _).
      + intros op mem_op levels Hl Hd. destruct (Lv op levels (dget_In _ _ _ Hd)) as (mem_op' & Hl' & _ & L). rewrite Hl in Hl'. injection Hl' as <-. exact L.
    - apply SF, (se_spatial _ _ _ _ R).
    - apply SF, (se_spatial_int _ _ _ _ R).
    - exact (se_units _ _ _ _ R).
    - exact (se_cycles _ _ _ _ R).
  Qed.

  Lemma search_ok factorint lim mt : factorint_ok factorint -> (forall l, lim = Some l -> 1 <= l) ->
    exists unrolled tops nodes lpfs V, spatial_loop_dim_size rq = Ok unrolled /\ allocator_view rq = Ok (tops, nodes) /\
      (forall d n, In (d, n) sizes -> (inject_Z n <= qprod (unrollings_of d unrolled) * inject_Z (loop_product d lpfs))%Q) /\
      (forall p, In p V <-> Permutation p lpfs) /\ NoDup V /\
      forall fuel, (length V <= fuel)%nat -> exists found e, loma_mappings rq factorint lim sizes mt fuel = Ok (found, e) /\
        (forall tm, In tm found <-> exists p, Permutation p lpfs /\ allocator_run ly (rq_spatial rq) mt tops p nodes = Ok tm) /\
        search_ends found lpfs e /\
        forall tm, In tm found -> valid_request (with_temporal rq tm) /\ exists p, Permutation p lpfs /\ forall op levels, In (op, levels) tm -> concat levels = p.
  Proof.
    intros Hf Hlim. destruct links_once as (N1 & N2). destruct dims_ok as (un & Eu & Hu). destruct view as (tops & nodes & Ev & Hn & St & Ht).
    destruct (se_sizes _ _ _ _ R) as (Ne & Nd & Hge).
    assert (CI : Proof_AllocErr.complete_inputs ly (rq_spatial rq) tops nodes) by (apply view_complete; [exact St|intros op mem_op I; exact (proj1 (Ht op mem_op I))]).
    destruct (engine_ok factorint sizes un lim Hf Ne Nd Hge Hu Hlim) as (lpfs & El & Hnil & Hcov & Hsz & _).
    assert (Hsz' : forall d f, In (d, f) lpfs -> 1 <= f /\ exists n, In (d, n) sizes /\ (n = 1 -> f = 1)).
    { intros d f I. destruct (Hsz d f I) as (G & K). split; [exact G|]. destruct (key_dget _ _ K) as (n & Dn). exists n. split; [now apply dget_In in Dn|]. intros ->.
      exact (engine_ones factorint sizes un lim lpfs Hf Nd Hge Hu Hlim El d f I Dn). }
    destruct (temporal_loops_cover sizes un Nd Hge Hu) as (loops & Elo & _ & _ & Hcl).
    assert (Hout : forall o e, allocator_run ly (rq_spatial rq) mt tops o nodes = Err e -> e = MemoryHierarchyTooSmall \/ e = MemoryTooSmall).
    { intros o e Eo. assert (H := run_outcome ly (rq_spatial rq) mt tops o nodes CI N2 Hn). rewrite Eo in H. cbn in H. tauto. }
    assert (Dl : loops = [] \/ loops <> []) by (destruct loops; [now left|right; discriminate]). destruct Dl as [->|Nl].
    { exists un, tops, nodes, [], [[]]. split; [exact Eu|]. split; [exact Ev|]. split; [exact Hcl|].
      assert (HV : forall p : list (string * Z), In p [[]] <-> Permutation p []).
      { intros p. split; [intros [<-|[]]; constructor|intros P; apply Permutation_sym, Permutation_nil in P; now left]. }
      split; [exact HV|]. split; [repeat constructor; intros []|]. intros fuel _. unfold loma_mappings, stage_mappings. rewrite Eu. cbn [rbind]. rewrite Ev. cbn [rbind fst snd].
      unfold temporal_stage. rewrite Elo. fold ly. cbn [rbind is_complete all_loops existsb dict_eqb Model_Layer.dict_eqb length Nat.eqb forallb andb legacy map].
      destruct (allocator_run ly (rq_spatial rq) mt tops [] nodes) as [tm|x] eqn:Ea; cbn [rbind outcome]; eexists _, _; (split; [reflexivity|]); split.
      - intros tm'. split; [intros [<-|[]]; exists []; split; [constructor|exact Ea]|]. intros (p & Pp & Ep). apply Permutation_sym, Permutation_nil in Pp. subst p. left. congruence.
      - split; [split; [reflexivity|discriminate]|]. intros tm' [<-|[]].
        destruct (allocated_fits mt tops nodes [] [] tm Hn St (fun op mem_op Il => proj2 (Ht op mem_op Il)) (fun d f (F : False) => match F with end) (Permutation_refl _) Ea) as (Va & Co). split; [exact Va|]. exists []. now split.
      - intros tm'. split; [intros []|]. intros (p & Pp & Ep). apply Permutation_sym, Permutation_nil in Pp. subst p. congruence.
      - split; [|intros ? []]. split; [congruence|]. intros _. exists x. split; [reflexivity|]. split; [|congruence]. cbn. destruct (Hout [] x Ea) as [->| ->]; tauto. }
    destruct (permutations_ok loop_ltb loop_ltb_irr loop_ltb_trans loop_ltb_tot lpfs Hnil) as (V & HndV & HV & Hrun).
    exists un, tops, nodes, lpfs, V. split; [exact Eu|]. split; [exact Ev|]. split; [exact Hcov|]. split; [exact HV|]. split; [exact HndV|].
    intros fuel Hfuel. unfold loma_mappings, stage_mappings. rewrite Eu. cbn [rbind]. rewrite Ev. cbn [rbind fst snd]. unfold temporal_stage. rewrite Elo. cbn [rbind is_complete all_loops existsb].
    assert (Dc : Model_Layer.dict_eqb [] loops = false) by (destruct loops; [congruence|reflexivity]). rewrite Dc. cbn [rbind].
    assert (Pn : pinned_sizes (get_constraints []) = None) by reflexivity. cbv zeta. assert (El' : engine_lpfs factorint (@None (list (string * Z))) lim sizes un = Ok lpfs) by exact El. rewrite Pn, El'. cbn [rbind]. rewrite (Hrun fuel Hfuel). cbn [rbind outcome].
    fold ly. set (alloc := fun o => allocator_run ly (rq_spatial rq) mt tops o nodes).
    destruct (loma_run_spec alloc V (fun o e _ => Hout o e)) as (H1 & H2 & H3 & H4). destruct (loma_run alloc V) as (found & e). cbn [fst snd] in *.
    exists found, e. split; [reflexivity|].
    assert (Hin : forall tm, In tm found <-> exists p, Permutation p lpfs /\ allocator_run ly (rq_spatial rq) mt tops p nodes = Ok tm).
    { intros tm. rewrite H1, in_flat_map. split.
      - intros (p & Ip & It). exists p. split; [now apply HV|]. unfold alloc in It. destruct (allocator_run ly (rq_spatial rq) mt tops p nodes); [destruct It as [->|[]]; reflexivity|destruct It].
      - intros (p & Pp & Ep). exists p. split; [now apply HV|]. unfold alloc. rewrite Ep. now left. }
    split; [exact Hin|]. split.
    - split.
      + intros Nf. destruct found as [|tm found]; [congruence|]. destruct (proj1 (Hin tm) (or_introl eq_refl)) as (p & Pp & Ep). apply H2. exists p, tm. split; [now apply HV|exact Ep].
      + intros ->. destruct e as [e|]; [exists e; rewrite (H4 e eq_refl); split; [reflexivity|]; split; [now left|reflexivity]|].
        destruct (proj1 H2 eq_refl) as (p & m & Ip & Ep). exfalso. apply (proj2 (Hin m)). exists p. split; [now apply HV|exact Ep].
    - intros tm I. destruct (proj1 (Hin tm) I) as (p & Pp & Ep).
      destruct (allocated_fits mt tops nodes lpfs p tm Hn St (fun op mem_op Il => proj2 (Ht op mem_op Il)) Hsz' Pp Ep) as (Va & Co). split; [exact Va|]. exists p. now split.
  Qed.
End Search.

(** * Evaluating what is found *)

Lemma cme_evaluate ci ident name en la : evaluate ci = Ok (en, la) -> exists e, cme_of ci ident name = Ok e /\ ev_energy e = en /\ ev_l2 e = la_total2 la.
Proof.
  unfold evaluate, cme_of. intros E. apply rbind_Ok in E. destruct E as (ind & -> & E). cbn [rbind]. apply rbind_Ok in E. destruct E as (sh & -> & E). cbn [rbind].
  apply rbind_Ok in E. destruct E as (acc & -> & E). cbn [rbind]. apply rbind_Ok in E. destruct E as ([[[bd fu] mem] total] & -> & E). cbn [rbind].
  apply rbind_Ok in E. destruct E as (la' & -> & E). cbn [rbind]. injection E as <- <-. eexists. split; [reflexivity|]. now split.
Qed.
Lemma cme_fails ci ident name e : evaluate ci = Err e -> cme_of ci ident name = Err e.
Proof.
  unfold evaluate, cme_of. destruct (individual ci od_bit_unrolled) as [ind|]; cbn [rbind]; [|congruence]. destruct (Model_Cost.shared ci ind) as [sh|]; cbn [rbind]; [|congruence].
  destruct (calc_memory_word_access ci) as [acc|]; cbn [rbind]; [|congruence]. destruct (calc_memory_energy_cost ci acc) as [[[[bd fu] mem] total]|]; cbn [rbind]; [|congruence].
  destruct (calc_latency ci) as [la|]; cbn [rbind]; [discriminate|congruence].
Qed.

Lemma evaluated_from rq tm fuel ident name en la : evaluation (with_temporal rq tm) fuel = Ok (en, la) ->
  exists e, evaluate_mapping rq fuel ident name tm = Ok e /\ ev_energy e = en /\ ev_l2 e = la_total2 la.
Proof. unfold evaluation, evaluate_mapping. intros E. apply rbind_Ok in E. destruct E as (ci & -> & E). cbn [rbind]. now apply cme_evaluate. Qed.
Lemma evaluated_fails rq tm fuel ident name e : evaluation (with_temporal rq tm) fuel = Err e -> evaluate_mapping rq fuel ident name tm = Err e.
Proof. unfold evaluation, evaluate_mapping. destruct (prepare (with_temporal rq tm) fuel) as [ci|]; cbn [rbind]; [apply cme_fails|congruence]. Qed.

Lemma evaluated_single rq tm fuel ident name e : NoDup (rq_ops rq) -> evaluate_mapping rq fuel ident name tm = Ok e -> ev_layers e = inl ident.
Proof.
  intros N E. unfold evaluate_mapping in E. apply rbind_Ok in E. destruct E as (ci & Ep & E).
  assert (N' : NoDup (in_ops ci)). { unfold prepare in Ep. do 3 (apply rbind_Ok in Ep; destruct Ep as (? & _ & Ep)). apply rbind_Ok in Ep. destruct Ep as ([[hd lv] sg] & _ & Ep). do 2 (apply rbind_Ok in Ep; destruct Ep as (? & _ & Ep)). injection Ep as <-. exact N. }
  now destruct (cme_of_ok ci ident name e N' E) as (_ & _ & _ & Q & _).
Qed.

Lemma bounded (found : list (dict string (list (list tloop)))) : exists bound, forall tm, In tm found -> (passes_bound tm <= bound)%nat.
Proof.
  induction found as [|tm found (b & IH)]; [exists 0%nat; intros ? []|]. exists (passes_bound tm + b)%nat. intros tm' [<-|I]; [lia|]. specialize (IH tm' I). lia.
Qed.

Lemma rmap_first {A B} (f : A -> result B) l : (forall x, In x l -> (exists y, f x = Ok y) \/ f x = Err ZeroDivisionError) ->
  (exists ys, rmap f l = Ok ys /\ forall x, In x l -> exists y, f x = Ok y) \/ (rmap f l = Err ZeroDivisionError /\ exists x, In x l /\ f x = Err ZeroDivisionError).
Proof.
  induction l as [|x l IH]; intros H; cbn [rmap]; [left; exists []; split; [reflexivity|intros ? []]|].
  destruct (H x (or_introl eq_refl)) as [(y & E)|E]; rewrite E; cbn [rbind]; [|right; split; [reflexivity|exists x; split; [now left|exact E]]].
  destruct IH as [(ys & -> & F)|(-> & x' & I & E')]; [intros; apply H; now right| |]; cbn [rbind].
  - left. eexists. split; [reflexivity|]. intros x' [<-|I]; [now exists y|now apply F].
  - right. split; [reflexivity|]. exists x'. split; [now right|exact E'].
Qed.

Lemma minimal_of {X} less le (l : list (eval * X)) : criterion less le -> l <> [] -> (forall e x, In (e, x) l -> exists i, ev_layers e = inl i) ->
  exists b, minimal_stage less false l = Ok (b, []) /\ first_best le (map fst l) b.
Proof. intros [(-> & ->)|[(-> & ->)|(-> & ->)]] Ne H; [exact (minimal_energy false l Ne H)|exact (minimal_latency false l Ne H)|exact (minimal_edp false l Ne H)]. Qed.

Lemma mapper_ok rq sizes pc ms factorint lim mt fuel found e ident name less le : searchable rq sizes pc ms -> criterion less le ->
  loma_mappings rq factorint lim sizes mt fuel = Ok (found, e) -> (exists loops, search_ends found loops e) ->
  (forall tm, In tm found -> valid_request (with_temporal rq tm)) ->
  forall fuel', (forall tm, In tm found -> (passes_bound tm <= fuel')%nat) ->
  (forall tm, In tm found -> (exists x, evaluate_mapping rq fuel' ident name tm = Ok x) \/ evaluate_mapping rq fuel' ident name tm = Err ZeroDivisionError) /\
  ((found = [] /\ exists x, In x nothing_fits /\ mapper_run rq factorint lim sizes mt less fuel fuel' ident name = Err x) \/
   (mapper_run rq factorint lim sizes mt less fuel fuel' ident name = Err ZeroDivisionError /\ exists tm, In tm found /\ evaluate_mapping rq fuel' ident name tm = Err ZeroDivisionError) \/
   exists best, mapper_run rq factorint lim sizes mt less fuel fuel' ident name = Ok (best, []) /\
     (exists tm, In tm found /\ evaluate_mapping rq fuel' ident name tm = Ok best) /\
     forall tm, In tm found -> exists x, evaluate_mapping rq fuel' ident name tm = Ok x /\ le best x).
Proof.
  intros Rq Cr Em (loops & Ee & Ee') Va fuel' Hb.
  assert (Ev : forall tm, In tm found -> (exists x, evaluate_mapping rq fuel' ident name tm = Ok x) \/ evaluate_mapping rq fuel' ident name tm = Err ZeroDivisionError).
  { intros tm I. destruct (evaluation_only (with_temporal rq tm) fuel' (Va tm I) (Hb tm I)) as [([en la] & E)|E]; [left|right; now apply evaluated_fails].
    destruct (evaluated_from rq tm fuel' ident name en la E) as (x & Ex & _). now exists x. }
  split; [exact Ev|]. unfold mapper_run, temporal_run, outcome. rewrite Em. cbn [fst snd].
  destruct found as [|tm0 found']; [left; split; [reflexivity|]; destruct (Ee' eq_refl) as (x & -> & Ix & _); exists x; split; [exact Ix|reflexivity]|]. right. assert (e = None) by (apply Ee; discriminate). subst e. clear Ee Ee'. set (found := tm0 :: found') in *.
  destruct (rmap_first (fun t => rbind (evaluate_mapping rq fuel' ident name t) (fun x => Ok (x, t))) found) as [(es & E & F)|(E & t & I & Et)].
  { intros tm I. destruct (Ev tm I) as [(x & ->)| ->]; [left; now exists (x, tm)|now right]. }
  - right. rewrite E. cbn [rbind]. apply rmap_Forall2 in E.
    assert (F2 : Forall2 (fun t et => evaluate_mapping rq fuel' ident name t = Ok (fst et) /\ snd et = t) found es).
    { revert E. apply F2_impl. intros t et Q. apply rbind_Ok in Q. destruct Q as (x & Q & P). injection P as <-. now split. }
    destruct (minimal_of less le es Cr) as (best & Eb & l1 & l2 & El & Best & _).
    { intros ->. inversion F2. }
    { intros x t I. destruct (Forall2_in_r _ _ _ (x, t) F2 I) as (t' & _ & Q & _). exists ident. exact (evaluated_single rq t' fuel' ident name x (proj1 (sl_once _ (se_layer _ _ _ _ Rq))) Q). }
    exists best. rewrite Eb. split; [reflexivity|]. split.
    + assert (Ib : In best (map fst es)) by (rewrite El; apply in_or_app; right; now left). apply in_map_iff in Ib. destruct Ib as ([x t] & Q & I). cbn in Q. subst x.
      destruct (Forall2_in_r _ _ _ (best, t) F2 I) as (t' & I' & Q & _). exists t'. split; [exact I'|exact Q].
    + intros tm I. destruct (Forall2_in_l _ _ _ tm F2 I) as ([x t] & I' & Q & _). exists x. split; [exact Q|]. apply Best. now apply (List.in_map fst) in I'.
  - left. rewrite E. cbn [rbind]. split; [reflexivity|]. exists t. split; [exact I|]. destruct (evaluate_mapping rq fuel' ident name t); cbn [rbind] in Et; [discriminate|congruence].
Qed.

Lemma dedicated_ok rq sizes pc ms tm ident name fuel : searchable rq sizes pc ms -> dedicated_ports ms -> valid_request (with_temporal rq tm) -> (passes_bound tm <= fuel)%nat ->
  exists x, evaluate_mapping rq fuel ident name tm = Ok x /\ forall op levels, In (op, levels) tm -> (inject_Z (cycles (concat levels)) * rq_cpo rq <= ev_l2 x)%Q.
Proof.
  intros Rq D V F. assert (SH : sound_hardware (with_temporal rq tm) pc ms) by (destruct (se_hardware _ _ _ _ Rq); constructor; assumption).
  destruct (evaluation_dedicated (with_temporal rq tm) fuel pc ms V SH D F) as ([en la] & E & L). destruct (evaluated_from rq tm fuel ident name en la E) as (x & Ex & _ & El).
  exists x. split; [exact Ex|]. intros op levels I. rewrite El. apply (L op). apply In_dget; [exact (tf_once _ (vr_temporal _ V))|exact I].
Qed.

(** The search and the evaluations together *)
Lemma mapper_searches rq sizes pc ms factorint lim mt less le : searchable rq sizes pc ms -> factorint_ok factorint -> (forall l, lim = Some l -> 1 <= l) -> criterion less le ->
  exists enough, forall fuel, (enough <= fuel)%nat -> exists found e enough', loma_mappings rq factorint lim sizes mt fuel = Ok (found, e) /\
    forall fuel' ident name, (enough' <= fuel')%nat ->
    (forall tm, In tm found -> (exists x, evaluate_mapping rq fuel' ident name tm = Ok x) \/ evaluate_mapping rq fuel' ident name tm = Err ZeroDivisionError) /\
    ((found = [] /\ exists x, In x nothing_fits /\ mapper_run rq factorint lim sizes mt less fuel fuel' ident name = Err x) \/
     (mapper_run rq factorint lim sizes mt less fuel fuel' ident name = Err ZeroDivisionError /\ exists tm, In tm found /\ evaluate_mapping rq fuel' ident name tm = Err ZeroDivisionError) \/
     exists best, mapper_run rq factorint lim sizes mt less fuel fuel' ident name = Ok (best, []) /\
       (exists tm, In tm found /\ evaluate_mapping rq fuel' ident name tm = Ok best) /\
       forall tm, In tm found -> exists x, evaluate_mapping rq fuel' ident name tm = Ok x /\ le best x).
Proof.
  intros Rq Hf Hl Cr. destruct (search_ok rq sizes pc ms Rq factorint lim mt Hf Hl) as (un & tops & nodes & lpfs & V & _ & _ & _ & _ & _ & H). exists (length V). intros fuel F.
  destruct (H fuel F) as (found & e & E & _ & Ee & Va). destruct (bounded found) as (b & Hb). exists found, e, b. split; [exact E|]. intros fuel' ident name F'.
  apply (mapper_ok rq sizes pc ms factorint lim mt fuel found e ident name less le Rq Cr E (ex_intro _ lpfs Ee)); [intros tm I; exact (proj1 (Va tm I))|intros tm I; specialize (Hb tm I); lia].
Qed.

Lemma mapper_dedicated rq sizes pc ms factorint lim mt less le : searchable rq sizes pc ms -> dedicated_ports ms -> factorint_ok factorint -> (forall l, lim = Some l -> 1 <= l) -> criterion less le ->
  exists enough, forall fuel, (enough <= fuel)%nat -> exists found e enough', loma_mappings rq factorint lim sizes mt fuel = Ok (found, e) /\
    forall fuel' ident name, (enough' <= fuel')%nat ->
    (forall tm, In tm found -> exists x, evaluate_mapping rq fuel' ident name tm = Ok x /\
       forall op levels, In (op, levels) tm -> (inject_Z (cycles (concat levels)) * rq_cpo rq <= ev_l2 x)%Q) /\
    ((found = [] /\ exists x, In x nothing_fits /\ mapper_run rq factorint lim sizes mt less fuel fuel' ident name = Err x) \/
     exists best, mapper_run rq factorint lim sizes mt less fuel fuel' ident name = Ok (best, []) /\
       (exists tm, In tm found /\ evaluate_mapping rq fuel' ident name tm = Ok best) /\
       forall tm, In tm found -> exists x, evaluate_mapping rq fuel' ident name tm = Ok x /\ le best x).
Proof.
  intros Rq D Hf Hl Cr. destruct (search_ok rq sizes pc ms Rq factorint lim mt Hf Hl) as (un & tops & nodes & lpfs & V & _ & _ & _ & _ & _ & H). exists (length V). intros fuel F.
  destruct (H fuel F) as (found & e & E & _ & Ee & Va). destruct (bounded found) as (b & Hb). exists found, e, b. split; [exact E|]. intros fuel' ident name F'.
  assert (Hb' : forall tm, In tm found -> (passes_bound tm <= fuel')%nat) by (intros tm I; specialize (Hb tm I); lia).
  assert (Ev : forall tm, In tm found -> exists x, evaluate_mapping rq fuel' ident name tm = Ok x /\ forall op levels, In (op, levels) tm -> (inject_Z (cycles (concat levels)) * rq_cpo rq <= ev_l2 x)%Q)
    by (intros tm I; exact (dedicated_ok rq sizes pc ms tm ident name fuel' Rq D (proj1 (Va tm I)) (Hb' tm I))).
  split; [exact Ev|]. destruct (mapper_ok rq sizes pc ms factorint lim mt fuel found e ident name less le Rq Cr E (ex_intro _ lpfs Ee) (fun tm I => proj1 (Va tm I)) fuel' Hb') as (_ & [Q|[(_ & tm & I & Q)|Q]]); [now left| |now right].
  destruct (Ev tm I) as (x & Q' & _). congruence.
Qed.
