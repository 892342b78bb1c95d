(** A run from the three files to the result (C84). *)
From Coq Require Import QArith Lia Lqa.
From Verif Require Import Base Model_Text Model_DataMove Model_Alloc Model_Loma Model_Links Model_Cost Model_Latency Model_Graph Model_Hierarchy Model_Layer Model_MapFile Model_WorkFile
  Model_Cacti Model_AccelFile Model_SpatialMap Model_Generation Model_Convert Model_Evaluate Model_TemporalStage Model_Search Model_Cme Model_Workload Model_Pipeline Model_Run
  Spec_Layer Spec_MapFile Spec_Graph Spec_Workload Spec_WorkFile Spec_AccelFile Spec_Hierarchy Spec_Temporal Spec_SpatialMap Spec_Convert Spec_Evaluate Spec_Loma Spec_Cme Spec_Search Spec_Pipeline Spec_Latency Spec_Run
  Proof_AllocSearch Proof_Bandwidth Proof_Energy Proof_Latency Proof_Graph Proof_Workload Proof_WorkFile Proof_AccelFile Proof_EvalPrepare Proof_EvalExample Proof_CmeMore Proof_Pipeline Proof_Search Proof_SearchGiven
  Proof_RunHardware Proof_RunLayer Proof_RunSpatial Proof_RunSearch Proof_RunRequest Proof_RunGeneration Proof_RunChain Proof_RunCourse.
Open Scope string_scope.
Open Scope list_scope.
Open Scope Z_scope.

Section Run.
  Variables order1 order2 dim_order visit order : list string -> list string.
  Variable pick_dim : string -> dict string Q -> string.
  Variable pick_oa : string -> dict string (dict string Q) -> string.
  Variable factorint : Z -> list (Z * Z).
  Variables (lim : option Z) (mt : mapping_type) (mix : bool) (nb : nat) (free : bool).
  Variables (bank : Z -> Z -> Z -> Z -> result Q) (adc : Z -> Q) (sim : simulator) (tech : Z) (known : pool).
  Variables (hardware : raw_accel) (workload : list raw_layer) (mapping : list raw_entry) (meaning : list (written_equation * list written_relation * list (string * Z))).
  Hypothesis order_perm : forall l, Permutation (order l) l.
  Hypothesis visit_perm : forall l, Permutation (visit l) l.
  Hypotheses (Ho1 : orders order1) (Ho2 : orders order2) (Hdo : orders dim_order) (Hpd : picks_dim pick_dim) (Hpo : picks_oa pick_oa).
  Hypothesis factors : factorint_ok factorint.
  Hypothesis limit : forall n, lim = Some n -> 1 <= n.
  Hypothesis some : (1 <= nb)%nat.
  Hypothesis files : usable_files hardware workload mapping meaning.
  Hypothesis costs : exists cs p', priced sim tech known (memories hardware) cs p'.

  Notation run' := (fun fuel fuel' => run order1 order2 dim_order visit pick_dim pick_oa factorint lim mt mix nb free fuel fuel' order bank adc sim tech known hardware workload mapping).
  (** What is written about the layer at a position *)
  Definition written_at (i : nat) (r : raw_layer) (e : written_equation) (ws : list written_relation) (loops : list (string * Z)) : Prop :=
    nth_error workload i = Some r /\ nth_error meaning i = Some (e, ws, loops).

  Lemma workload_read : exists ls g, parse_workload order workload mapping = Ok (ls, g) /\ graph_ok g /\
    (forall i, In i (seq 0 (length workload)) -> exists r e ws loops l, written_at i r e ws loops /\ usable_layer r e ws loops /\ layer_at ls i = Ok l /\ layer_as order mapping r e ws loops l /\
      forall t p en, rl_type r = Some t -> rl_precision r = Some p -> Spec_MapFile.chosen (called r) t (map normalise mapping) en -> usable_entry hardware en /\ one_element hardware (en_links en) p) /\
    (forall i l, layer_at ls i = Ok l -> In i (seq 0 (length workload))) /\
    (forall i, In i (g_nodes g) /\ false = false <-> In i (seq 0 (length workload))) /\ ranked g /\ (forall u v, names (Spec_WorkFile.described workload) u v -> path g u v).
  Proof.
    destruct (workload_built order mapping workload meaning order_perm (proj1 (uf_mapping _ _ _ _ files)) (proj2 (uf_mapping _ _ _ _ files)) (uf_proper _ _ _ _ files)) as (ls & g & Ew & Ls & Ln & Nn & Eg).
    { assert (F := uf_layers _ _ _ _ files). revert F. apply F2_impl. intros r x U. exact (ul_sensible _ _ _ _ U). }
    { exact (uf_sources _ _ _ _ files). }
    exists ls, g. split; [exact Ew|]. split; [exact (workload_graph _ _ _ _ _ Ew)|]. repeat split.
    - intros i Ii. apply in_seq in Ii. destruct (nth_error workload i) as [r|] eqn:Er; [|apply nth_error_None in Er; lia].
      destruct (nth_error meaning i) as [[[e ws] loops]|] eqn:Em; [|apply nth_error_None in Em; rewrite <- (F2_len _ _ _ (uf_layers _ _ _ _ files)) in Em; lia].
      destruct (Ls i r _ Er Em) as (l & El & A). exists r, e, ws, loops, l. split; [exact (conj Er Em)|].
      split; [exact (F2_nth _ _ _ i _ _ (uf_layers _ _ _ _ files) Er Em)|]. split; [unfold layer_at; now rewrite El|]. split; [exact A|].
      intros t p en Et Ep C. exact (uf_entries _ _ _ _ files r t p en (nth_error_In _ _ Er) Et Ep C).
    - intros i l E. unfold layer_at in E. apply in_seq. destruct (nth_error ls i) eqn:El; [|discriminate]. split; [lia|]. cbn [Nat.add]. rewrite <- Ln. apply nth_error_Some. congruence.
    - intros (I & _). now rewrite <- Nn.
    - now rewrite Nn.
    - apply ranked_lt. intros u v I. apply Eg in I. destruct I as (lu & lv & op & _ & _ & L & _). exact L.
    - intros u v N. apply path_one. now apply Eg.
  Qed.

  Lemma run_ends : exists a p' ls g, parse_accelerator bank adc sim tech known hardware = Ok (a, p') /\ parse_workload order workload mapping = Ok (ls, g) /\
    exists enough, forall fuel, (enough <= fuel)%nat -> exists enough', forall fuel', (enough' <= fuel')%nat ->
    forall opt le, Spec_Pipeline.criterion opt le ->
    let spatials := spatials order1 order2 dim_order visit pick_dim pick_oa mix nb a (layer_at ls) in
    let convert := convert visit free a (layer_at ls) in
    let temporals := temporals factorint lim mt fuel (layer_at ls) in
    let evaluate := evaluate fuel' a in
    (exists energy latency cmes, run' fuel fuel' opt = Ok (energy, latency, cmes) /\
       best_of_all (seq 0 (length workload)) (names (Spec_WorkFile.described workload)) spatials convert temporals evaluate le energy latency cmes) \/
    (exists x, run' fuel fuel' opt = Err x /\ (In x nothing_fits \/ In x refused /\ orders_loops mapping) /\ unmapped (seq 0 (length workload)) spatials convert temporals x) \/
    (run' fuel fuel' opt = Err ZeroDivisionError /\ ~ one_movement hardware).
  Proof.
    destruct workload_read as (ls & g & Ew & Gk & Ls & On & Nn & Ra & Eg).
    destruct (given_ends order1 order2 dim_order visit order pick_dim pick_oa factorint lim mt mix nb free bank adc sim tech known hardware mapping order_perm visit_perm Ho1 Ho2 Hdo Hpd Hpo factors limit some
      (uf_accelerator _ _ _ _ files) (uf_mapping _ _ _ _ files) costs (layer_at ls) _ written_at Ls On (fun _ => false) g _ Nn (seq_NoDup _ _) Ra Eg Gk) as (a & p' & Ea & n & Hn).
    exists a, p', ls, g. split; [exact Ea|]. split; [exact Ew|]. exists n. intros fuel F. destruct (Hn fuel F) as (n' & Hn'). exists n'. intros fuel' F' opt le Cr. specialize (Hn' fuel' F' opt le Cr). cbv zeta in Hn' |- *.
    assert (Er : run' fuel fuel' opt = api (fun _ => false) (fun _ => false) g (spatials order1 order2 dim_order visit pick_dim pick_oa mix nb a (layer_at ls)) (convert visit free a (layer_at ls))
      (temporals factorint lim mt fuel (layer_at ls)) (evaluate fuel' a) order opt).
    { unfold run. destruct (criterion_ok opt le Cr) as (less & Eo & _). rewrite Eo. cbn [rbind]. rewrite Ew. cbn [rbind]. rewrite Ea. reflexivity. }
    cbv beta in Er |- *. rewrite Er. exact Hn'.
  Qed.

  Lemma run_ordered : exists a p' ls g, parse_accelerator bank adc sim tech known hardware = Ok (a, p') /\ parse_workload order workload mapping = Ok (ls, g) /\
    exists enough, forall fuel, (enough <= fuel)%nat -> forall i sms sm rq tm, (i < length workload)%nat ->
      spatials order1 order2 dim_order visit pick_dim pick_oa mix nb a (layer_at ls) i = Ok sms -> In sm sms -> convert visit free a (layer_at ls) i sm = Ok rq ->
      In tm (fst (temporals factorint lim mt fuel (layer_at ls) i rq)) ->
      exists r e ws loops t en p, nth_error workload i = Some r /\ nth_error meaning i = Some (e, ws, loops) /\ rl_type r = Some t /\ Spec_MapFile.chosen (called r) t (map normalise mapping) en /\
        (forall op levels, In (op, levels) tm -> concat levels = p) /\ (~ In "*" (map fst loops) -> follows (ordered en loops) p).
  Proof.
    destruct workload_read as (ls & g & Ew & Gk & Ls & On & Nn & Ra & Eg).
    destruct (given_ordered order1 order2 dim_order visit order pick_dim pick_oa factorint lim mt mix nb free bank adc sim tech known hardware mapping order_perm visit_perm Ho1 Ho2 Hdo Hpd Hpo factors limit some
      (uf_accelerator _ _ _ _ files) (uf_mapping _ _ _ _ files) costs (layer_at ls) _ written_at Ls On) as (a & p' & Ea & n & Hn).
    exists a, p', ls, g. split; [exact Ea|]. split; [exact Ew|]. exists n. intros fuel F i sms sm rq tm Li Es Im Eq It.
    destruct (Hn fuel F i sms sm rq tm ltac:(apply in_seq; lia) Es Im Eq It) as (r & e & ws & loops & t & en & p & (E1 & E2) & H). exists r, e, ws, loops, t, en, p. exact (conj E1 (conj E2 H)).
  Qed.

  Lemma requests_right : exists a p' ls g, parse_accelerator bank adc sim tech known hardware = Ok (a, p') /\ parse_workload order workload mapping = Ok (ls, g) /\
    forall i, (i < length workload)%nat ->
    exists r e ws loops l t en sms, nth_error workload i = Some r /\ nth_error meaning i = Some (e, ws, loops) /\ nth_error ls i = Some l /\ layer_as order mapping r e ws loops l /\
      rl_type r = Some t /\ Spec_MapFile.chosen (called r) t (map normalise mapping) en /\
      spatials order1 order2 dim_order visit pick_dim pick_oa mix nb a (layer_at ls) i = Ok sms /\ (1 <= length sms <= nb)%nat /\
      forall sm, In sm sms -> valid_user loops (combine (ra_dims (rf_array hardware)) (ra_sizes (rf_array hardware))) sm /\
        exists rq ms, convert visit free a (layer_at ls) i sm = Ok rq /\ Forall2 mem_of (memories hardware) ms /\ searchable rq loops 0 ms /\
          rq_hierarchy rq = ac_hierarchy a /\ right_request hardware e loops en l free sm rq.
  Proof.
    destruct workload_read as (ls & g & Ew & Gk & Ls & On & Nn & Ra & Eg).
    destruct (given_right order1 order2 dim_order visit order pick_dim pick_oa factorint lim mt mix nb free bank adc sim tech known hardware mapping order_perm visit_perm Ho1 Ho2 Hdo Hpd Hpo limit some
      (uf_accelerator _ _ _ _ files) (uf_mapping _ _ _ _ files) costs (layer_at ls) _ written_at Ls On) as (a & p' & Ea & H).
    exists a, p', ls, g. split; [exact Ea|]. split; [exact Ew|]. intros i L. destruct (H i ltac:(apply in_seq; lia)) as (r & e & ws & loops & l & t & en & sms & (E1 & E2) & El & H').
    exists r, e, ws, loops, l, t, en, sms. split; [exact E1|]. split; [exact E2|]. split; [unfold layer_at in El; destruct (nth_error ls i); [now injection El as ->|discriminate]|]. exact H'.
  Qed.
End Run.

(** The search for temporal mappings plays no part. *)
Definition requests_made order1 order2 dim_order visit order pick_dim pick_oa mix nb free bank adc sim tech known hardware workload mapping meaning op vp h1 h2 h3 h4 h5 :=
  requests_right order1 order2 dim_order visit order pick_dim pick_oa (fun _ => []) None UNEVEN mix nb free bank adc sim tech known hardware workload mapping meaning op vp h1 h2 h3 h4 h5 ltac:(discriminate).
Lemma layers_built : forall order1 order2 dim_order visit order pick_dim pick_oa mix nb free bank adc sim tech known hardware workload mapping meaning,
  (forall l, Permutation (order l) l) -> (forall l, Permutation (visit l) l) -> orders order1 -> orders order2 -> orders dim_order -> picks_dim pick_dim -> picks_oa pick_oa ->
  (1 <= nb)%nat -> usable_files hardware workload mapping meaning -> (exists cs p', priced sim tech known (memories hardware) cs p') ->
  exists a p' ls g, parse_accelerator bank adc sim tech known hardware = Ok (a, p') /\ parse_workload order workload mapping = Ok (ls, g) /\
    forall i, (i < length workload)%nat ->
    exists sms, spatials order1 order2 dim_order visit pick_dim pick_oa mix nb a (layer_at ls) i = Ok sms /\ (1 <= length sms <= nb)%nat /\
      forall sm, In sm sms -> exists rq ms loops, convert visit free a (layer_at ls) i sm = Ok rq /\ Forall2 mem_of (memories hardware) ms /\ searchable rq loops 0 ms.
Proof.
  intros order1 order2 dim_order visit order pick_dim pick_oa mix nb free bank adc sim tech known hardware workload mapping meaning op vp h1 h2 h3 h4 h5 h6 h7 h8.
  destruct (requests_made order1 order2 dim_order visit order pick_dim pick_oa mix nb free bank adc sim tech known hardware workload mapping meaning op vp h1 h2 h3 h4 h5 h6 h7 h8) as (a & p' & ls & g & Ea & Ew & H).
  exists a, p', ls, g. split; [exact Ea|]. split; [exact Ew|]. intros i L. destruct (H i L) as (r & e & ws & loops & l & t & en & sms & _ & _ & _ & _ & _ & _ & Es & Le & H').
  exists sms. split; [exact Es|]. split; [exact Le|]. intros sm I. destruct (H' sm I) as (_ & rq & ms & Eq & Me & Se & _). now exists rq, ms, loops.
Qed.
