(** The course of a run over the layers of a workload, given that each is built (C84, C85). *)
From Coq Require Import QArith Lia Lqa.
From Verif Require Import Base Model_Text Model_DataMove Model_Alloc Model_Loma Model_Links Model_Cost Model_Latency Model_Graph Model_Hierarchy Model_Layer Model_MapFile Model_WorkFile
  Model_Cacti Model_AccelFile Model_SpatialMap Model_Generation Model_Convert Model_Evaluate Model_TemporalStage Model_Search Model_Cme Model_Workload Model_Pipeline Model_Run
  Spec_Layer Spec_MapFile Spec_Graph Spec_Workload Spec_WorkFile Spec_AccelFile Spec_Hierarchy Spec_Temporal Spec_SpatialMap Spec_Convert Spec_Evaluate Spec_Loma Spec_Cme Spec_Search Spec_Pipeline Spec_Latency Spec_Run
  Proof_AllocSearch Proof_Bandwidth Proof_Latency Proof_Graph Proof_Workload Proof_WorkFile Proof_AccelFile Proof_EvalPrepare Proof_EvalExample Proof_CmeMore Proof_Pipeline Proof_Search Proof_SearchGiven
  Proof_RunHardware Proof_RunLayer Proof_RunSpatial Proof_RunSearch Proof_RunRequest Proof_RunGeneration Proof_RunChain.
Open Scope string_scope.
Open Scope list_scope.
Open Scope Z_scope.

(** * Evaluations of found mappings *)

Lemma evaluated_formed rq tm fuel ident name e : NoDup (rq_ops rq) -> evaluate_mapping rq fuel ident name tm = Ok e ->
  well_formed e /\ ev_layers e = inl ident /\ ev_acc e = Some name.
Proof.
  intros N E. unfold evaluate_mapping in E. apply rbind_Ok in E. destruct E as (ci & Ep & E).
  assert (N' : NoDup (in_ops ci)). { unfold prepare in Ep. do 3 (apply rbind_Ok in Ep; destruct Ep as (? & _ & Ep)). apply rbind_Ok in Ep. destruct Ep as ([[hd lv] sg] & _ & Ep). do 2 (apply rbind_Ok in Ep; destruct Ep as (? & _ & Ep)). injection Ep as <-. exact N. }
  destruct (cme_of_ok ci ident name e N' E) as (W & _ & _ & Q & A & _). auto.
Qed.

Lemma dedicated_positive rq sizes pc ms tm ident name fuel x : searchable rq sizes pc ms -> dedicated_ports ms -> valid_request (with_temporal rq tm) -> (passes_bound tm <= fuel)%nat ->
  evaluate_mapping rq fuel ident name tm = Ok x -> positive x.
Proof.
  intros Rq D V F E. assert (SH : sound_hardware (with_temporal rq tm) pc ms) by (destruct (se_hardware _ _ _ _ Rq); constructor; assumption).
  destruct (prepared (with_temporal rq tm) fuel pc ms V SH F) as (ci & Ep & C & ST). unfold evaluate_mapping in E. rewrite Ep in E. cbn [rbind] in E.
  assert (FS := dedicated_single _ fuel pc ms ci SH D Ep). unfold cme_of in E.
  apply rbind_Ok in E. destruct E as (ind & _ & E). apply rbind_Ok in E. destruct E as (sh & _ & E).
  apply rbind_Ok in E. destruct E as (acc & _ & E). apply rbind_Ok in E. destruct E as ([[[bd fu] mem] total] & _ & E).
  apply rbind_Ok in E. destruct E as (la & El & E). injection E as <-.
  assert (P : (0 < la_temporal la /\ la_temporal la <= la_total0 la /\ la_total0 la <= la_total1 la /\ la_total1 la <= la_total2 la)%Q).
  { destruct (latency_inv ci la El) as (ind' & sh' & flags & sh'' & allowed & real & st & _ & _ & _ & T & S & LD & ON & OFF & OV).
    destruct (stall_ge ci allowed real _ S) as (S0 & _).
    assert (NL := loading_all_nonneg ci flags allowed real _ st (co_links ci C) ST FS T LD).
    assert (On := onloading_nonneg ci st _ NL ON). assert (Off := offloading_nonneg ci st _ NL OFF).
    destruct (overall_spec ci _ _ _ _ OV) as (_ & _ & Te & T0 & T1 & T2 & _).
    apply Proof_Latency.inject_nonneg in S0.
    assert (TP : (0 < la_temporal la)%Q) by (rewrite Te; destruct (co_cycles ci C) as (z & Ez & Pz); rewrite Ez; pose proof (co_total ci C) as Pt; rewrite Zlt_Qlt in Pz, Pt; change (inject_Z 0) with 0%Q in *; nra).
    rewrite T2, T1, T0. repeat split; lra. }
  unfold positive. cbn [ev_temporal ev_l0 ev_l1 ev_l2]. repeat split; lra.
Qed.

Lemma uniform {X} (l : list X) (P : X -> nat -> Prop) : (forall x, In x l -> exists n, forall m, (n <= m)%nat -> P x m) ->
  exists n, forall m, (n <= m)%nat -> forall x, In x l -> P x m.
Proof.
  induction l as [|x l IH]; intros H; [exists 0%nat; intros m _ y []|]. destruct (H x (or_introl eq_refl)) as (n & Hn).
  destruct IH as (n' & Hn'); [intros y I; exact (H y (or_intror I))|]. exists (n + n')%nat. intros m L y [<-|I]; [apply Hn; lia|]. apply Hn'; [lia|exact I].
Qed.

Lemma workload_graph order file mapping ls g : parse_workload order file mapping = Ok (ls, g) -> graph_ok g.
Proof.
  unfold parse_workload, create_workload. intros E. apply rbind_Ok in E. destruct E as (data & _ & E). apply rbind_Ok in E. destruct E as (m & _ & E).
  apply rbind_Ok in E. destruct E as (ls' & _ & E). apply rbind_Ok in E. destruct E as (g' & Eg & E). injection E as <- <-. now destruct (dnn_spec _ _ Eg).
Qed.

Lemma request_operands visit free a l sm rq : request_with visit free a l sm = Ok rq -> rq_ops rq = ln_operands (bl_node l).
Proof. unfold request_with. intros E. do 5 (apply rbind_Ok in E; destruct E as (? & _ & E)). injection E as <-. reflexivity. Qed.

Section Course.
  Variables order1 order2 dim_order visit order : list string -> list string.
  Variable pick_dim : string -> dict string Q -> string.
  Variable pick_oa : string -> dict string (dict string Q) -> string.
  Variable factorint : Z -> list (Z * Z).
  Variables (lim : option Z) (mt : mapping_type) (mix : bool) (nb : nat) (free : bool).
  Variables (bank : Z -> Z -> Z -> Z -> result Q) (adc : Z -> Q) (sim : simulator) (tech : Z) (known : pool).
  Variables (hardware : raw_accel) (mapping : list raw_entry).
  Hypothesis order_perm : forall l, Permutation (order l) l.
  Hypothesis visit_perm : forall l, Permutation (visit l) l.
  Hypotheses (Ho1 : orders order1) (Ho2 : orders order2) (Hdo : orders dim_order) (Hpd : picks_dim pick_dim) (Hpo : picks_oa pick_oa).
  Hypothesis factors : factorint_ok factorint.
  Hypothesis limit : forall n, lim = Some n -> 1 <= n.
  Hypothesis some : (1 <= nb)%nat.
  Hypothesis usable_hardware : usable_accelerator hardware.
  Hypothesis mapping_ok : proper_file mapping /\ exists data, parse_mapping mapping = Ok data.
  Hypothesis costs : exists cs p', priced sim tech known (memories hardware) cs p'.

  Lemma hardware_read : exists a p' ms e u, parse_accelerator bank adc sim tech known hardware = Ok (a, p') /\ ac_name a = rf_name hardware /\
    sizes_as (rf_array hardware) (ac_array a) /\ Forall2 mem_of (memories hardware) ms /\ build 0 ms = Ok (ac_hierarchy a) /\
    ar_kind (ac_array a) = Multipliers e u (u * inject_Z (ar_units (ac_array a))) /\ ra_energy (rf_array hardware) = Some e.
  Proof.
    pose proof usable_hardware as Ua. destruct (ua_accepted _ Ua) as (Ac & En & Ar & So). destruct costs as (cs & p' & Pr).
    destruct (regular_builds bank adc sim tech known hardware p') as (B & R); [exact (proj1 (proj2 Ac))|].
    destruct (proj2 B) as (a & Ea); [repeat (split; [assumption|]); now exists cs|]. destruct (R a Ea) as ((Na & Sz & Me & _) & e & u & Ce & _ & K).
    destruct (memories_read _ _ _ _ _ _ Me) as (ms & F & Bu). exists a, p', ms, e, u. auto 12.
  Qed.

  Section Accelerator.
    Variables (a : accel) (ms : list memspec) (unit unit_area : Q).
    (** The layers at some positions of a workload, and what is written about them *)
    Variables (layer : nat -> result built_layer) (positions : list nat) (about : nat -> raw_layer -> written_equation -> list written_relation -> list (string * Z) -> Prop).
    Hypothesis sizes_ok : sizes_as (rf_array hardware) (ac_array a).
    Hypothesis memories_ok : Forall2 mem_of (memories hardware) ms.
    Hypothesis built : build 0 ms = Ok (ac_hierarchy a).
    Hypothesis kind : ar_kind (ac_array a) = Multipliers unit unit_area (unit_area * inject_Z (ar_units (ac_array a))).
    Hypothesis layers : forall i, In i positions -> exists r e ws loops l, about i r e ws loops /\ usable_layer r e ws loops /\ layer i = Ok l /\ layer_as order mapping r e ws loops l /\
      forall t p en, rl_type r = Some t -> rl_precision r = Some p -> Spec_MapFile.chosen (called r) t (map normalise mapping) en -> usable_entry hardware en /\ one_element hardware (en_links en) p.
    Hypothesis only : forall i l, layer i = Ok l -> In i positions.

    Notation spatials' := (spatials order1 order2 dim_order visit pick_dim pick_oa mix nb a layer).
    Notation convert' := (convert visit free a layer).
    Notation temporals' := (temporals factorint lim mt).
    Notation evaluate' := (fun fuel' => evaluate fuel' a).

    Lemma convert_operands i sm rq : convert' i sm = Ok rq -> NoDup (rq_ops rq).
    Proof.
      unfold convert. intros E. apply rbind_Ok in E. destruct E as (l & El & E).
      rewrite (request_operands _ _ _ _ _ _ E).
      destruct (layers i (only i l El)) as (r & e & ws & loops & l' & _ & U & El' & A & _). assert (l' = l) by congruence. subst l'.
      rewrite (as_operands _ _ _ _ _ _ _ A). destruct (ul_operands _ _ _ _ U) as [-> | ->]; repeat constructor; cbn; intuition discriminate.
    Qed.

    (** The entry of a layer and its loops *)
    Definition entry_of (i : nat) (en : Model_MapFile.entry) (loops : list (string * Z)) : Prop := exists r e ws t, about i r e ws loops /\
      rl_type r = Some t /\ Spec_MapFile.chosen (called r) t (map normalise mapping) en.
    Lemma layer_full i : In i positions -> exists sms r e ws loops l en, spatials' i = Ok sms /\ sms <> [] /\ (length sms <= nb)%nat /\
      about i r e ws loops /\ usable_layer r e ws loops /\ layer i = Ok l /\ layer_as order mapping r e ws loops l /\
      at_links (bl_mapping l) = en_links en /\ rl_type r = Some (bl_type l) /\ Spec_MapFile.chosen (called r) (bl_type l) (map normalise mapping) en /\
      proper_ordering loops (ordered en loops) /\ (ordered en loops <> [] -> orders_loops mapping) /\
      forall sm, In sm sms -> (valid_user loops (ar_sizes (ac_array a)) sm /\ within_array (ar_sizes (ac_array a)) sm) /\ exists rq, request_with visit free a l sm = Ok rq /\ convert' i sm = Ok rq /\ searchable rq loops 0 ms /\
        forall fuel, temporals' fuel layer i rq = outcome (Model_Search.stage_mappings rq factorint lim loops mt fuel (ordered en loops)).
    Proof.
      intros L. destruct (layers i L) as (r & e & ws & loops & l & Ab & U & El & A & Ens).
      destruct (as_mapping _ _ _ _ _ _ _ A) as (en & Ch & Sp & _ & Li & Lo & Lk & Or).
      assert (Ty := as_type _ _ _ _ _ _ _ A). assert (Nm : bl_name l = called r).
      { unfold called. destruct (as_name _ _ _ _ _ _ _ A) as [Q|(Q & Q')]; destruct (rl_name r) as [[n|]|]; congruence. }
      rewrite Nm in Ch. destruct (ww_precision _ (ul_written _ _ _ _ U)) as (p & Ep & _).
      destruct (Ens (bl_type l) p en Ty Ep Ch) as (Ue & Oe).
      assert (Ie : In en (map normalise mapping)).
      { destruct Ch as [(pre & post & -> & _)|[(_ & pre & post & -> & _)|(_ & _ & pre & post & -> & _)]]; apply in_elt. }
      assert (So : forall user, en_spatial en = Some user -> NoDup (keys user)).
      { intros user Eu. apply in_map_iff in Ie. destruct Ie as (w & <- & Iw). apply (proj1 (proj1 mapping_ok w Iw)). cbn [en_spatial normalise] in Eu.
        destruct (rw_spatial w) as [s|]; cbn in Eu; [now subst s|discriminate]. }
      pose proof usable_hardware as Ua.
      destruct (mappings_generated order visit order1 order2 dim_order pick_dim pick_oa mix nb mapping hardware r e ws loops a l ms en p
        order_perm visit_perm Ho1 Ho2 Hdo Hpd Hpo some Ua memories_ok built sizes_ok U A Li Lo Lk Sp So Ue Ep Oe) as (sms & Es & (L1 & L2) & V).
      assert (La : layer i = Ok l) by exact El.
      assert (Eo : at_ordering (bl_mapping l) = ordered en loops) by exact Or.
      exists sms, r, e, ws, loops, l, en. split; [unfold spatials; rewrite La; exact Es|]. split; [intros ->; cbn in L1; lia|]. split; [exact L2|].
      do 7 (split; [assumption|]). split.
      { intros d o I. unfold ordered in I. apply filter_In in I. destruct I as (I & Id). cbn [fst] in Id. split; [now apply memb_In|]. intros n ->.
        apply in_map_iff in I. destruct I as ([d' x] & Q & I). cbn [fst snd] in Q. destruct x as [m|]; [|discriminate]. assert (m = n) by congruence. subst m. exact (proj2 (proj2 Ue) d' n I). }
      split; [intros No; exists en; split; [exact Ie|]; intros Q; apply No; unfold ordered; now rewrite Q|].
      intros sm Im. split; [exact (V sm Im)|]. destruct (request_made order visit free mapping hardware r e ws loops a l ms en unit unit_area order_perm built kind U A Li Lo Lk Ue sm (proj1 (V sm Im)))
        as (rq & sp & spi & Eq & Is & R1 & R2). exists rq. split; [exact Eq|]. split; [unfold convert; rewrite La; exact Eq|].
      split; [exact (rq_searchable order free mapping hardware r e ws loops a l ms en unit order_perm Ua memories_ok built sizes_ok U A Li Lo Lk Ue rq sp spi Is R1 R2)|].
      intros fuel. unfold temporals. rewrite La. cbn [rbind]. now rewrite (as_sizes _ _ _ _ _ _ _ A), Eo.
    Qed.
    Lemma layer_course i : In i positions -> exists sms loops en, spatials' i = Ok sms /\ sms <> [] /\ (length sms <= nb)%nat /\ entry_of i en loops /\
      proper_ordering loops (ordered en loops) /\ (ordered en loops <> [] -> orders_loops mapping) /\
      forall sm, In sm sms -> exists rq, convert' i sm = Ok rq /\ searchable rq loops 0 ms /\
        forall fuel, temporals' fuel layer i rq = outcome (Model_Search.stage_mappings rq factorint lim loops mt fuel (ordered en loops)).
    Proof.
      intros L. destruct (layer_full i L) as (sms & r & e & ws & loops & l & en & Es & Ne & Le & Ab & _ & _ & _ & _ & Ty & Ch & Po & Oo & H). exists sms, loops, en.
      do 3 (split; [assumption|]). split; [exists r, e, ws, (bl_type l); auto|]. split; [exact Po|]. split; [exact Oo|].
      intros sm Im. destruct (H sm Im) as (_ & rq & _ & Eq & Se & Et). exists rq. auto.
    Qed.

    Definition in_order (i : nat) (tm : dict string (list (list tloop))) : Prop := exists en loops p, entry_of i en loops /\
      (forall op levels, In (op, levels) tm -> concat levels = p) /\ (~ In "*" (map fst loops) -> follows (ordered en loops) p).
    Definition reported (x : exn) : Prop := In x nothing_fits \/ In x refused /\ orders_loops mapping.
    (** What the search gives for the mappings of a layer *)
    Definition searched (fuel i : nat) : Prop := exists sms, spatials' i = Ok sms /\ sms <> [] /\ forall sm, In sm sms -> exists rq, convert' i sm = Ok rq /\
      (exists loops, searchable rq loops 0 ms) /\
      (fst (temporals' fuel layer i rq) = [] /\ (exists x, snd (temporals' fuel layer i rq) = Some x /\ reported x) \/
       fst (temporals' fuel layer i rq) <> [] /\ snd (temporals' fuel layer i rq) = None) /\
      forall tm, In tm (fst (temporals' fuel layer i rq)) -> valid_request (with_temporal rq tm) /\ in_order i tm.
    Lemma enough_search : exists n, forall fuel, (n <= fuel)%nat -> forall i, In i positions -> searched fuel i.
    Proof.
      apply (uniform _ (fun i fuel => searched fuel i)). intros i Ii. destruct (layer_course i Ii) as (sms & loops & en & Es & Ne & _ & En & Po & Oo & H).
      assert (U : exists n, forall fuel, (n <= fuel)%nat -> forall sm, In sm sms -> exists rq, convert' i sm = Ok rq /\
        (exists loops, searchable rq loops 0 ms) /\
        (fst (temporals' fuel layer i rq) = [] /\ (exists x, snd (temporals' fuel layer i rq) = Some x /\ reported x) \/
         fst (temporals' fuel layer i rq) <> [] /\ snd (temporals' fuel layer i rq) = None) /\
        forall tm, In tm (fst (temporals' fuel layer i rq)) -> valid_request (with_temporal rq tm) /\ in_order i tm).
      { apply (uniform sms (fun sm fuel => exists rq, convert' i sm = Ok rq /\ (exists loops, searchable rq loops 0 ms) /\
        (fst (temporals' fuel layer i rq) = [] /\ (exists x, snd (temporals' fuel layer i rq) = Some x /\ reported x) \/
         fst (temporals' fuel layer i rq) <> [] /\ snd (temporals' fuel layer i rq) = None) /\
        forall tm, In tm (fst (temporals' fuel layer i rq)) -> valid_request (with_temporal rq tm) /\ in_order i tm)). intros sm Im. destruct (H sm Im) as (rq & Eq & Rq & Et).
        destruct (search_given rq loops 0 ms Rq factorint lim mt factors limit (ordered en loops) Po) as (n & Hs). exists n. intros fuel F.
        destruct (Hs fuel F) as (found & e & E & Ee & Va). exists rq. split; [exact Eq|]. split; [now exists loops|].
        rewrite Et, E. unfold outcome. cbn [fst snd]. split.
        - destruct Ee as [(Nf & ->)|(-> & x & -> & Ix)]; [right; now split|left]. split; [reflexivity|]. exists x. split; [reflexivity|]. destruct Ix as [Ix|(No & Ix)]; [now left|right; split; [exact Ix|exact (Oo No)]].
        - intros tm It. destruct (Va tm It) as (V1 & p & Cp & Fo). split; [exact V1|]. now exists en, loops, p. }
      destruct U as (n & Hn). exists n. intros fuel F. exists sms. auto.
    Qed.
    Lemma enough_passes fuel : exists n, forall fuel', (n <= fuel')%nat -> forall i, In i positions ->
      forall sms sm rq tm, spatials' i = Ok sms -> In sm sms -> convert' i sm = Ok rq -> In tm (fst (temporals' fuel layer i rq)) -> (passes_bound tm <= fuel')%nat.
    Proof.
      apply (uniform _ (fun i fuel' => forall sms sm rq tm, spatials' i = Ok sms -> In sm sms -> convert' i sm = Ok rq -> In tm (fst (temporals' fuel layer i rq)) -> (passes_bound tm <= fuel')%nat)).
      intros i _. destruct (spatials' i) as [sms|]; [|exists 0%nat; discriminate].
      destruct (uniform sms (fun sm fuel' => forall rq tm, convert' i sm = Ok rq -> In tm (fst (temporals' fuel layer i rq)) -> (passes_bound tm <= fuel')%nat)) as (n & Hn).
      { intros sm _. destruct (convert' i sm) as [rq|]; [|exists 0%nat; discriminate]. destruct (bounded (fst (temporals' fuel layer i rq))) as (b & Hb). exists b.
        intros m Lm rq' tm Q It. assert (rq' = rq) by congruence. subst rq'. specialize (Hb tm It). lia. }
      exists n. intros m Lm sms' sm rq tm Q Im Eq It. assert (sms' = sms) by congruence. subst sms'. exact (Hn m Lm sm Im rq tm Eq It).
    Qed.

    Section Enough.
      Variables (fuel fuel' : nat) (dummy : nat -> bool) (g : graph nat) (source : nat -> nat -> Prop) (opt : string) (le : eval -> eval -> Prop).
      Hypothesis all_searched : forall i, In i positions -> searched fuel i.
      Hypothesis all_passes : forall i, In i positions ->
        forall sms sm rq tm, spatials' i = Ok sms -> In sm sms -> convert' i sm = Ok rq -> In tm (fst (temporals' fuel layer i rq)) -> (passes_bound tm <= fuel')%nat.
      Hypothesis nodes : forall i, In i (g_nodes g) /\ dummy i = false <-> In i positions.
      Hypothesis once : NoDup positions.
      Hypothesis ordered_graph : ranked g.
      Hypothesis edges : forall u v, source u v -> path g u v.
      Hypothesis proper_graph : graph_ok g.
      Hypothesis chosen_opt : Spec_Pipeline.criterion opt le.
      Notation result := (api dummy (fun _ => false) g spatials' convert' (temporals' fuel layer) (evaluate fuel' a) order opt).

      Lemma all_formed i sm rq tm e : convert' i sm = Ok rq -> evaluate fuel' a i rq tm = Ok e -> well_formed e /\ exists k, ev_layers e = inl k.
      Proof. intros Eq E. destruct (evaluated_formed rq tm fuel' i (ac_name a) e (convert_operands i sm rq Eq) E) as (W & Q & _). eauto. Qed.
      Lemma all_named i e : candidate spatials' convert' (temporals' fuel layer) (evaluate fuel' a) i e -> ev_acc e = Some (ac_name a).
      Proof. intros (sms & sm & rq & tm & _ & _ & Eq & _ & E). exact (proj2 (proj2 (evaluated_formed rq tm fuel' i (ac_name a) e (convert_operands i sm rq Eq) E))). Qed.

      Lemma course_ends : ends (fun x => x = ZeroDivisionError \/ reported x /\ unmapped positions spatials' convert' (temporals' fuel layer) x) result.
      Proof.
        apply (api_ends _ _ g spatials' convert' (temporals' fuel layer) (evaluate fuel' a) order opt le order_perm chosen_opt proper_graph ordered_graph all_formed) with (name := ac_name a).
        - intros x U. right. split; [|destruct U as (i & sms & sm & rq & Ii & U); exists i, sms, sm, rq; destruct U as (Id & U); split; [apply nodes; now split|exact U]]. destruct U as (i & sms & sm & rq & Ii & Id & Es & Im & Eq & Et). assert (Ii' := proj1 (nodes i) (conj Ii Id)). clear Ii Id. rename Ii' into Ii.
          destruct (all_searched i Ii) as (sms' & Es' & _ & H). assert (sms' = sms) by congruence. subst sms'. destruct (H sm Im) as (rq' & Eq' & _ & T & _).
          assert (rq' = rq) by congruence. subst rq'. rewrite Et in T. cbn [fst snd] in T. destruct T as [(_ & y & Q & Iy)|(_ & Q)]; [|discriminate]. congruence.
        - intros i Ii Id. apply (fun H => proj1 (nodes i) (conj Ii H)) in Id. clear Ii. rename Id into Ii. destruct (all_searched i Ii) as (sms & Es & Ne & H). exists sms. split; [exact Es|]. split; [exact Ne|]. intros sm Im.
          destruct (H sm Im) as (rq & Eq & _ & T & V). exists rq. split; [exact Eq|]. split; [destruct T as [(T1 & x & T2 & _)|T]; [left; split; [exact T1|congruence]|now right]|].
          intros tm It. destruct (evaluation_only (with_temporal rq tm) fuel' (proj1 (V tm It)) (all_passes i Ii sms sm rq tm Es Im Eq It)) as [([en la] & E)|E].
          + left. destruct (evaluated_from rq tm fuel' i (ac_name a) en la E) as (x & Ex & _). now exists x.
          + right. exists ZeroDivisionError. split; [now left|]. exact (evaluated_fails rq tm fuel' i (ac_name a) _ E).
        - exact all_named.
        - left. now left.
      Qed.

      Lemma course_dedicated : dedicated_ports ms -> ends (fun x => reported x /\ unmapped positions spatials' convert' (temporals' fuel layer) x) result.
      Proof.
        intros D.
        assert (Ev : forall i sms sm rq tm, In i positions -> spatials' i = Ok sms -> In sm sms -> convert' i sm = Ok rq -> In tm (fst (temporals' fuel layer i rq)) ->
          exists e, evaluate fuel' a i rq tm = Ok e /\ positive e).
        { intros i sms sm rq tm Ii Es Im Eq It. destruct (all_searched i Ii) as (sms' & Es' & _ & H). assert (sms' = sms) by congruence. subst sms'. destruct (H sm Im) as (rq' & Eq' & (loops & Rq) & _ & V).
          assert (rq' = rq) by congruence. subst rq'. pose proof (all_passes i Ii sms sm rq tm Es Im Eq It) as F.
          destruct (dedicated_ok rq loops 0 ms tm i (ac_name a) fuel' Rq D (proj1 (V tm It)) F) as (e & E & _). exists e. split; [exact E|]. exact (dedicated_positive rq loops 0 ms tm i (ac_name a) fuel' e Rq D (proj1 (V tm It)) F E). }
        apply (api_ends _ _ g spatials' convert' (temporals' fuel layer) (evaluate fuel' a) order opt le order_perm chosen_opt proper_graph ordered_graph all_formed) with (name := ac_name a).
        - intros x U. split; [|destruct U as (i & sms & sm & rq & Ii & U); exists i, sms, sm, rq; destruct U as (Id & U); split; [apply nodes; now split|exact U]]. destruct U as (i & sms & sm & rq & Ii & Id & Es & Im & Eq & Et). assert (Ii' := proj1 (nodes i) (conj Ii Id)). clear Ii Id. rename Ii' into Ii.
          destruct (all_searched i Ii) as (sms' & Es' & _ & H). assert (sms' = sms) by congruence. subst sms'. destruct (H sm Im) as (rq' & Eq' & _ & T & _).
          assert (rq' = rq) by congruence. subst rq'. rewrite Et in T. cbn [fst snd] in T. destruct T as [(_ & y & Q & Iy)|(_ & Q)]; [|discriminate]. congruence.
        - intros i Ii Id. apply (fun H => proj1 (nodes i) (conj Ii H)) in Id. clear Ii. rename Id into Ii. destruct (all_searched i Ii) as (sms & Es & Ne & H). exists sms. split; [exact Es|]. split; [exact Ne|]. intros sm Im.
          destruct (H sm Im) as (rq & Eq & _ & T & V). exists rq. split; [exact Eq|]. split; [destruct T as [(T1 & x & T2 & _)|T]; [left; split; [exact T1|congruence]|now right]|].
          intros tm It. destruct (Ev i sms sm rq tm Ii Es Im Eq It) as (e & E & _). left. now exists e.
        - exact all_named.
        - right. intros i e (sms & sm & rq & tm & Es & Im & Eq & It & E).
          assert (Ii : In i positions).
          { unfold convert in Eq. apply rbind_Ok in Eq. destruct Eq as (l & El & _). exact (only i l El). }
          destruct (Ev i sms sm rq tm Ii Es Im Eq It) as (e' & E' & P). congruence.
      Qed.

      Lemma course_best energy latency cmes : result = Ok (energy, latency, cmes) ->
        best_of_all positions source spatials' convert' (temporals' fuel layer) (evaluate fuel' a) le energy latency cmes.
      Proof.
        intros E. destruct (api_spec _ _ g spatials' convert' (temporals' fuel layer) (evaluate fuel' a) order opt le order_perm chosen_opt proper_graph all_formed energy latency cmes E)
          as (total & rs & Q1 & Q2 & Q3 & Su & Nd & M & B & Each). exists total, rs. repeat (split; [assumption|]). cbn zeta in *. split; [|split; [|exact Each]].
        - apply NoDup_Permutation; [exact Nd|exact once|]. intros x. rewrite M, <- nodes. tauto.
        - intros u v Iu Iv So. apply nodes in Iu, Iv. destruct Iu, Iv. apply B; [now apply M|now apply M|now apply edges].
      Qed.
    End Enough.

    Lemma ports_dedicated : one_movement hardware -> dedicated_ports ms.
    Proof.
      intros O s p op d op' d' Is M1 M2. destruct (raw_in hardware ms memories_ok s Is) as (m & Im & _ & _ & _ & F).
      assert (G : forall op d, moved_by s op d p -> In p (ms_ports s) /\ listed op d p).
      { intros o k (l1 & l2 & -> & L & _). split; [apply in_elt|exact L]. }
      destruct (G _ _ M1) as (Ip & L1). destruct (G _ _ M2) as (_ & L2). destruct (Forall2_in_r _ _ _ p F Ip) as (p0 & Ip0 & A).
      assert (Pp : proper_port p0) by (apply (proj1 (proj2 (raw_proper hardware usable_hardware m Im))); exact Ip0).
      assert (Ls : forall op d, listed op d p -> lists p0 op d).
      { intros o k L. destruct A as (_ & _ & _ & _ & Fa). destruct (Forall2_in_r _ _ _ _ Fa L) as (text & It & d0 & Sa & E0). cbn [fst snd] in *. apply direction_name_inj in E0. subst d0. now exists text. }
      exact (O m p0 op d op' d' Im Ip0 (Ls _ _ L1) (Ls _ _ L2)).
    Qed.
  End Accelerator.

  (** * All of it for layers that are given *)
  Section Given.
    Variables (layer : nat -> result built_layer) (positions : list nat) (about : nat -> raw_layer -> written_equation -> list written_relation -> list (string * Z) -> Prop).
    Hypothesis layers : forall i, In i positions -> exists r e ws loops l, about i r e ws loops /\ usable_layer r e ws loops /\ layer i = Ok l /\ layer_as order mapping r e ws loops l /\
      forall t p en, rl_type r = Some t -> rl_precision r = Some p -> Spec_MapFile.chosen (called r) t (map normalise mapping) en -> usable_entry hardware en /\ one_element hardware (en_links en) p.
    Hypothesis only : forall i l, layer i = Ok l -> In i positions.

    Lemma given_ends (dummy : nat -> bool) (g : graph nat) (source : nat -> nat -> Prop) :
      (forall i, In i (g_nodes g) /\ dummy i = false <-> In i positions) -> NoDup positions -> ranked g -> (forall u v, source u v -> path g u v) -> graph_ok g ->
      exists a p', parse_accelerator bank adc sim tech known hardware = Ok (a, p') /\
      exists enough, forall fuel, (enough <= fuel)%nat -> exists enough', forall fuel', (enough' <= fuel')%nat ->
      forall opt le, Spec_Pipeline.criterion opt le ->
      let spatials := spatials order1 order2 dim_order visit pick_dim pick_oa mix nb a layer in
      let convert := convert visit free a layer in
      let temporals := temporals factorint lim mt fuel layer in
      let evaluate := evaluate fuel' a in
      let result := api dummy (fun _ => false) g spatials convert temporals evaluate order opt in
      (exists energy latency cmes, result = Ok (energy, latency, cmes) /\ best_of_all positions source spatials convert temporals evaluate le energy latency cmes) \/
      (exists x, result = Err x /\ (In x nothing_fits \/ In x refused /\ orders_loops mapping) /\ unmapped positions spatials convert temporals x) \/
      (result = Err ZeroDivisionError /\ ~ one_movement hardware).
    Proof.
      intros Nn No Ra Eg Gk. destruct hardware_read as (a & p' & ms & eu & au & Ea & Na & Sz & Me & Bu & K & Ce). exists a, p'. split; [exact Ea|].
      destruct (enough_search a ms eu au layer positions about Sz Me Bu K layers only) as (n & Hn). exists n. intros fuel F.
      destruct (enough_passes a layer positions about layers only fuel) as (n' & Hn'). exists n'. intros fuel' F' opt le Cr. cbv zeta.
      assert (Best := course_best a layer positions about layers only fuel fuel' dummy g source opt le Nn No Eg Gk Cr).
      destruct (course_ends a ms layer positions about layers only fuel fuel' dummy g opt le (Hn fuel F) (Hn' fuel' F') Nn Ra Gk Cr) as [([[en la] cs] & R)|(x & [-> | (Ix & U)] & R)].
      - left. exists en, la, cs. split; [exact R|]. exact (Best en la cs R).
      - right. right. split; [exact R|]. intros D.
        destruct (course_dedicated a ms layer positions about layers only fuel fuel' dummy g opt le (Hn fuel F) (Hn' fuel' F') Nn Ra Gk Cr (ports_dedicated ms Me D)) as [(r & R')|(x & (Ix & _) & R')]; [congruence|].
        assert (x = ZeroDivisionError) by congruence. subst x. destruct Ix as [Ix|(Ix & _)]; cbn in Ix; intuition discriminate.
      - right. left. exists x. exact (conj R (conj Ix U)).
    Qed.

    Lemma given_ordered : exists a p', parse_accelerator bank adc sim tech known hardware = Ok (a, p') /\
      exists enough, forall fuel, (enough <= fuel)%nat -> forall i sms sm rq tm, In i positions ->
        spatials order1 order2 dim_order visit pick_dim pick_oa mix nb a layer i = Ok sms -> In sm sms -> convert visit free a layer i sm = Ok rq -> In tm (fst (temporals factorint lim mt fuel layer i rq)) ->
        exists r e ws loops t en p, about i r e ws loops /\ rl_type r = Some t /\ Spec_MapFile.chosen (called r) t (map normalise mapping) en /\
          (forall op levels, In (op, levels) tm -> concat levels = p) /\ (~ In "*" (map fst loops) -> follows (ordered en loops) p).
    Proof.
      destruct hardware_read as (a & p' & ms & eu & au & Ea & Na & Sz & Me & Bu & K & Ce). exists a, p'. split; [exact Ea|].
      destruct (enough_search a ms eu au layer positions about Sz Me Bu K layers only) as (n & Hn). exists n. intros fuel F i sms sm rq tm Li Es Im Eq It.
      destruct (Hn fuel F i Li) as (sms' & Es' & _ & H). assert (sms' = sms) by congruence. subst sms'. destruct (H sm Im) as (rq' & Eq' & _ & _ & V).
      assert (rq' = rq) by congruence. subst rq'. destruct (V tm It) as (_ & en & loops & p & (r & e & ws & t & E1 & E3 & E4) & Cp & Fo). exists r, e, ws, loops, t, en, p. auto 10.
    Qed.

    Lemma given_right : exists a p', parse_accelerator bank adc sim tech known hardware = Ok (a, p') /\
      forall i, In i positions -> exists r e ws loops l t en sms, about i r e ws loops /\ layer i = Ok l /\ layer_as order mapping r e ws loops l /\
        rl_type r = Some t /\ Spec_MapFile.chosen (called r) t (map normalise mapping) en /\
        spatials order1 order2 dim_order visit pick_dim pick_oa mix nb a layer i = Ok sms /\ (1 <= length sms <= nb)%nat /\
        forall sm, In sm sms -> valid_user loops (combine (ra_dims (rf_array hardware)) (ra_sizes (rf_array hardware))) sm /\
          exists rq ms, convert visit free a layer i sm = Ok rq /\ Forall2 mem_of (memories hardware) ms /\ searchable rq loops 0 ms /\
            rq_hierarchy rq = ac_hierarchy a /\ right_request hardware e loops en l free sm rq.
    Proof.
      destruct hardware_read as (a & p' & ms & eu & au & Ea & Na & Sz & Me & Bu & K & Ce). exists a, p'. split; [exact Ea|]. intros i L.
      destruct (layer_full a ms eu au layer positions about Sz Me Bu K layers only i L) as (sms & r & e & ws & loops & l & en & Es & Ne & Le & Ab & U & El & A & Lk & Ty & Ch & _ & _ & H).
      exists r, e, ws, loops, l, (bl_type l), en, sms. do 6 (split; [assumption|]). split; [destruct sms; [congruence|cbn [length] in *; lia]|]. intros sm Im. destruct (H sm Im) as ((V & _) & rq & Eq & Ec & Se & _).
      rewrite <- (proj1 (proj2 (proj2 Sz) (proj1 (ua_array _ usable_hardware)))). split; [exact V|]. exists rq, ms. do 3 (split; [assumption|]). split.
      - unfold request_with in Eq. do 5 (apply rbind_Ok in Eq; destruct Eq as (? & _ & Eq)). now injection Eq as <-.
      - exact (right_made order visit free mapping hardware r e ws loops a l ms en eu au visit_perm usable_hardware Me Bu Sz K Ce A Lk sm rq V Eq).
    Qed.
  End Given.
End Course.
