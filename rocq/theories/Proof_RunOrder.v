(** C87: runs do not depend on the order in which sets are visited when nothing is removed from
    or limited in the generated mappings. *)
From Coq Require Import QArith Lia Lqa.
From Verif Require Import Base Model_Text Model_DataMove Model_Alloc Model_Loma Model_Links Model_Cost Model_Graph Model_Hierarchy Model_Layer Model_MapFile Model_WorkFile
  Model_Cacti Model_AccelFile Model_SpatialMap Model_Generation Model_Convert Model_Evaluate Model_TemporalStage Model_Search Model_Cme Model_Workload Model_Pipeline Model_Run Model_Onnx Model_OnnxRun
  Spec_Layer Spec_MapFile Spec_Graph Spec_Workload Spec_WorkFile Spec_AccelFile Spec_Hierarchy Spec_SpatialMap Spec_Generation Spec_Convert Spec_Loma Spec_Run Spec_Onnx Spec_OnnxRun Spec_RunOrder
  Proof_AccelFile Proof_Generation Proof_RunHardware Proof_RunLayer Proof_RunSpatial Proof_RunGeneration Proof_RunCourse Proof_Run Proof_OnnxRun.
Open Scope string_scope.
Open Scope list_scope.
Open Scope Z_scope.

(** * What is asked of a memory *)

Definition size_of (oas : dict string Z) (o : string) : Z := match dget o oas with Some s => s | None => 1 end.

Lemma qprod_filter {X} (p : X -> bool) (v : X -> Q) l : (forall x, In x l -> (1 <= v x)%Q) -> (qprod (map v (filter p l)) <= qprod (map v l))%Q.
Proof.
  induction l as [|x l IH]; intros H; [apply Qle_refl|]. assert (A := H x (or_introl eq_refl)). assert (B := IH (fun y I => H y (or_intror I))).
  assert (C : (1 <= qprod (map v (filter p l)))%Q).
  { apply qprod_ge_1. intros y I. apply in_map_iff in I. destruct I as (z & <- & I). apply filter_In in I. exact (H z (or_intror (proj1 I))). }
  cbn [filter map]. change (qprod (v x :: map v l)) with (v x * qprod (map v l))%Q. destruct (p x); [cbn [map]; change (qprod (v x :: map v (filter p l))) with (v x * qprod (map v (filter p l)))%Q|]; nra.
Qed.

Lemma asked_bound oas sm ir : sm_whole sm -> within_array oas sm -> forall served, (forall o, In o served -> exists m, dget o sm = Some m) ->
  (1 <= qprod (asked served ir sm) <= inject_Z (zprod (map (size_of oas) served)))%Q.
Proof.
  intros W A. induction served as [|o served IH]; intros K; [split; apply Qle_refl|].
  destruct (K o (or_introl eq_refl)) as (m & Em). destruct (IH (fun o' I => K o' (or_intror I))) as (L & U).
  unfold asked. cbn [flat_map map]. rewrite Em. fold (asked served ir sm). rewrite qprod_app.
  change (zprod (size_of oas o :: map (size_of oas) served)) with (size_of oas o * zprod (map (size_of oas) served)). rewrite inject_Z_mult.
  destruct (A o m Em) as (s & Es & Hs). unfold size_of at 1. rewrite Es.
  assert (One : forall x, In x m -> (1 <= snd x)%Q).
  { intros (d, u) I. destruct (W o m d u (dget_In _ _ _ Em) I) as (k & Hk & Ek). cbn [snd]. rewrite Ek. change 1%Q with (inject_Z 1). now rewrite <- Zle_Qle. }
  assert (Q1 := qprod_filter (fun du => negb (memb (fst du) ir)) snd m One).
  assert (Q2 : (1 <= qprod (map snd (filter (fun du => negb (memb (fst du) ir)) m)))%Q).
  { apply qprod_ge_1. intros y I. apply in_map_iff in I. destruct I as (z & <- & I). apply filter_In in I. exact (One z (proj1 I)). }
  unfold values in Hs. split; nra.
Qed.

Lemma sizes_product oas served l : NoDup (keys oas) -> NoDup served -> (forall o, In o served <-> In o l) -> (forall o, In o l -> In o (keys oas)) ->
  zprod (map (size_of oas) served) = zprod (map snd (filter (fun x => memb (fst x) l) oas)).
Proof.
  intros N Ns Hs Hl.
  assert (E : map snd (filter (fun x => memb (fst x) l) oas) = map (size_of oas) (keys (filter (fun x => memb (fst x) l) oas))).
  { unfold keys. rewrite map_map. apply map_ext_in. intros (o, s) I. apply filter_In in I. destruct I as (I & _). cbn [fst snd]. unfold size_of. now rewrite (In_dget _ _ _ N I). }
  rewrite E. apply zprod_perm. apply Permutation_map. apply NoDup_Permutation; [exact Ns| |].
  - clear - N. unfold keys in *. induction oas as [|x oas IH]; [constructor|]. cbn [map] in N. inversion N as [|? ? N1 N2]; subst. cbn [filter]. destruct (memb (fst x) l); [cbn [map]; constructor|]; auto.
    intros I. apply N1. apply in_map_iff in I. destruct I as (y & Q & I). apply filter_In in I. rewrite <- Q. apply List.in_map. exact (proj1 I).
  - intros o. rewrite Hs. split; intros I.
    + assert (K := Hl o I). unfold keys in *. apply in_map_iff in K. destruct K as (y & <- & K). apply List.in_map. apply filter_In. split; [exact K|now apply memb_In].
    + unfold keys in I. apply in_map_iff in I. destruct I as (y & <- & I). apply filter_In in I. now apply memb_In.
Qed.

(** * The chain of stages *)

Lemma rbind_same {X Y} (m : result X) (f g : X -> result Y) : (forall x, m = Ok x -> f x = g x) -> rbind m f = rbind m g.
Proof. intros H. destruct m as [x|x]; [exact (H x eq_refl)|reflexivity]. Qed.

Lemma rfold_same {X Y} (f g : X -> Y -> result X) : (forall x y, f x y = g x y) -> forall l x, rfold f x l = rfold g x l.
Proof. intros H. induction l as [|y l IH]; intros x; [reflexivity|]. cbn [rfold]. rewrite H. destruct (g x y) as [x'|]; cbn [rbind]; [apply IH|reflexivity]. Qed.

Lemma api_same {A S C T} `{EqB A} (dummy skipped : A -> bool) (g : graph A) (sp sp' : A -> result (list S)) (cv : A -> S -> result C) (tp : A -> C -> list T * option exn)
  (ev : A -> C -> T -> result eval) order opt : (forall l, sp l = sp' l) -> api dummy skipped g sp cv tp ev order opt = api dummy skipped g sp' cv tp ev order opt.
Proof.
  intros E. unfold api. destruct (opt_stage opt) as [less|]; [cbn [rbind]|reflexivity].
  assert (L : layers_run dummy skipped g sp cv tp ev less false = layers_run dummy skipped g sp' cv tp ev less false).
  { unfold layers_run, workload_stage. destruct (topological_sort g) as [ord|]; [cbn [rbind]|reflexivity].
    rewrite (rfold_same _ (fun out layer => if dummy layer then Ok out else if skipped layer then Ok out else
      rbind (rbind (layer_run sp' cv tp ev less false layer) (fun r => Ok [r])) (fun rs => Ok (out ++ map (fun r => (r, layer)) rs)))); [reflexivity|].
    intros x y. destruct (dummy y); [reflexivity|]. destruct (skipped y); [reflexivity|]. unfold layer_run, spatial_run. now rewrite E. }
  unfold chain_run. now rewrite L.
Qed.

(** * The generator *)

Lemma reduce_nothing order1 order2 pick_dim pick_oa oas maxu sizes : orders order2 -> orders order1 -> check_and_reduce order1 order2 pick_dim pick_oa oas maxu sizes [] = Ok [].
Proof.
  intros H2 H1. assert (E1 : order1 [] = []) by exact (Permutation_nil (H1 [])). assert (E2 : order2 [] = []) by exact (Permutation_nil (H2 [])).
  unfold check_and_reduce, drop_unknown. change (contained_dims []) with (@nil string). rewrite E1. cbn [fold_left limit_oas rbind].
  unfold limit_layer_dims. change (contained_dims []) with (@nil string). rewrite E2. reflexivity.
Qed.

Section Same.
  Variables (order1 order2 dim_order : list string -> list string) (pick_dim : string -> dict string Q -> string) (pick_oa : string -> dict string (dict string Q) -> string).
  Variables (order1' order2' dim_order' : list string -> list string) (pick_dim' : string -> dict string Q -> string) (pick_oa' : string -> dict string (dict string Q) -> string).
  Hypotheses (Ho1 : orders order1) (Ho2 : orders order2) (Hdo : orders dim_order) (Hpd : picks_dim pick_dim) (Hpo : picks_oa pick_oa).
  Hypotheses (Ho1' : orders order1') (Ho2' : orders order2') (Hdo' : orders dim_order') (Hpd' : picks_dim pick_dim') (Hpo' : picks_oa pick_oa').

  Lemma generate_same layer mems oas mix nb hints : gen_inputs layer mems oas hints [] -> (1 <= nb)%nat ->
    (forall sm, sm_whole sm -> within_array oas sm -> (forall o, In o (keys sm) <-> In o (keys oas)) -> fits_capacity layer mems sm) ->
    generate order1 order2 dim_order pick_dim pick_oa layer mems oas mix nb hints [] = generate order1' order2' dim_order' pick_dim' pick_oa' layer mems oas mix nb hints [].
  Proof.
    intros In1 Nb Fit.
    destruct (generate_full order1 order2 dim_order pick_dim pick_oa Ho1 Ho2 Hdo Hpd Hpo layer mems oas mix hints [] In1) as (zmax & t & all & E1 & E2 & R & _ & Ha & _ & G).
    destruct (generate_full order1' order2' dim_order' pick_dim' pick_oa' Ho1' Ho2' Hdo' Hpd' Hpo' layer mems oas mix hints [] In1) as (zmax' & t' & all' & E1' & E2' & R' & _ & _ & _ & G').
    rewrite reduce_nothing in E2, E2' by assumption. assert (t = []) by congruence. assert (t' = []) by congruence. assert (zmax' = zmax) by congruence. subst t t' zmax'.
    assert (all' = all) by congruence. subst all'.
    assert (Fits : forall c, In c (firstn nb all) -> fits_capacity layer mems c).
    { intros c I. assert (Ic : In c all) by (rewrite <- (firstn_skipn nb all); apply in_or_app; now left).
      apply Ha in Ic. destruct Ic as (C & F). destruct (completes_props layer mems oas mix hints [] In1 zmax [] c E1) as (K & _ & W).
      - split; [constructor|intros o m []].
      - intros o m d u [].
      - intros o [].
      - exact C.
      - apply Fit; [exact (W F)|exact (generated_within _ _ _ _ F)|exact K]. }
    destruct (G nb Nb) as (sms & -> & _ & _ & S1). destruct (G' nb Nb) as (sms' & -> & _ & _ & S2). now rewrite (S1 Fits), (S2 Fits).
  Qed.

  (** * The run *)
  Variables (visit order : list string -> list string) (factorint : Z -> list (Z * Z)) (lim : option Z) (mt : mapping_type) (mix : bool) (nb : nat) (free : bool).
  Variables (bank : Z -> Z -> Z -> Z -> result Q) (adc : Z -> Q) (sim : simulator) (tech : Z) (known : Model_Cacti.pool).
  Variables (hardware : raw_accel) (mapping : list raw_entry).
  Hypothesis order_perm : forall l, Permutation (order l) l.
  Hypothesis visit_perm : forall l, Permutation (visit l) l.
  Hypothesis some : (1 <= nb)%nat.
  Hypothesis usable_hardware : usable_accelerator hardware.
  Hypothesis mapping_ok : proper_file mapping /\ exists data, parse_mapping mapping = Ok data.
  Hypothesis nothing : unrolls_nothing mapping.

  Section Layer.
    Variables (a : accel) (ms : list memspec) (r : raw_layer) (e : written_equation) (ws : list written_relation) (loops : list (string * Z)) (l : built_layer).
    Hypothesis memories_ok : Forall2 mem_of (memories hardware) ms.
    Hypothesis built : build 0 ms = Ok (ac_hierarchy a).
    Hypothesis sizes_ok : sizes_as (rf_array hardware) (ac_array a).
    Hypothesis usable : usable_layer r e ws loops.
    Hypothesis read : layer_as order mapping r e ws loops l.
    Hypothesis entries : forall t p en, rl_type r = Some t -> rl_precision r = Some p -> Spec_MapFile.chosen (called r) t (map normalise mapping) en ->
      (usable_entry hardware en /\ one_element hardware (en_links en) p) /\ element_each hardware (en_links en) p.

    Lemma mappings_same : spatial_mappings order1 order2 dim_order visit pick_dim pick_oa mix nb a l = spatial_mappings order1' order2' dim_order' visit pick_dim' pick_oa' mix nb a l.
    Proof.
      destruct (as_mapping _ _ _ _ _ _ _ read) as (en & Ch & Sp & _ & Li & Lo & Lk & Or).
      assert (Ty := as_type _ _ _ _ _ _ _ read). assert (Nm : bl_name l = called r).
      { unfold called. destruct (as_name _ _ _ _ _ _ _ read) as [Q|(Q & Q')]; destruct (rl_name r) as [[n|]|]; congruence. }
      rewrite Nm in Ch. destruct (ww_precision _ (ul_written _ _ _ _ usable)) as (p & Ep & _).
      destruct (entries (bl_type l) p en Ty Ep Ch) as ((Ue & Oe) & Ee).
      assert (Ie : In en (map normalise mapping)).
      { destruct Ch as [(pre & post & -> & _)|[(_ & pre & post & -> & _)|(_ & _ & pre & post & -> & _)]]; apply in_elt. }
      assert (So : forall user, en_spatial en = Some user -> NoDup (keys user)) by (intros user Eu; rewrite (nothing en user Ie Eu); constructor).
      assert (Empty : at_spatial (bl_mapping l) = []).
      { destruct (en_spatial en) as [user|] eqn:Eu; [|exact Sp]. rewrite (nothing en user Ie Eu) in Sp. destruct Sp as (K & _). now apply map_eq_nil in K. }
      assert (Gi := generation_inputs order visit mapping hardware r e ws loops a l ms en p order_perm visit_perm usable_hardware memories_ok built sizes_ok usable read Li Lo Lk Sp So Ue Ep Oe).
      unfold spatial_mappings. rewrite Empty in *. change (qmaxs []) with (@nil (string * dict string Q)) in *. apply generate_same; [exact Gi|exact some|].
      intros sm W A K mem mop lop prec ir Im Ub.
      assert (Cp := gi_mems _ _ _ _ _ Gi mem Im). destruct Cp as (Ns & Sv & _).
      destruct (asked_bound (ar_sizes (ac_array a)) sm ir W A (im_served mem)) as (_ & Up).
      { intros o Io. apply Sv in Io. apply K in Io. now apply key_dget. }
      apply in_map_iff in Im. destruct Im as (m & <- & Im). destruct Ub as [U1 U2 U3 U4]. unfold inner_mem_of in *. cbn [im_operands im_served im_size] in *.
      apply (used hardware l en Li Lo Lk Ue) in U2.
      unfold gen_layer_of in U3. cbn [gl_prec] in U3. rewrite (reads_precision order mapping r e ws loops l p read Ep) in U3.
      destruct (inner_memory hardware ms (ac_hierarchy a) memories_ok built m Im) as (raw & i & s & Es & Eh & First & Ir & Ms & Ds).
      assert (Io : In mop (rm_operands raw)) by (rewrite <- (proj1 (proj2 Ms)), <- (proj1 Ds); exact U1).
      assert (Sz : ml_size (lv_mem m) = rm_size raw) by (rewrite (proj1 (proj2 Ds)); exact (proj1 Ms)).
      assert (Se : lv_served m = rm_served raw) by (rewrite <- (proj1 (proj2 (proj2 Ms))); unfold described in Ds; tauto).
      rewrite Li in U2. assert (Room := Ee raw lop mop prec First U2 Io U3).
      assert (Pp : 0 <= prec) by (apply (ul_precision _ _ _ _ usable p lop prec Ep); now apply dget_In).
      destruct (array_sizes hardware a usable_hardware sizes_ok) as (Ea & Ek).
      assert (Pr : zprod (map (size_of (ar_sizes (ac_array a))) (visited visit (lv_served m))) = served_units hardware raw).
      { rewrite Ea. unfold served_units. rewrite <- Ea. apply sizes_product; [exact (gi_oa _ _ _ _ _ Gi)|exact Ns| |].
        - intros o. rewrite <- Se. unfold visited. rewrite <- (nodup_In string_dec (lv_served m) o). split; intros I; [apply (Permutation_in _ (visit_perm _)) in I|apply (Permutation_in _ (Permutation_sym (visit_perm _)))]; exact I.
        - intros o I. apply Sv. unfold visited. apply (Permutation_in _ (Permutation_sym (visit_perm _))). apply nodup_In. now rewrite Se. }
      rewrite Pr in Up. rewrite Sz. apply (Qle_trans _ (inject_Z (served_units hardware raw) * inject_Z prec)).
      - apply Qmult_le_compat_r; [exact Up|]. change 0%Q with (inject_Z 0). now rewrite <- Zle_Qle.
      - rewrite <- inject_Z_mult, <- Zle_Qle. lia.
    Qed.
  End Layer.
  Lemma spatials_same layer positions about a p' : parse_accelerator bank adc sim tech known hardware = Ok (a, p') ->
    (forall i, In i positions -> exists r e ws loops l, about i r e ws loops /\ usable_layer r e ws loops /\ layer i = Ok l /\ layer_as order mapping r e ws loops l /\
      forall t p en, rl_type r = Some t -> rl_precision r = Some p -> Spec_MapFile.chosen (called r) t (map normalise mapping) en -> usable_entry hardware en /\ one_element hardware (en_links en) p) ->
    (forall i l, layer i = Ok l -> In i positions) ->
    (forall i r e ws loops t p en, about i r e ws loops -> rl_type r = Some t -> rl_precision r = Some p -> Spec_MapFile.chosen (called r) t (map normalise mapping) en -> element_each hardware (en_links en) p) ->
    forall i, spatials order1 order2 dim_order visit pick_dim pick_oa mix nb a layer i = spatials order1' order2' dim_order' visit pick_dim' pick_oa' mix nb a layer i.
  Proof.
    intros Ea Ls On Room i. unfold spatials. destruct (layer i) as [l|x] eqn:El; [cbn [rbind]|reflexivity].
    destruct (Ls i (On i l El)) as (r & e & ws & loops & l' & Ab & U & El' & A & Ens). assert (l' = l) by congruence. subst l'.
    destruct (ua_accepted _ usable_hardware) as (Ac & _). destruct (regular_builds bank adc sim tech known hardware p') as (_ & R); [exact (proj1 (proj2 Ac))|].
    destruct (R a Ea) as ((_ & Sz & Me & _) & _). destruct (memories_read _ _ _ _ _ _ Me) as (ms & F & Bu).
    apply (mappings_same a ms r e ws loops l F Bu Sz U A). intros t p en Et Ep Ch. split; [exact (Ens t p en Et Ep Ch)|exact (Room i r e ws loops t p en Ab Et Ep Ch)].
  Qed.
End Same.

Section Runs.
  Variables (order1 order2 dim_order : list string -> list string) (pick_dim : string -> dict string Q -> string) (pick_oa : string -> dict string (dict string Q) -> string).
  Variables (order1' order2' dim_order' : list string -> list string) (pick_dim' : string -> dict string Q -> string) (pick_oa' : string -> dict string (dict string Q) -> string).
  Variables (visit order : list string -> list string) (factorint : Z -> list (Z * Z)) (lim : option Z) (mt : mapping_type) (mix : bool) (nb : nat) (free : bool).
  Variables (bank : Z -> Z -> Z -> Z -> result Q) (adc : Z -> Q) (sim : simulator) (tech : Z) (known : Model_Cacti.pool).
  Variables (hardware : raw_accel) (mapping : list raw_entry).
  Hypotheses (Ho1 : orders order1) (Ho2 : orders order2) (Hdo : orders dim_order) (Hpd : picks_dim pick_dim) (Hpo : picks_oa pick_oa).
  Hypotheses (Ho1' : orders order1') (Ho2' : orders order2') (Hdo' : orders dim_order') (Hpd' : picks_dim pick_dim') (Hpo' : picks_oa pick_oa').
  Hypothesis order_perm : forall l, Permutation (order l) l.
  Hypothesis visit_perm : forall l, Permutation (visit l) l.
  Hypothesis limit : forall n, lim = Some n -> 1 <= n.
  Hypothesis some : (1 <= nb)%nat.
  Hypothesis nothing : unrolls_nothing mapping.

  Lemma run_same workload meaning : usable_files hardware workload mapping meaning -> roomy_files hardware workload mapping -> forall fuel fuel' opt,
    run order1 order2 dim_order visit pick_dim pick_oa factorint lim mt mix nb free fuel fuel' order bank adc sim tech known hardware workload mapping opt =
    run order1' order2' dim_order' visit pick_dim' pick_oa' factorint lim mt mix nb free fuel fuel' order bank adc sim tech known hardware workload mapping opt.
  Proof.
    intros files Room fuel fuel' opt. destruct (workload_read order lim nb bank adc tech hardware workload mapping meaning order_perm limit some files) as (ls & g & Ew & _ & Ls & On & _).
    unfold run. apply rbind_same. intros less _. rewrite Ew. apply rbind_same. intros (ls', g') Q. assert (ls' = ls) by congruence. subst ls'. apply rbind_same. intros (a, p') Ea. cbn [fst snd]. apply api_same.
    apply (spatials_same order1 order2 dim_order pick_dim pick_oa order1' order2' dim_order' pick_dim' pick_oa' Ho1 Ho2 Hdo Hpd Hpo Ho1' Ho2' Hdo' Hpd' Hpo' visit order factorint mix nb bank adc sim tech known hardware mapping
      order_perm visit_perm some (uf_accelerator _ _ _ _ files) (uf_mapping _ _ _ _ files) nothing (layer_at ls) _ (written_at workload meaning) a p' Ea Ls On).
    intros i r e ws loops t p en (Er & _) Et Ep Ch. exact (Room r t p en (nth_error_In _ _ Er) Et Ep Ch).
  Qed.

  Lemma model_same m meaning : usable_model hardware m mapping meaning -> roomy_model hardware m mapping meaning -> forall fuel fuel' opt,
    run_onnx order1 order2 dim_order visit pick_dim pick_oa factorint lim mt mix nb free fuel fuel' order bank adc sim tech known hardware m mapping opt =
    run_onnx order1' order2' dim_order' visit pick_dim' pick_oa' factorint lim mt mix nb free fuel fuel' order bank adc sim tech known hardware m mapping opt.
  Proof.
    intros usable Room fuel fuel' opt. destruct (model_read order hardware m mapping meaning order_perm usable) as (ls & g & Ew & _ & Ls & On & _).
    unfold run_onnx. apply rbind_same. intros less _. rewrite Ew. apply rbind_same. intros (ls', g') Q. assert (ls' = ls) by congruence. subst ls'. apply rbind_same. intros (a, p') Ea. cbn [fst snd]. cbv zeta. apply api_same.
    apply (spatials_same order1 order2 dim_order pick_dim pick_oa order1' order2' dim_order' pick_dim' pick_oa' Ho1 Ho2 Hdo Hpd Hpo Ho1' Ho2' Hdo' Hpd' Hpo' visit order factorint mix nb bank adc sim tech known hardware mapping
      order_perm visit_perm some (um_accelerator _ _ _ _ usable) (um_mapping _ _ _ _ usable) nothing (onnx_layer_at ls) _ (node_about m meaning) a p' Ea Ls On).
    intros i r e ws loops t p en (o & Na & _) Et Ep Ch. exact (Room i o r t p en Na Et Ep Ch).
  Qed.
End Runs.
