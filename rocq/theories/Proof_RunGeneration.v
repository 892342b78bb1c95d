(** C84: generation of spatial mappings for layers and accelerators that are read from files. *)
From Coq Require Import QArith Ascii Lqa.
From Verif Require Import Base Model_Text Model_Alloc Model_Links Model_DataMove Model_Cost Model_Hierarchy Model_Layer Model_MapFile Model_WorkFile Model_AccelFile Model_Convert Model_Generation Model_Evaluate Model_Run
  Spec_Pr Spec_Loma Spec_Layer Spec_MapFile Spec_WorkFile Spec_AccelFile Spec_Hierarchy Spec_SpatialMap Spec_Generation Spec_Convert Spec_SpatialInt Spec_Decouple Spec_Evaluate Spec_Search Spec_Run
  Proof_Links Proof_Hierarchy Proof_Ports Proof_Generation Proof_RunLayer Proof_RunHardware Proof_RunSpatial Proof_RunSearch.
Open Scope string_scope.
Open Scope list_scope.
Open Scope Z_scope.

Lemma dget_towards k bw op : dget op (towards_array k bw) = option_map (fun x => match dget k x with Some b => b | None => None end) (dget op bw).
Proof. unfold towards_array. induction bw as [|[o x] bw IH]; [reflexivity|]. cbn [map dget fst snd]. destruct (eqb op o); [reflexivity|exact IH]. Qed.

Section Generation.
  Variables (order visit order1 order2 dim_order : list string -> list string) (pick_dim : string -> dict string Q -> string) (pick_oa : string -> dict string (dict string Q) -> string)
    (mix : bool) (nb : nat) (mapping : list raw_entry) (f : raw_accel) (r : raw_layer) (e : written_equation)
    (ws : list written_relation) (loops : list (string * Z)) (a : accel) (l : built_layer) (ms : list memspec) (en : entry) (p : dict string Z).
  Hypothesis order_perm : forall l, Permutation (order l) l.
  Hypothesis visit_perm : forall l, Permutation (visit l) l.
  Hypothesis Ho1 : orders order1.
  Hypothesis Ho2 : orders order2.
  Hypothesis Hdo : orders dim_order.
  Hypothesis Hpd : picks_dim pick_dim.
  Hypothesis Hpo : picks_oa pick_oa.
  Hypothesis some : (1 <= nb)%nat.
  Hypothesis usable_f : usable_accelerator f.
  Hypothesis memories_ok : Forall2 mem_of (memories f) ms.
  Hypothesis built : build 0 ms = Ok (ac_hierarchy a).
  Hypothesis sizes_ok : sizes_as (rf_array f) (ac_array a).
  Hypothesis usable : usable_layer r e ws loops.
  Hypothesis read : layer_as order mapping r e ws loops l.
  Hypothesis links_read : at_links (bl_mapping l) = en_links en.
  Hypothesis links_once : NoDup (keys (at_links (bl_mapping l))).
  Hypothesis links_keys : forall op, In op (keys (at_links (bl_mapping l))) <-> In op ["O"; "W"; "I"].
  Hypothesis spatial_read : match en_spatial en with None => at_spatial (bl_mapping l) = [] | Some user => describes user (at_spatial (bl_mapping l)) end.
  Hypothesis spatial_once : forall user, en_spatial en = Some user -> NoDup (keys user).
  Hypothesis entry_ok : usable_entry f en.
  Hypothesis precision_read : rl_precision r = Some p.
  Hypothesis room : one_element f (en_links en) p.

  Let h := ac_hierarchy a.
  Let n := bl_node l.
  Let data := at_links (bl_mapping l).
  Let lay := gen_layer_of l.
  Let mems := map (inner_mem_of visit) (get_inner_memories h).

  Lemma array_sizes : ar_sizes (ac_array a) = combine (ra_dims (rf_array f)) (ra_sizes (rf_array f)) /\ keys (ar_sizes (ac_array a)) = ra_dims (rf_array f).
  Proof.
    destruct (ua_array f usable_f) as (Nd & _). destruct sizes_ok as (_ & _ & S1). destruct (S1 Nd) as (E & _). split; [exact E|]. rewrite E. apply Proof_Generation.keys_combine.
    destruct (ua_accepted f usable_f) as (((P & _) & _) & _). destruct P as (_ & P & _). now symmetry.
  Qed.

  Lemma reads_precision : l_precision (ln_layer n) = p.
  Proof.
    destruct (as_node _ _ _ _ _ _ _ read) as (nd & B & _ & _ & _ & Epr & _). destruct (node_fields _ _ _ _ B) as (_ & F2 & _). fold n in F2. rewrite F2. congruence.
  Qed.

  Lemma used lop mop : dget mop (gl_layer_op lay) = Some lop <-> dget lop data = Some mop.
  Proof.
    assert (N := links_distinct f l en links_read links_once links_keys entry_ok). cbn [lay gen_layer_of gl_layer_op]. fold data in N |- *.
    unfold lay, gen_layer_of. cbn [gl_layer_op]. fold data. rewrite (reverse_nodup data N). now apply dget_swap.
  Qed.

  (** What an innermost memory offers *)
  Lemma inner_offer m mop lop : In m (get_inner_memories h) -> In mop (lv_operands m) -> dget lop data = Some mop ->
    exists raw bw, first_memory f raw /\ ml_size (lv_mem m) = rm_size raw /\ In mop (rm_operands raw) /\
      dget mop (towards_array (if string_dec lop "O" then WrLow else RdLow) (ml_bw_max (lv_mem m))) = Some (Some bw) /\
      exists q, In q (rm_ports raw) /\ lists q mop (if string_dec lop "O" then WrLow else RdLow) /\ bw = rp_max q.
  Proof.
    intros Im Io El. destruct (inner_memory f ms h memories_ok built m Im) as (raw & i & s & Es & Eh & First & Ir & Ms & Ds).
    assert (Is : In mop (ms_operands s)) by (rewrite <- (proj1 Ds); exact Io).
    assert (Named : operand_name mop) by exact (hw_operands f ms usable_f memories_ok s mop (nth_error_In _ _ Es) Is).
    set (d := if string_dec lop "O" then WrLow else RdLow).
    assert (M : movement f i mop d).
    { unfold movement, d. destruct (string_dec lop "O") as [->|]; [|now left]. right. left. split; [|reflexivity].
      destruct (link_values f l en links_read links_keys entry_ok "O" mop El) as [(_ & ->)|([V|V] & _)]; [reflexivity|discriminate V|discriminate V]. }
    destruct (hw_moved f ms usable_f memories_ok i s mop d Es Is M) as (pt & Mv).
    destruct (level_ports 0 ms h i s m (proj1 (hw_once f ms usable_f memories_ok)) built Es Eh) as (_ & _ & W & _).
    destruct (W mop d pt Io Mv) as (_ & Eb). exists raw, (ps_bw_max pt). split; [exact First|].
    split; [rewrite (proj1 (proj2 Ds)); exact (proj1 Ms)|]. split; [rewrite <- (proj1 (proj2 Ms)); exact Is|]. split.
    - rewrite dget_towards. unfold Spec_Hierarchy.get2 in Eb. destruct (dget mop (ml_bw_max (lv_mem m))) as [x|]; [|discriminate]. cbn [option_map]. now rewrite Eb.
    - destruct Mv as (l1 & l2 & Ep & Li & _). assert (Ip : In pt (ms_ports s)) by (rewrite Ep; apply in_elt).
      destruct (Proof_Bandwidth.Forall2_in_r _ _ _ _ (proj2 (proj2 (proj2 Ms))) Ip) as (q & Iq & Pq). exists q. split; [exact Iq|]. split.
      + apply (listed_as q pt mop d Named); [exact (proj1 (proj2 (raw_proper f usable_f raw Ir)) q Iq)|exact Pq|exact Li].
      + destruct Pq as (_ & _ & _ & E & _). exact E.
  Qed.

  Lemma generation_inputs : gen_inputs lay mems (ar_sizes (ac_array a)) (hints_of visit a l) (qmaxs (at_spatial (bl_mapping l))).
  Proof.
    destruct array_sizes as (Ea & Ek). destruct (ua_array f usable_f) as (Nd & Pa). destruct (loops_once order mapping r e ws loops l order_perm usable read) as (Nl & Pl).
    assert (Es : ln_sizes n = loops) by exact (as_sizes _ _ _ _ _ _ _ read).
    assert (Visit : forall x, NoDup (visited visit x) /\ forall d, In d (visited visit x) <-> In d x).
    { intros x. unfold visited. split.
      - eapply Permutation_NoDup; [apply Permutation_sym, visit_perm|apply NoDup_nodup].
      - intros d. rewrite <- (nodup_In string_dec x d). split; intros I; [apply (Permutation_in _ (visit_perm _)) in I|apply (Permutation_in _ (Permutation_sym (visit_perm _)))]; exact I. }
    assert (Spatial : dicts (qmaxs (at_spatial (bl_mapping l))) /\ (forall o, In o (keys (qmaxs (at_spatial (bl_mapping l)))) -> In o (ra_dims (rf_array f))) /\ sm_whole (qmaxs (at_spatial (bl_mapping l)))).
    { destruct (en_spatial en) as [user|] eqn:Eu.
      - destruct spatial_read as (Ks & Hs). assert (Nu := spatial_once user eq_refl). destruct entry_ok as (Hu & _). set (sm := at_spatial (bl_mapping l)) in *.
        assert (Row : forall o m, In (o, m) sm -> NoDup (keys m) /\ In o (ra_dims (rf_array f)) /\ forall d k, In (d, k) m -> 1 <= k).
        { intros o m I. assert (Io : In o (keys user)) by (rewrite <- Ks; change o with (fst (o, m)); now apply List.in_map). apply key_in in Io. destruct Io as (texts & Io).
          destruct (Hs o texts Io) as (us & m' & Fu & Gm & Nm & Hm). assert (m' = m) by (apply In_dget in I; [congruence|now rewrite Ks]). subst m'.
          destruct (Hu user o texts Eu Io) as (Ho & Hk). split; [exact Nm|]. split; [exact Ho|]. intros d k Id. apply In_dget in Id; [|exact Nm]. apply Hm in Id.
          destruct Id as (pre & post & -> & _). destruct (Proof_Bandwidth.Forall2_in_r _ _ _ _ Fu (in_elt (d, k) pre post)) as (text & It & U). exact (Hk text (d, k) It U). }
        split; [split|split].
        + rewrite keys_qmaxs. now rewrite Ks.
        + intros o m I. unfold qmaxs in I. apply in_map_iff in I. destruct I as ((o' & m') & E & I). cbn [fst snd] in E. assert (m = qsizes m') by congruence. subst m. rewrite keys_qsizes. exact (proj1 (Row o' m' I)).
        + intros o I. rewrite keys_qmaxs in I. apply key_in in I. destruct I as (m & I). exact (proj1 (proj2 (Row o m I))).
        + intros o m d u I J. unfold qmaxs in I. apply in_map_iff in I. destruct I as ((o' & m') & E & I). cbn [fst snd] in E. assert (m = qsizes m') by congruence. subst m.
          unfold qsizes in J. apply in_map_iff in J. destruct J as ((d' & k) & E' & J). cbn [fst snd] in E'. exists k. split; [exact (proj2 (proj2 (Row o' m' I)) d' k J)|]. assert (u = inject_Z k) by congruence. subst u. reflexivity.
      - rewrite spatial_read. split; [split; [constructor|intros o m []]|]. split; [intros o []|intros o m d u []]. }
    destruct Spatial as (Sp1 & Sp2 & Sp3).
    assert (Ent : forall mem, In mem mems -> exists m, In m (get_inner_memories h) /\ mem = inner_mem_of visit m) by (intros mem I; apply in_map_iff in I; destruct I as (m & <- & I); eauto).
    constructor.
    - rewrite Ek. exact Nd.
    - intros o s G. apply dget_In in G. rewrite Ea in G. apply in_combine_r in G. exact (Pa s G).
    - unfold lay, gen_layer_of. cbn [gl_sizes]. fold n. now rewrite Es.
    - intros d s G. unfold lay, gen_layer_of in G. cbn [gl_sizes] in G. fold n in G. rewrite Es in G. apply dget_In in G. exact (Pl d s G).
    - intros mem I. destruct (Ent mem I) as (m & Im & ->). unfold inner_mem_of at 1 2 3. cbn [im_served im_operands]. split; [exact (proj1 (Visit _))|]. split.
      + intros o Io. apply (proj1 (proj2 (Visit _) o)) in Io. rewrite Ek. destruct (inner_memory f ms h memories_ok built m Im) as (raw & i & s & Ess & Eh & First & Ir & Mss & Ds).
        assert (Sv : lv_served m = rm_served raw) by (rewrite <- (proj1 (proj2 (proj2 Mss))); unfold described in Ds; tauto).
        rewrite Sv in Io. exact (proj1 (proj2 (proj2 (raw_proper f usable_f raw Ir))) o Io).
      + intros mop Io. destruct (inner_memory f ms h memories_ok built m Im) as (raw & i & s & Ess & Eh & First & Ir & Mss & Ds).
        assert (Is : In mop (ms_operands s)) by (rewrite <- (proj1 Ds); exact Io).
        assert (Named : operand_name mop) by exact (hw_operands f ms usable_f memories_ok s mop (nth_error_In _ _ Ess) Is).
        destruct (link_of f l en links_read entry_ok mop Named) as (lop & El). fold data in El.
        assert (Ion : In lop ["O"; "W"; "I"]) by (apply links_keys; fold data; now apply dget_Some_key in El).
        destruct (named_operand r e ws loops usable lop Ion) as (w & Iw & Ew).
        destruct (operand_relevancy order mapping r e ws loops l order_perm usable read w Iw) as (rv & _ & _ & Gi & _ & _ & _ & _ & _ & (pr & Gp) & _). rewrite Ew in Gi, Gp.
        destruct (inner_offer m mop lop Im Io El) as (raw' & bw & _ & _ & _ & Eb & _). exists lop, pr, (rv_ir rv), bw. split.
        * constructor; [exact Io|now apply used|exact Gp|exact Gi].
        * unfold array_bandwidth, inner_mem_of. cbn [im_wr_low im_rd_low]. destruct (string_dec lop "O") as [->|N]; [left|right]; now split.
    - intros mem mop lop prec ir I [U1 U2 U3 U4]. destruct (Ent mem I) as (m & Im & ->). apply used in U2. unfold inner_mem_of in U1. cbn [im_operands] in U1.
      destruct (inner_offer m mop lop Im U1 U2) as (raw & bw & First & Sz & Or & _). unfold inner_mem_of. cbn [im_size]. rewrite Sz.
      unfold lay, gen_layer_of in U3. cbn [gl_prec] in U3. fold n in U3. rewrite reads_precision in U3. unfold data in U2. rewrite links_read in U2.
      exact (proj1 (room raw lop mop prec First U2 Or U3)).
    - intros mem mop lop prec ir bw I [U1 U2 U3 U4] B. destruct (Ent mem I) as (m & Im & ->). apply used in U2. unfold inner_mem_of in U1. cbn [im_operands] in U1.
      destruct (inner_offer m mop lop Im U1 U2) as (raw & bw' & First & Sz & Or & Eb & q & Iq & Lq & ->).
      unfold lay, gen_layer_of in U3. cbn [gl_prec] in U3. fold n in U3. rewrite reads_precision in U3. unfold data in U2. rewrite links_read in U2.
      assert (Ebw : bw = rp_max q).
      { unfold array_bandwidth, inner_mem_of in B. cbn [im_wr_low im_rd_low] in B. destruct (string_dec lop "O") as [->|N]; destruct B as [(B1 & B2)|(B1 & B2)]; try congruence. }
      rewrite Ebw. exact (proj2 (room raw lop mop prec First U2 Or U3) q Iq Lq).
    - exact Sp1.
    - intros o I. rewrite Ek. now apply Sp2.
    - exact Sp3.
    - intros o I. unfold hints_of. fold n. rewrite Es.
      destruct (hints_ok (keys (ar_sizes (ac_array a))) (keys loops) (map (fun kv => (fst kv, visited visit (snd kv))) (at_hint (bl_mapping l))) Nl) with (o := o) as (x & G1 & G2 & G3 & _).
      + intros E0. apply (ul_some _ _ _ _ usable). now apply map_eq_nil in E0.
      + intros o' x J. apply in_map_iff in J. destruct J as ((k & v) & E0 & _). cbn [fst snd] in E0. assert (x = visited visit v) by congruence. subst x. exact (proj1 (Visit _)).
      + exact I.
      + exists x. split; [exact G1|]. split; [exact G2|]. destruct G3 as (d & G3 & G4). exists d. split; [exact G3|]. unfold lay, gen_layer_of. cbn [gl_sizes]. fold n. now rewrite Es.
  Qed.

  (** Between one and as many as wanted, all of which can be converted. *)
  Lemma mappings_generated : exists sms, spatial_mappings order1 order2 dim_order visit pick_dim pick_oa mix nb a l = Ok sms /\ (1 <= length sms <= nb)%nat /\
    forall sm, In sm sms -> valid_user loops (ar_sizes (ac_array a)) sm /\ within_array (ar_sizes (ac_array a)) sm.
  Proof.
    destruct (generate_valid order1 order2 dim_order pick_dim pick_oa Ho1 Ho2 Hdo Hpd Hpo _ _ _ mix nb _ _ generation_inputs some) as (zmax & sms & _ & E & L & V).
    exists sms. split; [exact E|]. split; [exact L|]. intros sm I. destruct (V sm I) as (D & W & _ & F). split; [|exact (generated_within _ _ _ _ F)].
    apply (generated_valid loops (ar_sizes (ac_array a)) (qmaxs zmax) sm); [|exact D|exact W|].
    - intros d k G. apply dget_In in G. exact (proj2 (loops_once order mapping r e ws loops l order_perm usable read) d k G).
    - replace loops with (gl_sizes lay); [exact F|]. exact (as_sizes _ _ _ _ _ _ _ read).
  Qed.
End Generation.
