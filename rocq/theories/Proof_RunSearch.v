(** C84: what the search is given for a spatial mapping that suits layer and array. *)
From Coq Require Import QArith Ascii Lqa.
From Verif Require Import Base Model_Text Model_Alloc Model_Links Model_DataMove Model_Cost Model_Hierarchy Model_Layer Model_MapFile Model_WorkFile Model_AccelFile Model_Convert Model_Generation Model_Evaluate Model_Run
  Spec_Pr Spec_Loma Spec_Layer Spec_MapFile Spec_WorkFile Spec_AccelFile Spec_Hierarchy Spec_SpatialMap Spec_Convert Spec_SpatialInt Spec_Decouple Spec_Evaluate Spec_Search Spec_Run
  Proof_Links Proof_Hierarchy Proof_RunLayer Proof_RunHardware Proof_RunSpatial.
Open Scope string_scope.
Open Scope list_scope.
Open Scope Z_scope.

(** A loop of the layer occurs with a size. *)
Lemma key_in {V} d (m : dict string V) : In d (keys m) -> exists v, In (d, v) m.
Proof. intros I. apply in_map_iff in I. destruct I as ((k & v) & <- & I). now exists v. Qed.

Section Search.
  Variables (order visit : list string -> list string) (free : bool) (mapping : list raw_entry) (f : raw_accel) (r : raw_layer) (e : written_equation)
    (ws : list written_relation) (loops : list (string * Z)) (a : accel) (l : built_layer) (ms : list memspec) (en : entry) (unit unit_area : Q).
  Hypothesis order_perm : forall l, Permutation (order l) l.
  Hypothesis usable_f : usable_accelerator f.
  Hypothesis memories_ok : Forall2 mem_of (memories f) ms.
  Hypothesis built : build 0 ms = Ok (ac_hierarchy a).
  Hypothesis sizes_ok : sizes_as (rf_array f) (ac_array a).
  Hypothesis kind : ar_kind (ac_array a) = Multipliers unit unit_area (unit_area * inject_Z (ar_units (ac_array a))).
  Hypothesis usable : usable_layer r e ws loops.
  Hypothesis read : layer_as order mapping r e ws loops l.
  Hypothesis links_read : at_links (bl_mapping l) = en_links en.
  Hypothesis links_once : NoDup (keys (at_links (bl_mapping l))).
  Hypothesis links_keys : forall op, In op (keys (at_links (bl_mapping l))) <-> In op ["O"; "W"; "I"].
  Hypothesis entry_ok : usable_entry f en.

  Let h := ac_hierarchy a.
  Let n := bl_node l.
  Let data := at_links (bl_mapping l).

  Lemma link_values op m : dget op data = Some m ->
    (op = "O" /\ m = "O") \/ ((op = "I" \/ op = "W") /\ (m = "I1" \/ m = "I2")).
  Proof.
    intros E. assert (I : In op ["O"; "W"; "I"]) by (apply links_keys; now apply dget_Some_key in E).
    unfold data in E. rewrite links_read in E. destruct entry_ok as (_ & (Lo & Liw) & _). destruct I as [<-|[<-|[<-|[]]]]; [left; split; congruence|right|right];
      (split; [tauto|]); destruct Liw as [(Li & Lw)|(Li & Lw)]; rewrite ?Li, ?Lw in E; injection E as <-; tauto.
  Qed.
  Lemma link_of m : operand_name m -> exists op, dget op data = Some m.
  Proof.
    unfold data. rewrite links_read. destruct entry_ok as (_ & (Lo & Liw) & _). intros [<-|[<-|[<-|[]]]]; [| |eauto]; destruct Liw as [(Li & Lw)|(Li & Lw)]; eauto.
  Qed.
  Lemma link_some op : In op ["O"; "W"; "I"] -> exists m, dget op data = Some m.
  Proof. intros I. apply links_keys in I. now apply key_dget in I. Qed.
  Lemma links_distinct : NoDup (values data).
  Proof.
    assert (G : forall op op' m, dget op data = Some m -> dget op' data = Some m -> op = op').
    { intros op op' m E E'. assert (V := link_values op m E). assert (V' := link_values op' m E'). unfold data in E, E'. rewrite links_read in E, E'.
      destruct entry_ok as (_ & (Lo & Liw) & _).
      destruct V as [(-> & ->)|(V & M)], V' as [(-> & M')|(V' & M')]; try reflexivity; [destruct M'; discriminate|subst m; destruct M; discriminate|].
      destruct V as [->| ->], V' as [->| ->]; try reflexivity; destruct Liw as [(Li & Lw)|(Li & Lw)]; rewrite Li in *; rewrite Lw in *; congruence. }
    clear - G links_once. fold data in links_once. revert links_once G. generalize data. clear. intros d N G. induction d as [|[k v] d IH]; [constructor|].
    cbn [keys values map fst snd] in *. inversion N as [|? ? N1 N2]; subst. constructor.
    - intros I. apply in_map_iff in I. destruct I as ((k' & v') & E & I). cbn [snd] in E. subst v'. assert (Ek : k = k').
      { apply (G k k' v); apply In_dget; try exact N; [now left|now right]. }
      subst k'. apply N1. change k with (fst (k, v)). now apply List.in_map.
    - apply IH; [exact N2|]. intros op op' m E E'. apply (G op op' m); apply In_dget; try exact N; right; now apply dget_In.
  Qed.
  Lemma links_made : exists lk, make_links data = Ok lk /\ lk_data lk = data.
  Proof.
    destruct (proj2 (links_ok data links_once) links_distinct) as (lk & E). exists lk. split; [exact E|]. unfold make_links in E. destruct (Nat.eqb _ _); [|discriminate]. now injection E as <-.
  Qed.

  Lemma sizes_are : ln_sizes n = loops.
  Proof. exact (as_sizes _ _ _ _ _ _ _ read). Qed.

  (** * Levels *)
  Lemma served_ok : exists served, served_levels visit a l = Ok served /\
    Forall2 (fun x y => fst y = fst x /\ length (snd y) = length (holders h (snd x))) data served.
  Proof.
    unfold served_levels. fold data h. destruct (levels_perm 0 ms h built) as (top & _ & _ & G). generalize data.
    intros dd. induction dd as [|x d IH]; [exists []; split; [reflexivity|constructor]|]. destruct IH as (s & E & F). destruct (G (snd x)) as (ls & El & _ & P).
    cbn [rmap]. rewrite El. cbn [rbind]. rewrite E. cbn [rbind]. eexists. split; [reflexivity|]. constructor; [|exact F]. cbn [fst snd]. split; [reflexivity|].
    rewrite map_length. now apply Permutation_length.
  Qed.

  Definition levels_ready (sp : dict string (list (list (string * Q)))) : Prop :=
    (forall op m, dget op data = Some m -> exists su, dget op sp = Some su /\ length su = S (length (holders h m)) /\
      forall x, In x (concat su) -> (1 <= snd x)%Q /\ exists k, In (fst x, k) loops /\ (k = 1 -> (snd x == 1)%Q)) /\
    forall op op' su su', dget op sp = Some su -> dget op' sp = Some su' -> (unrolled_from 0 su == unrolled_from 0 su')%Q.

  Lemma levels_are sm : valid_user loops (ar_sizes (ac_array a)) sm ->
    exists sp spi, spatial_levels visit a l sm = Ok (sp, spi) /\ levels_ready sp /\ levels_ready spi.
  Proof.
    intros V. destruct (loops_once order mapping r e ws loops l order_perm usable read) as (Nl & _). destruct (limited_tame _ _ _ V Nl) as (lim & lim_int & E & T1 & T2).
    destruct served_ok as (served & Es & F). unfold spatial_levels. fold n. rewrite sizes_are, E. cbn [rbind]. rewrite Es. cbn [rbind fst snd]. do 2 eexists. split; [reflexivity|].
    assert (G : forall sm, tame loops sm -> levels_ready (mapping_per_mem_lvl served sm)).
    { clear - F Nl links_once. intros sm T. assert (L := levels_tame loops served sm T). set (sp := mapping_per_mem_lvl served sm) in *. split.
      - intros op m Ed. fold data in links_once. clear - F L Ed Nl. revert Ed L. generalize sp. clear sp. induction F as [|x y xs ys (H1 & H2) F IH]; intros sp Ed L; [discriminate|].
        inversion L as [|y' z ys' zs (L1 & L2 & L3 & _) L']; subst. destruct x as (k & v), z as (k' & v'), y as (k'' & v''). cbn [fst snd] in *. subst k'' k'.
        cbn [dget] in *. destruct (eqb op k); [|now apply IH]. injection Ed as ->. exists v'. split; [reflexivity|]. split; [congruence|].
        intros x I. destruct (L3 x I) as (P1 & P2 & P3). split; [exact P1|]. apply key_in in P2. destruct P2 as (k0 & P2). exists k0. split; [exact P2|].
        intros ->. apply P3. apply In_dget; [exact Nl|exact P2].
      - intros op op' su su' Eo Eo'. apply same_units. intros d. apply dget_In in Eo, Eo'.
        destruct (Proof_Bandwidth.Forall2_in_r _ _ _ _ L Eo) as (y & _ & (_ & _ & _ & O)), (Proof_Bandwidth.Forall2_in_r _ _ _ _ L Eo') as (y' & _ & (_ & _ & _ & O')).
        cbn [snd] in O, O'. now rewrite O, O'. }
    split; now apply G.
  Qed.

  (** * The request *)
  Lemma named_operand op : In op ["O"; "W"; "I"] -> exists w, In w (operands_of e) /\ wr_name w = op.
  Proof.
    intros I. assert (J : In op (map wr_name (operands_of e))) by (destruct (ul_operands _ _ _ _ usable) as [-> | ->]; cbn in I |- *; tauto).
    apply in_map_iff in J. destruct J as (w & E & J). now exists w.
  Qed.

  Definition request_is (sp spi : dict string (list (list (string * Q)))) (rq : request) : Prop :=
    rq_layer rq = ln_layer n /\ rq_r rq = map (fun x => (fst x, rv_r (snd x))) (ln_relevancy n) /\ rq_ir rq = map (fun x => (fst x, rv_ir (snd x))) (ln_relevancy n) /\
    rq_pr rq = keys (filter (fun x => match rv_pr (snd x) with [] => false | _ => true end) (ln_relevancy n)) /\
    (rq_ops rq = ["O"; "I"; "W"] \/ rq_ops rq = ["O"; "W"; "I"]) /\ rq_out rq = "O" /\ rq_inputs rq = tl (rq_ops rq) /\
    rq_macs rq = zprod (map snd loops) /\ dget "O" (ln_size_elem n) = Some (rq_size_out rq) /\ make_links data = Ok (rq_links rq) /\ lk_data (rq_links rq) = data /\
    rq_hierarchy rq = h /\ rq_units rq = ar_units (ac_array a) /\ rq_mac_cost rq = unit /\ rq_cpo rq = 1%Q /\ rq_spatial rq = sp /\ rq_spatial_int rq = spi /\
    rq_temporal rq = [] /\ rq_free rq = free.

  Lemma request_made sm : valid_user loops (ar_sizes (ac_array a)) sm ->
    exists rq sp spi, request_with visit free a l sm = Ok rq /\ request_is sp spi rq /\ levels_ready sp /\ levels_ready spi.
  Proof.
    intros V. destruct (levels_are sm V) as (sp & spi & E & R1 & R2). destruct links_made as (lk & El & Ed).
    unfold request_with. rewrite E. cbn [rbind]. fold data n. rewrite El. cbn [rbind].
    assert (Eo : ln_operands n = ["O"; "I"; "W"] \/ ln_operands n = ["O"; "W"; "I"]).
    { unfold n. rewrite (as_operands _ _ _ _ _ _ _ read). exact (ul_operands _ _ _ _ usable). }
    assert (En : nth_error (ln_operands n) 0 = Some "O") by (destruct Eo as [-> | ->]; reflexivity). rewrite En. cbn [of_option rbind].
    destruct (named_operand "O") as (w & Iw & Ew); [now left|].
    destruct (operand_relevancy order mapping r e ws loops l order_perm usable read w Iw) as (rv & _ & _ & _ & _ & _ & _ & _ & _ & _ & k & Gk & _).
    rewrite Ew in Gk. fold n in Gk. unfold dgetr. rewrite Gk. cbn [of_option rbind]. unfold unit_energy. rewrite kind. cbn [rbind].
    eexists. exists sp, spi. split; [reflexivity|]. split; [|now split]. unfold request_is.
    cbn [rq_layer rq_r rq_ir rq_pr rq_ops rq_inputs rq_out rq_macs rq_size_out rq_links rq_hierarchy rq_units rq_mac_cost rq_cpo rq_free rq_spatial rq_spatial_int rq_temporal fst snd].
    assert (Em : ln_macs n = zprod (map snd loops)) by exact (as_operations _ _ _ _ _ _ _ read).
    repeat (split; [first [reflexivity|assumption]|]). reflexivity.
  Qed.

  Lemma dget_mapped {V W} (g : V -> W) op (d : dict string V) v : dget op d = Some v -> dget op (map (fun x => (fst x, g (snd x))) d) = Some (g v).
  Proof. induction d as [|[k x] d IH]; [discriminate|]. cbn [map dget fst snd]. destruct (eqb op k); [now intros [= ->]|exact IH]. Qed.

  (** * Searchable *)
  Section One.
    Variables (rq : request) (sp spi : dict string (list (list (string * Q)))).
    Hypothesis is : request_is sp spi rq.
    Hypothesis ready : levels_ready sp.
    Hypothesis ready_int : levels_ready spi.

    Lemma rq_dims : l_pr_loop (rq_layer rq) = l_pr_loop (ln_layer n) /\ keys (l_pr_loop (rq_layer rq)) = map rel_1 (map relation_of ws).
    Proof. destruct is as (-> & _). split; [reflexivity|]. exact (proj1 (proj2 (derived_keys order mapping r e ws loops l usable read))). Qed.

    Lemma rq_loop d k : In (d, k) loops -> loop_dim rq d.
    Proof.
      intros I. unfold loop_dim. rewrite (proj2 rq_dims). apply (loop_untagged r e ws loops usable). change d with (fst (d, k)). now apply List.in_map.
    Qed.

    Lemma in_pr op rv : dget op (ln_relevancy n) = Some rv -> (In op (rq_pr rq) <-> rv_pr rv <> []).
    Proof.
      intros G. destruct is as (_ & _ & _ & -> & _). destruct (as_node _ _ _ _ _ _ _ read) as (nd & B & _). destruct (node_fields _ _ _ _ B) as (_ & _ & _ & _ & N & _). fold n in N. split.
      - intros I. apply in_map_iff in I. destruct I as ((op' & rv') & E & I). cbn [fst] in E. subst op'. apply filter_In in I. destruct I as (I & H). cbn [snd] in H.
        apply (In_dget _ _ _ N) in I. rewrite G in I. injection I as <-. now destruct (rv_pr rv).
      - intros H. apply in_map_iff. exists (op, rv). split; [reflexivity|]. apply filter_In. split; [now apply dget_In|]. cbn [snd]. now destruct (rv_pr rv).
    Qed.

    Lemma rq_relevancy op : In op ["O"; "W"; "I"] -> exists rr ir, relevancy_ok rq loops op rr ir.
    Proof.
      intros I. destruct (named_operand op I) as (w & Iw & Ew).
      destruct (operand_relevancy order mapping r e ws loops l order_perm usable read w Iw) as (rv & G & Gp & Gi & Nr & Sub & Dis & Pr & Known & _). rewrite Ew in G, Gp, Gi. fold n in G, Gp, Gi.
      exists (rv_r rv), (rv_ir rv). destruct rq_dims as (Dl & Dk). assert (Ip := in_pr op rv G).
      assert (Rels : keys (l_pr_loop (ln_layer n)) = map rel_1 (map relation_of ws)) by (rewrite <- Dl; exact Dk).
      assert (Loops : l_pr_loop (ln_layer n) = map (fun q => (rel_1 q, (rel_2 q, rel_3 q))) (map relation_of ws)) by exact (proj1 (derived_keys order mapping r e ws loops l usable read)).
      assert (Ld : l_dims (ln_layer n) = map fst loops).
      { destruct (as_node _ _ _ _ _ _ _ read) as (nd & B & _). destruct (node_fields _ _ _ _ B) as (_ & _ & _ & E & _). fold n in E. rewrite E, sizes_are. reflexivity. }
      destruct is as (El & Er & Ei & _). unfold relevancy_ok, known_dim. rewrite Er, Ei, Dl, El. fold n in Pr, Known.
      split; [now apply dget_mapped|]. split; [now apply dget_mapped|]. split; [exact Nr|]. split.
      { rewrite Gp. f_equal. f_equal. destruct (in_dec string_dec op (rq_pr rq)) as [J|J].
        - apply Ip in J. destruct Pr as [E|(E & _)]; [contradiction|]. now rewrite E.
        - destruct (rv_pr rv) as [|x t]; [reflexivity|]. elim J. apply Ip. discriminate. }
      split; [exact Gi|]. split; [intros d Id; rewrite Ld; apply Sub, in_or_app; now left|]. split; [exact Dis|]. split.
      { intros d Id. rewrite Rels. apply (loop_untagged r e ws loops usable). now apply Sub. }
      split.
      { intros J d x p Id (da & db & Ix & U). apply Ip in J. destruct Pr as [E|(_ & _ & _ & P)]; [contradiction|].
        rewrite Loops in Ix. apply in_map_iff in Ix. destruct Ix as (q & E & Iq). injection E as <- <- <-. destruct (P d q Id Iq) as (P1 & P2). destruct U as [U|U]; congruence. }
      intros d k Id. split; [exact (rq_loop d k Id)|]. destruct (Known d k Id) as [->|[K|[K|(K & q & Iq & U)]]]; [now left|right|right|right]; [now left|right; now left|].
      right; right. split; [now apply Ip|]. exists (rel_1 q), (rel_2 q), (rel_3 q). split; [|exact U]. rewrite Loops. apply in_map_iff. now exists q.
    Qed.

    Lemma rq_ready x : levels_ready x -> spatial_ready rq x.
    Proof.
      intros (H1 & H2). constructor.
      - intros op m E. assert (Ed : lk_data (rq_links rq) = data) by (unfold request_is in is; tauto). assert (Eh : rq_hierarchy rq = h) by (unfold request_is in is; tauto).
        rewrite Ed in E. rewrite Eh. destruct (H1 op m E) as (su & Es & L & G). exists su. split; [exact Es|]. split; [exact L|].
        intros y rr ir Er Ei Iy. destruct (G y Iy) as (P1 & k & P2 & P3). split; [exact P1|]. split; [exact (rq_loop _ k P2)|].
        assert (Io : In op ["O"; "W"; "I"]) by (apply links_keys; fold data; now apply dget_Some_key in E).
        destruct (rq_relevancy op Io) as (r' & i' & (Er' & Ei' & _ & _ & _ & _ & _ & _ & _ & K)). rewrite Er in Er'. rewrite Ei in Ei'. injection Er' as <-. injection Ei' as <-.
        destruct (K (fst y) k P2) as (_ & [->|K']); [left; now apply P3|now right].
      - intros op op' su su' _ _. apply H2.
    Qed.

    Lemma rq_members op : (In op (rq_ops rq) <-> In op ["O"; "W"; "I"]) /\ (In op (rq_inputs rq) <-> op = "I" \/ op = "W") /\ rq_inputs rq <> [] /\ NoDup (rq_ops rq).
    Proof.
      destruct is as (_ & _ & _ & _ & O & _ & Ei & _). rewrite Ei. destruct O as [E|E]; rewrite E; cbn [tl]; (split; [cbn; tauto|]); (split; [cbn; split; intuition congruence|]); (split; [discriminate|]);
        repeat constructor; cbn; intuition discriminate.
    Qed.

    Lemma rq_searchable : searchable rq loops 0 ms.
    Proof.
      assert (Io : forall op, In op (rq_ops rq) <-> In op ["O"; "W"; "I"]) by (intros op; exact (proj1 (rq_members op))).
      assert (Ii : forall op, In op (rq_inputs rq) <-> op = "I" \/ op = "W") by (intros op; exact (proj1 (proj2 (rq_members op)))).
      destruct (rq_members "O") as (_ & _ & Ni & No).
      assert (Ed : lk_data (rq_links rq) = data) by (unfold request_is in is; tauto). assert (Eh : rq_hierarchy rq = h) by (unfold request_is in is; tauto).
      assert (Eout : rq_out rq = "O") by (unfold request_is in is; tauto). assert (El : rq_layer rq = ln_layer n) by (unfold request_is in is; tauto).
      assert (Em : make_links data = Ok (rq_links rq)) by (unfold request_is in is; tauto).
      destruct (as_node _ _ _ _ _ _ _ read) as (nd & B & _ & _ & _ & Epr & _). destruct (node_fields _ _ _ _ B) as (F1 & F2 & F3 & _ & F4 & F5). fold n in F1, F2, F3, F4, F5.
      assert (Positive : forall k v, dget k (nd_precision nd) = Some v -> 0 <= v) by (intros k v G; apply dget_In in G; exact (ul_precision _ _ _ _ usable _ k v Epr G)).
      constructor.
      - constructor.
        + rewrite Eh. exact built.
        + exact (hw_once f ms usable_f memories_ok).
        + rewrite Eh. exact (hw_order f ms h usable_f memories_ok built).
        + exact (hw_sizes f ms usable_f memories_ok).
        + exact (hw_widths f ms usable_f memories_ok).
        + intros m mem_op Im Iop. rewrite Ed. apply link_of. exact (hw_operands f ms usable_f memories_ok m mem_op Im Iop).
        + intros i m op mem_op k E Iop G N. rewrite Ed in G. apply (hw_moved f ms usable_f memories_ok i m mem_op k E Iop).
          unfold movement. rewrite (above_spec f ms memories_ok i mem_op). unfold needed in N. rewrite Eout in N.
          destruct (link_values op mem_op G) as [(-> & ->)|(V & _)].
          * destruct N as [(I & _)|(_ & N)]; [apply Ii in I; destruct I; discriminate|]. tauto.
          * destruct N as [(_ & N)|(-> & _)]; [|destruct V; discriminate]. tauto.
      - constructor.
        + exists data. now split.
        + intros op. rewrite Eout, Ii, Ed. rewrite Io. unfold data. rewrite links_keys. cbn. split; intuition congruence.
        + split; [exact No|]. assert (Ep : rq_pr rq = keys (filter (fun x => match rv_pr (snd x) with [] => false | _ => true end) (ln_relevancy n))) by (unfold request_is in is; tauto).
          assert (Er : rq_r rq = map (fun x => (fst x, rv_r (snd x))) (ln_relevancy n)) by (unfold request_is in is; tauto). rewrite Ep, Er. split.
          * clear - F4. induction (ln_relevancy n) as [|x d IH]; [constructor|]. cbn [keys map] in F4. inversion F4 as [|? ? N1 N2]; subst. cbn [filter]. destruct (match rv_pr (snd x) with [] => false | _ => true end); [|now apply IH].
            cbn [keys map]. constructor; [|now apply IH]. intros I. apply N1. apply in_map_iff in I. destruct I as (y & E & I). apply filter_In in I. apply in_map_iff. exists y. tauto.
          * unfold keys. rewrite map_map. exact F4.
        + intros op I. assert (Ep : rq_pr rq = keys (filter (fun x => match rv_pr (snd x) with [] => false | _ => true end) (ln_relevancy n))) by (unfold request_is in is; tauto).
          assert (Ik : In op (keys (ln_relevancy n))). { rewrite Ep in I. apply in_map_iff in I. destruct I as (x & <- & I). apply filter_In in I. apply List.in_map. tauto. }
          assert (Ion : In op ["O"; "W"; "I"]). { apply F5 in Ik. unfold n in Ik. rewrite (as_operands _ _ _ _ _ _ _ read) in Ik. destruct (ul_operands _ _ _ _ usable) as [E|E]; rewrite E in Ik; cbn in Ik |- *; tauto. }
          split; [now apply Io|]. rewrite Eout. intros ->. apply key_dget in Ik. destruct Ik as (rv & G).
          destruct (named_operand "O" Ion) as (w & Iw & Ew). destruct (operand_relevancy order mapping r e ws loops l order_perm usable read w Iw) as (rv' & G' & _ & _ & _ & _ & _ & Pr & _).
          rewrite Ew in G'. fold n in G'. assert (rv' = rv) by congruence. subst rv'. apply (in_pr "O" rv G) in I. destruct Pr as [E|(_ & _ & (w' & J1 & J2) & _)]; [contradiction|].
          assert (Wo : w = we_out e).
          { assert (Nn := proj2 (proj2 (sy_equation _ _ _ _ (ul_sensible _ _ _ _ usable)))). destruct Iw as [<-|Iw]; [reflexivity|]. exfalso.
            unfold operands_of in Nn. cbn [map] in Nn. inversion Nn as [|? ? N1 _]; subst. apply N1.
            assert (Hout : wr_name (we_out e) = "O") by (clear - usable; destruct (ul_operands _ _ _ _ usable) as [E'|E']; cbn in E'; congruence). rewrite Hout, <- Ew. exact (List.in_map wr_name (we_first e :: map fa_operand (we_rest e)) w Iw). }
          subst w. exact (ul_output _ _ _ _ usable w' J1 J2).
        + split; [exact Ni|]. intros op I. apply Ii in I. rewrite Ed. destruct (link_some op) as (m & G); [cbn; intuition congruence|]. exists m. split; [exact G|].
          destruct (link_values op m G) as [(-> & _)|(_ & V)]; [destruct I; discriminate|exact V].
        + rewrite Eout, Ed. destruct (link_some "O") as (m & G); [now left|]. exists m. split; [exact G|]. destruct (link_values "O" m G) as [(_ & ->)|([V|V] & _)]; [split; discriminate|discriminate V|discriminate V].
        + rewrite El. exact (layer_derived order mapping r e ws loops l usable read).
        + rewrite El. split.
          * unfold final_output_precision in F3. destruct (dget "O_final" (nd_precision nd)) as [v|] eqn:G; [injection F3 as <-; exact (Positive _ _ G)|].
            unfold dgetr in F3. destruct (dget "O" (nd_precision nd)) as [v|] eqn:G'; [|discriminate]. cbn in F3. injection F3 as <-. exact (Positive _ _ G').
          * intros op I. apply Io in I. destruct (named_operand op I) as (w & Iw & Ew). destruct (operand_relevancy order mapping r e ws loops l order_perm usable read w Iw) as (rv & _ & _ & _ & _ & _ & _ & _ & _ & (p & Gp) & _).
            rewrite Ew in Gp. exists p. split; [exact Gp|]. fold n in Gp. rewrite F2 in Gp. exact (Positive _ _ Gp).
        + split.
          * assert (E : rq_macs rq = zprod (map snd loops)) by (unfold request_is in is; tauto). rewrite E. assert (Pl := proj2 (loops_once order mapping r e ws loops l order_perm usable read)). clear - Pl.
            induction loops as [|[d k] ls IH]; [cbn; lia|]. cbn [map snd]. rewrite zprod_cons. apply Z.mul_nonneg_nonneg; [specialize (Pl d k (or_introl eq_refl)); lia|]. apply IH. intros d' k' I. apply (Pl d' k'). now right.
          * assert (G : dget "O" (ln_size_elem n) = Some (rq_size_out rq)) by (unfold request_is in is; tauto). exact (output_size order mapping r e ws loops l order_perm usable read _ G).
      - rewrite El, Ed. exact F1.
      - split; [exact (ul_some _ _ _ _ usable)|]. exact (loops_once order mapping r e ws loops l order_perm usable read).
      - intros op I. apply Io in I. exact (rq_relevancy op I).
      - intros op mem_op G. rewrite Ed in G. apply (hw_stored f ms usable_f memories_ok). destruct (link_values op mem_op G) as [(_ & ->)|(_ & [->| ->])]; cbn; tauto.
      - assert (E : rq_spatial rq = sp) by (unfold request_is in is; tauto). rewrite E. now apply rq_ready.
      - assert (E : rq_spatial_int rq = spi) by (unfold request_is in is; tauto). rewrite E. now apply rq_ready.
      - assert (E : rq_units rq = ar_units (ac_array a)) by (unfold request_is in is; tauto). rewrite E. destruct (ua_array f usable_f) as (Nd & P). destruct sizes_ok as (_ & _ & S1). rewrite (proj2 (S1 Nd)).
        clear - P. induction (ra_sizes (rf_array f)) as [|k ks IH]; [reflexivity|]. rewrite zprod_cons. apply Z.mul_pos_pos; [specialize (P k (or_introl eq_refl)); lia|]. apply IH. intros k' I. apply P. now right.
      - exists 1. assert (E : rq_cpo rq = 1%Q) by (unfold request_is in is; tauto). rewrite E. split; [reflexivity|lia].
    Qed.
  End One.
End Search.
