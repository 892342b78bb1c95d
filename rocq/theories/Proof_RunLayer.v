(** C84: layers that are read from files suit the search. *)
From Coq Require Import QArith Ascii.
From Verif Require Import Base Model_Text Model_Alloc Model_Links Model_DataMove Model_Cost Model_Hierarchy Model_Layer Model_MapFile Model_WorkFile Model_AccelFile Model_Evaluate Model_Run
  Spec_Pr Spec_Loma Spec_Layer Spec_MapFile Spec_WorkFile Spec_Decouple Spec_Evaluate Spec_Search Spec_Run
  Proof_Relevancy Proof_Elements Proof_Links.
Open Scope string_scope.
Open Scope list_scope.
Open Scope Z_scope.

(** What is copied from the description *)
Lemma node_fields order links nd ln : layer_node_of order links nd = Ok ln ->
  l_links (ln_layer ln) = links /\ l_precision (ln_layer ln) = nd_precision nd /\
  final_output_precision (nd_precision nd) = Ok (l_final_precision (ln_layer ln)) /\ l_dims (ln_layer ln) = keys (ln_sizes ln) /\
  NoDup (keys (ln_relevancy ln)) /\ (forall op, In op (keys (ln_relevancy ln)) -> In op (ln_operands ln)).
Proof.
  intros H. unfold layer_node_of in H.
  destruct (rmap create_relation (nd_relations nd)) as [rels|] eqn:E1; [|discriminate]. cbn [rbind] in H.
  destruct (create_padding nd) as [pad|] eqn:E2; [|discriminate]. cbn [rbind] in H.
  destruct (contained_operands _) as [ops|] eqn:E3; [|discriminate]. cbn [rbind] in H.
  apply Proof_AllocSearch.rbind_Ok in H. destruct H as (prs & E4 & H).
  apply Proof_AllocSearch.rbind_Ok in H. destruct H as (rel & E5 & H).
  apply Proof_AllocSearch.rbind_Ok in H. destruct H as (el & E6 & H).
  apply Proof_AllocSearch.rbind_Ok in H. destruct H as (bits & E7 & H).
  apply Proof_AllocSearch.rbind_Ok in H. destruct H as (re & E8 & H).
  apply Proof_AllocSearch.rbind_Ok in H. destruct H as (fin & E9 & H).
  injection H as <-. cbn [ln_layer l_links l_precision l_final_precision l_dims ln_sizes ln_relevancy ln_operands].
  split; [reflexivity|]. split; [reflexivity|]. split; [exact E9|]. split; [reflexivity|].
  unfold extract_relevancy_info in E5. rewrite E3 in E5. cbn [rbind] in E5.
  destruct (rfold_dset (fun op => relevancy_of order (disassembly (create_equation (nd_equation nd))) (create_layer_dim_sizes nd) (pr_loop_of rels) (pr_loop_list_of rels) op) ops [] rel E5) as (_ & R2 & R3).
  split; [apply R3; constructor|]. intros op I. destruct (in_dec string_dec op ops) as [J|J]; [exact J|].
  apply R2 in J. apply key_dget in I. destruct I as (v & I). rewrite I in J. discriminate.
Qed.

(** * One layer *)
Section Layer.
  Variables (order : list string -> list string) (mapping : list raw_entry) (r : raw_layer) (e : written_equation)
    (ws : list written_relation) (loops : list (string * Z)) (l : built_layer).
  Hypothesis order_perm : forall l, Permutation (order l) l.
  Hypothesis usable : usable_layer r e ws loops.
  Hypothesis read : layer_as order mapping r e ws loops l.

  Let n := bl_node l.
  Let rels := map relation_of ws.
  Let sens := ul_sensible r e ws loops usable.
  Let good : sensible rels (map fst loops) := sy_sensible r e ws loops sens.

  Lemma loops_once : NoDup (keys loops) /\ forall d k, In (d, k) loops -> 1 <= k.
  Proof.
    destruct (sy_loops _ _ _ _ sens) as (dims & sizes & _ & _ & L & -> & Nd & Pos). split.
    - rewrite Proof_Generation.keys_combine; [exact Nd|]. rewrite map_length. now symmetry.
    - intros d k I. apply in_combine_r in I. apply Pos in I. lia.
  Qed.

  Lemma derived_keys : l_pr_loop (ln_layer n) = map (fun q => (rel_1 q, (rel_2 q, rel_3 q))) rels /\
    keys (l_pr_loop (ln_layer n)) = map rel_1 rels /\ l_pr_scaling (ln_layer n) = map (fun q => (rel_1 q, (rel_coef_2 q, rel_coef_3 q))) rels.
  Proof.
    destruct (as_node _ _ _ _ _ _ _ read) as (nd & B & _ & _ & Er & _).
    destruct (node_shape order _ nd _ B) as (rs & ps & pd & Er' & _ & _ & _ & El & Es & _). rewrite Er in Er'. injection Er' as <-.
    fold rels in El, Es. fold n in El, Es.
    assert (El' : l_pr_loop (ln_layer n) = map (fun q => (rel_1 q, (rel_2 q, rel_3 q))) rels).
    { rewrite El. unfold pr_loop_of. now rewrite (dict_of_rels (fun q => (rel_2 q, rel_3 q))) by exact (proj1 good). }
    split; [exact El'|]. split; [rewrite El'; unfold keys; now rewrite map_map|].
    rewrite Es. unfold pr_scaling_of. now rewrite (dict_of_rels (fun q => (rel_coef_2 q, rel_coef_3 q))) by exact (proj1 good).
  Qed.

  Lemma layer_derived : derived_ok (ln_layer n).
  Proof.
    destruct derived_keys as (El & Ek & Es). constructor.
    - rewrite Ek. exact (proj1 good).
    - intros p ab I. rewrite El in I. apply in_map_iff in I. destruct I as (q & E & I). injection E as <- <-.
      destruct (proj2 good q I) as (K2 & K3 & _). exists (rel_coef_2 q), (rel_coef_3 q).
      unfold rels in I. apply in_map_iff in I. destruct I as (w & Ew & I). destruct (as_derived _ _ _ _ _ _ _ read w I) as (m & Gm & Pm).
      exists m. split; [rewrite Es; apply (dget_rels (fun q => (rel_coef_2 q, rel_coef_3 q))); [exact (proj1 good)|]; unfold rels; rewrite <- Ew; now apply List.in_map|].
      split; [exact K2|]. split; [exact K3|]. rewrite <- Ew. cbn [relation_of rel_1]. now split.
    - intros p da db I. rewrite El in I. apply in_map_iff in I. destruct I as (q & E & I). injection E as <- <- <-.
      destruct (proj2 good q I) as (_ & _ & _ & I2 & I3). rewrite Ek.
      split; intros J; apply in_map_iff in J; destruct J as (q' & E & J); destruct (proj2 good q' J) as (_ & _ & N & _); rewrite E in N; contradiction.
    - intros p q x (da & db & I & U) (da' & db' & I' & U'). rewrite El in I, I'. apply in_map_iff in I, I'.
      destruct I as (a & E & I), I' as (b & E' & I'). injection E as <- <- <-. injection E' as <- <- <-. unfold rels in I, I'. apply in_map_iff in I, I'.
      destruct I as (w & <- & I), I' as (w' & <- & I'). cbn [relation_of rel_1 rel_2 rel_3] in *. f_equal. f_equal.
      exact (ul_unshared _ _ _ _ usable w w' (fst x) I I' U U').
  Qed.

  (** A loop of the layer is not derived and not named like a part. *)
  Lemma loop_untagged d : In d (map fst loops) -> ~ In d (map rel_1 rels) /\
    forall p, In p (map rel_1 rels) -> d <> String.append p "_R" /\ d <> String.append p "_IR".
  Proof.
    intros I. split.
    - intros J. apply in_map_iff in J. destruct J as (q & <- & J). now destruct (proj2 good q J) as (_ & _ & N & _).
    - intros p J. unfold rels in J. rewrite map_map in J. apply in_map_iff in J. destruct J as (w & <- & J). exact (ul_loops _ _ _ _ usable d w I J).
  Qed.

  (** The relevancy of an operand *)
  Lemma operand_relevancy w : In w (operands_of e) -> exists rv,
    dget (wr_name w) (ln_relevancy n) = Some rv /\
    dget (wr_name w) (l_r_or_pr (ln_layer n)) = Some (rv_r rv ++ keys (rv_pr rv)) /\ dget (wr_name w) (l_ir (ln_layer n)) = Some (rv_ir rv) /\
    NoDup (rv_r rv) /\ (forall d, In d (rv_r rv ++ rv_ir rv) -> In d (map fst loops)) /\ (forall d, In d (rv_r rv) -> ~ In d (rv_ir rv)) /\
    (rv_pr rv = [] \/ (rv_pr rv = l_pr_loop (ln_layer n) /\ rv_pr rv <> [] /\ (exists w', In w' ws /\ In (upper (wl_1 w')) (dims_of w)) /\
       forall d q, In d (rv_r rv ++ rv_ir rv) -> In q rels -> d <> rel_2 q /\ d <> rel_3 q)) /\
    (forall d k, In (d, k) loops -> k = 1 \/ In d (rv_r rv) \/ In d (rv_ir rv) \/
       (rv_pr rv <> [] /\ exists q, In q rels /\ (d = rel_2 q \/ d = rel_3 q))) /\
    (exists p, dget (wr_name w) (l_precision (ln_layer n)) = Some p) /\
    exists k, dget (wr_name w) (ln_size_elem n) = Some k /\ operand_size_elem loops (l_pr_loop (ln_layer n)) (l_pr_scaling (ln_layer n)) (l_pr_sizes (ln_layer n)) rv = Ok k.
  Proof.
    intros Iw. destruct (as_node _ _ _ _ _ _ _ read) as (nd & B & _ & _ & Er & Epr & Hd).
    destruct (node_shape order _ nd _ B) as (rs & ps & pd & Er' & _ & Sz & Op & El & Es & Ep & _ & _ & H). rewrite Er in Er'. injection Er' as <-.
    fold rels in El, Es, H. fold n in El, Es, Ep, Sz, Op, H.
    assert (Esz : ln_sizes n = loops) by exact (as_sizes _ _ _ _ _ _ _ read).
    assert (Io : In (wr_name w) (ln_operands n)).
    { unfold n. rewrite (as_operands _ _ _ _ _ _ _ read). now apply List.in_map. }
    destruct (H _ Io) as (rv & k & p & Hr & Gr & Hk & Gk & Gp & _ & _ & _ & Gpr & Gir). exists rv.
    destruct (node_fields _ _ _ _ B) as (_ & Lp & _).
    split; [exact Gr|]. split; [exact Gpr|]. split; [exact Gir|].
    destruct loops_once as (Nl & Pl). rewrite Esz in Hr, Hk.
    destruct (relevancy_shape order (node_tokens nd) loops rels _ rv Hr) as (subs & Gs & Sh). cbn zeta in Sh.
    assert (Es' : subs = dims_of w). { unfold node_tokens in Gs. rewrite (Hd w Iw) in Gs. congruence. }
    subst subs. destruct (sy_operands _ _ _ _ sens w Iw) as (_ & Sep). fold rels in Sep.
    assert (Ns : NoDup (dims_of w)) by exact (separate_nodup loops rels _ Sep).
    assert (Sub : forall d, In d (dims_of w) -> ~ In d (map rel_1 rels) -> In d (map fst loops)).
    { intros d I N. apply (proj2 Sep). apply in_flat_map. exists d. split; [exact I|]. unfold loops_of. rewrite find_rel_none by exact N. now left. }
    assert (Part : forall d, In d (pr_loop_list_of rels) -> In d (map fst loops) -> exists q, In q rels /\ (d = rel_2 q \/ d = rel_3 q)).
    { intros d I J. apply pr_list_spec in I. destruct I as (q & I & [E|E]); [|eauto]. exfalso. subst d. now destruct (proj2 good q I) as (_ & _ & N & _). }
    assert (Big : forall x d, In d (filter (fun d => negb (size_or_1 d loops =? 1)) x) -> In d x) by (intros x d I; now apply filter_In in I).
    assert (One : forall d k0, In (d, k0) loops -> k0 = 1 \/ negb (size_or_1 d loops =? 1) = true).
    { intros d k0 I. apply In_dget in I; [|exact Nl]. unfold size_or_1. rewrite I. destruct (Z.eqb_spec k0 1); [now left|now right]. }
    assert (Nb : NoDup (filter (fun d => negb (memb d (pr_loop_list_of rels))) (dims_of w))) by now apply NoDup_filter.
    assert (Nb' : NoDup (filter (fun d => negb (size_or_1 d loops =? 1)) (dims_of w))) by now apply NoDup_filter.
    assert (Ir0 := in_ir0 order order_perm loops (dims_of w)).
    assert (Rest : forall P : Prop, P -> P /\ (exists p, dget (wr_name w) (l_precision (ln_layer n)) = Some p) /\
      exists k, dget (wr_name w) (ln_size_elem n) = Some k /\ operand_size_elem loops (l_pr_loop (ln_layer n)) (l_pr_scaling (ln_layer n)) (l_pr_sizes (ln_layer n)) rv = Ok k).
    { intros P HP. split; [exact HP|]. split; [exists p; unfold n; rewrite Lp; exact Gp|]. exists k. split; [exact Gk|]. rewrite El, Es, Ep. exact Hk. }
    assert (Some_pr : forall d, In d (map rel_1 rels) -> pr_loop_of rels <> []).
    { intros d I E. rewrite <- El in E. rewrite <- (proj1 (proj2 derived_keys)), E in I. destruct I. }
    destruct Sh as [((d0 & D1 & D2) & ->)|(Nod & -> & Insub)]; cbn [rv_r rv_ir rv_pr] in *.
    - split; [exact Nb|]. split; [|split; [|split]].
      + intros d I. apply in_app_iff in I. destruct I as [I|I].
        * apply filter_In in I. destruct I as (I & N). apply negb_true_iff, memb_not_In in N. apply Sub; [exact I|].
          intros J. apply N. apply pr_list_spec. apply in_map_iff in J. destruct J as (q & <- & J). eauto.
        * apply Big in I. apply filter_In in I. destruct I as (I & _). apply Ir0 in I. exact (proj1 I).
      + intros d I J. apply filter_In in I. apply Big in J. apply filter_In in J. destruct J as (J & _). apply Ir0 in J. now destruct I, J.
      + right. split; [now rewrite El|]. split; [|split].
        * now apply Some_pr with (d := d0).
        * unfold rels in D2. rewrite map_map in D2. apply in_map_iff in D2. destruct D2 as (w' & <- & D2). exists w'. split; [exact D2|exact D1].
        * intros d q I Iq. assert (N : ~ In d (pr_loop_list_of rels)).
          { apply in_app_iff in I. destruct I as [I|I]; [|apply Big in I]; apply filter_In in I; destruct I as (_ & I); now apply negb_true_iff, memb_not_In in I. }
          split; intros ->; apply N; apply pr_list_spec; eauto.
      + apply Rest. intros d k0 I. destruct (One d k0 I) as [->|O]; [now left|right].
        assert (Id : In d (map fst loops)) by (change d with (fst (d, k0)); now apply List.in_map).
        destruct (in_dec string_dec d (pr_loop_list_of rels)) as [J|J].
        * right. right. split; [now apply Some_pr with (d := d0)|now apply Part].
        * assert (M : negb (memb d (pr_loop_list_of rels)) = true) by now apply negb_true_iff, memb_not_In.
          destruct (in_dec string_dec d (dims_of w)) as [K|K]; [left|right; left].
          -- apply filter_In. now split.
          -- apply filter_In. split; [|exact O]. apply filter_In. split; [|exact M]. apply Ir0. now split.
    - split; [exact Nb'|]. split; [|split; [|split]].
      + intros d I. apply in_app_iff in I. destruct I as [I|I]; apply Big in I; [now apply Insub|]. apply Ir0 in I. exact (proj1 I).
      + intros d I J. apply Big in I, J. apply Ir0 in J. now destruct J.
      + now left.
      + apply Rest. intros d k0 I. destruct (One d k0 I) as [->|O]; [now left|right].
        assert (Id : In d (keys loops)) by (change d with (fst (d, k0)); now apply List.in_map).
        destruct (in_dec string_dec d (dims_of w)) as [K|K]; [left|right; left]; apply filter_In; (split; [|exact O]); [exact K|]. apply Ir0. now split.
  Qed.

  (** The size of the output *)
  Lemma output_size k : dget "O" (ln_size_elem n) = Some k -> 0 <= k.
  Proof.
    intros G. assert (Iw : In (we_out e) (operands_of e)) by now left.
    assert (Ew : wr_name (we_out e) = "O") by (destruct (ul_operands _ _ _ _ usable) as [E|E]; cbn in E; congruence).
    destruct (operand_relevancy _ Iw) as (rv & _ & _ & _ & _ & Sub & _ & Pr & _ & _ & k' & Gk & Hk). rewrite Ew, G in Gk. injection Gk as <-.
    assert (Ep : rv_pr rv = []).
    { destruct Pr as [E|(_ & _ & (w' & I & J) & _)]; [exact E|]. now apply (ul_output _ _ _ _ usable) in J. }
    unfold operand_size_elem in Hk. rewrite Ep in Hk. cbn [keys map rmap rbind] in Hk.
    destruct (rmap (fun d => dgetr d loops) (rv_r rv)) as [rs|] eqn:R; [|discriminate]. cbn [rbind] in Hk. injection Hk as <-.
    assert (P : 0 <= zprod rs); [|cbn; lia]. apply Proof_AllocSearch.rmap_Forall2 in R. assert (Pl := proj2 loops_once). clear - R Pl.
    induction R as [|d x ds xs Hx R IH]; [cbn; lia|]. rewrite zprod_cons. apply Z.mul_nonneg_nonneg; [|exact IH].
    unfold dgetr in Hx. destruct (dget d loops) as [y|] eqn:G; [|discriminate]. injection Hx as ->. apply dget_In in G.
    apply Pl in G. lia.
  Qed.

End Layer.
