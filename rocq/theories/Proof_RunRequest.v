(** C84: what the search and the evaluation are given is what the files say. *)
From Coq Require Import QArith Lia.
From Verif Require Import Base Model_Text Model_Alloc Model_Links Model_DataMove Model_Cost Model_Hierarchy Model_Layer Model_MapFile Model_WorkFile Model_AccelFile Model_Convert Model_Generation Model_Evaluate Model_Run
  Spec_Loma Spec_Layer Spec_MapFile Spec_WorkFile Spec_AccelFile Spec_Hierarchy Spec_SpatialMap Spec_Convert Spec_Evaluate Spec_Search Spec_Run
  Proof_AllocSearch Proof_Links Proof_Hierarchy Proof_Convert Proof_Limited Proof_RunLayer Proof_RunHardware Proof_RunSpatial Proof_RunSearch.
Open Scope string_scope.
Open Scope list_scope.
Open Scope Z_scope.

Lemma home_same a b o : Forall2 (fun x y => forall o : string, In o x <-> In o y) a b -> home a o = home b o.
Proof.
  induction 1 as [|x y a b H F IH]; [reflexivity|]. cbn [home]. destruct (in_dec string_dec o x) as [I|I], (in_dec string_dec o y) as [J|J]; try reflexivity; [now apply H in I|now apply H in J|now rewrite IH].
Qed.

Section Request.
  Variables (order visit : list string -> list string) (free : bool) (mapping : list raw_entry) (f : raw_accel) (r : raw_layer) (e : written_equation)
    (ws : list written_relation) (loops : list (string * Z)) (a : accel) (l : built_layer) (ms : list memspec) (en : Model_MapFile.entry) (unit unit_area : Q).
  Hypothesis visit_perm : forall l, Permutation (visit l) l.
  Hypothesis usable_f : usable_accelerator f.
  Hypothesis memories_ok : Forall2 mem_of (memories f) ms.
  Hypothesis built : build 0 ms = Ok (ac_hierarchy a).
  Hypothesis sizes_ok : sizes_as (rf_array f) (ac_array a).
  Hypothesis kind : ar_kind (ac_array a) = Multipliers unit unit_area (unit_area * inject_Z (ar_units (ac_array a))).
  Hypothesis cost : ra_energy (rf_array f) = Some unit.
  Hypothesis usable : usable_layer r e ws loops.
  Hypothesis read : layer_as order mapping r e ws loops l.
  Hypothesis links_read : at_links (bl_mapping l) = en_links en.

  Lemma levels_held m : exists ls, get_memory_levels (ac_hierarchy a) m = Ok ls /\ map lv_served ls = served_by f m.
  Proof.
    destruct (build_inv 0 ms _ built) as (IV & D). destruct (levels_perm 0 ms _ built) as (L & _ & T & Q). destruct (Q m) as (ls & E' & Ef & _).
    exists ls. split; [exact E'|]. rewrite Ef, (grown_order _ L m IV (hw_order f ms _ usable_f memories_ok built) T). unfold holders, served_by. clear - memories_ok D.
    revert D. generalize (h_list (ac_hierarchy a)). induction memories_ok as [|x s raws ss H F IH]; intros hs D; inversion D as [|s' y ss' ys H' D']; subst; [reflexivity|].
    cbn [filter]. unfold Model_Hierarchy.holds at 1, lv_operands. destruct H as (_ & H1 & H2 & _), H' as (G1 & _ & _ & _ & G2). rewrite G1, H1. destruct (memb m (rm_operands x)); [|now apply IH].
    cbn [map]. rewrite G2, H2. f_equal. now apply IH.
  Qed.

  Lemma served_are : exists served, served_levels visit a l = Ok served /\
    Forall2 (fun x y => fst y = fst x /\ Forall2 (fun s t => forall o, In o s <-> In o t) (served_by f (snd x)) (snd y)) (en_links en) served.
  Proof.
    unfold served_levels. rewrite links_read. generalize (en_links en). intros dd. induction dd as [|[op m] d IH]; [exists []; split; [reflexivity|constructor]|].
    destruct IH as (s & E & F). cbn [rmap]. cbn [fst snd]. destruct (levels_held m) as (ls & El & Sv). rewrite El. cbn [rbind]. rewrite E. cbn [rbind].
    eexists. split; [reflexivity|]. constructor; [|exact F]. cbn [fst snd]. split; [reflexivity|]. rewrite <- Sv. clear - visit_perm.
    induction ls as [|x ls IH]; [constructor|]. cbn [map]. constructor; [|exact IH]. intros o. unfold visited. split; intros I.
    - apply (Permutation_in _ (Permutation_sym (visit_perm _))). now apply nodup_In.
    - apply (Permutation_in _ (visit_perm _)) in I. now apply nodup_In in I.
  Qed.

  Lemma spread_out served u : dicts u ->
    Forall2 (fun x y => fst y = fst x /\ Forall2 (fun s t => forall o, In o s <-> In o t) (served_by f (snd x)) (snd y)) (en_links en) served ->
    spread f (en_links en) u (mapping_per_mem_lvl served u).
  Proof.
    intros Du. unfold spread. generalize (en_links en). intros dd F. assert (M := mapping_per_mem_lvl_ok served u Du). revert M. generalize (mapping_per_mem_lvl served u). induction F as [|[op m] [op' y] d s (H1 & H2) F IH]; intros sp M op0 m0 E; [discriminate|].
    inversion M as [|y' z s' zs (L1 & L2 & L3 & _) M']; subst. destruct z as (op'' & z). cbn [fst snd] in *. subst op' op''. cbn [dget] in *. destruct (eqb op0 op); [|now apply (IH zs M' op0 m0)].
    injection E as <-. exists z. split; [reflexivity|]. split; [rewrite L2; now rewrite (Proof_Energy.F2_len _ _ _ H2)|].
    intros i ls Ei. specialize (L3 i ls Ei). replace (at_home (served_by f m) i u) with (at_home y i u); [exact L3|].
    unfold at_home. apply filter_ext. intros [o x]. cbn [fst]. now rewrite (home_same _ _ o H2).
  Qed.

  Lemma right_made sm rq : valid_user loops (ar_sizes (ac_array a)) sm -> request_with visit free a l sm = Ok rq -> right_request f e loops en l free sm rq.
  Proof.
    intros V E. unfold request_with in E. apply rbind_Ok in E. destruct E as (sp & Es & E). apply rbind_Ok in E. destruct E as (lk & Ek & E).
    apply rbind_Ok in E. destruct E as (out & Eo & E). apply rbind_Ok in E. destruct E as (size & Ez & E). apply rbind_Ok in E. destruct E as (c & Ec & E).
    assert (Op := as_operands _ _ _ _ _ _ _ read). rewrite Op in Eo. cbn [nth_error operands_of map of_option] in Eo.
    assert (Eo' : wr_name (we_out e) = out) by congruence. unfold unit_energy in Ec. rewrite kind in Ec. assert (Ec' : unit = c) by congruence.
    assert (Ed : lk_data lk = at_links (bl_mapping l)). { unfold make_links in Ek. destruct (Nat.eqb _ _); [|discriminate]. now injection Ek as <-. }
    injection E as <-. constructor; cbn [rq_layer rq_r rq_ir rq_pr rq_ops rq_inputs rq_out rq_macs rq_size_out rq_links rq_hierarchy rq_units rq_mac_cost rq_cpo rq_free rq_spatial rq_spatial_int].
    - rewrite Op. split; [reflexivity|]. split; [now symmetry|]. cbn [operands_of map tl]. now rewrite Eo'.
    - exact (as_operations _ _ _ _ _ _ _ read).
    - split; [reflexivity|]. unfold dgetr in Ez. destruct (dget out (ln_size_elem (bl_node l))) as [k|]; [|discriminate]. cbn in Ez. congruence.
    - intros op. induction (ln_relevancy (bl_node l)) as [|[k v] d IH]; [now split|]. cbn [map dget fst snd]. destruct (eqb op k); [now split|exact IH].
    - now rewrite Ed.
    - split; [exact (proj2 (proj2 (proj2 sizes_ok) (proj1 (ua_array _ usable_f))))|]. now split; [rewrite <- Ec'|].
    - unfold spatial_levels in Es. rewrite (as_sizes _ _ _ _ _ _ _ read) in Es. destruct (limit_mapping_ok _ _ _ V) as (lim & whole & El & _ & _ & H1 & H2 & H3). rewrite El in Es. cbn [rbind] in Es.
      destruct served_are as (served & Esv & F). rewrite Esv in Es. cbn [rbind fst snd] in Es. injection Es as <-. cbn [fst snd]. destruct (limit_dicts _ _ _ _ _ El) as (D1 & D2).
      exists lim, whole. split; [unfold lowered_to; auto|]. split; now apply spread_out.
    - reflexivity.
  Qed.
End Request.
