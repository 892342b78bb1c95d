(** Proofs about workload graphs. *)
From Verif Require Import Base Model_Graph Spec_Graph Model_Workload Spec_Workload.
From Verif Require Import Proof_AllocSearch Proof_Graph Proof_Bandwidth.
Local Open Scope list_scope.
Local Open Scope nat_scope.

(** * Removing dummy nodes *)
Section Dummies.
  Context {A : Type} `{EqB A}.

  (** Adding edges among existing nodes. *)
  Lemma add_edges_fold (es : list (A * A)) : forall g, (forall u v, In (u, v) es -> In u (g_nodes g) /\ In v (g_nodes g)) -> graph_ok g ->
    let g' := fold_left (fun g e => add_edge (fst e) (snd e) g) es g in
    graph_ok g' /\ g_nodes g' = g_nodes g /\ forall e, In e (g_edges g') <-> In e (g_edges g) \/ In e es.
  Proof.
    induction es as [|[u v] es IH]; intros g N O; cbn [fold_left fst snd].
    - split; [exact O|]. split; [reflexivity|]. cbn. tauto.
    - destruct (N u v (or_introl eq_refl)) as (Nu & Nv).
      assert (E := nodes_add_edge_in u v g Nu Nv).
      destruct (IH (add_edge u v g)) as (O' & E' & S).
      + intros a b I. rewrite E. apply N. now right.
      + now apply ok_add_edge.
      + split; [exact O'|]. split; [now rewrite E'|]. intros e. rewrite S, In_edges_add_edge. cbn. intuition.
  Qed.

  Lemma inner_fold (d s : A) : forall g, graph_ok g -> In (d, s) (g_edges g) ->
    let g' := fold_left (fun g p => add_edge p s g) (predecessors g d) g in
    graph_ok g' /\ g_nodes g' = g_nodes g /\ forall e, In e (g_edges g') <-> In e (g_edges g) \/ exists p, In (p, d) (g_edges g) /\ e = (p, s).
  Proof.
    intros g O I.
    assert (X : forall l g0, fold_left (fun g p => add_edge p s g) l g0 = fold_left (fun g e => add_edge (fst e) (snd e) g) (map (fun p => (p, s)) l) g0).
    { induction l as [|p l IH]; intros g0; cbn [fold_left map fst snd]; [reflexivity|apply IH]. }
    cbn zeta. rewrite X. destruct (add_edges_fold (map (fun p => (p, s)) (predecessors g d)) g) as (O' & N & S); [|exact O|].
    - intros u v J. apply in_map_iff in J. destruct J as (p & Q & J). injection Q as <- <-. apply predecessors_spec in J.
      destruct O as (_ & _ & O). split; [apply (O _ _ J)|apply (O _ _ I)].
    - split; [exact O'|]. split; [exact N|]. intros e. rewrite S, in_map_iff. split; (intros [J|(p & J & K)]; [now left|right]).
      + exists p. split; [now apply predecessors_spec|now symmetry].
      + exists p. split; [now symmetry|now apply predecessors_spec].
  Qed.

  Lemma bypass_spec g d : graph_ok g ->
    graph_ok (bypass g d) /\ g_nodes (bypass g d) = g_nodes g /\
    forall u v, In (u, v) (g_edges (bypass g d)) <-> In (u, v) (g_edges g) \/ (In (u, d) (g_edges g) /\ In (d, v) (g_edges g)).
  Proof.
    intros O. unfold bypass.
    assert (G : forall ss g0, graph_ok g0 -> (forall s, In s ss -> In (d, s) (g_edges g0)) ->
      (forall p, In (p, d) (g_edges g0) <-> In (p, d) (g_edges g)) ->
      let g' := fold_left (fun g s => fold_left (fun g p => add_edge p s g) (predecessors g d) g) ss g0 in
      graph_ok g' /\ g_nodes g' = g_nodes g0 /\
      forall u v, In (u, v) (g_edges g') <-> In (u, v) (g_edges g0) \/ (In (u, d) (g_edges g) /\ In v ss)).
    { induction ss as [|s ss IH]; intros g0 O0 S0 P0; cbn [fold_left].
      - split; [exact O0|]. split; [reflexivity|]. cbn. tauto.
      - destruct (inner_fold d s g0 O0 (S0 s (or_introl eq_refl))) as (O1 & N1 & S1).
        destruct (IH _ O1) as (O2 & N2 & S2).
        + intros t I. apply S1. left. apply S0. now right.
        + intros p. rewrite S1. split.
          * intros [J|(q & J & K)]; [now apply P0|]. injection K as -> <-. apply P0, J.
          * intros J. left. now apply P0.
        + split; [exact O2|]. split; [congruence|]. intros u v. rewrite S2, S1. cbn [In]. split.
          * intros [[J|(p & J & K)]|J]; [now left| |tauto]. injection K as -> ->. apply P0 in J. tauto.
          * intros [J|(J & [K|K])]; [tauto| |tauto]. subst. left. right. exists u. split; [now apply P0|reflexivity]. }
    destruct (G (successors g d) g O) as (O' & N & S).
    - intros s. apply successors_spec.
    - tauto.
    - split; [exact O'|]. split; [exact N|]. intros u v. rewrite S. now rewrite successors_spec.
  Qed.

  (** Edges through the nodes of a set, and their decomposition. *)
  Inductive vias (D : A -> Prop) (g : graph A) : A -> A -> Prop :=
  | vias_one u v : In (u, v) (g_edges g) -> vias D g u v
  | vias_more u d v : In (u, d) (g_edges g) -> D d -> vias D g d v -> vias D g u v.
  Lemma vias_trans D g u d v : vias D g u d -> D d -> vias D g d v -> vias D g u v.
  Proof. induction 1 as [u d E|u c d E Dc V IH]; intros Dd W; [now apply vias_more with d|apply vias_more with c; auto]. Qed.
  Lemma vias_mono (D D' : A -> Prop) g u v : (forall x, D x -> D' x) -> vias D g u v -> vias D' g u v.
  Proof. intros S. induction 1; [now apply vias_one|now apply vias_more with d; auto]. Qed.
  (** Going through [d] or not *)
  Lemma vias_split D g d u v : vias (fun x => D x \/ x = d) g u v -> vias D g u v \/ (vias D g u d /\ vias D g d v).
  Proof.
    induction 1 as [u v E|u c v E [Dc| ->] V IH].
    - left. now apply vias_one.
    - destruct IH as [IH|(I1 & I2)]; [left; now apply vias_more with c|right]. split; [now apply vias_more with c|exact I2].
    - right. split; [now apply vias_one|]. now destruct IH as [IH|(_ & I2)].
  Qed.
  Lemma bypass_all ds : forall g, graph_ok g ->
    graph_ok (fold_left bypass ds g) /\ g_nodes (fold_left bypass ds g) = g_nodes g /\
    forall u v, In (u, v) (g_edges (fold_left bypass ds g)) <-> vias (fun x => In x ds) g u v.
  Proof.
    induction ds as [|d ds IH] using rev_ind; intros g O.
    - cbn. split; [exact O|]. split; [reflexivity|]. intros u v. split; [apply vias_one|]. intros V. destruct V; [assumption|contradiction].
    - rewrite fold_left_app. cbn [fold_left]. destruct (IH g O) as (O1 & N1 & S1). destruct (bypass_spec _ d O1) as (O2 & N2 & S2).
      split; [exact O2|]. split; [congruence|]. intros u v. rewrite S2, !S1. split.
      + assert (M : forall x, In x ds -> In x (ds ++ [d])) by (intros x I; apply in_or_app; now left).
        intros [V|(V & W)]; [exact (vias_mono _ _ _ _ _ M V)|].
        apply vias_trans with d; [exact (vias_mono _ _ _ _ _ M V)|apply in_or_app; right; now left|exact (vias_mono _ _ _ _ _ M W)].
      + intros V. apply vias_split with (D := fun x => In x ds). revert V. apply vias_mono. intros x I. apply in_app_or in I.
        destruct I as [I|[<-|[]]]; [now left|now right].
  Qed.

  Variable dummy : A -> bool.
  Lemma vias_through g u v : graph_ok g -> (vias (fun x => In x (filter dummy (g_nodes g))) g u v <-> through dummy g u v).
  Proof.
    intros (_ & _ & O). split.
    - induction 1 as [u v E|u d v E I V IH]; [now apply through_one|]. apply filter_In in I. now apply through_more with d.
    - induction 1 as [u v E|u d v E I V IH]; [now apply vias_one|]. apply vias_more with d; [exact E| |exact IH].
      apply filter_In. split; [apply (O _ _ E)|exact I].
  Qed.

  Lemma no_dummy_spec g : graph_ok g -> exists g', get_copy_no_dummy dummy g = Ok g' /\ graph_ok g' /\
    g_nodes g' = filter (fun x => negb (dummy x)) (g_nodes g) /\
    forall u v, In (u, v) (g_edges g') <-> dummy u = false /\ dummy v = false /\ through dummy g u v.
  Proof.
    intros O. destruct (bypass_all (filter dummy (g_nodes g)) g O) as (O1 & N1 & S1).
    set (ds := filter dummy (g_nodes g)) in *. set (g1 := fold_left bypass ds g) in *.
    assert (M : forall x, In x (g_nodes g) -> memb x ds = dummy x).
    { intros x I. destruct (dummy x) eqn:D; [apply memb_In, filter_In; now split|]. apply memb_not_In. intros J. apply filter_In in J. destruct J. congruence. }
    assert (N : filter (fun x => negb (memb x ds)) (g_nodes g1) = filter (fun x => negb (dummy x)) (g_nodes g)).
    { rewrite N1. apply filter_ext_in. intros x I. now rewrite M. }
    unfold get_copy_no_dummy. fold ds g1.
    assert (F : forallb (fun x => negb (dummy x)) (g_nodes (remove_nodes_from ds g1)) = true).
    { cbn [remove_nodes_from g_nodes]. rewrite N. apply forallb_forall. intros x I. now apply filter_In in I. }
    rewrite F. eexists. split; [reflexivity|]. cbn [remove_nodes_from g_nodes g_edges].
    assert (S : forall u v, In (u, v) (filter (fun e => negb (memb (fst e) ds) && negb (memb (snd e) ds)) (g_edges g1)) <-> dummy u = false /\ dummy v = false /\ through dummy g u v).
    { intros u v. rewrite filter_In, S1. cbn [fst snd].
      assert (T := vias_through g u v O). fold ds in T. split.
      - intros (V & B). assert (V' := V). apply S1 in V'. destruct O1 as (_ & _ & O1). destruct (O1 _ _ V') as (Iu & Iv). rewrite N1 in Iu, Iv.
        rewrite M, M in B by assumption. apply andb_true_iff in B. rewrite !negb_true_iff in B. tauto.
      - intros (Du & Dv & V). apply T in V. split; [exact V|]. apply S1 in V. destruct O1 as (_ & _ & O1). destruct (O1 _ _ V) as (Iu & Iv). rewrite N1 in Iu, Iv.
        rewrite M, M, Du, Dv by assumption. reflexivity. }
    split; [|split; [exact N|exact S]].
    destruct O1 as (A1 & A2 & A3). split; [now apply NoDup_filter|]. split; [now apply NoDup_filter|].
    cbn [g_nodes g_edges]. intros u v I. apply filter_In in I. cbn [fst snd] in I. destruct I as (I & B). apply andb_true_iff in B. destruct (A3 _ _ I).
    split; apply filter_In; tauto.
  Qed.

  Lemma through_path g u v : through dummy g u v -> path g u v.
  Proof. induction 1; [now apply path_one|now apply path_more with d]. Qed.
  Lemma paths_kept g g' : (forall u v, In (u, v) (g_edges g') <-> dummy u = false /\ dummy v = false /\ through dummy g u v) ->
    forall u v, dummy u = false -> dummy v = false -> (path g' u v <-> path g u v).
  Proof.
    intros S.
    assert (X : forall u v, path g u v -> dummy v = false -> exists w, through dummy g u w /\ dummy w = false /\ (w = v \/ path g' w v)).
    { induction 1 as [u v E|u v w E P IH]; intros D.
      - exists v. split; [now apply through_one|]. tauto.
      - destruct (IH D) as (x & T & Dx & Q). destruct (dummy v) eqn:Dv.
        + exists x. split; [now apply through_more with v|]. tauto.
        + exists v. split; [now apply through_one|]. split; [exact Dv|right].
          assert (J : In (v, x) (g_edges g')) by (apply S; tauto).
          destruct Q as [<-|Q]; [now apply path_one|now apply path_more with x]. }
    intros u v Du Dv. split.
    - induction 1 as [u v E|u w v E P IH].
      + apply S in E. now apply through_path.
      + apply S in E. destruct E as (_ & Dw & T). apply through_path in T. specialize (IH Dw Dv).
        clear -T IH. induction T; [now apply path_more with v0|]. apply path_more with v0; auto.
    - intros P. destruct (X u v P Dv) as (w & T & Dw & Q).
      assert (J : In (u, w) (g_edges g')) by (apply S; tauto).
      destruct Q as [<-|Q]; [now apply path_one|now apply path_more with w].
  Qed.
End Dummies.

(** * Workloads described by the user *)

Lemma combine_seq_snoc {B} (l : list B) x : combine (seq 0 (length (l ++ [x]))) (l ++ [x]) = combine (seq 0 (length l)) l ++ [(length l, x)].
Proof.
  rewrite app_length, seq_app. cbn [length seq plus].
  assert (X : forall (a : list nat) (b : list B) a' b', length a = length b -> combine (a ++ a') (b ++ b') = combine a b ++ combine a' b').
  { induction a as [|y a IH]; intros [|z b] a' b' E; try discriminate; cbn; [reflexivity|]. rewrite IH; [reflexivity|]. now injection E. }
  rewrite X by apply seq_length. reflexivity.
Qed.
Lemma nth_error_snoc {B} (l : list B) x i : nth_error (l ++ [x]) i = if i <? length l then nth_error l i else if i =? length l then Some x else None.
Proof.
  destruct (Nat.ltb_spec i (length l)) as [L|L]; [now apply nth_error_app1|].
  rewrite nth_error_app2 by exact L. destruct (Nat.eqb_spec i (length l)) as [->|N]; [now rewrite Nat.sub_diag|].
  apply nth_error_None. cbn. lia.
Qed.

Definition dnn_run (ls : list layerspec) : result wstate := rfold dnn_step (no_graph, []) (combine (seq 0 (length ls)) ls).
Lemma dnn_snoc ls l : dnn_run (ls ++ [l]) = rbind (dnn_run ls) (fun st => dnn_step st (length ls, l)).
Proof.
  unfold dnn_run. rewrite combine_seq_snoc, rfold_app. destruct (rfold dnn_step _ _) as [st|e]; cbn [rbind rfold]; [|reflexivity].
  now destruct (dnn_step st _).
Qed.

(** The last layer with an identifier *)
Definition last_with (ls : list layerspec) (s : Z) (u : nat) : Prop :=
  exists lu, nth_error ls u = Some lu /\ ls_id lu = s /\ forall w lw, u < w -> nth_error ls w = Some lw -> ls_id lw <> s.
Definition dinv (ls : list layerspec) (st : wstate) : Prop :=
  graph_ok (fst st) /\ g_nodes (fst st) = seq 0 (length ls) /\
  (forall s u, dget s (snd st) = Some u <-> last_with ls s u) /\
  forall u v, In (u, v) (g_edges (fst st)) <-> names ls u v.

Lemma last_with_lt ls s u : last_with ls s u -> u < length ls.
Proof. intros (lu & E & _). apply nth_error_Some. congruence. Qed.
Lemma last_snoc ls l s u : last_with (ls ++ [l]) s u <-> if Z.eqb s (ls_id l) then u = length ls else last_with ls s u.
Proof.
  unfold last_with. setoid_rewrite nth_error_snoc. destruct (Z.eqb_spec s (ls_id l)) as [->|N]; split.
  - intros (lu & E & I & L). destruct (Nat.ltb_spec u (length ls)) as [Q|Q].
    + exfalso. apply (L (length ls) l Q); [|reflexivity]. now rewrite Nat.ltb_irrefl, Nat.eqb_refl.
    + destruct (Nat.eqb_spec u (length ls)); [assumption|discriminate].
  - intros ->. exists l. rewrite Nat.ltb_irrefl, Nat.eqb_refl. split; [reflexivity|]. split; [reflexivity|]. intros w lw L E.
    destruct (Nat.ltb_spec w (length ls)); [lia|]. destruct (Nat.eqb_spec w (length ls)); [lia|discriminate].
  - intros (lu & E & I & L). destruct (Nat.ltb_spec u (length ls)) as [Q|Q].
    + exists lu. split; [exact E|]. split; [exact I|]. intros w lw Lw Ew. apply (L w lw Lw).
      assert (W : w < length ls) by (apply nth_error_Some; congruence). apply Nat.ltb_lt in W. now rewrite W.
    + destruct (Nat.eqb_spec u (length ls)); [|discriminate]. injection E as <-. congruence.
  - intros (lu & E & I & L). assert (U : u < length ls) by (apply nth_error_Some; congruence). apply Nat.ltb_lt in U. exists lu. rewrite U.
    split; [exact E|]. split; [exact I|]. intros w lw Lw Ew.
    destruct (Nat.ltb_spec w (length ls)); [now apply (L w)|]. destruct (Nat.eqb_spec w (length ls)); [|discriminate]. injection Ew as <-. congruence.
Qed.
Lemma names_lt ls u v : names ls u v -> u < v < length ls.
Proof. intros (lu & lv & op & Eu & Ev & L & _). split; [exact L|]. apply nth_error_Some. congruence. Qed.
Lemma names_snoc ls l u v : names (ls ++ [l]) u v <-> names ls u v \/ (v = length ls /\ exists op s, In (op, s) (ls_source l) /\ s <> ls_id l /\ last_with ls s u).
Proof.
  unfold names, last_with. setoid_rewrite nth_error_snoc. split.
  - intros (lu & lv & op & Eu & Ev & L & I & N & M).
    destruct (Nat.ltb_spec v (length ls)) as [Q|Q].
    + left. assert (U : u < length ls) by lia. apply Nat.ltb_lt in U. rewrite U in Eu. exists lu, lv, op. repeat (split; [assumption|]).
      intros w lw Lw Ew. apply (M w lw Lw). assert (W : w < length ls) by lia. apply Nat.ltb_lt in W. now rewrite W.
    + destruct (Nat.eqb_spec v (length ls)) as [->|]; [|discriminate]. injection Ev as <-. right. split; [reflexivity|].
      assert (U := L). apply Nat.ltb_lt in U. rewrite U in Eu. exists op, (ls_id lu). split; [exact I|]. split; [exact N|].
      exists lu. split; [exact Eu|]. split; [reflexivity|]. intros w lw Lw Ew. assert (W : w < length ls) by (apply nth_error_Some; congruence).
      apply (M w lw (conj Lw W)). apply Nat.ltb_lt in W. now rewrite W.
  - intros [(lu & lv & op & Eu & Ev & L & I & N & M)|(-> & op & s & I & N & lu & Eu & Es & M)].
    + assert (V : v < length ls) by (apply nth_error_Some; congruence). assert (U : u < length ls) by lia.
      apply Nat.ltb_lt in U, V. exists lu, lv, op. rewrite U, V. repeat (split; [assumption|]).
      intros w lw Lw Ew. apply (M w lw Lw). apply Nat.ltb_lt in V. assert (W : w < length ls) by lia. apply Nat.ltb_lt in W. now rewrite W in Ew.
    + assert (U : u < length ls) by (apply nth_error_Some; congruence). assert (U' := U). apply Nat.ltb_lt in U'. exists lu, l, op.
      rewrite U', Nat.ltb_irrefl, Nat.eqb_refl. subst s. repeat (split; [assumption || reflexivity|]).
      intros w lw (Lw & W) Ew. apply Nat.ltb_lt in W. rewrite W in Ew. now apply (M w).
Qed.

Lemma dnn_step_spec ls l st : dinv ls st ->
  match dnn_step st (length ls, l) with
  | Ok st' => dinv (ls ++ [l]) st' /\ forall op s, In (op, s) (ls_source l) -> s <> ls_id l -> exists u, last_with ls s u
  | Err e => e = AssertionError /\ exists op s, In (op, s) (ls_source l) /\ s <> ls_id l /\ forall u, ~ last_with ls s u
  end.
Proof.
  destruct st as [g objs]. intros (O & N & D & E). cbn [fst snd] in *. cbn [dnn_step].
  assert (S : forall op s, In (op, s) (create_operand_source (ls_id l) (ls_source l)) <-> In (op, s) (ls_source l) /\ s <> ls_id l).
  { intros op s. unfold create_operand_source. rewrite filter_In. cbn [snd]. rewrite negb_true_iff.
    destruct (eqb_spec s (ls_id l)); split; intuition congruence. }
  assert (D' : forall s u, dget s (dset (ls_id l) (length ls) objs) = Some u <-> last_with (ls ++ [l]) s u).
  { intros s u. rewrite last_snoc. destruct (Z.eqb_spec s (ls_id l)) as [->|Ns].
    - rewrite dget_dset_eq. split; [now injection 1|now intros ->].
    - rewrite dget_dset_neq by congruence. apply D. }
  destruct (rmap _ _) as [es|e] eqn:R; cbn [rbind].
  - apply rmap_Forall2 in R.
    assert (L : forall op s, In (op, s) (ls_source l) -> s <> ls_id l -> exists u, last_with ls s u /\ In (u, length ls) es).
    { intros op s I Ns. destruct (Forall2_in_l _ _ _ _ R (proj2 (S op s) (conj I Ns))) as (e & Ie & Q). cbn [snd] in Q.
      destruct (dget s _) as [u|] eqn:G; [|discriminate]. injection Q as <-. exists u. split; [|exact Ie].
      apply D' in G. rewrite last_snoc in G. destruct (Z.eqb_spec s (ls_id l)); [contradiction|exact G]. }
    assert (L' : forall u v, In (u, v) es -> v = length ls /\ exists op s, In (op, s) (ls_source l) /\ s <> ls_id l /\ last_with ls s u).
    { intros u v I. destruct (Forall2_in_r _ _ _ _ R I) as ([op s] & Is & Q). cbn [snd] in Q. apply S in Is. destruct Is as (Is & Ns).
      destruct (dget s _) as [u'|] eqn:G; [|discriminate]. injection Q as <- <-. split; [reflexivity|]. exists op, s. split; [exact Is|]. split; [exact Ns|].
      apply D' in G. rewrite last_snoc in G. destruct (Z.eqb_spec s (ls_id l)); [contradiction|exact G]. }
    split.
    + assert (Nn : g_nodes (add_node (length ls) g) = seq 0 (length (ls ++ [l]))).
      { rewrite nodes_add_node. replace (memb (length ls) (g_nodes g)) with false.
        - rewrite N, app_length, seq_app. reflexivity.
        - symmetry. apply memb_not_In. rewrite N, in_seq. lia. }
      destruct (add_edges_fold es (add_node (length ls) g)) as (O' & N' & S').
      * intros u v I. apply L' in I. destruct I as (-> & op & s & _ & _ & W). apply last_with_lt in W. rewrite Nn, !in_seq, app_length. cbn. lia.
      * now apply ok_add_node.
      * fold (add_edges_from es (add_node (length ls) g)) in *. unfold dinv. cbn [fst snd]. split; [exact O'|]. split; [congruence|]. split; [exact D'|].
        intros u v. rewrite names_snoc, <- E. unfold add_edges_from. rewrite S', edges_add_node. split.
        -- intros [I|I]; [now left|right; now apply L'].
        -- intros [I|(-> & op & s & I & Ns & W)]; [now left|right]. destruct (L op s I Ns) as (u' & W' & Iu).
           apply D in W, W'. congruence.
    + intros op s I Ns. destruct (L op s I Ns) as (u & W & _). now exists u.
  - assert (X : forall xs e, rmap (fun x : string * Z => match dget (snd x) (dset (ls_id l) (length ls) objs) with Some parent => Ok (parent, length ls) | None => Err AssertionError end) xs = Err e ->
      e = AssertionError /\ exists x, In x xs /\ dget (snd x) (dset (ls_id l) (length ls) objs) = None).
    { induction xs as [|x xs IH]; intros e' Q; [discriminate|]. cbn [rmap] in Q. destruct (dget (snd x) _) as [p|] eqn:G; cbn [rbind] in Q.
      - destruct (rmap _ xs) as [|e2]; cbn [rbind] in Q; [discriminate|]. injection Q as <-. destruct (IH _ eq_refl) as (-> & y & Iy & Gy).
        split; [reflexivity|]. exists y. split; [now right|exact Gy].
      - injection Q as <-. split; [reflexivity|]. exists x. split; [now left|exact G]. }
    apply X in R. destruct R as (-> & [op s] & I & G). cbn [snd] in G. split; [reflexivity|]. apply S in I. destruct I as (I & Ns). exists op, s.
    split; [exact I|]. split; [exact Ns|]. intros u W. apply D in W. rewrite dget_dset_neq in G by congruence. congruence.
Qed.

Lemma dnn_inv ls st : dnn_run ls = Ok st -> dinv ls st.
Proof.
  revert st. induction ls as [|l ls IH] using rev_ind; intros st R.
  - injection R as <-. unfold dinv. cbn. split; [|split; [reflexivity|split]].
    + split; [apply NoDup_nil|]. split; [apply NoDup_nil|]. intros u v [].
    + intros s u. split; [discriminate|]. intros (lu & E & _). now destruct u.
    + intros u v. split; [intros []|]. intros (lu & lv & op & E & _). now destruct u.
  - rewrite dnn_snoc in R. apply rbind_Ok in R. destruct R as (st0 & R & Q). assert (S := dnn_step_spec ls l st0 (IH _ R)). rewrite Q in S. tauto.
Qed.

Lemma last_exists ls s : (exists u lu, nth_error ls u = Some lu /\ ls_id lu = s) -> exists u, last_with ls s u.
Proof.
  induction ls as [|l ls IH] using rev_ind; intros (u & lu & E & I).
  - now destruct u.
  - destruct (Z.eqb_spec s (ls_id l)) as [Q|Q].
    + exists (length ls). apply last_snoc. rewrite Q, Z.eqb_refl. reflexivity.
    + destruct IH as (w & W).
      * rewrite nth_error_snoc in E. destruct (u <? length ls); [now exists u, lu|]. destruct (u =? length ls); [|discriminate]. injection E as <-. congruence.
      * exists w. apply last_snoc. apply Z.eqb_neq in Q. now rewrite Q.
Qed.
Lemma earlier_snoc ls l : sources_earlier (ls ++ [l]) <-> sources_earlier ls /\ forall op s, In (op, s) (ls_source l) -> s <> ls_id l -> exists u, last_with ls s u.
Proof.
  split.
  - intros S. split.
    + intros v lv op s E I N. assert (V : v < length ls) by (apply nth_error_Some; congruence).
      destruct (S v lv op s) as (u & lu & L & Eu & Iu); [now rewrite nth_error_app1|exact I|exact N|].
      exists u, lu. split; [exact L|]. rewrite nth_error_app1 in Eu by lia. now split.
    + intros op s I N. apply last_exists. destruct (S (length ls) l op s) as (u & lu & L & Eu & Iu); [|exact I|exact N|].
      * rewrite nth_error_snoc, Nat.ltb_irrefl, Nat.eqb_refl. reflexivity.
      * exists u, lu. rewrite nth_error_app1 in Eu by lia. now split.
  - intros (S & T) v lv op s E I N. rewrite nth_error_snoc in E. destruct (Nat.ltb_spec v (length ls)) as [V|V].
    + destruct (S v lv op s E I N) as (u & lu & L & Eu & Iu). exists u, lu. split; [exact L|]. split; [|exact Iu]. rewrite nth_error_app1 by lia. exact Eu.
    + destruct (Nat.eqb_spec v (length ls)) as [->|]; [|discriminate]. injection E as <-. destruct (T op s I N) as (u & W). assert (Lu := last_with_lt _ _ _ W).
      destruct W as (lu & Eu & Iu & _). exists u, lu. split; [exact Lu|]. split; [now rewrite nth_error_app1|exact Iu].
Qed.
Lemma dnn_total ls : match dnn_run ls with Ok _ => sources_earlier ls | Err e => e = AssertionError /\ ~ sources_earlier ls end.
Proof.
  induction ls as [|l ls IH] using rev_ind.
  - cbn. intros v lv op s E. now destruct v.
  - rewrite dnn_snoc. destruct (dnn_run ls) as [st|e] eqn:R; cbn [rbind].
    + assert (S := dnn_step_spec ls l st (dnn_inv ls st R)). destruct (dnn_step st _) as [st'|e].
      * apply earlier_snoc. tauto.
      * destruct S as (-> & op & s & I & N & W). split; [reflexivity|]. intros Q. apply earlier_snoc in Q. destruct Q as (_ & Q). destruct (Q op s I N) as (u & U). now apply (W u).
    + destruct IH as (-> & Q). split; [reflexivity|]. rewrite earlier_snoc. tauto.
Qed.

Lemma ranked_lt (g : graph nat) : (forall u v, In (u, v) (g_edges g) -> u < v) -> ranked g.
Proof. intros E. exists (fun x => x). exact E. Qed.

Lemma dnn_spec ls g : dnn_workload ls = Ok g -> graph_ok g /\ g_nodes g = seq 0 (length ls) /\ forall u v, In (u, v) (g_edges g) <-> names ls u v.
Proof.
  unfold dnn_workload. fold (dnn_run ls). intros E. apply rbind_Ok in E. destruct E as (st & R & Q). injection Q as <-. destruct (dnn_inv ls st R) as (O & N & _ & E).
  tauto.
Qed.
Lemma dnn_ok ls : ((exists g, dnn_workload ls = Ok g) <-> sources_earlier ls) /\ (forall e, dnn_workload ls = Err e -> e = AssertionError).
Proof.
  unfold dnn_workload. fold (dnn_run ls). assert (T := dnn_total ls). destruct (dnn_run ls) as [st|e]; cbn [rbind].
  - split; [|discriminate]. split; [now intros _|]. intros _. now exists (fst st).
  - destruct T as (-> & T). split; [|congruence]. split; [intros (g & Q); discriminate|tauto].
Qed.

(** * Workloads from ONNX models *)

Definition onnx_run (ns : list onnxnode) : result (graph nat * list (nat * list string)) := rfold onnx_step (no_graph, []) (combine (seq 0 (length ns)) ns).
Lemma onnx_snoc ns n : onnx_run (ns ++ [n]) = rbind (onnx_run ns) (fun st => onnx_step st (length ns, n)).
Proof.
  unfold onnx_run. rewrite combine_seq_snoc, rfold_app. destruct (rfold onnx_step _ _) as [st|e]; cbn [rbind rfold]; [|reflexivity].
  now destruct (onnx_step st _).
Qed.
Definition outs_of (ns : list onnxnode) : list (nat * list string) := combine (seq 0 (length ns)) (map on_outputs ns).
Lemma outs_snoc ns n : outs_of (ns ++ [n]) = outs_of ns ++ [(length ns, on_outputs n)].
Proof.
  unfold outs_of. rewrite map_app. cbn [map]. rewrite <- (map_length on_outputs (ns ++ [n])), map_app. cbn [map]. rewrite combine_seq_snoc.
  now rewrite !map_length.
Qed.

Lemma onnx_add_spec id source : forall g, graph_ok g -> (forall x, In x source -> In (snd x) (g_nodes (add_node id g))) ->
  exists g', onnx_add g id source = Ok g' /\ graph_ok g' /\ g_nodes g' = g_nodes (add_node id g) /\
    forall u v, In (u, v) (g_edges g') <-> In (u, v) (g_edges g) \/ (v = id /\ In u (map snd source)).
Proof.
  intros g O S. unfold onnx_add. assert (O1 := ok_add_node id g O).
  assert (Iid : In id (g_nodes (add_node id g))) by (apply In_add_node; now right).
  set (g0 := add_node id g) in *.
  assert (G : forall source g1, graph_ok g1 -> g_nodes g1 = g_nodes g0 -> (forall x, In x source -> In (snd x) (g_nodes g0)) ->
    exists g', rfold (fun g x => if memb (snd x) (g_nodes g) then Ok (add_edge (snd x) id g) else Err KeyError) g1 source = Ok g' /\ graph_ok g' /\ g_nodes g' = g_nodes g0 /\
    forall u v, In (u, v) (g_edges g') <-> In (u, v) (g_edges g1) \/ (v = id /\ In u (map (@snd string nat) source))).
  { clear source S. induction source as [|x source IH]; intros g1 Og1 N1 S; cbn [rfold].
    - exists g1. split; [reflexivity|]. split; [exact Og1|]. split; [exact N1|]. cbn. tauto.
    - rewrite (proj2 (memb_In (snd x) (g_nodes g1))) by (rewrite N1; apply S; now left). cbn [rbind].
      destruct (IH (add_edge (snd x) id g1)) as (g' & E & O' & N' & Q).
      + now apply ok_add_edge.
      + rewrite nodes_add_edge_in; [exact N1| |]; rewrite N1; [apply S; now left|exact Iid].
      + intros y Iy. apply S. now right.
      + exists g'. split; [exact E|]. split; [exact O'|]. split; [exact N'|]. intros u v. rewrite Q, In_edges_add_edge. cbn [map In].
        split; [intros [[J|J]|J]|intros [J|(J & [K|K])]]; try tauto.
        * injection J as -> ->. tauto.
        * subst. tauto. }
  destruct (G source g0 O1 eq_refl S) as (g' & E & O' & N' & Q). exists g'. split; [exact E|]. split; [exact O'|]. split; [exact N'|].
  intros u v. rewrite Q. unfold g0. now rewrite edges_add_node.
Qed.

Lemma In_predecessors inputs outs p : In p (get_node_predecessors inputs outs) <-> exists t o, In t inputs /\ In (p, o) outs /\ In t o.
Proof.
  unfold get_node_predecessors. rewrite in_flat_map. split.
  - intros (t & It & I). apply in_map_iff in I. destruct I as ([q o] & Q & I). cbn in Q. subst q. apply filter_In in I. destruct I as (I & M). cbn [snd] in M.
    exists t, o. split; [exact It|]. split; [exact I|]. now apply memb_In.
  - intros (t & o & It & I & M). exists t. split; [exact It|]. apply in_map_iff. exists (p, o). split; [reflexivity|]. apply filter_In. split; [exact I|]. cbn [snd]. now apply memb_In.
Qed.
Lemma outs_lt ns p o : In (p, o) (outs_of ns) -> p < length ns.
Proof. intros I. apply in_combine_l in I. apply in_seq in I. lia. Qed.

Definition sources_of (id : nat) (n : onnxnode) (ps : list nat) : list nat :=
  if on_real n then filter (fun p => negb (eqb p id)) ps else firstn 2 ps.
Lemma node_source_spec id n outs : let ps := get_node_predecessors (on_inputs n) outs in
  match node_source id n outs with
  | Ok s => (on_real n = true -> length ps <= 2) /\ forall u, In u (map snd s) <-> In u (sources_of id n ps)
  | Err e => e = ValueError /\ on_real n = true /\ 2 < length ps
  end.
Proof.
  cbn zeta. unfold node_source, sources_of. set (ps := get_node_predecessors _ _). destruct (on_real n).
  - destruct ps as [|p [|q [|r ps]]]; cbn [get_operand_source_user_format rbind]; [split; [cbn; lia|]..|].
    + intros u. cbn [filter snd]. rewrite !eqb_refl. cbn. tauto.
    + intros u. cbn [filter snd]. rewrite eqb_refl. cbn [negb]. destruct (negb (eqb p id)); cbn; tauto.
    + intros u. cbn [filter snd]. destruct (negb (eqb p id)), (negb (eqb q id)); cbn; tauto.
    + split; [reflexivity|]. split; [reflexivity|cbn; lia].
  - split; [discriminate|]. intros u. destruct ps as [|p [|q ps]]; cbn; tauto.
Qed.
Lemma sources_In id n ps u : In u (sources_of id n ps) -> In u ps.
Proof.
  unfold sources_of. destruct (on_real n); [intros I; now apply filter_In in I|]. intros I. rewrite <- (firstn_skipn 2 ps). apply in_or_app. now left.
Qed.

(** What feeds node [v], as seen when it is parsed *)
Definition seen (ns : list onnxnode) (v : nat) : list nat :=
  match nth_error ns v with None => [] | Some n => get_node_predecessors (on_inputs n) (outs_of (firstn (S v) ns)) end.
Definition kept (ns : list onnxnode) (v : nat) : list nat :=
  match nth_error ns v with None => [] | Some n => sources_of v n (seen ns v) end.
Definition few_real (ns : list onnxnode) : Prop := forall v n, nth_error ns v = Some n -> on_real n = true -> length (seen ns v) <= 2.
Lemma seen_snoc ns n v : v < length ns -> seen (ns ++ [n]) v = seen ns v.
Proof. intros L. unfold seen. rewrite nth_error_app1 by exact L. rewrite firstn_app. replace (S v - length ns) with 0 by lia. cbn [firstn]. now rewrite app_nil_r. Qed.
Lemma seen_last ns n : seen (ns ++ [n]) (length ns) = get_node_predecessors (on_inputs n) (outs_of (ns ++ [n])).
Proof. unfold seen. rewrite nth_error_snoc, Nat.ltb_irrefl, Nat.eqb_refl. rewrite firstn_all2; [reflexivity|]. rewrite app_length. cbn. lia. Qed.
Lemma kept_snoc ns n v : v < length ns -> kept (ns ++ [n]) v = kept ns v.
Proof. intros L. unfold kept. rewrite nth_error_app1, seen_snoc by exact L. reflexivity. Qed.
Lemma kept_last ns n : kept (ns ++ [n]) (length ns) = sources_of (length ns) n (seen (ns ++ [n]) (length ns)).
Proof. unfold kept. now rewrite nth_error_snoc, Nat.ltb_irrefl, Nat.eqb_refl. Qed.
Lemma few_snoc ns n : few_real (ns ++ [n]) <-> few_real ns /\ (on_real n = true -> length (seen (ns ++ [n]) (length ns)) <= 2).
Proof.
  split.
  - intros F. split.
    + intros v m E R. assert (V : v < length ns) by (apply nth_error_Some; congruence). rewrite <- (seen_snoc ns n) by exact V. apply (F v m); [|exact R]. now rewrite nth_error_app1.
    + intros R. apply (F (length ns) n); [|exact R]. now rewrite nth_error_snoc, Nat.ltb_irrefl, Nat.eqb_refl.
  - intros (F & L) v m E R. rewrite nth_error_snoc in E. destruct (Nat.ltb_spec v (length ns)) as [V|V].
    + rewrite seen_snoc by exact V. now apply (F v m).
    + destruct (Nat.eqb_spec v (length ns)) as [->|]; [|discriminate]. injection E as <-. auto.
Qed.
Lemma seen_le ns v u : In u (seen ns v) -> u <= v.
Proof.
  unfold seen. destruct (nth_error ns v) as [n|]; [|intros []]. intros I. apply In_predecessors in I. destruct I as (t & o & _ & I & _). apply outs_lt in I.
  rewrite firstn_length in I. lia.
Qed.
Lemma kept_seen ns v u : In u (kept ns v) -> In u (seen ns v).
Proof. unfold kept. destruct (nth_error ns v); [apply sources_In|intros []]. Qed.

Definition oinv (ns : list onnxnode) (st : graph nat * list (nat * list string)) : Prop :=
  graph_ok (fst st) /\ g_nodes (fst st) = seq 0 (length ns) /\ snd st = outs_of ns /\ few_real ns /\
  forall u v, In (u, v) (g_edges (fst st)) <-> In u (kept ns v).
Lemma onnx_step_spec ns n st : oinv ns st ->
  match onnx_step st (length ns, n) with
  | Ok st' => oinv (ns ++ [n]) st'
  | Err e => e = ValueError /\ ~ few_real (ns ++ [n])
  end.
Proof.
  destruct st as [g outs]. intros (O & N & Eo & F & E). cbn [fst snd] in *. subst outs. cbn [onnx_step]. rewrite <- outs_snoc.
  assert (S := node_source_spec (length ns) n (outs_of (ns ++ [n]))). cbn zeta in S. rewrite <- seen_last in S.
  destruct (node_source _ _ _) as [s|e]; cbn [rbind].
  - destruct S as (L & S).
    assert (Nn : g_nodes (add_node (length ns) g) = seq 0 (length (ns ++ [n]))).
    { rewrite nodes_add_node. replace (memb (length ns) (g_nodes g)) with false.
      - rewrite N, app_length, seq_app. reflexivity.
      - symmetry. apply memb_not_In. rewrite N, in_seq. lia. }
    destruct (onnx_add_spec (length ns) s g O) as (g' & Q & O' & N' & E').
    + intros x I. rewrite Nn. apply in_seq. rewrite app_length. cbn [length]. assert (J : In (snd x) (map snd s)) by (now apply List.in_map).
      apply S, sources_In, seen_le in J. lia.
    + rewrite Q. cbn [rbind]. unfold oinv. cbn [fst snd]. split; [exact O'|]. split; [congruence|]. split; [reflexivity|]. split; [apply few_snoc; tauto|].
      intros u v. rewrite E', E, S. destruct (Nat.eq_dec v (length ns)) as [->|Nv].
      * rewrite kept_last. split; [intros [J|J]; [exfalso|tauto]|tauto].
        unfold kept in J. replace (nth_error ns (length ns)) with (@None onnxnode) in J; [destruct J|]. symmetry. apply nth_error_None. lia.
      * destruct (Nat.lt_ge_cases v (length ns)) as [V|V].
        -- rewrite kept_snoc by exact V. tauto.
        -- assert (X : forall l : list onnxnode, length l <= v -> kept l v = []).
           { intros l Ll. unfold kept. apply nth_error_None in Ll. now rewrite Ll. }
           rewrite !X by (rewrite ?app_length; cbn; lia). tauto.
  - destruct S as (-> & R & L). split; [reflexivity|]. intros Q. apply few_snoc in Q. destruct Q as (_ & Q). specialize (Q R). lia.
Qed.
Lemma onnx_inv ns : match onnx_run ns with Ok st => oinv ns st | Err e => e = ValueError /\ ~ few_real ns end.
Proof.
  induction ns as [|n ns IH] using rev_ind.
  - cbn. unfold oinv. cbn. split; [|split; [reflexivity|split; [reflexivity|split]]].
    + split; [apply NoDup_nil|]. split; [apply NoDup_nil|]. intros u v [].
    + intros v m E. now destruct v.
    + intros u v. unfold kept. destruct v; cbn; tauto.
  - rewrite onnx_snoc. destruct (onnx_run ns) as [st|e]; cbn [rbind]; [apply (onnx_step_spec ns n st IH)|].
    destruct IH as (-> & Q). split; [reflexivity|]. rewrite few_snoc. tauto.
Qed.
Lemma onnx_workload_run ns g : onnx_workload ns = Ok g -> exists outs, onnx_run ns = Ok (g, outs).
Proof.
  unfold onnx_workload. fold (onnx_run ns). intros E. apply rbind_Ok in E. destruct E as ([g' o] & R & Q). injection Q as <-. now exists o.
Qed.
Lemma onnx_edges_le ns g u v : onnx_workload ns = Ok g -> In (u, v) (g_edges g) -> u <= v < length ns /\ (u = v -> is_dummy ns v = true /\ feeds ns v v).
Proof.
  intros R I. apply onnx_workload_run in R. destruct R as (o & R). assert (V := onnx_inv ns). rewrite R in V. destruct V as ((_ & _ & O) & N & _ & _ & E). cbn [fst] in *.
  assert (J := I). apply E in J. assert (K := kept_seen _ _ _ J). assert (L := seen_le _ _ _ K).
  destruct (O _ _ I) as (_ & Iv). rewrite N, in_seq in Iv. split; [lia|]. intros ->.
  unfold kept, seen, is_dummy in *. destruct (nth_error ns v) as [n|] eqn:En; [|destruct J].
  split.
  - unfold sources_of in J. destruct (on_real n); [|reflexivity]. apply filter_In in J. destruct J as (_ & J). rewrite eqb_refl in J. discriminate.
  - apply In_predecessors in K. destruct K as (t & ou & It & Io & Iou). unfold outs_of in Io.
    assert (X : forall (l : list onnxnode) k p oo, In (p, oo) (combine (seq k (length l)) (map on_outputs l)) -> exists m, nth_error l (p - k) = Some m /\ k <= p /\ oo = on_outputs m).
    { induction l as [|m l IH]; intros k p oo; cbn; [intros []|]. intros [Q|Q].
      - injection Q as <- <-. rewrite Nat.sub_diag. exists m. cbn. auto.
      - destruct (IH _ _ _ Q) as (m' & Em & Lm & ->). exists m'. replace (p - k) with (S (p - S k)) by lia. cbn. auto with arith. }
    apply X in Io. destruct Io as (m & Em & _ & ->). rewrite Nat.sub_0_r in Em. exists n, n, t.
    assert (m = n). { rewrite <- (firstn_skipn (S v) ns) in En. rewrite nth_error_app1 in En by (apply nth_error_Some; congruence). congruence. }
    subst m. auto.
Qed.

(** In models that can be executed, what is seen is what feeds. *)
Lemma In_feeding ns u v : In u (feeding ns v) <-> feeds ns u v.
Proof.
  unfold feeding, feeds. destruct (nth_error ns v) as [nv|]; [|split; [intros []|intros (a & b & t & _ & Q & _); discriminate]].
  rewrite in_flat_map. split.
  - intros (t & It & I). apply filter_In in I. destruct I as (_ & M). destruct (nth_error ns u) as [nu|]; [|discriminate]. apply memb_In in M. exists nu, nv, t. auto.
  - intros (nu & nv' & t & Eu & Q & Io & Ii). injection Q as <-. exists t. split; [exact Ii|]. apply filter_In. rewrite Eu. split; [|now apply memb_In].
    apply in_seq. assert (U : u < length ns) by (apply nth_error_Some; congruence). lia.
Qed.
Lemma filter_none {B} (f : B -> bool) l : (forall x, In x l -> f x = false) -> filter f l = [].
Proof. induction l as [|x l IH]; intros N; [reflexivity|]. cbn. rewrite N by now left. apply IH. intros y I. apply N. now right. Qed.
Lemma flat_map_ext_in {B C} (f g : B -> list C) l : (forall x, In x l -> f x = g x) -> flat_map f l = flat_map g l.
Proof. induction l as [|x l IH]; intros E; [reflexivity|]. cbn. rewrite E by now left. f_equal. apply IH. intros y I. apply E. now right. Qed.
Lemma seen_feeding ns v : executable ns -> seen ns v = feeding ns v.
Proof.
  intros X. unfold seen, feeding. destruct (nth_error ns v) as [n|] eqn:E; [|reflexivity].
  assert (V : v < length ns) by (apply nth_error_Some; congruence).
  unfold get_node_predecessors. apply flat_map_ext_in. intros t It.
  assert (Y : forall (l : list onnxnode) k, map fst (filter (fun n : nat * list string => memb t (snd n)) (combine (seq k (length l)) (map on_outputs l)))
    = filter (fun u => match nth_error l (u - k) with Some nu => memb t (on_outputs nu) | None => false end) (seq k (length l))).
  { induction l as [|m l IH]; intros k; [reflexivity|]. cbn [length seq combine map filter snd]. rewrite Nat.sub_diag. cbn [nth_error].
    assert (Z0 : filter (fun u => match nth_error (m :: l) (u - k) with Some nu => memb t (on_outputs nu) | None => false end) (seq (S k) (length l))
       = filter (fun u => match nth_error l (u - S k) with Some nu => memb t (on_outputs nu) | None => false end) (seq (S k) (length l))).
    { apply filter_ext_in. intros u I. apply in_seq in I. replace (u - k) with (S (u - S k)) by lia. reflexivity. }
    rewrite Z0, <- IH. destruct (memb t (on_outputs m)); reflexivity. }
  unfold outs_of. rewrite Y. set (pre := firstn (S v) ns). assert (L : length pre = S v) by (unfold pre; rewrite firstn_length; lia).
  replace (length ns) with (S v + (length ns - S v)) by lia. rewrite seq_app, filter_app, L.
  rewrite (filter_none _ (seq (0 + S v) _)); [rewrite app_nil_r|].
  - apply filter_ext_in. intros u I. apply in_seq in I. rewrite Nat.sub_0_r. rewrite <- (firstn_skipn (S v) ns). fold pre. rewrite nth_error_app1 by lia. reflexivity.
  - intros u I. apply in_seq in I. destruct (nth_error ns u) as [nu|] eqn:Eu; [|reflexivity]. apply memb_not_In. intros J.
    assert (F : feeds ns u v) by (exists nu, n, t; auto). apply X in F. lia.
Qed.

Lemma onnx_spec ns g : executable ns -> onnx_workload ns = Ok g ->
  graph_ok g /\ g_nodes g = seq 0 (length ns) /\ forall u v, In (u, v) (g_edges g) <-> In u (firstn 2 (feeding ns v)).
Proof.
  intros X R. apply onnx_workload_run in R. destruct R as (o & R). assert (V := onnx_inv ns). rewrite R in V. destruct V as (O & N & _ & F & E). cbn [fst] in *.
  split; [exact O|]. split; [exact N|]. intros u v. rewrite E. unfold kept. rewrite (seen_feeding ns v X).
  destruct (nth_error ns v) as [n|] eqn:En; [|unfold feeding; now rewrite En]. unfold sources_of. destruct (on_real n) eqn:Rn; [|reflexivity].
  assert (L := F v n En Rn). rewrite (seen_feeding ns v X) in L. rewrite firstn_all2 by exact L. rewrite filter_In. split; [tauto|]. intros I. split; [exact I|].
  apply In_feeding, X in I. destruct (eqb_spec u v); [lia|reflexivity].
Qed.
Lemma onnx_ok ns : executable ns ->
  ((exists g, onnx_workload ns = Ok g) <-> forall v n, nth_error ns v = Some n -> on_real n = true -> length (feeding ns v) <= 2).
Proof.
  intros X. unfold onnx_workload. fold (onnx_run ns). assert (V := onnx_inv ns).
  assert (F : few_real ns <-> forall v n, nth_error ns v = Some n -> on_real n = true -> length (feeding ns v) <= 2).
  { unfold few_real. split; intros F v n E R; assert (Q := F v n E R); rewrite (seen_feeding ns v X) in *; exact Q. }
  rewrite <- F. destruct (onnx_run ns) as [st|e]; cbn [rbind].
  - split; [intros _; apply V|]. intros _. now exists (fst st).
  - destruct V as (-> & V). split; [intros (g & Q); discriminate|tauto].
Qed.

Lemma path_depends ns g : (forall u v, In (u, v) (g_edges g) <-> feeds ns u v) -> forall u v, path g u v <-> depends ns u v.
Proof.
  intros E u v. split; induction 1; [apply depends_one|eapply depends_more|apply path_one|eapply path_more]; try (apply E; eassumption); eassumption.
Qed.
Lemma onnx_layers_spec ns : executable ns -> (forall v, length (feeding ns v) <= 2) ->
  exists g, onnx_layers ns = Ok g /\ g_nodes g = filter (fun v => negb (is_dummy ns v)) (seq 0 (length ns)) /\
    forall u v, is_dummy ns u = false -> is_dummy ns v = false -> (path g u v <-> depends ns u v).
Proof.
  intros X F. destruct (proj2 (onnx_ok ns X)) as (g0 & R); [intros v n _ _; apply F|].
  destruct (onnx_spec ns g0 X R) as (O & N & E). unfold onnx_layers. rewrite R. cbn [rbind].
  destruct (no_dummy_spec (is_dummy ns) g0 O) as (g & Q & _ & Ng & Eg). exists g. split; [exact Q|]. split; [now rewrite Ng, N|].
  intros u v Du Dv. rewrite (paths_kept (is_dummy ns) g0 g Eg u v Du Dv). apply path_depends. intros a b. rewrite E, firstn_all2 by apply F. apply In_feeding.
Qed.

(** * Evaluating the layers *)
Section Stage.
  Context {A R : Type} `{EqB A}.
  Variables (dummy skipped : A -> bool) (evaluate : A -> result (list R)).
  Lemma stage_fold order : forall out res,
    rfold (fun out layer => if dummy layer then Ok out else if skipped layer then Ok out else
      rs <- evaluate layer ;; Ok (out ++ map (fun r => (r, layer)) rs))%result out order = Ok res ->
    exists vals, Forall2 (fun x rs => evaluate x = Ok rs) (filter (fun x => negb (dummy x) && negb (skipped x)) order) vals /\
      res = out ++ flat_map (fun p => map (fun r => (r, fst p)) (snd p)) (combine (filter (fun x => negb (dummy x) && negb (skipped x)) order) vals).
  Proof.
    induction order as [|x order IH]; intros out res E.
    - injection E as <-. exists []. split; [constructor|]. now rewrite app_nil_r.
    - cbn [rfold] in E. cbn [filter]. destruct (dummy x); cbn [negb andb rbind] in *; [now apply IH|].
      destruct (skipped x); cbn [negb andb rbind] in *; [now apply IH|].
      destruct (evaluate x) as [rs|] eqn:Ex; cbn [rbind] in E; [|discriminate]. destruct (IH _ _ E) as (vals & F & ->).
      exists (rs :: vals). split; [now constructor|]. cbn [combine flat_map fst snd]. now rewrite app_assoc.
  Qed.
  Lemma stage_spec g res : graph_ok g -> workload_stage dummy skipped evaluate g = Ok res ->
    exists order vals, topological_order g order /\
      Forall2 (fun x rs => evaluate x = Ok rs) (filter (fun x => negb (dummy x) && negb (skipped x)) order) vals /\
      res = flat_map (fun p => map (fun r => (r, fst p)) (snd p)) (combine (filter (fun x => negb (dummy x) && negb (skipped x)) order) vals).
  Proof.
    intros O E. unfold workload_stage in E. apply rbind_Ok in E. destruct E as (order & T & E). apply stage_fold in E. destruct E as (vals & F & ->).
    exists order, vals. split; [now apply sort_sound|]. split; [exact F|reflexivity].
  Qed.
  Lemma stage_total g : graph_ok g -> ranked g -> (forall x, In x (g_nodes g) -> dummy x = false -> skipped x = false -> exists rs, evaluate x = Ok rs) ->
    exists res, workload_stage dummy skipped evaluate g = Ok res.
  Proof.
    intros O K T. unfold workload_stage. destruct (sort_ok g O K) as (order & -> & P & _). cbn [rbind].
    assert (X : forall x, In x order -> In x (g_nodes g)) by (intros x; apply Permutation_in, P). clear P.
    generalize (@nil (R * A)) as out. induction order as [|x order IH]; intros out; [now exists out|]. cbn [rfold].
    assert (IH' := IH (fun y I => X y (or_intror I))).
    destruct (dummy x) eqn:D; cbn [rbind]; [apply IH'|]. destruct (skipped x) eqn:S; cbn [rbind]; [apply IH'|].
    destruct (T x (X x (or_introl eq_refl)) D S) as (rs & ->). cbn [rbind]. apply IH'.
  Qed.
End Stage.

Section Order.
  Context {A R : Type} `{EqB A}.
  Lemma before_index (l : list A) u v : NoDup l -> (before l u v <-> exists i j, nth_error l i = Some u /\ nth_error l j = Some v /\ i < j).
  Proof.
    intros N. split.
    - intros (l1 & l2 & l3 & ->). exists (length l1), (length l1 + S (length l2)). split; [|split; [|lia]].
      + rewrite nth_error_app2 by lia. now rewrite Nat.sub_diag.
      + rewrite nth_error_app2 by lia. replace (length l1 + S (length l2) - length l1) with (S (length l2)) by lia. cbn [nth_error].
        rewrite nth_error_app2 by lia. now rewrite Nat.sub_diag.
    - intros (i & j & Ei & Ej & L). destruct (nth_error_split l j Ej) as (a & b & -> & La).
      rewrite nth_error_app1 in Ei by lia. destruct (nth_error_split a i Ei) as (c & d & -> & Lc). exists c, d, b. now rewrite <- app_assoc.
  Qed.
  Lemma before_trans (l : list A) u v w : NoDup l -> before l u v -> before l v w -> before l u w.
  Proof.
    intros N B C. apply before_index in B, C; try exact N. apply before_index; [exact N|]. destruct B as (i & j & Ei & Ej & L), C as (j' & k & Ej' & Ek & L').
    exists i, k. split; [exact Ei|]. split; [exact Ek|]. assert (j = j'); [|lia].
    apply (proj1 (NoDup_nth_error l) N); [apply nth_error_Some; congruence|congruence].
  Qed.
  Lemma before_filter (f : A -> bool) (l : list A) u v : f u = true -> f v = true -> before l u v -> before (filter f l) u v.
  Proof.
    intros Fu Fv (a & b & c & ->). exists (filter f a), (filter f b), (filter f c). rewrite filter_app. cbn. rewrite Fu, filter_app. cbn. now rewrite Fv.
  Qed.
  Variables (dummy skipped : A -> bool) (evaluate : A -> result (list R)).
  Lemma stage_once g res : graph_ok g -> workload_stage dummy skipped evaluate g = Ok res ->
    exists evaluated vals, NoDup evaluated /\
      (forall x, In x evaluated <-> In x (g_nodes g) /\ dummy x = false /\ skipped x = false) /\
      (forall u v, In u evaluated -> In v evaluated -> path g u v -> before evaluated u v) /\
      Forall2 (fun x rs => evaluate x = Ok rs) evaluated vals /\
      res = flat_map (fun p => map (fun r => (r, fst p)) (snd p)) (combine evaluated vals).
  Proof.
    intros O E. destruct (stage_spec _ _ _ _ _ O E) as (order & vals & (P & T) & F & ->).
    set (f := fun x => negb (dummy x) && negb (skipped x)) in *. exists (filter f order), vals.
    assert (N : NoDup order) by (eapply Permutation_NoDup; [apply Permutation_sym, P|apply O]).
    split; [now apply NoDup_filter|]. split; [|split; [|split; [exact F|reflexivity]]].
    - intros x. rewrite filter_In. unfold f. rewrite andb_true_iff, !negb_true_iff.
      assert (Q : In x order <-> In x (g_nodes g)) by (split; apply Permutation_in; [exact P|now apply Permutation_sym]). tauto.
    - intros u v Iu Iv Pa. apply filter_In in Iu, Iv. apply before_filter; [tauto|tauto|]. clear Iu Iv.
      induction Pa as [u v I|u v w I Pa IH]; [now apply T|]. apply before_trans with v; auto.
  Qed.
End Order.

Lemma nodes_kept {A} `{EqB A} (dummy : A -> bool) (g g' : graph A) y : g_nodes g' = filter (fun x => negb (dummy x)) (g_nodes g) ->
  (In y (g_nodes g') <-> In y (g_nodes g) /\ dummy y = false).
Proof. intros ->. now rewrite filter_In, negb_true_iff. Qed.
Lemma no_dummy_paths {A} `{EqB A} (dummy : A -> bool) g g' : graph_ok g -> get_copy_no_dummy dummy g = Ok g' ->
  (forall x, In x (g_nodes g') <-> In x (g_nodes g) /\ dummy x = false) /\
  forall u v, dummy u = false -> dummy v = false -> (path g' u v <-> path g u v).
Proof.
  intros O E. destruct (no_dummy_spec dummy g O) as (g1 & E1 & _ & N & S). rewrite E in E1. injection E1 as <-.
  split; [intros x; now apply nodes_kept|now apply paths_kept].
Qed.
Lemma onnx_sorted ns : executable ns -> forall g, onnx_workload ns = Ok g -> graph_ok g /\ g_nodes g = seq 0 (length ns) /\
  (forall u v, In (u, v) (g_edges g) <-> In u (firstn 2 (feeding ns v))) /\
  acyclic g /\ exists order, topological_sort g = Ok order /\ topological_order g order.
Proof.
  intros X g E. destruct (onnx_spec ns g X E) as (O & N & S). split; [exact O|]. split; [exact N|]. split; [exact S|].
  assert (K : ranked g).
  { apply ranked_lt. intros u v I. apply S in I. apply X, In_feeding. rewrite <- (firstn_skipn 2 (feeding ns v)). apply in_or_app. now left. }
  split; [now apply ranked_acyclic|now apply sort_ok].
Qed.

(** * Examples *)
Local Open Scope string_scope.
Local Open Scope list_scope.
Local Open Scope nat_scope.

(** Deciding whether a model can be executed in order *)
Definition executableb (ns : list onnxnode) : bool :=
  forallb (fun v => forallb (fun u => u <? v) (feeding ns v)) (seq 0 (length ns)).
Lemma executable_dec ns : executableb ns = true -> executable ns.
Proof.
  intros B u v F. assert (V : v < length ns) by (destruct F as (nu & nv & t & _ & E & _); apply nth_error_Some; congruence).
  unfold executableb in B. rewrite forallb_forall in B. assert (Iv : In v (seq 0 (length ns))) by (apply in_seq; lia). specialize (B v Iv).
  rewrite forallb_forall in B. apply Nat.ltb_lt, B, In_feeding, F.
Qed.
Lemma concat_lost : let ns := [mkOnnxnode true ["x"] ["a"]; mkOnnxnode true ["x"] ["b"]; mkOnnxnode true ["x"] ["c"];
    mkOnnxnode false ["a"; "b"; "c"] ["d"]; mkOnnxnode true ["d"] ["y"]] in
  executable ns /\ depends ns 2 4 /\ exists g, onnx_layers ns = Ok g /\ ~ path g 2 4.
Proof.
  cbn zeta. split; [apply executable_dec; reflexivity|]. split.
  - apply depends_more with 3; [|apply depends_one]; apply In_feeding; cbn; auto.
  - eexists. split; [vm_compute; reflexivity|]. intros P.
    assert (E : forall v, ~ In (2, v) [(0, 4); (1, 4)]) by (intros v [Q|[Q|[]]]; discriminate).
    inversion P; subst; cbn [g_edges] in *; eapply E; eassumption.
Qed.
Lemma feeding_dec ns : forallb (fun v => length (feeding ns v) <=? 2) (seq 0 (length ns)) = true -> forall v, length (feeding ns v) <= 2.
Proof.
  intros B v. destruct (Nat.lt_ge_cases v (length ns)) as [V|V].
  - rewrite forallb_forall in B. apply Nat.leb_le, B, in_seq. lia.
  - unfold feeding. apply nth_error_None in V. rewrite V. cbn. lia.
Qed.
Lemma chain_example : let ns := [mkOnnxnode true ["x"; "w"] ["a"]; mkOnnxnode false ["a"] ["b"]; mkOnnxnode true ["a"; "v"] ["c"];
    mkOnnxnode false ["b"; "c"] ["d"]; mkOnnxnode true ["d"] ["y"]] in
  executable ns /\ (forall v, length (feeding ns v) <= 2) /\
  exists g, onnx_workload ns = Ok g /\ graph_ok g /\ g_edges g = [(0, 1); (0, 2); (1, 3); (2, 3); (3, 4)] /\
    exists g', onnx_layers ns = Ok g' /\ g_nodes g' = [0; 2; 4] /\ g_edges g' = [(0, 2); (2, 4); (0, 4)].
Proof.
  cbn zeta. match goal with |- executable ?n /\ _ => set (ns := n); assert (X : executable ns) by (apply executable_dec; reflexivity) end.
  split; [exact X|]. split; [apply feeding_dec; reflexivity|].
  destruct (proj2 (onnx_ok ns X)) as (g & E). { intros v n _ _. apply feeding_dec. reflexivity. }
  exists g. split; [exact E|]. split; [apply (onnx_spec ns g X E)|]. vm_compute in E. injection E as <-. split; [reflexivity|].
  eexists. split; [vm_compute; reflexivity|]. split; reflexivity.
Qed.
