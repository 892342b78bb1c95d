(** Charts of evaluations. *)
From Coq Require Import QArith.
From Verif Require Import Base Model_DataMove Model_Links Model_Cost Model_Latency Model_Hierarchy Model_Evaluate
  Model_Cme Model_Chart Spec_Chart Spec_DataMove Spec_Cost Proof_AllocSearch Proof_Energy Proof_Bandwidth Proof_Chart.
Local Open Scope Q_scope.

Lemma hier_levels h hd levels sharing m ms : accelerator h = Ok (hd, levels, sharing) -> dget m hd = Some ms ->
  exists ls, get_memory_levels h m = Ok ls /\ ms = map lv_mem ls.
Proof.
  unfold accelerator. intros A D. apply rbind_Ok in A. destruct A as (d & Ed & A).
  assert (Q : hd = map (fun x => (fst x, map lv_mem (snd x))) d) by congruence. subst hd.
  apply dget_In in D. apply in_map_iff in D. destruct D as ((m', ls) & Q & D). cbn [fst snd] in Q.
  assert (m' = m /\ map lv_mem ls = ms) as (-> & <-) by (split; congruence).
  unfold mem_hierarchy_dict in Ed. apply rmap_Forall2 in Ed.
  destruct (Forall2_in_r _ _ _ _ Ed D) as (op & _ & R). apply rbind_Ok in R. destruct R as (ls' & G & R).
  exists ls. split; [|reflexivity]. congruence.
Qed.

Lemma words_ops ci acc : calc_memory_word_access ci = Ok acc -> (forall op, In op (keys acc) -> In op (in_ops ci)) /\
  (NoDup (in_ops ci) -> NoDup (keys acc)).
Proof.
  unfold calc_memory_word_access. intros E. apply rbind_Ok in E. destruct E as (all & Ea & E).
  assert (Q : acc = filter (fun kv => match snd kv with [] => false | _ => true end) all) by congruence. subst acc. clear E.
  assert (K : keys all = in_ops ci).
  { apply rmap_Forall2 in Ea. clear -Ea. induction Ea as [|op kv ops all R _ IH]; [reflexivity|]. apply rbind_Ok in R. destruct R as (a & _ & R).
    assert (fst kv = op) by (assert (kv = (op, a)) by congruence; now subst kv). cbn [keys map]. f_equal; assumption. }
  rewrite <- K. clear. split.
  - intros op H. unfold keys in *. apply in_map_iff in H. destruct H as (kv & <- & H). apply filter_In in H. now apply List.in_map.
  - induction all as [|kv all IH]; [constructor|]. cbn [keys map]. intros Nd. apply NoDup_cons_iff in Nd. destruct Nd as (N & Nd).
    cbn [filter]. destruct (snd kv); [now apply IH|]. cbn [keys map]. constructor; [|now apply IH].
    intros H. apply N. unfold keys in *. apply in_map_iff in H. destruct H as (x & Ex & H). apply filter_In in H. rewrite <- Ex. now apply List.in_map.
Qed.

Lemma nth_F2 {A B} (R : A -> B -> Prop) : forall l l', length l = length l' ->
  (forall i x y, nth_error l i = Some x -> nth_error l' i = Some y -> R x y) -> Forall2 R l l'.
Proof.
  induction l as [|x l IH]; intros [|y l'] Hl H; try discriminate Hl; constructor.
  - exact (H 0%nat x y eq_refl eq_refl).
  - apply IH; [now injection Hl|]. intros i a b Ha Hb. exact (H (S i) a b Ha Hb).
Qed.

Lemma F2_sum {A B} (f : A -> Q) (g : B -> Q) l l' : Forall2 (fun a b => f a == g b) l l' -> qsum (map f l) == qsum (map g l').
Proof. induction 1 as [|a b l l' H _ IH]; [reflexivity|]. cbn [map]. now rewrite !qsum_cons, H, IH. Qed.

Lemma evaluated_drawable h c : evaluated_on h c -> single c /\ drawable h c /\ pd_ops c <> [] /\ reported_energy (pd_eval c) == ev_energy (pd_eval c).
Proof.
  intros (rq & fuel & ci & id & an & Eh & Nd & Hne & Ep & Ec & Eo & El).
  unfold prepare in Ep. apply rbind_Ok in Ep. destruct Ep as (tm & _ & Ep). apply rbind_Ok in Ep. destruct Ep as (counts & _ & Ep).
  apply rbind_Ok in Ep. destruct Ep as (counts' & _ & Ep). apply rbind_Ok in Ep. destruct Ep as (((hd & levels) & sharing) & Ea & Ep).
  apply rbind_Ok in Ep. destruct Ep as (m & _ & Ep). apply rbind_Ok in Ep. destruct Ep as (m' & _ & Ep).
  assert (C1 : in_ops ci = rq_ops rq) by (injection Ep as <-; reflexivity).
  assert (C2 : in_links ci = rq_links rq) by (injection Ep as <-; reflexivity).
  assert (C3 : in_hier ci = hd) by (injection Ep as <-; reflexivity). clear Ep. rewrite Eh in Ea.
  unfold cme_of in Ec. apply rbind_Ok in Ec. destruct Ec as (ind & _ & Ec). apply rbind_Ok in Ec. destruct Ec as (sh & _ & Ec).
  apply rbind_Ok in Ec. destruct Ec as (acc & Ew & Ec). apply rbind_Ok in Ec. destruct Ec as ((((bd & fu) & mem) & total) & Ee & Ec).
  apply rbind_Ok in Ec. destruct Ec as (la & _ & Ec).
  assert (D1 : ev_further (pd_eval c) = fu) by (injection Ec as Q; now rewrite <- Q).
  assert (D2 : ev_energy (pd_eval c) = total) by (injection Ec as Q; now rewrite <- Q).
  assert (D3 : ev_mac (pd_eval c) = mac_energy ci) by (injection Ec as Q; now rewrite <- Q).
  assert (D4 : ev_layers (pd_eval c) = inl id) by (injection Ec as Q; now rewrite <- Q). clear Ec.
  assert (G := words_good ci acc Ew). destruct (words_ops ci acc Ew) as (Wo & Wn).
  destruct (energy_ok ci acc G) as (bd' & fu' & mem' & total' & Ee' & Et & Em & Fb & Ff).
  assert (bd' = bd /\ fu' = fu /\ mem' = mem /\ total' = total) as (-> & -> & -> & ->) by (repeat split; congruence). clear Ee Ee'.
  assert (Ku : keys fu = keys acc).
  { clear -Ff. unfold keys. induction Ff as [|a e la le (Q & _) _ IH]; [reflexivity|]. cbn [map]. now rewrite IH, Q. }
  split; [now exists id|]. split; [constructor|split].
  - rewrite D1, Ku. apply Wn. now rewrite C1.
  - rewrite D1. intros op gs Hin. destruct (Forall2_in_r _ _ _ _ Ff Hin) as ((op', fs) & Ha & Q & ms & Hm & L & N). cbn [fst snd] in *. subst op'.
    split; [rewrite Eo, <- C1; apply Wo; change op with (fst (op, fs)); unfold keys; now apply List.in_map|].
    destruct (G op fs Ha) as ((ms' & Hm' & Lm) & _).
    assert (ms' = ms) by (destruct Hm as (x & X1 & X2), Hm' as (y & Y1 & Y2); congruence). subst ms'.
    split.
    + destruct Hm as (mo & X1 & X2). rewrite C3 in X2. destruct (hier_levels h hd levels sharing mo ms Ea X2) as (ls & Gl & ->).
      exists mo, ls. rewrite El, <- C2. split; [exact X1|]. split; [exact Gl|]. rewrite map_length in Lm. lia.
    + intros g k Hg. apply In_nth_error in Hg. destruct Hg as (lv & Hg).
      assert (Hlv : (lv < length gs)%nat) by (apply nth_error_Some; congruence).
      destruct (nth_error fs lv) as [f|] eqn:Ef; [|apply nth_error_None in Ef; lia].
      destruct (nth_error ms lv) as [mm|] eqn:Emm; [|apply nth_error_None in Emm; lia].
      destruct (N lv mm f g Emm Ef Hg k) as (x & Hx & _). now exists x.
  - rewrite Eo. exact Hne.
  - unfold reported_energy. rewrite D1, D2, D3, Et, Em. unfold mac_energy. apply Qplus_comp; [reflexivity|].
    apply F2_sum.
    assert (X : Forall2 (fun b f => In b bd /\ In f fu /\ fst b = fst f /\ qsum (map all_directions (snd f)) == qsum (snd b)) bd fu).
    { clear -Fb Ff G.
      assert (Gi : forall op fs, In (op, fs) acc -> good_accesses ci acc -> exists ms, memories_of ci op ms /\ (length fs <= length ms)%nat)
        by (intros op fs Hin G'; exact (proj1 (G' op fs Hin))).
      assert (Gi' : forall a, In a acc -> exists ms, memories_of ci (fst a) ms /\ (length (snd a) <= length ms)%nat)
        by (intros (op, fs) Hin; exact (Gi op fs Hin G)).
      clear G Gi. revert fu Ff Gi'. induction Fb as [|a b acc1 bd1 (Qb & ms & Hm & Lb & Nb) Fb IH]; intros fu Ff Gi; inversion Ff as [|a2 f acc2 fu2 (Qf & ms' & Hm' & Lf & Nf) Ff' Q1 Q2]; subst; [constructor|].
      constructor.
      - split; [now left|]. split; [now left|]. split; [congruence|].
        assert (ms' = ms) by (destruct Hm as (x & X1 & X2), Hm' as (y & Y1 & Y2); congruence). subst ms'.
        destruct (Gi a (or_introl eq_refl)) as (ms' & Hm'' & Lm).
        assert (ms' = ms) by (destruct Hm as (x & X1 & X2), Hm'' as (y & Y1 & Y2); congruence). subst ms'.
        rewrite <- (map_id (snd b)). apply F2_sum. apply nth_F2; [congruence|]. intros lv g e Hg He.
        assert (Hlv : (lv < length (snd f))%nat) by (apply nth_error_Some; congruence).
        destruct (nth_error (snd a) lv) as [fa|] eqn:Ea; [|apply nth_error_None in Ea; lia].
        destruct (nth_error ms lv) as [mm|] eqn:Emm; [|apply nth_error_None in Emm; lia].
        rewrite (Nb lv mm fa e Emm Ea He). unfold all_directions, spent.
        destruct (Nf lv mm fa g Emm Ea Hg RdLow) as (x1 & Hx1 & E1). destruct (Nf lv mm fa g Emm Ea Hg WrLow) as (x2 & Hx2 & E2).
        destruct (Nf lv mm fa g Emm Ea Hg RdHigh) as (x3 & Hx3 & E3). destruct (Nf lv mm fa g Emm Ea Hg WrHigh) as (x4 & Hx4 & E4).
        rewrite (in_dir _ _ _ Hx1), (in_dir _ _ _ Hx2), (in_dir _ _ _ Hx3), (in_dir _ _ _ Hx4), E1, E2, E3, E4. reflexivity.
      - specialize (IH fu2 Ff' (fun x Hx => Gi x (or_intror Hx))). revert IH. apply F2_impl. intros x y (H1 & H2 & H3). split; [now right|]. split; [now right|]. exact H3. }
    clear -X. assert (Y : Forall2 (fun f b => qsum (map all_directions (snd f)) == qsum (snd b)) fu bd).
    { induction X as [|b f bd1 fu1 (_ & _ & _ & H) _ IH]; constructor; assumption. }
    exact Y.
Qed.

Lemma charted label set_order number c0 cs :
  let h := pd_hierarchy c0 in
  (forall l, Permutation (set_order l) l) -> h_list h <> [] ->
  NoDup (map lv_id (h_list h)) -> NoDup (map label (h_list h)) ->
  (forall c, In c (c0 :: cs) -> evaluated_on h c) ->
  exists ch, bar_plot label set_order number (c0 :: cs) = Ok ch /\ right_chart h (c0 :: cs) ch /\
    Forall2 (fun c t => t == ev_energy (pd_eval c)) (c0 :: cs) (ch_totals ch).
Proof.
  intros h So Hne Idn Ln Ev.
  destruct (drawn label set_order number c0 cs So Hne Idn Ln) as (ch & E & R).
  - intros c Hc. destruct (evaluated_drawable _ _ (Ev c Hc)) as (H1 & H2 & _). now split.
  - exists c0. split; [now left|]. exact (proj1 (proj2 (proj2 (evaluated_drawable _ _ (Ev c0 (or_introl eq_refl)))))).
  - exists ch. split; [exact E|]. split; [exact R|]. assert (T := rc_totals _ _ _ R).
    clear -T Ev. revert Ev T. generalize (c0 :: cs) as l. generalize (ch_totals ch) as ts. fold h.
    intros ts l Ev T. induction T as [|c t l ts H _ IH]; constructor.
    + rewrite H. exact (proj2 (proj2 (proj2 (evaluated_drawable _ _ (Ev c (or_introl eq_refl)))))).
    + apply IH. intros x Hx. apply Ev. now right.
Qed.
