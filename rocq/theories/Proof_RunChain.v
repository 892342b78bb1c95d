(** How the chain of stages ends when evaluations may divide by zero and nothing may fit (C84). *)
From Coq Require Import QArith Lqa.
From Verif Require Import Base Model_Decouple Model_Cost Model_Latency Model_Graph Model_Workload Model_Cme Model_Pipeline Spec_Cme Spec_Graph Spec_Workload Spec_Pipeline
  Proof_AllocSearch Proof_Bandwidth Proof_Graph Proof_Workload Proof_Cme Proof_CmeMore Proof_CmeLaws Proof_Reduce Proof_Pipeline.
Open Scope string_scope.
Open Scope list_scope.

(** A result, or an exception of a kind *)
Definition ends {X} (P : exn -> Prop) (r : result X) : Prop := (exists x, r = Ok x) \/ exists e, P e /\ r = Err e.

Lemma ends_bind {X Y} P (r : result X) (f : X -> result Y) : ends P r -> (forall x, r = Ok x -> ends P (f x)) -> ends P (rbind r f).
Proof. intros [(x & E)|(e & Pe & ->)] F; [rewrite E; exact (F x E)|right; exists e; now split]. Qed.
Lemma ends_rmap {X Y} P (f : X -> result Y) l : (forall x, In x l -> ends P (f x)) -> ends P (rmap f l).
Proof.
  induction l as [|x l IH]; intros F; [left; now exists []|]. cbn [rmap]. apply ends_bind; [apply F; now left|]. intros y _.
  apply ends_bind; [apply IH; intros; apply F; now right|]. intros ys _. left. eauto.
Qed.
Lemma ends_ok {X} P (x : X) : ends P (Ok x). Proof. left; eauto. Qed.

(** Adding up fails only by a division *)
Lemma pdiv_ends a b : ends (fun e => e = ZeroDivisionError) (pdiv a b).
Proof. unfold pdiv. destruct (qis0 b); [right|left]; eauto. Qed.
Lemma add_ends order a b : (forall l, Permutation (order l) l) -> well_formed a -> well_formed b -> compatible (ev_acc a) (ev_acc b) ->
  ends (fun e => e = ZeroDivisionError) (cme_add order a b).
Proof.
  intros Or Wa Wb Co. destruct (add_dicts order Or a b Wa Wb) as (bd & fu & wd & _ & _ & _ & _ & _ & _ & ->).
  apply ends_bind; [unfold utilizations; do 4 (apply ends_bind; [apply pdiv_ends|intros ? _]); apply ends_ok|]. intros us _.
  destruct (proj1 (pick_ok a b Wa Wb) Co) as (r & ->). apply ends_ok.
Qed.
Lemma sum_ends {X} order (l : list (eval * X)) name : (forall l, Permutation (order l) l) ->
  (forall e x, In (e, x) l -> well_formed e /\ ev_acc e = Some name /\ exists i, ev_layers e = inl i) ->
  ends (fun e => e = ZeroDivisionError) (sum_stage order l).
Proof.
  intros Or. unfold sum_stage. intros F.
  assert (G : forall (l : list (eval * X)) (st : eval * list (eval * X)), (forall e x, In (e, x) l -> well_formed e /\ ev_acc e = Some name /\ exists i, ev_layers e = inl i) ->
    well_formed (fst st) -> (ev_acc (fst st) = None \/ ev_acc (fst st) = Some name) ->
    ends (fun e => e = ZeroDivisionError) (rfold (fun st ce => match ev_layers (fst ce) with inr _ => Err AssertionError
             | inl _ => rbind (cme_add order (fst st) (fst ce)) (fun t => Ok (t, snd st ++ [ce])) end) st l)).
  { clear l F. induction l as [|[e x] l IH]; intros st F W Ac; [apply ends_ok|]. cbn [rfold fst].
    destruct (F e x (or_introl eq_refl)) as (We & Ae & i & Ei). rewrite Ei.
    assert (Co : compatible (ev_acc (fst st)) (ev_acc e)).
    { rewrite Ae. destruct Ac as [-> | ->]; cbn [compatible]; [exact I|]. left. exists "". clear. induction name as [|c n IHn]; [reflexivity|cbn [append]; now rewrite <- IHn]. }
    destruct (add_ends order (fst st) e Or W We Co) as [(t & Et)|(z & -> & ->)]; [|right; eauto]. rewrite Et. cbn [rbind].
    destruct (add_sum order Or _ _ _ W We Et) as (Su & Wt). apply IH; [intros e' x' I'; exact (F e' x' (or_intror I'))|exact Wt|].
    right. cbn [fst]. pose proof (so_acc _ _ _ Su) as Q. rewrite Ae in Q. destruct Ac as [Q'|Q']; rewrite Q' in Q; cbn [chosen] in Q; [exact Q|].
    destruct Q as [(_ & Q)|(_ & Q)]; exact Q. }
  apply G; [exact F|exact empty_wf|left; reflexivity].
Qed.

Section Chain.
  Context {A S C T : Type} `{EqB A}.
  Variables (dummy skipped : A -> bool) (workload : graph A).
  Variable spatials : A -> result (list S).
  Variable convert : A -> S -> result C.
  Variable temporals : A -> C -> list T * option exn.
  Variable evaluate : A -> C -> T -> result eval.
  Variable order : list string -> list string.
  Variables (opt : string) (le : eval -> eval -> Prop).
  Hypothesis order_perm : forall l, Permutation (order l) l.
  Hypothesis chosen : criterion opt le.
  Hypothesis acyclic : graph_ok workload.
  Hypothesis rank : ranked workload.
  Hypothesis evaluations : forall l s c t e, convert l s = Ok c -> evaluate l c t = Ok e -> well_formed e /\ exists i, ev_layers e = inl i.

  (** No temporal mapping was found for a spatial mapping of a layer, which was reported by [x]. *)
  Definition not_mapped (x : exn) : Prop := exists l ss s c, In l (g_nodes workload) /\ dummy l = false /\ spatials l = Ok ss /\ In s ss /\ convert l s = Ok c /\ temporals l c = ([], Some x).
  Variable P : exn -> Prop.
  Hypothesis P_unmapped : forall x, not_mapped x -> P x.
  Hypothesis each : forall l, In l (g_nodes workload) -> dummy l = false -> exists ss, spatials l = Ok ss /\ ss <> [] /\
    forall s, In s ss -> exists c, convert l s = Ok c /\
      (fst (temporals l c) = [] /\ snd (temporals l c) <> None \/ fst (temporals l c) <> [] /\ snd (temporals l c) = None) /\
      forall t, In t (fst (temporals l c)) -> ends P (evaluate l c t).

  Lemma layer_ends less keep l :
    (forall X k (es : list (eval * X)), es <> [] -> (forall e x, In (e, x) es -> exists i, ev_layers e = inl i) -> exists r, minimal_stage less k es = Ok r) ->
    In l (g_nodes workload) -> dummy l = false -> ends P (layer_run spatials convert temporals evaluate less keep l).
  Proof.
    intros Mi Il Id. destruct (each l Il Id) as (ss & Es & Ne & Hs). unfold layer_run, spatial_run. rewrite Es. cbn [rbind].
    assert (Cs : forall s, In s ss -> ends P (conversion_run convert temporals evaluate less keep l s) /\
       forall r, conversion_run convert temporals evaluate less keep l s = Ok r -> exists i, ev_layers (fst r) = inl i).
    { intros s Is. destruct (Hs s Is) as (c & Ec & Te & Ev). unfold conversion_run. rewrite Ec. cbn [rbind].
      destruct Te as [(T1 & T2)|(T1 & T2)].
      { unfold temporal_run. rewrite T1. cbn [rmap rbind]. destruct (snd (temporals l c)) as [x|] eqn:Ex; [|congruence]. cbn [rbind]. split; [|discriminate]. right. exists x. split; [|reflexivity].
        apply P_unmapped. exists l, ss, s, c. repeat (split; [assumption|]). destruct (temporals l c) as [a b]. cbn [fst snd] in *. congruence. }
      assert (Es' : ends P (temporal_run temporals evaluate l c)).
      { unfold temporal_run. apply ends_bind; [|intros es _; rewrite T2; apply ends_ok]. apply ends_rmap. intros t It. apply ends_bind; [now apply Ev|]. intros; apply ends_ok. }
      destruct Es' as [(es & Ee)|(x & Px & ->)]; [|split; [right; exists x; now split|discriminate]]. rewrite Ee. cbn [rbind].
      destruct (temporal_spec temporals evaluate l c es Ee) as (_ & F).
      assert (Si : forall e x, In (e, x) es -> exists i, ev_layers e = inl i).
      { intros e x I. destruct (in_F2_r _ _ _ _ F I) as (t & _ & Q & _). exact (proj2 (evaluations _ _ _ _ _ Ec Q)). }
      assert (Ne' : es <> []) by (intros ->; inversion F; congruence).
      split; [left; now apply Mi|]. intros [b o] Eb. cbn [fst].
      destruct (criterion_ok opt le chosen) as (less' & _ & _).
      unfold minimal_stage in Eb. apply rbind_Ok in Eb. destruct Eb as ((b' & o') & Eb & Q). cbn [fst snd] in Q. destruct b' as [b'|]; [|discriminate]. injection Q as -> _.
      clear Mi Ne' Ee F. assert (G : forall (b0 : option eval) (o0 : list (eval * T)), (forall b1, b0 = Some b1 -> exists i, ev_layers b1 = inl i) ->
         rfold (fun (st : option eval * list (eval * T)) ce =>
                 match ev_layers (fst ce) with
                 | inr _ => Err AssertionError
                 | inl _ =>
                     let best' := match fst st with
                                  | None => Some (fst ce)
                                  | Some b => if less (fst ce) b then Some (fst ce) else Some b
                                  end in
                     Ok (best', if keep then snd st ++ [ce] else snd st)
                 end) (b0, o0) es = Ok (Some b, o') -> exists i, ev_layers b = inl i).
      { clear Eb. revert Si. induction es as [|[e x] es IH]; intros Si b0 o0 H0; cbn [rfold]; [intros Q; assert (b0 = Some b) by congruence; now apply H0|].
        cbn [fst snd]. destruct (Si e x (or_introl eq_refl)) as (i & Ei). rewrite Ei. cbn [rbind]. apply IH; [intros e' x' I; exact (Si e' x' (or_intror I))|].
        intros b1 Q. destruct b0 as [b0|]; [destruct (less e b0)|]; injection Q as <-; eauto. }
      apply (G None []); [discriminate|exact Eb]. }
    destruct ss as [|s0 ss0]; [congruence|]. set (ss := s0 :: ss0) in *. clearbody ss.
    destruct (ends_rmap P (fun s => rbind (conversion_run convert temporals evaluate less keep l s) (fun r => Ok (fst r, (s, snd r)))) ss) as [(es & Ee)|(x & Px & ->)].
    { intros s Is. apply ends_bind; [exact (proj1 (Cs s Is))|intros; apply ends_ok]. }
    2: { right. exists x. now split. }
    rewrite Ee. cbn [rbind]. left. apply rmap_Forall2 in Ee. apply Mi; [intros ->; inversion Ee; congruence|]. intros e x I. destruct (in_F2_r _ _ _ _ Ee I) as (s & Is & Q).
    apply rbind_Ok in Q. destruct Q as (r & Er & Q). injection Q as <- _. exact (proj2 (Cs s Is) r Er).
  Qed.

  Lemma layers_end less keep :
    (forall X k (es : list (eval * X)), es <> [] -> (forall e x, In (e, x) es -> exists i, ev_layers e = inl i) -> exists r, minimal_stage less k es = Ok r) ->
    ends P (layers_run dummy skipped workload spatials convert temporals evaluate less keep).
  Proof.
    intros Mi. unfold layers_run. apply ends_bind; [|intros; apply ends_ok].
    unfold workload_stage. destruct (sort_ok workload acyclic rank) as (o & -> & Pe & _). cbn [rbind].
    assert (X : forall x, In x o -> In x (g_nodes workload)) by (intros x; apply Permutation_in, Pe). clear Pe.
    match goal with |- ends _ (rfold _ ?i _) => generalize i as out end. induction o as [|x o IH]; intros out; [apply ends_ok|]. cbn [rfold].
    assert (IH' := IH (fun y I => X y (or_intror I))).
    destruct (dummy x) eqn:Dx; cbn [rbind]; [apply IH'|]. destruct (skipped x); cbn [rbind]; [apply IH'|].
    destruct (layer_ends less keep x Mi (X x (or_introl eq_refl)) Dx) as [(r & ->)|(e & Pe & ->)]; cbn [rbind]; [apply IH'|right; exists e; now split].
  Qed.

  Lemma api_ends name : (forall l e, candidate spatials convert temporals evaluate l e -> ev_acc e = Some name) ->
    (P ZeroDivisionError \/ forall l e, candidate spatials convert temporals evaluate l e -> positive e) ->
    ends P (api dummy skipped workload spatials convert temporals evaluate order opt).
  Proof.
    intros Ac Pz. destruct (criterion_ok opt le chosen) as (less & Eo & M1 & M2 & Tr). unfold api. rewrite Eo. cbn [rbind]. unfold chain_run.
    assert (Mi : forall X k (es : list (eval * X)), es <> [] -> (forall e x, In (e, x) es -> exists i, ev_layers e = inl i) -> exists r, minimal_stage less k es = Ok r).
    { intros X k es Ne Si. destruct (M1 X k es Ne Si) as (b & -> & _). eauto. }
    apply ends_bind; [|intros; apply ends_ok]. apply ends_bind; [now apply layers_end|]. intros rs El.
    assert (Si : forall l s c t e, convert l s = Ok c -> evaluate l c t = Ok e -> exists i, ev_layers e = inl i) by (intros l s c t e Ec Q; exact (proj2 (evaluations l s c t e Ec Q))).
    destruct (layers_spec dummy skipped workload spatials convert temporals evaluate less false rs acyclic El) as (_ & _ & _ & Each).
    assert (All : forall e x, In (e, x) rs -> well_formed e /\ (exists i, ev_layers e = inl i) /\ ev_acc e = Some name /\ candidate spatials convert temporals evaluate (fst x) e).
    { intros e [l o] I. destruct (layer_spec spatials convert temporals evaluate less le false Si M1 M2 Tr l e o (Each _ I)) as (_ & Ca & _).
      pose proof (Ac _ _ Ca) as Ae. cbn [fst]. destruct Ca as (ss & s & c & t & C1 & C2 & Ec & C3 & Et). destruct (evaluations _ _ _ _ _ Ec Et). repeat (split; [assumption|]). exists ss, s, c, t. auto. }
    destruct Pz as [Pz|Pz].
    - destruct (sum_ends order rs name order_perm) as [(r & ->)|(e & -> & ->)]; [|apply ends_ok|right; now exists ZeroDivisionError].
      intros e x I. destruct (All e x I) as (? & ? & ? & _). auto.
    - destruct (sum_stage_total order order_perm rs name) as (t & -> & _); [|apply ends_ok].
      intros e x I. destruct (All e x I) as (? & ? & ? & Ca). split; [assumption|]. split; [exact (Pz _ _ Ca)|]. now split.
  Qed.
End Chain.
