From Coq Require Import QArith Lqa.
From Verif Require Import Base Model_Decouple Model_DataMove Model_Links Model_Cost Model_Latency Model_Cme Spec_DataMove Spec_Cost Spec_Cme
  Proof_AllocSearch Proof_Mapping Proof_DataMove Proof_Energy Proof_Latency Proof_Cme Proof_CmeLaws Proof_CmeMore.
Local Open Scope result_scope.

(** * SumStage *)

Lemma total_snoc f l e : (total_of f (l ++ [e]) == total_of f l + f e)%Q.
Proof. unfold total_of. rewrite map_app. induction (map f l) as [|x xs IH]; cbn [app qsum fold_right map]; [ring|]. unfold qsum in IH. cbn [map] in IH. rewrite IH. ring. Qed.
Lemma entry_snoc {A} (add : A -> A -> A) f l e : entry_total add f (l ++ [e]) = opt_add add (entry_total add f l) (f e).
Proof. unfold entry_total. now rewrite fold_left_app. Qed.

Lemma summed_nil : summed [] empty_cme.
Proof. constructor; try reflexivity. intros op. cbn. split; [tauto|]. now intros (e & [] & _). Qed.

Lemma summed_snoc l e t t' : summed l t -> sum_of t e t' -> summed (l ++ [e]) t'.
Proof.
  intros [A1 A2 A3 A4 A5 A6 A7 A8 A9 A10 A11 A12 A13 A14 A15] [B1 B2 B3 B4 B5 B6 B7 B8 B9 B10 B11 B12 B13 B14 _ B15 _].
  constructor; intros; rewrite ?total_snoc, ?entry_snoc;
    try (rewrite B5, A5 || rewrite B6, A6 || rewrite B7, A7 || rewrite B8, A8 || rewrite B9, A9 || rewrite B10, A10 || rewrite B11, A11 || rewrite B12, A12 || rewrite B13, A13 || rewrite B14, A14; reflexivity).
  - now rewrite B1, A1.
  - now rewrite B2, A2.
  - now rewrite B3, A3.
  - rewrite B4, A4. split.
    + intros [(x & Hx & Hk)|Hk]; [exists x|exists e]; (split; [apply in_or_app|exact Hk]); [now left|right; now left].
    + intros (x & Hx & Hk). apply in_app_or in Hx. destruct Hx as [Hx|[<-|[]]]; [left; now exists x|now right].
  - now rewrite B15, A15, flat_map_app, <- (app_nil_r (layer_ids e)) at 1.
Qed.

Section Sum.
  Variable order : list string -> list string.
  Hypothesis order_perm : forall l, Permutation (order l) l.

  Definition sum_step {X} (st : eval * list (eval * X)) (ce : eval * X) : result (eval * list (eval * X)) :=
    match ev_layers (fst ce) with
    | inr _ => Err AssertionError
    | inl _ => t <- cme_add order (fst st) (fst ce) ;; Ok (t, snd st ++ [ce])
    end.
  Lemma sum_stage_fold {X} (l : list (eval * X)) : sum_stage order l = rfold sum_step (empty_cme, []) l.
  Proof. reflexivity. Qed.

  Lemma sum_stage_spec {X} (l : list (eval * X)) : (forall e x, In (e, x) l -> well_formed e) ->
    forall t all, sum_stage order l = Ok (t, all) -> all = l /\ well_formed t /\ summed (map fst l) t /\
      (l <> [] -> right_utils t) /\ ((forall e x, In (e, x) l -> adds_up e) -> adds_up t) /\
      (forall e x, In (e, x) l -> exists i, ev_layers e = inl i).
  Proof.
    rewrite sum_stage_fold. induction l as [|[e x] l IH] using rev_ind; intros W t all H.
    - cbn in H. injection H as <- <-. split; [reflexivity|]. split; [apply empty_wf|]. split; [exact summed_nil|]. split; [congruence|]. split; [|intros e x []].
      intros _. split; reflexivity.
    - rewrite rfold_app in H. destruct (rfold sum_step (empty_cme, []) l) as [[t0 all0]|]; [|discriminate]. cbn [rbind rfold] in H.
      destruct (IH (fun e x Hx => W e x (in_or_app _ _ _ (or_introl Hx))) t0 all0 eq_refl) as (-> & W0 & S0 & _ & A0 & L0).
      destruct (sum_step (t0, l) (e, x)) as [[t1 all1]|] eqn:Es; [|discriminate]. injection H as <- <-.
      unfold sum_step in Es. cbn [fst snd] in Es. destruct (ev_layers e) as [i|ids] eqn:El; [|discriminate].
      apply rbind_Ok in Es. destruct Es as (t2 & Ha & Es). injection Es as <- <-.
      assert (We : well_formed e) by (apply (W e x); apply in_or_app; right; now left).
      destruct (add_sum _ order_perm _ _ _ W0 We Ha) as [S W2].
      split; [reflexivity|]. split; [exact W2|]. split; [rewrite map_app; now apply (summed_snoc _ _ t0)|].
      split; [intros _; exact (so_utils _ _ _ S)|]. split.
      + intros Hadd. apply (adds_up_sum order order_perm t0 e t2 W0 We Ha); [apply A0; intros e' x' Hx; apply (Hadd e' x'); apply in_or_app; now left|].
        apply (Hadd e x). apply in_or_app. right. now left.
      + intros e' x' Hx. apply in_app_or in Hx. destruct Hx as [Hx|[Hx|[]]]; [now apply (L0 e' x')|]. injection Hx as <- <-. now exists i.
  Qed.

  Lemma sum_stage_total {X} (l : list (eval * X)) name :
    (forall e x, In (e, x) l -> well_formed e /\ positive e /\ ev_acc e = Some name /\ exists i, ev_layers e = inl i) ->
    exists t, sum_stage order l = Ok (t, l) /\ (l <> [] -> positive t /\ ev_acc t = Some name).
  Proof.
    rewrite sum_stage_fold. induction l as [|[e x] l IH] using rev_ind; intros H.
    - exists empty_cme. split; [reflexivity|congruence].
    - destruct IH as (t0 & E0 & P0); [intros e' x' Hx; apply (H e' x'); apply in_or_app; now left|].
      rewrite rfold_app, E0. cbn [rbind rfold]. destruct (H e x) as (We & Pe & Ae & i & Li); [apply in_or_app; right; now left|].
      unfold sum_step. cbn [fst snd]. rewrite Li.
      assert (Wt : well_formed t0).
      { rewrite <- sum_stage_fold in E0. apply sum_stage_spec in E0; [tauto|]. intros e' x' Hx. apply (H e' x'). apply in_or_app. now left. }
      assert (G : exists t, cme_add order t0 e = Ok t /\ positive t /\ ev_acc t = Some name).
      { destruct l as [|p l'].
        - cbn in E0. injection E0 as <-. destruct (add_empty order order_perm e We) as [(r & Hr & N & _ & Er) _]; [congruence| |].
          { destruct Pe as (P1 & P2 & P3 & P4). repeat split; intros Hz; lra. }
          exists r. split; [exact Hr|]. split; [|congruence]. destruct Pe as (P1 & P2 & P3 & P4). unfold positive.
          rewrite (sn_temporal _ _ N), (sn_l0 _ _ N), (sn_l1 _ _ N), (sn_l2 _ _ N). now repeat split.
        - destruct P0 as [Pt At]; [discriminate|]. destruct (add_total order order_perm t0 e Wt We Pt Pe) as (r & Hr & Pr & Er); [congruence|congruence|].
          exists r. split; [exact Hr|]. split; [exact Pr|congruence]. }
      destruct G as (t & -> & Pt & At). cbn [rbind]. exists t. split; [reflexivity|]. intros _. now split.
  Qed.
End Sum.

(** The order of the evaluations does not matter. *)
Lemma total_perm f l l' : Permutation l l' -> (total_of f l == total_of f l')%Q.
Proof. apply qsum_map_perm. Qed.

Lemma opt_eq_trans x y z : opt_eq x y -> opt_eq y z -> opt_eq x z.
Proof. destruct x, y, z; cbn; try tauto. intros -> ->. reflexivity. Qed.
Lemma opt_add_eq x x' y : opt_eq x x' -> opt_eq (opt_add Qplus x y) (opt_add Qplus x' y).
Proof. destruct x, x', y; cbn; try tauto; try reflexivity. intros ->. reflexivity. Qed.
Lemma fold_eq f l : forall x x', opt_eq x x' ->
  opt_eq (fold_left (fun x e => opt_add Qplus x (f e)) l x) (fold_left (fun (x : option Q) (e : eval) => opt_add Qplus x (f e)) l x').
Proof. induction l as [|e l IH]; intros x x' H; [exact H|]. cbn [fold_left]. apply IH. now apply opt_add_eq. Qed.
Lemma entry_perm_q f l l' : Permutation l l' -> opt_eq (entry_total Qplus f l) (entry_total Qplus f l').
Proof.
  intros P. unfold entry_total. generalize (@None Q). induction P as [|e l l' P IH|e e' l|l l' l'' P IH P' IH']; intros x.
  - apply opt_eq_refl.
  - cbn [fold_left]. apply IH.
  - cbn [fold_left]. apply fold_eq. destruct x, (f e), (f e'); cbn; try reflexivity; try ring.
  - eapply opt_eq_trans; [apply IH|apply IH'].
Qed.
Lemma entry_perm_z f l l' : Permutation l l' -> entry_total Z.add f l = entry_total Z.add f l'.
Proof.
  intros P. unfold entry_total. generalize (@None Z). induction P as [|e l l' P IH|e e' l|l l' l'' P IH P' IH']; intros x.
  - reflexivity.
  - cbn [fold_left]. apply IH.
  - cbn [fold_left]. f_equal. destruct x, (f e), (f e'); cbn; try reflexivity; f_equal; ring.
  - now rewrite IH.
Qed.

Lemma summed_perm l l' t t' : Permutation l l' -> summed l t -> summed l' t' -> same_numbers t t' /\ Permutation (layer_ids t) (layer_ids t').
Proof.
  intros P [A1 A2 A3 A4 A5 A6 A7 A8 A9 A10 A11 A12 A13 A14 A15] [B1 B2 B3 B4 B5 B6 B7 B8 B9 B10 B11 B12 B13 B14 B15].
  split.
  - constructor; intros; try (rewrite A5, B5 || rewrite A6, B6 || rewrite A7, B7 || rewrite A8, B8 || rewrite A9, B9 || rewrite A10, B10 || rewrite A11, B11 || rewrite A12, B12 || rewrite A13, B13 || rewrite A14, B14; now apply total_perm).
    + rewrite A1, B1. now apply entry_perm_q.
    + rewrite A2, B2. now apply entry_perm_q.
    + rewrite A3, B3. now apply entry_perm_z.
    + rewrite A4, B4. split; intros (e & He & Hk); exists e; (split; [|exact Hk]); [now apply (Permutation_in _ P)|now apply (Permutation_in _ (Permutation_sym P))].
  - rewrite A15, B15. now apply Permutation_flat_map.
Qed.

(** * Minimal stages *)

Section Minimal.
  Variables (less : eval -> eval -> bool) (le : eval -> eval -> Prop).
  Hypothesis less_spec : forall c b, less c b = true <-> ~ le b c.
  Hypothesis le_total : forall a b, le a b \/ le b a.
  Hypothesis le_trans : forall a b c, le a b -> le b c -> le a c.
  Hypothesis le_dec : forall a b, le a b \/ ~ le a b.

  Definition min_step {X} (keep : bool) (st : option eval * list (eval * X)) (ce : eval * X) : result (option eval * list (eval * X)) :=
    match ev_layers (fst ce) with
    | inr _ => Err AssertionError
    | inl _ =>
        let best' := match fst st with
                     | None => Some (fst ce)
                     | Some b => if less (fst ce) b then Some (fst ce) else Some b
                     end in
        Ok (best', if keep then snd st ++ [ce] else snd st)
    end.

  Lemma min_fold {X} keep (l : list (eval * X)) : (forall e x, In (e, x) l -> exists i, ev_layers e = inl i) ->
    exists best, rfold (min_step keep) (None, []) l = Ok (best, if keep then l else []) /\
      match best with None => l = [] | Some b => first_best le (map fst l) b end.
  Proof.
    induction l as [|[e x] l IH] using rev_ind; intros H.
    - exists None. split; [now destruct keep|reflexivity].
    - destruct IH as (best & Eb & Sb); [intros e' x' Hx; apply (H e' x'); apply in_or_app; now left|].
      rewrite rfold_app, Eb. cbn [rbind rfold]. destruct (H e x) as (i & Li); [apply in_or_app; right; now left|].
      unfold min_step. cbn [fst snd]. rewrite Li. cbv zeta.
      assert (K : (if keep then (if keep then l else []) ++ [(e, x)] else (if keep then l else [])) = (if keep then l ++ [(e, x)] else [])) by now destruct keep.
      rewrite K. eexists. split; [reflexivity|].
      assert (R : forall a, le a a) by (intros a; destruct (le_total a a); assumption).
      rewrite map_app. cbn [map fst]. destruct best as [b|].
      + destruct Sb as (l1 & l2 & E & B1 & B2). destruct (less e b) eqn:L.
        * apply less_spec in L. exists (map fst l), []. split; [reflexivity|]. split.
          -- intros e' He. apply in_app_or in He. destruct He as [He|[<-|[]]]; [|apply R].
             destruct (le_total e b) as [Q|Q]; [|contradiction]. apply (le_trans e b e' Q). now apply B1.
          -- intros e' He Hle. apply L. apply (le_trans b e' e); [now apply B1|exact Hle].
        * assert (Lb : le b e). { destruct (le_dec b e) as [Q|Q]; [exact Q|]. apply less_spec in Q. congruence. }
          exists l1, (l2 ++ [e]). split; [rewrite E, <- app_assoc; reflexivity|]. split; [|exact B2].
          intros e' He. apply in_app_or in He. destruct He as [He|[<-|[]]]; [now apply B1|exact Lb].
      + subst l. cbn. exists [], []. split; [reflexivity|]. split; [intros e' [<-|[]]; apply R|intros e' []].
  Qed.

  Lemma minimal_ok {X} keep (l : list (eval * X)) : l <> [] -> (forall e x, In (e, x) l -> exists i, ev_layers e = inl i) ->
    exists b, minimal_stage less keep l = Ok (b, if keep then l else []) /\ first_best le (map fst l) b.
  Proof.
    intros N H. destruct (min_fold keep l H) as (best & E & S). unfold minimal_stage.
    change (rfold _ (None, []) l) with (rfold (min_step keep) (None, []) l). rewrite E. cbn [rbind fst snd].
    destruct best as [b|]; [|contradiction]. now exists b.
  Qed.
  Lemma minimal_empty {X} keep : minimal_stage less keep (@nil (eval * X)) = Err AssertionError.
  Proof. reflexivity. Qed.
  Lemma minimal_cumulative {X} keep (l : list (eval * X)) e x ids : In (e, x) l -> ev_layers e = inr ids -> minimal_stage less keep l = Err AssertionError.
  Proof.
    intros Hi He. unfold minimal_stage. change (rfold _ (None, []) l) with (rfold (min_step keep) (None, []) l).
    assert (G : forall (l : list (eval * X)) st, In (e, x) l -> rfold (min_step keep) st l = Err AssertionError).
    { clear -He. induction l as [|[e' x'] l IH]; intros st Hi; [destruct Hi|]. cbn [rbind rfold]. unfold min_step at 1. cbn [fst].
      destruct Hi as [Hi|Hi]; [injection Hi as -> ->; now rewrite He|]. destruct (ev_layers e'); [now apply IH|reflexivity]. }
    rewrite G by assumption. reflexivity.
  Qed.
End Minimal.

Lemma qlt_bool_spec x y : qlt_bool x y = true <-> (x < y)%Q.
Proof.
  unfold qlt_bool. destruct (Qle_bool y x) eqn:E; cbn.
  - apply Qle_bool_iff in E. split; [discriminate|lra].
  - split; [|reflexivity]. intros _. apply Qnot_le_lt. intros H. apply Qle_bool_iff in H. congruence.
Qed.

Lemma energy_spec c b : less_energy c b = true <-> ~ energy_le b c.
Proof.
  unfold less_energy, energy_le. rewrite orb_true_iff, andb_true_iff, !qlt_bool_spec, Qeq_bool_iff.
  destruct (Qlt_le_dec (ev_energy c) (ev_energy b)), (Qlt_le_dec (ev_energy b) (ev_energy c)), (Qlt_le_dec (ev_l2 c) (ev_l2 b));
    split; intros H; try lra; try (left; lra); try (right; split; lra).
  all: try (exfalso; apply H; left; lra). all: try (exfalso; apply H; right; split; lra).
  all: intros [Q|[Q Q']]; destruct H as [H|[H H']]; lra.
Qed.
Lemma latency_spec c b : less_latency c b = true <-> ~ latency_le b c.
Proof.
  unfold less_latency, latency_le. rewrite orb_true_iff, andb_true_iff, !qlt_bool_spec, Qeq_bool_iff.
  destruct (Qlt_le_dec (ev_l2 c) (ev_l2 b)), (Qlt_le_dec (ev_l2 b) (ev_l2 c)), (Qlt_le_dec (ev_energy c) (ev_energy b));
    split; intros H; try lra; try (left; lra); try (right; split; lra).
  all: try (exfalso; apply H; left; lra). all: try (exfalso; apply H; right; split; lra).
  all: intros [Q|[Q Q']]; destruct H as [H|[H H']]; lra.
Qed.
Lemma edp_spec c b : less_edp c b = true <-> ~ edp_le b c.
Proof.
  unfold less_edp, edp_le. rewrite qlt_bool_spec. split; [intros H Q; lra|]. apply Qnot_le_lt.
Qed.

Lemma lex_total x y u v : (x < y \/ x == y /\ u <= v)%Q \/ (y < x \/ y == x /\ v <= u)%Q.
Proof. destruct (Qlt_le_dec x y), (Qlt_le_dec y x), (Qlt_le_dec u v); try (left; left; lra); try (right; left; lra); [left|right]; right; split; lra. Qed.
Lemma lex_trans x y z u v w : ((x < y \/ x == y /\ u <= v) -> (y < z \/ y == z /\ v <= w) -> (x < z \/ x == z /\ u <= w))%Q.
Proof. intros [H|[H H']] [Q|[Q Q']]; try (left; lra). right. split; lra. Qed.
Lemma lex_dec x y u v : (x < y \/ x == y /\ u <= v)%Q \/ ~ (x < y \/ x == y /\ u <= v)%Q.
Proof.
  destruct (Qlt_le_dec x y); [left; now left|]. destruct (Qlt_le_dec y x); [right; intros [H|[H _]]; lra|].
  destruct (Qlt_le_dec v u); [right; intros [H|[_ H]]; lra|left; right; split; lra].
Qed.

Lemma minimal_energy {X} keep (l : list (eval * X)) : l <> [] -> (forall e x, In (e, x) l -> exists i, ev_layers e = inl i) ->
  exists b, minimal_stage less_energy keep l = Ok (b, if keep then l else []) /\ first_best energy_le (map fst l) b.
Proof.
  apply minimal_ok; unfold energy_le; [exact energy_spec|intros; apply lex_total|intros a b c; apply lex_trans|intros; apply lex_dec].
Qed.
Lemma minimal_latency {X} keep (l : list (eval * X)) : l <> [] -> (forall e x, In (e, x) l -> exists i, ev_layers e = inl i) ->
  exists b, minimal_stage less_latency keep l = Ok (b, if keep then l else []) /\ first_best latency_le (map fst l) b.
Proof.
  apply minimal_ok; unfold latency_le; [exact latency_spec|intros; apply lex_total|intros a b c; apply lex_trans|intros; apply lex_dec].
Qed.
Lemma minimal_edp {X} keep (l : list (eval * X)) : l <> [] -> (forall e x, In (e, x) l -> exists i, ev_layers e = inl i) ->
  exists b, minimal_stage less_edp keep l = Ok (b, if keep then l else []) /\ first_best edp_le (map fst l) b.
Proof.
  apply minimal_ok; unfold edp_le; [exact edp_spec|intros a b; destruct (Qlt_le_dec (ev_l2 a * ev_energy a) (ev_l2 b * ev_energy b)); [left|right]; lra|intros; lra|].
  intros a b. destruct (Qlt_le_dec (ev_l2 b * ev_energy b) (ev_l2 a * ev_energy a)); [right; lra|left; lra].
Qed.
Lemma minimal_all_empty {X} keep : minimal_stage less_energy keep (@nil (eval * X)) = Err AssertionError /\
  minimal_stage less_latency keep (@nil (eval * X)) = Err AssertionError /\ minimal_stage less_edp keep (@nil (eval * X)) = Err AssertionError.
Proof. repeat split. Qed.
