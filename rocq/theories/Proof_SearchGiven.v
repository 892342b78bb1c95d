(** Proofs for C80: the search with an ordering of loops given by the user. *)
From Coq Require Import QArith Lia Znumtheory.
From Verif Require Import Base Model_Alloc Model_Loma Model_Perm Model_Links Model_Hierarchy Model_Evaluate Model_Layer Model_TemporalStage Model_Search
  Spec_Loma Spec_Layer Spec_Perm Spec_Alloc Spec_Evaluate Spec_Search
  Proof_AllocSearch Proof_AllocErr Proof_LomaLoops Proof_LomaFactors Proof_LomaOnes Proof_LomaRun Proof_PermProps Proof_Ordering Proof_TemporalStage Proof_Search.
Local Open Scope string_scope.
Local Open Scope list_scope.
Local Open Scope Z_scope.

(** * Errors *)
Definition only {X} (P : exn -> Prop) (r : result X) : Prop := forall e, r = Err e -> P e.
Lemma only_bind {X Y} P (r : result X) (f : X -> result Y) : only P r -> (forall x, r = Ok x -> only P (f x)) -> only P (rbind r f).
Proof. intros H K e. destruct r as [x|y]; cbn [rbind]; [apply (K x eq_refl)|intros Q; apply H; congruence]. Qed.
Lemma only_ok {X} P (x : X) : only P (Ok x). Proof. intros e Q. discriminate. Qed.
Lemma only_option {X} (P : exn -> Prop) y (o : option X) : P y -> only P (of_option y o).
Proof. intros H e. destruct o; cbn; [discriminate|congruence]. Qed.
Lemma only_rfold {X Y} P (f : Y -> X -> result Y) l : (forall y x, In x l -> only P (f y x)) -> forall y, only P (rfold f y l).
Proof.
  induction l as [|x l IH]; intros H y; cbn [rfold]; [apply only_ok|]. destruct (f y x) as [y'|e] eqn:E; [apply IH; intros; apply H; now right|].
  intros e' Q. apply (H y x (or_introl eq_refl)). congruence.
Qed.
Lemma only_rmap {X Y} P (f : X -> result Y) l : (forall x, In x l -> only P (f x)) -> only P (rmap f l).
Proof.
  induction l as [|x l IH]; intros H; cbn [rmap]; [apply only_ok|]. apply only_bind; [apply H; now left|]. intros y _.
  apply only_bind; [apply IH; intros; apply H; now right|intros; apply only_ok].
Qed.

(** * The loops of the engine when sizes are pinned *)
Definition bad (e : exn) : Prop := In e refused.
Ltac isbad := cbn; tauto.

Section Loops.
  Variables (factorint : Z -> list (Z * Z)) (sizes : list (string * Z)).
  Hypothesis factored : factorint_ok factorint.
  Definition of_layer (d : string) (f : Z) : Prop := 1 <= f /\ exists n, In (d, n) sizes /\ (n = 1 -> f = 1).
  Definition fine (st : factors) : Prop := forall d fs f, In (d, fs) (pfs st) -> In f fs -> of_layer d f.

  Hypothesis once : NoDup (keys sizes).
  Lemma of_layer_times d f g : of_layer d f -> of_layer d g -> of_layer d (f * g).
  Proof.
    intros (F & n & In1 & H1) (G & m & In2 & H2). split; [nia|]. exists n. split; [exact In1|]. intros E.
    assert (m = n) by (apply (In_dget d n sizes once) in In1; apply (In_dget d m sizes once) in In2; congruence). subst m. rewrite (H1 E), (H2 E). reflexivity.
  Qed.

  Lemma fine_dset st d fs cs ss : fine st -> (forall f, In f fs -> of_layer d f) -> fine (mkFactors (dset d fs (pfs st)) cs ss).
  Proof.
    intros F H d' fs' f I If. cbn [pfs] in I. apply In_dset in I. destruct I as [(-> & ->)|I]; [now apply H|exact (F d' fs' f I If)].
  Qed.

  Lemma static_fine d s st fm st' : fine st -> 1 <= s -> In fm (factorint s) -> reduce_static_factor d s st fm = Ok st' -> fine st'.
  Proof.
    intros F Hs If E. destruct fm as [p m]. unfold reduce_static_factor, dgetr in E.
    apply rbind_Ok in E. destruct E as (fs & Ef & E). apply rbind_Ok in E. destruct E as (k & Ek & E). apply rbind_Ok in E. destruct E as (cs & _ & E).
    apply rbind_Ok in E. destruct E as (c & _ & E). destruct (m <=? c); [|injection E as <-; exact F]. cbn zeta in E.
    apply rbind_Ok in E. destruct E as (sum & _ & E).
    destruct (dget d (pfs st)) as [fs'|] eqn:Gf; [|discriminate]. injection Ef as ->. apply dget_In in Gf.
    destruct (index_of p fs) as [k'|] eqn:Gk; [|discriminate]. apply index_of_nth, nth_error_In in Gk.
    destruct (memb s fs); injection E as <-; [exact F|].
    apply fine_dset; [exact F|]. intros f I. apply in_app_or in I. destruct I as [I|[<-|[]]]; [exact (F d fs f Gf I)|].
    destruct (F d fs p Gf Gk) as (_ & n & In1 & H1). split; [exact Hs|]. exists n. split; [exact In1|]. intros E. specialize (H1 E). subst p.
    destruct (Z.eq_dec s 1) as [|Ns]; [assumption|]. exfalso. destruct (factored s ltac:(lia)) as (P & _). destruct (P 1 m If) as (Pr & _). apply prime_ge_2 in Pr. lia.
  Qed.
  Lemma statics_fine pins : (forall d s, In (d, s) pins -> 1 <= s) -> forall st st', fine st -> reduce_static_fps factorint pins st = Ok st' -> fine st'.
  Proof.
    unfold reduce_static_fps. induction pins as [|[d s] pins IH]; intros H st st' F E; cbn [rfold fst snd] in E; [injection E as <-; exact F|].
    destruct (rfold (reduce_static_factor d s) st (factorint s)) as [st1|] eqn:E1; [|discriminate]. apply (IH (fun d' s' I => H d' s' (or_intror I)) st1); [|exact E].
    clear IH E. assert (Hs : 1 <= s) by (apply (H d); now left). assert (G : forall x, In x (factorint s) -> In x (factorint s)) by auto. revert G E1. revert st F.
    generalize (factorint s) at 1 3 as l. induction l as [|fm l IH]; intros st F G E1; cbn [rfold] in E1; [injection E1 as <-; exact F|].
    destruct (reduce_static_factor d s st fm) as [st2|] eqn:E2; [|discriminate]. apply (IH st2); [|intros; apply G; now right|exact E1].
    exact (static_fine d s st fm st2 F Hs (G _ (or_introl eq_refl)) E2).
  Qed.

  Lemma in_insert {A} (x y : A) l : forall i, In y (insert_at i x l) -> y = x \/ In y l.
  Proof.
    induction l as [|z l IH]; intros [|i] I; cbn [insert_at] in I; cbn in *; try (intuition congruence). destruct I as [I|I]; [tauto|]. destruct (IH i I); tauto.
  Qed.
  Lemma in_combine_fst (fs cs : list Z) (keep : Z * Z -> bool) f : In f (map fst (filter keep (combine fs cs))) -> In f fs.
  Proof.
    intros I. apply in_map_iff in I. destruct I as ([f' c] & <- & I). apply filter_In in I. destruct I as (I & _). exact (in_combine_l _ _ _ _ I).
  Qed.
  Lemma merge_fine d fs cs i j fcs : (forall f, In f fs -> of_layer d f) -> merge_factors fs cs i j = Ok fcs -> forall f, In f (fst fcs) -> of_layer d f.
  Proof.
    intros F E f I. unfold merge_factors in E. apply rbind_Ok in E. destruct E as (fi & Ei & E). apply rbind_Ok in E. destruct E as (fj & Ej & E).
    destruct (nth_error fs i) as [fi'|] eqn:Ni; [|discriminate]. injection Ei as ->. destruct (nth_error fs j) as [fj'|] eqn:Nj; [|discriminate]. injection Ej as ->.
    apply nth_error_In in Ni, Nj. cbn zeta in E. destruct (index_of (fi * fj) fs) as [k|]; injection E as <-; cbn [fst] in I; apply in_combine_fst in I; [now apply F|].
    apply in_insert in I. destruct I as [->|I]; [apply of_layer_times; now apply F|now apply F].
  Qed.
  Lemma limit_fine ss k : forall st st', fine st -> limit_iter ss k st = Ok st' -> fine st'.
  Proof.
    induction k as [|k IH]; intros st st' F E; cbn [limit_iter] in E; [injection E as <-; exact F|]. apply rbind_Ok in E. destruct E as (st1 & E1 & E). apply (IH st1); [|exact E]. clear IH E st'.
    unfold limit_step in E1. apply rbind_Ok in E1. destruct E1 as (d & _ & E1). apply rbind_Ok in E1. destruct E1 as (fs & Ef & E1). apply rbind_Ok in E1. destruct E1 as (cs & _ & E1).
    apply rbind_Ok in E1. destruct E1 as (ij & _ & E1). apply rbind_Ok in E1. destruct E1 as (fcs & Em & E1). apply rbind_Ok in E1. destruct E1 as (sum & _ & E1). injection E1 as <-.
    unfold dgetr in Ef. destruct (dget d (pfs st)) as [fs'|] eqn:Gf; [|discriminate]. injection Ef as ->. apply dget_In in Gf.
    apply fine_dset; [exact F|]. exact (merge_fine d fs cs _ _ fcs (fun f I => F d fs f Gf I) Em).
  Qed.
  Lemma rebuild_fine st lpfs : fine st -> rebuild_lpfs st = Ok lpfs -> forall d f, In (d, f) lpfs -> of_layer d f.
  Proof.
    intros F E d f I. unfold rebuild_lpfs in E. apply rbind_Ok in E. destruct E as (ls & El & E). injection E as <-. apply in_concat in I. destruct I as (l & Il & I).
    apply rmap_Forall2 in El. destruct (Proof_Bandwidth.Forall2_in_r _ _ _ l El Il) as ([d' fs] & Ip & Q). cbn [fst snd] in Q. apply rbind_Ok in Q. destruct Q as (cs & _ & Q). injection Q as <-.
    unfold expand in I. apply in_flat_map in I. destruct I as ([f' c] & Ic & I). apply repeat_spec in I. cbn [fst] in I. injection I as -> ->. exact (F d' fs f' Ip (in_combine_l _ _ _ _ Ic)).
  Qed.

  Hypothesis some : sizes <> [].
  Hypothesis positive : forall d n, In (d, n) sizes -> 1 <= n.
  Variables (un : list (string * Q)) (loops : dict string Z).
  Hypothesis un_positive : forall d s, In (d, s) un -> (1 <= s)%Q.
  Hypothesis temporal : get_temporal_loops sizes un = Ok loops.

  Lemma loop_of_layer d n f : In (d, n) loops -> 1 <= f -> of_layer d f.
  Proof.
    intros I F. destruct (temporal_loops_cover sizes un once positive un_positive) as (loops' & El & _ & Hgt & _). assert (loops' = loops) by congruence. subst loops'.
    destruct (Hgt d n I) as (_ & K). destruct (key_dget _ _ K) as (m & Dm). split; [exact F|]. exists m. split; [now apply dget_In|]. intros ->.
    exfalso. exact (temporal_ones sizes un loops once un_positive temporal d n I Dm).
  Qed.
  Lemma loops_gt d n : In (d, n) loops -> 1 < n.
  Proof.
    intros I. destruct (temporal_loops_cover sizes un once positive un_positive) as (loops' & El & _ & Hgt & _). assert (loops' = loops) by congruence. subst loops'. exact (proj1 (Hgt d n I)).
  Qed.
  Lemma dummy_fine st lpfs : with_dummy factorint (keys sizes) loops = Ok (st, lpfs) -> fine st /\ forall d f, In (d, f) lpfs -> of_layer d f.
  Proof.
    unfold with_dummy. destruct (initial_lpfs factorint loops) as [|x l] eqn:Ei; intros E.
    - destruct sizes as [|[d n] rest] eqn:Es; [discriminate|]. cbn [keys map fst] in E. injection E as <- <-.
      assert (Of : of_layer d 1) by (split; [lia|]; exists n; split; [rewrite Es; now left|auto]).
      split; [intros d' fs f [Q|[]] If; injection Q as <- <-; destruct If as [<-|[]]; exact Of|intros d' f [Q|[]]; injection Q as <- <-; exact Of].
    - injection E as <- <-. split.
      + intros d fs f I If. unfold initial_factors in I. cbn [pfs] in I. apply in_map_iff in I. destruct I as ([d' n] & Q & I). cbn [fst snd] in Q. injection Q as <- <-.
        apply in_map_iff in If. destruct If as ([q m] & <- & If). apply (loop_of_layer d' n _ I). destruct (factored n ltac:(apply loops_gt in I; lia)) as (P & _).
        destruct (P q m If) as (Pr & _). apply prime_ge_2 in Pr. cbn. lia.
      + intros d f I. assert (I' : In (d, f) (initial_lpfs factorint loops)) by (rewrite Ei; exact I). clear I. unfold initial_lpfs in I'. apply in_flat_map in I'. destruct I' as ([d' n] & I & I').
        apply in_flat_map in I'. destruct I' as ([q m] & If & I'). apply repeat_spec in I'. cbn [fst snd] in *. injection I' as -> ->. apply (loop_of_layer d' n _ I). destruct (factored n ltac:(apply loops_gt in I; lia)) as (P & _).
        destruct (P q m If) as (Pr & _). apply prime_ge_2 in Pr. lia.
  Qed.
  Lemma engine_fine static lim lpfs : (forall ss d s, static = Some ss -> In (d, s) ss -> 1 <= s) ->
    engine_lpfs factorint static lim sizes un = Ok lpfs -> forall d f, In (d, f) lpfs -> of_layer d f.
  Proof.
    intros Hs E. unfold engine_lpfs in E. rewrite temporal in E. cbn [rbind] in E. apply rbind_Ok in E. destruct E as ([st l] & Eg & E). injection E as <-. cbn [snd].
    unfold get_prime_factors in Eg. apply rbind_Ok in Eg. destruct Eg as ([st0 l0] & Ed & Eg). cbn [fst snd] in Eg. destruct (dummy_fine st0 l0 Ed) as (F0 & G0).
    unfold limit_lpfs in Eg. apply rbind_Ok in Eg. destruct Eg as ([st1 l1] & E1 & Eg).
    assert (F1 : fine st1 /\ forall d f, In (d, f) l1 -> of_layer d f).
    { destruct static as [ss|]; [|assert (st1 = st0 /\ l1 = l0) as (-> & ->) by (split; congruence); now split].
      apply rbind_Ok in E1. destruct E1 as (st2 & E2 & E1). apply rbind_Ok in E1. destruct E1 as (l2 & E3 & E1). assert (st1 = st2 /\ l1 = l2) as (-> & ->) by (split; congruence).
      assert (F2 := statics_fine ss (fun d s => Hs ss d s eq_refl) st0 st2 F0 E2). split; [exact F2|]. exact (rebuild_fine st2 l2 F2 E3). }
    destruct F1 as (F1 & G1). cbn zeta in Eg. destruct (update_min_lpf_factor lim loops) as [li|]; [|assert (l = l1) as -> by congruence; exact G1].
    destruct (zsum (values (pf_count_sums st1)) <=? li); [assert (l = l1) as -> by congruence; exact G1|].
    apply rbind_Ok in Eg. destruct Eg as (st2 & E2 & Eg). apply rbind_Ok in Eg. destruct Eg as (l2 & E3 & Eg). assert (l = l2) as -> by congruence.
    exact (rebuild_fine st2 l2 (limit_fine _ _ _ _ F1 E2) E3).
  Qed.

  Lemma rebuild_only st : only bad (rebuild_lpfs st).
  Proof. unfold rebuild_lpfs. apply only_bind; [|intros; apply only_ok]. apply only_rmap. intros x _. apply only_bind; [apply only_option; isbad|intros; apply only_ok]. Qed.
  Lemma smallest_only ss n fs : forall cs i small first, only bad (find_smallest_from ss fs cs i n small first).
  Proof.
    induction fs as [|f fs IH]; intros cs i small first; cbn [find_smallest_from]; [apply only_ok|]. destruct cs as [|c cs].
    - destruct (negb (memb f ss)); [destruct first; [apply only_ok|]|]; intros e Q; assert (e = IndexError) as -> by congruence; isbad.
    - cbn zeta. destruct (_ || _); [|apply IH]. destruct first; [apply only_ok|]. destruct (_ <? c); [apply only_ok|apply IH].
  Qed.
  Lemma limit_only ss k : forall st, only bad (limit_iter ss k st).
  Proof.
    induction k as [|k IH]; intros st; cbn [limit_iter]; [apply only_ok|]. apply only_bind; [|intros; apply IH]. unfold limit_step.
    apply only_bind; [unfold argmax; destruct (pf_count_sums st); [intros e Q; assert (e = ValueError) as -> by congruence; isbad|apply only_ok]|intros d _].
    apply only_bind; [apply only_option; isbad|intros fs _]. apply only_bind; [apply only_option; isbad|intros cs _]. apply only_bind; [apply smallest_only|intros ij _].
    apply only_bind; [|intros fcs _; apply only_bind; [apply only_option; isbad|intros; apply only_ok]].
    unfold merge_factors. apply only_bind; [apply only_option; isbad|intros fi _]. apply only_bind; [apply only_option; isbad|intros fj _].
    cbn zeta. destruct (index_of _ _); apply only_ok.
  Qed.
  Lemma static_only ss : forall st, only bad (reduce_static_fps factorint ss st).
  Proof.
    unfold reduce_static_fps. apply only_rfold. intros st sl _. apply only_rfold. intros st1 [p m] _. unfold reduce_static_factor.
    apply only_bind; [apply only_option; isbad|intros fs _]. apply only_bind; [apply only_option; isbad|intros k _]. apply only_bind; [apply only_option; isbad|intros cs _].
    apply only_bind; [apply only_option; isbad|intros c _]. destruct (m <=? c); [|apply only_ok]. cbn zeta. apply only_bind; [apply only_option; isbad|intros s _]. destruct (memb _ _); apply only_ok.
  Qed.
  Lemma engine_only static lim : only bad (engine_lpfs factorint static lim sizes un).
  Proof.
    unfold engine_lpfs. rewrite temporal. cbn [rbind]. apply only_bind; [|intros; apply only_ok]. unfold get_prime_factors. apply only_bind.
    - unfold with_dummy. destruct (initial_lpfs factorint loops); [|apply only_ok]. destruct (keys sizes); [|apply only_ok]. intros e Q. assert (e = IndexError) as -> by congruence. isbad.
    - intros [st l] _. unfold limit_lpfs. cbn [fst snd]. apply only_bind.
      + destruct static as [ss|]; [|apply only_ok]. apply only_bind; [apply static_only|intros st1 _]. apply only_bind; [apply rebuild_only|intros; apply only_ok].
      + intros [st1 l1] _. cbn zeta. destruct (update_min_lpf_factor lim loops) as [li|]; [|apply only_ok]. destruct (_ <=? li); [apply only_ok|].
        apply only_bind; [apply limit_only|intros st2 _]. apply only_bind; [apply rebuild_only|intros; apply only_ok].
  Qed.
End Loops.

(** * Orderings that meet checks which may fail *)
Fixpoint rfilter {A} (check : A -> result bool) (l : list A) : result (list A) :=
  match l with
  | [] => Ok []
  | x :: l' => k <- check x ;; rest <- rfilter check l' ;; Ok (if k : bool then x :: rest else rest)
  end%result.
Lemma rfilter_in {A} (check : A -> result bool) l : forall l', rfilter check l = Ok l' -> forall x, In x l' -> In x l /\ check x = Ok true.
Proof.
  induction l as [|y l IH]; intros l' E x I; cbn [rfilter] in E; [injection E as <-; destruct I|].
  apply rbind_Ok in E. destruct E as (k & Ek & E). apply rbind_Ok in E. destruct E as (rest & Er & E). injection E as <-.
  destruct k; [destruct I as [<-|I]; [split; [now left|exact Ek]|]|]; destruct (IH rest Er x I); (split; [now right|assumption]).
Qed.
Lemma rfilter_only {A} P (check : A -> result bool) l : (forall x, In x l -> only P (check x)) -> only P (rfilter check l).
Proof.
  induction l as [|y l IH]; intros H; cbn [rfilter]; [apply only_ok|]. apply only_bind; [apply H; now left|intros k _]. apply only_bind; [apply IH; intros; apply H; now right|intros; apply only_ok].
Qed.

Section Generator.
  Context {A : Type} (ltb : A -> A -> bool).
  Lemma loop_filtered check fuel : forall st V, loop_from ltb (fun _ => Ok true) fuel st = Ok V -> loop_from ltb check fuel st = rfilter check V.
  Proof.
    induction fuel as [|fuel IH]; intros st V E; [discriminate|]. cbn [loop_from] in E |- *. destruct st as [[[hp h] i] j].
    apply rbind_Ok in E. destruct E as (l & -> & E). cbn [rbind] in E |- *. apply rbind_Ok in E. destruct E as (go & Eg & E). rewrite Eg. cbn [rbind].
    destruct go.
    - apply rbind_Ok in E. destruct E as (rest & Er & E). apply rbind_Ok in Er. destruct Er as (st' & Es & Er). assert (V = l :: rest) as -> by congruence.
      rewrite Es. cbn [rbind rfilter]. rewrite (IH st' rest Er). reflexivity.
    - cbn [rbind] in E. assert (V = [l]) as -> by congruence. cbn [rbind rfilter]. destruct (check l) as [k|]; reflexivity.
  Qed.
End Generator.

Lemma index_only {X} (l : list X) pos : only bad (py_index l pos).
Proof. unfold py_index. cbn zeta. destruct (_ || _); [intros e Q; assert (e = IndexError) as -> by congruence; isbad|apply only_option; isbad]. Qed.
Lemma valid_only ps qs p : only bad (all_valid [positions_valid ps; positions_sizes_valid qs] p).
Proof.
  cbn [all_valid]. apply only_bind.
  - induction ps as [|[pos d] ps IH]; cbn [positions_valid]; [apply only_ok|]. apply only_bind; [apply index_only|intros x _]. destruct (eqb (fst x) d); [exact IH|apply only_ok].
  - intros b _. destruct b; [|apply only_ok]. apply only_bind; [|intros c _; destruct c; apply only_ok].
    induction qs as [|[pos [d s]] qs IH]; cbn [positions_sizes_valid]; [apply only_ok|]. apply only_bind; [apply index_only|intros x _].
    destruct (_ && _); [exact IH|apply only_ok].
Qed.

Lemma index_at {X} (l : list X) pos x : py_index l pos = Ok x -> element_at l pos = Some x.
Proof.
  intros E. assert (D : position_in (length l) pos \/ ~ position_in (length l) pos) by (unfold position_in; lia).
  destruct D as [D|D]; [destruct (py_index_ok l pos D) as (y & E1 & E2); congruence|rewrite (py_index_err l pos D) in E; discriminate].
Qed.
Lemma valid_pins ps qs p : all_valid [positions_valid ps; positions_sizes_valid qs] p = Ok true ->
  (forall pos d, In (pos, d) ps -> dim_at p pos d) /\ (forall pos d s, In (pos, (d, s)) qs -> loop_at p pos d s).
Proof.
  cbn [all_valid]. intros E. apply rbind_Ok in E. destruct E as (b & Ep & E). destruct b; [|discriminate]. apply rbind_Ok in E. destruct E as (c & Eq & E). destruct c; [|discriminate]. split.
  - clear E Eq. induction ps as [|[pos d] ps IH]; intros q k I; [destruct I|]. cbn [positions_valid] in Ep. apply rbind_Ok in Ep. destruct Ep as (x & Ex & Ep).
    destruct (eqb_spec (fst x) d) as [Q|]; [|discriminate]. destruct I as [I|I]; [|exact (IH Ep q k I)]. injection I as <- <-. exists (snd x). rewrite (index_at _ _ _ Ex), <- Q. now destruct x.
  - clear E Ep. induction qs as [|[pos [d s]] qs IH]; intros q k n I; [destruct I|]. cbn [positions_sizes_valid] in Eq. apply rbind_Ok in Eq. destruct Eq as (x & Ex & Eq).
    destruct (eqb_spec (fst x) d) as [Q|]; [|discriminate]. destruct (Z.eqb_spec (snd x) s) as [Q'|]; [|discriminate]. cbn [andb] in Eq.
    destruct I as [I|I]; [|exact (IH Eq q k n I)]. injection I as <- <- <-. unfold loop_at. rewrite (index_at _ _ _ Ex), <- Q, <- Q'. now destruct x.
Qed.
Lemma not_wild o : ~ In "*" (map fst o) -> forall i, existsb is_wildb (firstn i o) = false.
Proof.
  intros N i. apply not_true_is_false. intros E. apply existsb_exists in E. destruct E as (e & I & W). apply is_wildb_spec in W. unfold is_wild in W; subst e. apply N.
  change "*" with (fst ("*", @None Z)). apply List.in_map. rewrite <- (firstn_skipn i o). apply in_or_app. now left.
Qed.
Lemma pins_follow o p : ~ In "*" (map fst o) ->
  all_valid [positions_valid (fst (get_constraints o)); positions_sizes_valid (snd (get_constraints o))] p = Ok true -> follows o p.
Proof.
  intros N E. apply valid_pins in E. pose proof (constraints_spec o) as C. destruct (get_constraints o) as [ps qs]. cbn [fst snd] in E. destruct E as (E1 & E2). destruct C as (C1 & C2).
  assert (P : forall i, posn (Z.of_nat (length o)) o i = Z.of_nat i) by (intros i; unfold posn; now rewrite not_wild).
  assert (At : forall i (x : string * Z), element_at p (Z.of_nat i) = Some x -> nth_error p i = Some x).
  { intros i x. unfold element_at. destruct (Z.leb_spec 0 (Z.of_nat i)); [|lia]. now rewrite Nat2Z.id. }
  intros i d [n|] Hi.
  - exists n. split; [|congruence]. apply At. apply (E2 (Z.of_nat i) d n). apply C2. exists i. now rewrite P.
  - destruct (E1 (Z.of_nat i) d) as (n & En); [apply C1; exists i; rewrite P; split; [exact Hi|split; [|reflexivity]]|exists n; split; [now apply At|discriminate]].
    intros ->. apply N. apply nth_error_In in Hi. now apply (List.in_map fst) in Hi.
Qed.

(** * A complete ordering *)
Lemma all_loops_sized o : forall acc t, all_loops o acc = Some t -> (forall d f, In (d, f) o -> exists n, f = Some n) /\
  (forall d, In d (keys t) <-> In d (keys acc) \/ In d (map fst o)).
Proof.
  induction o as [|[d [n|]] o IH]; intros acc t E; cbn [all_loops] in E; [|apply IH in E|discriminate].
  - injection E as <-. split; [intros ? ? []|]. cbn. tauto.
  - destruct E as (E1 & E2). split; [intros d' f [Q|I]; [injection Q as <- <-; now exists n|exact (E1 d' f I)]|]. intros d'. rewrite E2, In_keys_dset. cbn [map fst In]. intuition congruence.
Qed.
Lemma legacy_follows o : (forall d f, In (d, f) o -> exists n, f = Some n) -> follows o (legacy o).
Proof.
  intros H i d f Hi. destruct (H d f (nth_error_In _ _ Hi)) as (n & ->). exists n. split; [|congruence]. unfold legacy. now rewrite nth_error_map, Hi.
Qed.

(** * The search *)
Section Given.
  Variables (rq : request) (sizes : list (string * Z)) (pc : nat) (ms : list memspec).
  Hypothesis R : searchable rq sizes pc ms.
  Variables (factorint : Z -> list (Z * Z)) (lim : option Z) (mt : mapping_type).
  Hypothesis factored : factorint_ok factorint.
  Hypothesis limit : forall l, lim = Some l -> 1 <= l.

  Definition good (o : ordering) (found : list (dict string (list (list tloop)))) (e : option exn) : Prop :=
    (found <> [] /\ e = None \/ found = [] /\ exists x, e = Some x /\ (In x nothing_fits \/ o <> [] /\ In x refused)) /\
    forall tm, In tm found -> valid_request (with_temporal rq tm) /\
      exists p, (forall op levels, In (op, levels) tm -> concat levels = p) /\ (~ In "*" (map fst sizes) -> follows o p).

  Lemma search_given o : proper_ordering sizes o -> exists enough, forall fuel, (enough <= fuel)%nat -> exists found e, Model_Search.stage_mappings rq factorint lim sizes mt fuel o = Ok (found, e) /\ good o found e.
  Proof.
    intros proper.
    assert (D : o = [] \/ o <> []) by (destruct o; [now left|right; discriminate]). destruct D as [->|No].
    { destruct (search_ok rq sizes pc ms R factorint lim mt factored limit) as (un & tops & nodes & lpfs & V & _ & _ & _ & _ & _ & H). exists (length V). intros fuel F.
      destruct (H fuel F) as (found & e & E & _ & (E1 & E2) & Va). exists found, e. split; [exact E|]. split.
      - destruct found as [|tm found]; [right; split; [reflexivity|]|left; split; [discriminate|apply E1; discriminate]]. destruct (E2 eq_refl) as (x & -> & Ix & _). exists x. auto.
      - intros tm I. destruct (Va tm I) as (V1 & p & _ & Cp). split; [exact V1|]. exists p. split; [exact Cp|]. intros _ i d f Hi. destruct i; discriminate. }
    destruct (links_once rq sizes pc ms R) as (N1 & N2). destruct (dims_ok rq sizes pc ms R) as (un & Eu & Hu). destruct (view rq sizes pc ms R) as (tops & nodes & Ev & Hn & St & Ht).
    destruct (se_sizes _ _ _ _ R) as (Ne & Nd & Hge). set (ly := rq_layer rq) in *.
    assert (CI : Proof_AllocErr.complete_inputs ly (rq_spatial rq) tops nodes) by (apply (view_complete rq sizes pc ms R); [exact St|intros op mem_op I; exact (proj1 (Ht op mem_op I))]).
    assert (Hout : forall p e, allocator_run ly (rq_spatial rq) mt tops p nodes = Err e -> e = MemoryHierarchyTooSmall \/ e = MemoryTooSmall).
    { intros p e Eo. assert (H := run_outcome ly (rq_spatial rq) mt tops p nodes CI N2 Hn). rewrite Eo in H. cbn in H. tauto. }
    destruct (temporal_loops_cover sizes un Nd Hge Hu) as (loops & Elo & Nl & Hgt & _).
    assert (Fits : forall lpfs p tm, (forall d f, In (d, f) lpfs -> of_layer sizes d f) -> Permutation p lpfs -> allocator_run ly (rq_spatial rq) mt tops p nodes = Ok tm ->
      valid_request (with_temporal rq tm) /\ forall op levels, In (op, levels) tm -> concat levels = p)
      by (intros lpfs p tm Hl Pp Ep; exact (allocated_fits rq sizes pc ms R mt tops nodes lpfs p tm Hn St (fun op mem_op Il => proj2 (Ht op mem_op Il)) Hl Pp Ep)).
    unfold Model_Search.stage_mappings. rewrite Eu. cbn [rbind]. rewrite Ev. cbn [rbind fst snd]. fold ly. unfold temporal_stage. rewrite Elo. cbn [rbind].
    destruct (is_complete o loops) as [b|x] eqn:Ec; cbn [rbind].
    2:{ exists 0%nat. intros fuel _. exists [], (Some x). split; [reflexivity|]. split; [right; split; [reflexivity|]; exists x; split; [reflexivity|right; split; [exact No|]]|intros ? []].
        unfold is_complete in Ec. destruct (all_loops o []); [|discriminate]. destruct (existsb _ d); [|discriminate]. injection Ec as <-. cbn; tauto. }
    destruct b.
    - exists 0%nat. intros fuel _. unfold is_complete in Ec. destruct (all_loops o []) as [t|] eqn:Ea; [|discriminate]. destruct (existsb _ t); [discriminate|]. injection Ec as Ec.
      destruct (all_loops_sized o [] t Ea) as (Sz & Kt).
      assert (Hl : forall d f, In (d, f) (legacy o) -> of_layer sizes d f).
      { intros d f I. unfold legacy in I. apply in_map_iff in I. destruct I as ([d' f'] & Q & I). cbn [fst snd] in Q. destruct (Sz d' f' I) as (n & ->). injection Q as -> ->.
        assert (Kd : In d (keys t)) by (apply Kt; right; now apply (List.in_map fst) in I). apply key_dget in Kd. destruct Kd as (v & Dv). apply dget_In in Dv.
        unfold Model_Layer.dict_eqb in Ec. apply andb_prop in Ec. destruct Ec as (_ & Ec). assert (Q := proj1 (forallb_forall _ _) Ec _ Dv). cbn [fst snd] in Q.
        destruct (dget d loops) as [w|] eqn:Dw; [|discriminate]. apply dget_In in Dw.
        apply (loop_of_layer sizes Nd Hge un loops Hu Elo d w f Dw). exact (proj2 (proper d (Some f) I) f eq_refl). }
      destruct (allocator_run ly (rq_spatial rq) mt tops (legacy o) nodes) as [tm|x] eqn:El; cbn [rbind outcome].
      + exists [tm], None. split; [reflexivity|]. split; [left; split; [discriminate|reflexivity]|]. intros tm' [<-|[]]. destruct (Fits (legacy o) (legacy o) tm Hl (Permutation_refl _) El) as (Va & Co).
        split; [exact Va|]. exists (legacy o). split; [exact Co|]. intros _. exact (legacy_follows o Sz).
      + exists [], (Some x). split; [reflexivity|]. split; [right; split; [reflexivity|]; exists x; split; [reflexivity|left]|intros ? []]. destruct (Hout _ _ El) as [-> | ->]; cbn; tauto.
    - assert (Pins : forall ss d s, pinned_sizes (get_constraints o) = Some ss -> In (d, s) ss -> 1 <= s).
      { intros ss d s Es I. pose proof (constraints_spec o) as C. destruct (get_constraints o) as [ps qs]. destruct C as (_ & C).
        assert (ss = values qs) as -> by (unfold pinned_sizes in Es; destruct ps, qs; congruence).
        unfold values in I. apply in_map_iff in I. destruct I as ([pos x] & Q & I). cbn [snd] in Q. subst x. apply C in I. destruct I as (i & Hi & _).
        exact (proj2 (proper d (Some s) (nth_error_In _ _ Hi)) s eq_refl). }
      destruct (engine_lpfs factorint (pinned_sizes (get_constraints o)) lim sizes un) as [lpfs|x] eqn:El; cbn [rbind].
      2:{ exists 0%nat. intros fuel _. exists [], (Some x). split; [reflexivity|]. split; [right; split; [reflexivity|]; exists x; split; [reflexivity|right; split; [exact No|]]|intros ? []].
          exact (engine_only factorint sizes Nd un loops Elo _ _ x El). }
      assert (Hl : forall d f, In (d, f) lpfs -> of_layer sizes d f) by exact (engine_fine factorint sizes factored Nd Ne Hge un loops Hu Elo _ _ lpfs Pins El).
      assert (Cn : pinned_sizes (get_constraints o) = None -> ~ In "*" (map fst sizes) -> False).
      { intros Q Nw. pose proof (constraints_spec o) as C. destruct (get_constraints o) as [ps qs]. assert (ps = [] /\ qs = []) as (-> & ->) by (unfold pinned_sizes in Q; destruct ps, qs; try discriminate; auto).
        destruct C as (C1 & C2). clear - C1 C2 No proper Nw. destruct o as [|[d [n|]] o']; [congruence| |].
        - exact (proj2 (C2 (posn (Z.of_nat (length ((d, Some n) :: o'))) ((d, Some n) :: o') 0) d n) (ex_intro _ 0%nat (conj eq_refl eq_refl))).
        - refine (proj2 (C1 (posn (Z.of_nat (length ((d, None) :: o'))) ((d, None) :: o') 0) d) (ex_intro _ 0%nat (conj eq_refl (conj _ eq_refl)))).
          intros ->. apply Nw. exact (proj1 (proper wildcard None (or_introl eq_refl))). }
      assert (Run : exists enough r, (forall fuel, (enough <= fuel)%nat -> match pinned_sizes (get_constraints o) with None => permutations loop_ltb fuel lpfs
           | Some _ => constrained_permutations loop_ltb fuel lpfs [positions_valid (fst (get_constraints o)); positions_sizes_valid (snd (get_constraints o))] end = r) /\
         only bad r /\ forall V, r = Ok V -> forall p, In p V -> Permutation p lpfs /\ (~ In "*" (map fst sizes) -> follows o p)).
      { assert (Dl : lpfs = [] \/ lpfs <> []) by (destruct lpfs; [now left|right; discriminate]). destruct Dl as [->|Nl'].
        { exists 0%nat, (Err IndexError). split; [intros fuel _; destruct (pinned_sizes _); reflexivity|]. split; [intros e Q; assert (e = IndexError) as -> by congruence; cbn; tauto|discriminate]. }
        destruct (permutations_ok loop_ltb loop_ltb_irr loop_ltb_trans loop_ltb_tot lpfs Nl') as (V & _ & HV & Hrun). exists (length V).
        set (check := all_valid [positions_valid (fst (get_constraints o)); positions_sizes_valid (snd (get_constraints o))]).
        destruct (pinned_sizes (get_constraints o)) as [ss|] eqn:Es.
        - exists (rfilter check V). split; [|split].
          + intros fuel F. assert (Q := Hrun fuel F). unfold permutations in Q. unfold constrained_permutations. apply rbind_Ok in Q. destruct Q as (st & -> & Q). cbn [rbind]. now apply loop_filtered.
          + apply rfilter_only. intros p _. apply valid_only.
          + intros V' EV p Ip. destruct (rfilter_in check V V' EV p Ip) as (Iv & Ck). split; [now apply HV|]. intros Nw. apply pins_follow; [|exact Ck].
            intros I. apply Nw. apply in_map_iff in I. destruct I as ([d f] & Q & I). cbn [fst] in Q. subst d. exact (proj1 (proper "*" f I)).
        - exists (Ok V). split; [exact Hrun|]. split; [apply only_ok|]. intros V' Q p Ip. assert (V' = V) as -> by congruence. split; [now apply HV|]. intros Nw. destruct (Cn eq_refl Nw). }
      destruct Run as (enough & r & Hr & Or & Vr). exists enough. intros fuel F. rewrite (Hr fuel F). destruct r as [V|x]; cbn [rbind outcome].
      2:{ exists [], (Some x). split; [reflexivity|]. split; [right; split; [reflexivity|]; exists x; split; [reflexivity|right; split; [exact No|exact (Or x eq_refl)]]|intros ? []]. }
      set (alloc := fun p => allocator_run ly (rq_spatial rq) mt tops p nodes).
      destruct (loma_run_spec alloc V (fun p e _ => Hout p e)) as (H1 & H2 & _ & H4). destruct (loma_run alloc V) as (found & e). cbn [fst snd] in *.
      exists found, e. split; [reflexivity|].
      assert (Hin : forall tm, In tm found -> exists p, In p V /\ allocator_run ly (rq_spatial rq) mt tops p nodes = Ok tm).
      { intros tm I. rewrite H1 in I. apply in_flat_map in I. destruct I as (p & Ip & It). exists p. split; [exact Ip|]. unfold alloc in It. destruct (allocator_run ly (rq_spatial rq) mt tops p nodes); [destruct It as [->|[]]; reflexivity|destruct It]. }
      split.
      + destruct found as [|tm found]; [right|left].
        * split; [reflexivity|]. destruct e as [e|]; [exists e; rewrite (H4 e eq_refl); split; [reflexivity|left; now left]|].
          destruct (proj1 H2 eq_refl) as (p & m & Ip & Ep). exfalso. assert (I : In m []); [|destruct I]. rewrite H1. apply in_flat_map. exists p. split; [exact Ip|]. rewrite Ep. now left.
        * split; [discriminate|]. apply H2. destruct (Hin tm (or_introl eq_refl)) as (p & Ip & Ep). now exists p, tm.
      + intros tm I. destruct (Hin tm I) as (p & Ip & Ep). destruct (Vr V eq_refl p Ip) as (Pp & Fo). destruct (Fits lpfs p tm Hl Pp Ep) as (Va & Co). split; [exact Va|]. now exists p.
  Qed.
End Given.
