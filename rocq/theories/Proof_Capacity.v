(** Proofs for C19. *)
From Coq Require Import QArith Lqa.
From Verif Require Import Base Model_SpatialMap Spec_SpatialMap Proof_SpatialMap Proof_AllocSearch
  Model_Generation Spec_Generation Proof_Bandwidth.
Local Open Scope result_scope.
Local Open Scope Q_scope.

Lemma whole1_ge q : whole1 q -> 1 <= q.
Proof. intros (k & Hk & ->). change 1 with (inject_Z 1). now apply inject_Z_le_iff. Qed.
Lemma whole1_eq q q' : q == q' -> whole1 q -> whole1 q'.
Proof. intros E (k & Hk & H). exists k. split; [easy|]. now rewrite <- E. Qed.
Lemma whole1_gt a b : whole1 a -> whole1 b -> a < b -> a + 1 <= b.
Proof.
  intros (j & Hj & ->) (k & Hk & ->) H. apply (proj1 (inject_Z_lt_iff _ _)) in H.
  change 1 with (inject_Z 1). rewrite <- inject_Z_plus. apply inject_Z_le_iff. lia.
Qed.
Lemma whole1_pred q : whole1 q -> 2 <= q -> whole1 (q - 1).
Proof.
  intros (k & Hk & E) H. rewrite E in H. change 2 with (inject_Z 2) in H. apply (proj1 (inject_Z_le_iff _ _)) in H.
  exists (k - 1)%Z. split; [lia|]. rewrite E. unfold Z.sub. now rewrite inject_Z_plus.
Qed.
Lemma whole1_one : whole1 1. Proof. exists 1%Z. split; [lia|reflexivity]. Qed.

(** * Adjusting the factors *)
Definition downto (o n : Q) : Prop := n <= o /\ whole1 n.

Lemma qprod_all_one l : (forall x, In x l -> x == 1) -> qprod l == 1.
Proof. induction l as [|x l IH]; intros H; [reflexivity|]. rewrite qprod_cons. assert (E : x == 1) by (apply H; now left). rewrite E, IH by (intros; apply H; now right). lra. Qed.

Lemma qmax_list_some l : l <> [] -> exists m, qmax_list l = Some m.
Proof. destruct l as [|x l]; [easy|]. cbn [qmax_list]. destruct (qmax_list l); eauto. Qed.

Lemma dec_first_spec mx l : In mx l -> (forall x, In x l -> x <= mx) -> (forall x, In x l -> whole1 x) -> 2 <= mx ->
  Forall2 downto l (dec_first mx l) /\ qsum (dec_first mx l) == qsum l - 1 /\ (forall x, In x (dec_first mx l) -> whole1 x).
Proof.
  induction l as [|x l IH]; intros Hi Hm Hw H2; [easy|]. cbn [dec_first].
  destruct (Qeq_bool x mx) eqn:E.
  - apply Qeq_bool_iff in E. split; [|split].
    + constructor; [split; [lra|]|].
      * apply whole1_pred; [apply Hw; now left|lra].
      * apply Forall2_refl_in. intros y Hy. split; [lra|apply Hw; now right].
    + rewrite !qsum_cons. lra.
    + intros y [<-|Hy]; [|apply Hw; now right]. apply whole1_pred; [apply Hw; now left|lra].
  - assert (Hne : ~ x == mx) by (intros H; apply Qeq_bool_iff in H; congruence).
    destruct Hi as [->|Hi]; [now destruct Hne|].
    destruct IH as (I1 & I2 & I3); [exact Hi|intros; apply Hm; now right|intros; apply Hw; now right|exact H2|].
    split; [|split].
    + constructor; [split; [lra|apply Hw; now left]|exact I1].
    + rewrite !qsum_cons, I2. lra.
    + intros y [<-|Hy]; [apply Hw; now left|now apply I3].
Qed.

Lemma qsum_ceil_pos x l : (forall y, In y (x :: l) -> whole1 y) -> (0 < Qceiling (qsum (x :: l)))%Z.
Proof.
  intros Hw. assert (0 < qsum (x :: l)).
  { rewrite qsum_cons. assert (1 <= x) by (apply whole1_ge, Hw; now left).
    assert (0 <= qsum l); [|lra]. apply qsum_nonneg. intros y Hy. assert (1 <= y) by (apply whole1_ge, Hw; now right). lra. }
  destruct (Qceiling_bounds (qsum (x :: l))) as [Hc _].
  apply (proj1 (inject_Z_lt_iff _ _)). change (inject_Z 0) with 0. lra.
Qed.

Lemma downto_trans a b c : downto a b -> downto b c -> downto a c.
Proof. intros [H1 H2] [H3 H4]. split; [lra|easy]. Qed.

Lemma adjust_ok limit : 1 <= limit -> forall fuel l, (forall x, In x l -> whole1 x) -> (Qceiling (qsum l) <= Z.of_nat fuel)%Z ->
  exists l', adjust fuel limit l = Ok l' /\ Forall2 downto l l' /\ qprod l' <= limit.
Proof.
  intros Hl. induction fuel as [|f IH]; intros l Hw Hf.
  - destruct l as [|x l]; [|apply qsum_ceil_pos in Hw; lia]. cbn [adjust].
    destruct (qgt_spec (qprod []) limit) as [H|H]; [unfold qprod in H; cbn in H; lra|].
    exists []. split; [reflexivity|]. split; [constructor|unfold qprod; cbn; lra].
  - cbn [adjust]. destruct (qgt_spec (qprod l) limit) as [H|H].
    2: { exists l. split; [reflexivity|]. split; [|lra]. apply Forall2_refl_in. intros x Hx. split; [lra|now apply Hw]. }
    destruct (qmax_list_some l) as (mx & Em); [intros ->; unfold qprod in H; cbn in H; lra|].
    rewrite Em. cbn [of_option rbind]. apply qmax_list_spec in Em as [Hin Hmax].
    assert (H2 : 2 <= mx).
    { destruct (Qlt_le_dec mx 2) as [Hlt|]; [|easy]. exfalso.
      assert (qprod l == 1); [|lra]. apply qprod_all_one. intros x Hx. assert (Hx1 := whole1_ge _ (Hw _ Hx)).
      assert (Hxm := Hmax _ Hx). destruct (Qlt_le_dec 1 x) as [Hgt|]; [|lra].
      assert (1 + 1 <= x) by (apply whole1_gt; [apply whole1_one|now apply Hw|easy]). lra. }
    destruct (dec_first_spec mx l Hin Hmax Hw H2) as (D1 & D2 & D3).
    destruct (IH (dec_first mx l)) as (l' & E & F & P); [exact D3| |].
    { assert (E : Qceiling (qsum (dec_first mx l)) = (Qceiling (qsum l) - 1)%Z); [|lia].
      rewrite (Qceiling_comp _ _ D2). apply Z.le_antisymm.
      - assert (Qceiling (qsum l - 1) < Qceiling (qsum l))%Z; [|lia]. apply (proj1 (inject_Z_lt_iff _ _)).
        destruct (Qceiling_bounds (qsum l - 1)) as [_ Ha]. destruct (Qceiling_bounds (qsum l)) as [Hb _]. lra.
      - destruct (Qceiling_bounds (qsum l - 1)) as [Ha _]. destruct (Qceiling_bounds (qsum l)) as [_ Hb].
        assert (Qceiling (qsum l) < Qceiling (qsum l - 1) + 1 + 1)%Z; [|lia]. apply (proj1 (inject_Z_lt_iff _ _)).
        rewrite !inject_Z_plus. change (inject_Z 1) with 1. lra. }
    exists l'. split; [exact E|]. split; [|exact P]. revert D1 F. apply Forall2_trans_gen. apply downto_trans.
Qed.

(** * The map from old to new factors *)
Lemma factor_map_in olds news x v : factor_map olds news x = Some v ->
  exists o, In (o, v) (combine olds news) /\ o == x.
Proof.
  revert news. induction olds as [|o olds IH]; intros [|n news]; cbn [factor_map combine]; try discriminate.
  destruct (factor_map olds news x) as [w|] eqn:E.
  - intros [= ->]. destruct (IH _ E) as (o' & H & H'). exists o'. split; [now right|easy].
  - destruct (Qeq_bool o x) eqn:Eo; [|discriminate]. intros [= ->]. apply Qeq_bool_iff in Eo. exists o. split; [now left|easy].
Qed.
Lemma factor_map_some olds news x : length olds = length news -> In x olds -> exists v, factor_map olds news x = Some v.
Proof.
  revert news. induction olds as [|o olds IH]; intros [|n news] Hl Hi; try easy. cbn [factor_map].
  destruct (factor_map olds news x) as [w|] eqn:E; [eauto|]. destruct Hi as [->|Hi].
  - replace (Qeq_bool x x) with true by (symmetry; now apply Qeq_bool_iff). eauto.
  - destruct (IH news) as (v & Ev); [now injection Hl|easy|congruence].
Qed.
Lemma combine_Forall2 {A B} (R : A -> B -> Prop) l l' a b : Forall2 R l l' -> In (a, b) (combine l l') -> R a b.
Proof. induction 1 as [|x y l l' H F IH]; intros Hi; [easy|]. destruct Hi as [[= -> ->]|Hi]; [easy|now apply IH]. Qed.

(** With distinct factors the map sends each to its own new factor. *)
Lemma factor_map_distinct olds news : Forall2 downto olds news -> (forall x, In x olds -> whole1 x) -> distinct_factors olds ->
  Forall2 (fun o n => exists v, factor_map olds news o = Some v /\ v == n) olds news.
Proof.
  assert (Hgen : forall pre npre olds news, Forall2 downto pre npre -> Forall2 downto olds news ->
    distinct_factors olds -> (forall x, In x olds -> whole1 x) ->
    Forall2 (fun o n => exists v, factor_map olds news o = Some v /\ v == n) olds news).
  { intros _ _ os ns _. induction 1 as [|o n os ns Hd F IH]; intros Hdis Hw; constructor.
    - cbn [factor_map]. inversion Hdis as [|? ? H1 H2]; subst.
      destruct (factor_map os ns o) as [w|] eqn:E.
      + exists w. split; [easy|]. apply factor_map_in in E as (o' & Hi & Ho').
        assert (Hin := in_combine_l _ _ _ _ Hi). rewrite Forall_forall in H1. assert (Heq := H1 _ Hin (Qeq_sym _ _ Ho')).
        assert (Hdd := combine_Forall2 _ _ _ _ _ F Hi). destruct Hdd as [Ha Hb]. destruct Hd as [Hc Hd'].
        apply whole1_ge in Hb, Hd'. lra.
      + exists n. replace (Qeq_bool o o) with true by (symmetry; now apply Qeq_bool_iff). easy.
    - inversion Hdis as [|? ? H1 H2]; subst.
      assert (IH' := IH H2 (fun x Hx => Hw x (or_intror Hx))).
      revert IH'. apply F2_impl. intros a b (v & E & Hv). exists v. split; [|easy]. cbn [factor_map]. now rewrite E. }
  intros F Hw Hd. now apply (Hgen [] []).
Qed.

(** * Collecting the factors *)
Lemma collect_one d (sm : dict string (dict string Q)) : (forall o m, In (o, m) sm -> NoDup (keys m)) ->
  concat (map (fun om => match dget d (snd om) with Some u => [u] | None => [] end) sm) =
  map snd (filter (fun du => eqb (fst du) d) (flatten_unrollings sm)).
Proof.
  unfold flatten_unrollings. induction sm as [|[o m] sm IH]; intros Hn; [reflexivity|].
  change (values ((o, m) :: sm)) with (m :: values sm). cbn [map concat snd]. rewrite filter_app, map_app, IH by (intros o' m' Hi; apply (Hn o'); now right).
  f_equal. assert (Hm : NoDup (keys m)) by (apply (Hn o); now left). clear - Hm.
  induction m as [|[k v] m IH]; [reflexivity|]. inversion Hm as [|? ? Hk Hm']; subst. cbn [dget filter fst].
  destruct (eqb_spec k d) as [->|Hne].
  - rewrite eqb_refl. cbn [map snd]. f_equal. symmetry.
    replace (filter (fun du => eqb (fst du) d) m) with (@nil (string * Q)); [reflexivity|]. symmetry.
    clear - Hk. induction m as [|[k v] m IH]; [reflexivity|]. cbn [filter fst]. rewrite (eqb_neq k d); [apply IH; intros H; apply Hk; now right|intros ->; apply Hk; now left].
  - rewrite (eqb_neq d k) by congruence. now apply IH.
Qed.

Lemma filter_split {A} (f g : A -> bool) l : (forall x, In x l -> f x = true -> g x = true -> False) ->
  Permutation (filter (fun x => f x || g x)%bool l) (filter f l ++ filter g l).
Proof.
  induction l as [|x l IH]; intros H; [constructor|]. cbn [filter].
  assert (IH' := IH (fun y Hy => H y (or_intror Hy))).
  destruct (f x) eqn:Ef, (g x) eqn:Eg; cbn [orb].
  - destruct (H x (or_introl eq_refl) Ef Eg).
  - cbn [app]. now constructor.
  - now apply Permutation_cons_app.
  - exact IH'.
Qed.

Lemma collect_perm ds (sm : dict string (dict string Q)) : NoDup ds -> (forall o m, In (o, m) sm -> NoDup (keys m)) ->
  Permutation (collect_factors ds sm) (map snd (filter (fun du => memb (fst du) ds) (flatten_unrollings sm))).
Proof.
  intros Hds Hn. unfold collect_factors. induction ds as [|d ds IH].
  - cbn [map concat]. replace (filter (fun du => memb (fst du) []) (flatten_unrollings sm)) with (@nil (string * Q)); [constructor|].
    symmetry. induction (flatten_unrollings sm) as [|x l IH]; [reflexivity|exact IH].
  - inversion Hds as [|? ? H1 H2]; subst. cbn [map concat]. rewrite collect_one by exact Hn.
    etransitivity; [apply Permutation_app_head, IH, H2|]. rewrite <- map_app. apply Permutation_map. symmetry.
    etransitivity; [|apply filter_split].
    + apply Permutation_refl'. apply filter_ext. intros x. reflexivity.
    + intros x _ Ha Hb. apply memb_In in Hb. destruct (eqb_spec (fst x) d); [congruence|discriminate].
Qed.

(** * Lowered mappings *)
Lemma lowered_oa_refl m : (forall d u, In (d, u) m -> whole1 u) -> lowered_oa m m.
Proof. intros H. apply Forall2_refl_in. intros [d u] Hi. split; [easy|]. split; [lra|]. now apply (H d). Qed.
Lemma lowered_refl sm : sm_whole sm -> lowered sm sm.
Proof. intros H. apply Forall2_refl_in. intros [o m] Hi. split; [easy|]. apply lowered_oa_refl. intros d u. now apply (H o). Qed.
Lemma lowered_oa_trans a b c : lowered_oa a b -> lowered_oa b c -> lowered_oa a c.
Proof. apply Forall2_trans_gen. intros x y z (A & B & C) (D & E & F). split; [congruence|]. split; [lra|easy]. Qed.
Lemma lowered_trans a b c : lowered a b -> lowered b c -> lowered a c.
Proof. apply Forall2_trans_gen. intros x y z (A & B) (D & E). split; [congruence|]. eapply lowered_oa_trans; eassumption. Qed.
Lemma lowered_keys sm sm' : lowered sm sm' -> keys sm' = keys sm.
Proof. induction 1 as [|[o x] [o' x'] m m' [H _] F IH]; [reflexivity|]. unfold keys in *. cbn [map fst] in *. now rewrite H, IH. Qed.
Lemma lowered_oa_keys m m' : lowered_oa m m' -> keys m' = keys m.
Proof. induction 1 as [|[o x] [o' x'] m m' [H _] F IH]; [reflexivity|]. unfold keys in *. cbn [map fst] in *. now rewrite H, IH. Qed.
Lemma lowered_whole sm sm' : lowered sm sm' -> sm_whole sm'.
Proof.
  intros H o m d u Ho Hd. apply (Forall2_in_r _ _ _ _ H) in Ho as ([o1 m1] & _ & _ & Hm).
  apply (Forall2_in_r _ _ _ _ Hm) in Hd as (x & _ & _ & _ & Hw). exact Hw.
Qed.
Lemma lowered_dicts sm sm' : lowered sm sm' -> dicts sm -> dicts sm'.
Proof.
  intros H [H1 H2]. split; [now rewrite (lowered_keys _ _ H)|]. intros o m Hi.
  apply (Forall2_in_r _ _ _ _ H) in Hi as ([o1 m1] & Hi & _ & Hm). cbn in Hm. rewrite (lowered_oa_keys _ _ Hm). now apply (H2 o1).
Qed.
Lemma lowered_dget sm sm' o m : lowered sm sm' -> dget o sm = Some m -> exists m', dget o sm' = Some m' /\ lowered_oa m m'.
Proof.
  induction 1 as [|[o1 x] [o2 x'] sm sm' [H1 H2] F IH]; [discriminate|]. cbn [fst snd dget] in *. subst o2.
  destruct (eqb_spec o o1); [intros [= <-]; eauto|exact IH].
Qed.
Lemma lowered_oa_prod (f : string -> bool) m m' : lowered_oa m m' ->
  1 <= qprod (map snd (filter (fun du => f (fst du)) m')) /\
  qprod (map snd (filter (fun du => f (fst du)) m')) <= qprod (map snd (filter (fun du => f (fst du)) m)).
Proof.
  induction 1 as [|[d u] [d' u'] m m' (H1 & H2 & H3) F [IH1 IH2]]; [unfold qprod; cbn; lra|].
  cbn [fst snd filter] in *. subst d'. destruct (f d); [|easy]. cbn [map snd]. rewrite !qprod_cons. apply whole1_ge in H3. nra.
Qed.

Lemma asked_cons o served ir sm : asked (o :: served) ir sm =
  (match dget o sm with None => [] | Some m => map snd (filter (fun du => negb (memb (fst du) ir)) m) end ++ asked served ir sm)%list.
Proof. reflexivity. Qed.
Lemma asked_lowered served ir sm sm' : lowered sm sm' -> (forall o, In o served -> In o (keys sm)) ->
  1 <= qprod (asked served ir sm') /\ qprod (asked served ir sm') <= qprod (asked served ir sm).
Proof.
  intros H. induction served as [|o served IH]; intros Hk; [unfold qprod; cbn; lra|].
  rewrite !asked_cons. destruct (key_dget o sm) as (m & Em); [apply Hk; now left|].
  destruct (lowered_dget _ _ _ _ H Em) as (m' & Em' & Hm). rewrite Em, Em', !qprod_app.
  destruct (lowered_oa_prod (fun d => negb (memb d ir)) m m' Hm) as [A1 A2].
  destruct IH as [B1 B2]; [intros; apply Hk; now right|]. nra.
Qed.

(** * One memory operand *)
Section Cap.
  Variable layer : gen_layer.
  Variable dim_order : list string -> list string.
  Hypothesis Hord : orders dim_order.

  Lemma served_ok (served : list string) (mapping : dict string (dict string Q)) : (forall o, In o served -> In o (keys mapping)) ->
    exists sv, rmap (fun oa => m <- dgetr oa mapping ;; Ok (oa, m)) served = Ok sv /\
      keys sv = served /\ (forall o m, In (o, m) sv -> dget o mapping = Some m) /\
      forall ir, map snd (relevant ir sv) = asked served ir mapping.
  Proof.
    induction served as [|o served IH]; intros Hk.
    - exists []. split; [reflexivity|]. split; [reflexivity|]. split; [easy|reflexivity].
    - destruct (key_dget o mapping) as (m & Em); [apply Hk; now left|].
      destruct IH as (sv & E & K & G & A); [intros; apply Hk; now right|].
      exists ((o, m) :: sv). cbn [rmap]. unfold dgetr at 1. rewrite Em. cbn [of_option rbind]. rewrite E. cbn [rbind].
      split; [reflexivity|]. split; [unfold keys in *; cbn; now rewrite K|]. split.
      + intros o' m' [[= <- <-]|Hi]; [easy|now apply G].
      + intros ir. rewrite asked_cons, Em, <- A. unfold relevant, flatten_unrollings.
        change (values ((o, m) :: sv)) with (m :: values sv). cbn [concat]. now rewrite filter_app, map_app.
  Qed.

  Lemma apply_factors_ok dims olds news m : Forall2 downto olds news ->
    (forall d u, In (d, u) m -> In d dims -> In u olds) -> (forall d u, In (d, u) m -> whole1 u) ->
    exists m', apply_factors dims olds news m = Ok m' /\ lowered_oa m m' /\
      Forall2 (fun du du' => if memb (fst du) dims then factor_map olds news (snd du) = Some (snd du') else snd du' = snd du) m m'.
  Proof.
    intros F. unfold apply_factors. induction m as [|[d u] m IH]; intros Ho Hw.
    - exists []. split; [reflexivity|]. split; constructor.
    - destruct IH as (m' & E & L & G); [intros; eapply Ho; [right; eassumption|easy]|intros; eapply Hw; right; eassumption|].
      cbn [rmap fst snd]. destruct (memb d dims) eqn:Ed.
      + apply memb_In in Ed. destruct (factor_map_some olds news u) as (v & Ev).
        { clear - F. induction F; cbn; congruence. }
        { apply (Ho d); [now left|easy]. }
        rewrite Ev. cbn [of_option rbind]. rewrite E. cbn [rbind]. exists ((d, v) :: m'). split; [reflexivity|].
        assert (Hdv : downto u v).
        { apply factor_map_in in Ev as (o & Hi & Heq). apply (combine_Forall2 _ _ _ _ _ F) in Hi as [H1 H2]. split; [lra|easy]. }
        destruct Hdv. split; constructor; [easy|exact L| |exact G]. cbn [fst snd]. replace (memb d dims) with true by (symmetry; now apply memb_In). exact Ev.
      + cbn [rbind]. rewrite E. cbn [rbind]. exists ((d, u) :: m'). split; [reflexivity|]. split; constructor; [|exact L| |exact G].
        * split; [easy|]. split; [cbn; lra|]. cbn. apply (Hw d). now left.
        * cbn [fst snd]. now rewrite Ed.
  Qed.

  (** Storing the limited array dimensions *)
  Lemma fold_dset_other o (l mp : dict string (dict string Q)) : ~ In o (keys l) ->
    dget o (fold_left (fun mp om => dset (fst om) (snd om) mp) l mp) = dget o mp.
  Proof.
    revert mp. induction l as [|[k v] l IH]; intros mp Hn; [reflexivity|]. cbn [fold_left fst snd].
    rewrite IH by (intros Hi; apply Hn; now right). apply dget_dset_neq. intros ->. apply Hn. now left.
  Qed.
  Lemma fold_dset_lowered (limited mapping : dict string (dict string Q)) : NoDup (keys mapping) -> sm_whole mapping ->
    NoDup (keys limited) ->
    (forall o m', In (o, m') limited -> exists m, dget o mapping = Some m /\ lowered_oa m m') ->
    lowered mapping (fold_left (fun mp om => dset (fst om) (snd om) mp) limited mapping) /\
    forall o m', In (o, m') limited -> dget o (fold_left (fun mp om => dset (fst om) (snd om) mp) limited mapping) = Some m'.
  Proof.
    revert mapping. induction limited as [|[o m'] limited IH]; intros mapping Hnd Hw Hl H.
    - split; [now apply lowered_refl|easy].
    - cbn [fold_left fst snd]. inversion Hl as [|? ? Hl1 Hl2]; subst.
      destruct (H o m' (or_introl eq_refl)) as (m & Em & Lm).
      assert (L1 : lowered mapping (dset o m' mapping)).
      { apply (dset_Forall2 _ o m m'); [exact Hnd|exact Em| |split; [easy|exact Lm]].
        intros o' x Hi Hne. split; [easy|]. apply lowered_oa_refl. intros d u. now apply (Hw o'). }
      destruct (IH (dset o m' mapping)) as [I1 I2].
      + now rewrite (lowered_keys _ _ L1).
      + now apply (lowered_whole mapping).
      + exact Hl2.
      + intros o1 m1 Hi. destruct (H o1 m1 (or_intror Hi)) as (m2 & E2 & L2). exists m2. split; [|exact L2].
        rewrite dget_dset_neq; [exact E2|]. intros ->. apply Hl1. now apply (in_map fst) in Hi.
      + split; [eapply lowered_trans; eassumption|]. intros o1 m1 [[= <- <-]|Hi]; [|now apply I2].
        rewrite fold_dset_other by exact Hl1. apply dget_dset_eq.
  Qed.

  Lemma orders_In l d : In d (dim_order l) <-> In d l.
  Proof. split; intros H; [exact (Permutation_in _ (Permutation_sym (Hord l)) H)|exact (Permutation_in _ (Hord l) H)]. Qed.

  Lemma qprod_map_eq {A} (f g : A -> Q) l : (forall x, In x l -> f x == g x) -> qprod (map f l) == qprod (map g l).
  Proof. induction l as [|x l IH]; intros H; [reflexivity|]. cbn [map]. rewrite !qprod_cons. assert (E : f x == g x) by (apply H; now left). rewrite E, IH by (intros; apply H; now right). reflexivity. Qed.

  Lemma distinct_perm l l' : Permutation l l' -> distinct_factors l -> distinct_factors l'.
  Proof.
    unfold distinct_factors. induction 1 as [|x l l' P IH|x y l|l1 l2 l3 P1 IH1 P2 IH2]; intros H; [constructor| | |auto].
    - inversion H as [|? ? H1 H2]; subst. constructor; [|now apply IH].
      rewrite Forall_forall in *. intros z Hz. apply H1. now apply (Permutation_in _ (Permutation_sym P)).
    - inversion H as [|? ? H1 H2]; subst. inversion H2 as [|? ? H3 H4]; subst. inversion H1 as [|? ? H5 H6]; subst.
      constructor; [|constructor; [exact H6|exact H4]]. constructor; [|exact H3].
      intros E. assert (H7 := H5 (Qeq_sym _ _ E)). lra.
  Qed.

  Theorem limit_op_ok mem mop lop prec ir mapping : used_by layer mem mop lop prec ir ->
    (prec <= im_size mem)%Z -> NoDup (im_served mem) -> (forall o, In o (im_served mem) -> In o (keys mapping)) ->
    dicts mapping -> sm_whole mapping ->
    exists sm', limit_op_cap layer dim_order mem mapping mop = Ok sm' /\ lowered mapping sm' /\
      ((0 < prec)%Z -> distinct_factors (asked (im_served mem) ir mapping) ->
         qprod (asked (im_served mem) ir sm') * inject_Z prec <= inject_Z (im_size mem)) /\
      (qprod (asked (im_served mem) ir mapping) * inject_Z prec <= inject_Z (im_size mem) -> sm' = mapping) /\
      (forall o d u, unrolled mapping o d u -> ~ In o (im_served mem) \/ In d ir -> unrolled sm' o d u).
  Proof.
    intros [U1 U2 U3 U4] Hcap Hsn Hsk Hd Hw. unfold limit_op_cap, dgetr at 1 2 3. rewrite U2. cbn [of_option rbind]. rewrite U3, U4. cbn [of_option rbind].
    destruct (served_ok (im_served mem) mapping Hsk) as (sv & Esv & Ksv & Gsv & Asv). rewrite Esv. cbn [rbind].
    destruct (Z.ltb_spec 0 prec) as [Hp|Hp].
    2: { exists mapping. split; [reflexivity|]. split; [now apply lowered_refl|]. split; [lia|]. split; [reflexivity|easy]. }
    rewrite Asv. set (limit := inject_Z (im_size mem) / inject_Z prec).
    assert (Hpq : 0 < inject_Z prec) by (change 0 with (inject_Z 0); now apply inject_Z_lt_iff).
    assert (Hlp : limit * inject_Z prec == inject_Z (im_size mem)) by (unfold limit; field; lra).
    assert (Hcq : inject_Z prec <= inject_Z (im_size mem)) by now apply inject_Z_le_iff.
    clearbody limit.
    destruct (qgt_spec (qprod (asked (im_served mem) ir mapping)) limit) as [Hgt|Hle].
    2: { exists mapping. split; [reflexivity|]. split; [now apply lowered_refl|]. split; [intros _ _; nra|]. split; [reflexivity|easy]. }
    assert (Hl1 : 1 <= limit) by nra.
    set (dims := nodup string_dec (map fst (relevant ir sv))).
    assert (Hdims : forall o m d u, In (o, m) sv -> In (d, u) m -> In d dims <-> ~ In d ir).
    { intros o m d u Ho Hdu. unfold dims. rewrite nodup_In, in_map_iff. split.
      - intros ([d' u'] & <- & Hr). apply filter_In in Hr as [_ Hr]. cbn in Hr. apply negb_true_iff in Hr. now apply memb_not_In.
      - intros Hn. exists (d, u). split; [reflexivity|]. apply filter_In. split.
        + apply in_concat. exists m. split; [|easy]. apply in_map_iff. now exists (o, m).
        + cbn. apply negb_true_iff. now apply memb_not_In. }
    assert (Hsvn : forall o m, In (o, m) sv -> NoDup (keys m)).
    { intros o m Hi. apply Gsv in Hi. apply dget_In in Hi. now apply (proj2 Hd o). }
    assert (Hsvw : forall o m d u, In (o, m) sv -> In (d, u) m -> whole1 u).
    { intros o m d u Ho Hdu. apply Gsv in Ho. apply dget_In in Ho. now apply (Hw o m d u). }
    assert (Hdn : NoDup (dim_order dims)) by (apply (Permutation_NoDup (Hord dims)); apply NoDup_nodup).
    set (olds := collect_factors (dim_order dims) sv).
    assert (Hperm : Permutation olds (asked (im_served mem) ir mapping)).
    { unfold olds. rewrite <- Asv. etransitivity; [apply collect_perm; [exact Hdn|exact Hsvn]|]. apply Permutation_map, Permutation_refl'.
      unfold relevant. apply filter_ext_in. intros [d u] Hi. cbn [fst].
      unfold flatten_unrollings in Hi. apply in_concat in Hi as (m & Hm & Hi). apply in_map_iff in Hm as ([o m'] & <- & Hm). cbn [snd] in Hi.
      destruct (memb d ir) eqn:E1; cbn [negb].
      - apply memb_not_In. intros H. apply (proj1 (orders_In _ _)) in H. apply (Hdims o m' d u Hm Hi) in H. apply H. now apply memb_In.
      - apply memb_In. apply (proj2 (orders_In _ _)). apply (Hdims o m' d u Hm Hi). now apply memb_not_In. }
    assert (Howhole : forall x, In x olds -> whole1 x).
    { intros x Hx. apply (Permutation_in _ Hperm) in Hx. unfold asked in Hx. apply in_flat_map in Hx as (o & Ho & Hx).
      destruct (dget o mapping) as [m|] eqn:Em; [|easy]. apply in_map_iff in Hx as ([d u] & <- & Hx). apply filter_In in Hx as [Hx _].
      apply dget_In in Em. now apply (Hw o m d u). }
    assert (Hin : forall o m d u, In (o, m) sv -> In (d, u) m -> In d dims -> In u olds).
    { intros o m d u Ho Hdu Hdd. apply (Permutation_in _ (Permutation_sym Hperm)). rewrite <- Asv. apply in_map_iff. exists (d, u).
      split; [reflexivity|]. apply filter_In. split; [apply in_concat; exists m; split; [apply in_map_iff; now exists (o, m)|easy]|].
      cbn. apply negb_true_iff, memb_not_In. now apply (Hdims o m d u). }
    unfold limit_loop_unrolling. fold dims. fold olds.
    destruct (adjust_ok limit Hl1 (adjust_fuel olds) olds Howhole) as (news & En & Fn & Pn).
    { unfold adjust_fuel. lia. }
    rewrite En. cbn [rbind]. clearbody olds. clearbody dims.
    assert (Hlim : exists lim, rmap (fun om => m <- apply_factors dims olds news (snd om) ;; Ok (fst om, m)) sv = Ok lim /\
      Forall2 (fun om om' => fst om' = fst om /\ lowered_oa (snd om) (snd om') /\
        Forall2 (fun du du' => if memb (fst du) dims then factor_map olds news (snd du) = Some (snd du') else snd du' = snd du) (snd om) (snd om')) sv lim).
    { clear - Hin Hsvw Fn. induction sv as [|[o m] sv IH]; [exists []; split; [reflexivity|constructor]|].
      destruct (apply_factors_ok dims olds news m Fn) as (m' & E & L & G).
      { intros d u Hi. apply (Hin o m d u); [now left|easy]. }
      { intros d u Hi. apply (Hsvw o m d u); [now left|easy]. }
      destruct IH as (lim & E' & L'); [intros; eapply Hsvw; [right; eassumption|eassumption]|intros; eapply Hin; [right; eassumption|eassumption..]|].
      exists ((o, m') :: lim). cbn [rmap fst snd]. rewrite E. cbn [rbind]. rewrite E'. cbn [rbind]. split; [reflexivity|]. constructor; [easy|exact L']. }
    destruct Hlim as (lim & El & Fl). rewrite El. cbn [rbind].
    assert (Klim : keys lim = im_served mem).
    { rewrite <- Ksv. clear - Fl. induction Fl as [|[o x] [o' x'] m m' [H _] F IH]; [reflexivity|]. unfold keys in *. cbn [map fst] in *. now rewrite H, IH. }
    destruct (fold_dset_lowered lim mapping) as [L1 L2].
    { apply Hd. } { exact Hw. } { now rewrite Klim. }
    { intros o m' Hi. destruct (Forall2_in_r _ _ _ _ Fl Hi) as ([o1 m1] & Hi1 & H1 & H2 & _). cbn in H1, H2. subst o1. exists m1. split; [now apply Gsv|easy]. }
    assert (L3 : forall o, ~ In o (im_served mem) -> dget o (fold_left (fun mp om => dset (fst om) (snd om) mp) lim mapping) = dget o mapping)
      by (intros; apply fold_dset_other; now rewrite Klim).
    set (sm' := fold_left _ lim mapping) in *. clearbody sm'.
    exists sm'. split; [reflexivity|]. split; [exact L1|]. split; [|split; [intros; exfalso; nra|]].
    - intros _ Hdist. assert (Hdo : distinct_factors olds) by (apply (distinct_perm _ _ (Permutation_sym Hperm)); exact Hdist).
      assert (Hfm := factor_map_distinct olds news Fn Howhole Hdo).
      set (F := fun x => match factor_map olds news x with Some v => v | None => x end).
      assert (Hnew : qprod news == qprod (map F olds)).
      { clear - Hfm. unfold F. clear F. revert Hfm. generalize (factor_map olds news). intros g Hfm.
        induction Hfm as [|o n os ns (v & E & Hv) Fr IH]; [reflexivity|]. cbn [map]. rewrite !qprod_cons, IH, E, Hv. reflexivity. }
      assert (Hask : asked (im_served mem) ir sm' = map F (asked (im_served mem) ir mapping)).
      { rewrite <- Asv, <- Klim. unfold relevant, flatten_unrollings. revert L2. clear - Fl Hdims. intros L2.
        induction Fl as [|[o m] [o' m'] sv lim (H1 & H2 & H3) Fr IH]; [reflexivity|]. cbn [fst snd] in *. subst o'.
        change (keys ((o, m') :: lim)) with (o :: keys lim). change (values ((o, m) :: sv)) with (m :: values sv). cbn [concat].
        rewrite asked_cons, (L2 o m' (or_introl eq_refl)), filter_app, !map_app, IH.
        - f_equal. assert (Hm : forall d u, In (d, u) m -> In d dims <-> ~ In d ir) by (intros d u; apply (Hdims o m d u); now left).
          clear - H2 H3 Hm. revert m' H2 H3. induction m as [|[d u] m IHm]; intros m' H2 H3; inversion H2 as [|? [d' u'] ? ? (A & B & C) Fr2]; subst; [reflexivity|].
          inversion H3 as [|? ? ? ? G Fr3]; subst. cbn [fst snd] in *. subst d'. cbn [filter fst].
          destruct (memb d ir) eqn:Ei; cbn [negb map].
          + apply IHm; [intros; eapply Hm; right; eassumption|easy|easy].
          + cbn [snd]. f_equal.
            * unfold F. replace (memb d dims) with true in G; [now rewrite G|]. symmetry. apply memb_In, (Hm d u); [now left|now apply memb_not_In].
            * apply IHm; [intros; eapply Hm; right; eassumption|easy|easy].
        - intros; eapply Hdims; [right; eassumption|eassumption].
        - intros; apply L2; now right. }
      rewrite Hask, <- (qprod_perm _ _ (Permutation_map F Hperm)), <- Hnew. nra.
    - intros o d u (m & Em & Ed) Hcase.
      destruct (in_dec string_dec o (im_served mem)) as [Ho|Ho].
      + destruct Hcase as [?|Hir]; [easy|]. rewrite <- Klim in Ho. apply key_dget in Ho as (m' & Em').
        apply dget_In in Em'. exists m'. split; [now apply L2|].
        destruct (Forall2_in_r _ _ _ _ Fl Em') as ([o1 m1] & Hi1 & H1 & _ & H3). cbn in H1, H3. subst o1.
        assert (Hg := Gsv _ _ Hi1). assert (m1 = m) by congruence. subst m1.
        assert (Hnd : ~ In d dims) by (intros H; apply dget_In in Ed; apply (Hdims o m d u Hi1 Ed) in H; now apply H).
        assert (Hk : lowered_oa m m') by (destruct (Forall2_in_r _ _ _ _ Fl Em') as ([o2 m2] & Hi2 & H2 & H4 & _); cbn in H2, H4; subst o2; apply Gsv in Hi2; congruence).
        clear - Ed H3 Hnd Hk. revert m' Hk H3. induction m as [|[k v] m IH]; intros m' Hk H3; [discriminate|].
        inversion Hk as [|? [k' v'] ? ? (A & _ & _) Fr]; subst. inversion H3 as [|? ? ? ? G Fr3]; subst. cbn [fst snd] in *. subst k'. cbn [dget] in *.
        destruct (eqb_spec d k) as [->|Hne]; [|now apply IH]. injection Ed as ->.
        destruct (memb k dims) eqn:Em; [apply memb_In in Em; contradiction|]. now rewrite G.
      + exists m. split; [|exact Ed]. now rewrite L3.
  Qed.

  (** * All memory operands *)
  Definition capstep (sm : dict string (dict string Q)) (mo : inner_mem * string) := limit_op_cap layer dim_order (fst mo) sm (snd mo).

  Lemma limit_capacity_uses mems sm : limit_capacity layer dim_order mems sm = rfold capstep sm (uses mems).
  Proof. unfold limit_capacity. exact (rfold_uses (limit_op_cap layer dim_order) mems sm). Qed.

  Definition use_ok (oas : list string) (mo : inner_mem * string) : Prop :=
    NoDup (im_served (fst mo)) /\ (forall o, In o (im_served (fst mo)) -> In o oas) /\
    exists lop prec ir, used_by layer (fst mo) (snd mo) lop prec ir /\ (prec <= im_size (fst mo))%Z.

  Lemma uses_ok mems oas : mems_complete layer mems oas -> holds_one layer mems -> forall mo, In mo (uses mems) -> use_ok oas mo.
  Proof.
    intros Hc Hh [mem mop] Hi. apply in_uses in Hi as [H1 H2]. destruct (Hc mem H1) as (C1 & C2 & C3).
    destruct (C3 mop H2) as (lop & prec & ir & bw & U & _). split; [exact C1|]. split; [exact C2|].
    exists lop, prec, ir. split; [exact U|]. now apply (Hh mem mop lop prec ir).
  Qed.

  Lemma rfold_caps l : forall sm, (forall mo, In mo l -> use_ok (keys sm) mo) -> dicts sm -> sm_whole sm ->
    exists sm', rfold capstep sm l = Ok sm' /\ lowered sm sm' /\
      ((forall mem mop lop prec ir, In (mem, mop) l -> used_by layer mem mop lop prec ir ->
          qprod (asked (im_served mem) ir sm) * inject_Z prec <= inject_Z (im_size mem)) -> sm' = sm) /\
      (forall o d u, unrolled sm o d u ->
        (forall mem mop lop prec ir, In (mem, mop) l -> used_by layer mem mop lop prec ir -> ~ In o (im_served mem) \/ In d ir) ->
        unrolled sm' o d u).
  Proof.
    induction l as [|[mem mop] l IH]; intros sm Hu Hd Hw.
    - exists sm. split; [reflexivity|]. split; [now apply lowered_refl|]. split; [reflexivity|easy].
    - destruct (Hu _ (or_introl eq_refl)) as (U1 & U2 & lop & prec & ir & U & Hcap). cbn [fst snd] in *.
      destruct (limit_op_ok mem mop lop prec ir sm U Hcap U1 U2 Hd Hw) as (sm1 & E1 & L1 & _ & S1 & I1).
      destruct (IH sm1) as (sm2 & E2 & L2 & S2 & I2).
      + intros mo Hi. rewrite (lowered_keys _ _ L1). apply Hu. now right.
      + now apply (lowered_dicts sm).
      + now apply (lowered_whole sm).
      + exists sm2. cbn [rfold]. unfold capstep at 1. cbn [fst snd]. rewrite E1. cbn [rbind]. split; [exact E2|].
        split; [eapply lowered_trans; eassumption|]. split.
        * intros Hfit. assert (Es : sm1 = sm) by (apply S1; apply (Hfit mem mop lop prec ir); [now left|exact U]).
          subst sm1. apply S2. intros. eapply Hfit; [right; eassumption|eassumption].
        * intros o d u Hx Hn. apply I2; [|intros; eapply Hn; [right; eassumption|eassumption]].
          apply I1; [exact Hx|]. apply (Hn mem mop lop prec ir); [now left|exact U].
  Qed.

  Theorem limit_capacity_ok mems sm : mems_complete layer mems (keys sm) -> holds_one layer mems -> dicts sm -> sm_whole sm ->
    exists sm', limit_capacity layer dim_order mems sm = Ok sm' /\ lowered sm sm' /\
      ((forall mem mop lop prec ir, In mem mems -> used_by layer mem mop lop prec ir ->
          qprod (asked (im_served mem) ir sm) * inject_Z prec <= inject_Z (im_size mem)) -> sm' = sm) /\
      (forall o d u, unrolled sm o d u ->
        (forall mem mop lop prec ir, In mem mems -> used_by layer mem mop lop prec ir -> In o (im_served mem) -> In d ir) ->
        unrolled sm' o d u) /\
      (forall ms1 mem ms2 ops1 mop ops2 lop prec ir sm1,
        mems = (ms1 ++ mem :: ms2)%list -> im_operands mem = (ops1 ++ mop :: ops2)%list -> used_by layer mem mop lop prec ir -> (0 < prec)%Z ->
        limit_capacity layer dim_order (ms1 ++ [with_operands mem ops1]) sm = Ok sm1 ->
        distinct_factors (asked (im_served mem) ir sm1) ->
        qprod (asked (im_served mem) ir sm') * inject_Z prec <= inject_Z (im_size mem)).
  Proof.
    intros Hc Hh Hd Hw. assert (Hu := uses_ok mems _ Hc Hh).
    destruct (rfold_caps (uses mems) sm Hu Hd Hw) as (sm' & E & L & S & I).
    exists sm'. split; [now rewrite limit_capacity_uses|]. split; [exact L|]. split; [|split].
    - intros H. apply S. intros mem mop lop prec ir Hi. apply in_uses in Hi as [Hi _]. now apply H.
    - intros o d u Hx H. apply I; [exact Hx|]. intros mem mop lop prec ir Hi U. apply in_uses in Hi as [Hi _].
      destruct (in_dec string_dec o (im_served mem)); [right|now left]. now apply (H mem mop lop prec ir).
    - intros ms1 mem ms2 ops1 mop ops2 lop prec ir sm1 Em Eo U Hp E1 Hdist.
      assert (Euses : uses mems = ((uses ms1 ++ map (pair mem) ops1) ++ (mem, mop) :: map (pair mem) ops2 ++ uses ms2)%list).
      { subst mems. unfold uses. rewrite flat_map_app. cbn [flat_map]. rewrite Eo, map_app. cbn [map]. now rewrite <- !app_assoc. }
      assert (Epre : rfold capstep sm (uses ms1 ++ map (pair mem) ops1) = Ok sm1).
      { rewrite <- E1, limit_capacity_uses. unfold uses at 2. rewrite flat_map_app. cbn [flat_map]. rewrite app_nil_r, !rfold_app.
        fold (uses ms1). destruct (rfold capstep sm (uses ms1)) as [a|e]; [|reflexivity]. cbn [rbind im_operands with_operands].
        assert (G : forall ops a, rfold capstep a (map (pair mem) ops) = rfold capstep a (map (pair (with_operands mem ops1)) ops)).
        { clear. induction ops as [|op ops IH]; intros a; [reflexivity|]. cbn [map rfold].
          change (capstep a (with_operands mem ops1, op)) with (capstep a (mem, op)). destruct (capstep a (mem, op)); [apply IH|reflexivity]. }
        apply G. }
      rewrite Euses in E, Hu. rewrite rfold_app, Epre in E. cbn [rbind rfold] in E.
      destruct (rfold_caps (uses ms1 ++ map (pair mem) ops1) sm) as (sm1' & E1' & L1 & _).
      { intros mo Hi. apply Hu. apply in_or_app. now left. } { exact Hd. } { exact Hw. }
      rewrite Epre in E1'. injection E1' as <-.
      assert (Hd1 := lowered_dicts _ _ L1 Hd). assert (Hw1 := lowered_whole _ _ L1). assert (K1 := lowered_keys _ _ L1).
      destruct (Hu (mem, mop)) as (U1 & U2 & lop' & prec' & ir' & U' & Hcap); [apply in_or_app; right; now left|]. cbn [fst snd] in *.
      assert (lop' = lop /\ prec' = prec /\ ir' = ir) as (-> & -> & ->).
      { destruct U as [_ A2 A3 A4], U' as [_ B2 B3 B4]. assert (lop' = lop) by congruence. subst. split; [easy|]. split; congruence. }
      destruct (limit_op_ok mem mop lop prec ir sm1 U Hcap U1) as (sm2 & E2 & L2 & F2 & _); [now rewrite K1|exact Hd1|exact Hw1|].
      change (capstep sm1 (mem, mop)) with (limit_op_cap layer dim_order mem sm1 mop) in E. rewrite E2 in E. cbn [rbind] in E.
      destruct (rfold_caps (map (pair mem) ops2 ++ uses ms2) sm2) as (sm3 & E3 & L3 & _).
      { intros mo Hi. rewrite (lowered_keys _ _ L2), K1. apply Hu. apply in_or_app. right. now right. }
      { now apply (lowered_dicts sm1). } { now apply (lowered_whole sm1). }
      rewrite E3 in E. injection E as ->.
      assert (F := F2 Hp Hdist).
      destruct (asked_lowered (im_served mem) ir sm2 sm' L3) as [_ Hle].
      { intros o Ho. rewrite (lowered_keys _ _ L2), K1. now apply U2. }
      assert (0 < inject_Z prec) by (change 0 with (inject_Z 0); now apply inject_Z_lt_iff). nra.
  Qed.

  (** * At most one unrolling above one *)
  Lemma asked_Forall2 served ir sm sm' : lowered sm sm' -> (forall o, In o served -> In o (keys sm)) ->
    Forall2 downto (asked served ir sm) (asked served ir sm').
  Proof.
    intros H. induction served as [|o served IH]; intros Hk; [constructor|].
    rewrite !asked_cons. destruct (key_dget o sm) as (m & Em); [apply Hk; now left|].
    destruct (lowered_dget _ _ _ _ H Em) as (m' & Em' & Hm). rewrite Em, Em'.
    apply Forall2_app; [|apply IH; intros; apply Hk; now right]. clear - Hm.
    induction Hm as [|[d u] [d' u'] m m' (H1 & H2 & H3) F IH]; [constructor|]. cbn [fst snd filter] in *. subst d'.
    destruct (negb (memb d ir)); [|exact IH]. cbn [map snd]. constructor; [now split|exact IH].
  Qed.

  Lemma one_factor_distinct l l' : Forall2 downto l l' -> ForallOrdPairs (fun a b => a == 1 \/ b == 1) l -> distinct_factors l'.
  Proof.
    intros F. unfold distinct_factors. induction F as [|a b l l' [H1 H2] F IH]; intros H; [constructor|].
    inversion H as [|? ? H3 H4]; subst. constructor; [|now apply IH].
    rewrite Forall_forall in *. intros y Hy E. destruct (Forall2_in_r _ _ _ _ F Hy) as (x & Hx & [H5 H6]).
    apply whole1_ge in H2, H6. destruct (H3 x Hx); lra.
  Qed.

  Theorem limit_capacity_one mems sm sm' mem mop lop prec ir : mems_complete layer mems (keys sm) -> holds_one layer mems ->
    dicts sm -> sm_whole sm -> limit_capacity layer dim_order mems sm = Ok sm' ->
    In mem mems -> used_by layer mem mop lop prec ir -> (0 < prec)%Z ->
    ForallOrdPairs (fun a b => a == 1 \/ b == 1) (asked (im_served mem) ir sm) ->
    qprod (asked (im_served mem) ir sm') * inject_Z prec <= inject_Z (im_size mem).
  Proof.
    intros Hc Hh Hd Hw E Hm U Hp Hone.
    destruct (limit_capacity_ok mems sm Hc Hh Hd Hw) as (sm2 & E2 & _ & _ & _ & F). rewrite E in E2. injection E2 as <-.
    destruct (in_split _ _ Hm) as (ms1 & ms2 & Em). destruct (in_split _ _ (ub_operand _ _ _ _ _ _ U)) as (o1 & o2 & Eo).
    assert (Hu := uses_ok mems _ Hc Hh).
    destruct (rfold_caps (uses ms1 ++ map (pair mem) o1) sm) as (sm1 & E1 & L1 & _).
    { intros mo Hi. apply Hu. subst mems. unfold uses. rewrite flat_map_app. cbn [flat_map]. rewrite Eo, map_app. apply in_app_or in Hi as [Hi|Hi]; apply in_or_app; [now left|right].
      apply in_or_app. left. apply in_or_app. now left. }
    { exact Hd. } { exact Hw. }
    apply (F ms1 mem ms2 o1 mop o2 lop prec ir sm1); try assumption.
    - rewrite <- E1, limit_capacity_uses. unfold uses at 1. rewrite flat_map_app. cbn [flat_map]. rewrite app_nil_r, !rfold_app.
      fold (uses ms1). destruct (rfold capstep sm (uses ms1)) as [a|e]; [|reflexivity]. cbn [rbind im_operands with_operands].
      assert (G : forall ops a, rfold capstep a (map (pair (with_operands mem o1)) ops) = rfold capstep a (map (pair mem) ops)).
      { clear. induction ops as [|op ops IH]; intros a; [reflexivity|]. cbn [map rfold].
        change (capstep a (with_operands mem o1, op)) with (capstep a (mem, op)). destruct (capstep a (mem, op)); [apply IH|reflexivity]. }
      apply G.
    - eapply one_factor_distinct; [|exact Hone]. apply asked_Forall2; [exact L1|]. now apply (Hc mem Hm).
  Qed.
End Cap.
