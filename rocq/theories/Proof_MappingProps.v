(** Consequences for flags, access counts and transfers. *)
From Coq Require Import QArith Qround Lqa Permutation.
From Verif Require Import Base Model_Alloc Model_Temporal Model_Decouple Model_SpatialInt Model_DataMove
  Model_Mapping Spec_Alloc Spec_Decouple Spec_SpatialInt Spec_Temporal Spec_Mapping
  Proof_AllocSearch Proof_AllocTile Proof_AllocRun Proof_Decouple Proof_DecoupleTotals Proof_SpatialInt Proof_Alloc
  Proof_Bandwidth Proof_MappingLoops Proof_Mapping Proof_MappingBuild.
Local Open Scope Q_scope.

(** * the nest *)
Lemma nest_split su tm i j : Permutation (whole_nest su tm) (within su tm i j ++ outside su tm i j).
Proof.
  unfold whole_nest, within, outside. set (q := map (map (fun x => (fst x, inject_Z (snd x)))) tm).
  replace (length tm) with (length q) by (unfold q; now rewrite map_length). rewrite !firstn_all.
  rewrite <- (firstn_skipn i q) at 1. rewrite <- (firstn_skipn j su) at 1. rewrite !concat_app. apply Permutation_swap3.
Qed.

Lemma combined_suffix su tm one two i : length su = S (length tm) -> combined su tm = Ok (one, two) -> (i < length su)%nat ->
  Permutation (concat (skipn (S i) one)) (outside su tm i (S i)).
Proof.
  intros Hal E Hi. destruct (combined_ok su tm Hal) as (one' & two' & E' & L1 & L2 & P1 & P2).
  rewrite E in E'. injection E' as <- <-.
  assert (A : Permutation (concat one) (whole_nest su tm)).
  { unfold whole_nest. rewrite Hal. rewrite <- (P1 (length tm) ltac:(lia)). rewrite <- Hal, <- L1, firstn_all. reflexivity. }
  apply (Permutation_app_inv_l (within su tm i (S i))).
  rewrite <- (nest_split su tm i (S i)), <- A. rewrite <- (P1 i Hi), <- concat_app, firstn_skipn. reflexivity.
Qed.

Lemma whole_product l : whole_sizes l -> exists z, iterations_of l == inject_Z z.
Proof.
  induction l as [|x l IH]; intros H; [exists 1%Z; reflexivity|].
  destruct (H x (or_introl eq_refl)) as (a & Ea). destruct IH as (b & Eb); [intros y Hy; apply H; now right|].
  exists (a * b)%Z. unfold iterations_of in *. cbn [map]. rewrite qprod_cons, Ea, Eb, inject_Z_mult. reflexivity.
Qed.
Lemma whole_sub l l' : whole_sizes l -> (forall x, In x l' -> In x l) -> whole_sizes l'.
Proof. intros H Hi x Hx. apply H, Hi, Hx. Qed.
Lemma outside_in su tm i j x : In x (outside su tm i j) -> In x (whole_nest su tm).
Proof. intros H. apply (Permutation_in x (Permutation_sym (nest_split su tm i j))). apply in_or_app. now right. Qed.

Lemma iterations_cycles (tm : list (list (string * Z))) :
  iterations_of (concat (map (map (fun x => (fst x, inject_Z (snd x)))) tm)) == inject_Z (cycles (concat tm)).
Proof.
  rewrite <- concat_map. unfold iterations_of, cycles. rewrite map_map. cbn [snd].
  induction (concat tm) as [|x l IH]; [reflexivity|]. cbn [map]. rewrite qprod_cons, zprod_cons, inject_Z_mult, IH. reflexivity.
Qed.
Lemma iterations_outside su tm i j : iterations_of (outside su tm i j) == inject_Z (cycles (from i tm)) * unrolled_from j su.
Proof. unfold outside. rewrite iterations_app, skipn_map, iterations_cycles. reflexivity. Qed.

Lemma py_int_floor q : 0 <= q -> py_int q = Qfloor q.
Proof.
  intros H. unfold py_int, Qfloor. destruct q as [n d]. cbn. unfold Qle in H. cbn in H.
  apply Z.quot_div_nonneg; lia.
Qed.
Lemma Qfloor_frac a b : (0 < b)%Z -> Qfloor (inject_Z a / inject_Z b) = (a / b)%Z.
Proof.
  intros H. assert (B : 0 < inject_Z b) by (change 0 with (inject_Z 0); rewrite <- Zlt_Qlt; exact H).
  destruct (Qfloor_bounds (inject_Z a / inject_Z b)) as [H1 H2]. set (f := Qfloor _) in *. clearbody f.
  assert (E : inject_Z a / inject_Z b * inject_Z b == inject_Z a) by (field; lra).
  assert (G1 : inject_Z f * inject_Z b <= inject_Z a) by (rewrite <- E; apply Qmult_le_compat_r; lra).
  assert (G2 : inject_Z a < (inject_Z f + 1) * inject_Z b) by (rewrite <- E; apply Qmult_lt_compat_r; lra).
  rewrite <- inject_Z_mult in G1. rewrite <- Zle_Qle in G1.
  change 1 with (inject_Z 1) in G2. rewrite <- inject_Z_plus, <- inject_Z_mult, <- Zlt_Qlt in G2.
  apply (Z.div_unique a b f (a - b * f)); [left; nia|lia].
Qed.

Section Operand.
  Variable ly : layer.
  Hypothesis Hly : derived_ok ly.
  Variables (r_dims ir_dims : dict string (list string)) (pr_ops : list string).
  Variables (op : string) (oi : opinput).
  Hypothesis Hgood : good_operand ly r_dims ir_dims pr_ops op oi.
  Notation su := (oi_spatial oi).
  Notation tm := (oi_temporal oi).
  Notation nest := (whole_nest (oi_spatial oi) (oi_temporal oi)).

  Lemma in_ird ir x : dget op ir_dims = Some ir -> In x nest ->
    memb (fst x) (ir ++ map ir_version (keys (l_pr_loop ly)))%list = memb (fst x) ir.
  Proof.
    intros _ Hx. apply eq_true_iff_eq. rewrite !memb_In, in_app_iff. split; [|now left].
    intros [H|H]; [exact H|]. apply in_map_iff in H as (p & E & Hp).
    destruct (go_tags _ _ _ _ _ _ Hgood x p Hx Hp) as [_ H2]. destruct H2. symmetry. exact E.
  Qed.
  Lemma in_rd r x : dget op r_dims = Some r -> In x nest ->
    memb (fst x) (r ++ map r_version (keys (l_pr_loop ly)))%list = memb (fst x) r.
  Proof.
    intros _ Hx. apply eq_true_iff_eq. rewrite !memb_In, in_app_iff. split; [|now left].
    intros [H|H]; [exact H|]. apply in_map_iff in H as (p & E & Hp).
    destruct (go_tags _ _ _ _ _ _ Hgood x p Hx Hp) as [H2 _]. destruct H2. symmetry. exact E.
  Qed.

  (** without derived dimensions: relevant and irrelevant loops split the iterations *)
  Lemma plain_products r ir L : ~ In op pr_ops -> dget op r_dims = Some r -> dget op ir_dims = Some ir ->
    (forall x, In x L -> In x nest) ->
    reuse r L == tile_elements ly op L /\ reuse ir L * tile_elements ly op L == iterations_of L.
  Proof.
    intros Hnp Er Ei HL.
    destruct (prefix_products ly Hly r_dims ir_dims pr_ops op oi Hgood r ir _ _ [L] [L] 1 Er Ei eq_refl eq_refl) as (P1 & P2 & _).
    { cbn. rewrite app_nil_r. exact HL. }
    { right. split; [exact Hnp|reflexivity]. }
    cbv zeta in P1, P2. cbn [firstn concat] in P1, P2. rewrite !app_nil_r in P1, P2. unfold reuse.
    rewrite (filter_ext_in _ (fun x => memb (fst x) r)) in P1 by (intros x Hx; apply in_rd; auto).
    rewrite (filter_ext_in _ (fun x => memb (fst x) ir)) in P2 by (intros x Hx; apply in_ird; auto).
    split; assumption.
  Qed.

  Lemma tile_whole L : ~ In op pr_ops -> (forall x, In x L -> In x nest) -> whole_sizes nest -> exists z, tile_elements ly op L == inject_Z z.
  Proof.
    intros Hnp HL HW. destruct (go_relevancy _ _ _ _ _ _ Hgood) as (r & ir & Er & Ei & _).
    destruct (plain_products r ir L Hnp Er Ei HL) as [P _].
    destruct (whole_product (filter (fun x => memb (fst x) r) L)) as (z & Ez).
    { apply (whole_sub nest); [exact HW|]. intros x Hx. apply filter_In in Hx as [Hx _]. auto. }
    exists z. rewrite <- P. exact Ez.
  Qed.
  (** derived dimensions have whole sizes anyway *)
  Lemma qprod_whole qs : (forall q, In q qs -> exists z, q == inject_Z z) -> exists z, qprod qs == inject_Z z.
  Proof.
    induction qs as [|q qs IH]; intros H; [exists 1%Z; reflexivity|].
    destruct (H q (or_introl eq_refl)) as (a & Ea). destruct IH as (b & Eb); [intros; apply H; now right|].
    exists (a * b)%Z. rewrite qprod_cons, Ea, Eb, inject_Z_mult. reflexivity.
  Qed.
  Lemma tile_whole' L : (forall x, In x L -> In x nest) -> whole_sizes nest -> exists z, tile_elements ly op L == inject_Z z.
  Proof.
    intros HL HW. unfold tile_elements. destruct (dget op (l_r_or_pr ly)) as [dims|]; [|exists 1%Z; reflexivity].
    apply qprod_whole. intros q Hq. apply in_map_iff in Hq as (d & <- & _). unfold elements_along.
    destruct (existsb _ L).
    - unfold extent. apply qprod_whole. intros q Hq. apply in_map_iff in Hq as (x & <- & Hx). apply filter_In in Hx as [Hx _]. apply HW; auto.
    - destruct (dget d (l_pr_loop ly)) as [[da db]|]; [|exists 1%Z; reflexivity].
      destruct (dget d (l_pr_scaling ly)) as [[sa sb]|]; [|exists 1%Z; reflexivity].
      destruct (dget d (l_pr_sizes ly)) as [m|]; [|exists 1%Z; reflexivity]. eexists; reflexivity.
  Qed.

  (** exact counts *)
  Lemma moves_exact macs i j n : exact_nest oi macs -> moves ly op macs (within su tm i j) n ->
    inject_Z n == iterations_of (outside su tm i j) * tile_elements ly op (within su tm i j).
  Proof.
    intros [HW HM] Hn.
    assert (Hin : forall x, In x (within su tm i j) -> In x nest) by (intros x; apply within_in_nest).
    assert (I1 : 1 <= iterations_of (within su tm i j)).
    { apply iterations_ge_1. intros x Hx. now apply (go_sizes _ _ _ _ _ _ Hgood), Hin. }
    assert (E : inject_Z macs / iterations_of (within su tm i j) * tile_elements ly op (within su tm i j) ==
      iterations_of (outside su tm i j) * tile_elements ly op (within su tm i j)).
    { rewrite HM, (iterations_perm _ _ (nest_split su tm i j)), iterations_app. field. lra. }
    destruct (whole_product (outside su tm i j)) as (a & Ea).
    { apply (whole_sub nest); [exact HW|]. intros x. apply outside_in. }
    destruct (tile_whole' (within su tm i j) Hin HW) as (b & Eb).
    unfold moves in Hn.
    assert (E' : iterations_of (outside su tm i j) * tile_elements ly op (within su tm i j) == inject_Z (a * b)) by (rewrite Ea, Eb, inject_Z_mult; reflexivity).
    rewrite (nearest_Z (a * b) n _ (Qeq_trans _ _ _ E E') Hn). now symmetry.
  Qed.

  Lemma moves_reuse macs i j n ir : ~ In op pr_ops -> dget op ir_dims = Some ir -> exact_nest oi macs ->
    moves ly op macs (within su tm i j) n -> inject_Z n * reuse ir (within su tm i j) == inject_Z macs.
  Proof.
    intros Hnp Ei HE Hn. pose proof (moves_exact macs i j n HE Hn) as E. destruct HE as [HW HM].
    destruct (go_relevancy _ _ _ _ _ _ Hgood) as (r & ir' & Er & Ei' & _). rewrite Ei in Ei'. injection Ei' as <-.
    destruct (plain_products r ir (within su tm i j) Hnp Er Ei) as [_ P]; [intros x; apply within_in_nest|].
    rewrite E, HM, (iterations_perm _ _ (nest_split su tm i j)), iterations_app, <- P. ring.
  Qed.
  Lemma reuse_app ir l1 l2 : reuse ir (l1 ++ l2) == reuse ir l1 * reuse ir l2.
  Proof. unfold reuse. rewrite filter_app. apply iterations_app. Qed.
  Lemma reuse_perm ir l1 l2 : Permutation l1 l2 -> reuse ir l1 == reuse ir l2.
  Proof.
    intros H. apply iterations_perm. induction H; cbn [filter]; try constructor;
      repeat match goal with |- context [if ?b then _ else _] => destruct b end; try constructor; try reflexivity; auto.
    now transitivity (filter (fun x => memb (fst x) ir) l').
  Qed.
  Lemma reuse_ge_1 ir l : (forall x, In x l -> In x nest) -> 1 <= reuse ir l.
  Proof.
    intros H. apply iterations_ge_1. intros x Hx. apply filter_In in Hx as [Hx _]. now apply (go_sizes _ _ _ _ _ _ Hgood), H.
  Qed.

  Lemma tile_ge_1 L : (forall x, In x L -> In x nest) -> 1 <= tile_elements ly op L.
  Proof.
    intros HL. assert (EX : forall d, 1 <= extent L d).
    { intros d. unfold extent. apply qprod_ge_1. intros q Hq. apply in_map_iff in Hq as (x & <- & Hx). apply filter_In in Hx as [Hx _].
      now apply (go_sizes _ _ _ _ _ _ Hgood), HL. }
    unfold tile_elements. destruct (dget op (l_r_or_pr ly)) as [dims|]; [|apply Qle_refl].
    apply qprod_ge_1. intros q Hq. apply in_map_iff in Hq as (d & <- & _). unfold elements_along.
    destruct (existsb _ L); [apply EX|]. destruct (dget d (l_pr_loop ly)) as [[da db]|] eqn:Ed; [|apply Qle_refl].
    destruct (dok_scale _ Hly d (da, db) (dget_In _ _ _ Ed)) as (sa & sb & m & -> & Ha & Hb & -> & Hm).
    pose proof (Qfloor_ge_1 _ (EX da)) as A. pose proof (Qfloor_ge_1 _ (EX db)) as B.
    pose proof (pr_size_mono sa sb _ _ _ _ Ha Hb (conj A (Z.le_refl _)) (conj B (Z.le_refl _))).
    change 1 with (inject_Z 1). rewrite <- Zle_Qle. lia.
  Qed.

  (** * transfers *)
  Lemma cycles_split k : cycles (concat tm) = (cycles (below k tm) * cycles (from k tm))%Z.
  Proof. unfold below, from, cycles. rewrite <- zprod_app, <- map_app, <- concat_app, firstn_skipn. reflexivity. Qed.

  Lemma count_exact macs i j n e units k : exact_nest oi macs ->
    moves ly op macs (within su tm i j) n -> inject_Z e == tile_elements ly op (within su tm i j) ->
    inject_Z units == unrolled_from j su -> k = cycles (from i tm) -> n = (e * k * units)%Z.
  Proof.
    intros HE Hn He Hu ->. pose proof (moves_exact macs i j n HE Hn) as E. rewrite iterations_outside, <- He, <- Hu in E.
    apply inject_Z_injective. rewrite E, !inject_Z_mult. ring.
  Qed.
  Lemma unrolled_whole j : whole_sizes nest -> exists z, unrolled_from j su == inject_Z z.
  Proof.
    intros HW. apply whole_product. apply (whole_sub nest); [exact HW|]. intros x Hx. apply (outside_in su tm 0 j).
    unfold outside. apply in_or_app. now right.
  Qed.
  Lemma units_exact r ls' j u : whole_sizes nest -> right_counts ly r su ls' (oi_counts oi) ->
    nth_error (unit_count (oi_counts oi)) j = Some u -> inject_Z u == unrolled_from j su.
  Proof.
    intros HW Hc Hu. destruct (unrolled_whole j HW) as (z & Ez). destruct (rc_units _ _ _ _ _ Hc j u Hu) as [_ H].
    rewrite (H z Ez). now symmetry.
  Qed.
  Lemma aver_exact e p c b : (0 <= e)%Z -> (0 <= p)%Z -> (1 <= c)%Z -> (0 <= b)%Z ->
    py_int (inject_Z (e * p) / inject_Z c * inject_Z b) = (e * b * p / c)%Z.
  Proof.
    intros He Hp Hc Hb. assert (C : 0 < inject_Z c) by (change 0 with (inject_Z 0); rewrite <- Zlt_Qlt; lia).
    assert (E : inject_Z (e * p) / inject_Z c * inject_Z b == inject_Z (e * b * p) / inject_Z c) by (rewrite !inject_Z_mult; field; lra).
    rewrite py_int_floor.
    - rewrite (Qfloor_comp _ _ E). apply Qfloor_frac. lia.
    - rewrite E. apply Qle_shift_div_l; [exact C|]. rewrite Qmult_0_l. change 0 with (inject_Z 0). rewrite <- Zle_Qle. nia.
  Qed.
  Lemma window_exact t cur : (1 <= cur)%Z -> (0 <= t)%Z -> window t cur = (t / cur)%Z.
  Proof.
    intros Hc Ht. assert (C : 0 < inject_Z cur) by (change 0 with (inject_Z 0); rewrite <- Zlt_Qlt; lia).
    unfold window. rewrite py_int_floor; [apply Qfloor_frac; lia|]. apply Qle_shift_div_l; [exact C|]. rewrite Qmult_0_l.
    change 0 with (inject_Z 0). rewrite <- Zle_Qle. lia.
  Qed.

  (** Loops that no derived dimension depends on multiply the tile. *)
  Lemma tile_grows r L l : dget op r_dims = Some r -> (forall x, In x (L ++ l) -> In x nest) ->
    (In op pr_ops -> forall x p, In x l -> ~ runs_over ly p x) -> tile_elements ly op (L ++ l) == tile_elements ly op L * reuse r l.
  Proof.
    intros Er HL Ho. destruct (go_relevancy _ _ _ _ _ _ Hgood) as (r' & ir & Er' & Ei & Hnd & Hpr & _ & Htag & _). rewrite Er in Er'. injection Er' as <-.
    assert (Ex : forall d, In d r -> elements_along ly (L ++ l) d == elements_along ly L d * extent l d).
    { intros d Hd. destruct (Htag d (in_or_app r ir d (or_introl Hd))) as (K & _). rewrite !(elements_plain ly _ d K). apply extent_app. }
    assert (Ep : forall p, In op pr_ops -> In p (keys (l_pr_loop ly)) -> elements_along ly (L ++ l) p = elements_along ly L p).
    { intros p Hp Hk. assert (NE : forall K, (forall x, In x K -> In x nest) -> existsb (fun x => eqb (fst x) p) K = false).
      { intros K HK. apply not_true_iff_false. intros E. apply existsb_exists in E as (x & Hx & E). destruct (eqb_spec (fst x) p) as [E'|]; [|discriminate].
        destruct (go_sizes _ _ _ _ _ _ Hgood x (HK x Hx)) as (_ & N). now rewrite E' in N. }
      unfold elements_along. rewrite (NE (L ++ l) HL), (NE L) by (intros x Hx; apply HL, in_or_app; now left).
      destruct (dget p (l_pr_loop ly)) as [[da db]|] eqn:Ed; [|reflexivity]. apply dget_In in Ed.
      assert (XX : forall d, d = da \/ d = db -> extent (L ++ l) d = extent L d).
      { intros d Hd. unfold extent. rewrite filter_app. replace (filter (fun x => eqb (fst x) d) l) with (@nil (string * Q)); [now rewrite app_nil_r|].
        symmetry. assert (Hn : forall x, In x l -> fst x <> d) by (intros x Hx E; apply (Ho Hp x p Hx); exists da, db; split; [exact Ed|rewrite E; exact Hd]).
        clear - Hn. induction l as [|x l IH]; [reflexivity|]. cbn [filter]. rewrite eqb_neq by (apply Hn; now left). apply IH. intros; apply Hn; now right. }
      rewrite (XX da), (XX db) by auto. reflexivity. }
    assert (G : forall f g ds, (forall d, In d ds -> f d == g d * extent l d) -> qprod (map f ds) == qprod (map g ds) * qprod (map (extent l) ds)).
    { intros f g ds. induction ds as [|d ds IH]; intros H; [reflexivity|]. cbn [map]. rewrite !qprod_cons, (H d) by now left. rewrite IH by (intros; apply H; now right). ring. }
    unfold tile_elements. rewrite Hpr, !map_app, !qprod_app. rewrite (G (elements_along ly (L ++ l)) (elements_along ly L) r Ex).
    unfold reuse, iterations_of. rewrite filter_memb_prod by exact Hnd.
    destruct (in_dec string_dec op pr_ops) as [Hp|_]; [|cbn [map]; ring].
    rewrite (map_ext_in (elements_along ly (L ++ l)) (elements_along ly L)) by (intros p Hk; now apply Ep). ring.
  Qed.
  Lemma level_kept before ls ls' i l l' : decoupled_levels ly before ls ls' -> nth_error ls i = Some l -> nth_error ls' i = Some l' ->
    (forall x p, In x l -> ~ runs_over ly p x) -> l' = l.
  Proof.
    intros H. revert i. induction H as [|before k ls o os H1 H2 IH]; intros [|i] E E' Hn; try discriminate.
    - injection E as ->. injection E' as ->. clear - H1 Hn. induction H1 as [|before x l out Hno Hd IH|before x p a b l out Hrun _ _ Hd IH]; [reflexivity|..].
      + f_equal. apply IH. intros y p Hy. apply Hn. now right.
      + destruct (Hn x p (or_introl eq_refl) Hrun).
    - cbn [nth_error] in E, E'. exact (IH i E E' Hn).
  Qed.

  (** the boost is the growth of the tile through the spatial loops of the level *)
  Lemma boost_exact r r' ls' i e b : no_overlap ly pr_ops op su i -> dget op r_dims = Some r -> dget op r_dims = Some r' ->
    decoupled_for ly pr_ops op su ls' -> right_counts ly r' su ls' (oi_counts oi) -> whole_sizes nest ->
    nth_error (mem_bw_boost (oi_counts oi)) i = Some b ->
    inject_Z e == tile_elements ly op (within su tm i i) ->
    inject_Z (e * b) == tile_elements ly op (within su tm i (S i)) /\ (1 <= b)%Z.
  Proof.
    intros Hno Er Er' Hd Hc HW Hb He. rewrite Er in Er'. injection Er' as <-.
    destruct (rc_boost _ _ _ _ _ Hc i b Hb) as (l' & El' & Hn & _).
    assert (X : exists l, nth_error su i = Some l /\ l' = l /\ (In op pr_ops -> forall x p, In x l -> ~ runs_over ly p x)).
    { destruct Hd as [[Hp Hd]|[Hp ->]]; [|exists l'; split; [exact El'|split; [reflexivity|contradiction]]].
      assert (Li : (i < length su)%nat) by (rewrite <- (decs_length ly [] su ls' Hd); apply nth_error_Some; congruence).
      destruct (nth_lt su i Li) as (l & El). exists l. split; [exact El|]. assert (N := fun x p => Hno Hp l x p El). split; [exact (level_kept [] su ls' i l l' Hd El El' N)|auto]. }
    destruct X as (l & El & -> & Hrun).
    assert (HL : forall x, In x l -> In x nest).
    { intros x Hx. apply (outside_in su tm 0 0). unfold outside. apply in_or_app. right. cbn [skipn]. apply in_concat.
      exists l. split; [eapply nth_error_In, El|exact Hx]. }
    assert (EL : data_loops ly r l = filter (fun x => memb (fst x) r) l).
    { unfold data_loops. apply filter_ext_in. intros x Hx. apply (in_rd r x Er). auto. }
    rewrite EL in Hn. fold (reuse r l) in Hn.
    destruct (whole_product (filter (fun x => memb (fst x) r) l)) as (z & Ez).
    { apply (whole_sub nest); [exact HW|]. intros x Hx. apply filter_In in Hx as [Hx _]. auto. }
    assert (b = z) by (apply (nearest_Z z b _ Ez Hn)). subst z.
    split.
    - assert (W : within su tm i (S i) = (within su tm i i ++ l)%list).
      { unfold within. rewrite (firstn_S_nth su i l El), concat_app. cbn [concat]. rewrite app_nil_r, app_assoc. reflexivity. }
      rewrite W. rewrite (tile_grows r _ l Er); [|intros x Hx; rewrite <- W in Hx; now apply within_in_nest in Hx|exact Hrun].
      rewrite inject_Z_mult, He, <- Ez. reflexivity.
    - pose proof (reuse_ge_1 r l HL) as G. unfold reuse in G. rewrite Ez in G. change 1 with (inject_Z 1) in G. now rewrite <- Zle_Qle in G.
  Qed.
End Operand.
