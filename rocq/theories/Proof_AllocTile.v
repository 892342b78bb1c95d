(** Tile sizes computed by the allocator against the specification (C09, C10). *)
From Coq Require Import Lqa.
From Verif Require Import Base Model_Pr Spec_Pr Proof_Pr Model_Alloc Spec_Alloc Proof_AllocSearch.
Local Open Scope Q_scope.

Definition dim_size (l : aloop) : string * Q := (a_dim l, a_size l).

Lemma extent_cons x l d : extent (x :: l) d = if eqb (fst x) d then snd x * extent l d else extent l d.
Proof. unfold extent. cbn [filter]. destruct (eqb (fst x) d); reflexivity. Qed.

Lemma extent_none l d : existsb (fun x => eqb (fst x) d) l = false -> extent l d = 1.
Proof.
  induction l as [|x l IH]; intros E; [reflexivity|]. rewrite extent_cons. cbn [existsb] in E.
  apply orb_false_iff in E. destruct E as (E1 & E2). rewrite E1. auto.
Qed.

Lemma extent_app l1 l2 d : extent (l1 ++ l2) d == extent l1 d * extent l2 d.
Proof. unfold extent. rewrite filter_app, map_app. apply qprod_app. Qed.

Lemma extent_perm l1 l2 d : Permutation l1 l2 -> extent l1 d == extent l2 d.
Proof.
  induction 1 as [|x l1 l2 _ IH|x y l|l1 l2 l3 _ IH1 _ IH2].
  - reflexivity.
  - rewrite !extent_cons. destruct (eqb (fst x) d); [now rewrite IH|exact IH].
  - rewrite !extent_cons. destruct (eqb (fst x) d), (eqb (fst y) d); try reflexivity. ring.
  - now rewrite IH1.
Qed.

Lemma existsb_perm {A} (f : A -> bool) l1 l2 : Permutation l1 l2 -> existsb f l1 = existsb f l2.
Proof.
  induction 1 as [|x l1 l2 _ IH|x y l|l1 l2 l3 _ IH1 _ IH2]; cbn; [reflexivity|now rewrite IH| |congruence].
  destruct (f x), (f y); reflexivity.
Qed.

Lemma size_of_dim_dset sizes d d' q :
  size_of_dim (dset d q sizes) d' = if eqb d d' then q else size_of_dim sizes d'.
Proof.
  unfold size_of_dim. destruct (eqb_spec d d') as [->|Hne].
  - now rewrite dget_dset_eq.
  - rewrite dget_dset_neq by congruence. reflexivity.
Qed.

Lemma dim_sizes_spec loops d : forall D,
  let D' := fold_left (fun d l => dset (a_dim l) (size_of_dim d (a_dim l) * a_size l) d) loops D in
  size_of_dim D' d == size_of_dim D d * extent (map dim_size loops) d /\
  (dget d D' = None <-> dget d D = None /\ existsb (fun l => eqb (fst l) d) (map dim_size loops) = false).
Proof.
  induction loops as [|l loops IH]; intros D; cbn [fold_left map].
  - split; [unfold extent; cbn; ring|]. cbn. tauto.
  - destruct (IH (dset (a_dim l) (size_of_dim D (a_dim l) * a_size l) D)) as (H1 & H2). split.
    + rewrite H1, extent_cons, size_of_dim_dset. cbn [dim_size fst snd].
      destruct (eqb_spec (a_dim l) d) as [E|E]; [rewrite E; ring|reflexivity].
    + rewrite H2. cbn [existsb dim_size fst].
      destruct (eqb_spec (a_dim l) d) as [E|E].
      * rewrite E, dget_dset_eq. cbn. split; intros (Ha & Hb); congruence.
      * rewrite dget_dset_neq by congruence. cbn. tauto.
Qed.

Lemma size_of_dim_sizes loops d : size_of_dim (dim_sizes loops) d == extent (map dim_size loops) d.
Proof. unfold dim_sizes. destruct (dim_sizes_spec loops d []) as (H & _). rewrite H. cbn. ring. Qed.

Lemma dim_sizes_None loops d :
  dget d (dim_sizes loops) = None <-> existsb (fun l => eqb (fst l) d) (map dim_size loops) = false.
Proof. unfold dim_sizes. destruct (dim_sizes_spec loops d []) as (_ & H). rewrite H. cbn. tauto. Qed.

Lemma calc_tensor_dim_ok ly loops d q : calc_tensor_dim ly (dim_sizes loops) d = Ok q ->
  q == elements_along ly (map dim_size loops) d.
Proof.
  unfold calc_tensor_dim, elements_along. intros E.
  assert (Hs := size_of_dim_sizes loops).
  destruct (dget d (dim_sizes loops)) as [q'|] eqn:Ed.
  - injection E as <-.
    destruct (existsb (fun l => eqb (fst l) d) (map dim_size loops)) eqn:Ex.
    + rewrite <- Hs. unfold size_of_dim. now rewrite Ed.
    + apply dim_sizes_None in Ex. congruence.
  - assert (Ex := Ed). apply dim_sizes_None in Ex. rewrite Ex.
    destruct (dget d (l_pr_loop ly)) as [[da db]|] eqn:Ep.
    + apply rbind_Ok in E. destruct E as ([sa sb] & E1 & E). apply rbind_Ok in E.
      destruct E as (m & E2 & E). injection E as <-. apply dgetr_Ok in E1, E2. rewrite E1, E2.
      cbn [fst snd].
      rewrite (Qfloor_comp _ _ (Hs da)), (Qfloor_comp _ _ (Hs db)). reflexivity.
    + destruct (memb d (l_dims ly)); [|discriminate]. injection E as <-. reflexivity.
Qed.

Lemma qprod_Forall2 l1 l2 : Forall2 Qeq l1 l2 -> qprod l1 == qprod l2.
Proof. induction 1 as [|x y l1 l2 Hxy _ IH]; [reflexivity|]. rewrite !qprod_cons. now rewrite Hxy, IH. Qed.

Lemma qsum_Forall2 l1 l2 : Forall2 Qeq l1 l2 -> qsum l1 == qsum l2.
Proof. induction 1 as [|x y l1 l2 Hxy _ IH]; [reflexivity|]. rewrite !qsum_cons. now rewrite Hxy, IH. Qed.

Lemma calc_loops_size_ok ly loops op p q : calc_loops_size ly loops op p = Ok q ->
  q == tile_elements ly op (map dim_size loops) * inject_Z p.
Proof.
  unfold calc_loops_size, calc_tensor_size, tile_elements. intros E.
  apply rbind_Ok in E. destruct E as (t & E & Et). injection Et as <-.
  apply rbind_Ok in E. destruct E as (dims & Ed & E). apply dgetr_Ok in Ed. rewrite Ed.
  apply rbind_Ok in E. destruct E as (qs & Em & E). injection E as <-.
  apply rmap_Forall2 in Em. apply Qmult_comp; [|reflexivity]. apply qprod_Forall2.
  clear - Em. induction Em as [|d q ds qs Hq _ IH]; cbn [map]; constructor; [|exact IH].
  now apply calc_tensor_dim_ok.
Qed.

Lemma elements_along_perm ly l1 l2 d : Permutation l1 l2 ->
  elements_along ly l1 d == elements_along ly l2 d.
Proof.
  intros Hp. unfold elements_along. rewrite (existsb_perm _ l1 l2 Hp).
  destruct (existsb (fun l => eqb (fst l) d) l2); [now apply extent_perm|].
  destruct (dget d (l_pr_loop ly)) as [[da db]|]; [|reflexivity].
  destruct (dget d (l_pr_scaling ly)) as [[sa sb]|]; [|reflexivity].
  destruct (dget d (l_pr_sizes ly)) as [m|]; [|reflexivity].
  rewrite (Qfloor_comp _ _ (extent_perm _ _ da Hp)), (Qfloor_comp _ _ (extent_perm _ _ db Hp)). reflexivity.
Qed.

Lemma tile_elements_perm ly op l1 l2 : Permutation l1 l2 ->
  tile_elements ly op l1 == tile_elements ly op l2.
Proof.
  intros Hp. unfold tile_elements. destruct (dget op (l_r_or_pr ly)) as [dims|]; [|reflexivity].
  apply qprod_Forall2. induction dims as [|d dims IH]; cbn [map]; constructor; [|exact IH].
  now apply elements_along_perm.
Qed.

(** * Monotonicity *)

Definition layer_numbers_ok (ly : layer) : Prop :=
  (forall d sa sb, dget d (l_pr_scaling ly) = Some (sa, sb) -> (0 < sa /\ 0 < sb)%Z) /\
  (forall d m, dget d (l_pr_sizes ly) = Some m -> (0 < m)%Z).

Definition loop_ok (ly : layer) (l : string * Q) : Prop :=
  1 <= snd l /\ dget (fst l) (l_pr_loop ly) = None.

Lemma extent_ge_1 ly loops d : (forall l, In l loops -> loop_ok ly l) -> 1 <= extent loops d.
Proof.
  intros Hl. apply qprod_ge_1. intros x Hx. apply in_map_iff in Hx. destruct Hx as (l & <- & Hx).
  apply filter_In in Hx. now apply Hl.
Qed.

Lemma pr_size_mono sa sb a a' b b' : (0 < sa -> 0 < sb -> 1 <= a <= a' -> 1 <= b <= b' ->
  1 <= calc_pr_dimension_size sa a sb b <= calc_pr_dimension_size sa a' sb b')%Z.
Proof.
  intros Hsa Hsb Ha Hb. unfold calc_pr_dimension_size.
  assert (Hg : (0 < Z.gcd sa sb)%Z).
  { assert (H0 := Z.gcd_nonneg sa sb). assert (Z.gcd sa sb <> 0)%Z; [|lia].
    intros E. apply Z.gcd_eq_0_l in E. lia. }
  assert (Hu : (1 <= sa / Z.gcd sa sb)%Z).
  { apply Z.div_le_lower_bound; [exact Hg|]. rewrite Z.mul_1_r.
    apply Z.divide_pos_le; [lia|apply Z.gcd_divide_l]. }
  assert (Hv : (1 <= sb / Z.gcd sa sb)%Z).
  { apply Z.div_le_lower_bound; [exact Hg|]. rewrite Z.mul_1_r.
    apply Z.divide_pos_le; [lia|apply Z.gcd_divide_r]. }
  set (u := (sa / Z.gcd sa sb)%Z) in *. set (v := (sb / Z.gcd sa sb)%Z) in *.
  clearbody u v.
  destruct (Z.max_spec 0 (b - u)) as [(H1 & ->)|(H1 & ->)];
  destruct (Z.max_spec 0 (b' - u)) as [(H2 & ->)|(H2 & ->)]; nia.
Qed.

Lemma Qfloor_ge_1 q : 1 <= q -> (1 <= Qfloor q)%Z.
Proof. intros H. change 1%Z with (Qfloor 1). now apply Qfloor_resp_le. Qed.

Lemma elements_along_mono ly loops extra d : layer_numbers_ok ly ->
  (forall l, In l (loops ++ extra) -> loop_ok ly l) ->
  1 <= elements_along ly loops d <= elements_along ly (loops ++ extra) d.
Proof.
  intros (Hsc & Hsz) Hl.
  assert (Hl1 : forall l, In l loops -> loop_ok ly l) by (intros l H; apply Hl, in_or_app; tauto).
  assert (Hl2 : forall l, In l extra -> loop_ok ly l) by (intros l H; apply Hl, in_or_app; tauto).
  assert (Hext : forall d, extent loops d <= extent (loops ++ extra) d).
  { intros d0. rewrite extent_app. assert (H1 := extent_ge_1 ly loops d0 Hl1).
    assert (H2 := extent_ge_1 ly extra d0 Hl2). nra. }
  assert (Hone := fun d => extent_ge_1 ly loops d Hl1).
  unfold elements_along. rewrite existsb_app.
  destruct (existsb (fun l => eqb (fst l) d) loops) eqn:E1; cbn [orb].
  - split; [apply Hone|apply Hext].
  - destruct (existsb (fun l => eqb (fst l) d) extra) eqn:E2.
    + apply existsb_exists in E2. destruct E2 as (l & Hin & He).
      apply Hl2 in Hin. destruct Hin as (_ & Hp). destruct (eqb_spec (fst l) d) as [Ed|]; [|discriminate].
      rewrite Ed in Hp. rewrite Hp.
      split; [apply Qle_refl|]. apply (extent_ge_1 ly (loops ++ extra) d Hl).
    + destruct (dget d (l_pr_loop ly)) as [[da db]|]; [|split; apply Qle_refl].
      destruct (dget d (l_pr_scaling ly)) as [[sa sb]|] eqn:Es; [|split; apply Qle_refl].
      destruct (dget d (l_pr_sizes ly)) as [m|] eqn:Em; [|split; apply Qle_refl].
      destruct (Hsc _ _ _ Es) as (Hsa & Hsb). assert (Hm := Hsz _ _ Em).
      assert (Ha := Qfloor_ge_1 _ (Hone da)). assert (Hb := Qfloor_ge_1 _ (Hone db)).
      assert (Ha' := Qfloor_resp_le _ _ (Hext da)). assert (Hb' := Qfloor_resp_le _ _ (Hext db)).
      assert (Hmono := pr_size_mono sa sb _ _ _ _ Hsa Hsb (conj Ha Ha') (conj Hb Hb')).
      split; [change 1 with (inject_Z 1)|]; rewrite <- Zle_Qle; lia.
Qed.

Lemma tile_elements_mono ly op loops extra : layer_numbers_ok ly ->
  (forall l, In l (loops ++ extra) -> loop_ok ly l) ->
  1 <= tile_elements ly op loops <= tile_elements ly op (loops ++ extra).
Proof.
  intros Hly Hl. unfold tile_elements. destruct (dget op (l_r_or_pr ly)) as [dims|]; [|split; apply Qle_refl].
  induction dims as [|d dims IH]; cbn [map]; [split; apply Qle_refl|]. rewrite !qprod_cons.
  destruct (elements_along_mono ly loops extra d Hly Hl) as (H1 & H2). nra.
Qed.
