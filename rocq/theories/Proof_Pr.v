From Verif Require Import Base Model_Pr Spec_Pr.

Lemma in_zrange n x : In x (zrange n) <-> 0 <= x < n.
Proof.
  unfold zrange. rewrite in_map_iff. split.
  - intros (k & <- & Hk). apply in_seq in Hk. lia.
  - intros Hx. exists (Z.to_nat x). split; [lia|]. apply in_seq. lia.
Qed.

Lemma NoDup_zrange n : NoDup (zrange n).
Proof.
  unfold zrange. apply FinFun.Injective_map_NoDup; [|apply seq_NoDup].
  intros x y E. lia.
Qed.

Lemma length_zrange n : length (zrange n) = Z.to_nat n.
Proof. unfold zrange. now rewrite map_length, seq_length. Qed.

Definition grid (a b : Z) : list (Z * Z) := list_prod (zrange a) (zrange b).

Lemma NoDup_list_prod {A B} (l1 : list A) (l2 : list B) :
  NoDup l1 -> NoDup l2 -> NoDup (list_prod l1 l2).
Proof.
  intros H1 H2. induction H1 as [|x l Hni Hnd IH]; cbn; [constructor|].
  apply NoDup_app_intro; [|exact IH|].
  - apply FinFun.Injective_map_NoDup; [|exact H2]. intros u v E. congruence.
  - intros [u v] Hin. apply in_map_iff in Hin. destruct Hin as (w & E & _).
    injection E as <- <-. rewrite in_prod_iff. tauto.
Qed.

(** Canonical points: no predecessor one step along the collision vector. *)
Definition canon (sa' a sb' : Z) (p : Z * Z) : bool :=
  negb ((fst p + sb' <? a) && (sa' <=? snd p)).

Definition value (sa sb : Z) (p : Z * Z) : Z := sa * fst p + sb * snd p.

Lemma all_indices_grid sa a sb b :
  all_indices sa a sb b = map (value sa sb) (grid a b).
Proof.
  unfold all_indices, grid. generalize (zrange b) as yb.
  induction (zrange a) as [|x xs IH]; intros yb; cbn; [reflexivity|].
  rewrite map_app, <- IH, map_map. reflexivity.
Qed.

Section Count.
  Variables (sa a sb b g sa' sb' : Z).
  Hypothesis Hg : 0 < g.
  Hypothesis Hsa : sa = g * sa'.
  Hypothesis Hsb : sb = g * sb'.
  Hypothesis Hsa' : 0 < sa'.
  Hypothesis Hsb' : 0 < sb'.
  Hypothesis Hcop : Z.gcd sa' sb' = 1.

  Lemma collide x y x1 y1 :
    value sa sb (x, y) = value sa sb (x1, y1) ->
    exists k, x = x1 + k * sb' /\ y1 = y + k * sa'.
  Proof.
    unfold value; cbn. rewrite Hsa, Hsb. intros E.
    assert (E1 : sa' * (x - x1) = sb' * (y1 - y)) by nia.
    assert (Hdiv : (sb' | x - x1)).
    { apply Z.gauss with (m := sa').
      - exists (y1 - y). lia.
      - now rewrite Z.gcd_comm. }
    destruct Hdiv as (k & Hk). exists k. split; [lia|].
    rewrite Hk in E1. nia.
  Qed.

  Definition reps : list (Z * Z) := filter (canon sa' a sb') (grid a b).

  Lemma in_reps x y :
    In (x, y) reps <-> (0 <= x < a /\ 0 <= y < b) /\ ~ (x + sb' < a /\ sa' <= y).
  Proof.
    unfold reps. rewrite filter_In. unfold grid. rewrite in_prod_iff, !in_zrange.
    unfold canon; cbn [fst snd]. split; intros [H1 H2]; (split; [exact H1|]).
    - lia.
    - lia.
  Qed.

  Lemma reps_inj : NoDup (map (value sa sb) reps).
  Proof.
    assert (Hinj : forall p q, In p reps -> In q reps ->
              value sa sb p = value sa sb q -> p = q).
    { intros [x y] [x1 y1] Hp Hq E. apply in_reps in Hp, Hq.
      apply collide in E. destruct E as (k & Ex & Ey).
      assert (Hk : k = 0).
      { destruct (Z.lt_trichotomy k 0) as [Hk|[Hk|Hk]]; [|exact Hk|].
        - exfalso. apply (proj2 Hp). nia.
        - exfalso. apply (proj2 Hq). nia. }
      subst k. f_equal; lia. }
    assert (Hnd : NoDup reps).
    { apply NoDup_filter. apply NoDup_list_prod; apply NoDup_zrange. }
    revert Hinj Hnd. generalize reps as l. induction l as [|p l IH]; intros Hinj Hnd.
    - constructor.
    - inversion Hnd as [|p' l' Hni Hnd']; subst. cbn. constructor.
      + intros Hin. apply in_map_iff in Hin. destruct Hin as (q & E & Hq).
        apply Hni. replace p with q; [exact Hq|].
        apply Hinj; [now right|now left|exact E].
      + apply IH; [|exact Hnd']. intros u v Hu Hv. apply Hinj; now right.
  Qed.

  Lemma reps_cover (n : nat) : forall x y,
    (Z.to_nat y <= n)%nat -> 0 <= x < a -> 0 <= y < b ->
    In (value sa sb (x, y)) (map (value sa sb) reps).
  Proof.
    induction n as [|n IH]; intros x y Hn Hx Hy.
    - apply in_map. apply in_reps. lia.
    - destruct (Z_lt_dec (x + sb') a) as [H1|H1];
        [destruct (Z_le_dec sa' y) as [H2|H2]|].
      + replace (value sa sb (x, y)) with (value sa sb (x + sb', y - sa')).
        * apply IH; lia.
        * unfold value; cbn. rewrite Hsa, Hsb. ring.
      + apply in_map. apply in_reps. lia.
      + apply in_map. apply in_reps. lia.
  Qed.

  Lemma same_values z :
    In z (all_indices sa a sb b) <-> In z (map (value sa sb) reps).
  Proof.
    rewrite all_indices_grid. split; intros Hin.
    - apply in_map_iff in Hin. destruct Hin as ([x y] & <- & Hin).
      unfold grid in Hin. rewrite in_prod_iff, !in_zrange in Hin.
      apply (reps_cover (Z.to_nat y)); lia.
    - apply in_map_iff in Hin. destruct Hin as (p & <- & Hin).
      apply in_map. unfold reps in Hin. apply filter_In in Hin. tauto.
  Qed.

  Lemma distinct_reps : distinct (all_indices sa a sb b) = Z.of_nat (length reps).
  Proof.
    unfold distinct. f_equal.
    rewrite <- (map_length (value sa sb) reps).
    apply Permutation_length. apply NoDup_Permutation.
    - apply NoDup_nodup.
    - apply reps_inj.
    - intros z. rewrite nodup_In. apply same_values.
  Qed.

  (** Counting the points that are not canonical. *)
  Lemma filter_split {A} (f : A -> bool) (l : list A) :
    (length (filter f l) + length (filter (fun x => negb (f x)) l) = length l)%nat.
  Proof.
    induction l as [|x l IH]; cbn; [reflexivity|].
    destruct (f x); cbn; lia.
  Qed.

  Definition noncanon : list (Z * Z) :=
    list_prod (zrange (a - sb')) (map (fun y => y + sa') (zrange (b - sa'))).

  Lemma noncanon_perm :
    Permutation (filter (fun p => negb (canon sa' a sb' p)) (grid a b)) noncanon.
  Proof.
    apply NoDup_Permutation.
    - apply NoDup_filter. apply NoDup_list_prod; apply NoDup_zrange.
    - apply NoDup_list_prod; [apply NoDup_zrange|].
      apply FinFun.Injective_map_NoDup; [|apply NoDup_zrange].
      intros u v E. lia.
    - intros [x y]. rewrite filter_In. unfold grid, noncanon, canon.
      rewrite !in_prod_iff, !in_zrange, in_map_iff. cbn [fst snd].
      rewrite negb_involutive. split.
      + intros [[Hx Hy] H2]. split; [lia|]. exists (y - sa'). rewrite in_zrange. lia.
      + intros [Hx (y0 & <- & Hy)]. apply in_zrange in Hy. lia.
  Qed.

  Lemma length_reps : 0 <= a -> 0 <= b ->
    Z.of_nat (length reps) = a * b - Z.max 0 (a - sb') * Z.max 0 (b - sa').
  Proof.
    intros Ha Hb. pose proof (filter_split (canon sa' a sb') (grid a b)) as Hs.
    rewrite (Permutation_length noncanon_perm) in Hs.
    unfold noncanon, grid in Hs. rewrite !prod_length, map_length, !length_zrange in Hs.
    fold (grid a b) in Hs. fold reps in Hs. nia.
  Qed.
End Count.

(** The true number of distinct indices, for all positive strides and sizes. *)
Lemma distinct_formula sa a sb b : 0 < sa -> 0 < sb -> 0 <= a -> 0 <= b ->
  distinct (all_indices sa a sb b) =
  a * b - Z.max 0 (a - sb / Z.gcd sa sb) * Z.max 0 (b - sa / Z.gcd sa sb).
Proof.
  intros Hsa Hsb Ha Hb.
  set (g := Z.gcd sa sb).
  assert (Hg : 0 < g).
  { pose proof (Z.gcd_nonneg sa sb) as Hn. fold g in Hn.
    assert (g <> 0); [|lia]. intros E. apply Z.gcd_eq_0_l in E. lia. }
  destruct (Z.gcd_divide_l sa sb) as (sa' & Esa).
  destruct (Z.gcd_divide_r sa sb) as (sb' & Esb).
  fold g in Esa, Esb.
  assert (Ea : sa / g = sa') by (rewrite Esa; apply Z.div_mul; lia).
  assert (Eb : sb / g = sb') by (rewrite Esb; apply Z.div_mul; lia).
  rewrite Ea, Eb.
  assert (Hsa' : 0 < sa') by nia. assert (Hsb' : 0 < sb') by nia.
  rewrite (distinct_reps sa a sb b g sa' sb'); try lia.
  - now apply length_reps.
  - rewrite <- Ea, <- Eb. apply Z.gcd_div_gcd; [lia|reflexivity].
Qed.

Lemma pr_size_iff sa a sb b : 0 < sa -> 0 < sb -> 0 < a -> 0 < b ->
  (calc_pr_dimension_size sa a sb b = distinct (all_indices sa a sb b) <->
   (b <= sa / Z.gcd sa sb \/ sb / Z.gcd sa sb <= a)).
Proof.
  intros Hsa Hsb Ha Hb. rewrite distinct_formula by lia.
  unfold calc_pr_dimension_size. set (u := sa / Z.gcd sa sb).
  set (v := sb / Z.gcd sa sb). nia.
Qed.

(** Outside that region the code over-counts. *)
Lemma pr_size_over sa a sb b : 0 < sa -> 0 < sb -> 0 < a -> 0 < b ->
  distinct (all_indices sa a sb b) <= calc_pr_dimension_size sa a sb b.
Proof.
  intros Hsa Hsb Ha Hb. rewrite distinct_formula by lia.
  unfold calc_pr_dimension_size. set (u := sa / Z.gcd sa sb).
  set (v := sb / Z.gcd sa sb). nia.
Qed.

(** Unit second stride with a wide enough first size: a contiguous range. *)
Lemma pr_size_unit_stride sa a b : 0 < sa -> 0 < a -> sa <= b ->
  calc_pr_dimension_size sa a 1 b = sa * (a - 1) + (b - 1) + 1.
Proof.
  intros Hsa Ha Hb. unfold calc_pr_dimension_size. rewrite Z.gcd_1_r, !Z.div_1_r. nia.
Qed.

(** Growing a tile never shrinks the number of derived indices, in the exact region. *)
Lemma distinct_mono sa a a1 sb b b1 : a <= a1 -> b <= b1 ->
  distinct (all_indices sa a sb b) <= distinct (all_indices sa a1 sb b1).
Proof.
  intros Ha Hb. unfold distinct. apply inj_le. apply NoDup_incl_length; [apply NoDup_nodup|].
  intros z Hz. rewrite nodup_In in *. rewrite all_indices_grid in *.
  apply in_map_iff in Hz. destruct Hz as ([x y] & <- & Hin). apply in_map.
  unfold grid in *. rewrite in_prod_iff, !in_zrange in *. lia.
Qed.

(** Unit kernel stride: every index of the range is hit. *)
Lemma in_contiguous sa a b c : 0 < sa -> 0 < a -> sa <= b ->
  In c (all_indices sa a 1 b) <-> 0 <= c < sa * (a - 1) + b.
Proof.
  intros Hsa Ha Hb. rewrite all_indices_grid, in_map_iff. split.
  - intros ([x y] & <- & H). unfold grid in H. rewrite in_prod_iff, !in_zrange in H. unfold value. cbn -[Z.mul].
    assert (sa * x <= sa * (a - 1)) by (apply Z.mul_le_mono_nonneg_l; lia). nia.
  - intros H. exists (Z.min (a - 1) (c / sa), c - sa * Z.min (a - 1) (c / sa)). split; [unfold value; cbn -[Z.mul Z.min Z.div Z.add Z.sub]; ring|].
    unfold grid. rewrite in_prod_iff, !in_zrange.
    pose proof (Z.div_mod c sa ltac:(lia)) as E. pose proof (Z.mod_pos_bound c sa Hsa) as Hm.
    assert (0 <= c / sa) by (apply Z.div_pos; lia).
    destruct (Z.min_spec (a - 1) (c / sa)) as [[Hl ->]|[Hl ->]]; nia.
Qed.

Lemma pr_total_unpadded sa a b left right : 0 < sa -> 0 < a -> sa <= b -> 0 <= left -> 0 <= right ->
  left + right <= sa * (a - 1) + b ->
  calc_pr_dimension_size_total sa a 1 b (left, right)
  = distinct (unpadded (sa * (a - 1) + b) left right (all_indices sa a 1 b)).
Proof.
  intros Hsa Ha Hb Hl Hr Hlr. unfold calc_pr_dimension_size_total. cbn [fst snd].
  rewrite pr_size_unit_stride by lia. unfold distinct.
  set (n := sa * (a - 1) + b) in *.
  assert (E : length (nodup Z.eq_dec (unpadded n left right (all_indices sa a 1 b)))
              = length (map (Z.add left) (zrange (n - left - right)))).
  { apply Permutation.Permutation_length, NoDup_Permutation.
    - apply NoDup_nodup.
    - apply FinFun.Injective_map_NoDup; [intros x y; lia|apply NoDup_zrange].
    - intros c. rewrite nodup_In. unfold unpadded. rewrite filter_In, in_contiguous, in_map_iff by lia.
      rewrite andb_true_iff, Z.leb_le, Z.ltb_lt. fold n. split.
      + intros (H & H1 & H2). exists (c - left). rewrite in_zrange. lia.
      + intros (y & <- & H). rewrite in_zrange in H. lia. }
  rewrite E, map_length, length_zrange. lia.
Qed.
