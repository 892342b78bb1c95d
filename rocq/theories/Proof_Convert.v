(** Proofs for C17 and C18. *)
From Coq Require Import QArith Lqa.
From Verif Require Import Base Model_SpatialMap Model_Convert Spec_SpatialMap Spec_Convert Proof_SpatialMap Proof_AllocSearch.
Local Open Scope result_scope.
Local Open Scope Q_scope.

(** * C17: distribution over the levels *)
Lemma unrolled_total_app a b d : unrolled_total (a ++ b) d == unrolled_total a d * unrolled_total b d.
Proof. induction a as [|[o m] a IH]; cbn [app unrolled_total]; [lra|]. rewrite IH. ring. Qed.
Lemma unrolled_total_perm a b d : Permutation a b -> unrolled_total a d == unrolled_total b d.
Proof.
  induction 1 as [|[o m] a b H IH|[o m] [o' m'] a|a b c H1 I1 H2 I2]; cbn [unrolled_total].
  - reflexivity.
  - now rewrite IH.
  - ring.
  - now rewrite I1.
Qed.
Lemma unrolled_total_split (f : string * dict string Q -> bool) sm d :
  unrolled_total (filter f sm) d * unrolled_total (filter (fun x => negb (f x)) sm) d == unrolled_total sm d.
Proof.
  induction sm as [|[o m] sm IH]; cbn [filter unrolled_total]; [reflexivity|].
  destruct (f (o, m)); cbn [negb unrolled_total]; rewrite <- IH; ring.
Qed.

(** [acc] lists the dimensions of the array dimensions [L] with their products. *)
Definition holds (acc : dict string Q) (L : list (string * dict string Q)) : Prop :=
  NoDup (keys acc) /\ (forall d, In d (keys acc) <-> exists o m, In (o, m) L /\ In d (keys m)) /\
  (forall d q, dget d acc = Some q -> q == unrolled_total L d).

Lemma holds_perm acc L L' : Permutation L L' -> holds acc L -> holds acc L'.
Proof.
  intros HP (H1 & H2 & H3). split; [exact H1|]. split.
  - intros d. rewrite H2. split; intros (o & m & Hi & Hd); exists o, m; split; try exact Hd.
    + now apply (Permutation_in _ HP). + now apply (Permutation_in _ (Permutation_sym HP)).
  - intros d q Hq. rewrite (H3 d q Hq). now apply unrolled_total_perm.
Qed.

Lemma unrolled_total_absent L d : (forall o m, In (o, m) L -> ~ In d (keys m)) -> unrolled_total L d == 1.
Proof.
  induction L as [|[o m] L IH]; intros H; cbn [unrolled_total]; [reflexivity|].
  rewrite IH by (intros; eapply H; right; eassumption).
  replace (dget d m) with (@None Q); [lra|]. symmetry. apply dget_None. apply (H o). now left.
Qed.

Lemma merge_get m : forall acc, NoDup (keys m) -> forall d,
  dget d (merge_loops acc m) = match dget d m with
                               | Some u => Some (match dget d acc with Some v => (v * u)%Q | None => u end)
                               | None => dget d acc end.
Proof.
  unfold merge_loops. induction m as [|[k v] m IH]; intros acc Hn d; [reflexivity|].
  inversion Hn as [|? ? Hk Hm]; subst. cbn [fold_left fst snd]. rewrite IH by exact Hm. cbn [dget].
  destruct (eqb_spec d k) as [->|Hne].
  - replace (dget k m) with (@None Q) by (symmetry; now apply dget_None). now rewrite dget_dset_eq.
  - now rewrite dget_dset_neq by exact Hne.
Qed.
Lemma merge_keys m : forall acc d, In d (keys (merge_loops acc m)) <-> In d (keys acc) \/ In d (keys m).
Proof.
  unfold merge_loops. induction m as [|[k v] m IH]; intros acc d; cbn [fold_left fst snd]; [cbn; tauto|].
  rewrite IH, In_keys_dset. cbn [keys map fst In]. intuition congruence.
Qed.
Lemma merge_NoDup m : forall acc, NoDup (keys acc) -> NoDup (keys (merge_loops acc m)).
Proof.
  unfold merge_loops. induction m as [|[k v] m IH]; intros acc Hn; cbn [fold_left]; [exact Hn|]. apply IH. now apply NoDup_dset.
Qed.

Lemma holds_merge acc L o m : NoDup (keys m) -> holds acc L -> holds (merge_loops acc m) (L ++ [(o, m)]).
Proof.
  intros Hm (H1 & H2 & H3). split; [now apply merge_NoDup|]. split.
  - intros d. rewrite merge_keys, H2. split.
    + intros [(o' & m' & Hi & Hd)|Hd].
      * exists o', m'. split; [apply in_or_app; now left|exact Hd].
      * exists o, m. split; [apply in_or_app; right; now left|exact Hd].
    + intros (o' & m' & Hi & Hd). apply in_app_or in Hi as [Hi|[[= <- <-]|[]]]; [left|now right]. now exists o', m'.
  - intros d q. rewrite merge_get by exact Hm. rewrite unrolled_total_app. cbn [unrolled_total].
    destruct (dget d m) as [u|] eqn:Em.
    + intros [= <-]. destruct (dget d acc) as [v|] eqn:Ea.
      * rewrite (H3 d v Ea). ring.
      * rewrite unrolled_total_absent; [lra|]. intros o' m' Hi Hd. apply dget_None in Ea. apply Ea, H2. now exists o', m'.
    + intros Ha. rewrite (H3 d q Ha). ring.
Qed.

Lemma dget_filter_key {V} (f : string -> bool) (sm : dict string V) o :
  dget o (filter (fun om => f (fst om)) sm) = if f o then dget o sm else None.
Proof.
  induction sm as [|[k v] sm IH]; [now destruct (f o)|]. cbn [filter fst dget].
  destruct (f k) eqn:E; cbn [dget]; destruct (eqb_spec o k) as [->|Hne]; rewrite ?E; try reflexivity; rewrite IH; now rewrite ?E.
Qed.

Definition in_b (l : list string) (o : string) : bool := if in_dec string_dec o l then true else false.
Lemma in_b_spec l o : reflect (In o l) (in_b l o).
Proof. unfold in_b. destruct (in_dec string_dec o l); now constructor. Qed.

Lemma ddel_filter' {V} (o : string) (sm : dict string V) : NoDup (keys sm) -> ddel o sm = filter (fun om => negb (eqb (fst om) o)) sm.
Proof.
  induction sm as [|[k v] m IH]; cbn [ddel keys map fst filter]; intros Hn; [reflexivity|].
  inversion Hn as [|? ? Hk Hm]; subst. destruct (eqb_spec o k) as [->|Hne].
  - rewrite eqb_refl. cbn [negb]. symmetry. apply filter_all. intros [k' v'] Hi. cbn [fst]. rewrite (eqb_neq k' k); [reflexivity|].
    intros ->. apply Hk. apply in_map_iff. now exists (k, v').
  - rewrite (eqb_neq k o) by congruence. cbn [negb]. f_equal. now apply IH.
Qed.

Lemma filter_one {V} (o : string) (v : V) (sm : dict string V) : NoDup (keys sm) -> dget o sm = Some v ->
  filter (fun om => eqb (fst om) o) sm = [(o, v)].
Proof.
  induction sm as [|[k w] sm IH]; cbn [dget keys map fst filter]; intros Hn; [discriminate|].
  inversion Hn as [|? ? Hk Hm]; subst. destruct (eqb_spec o k) as [->|Hne].
  - intros [= ->]. rewrite eqb_refl. f_equal. apply dget_None in Hk.
    clear -Hk. induction sm as [|[k' v'] sm IH]; [reflexivity|]. cbn [dget] in Hk. cbn [filter fst].
    destruct (eqb_spec k k') as [->|Hne]; [discriminate|]. rewrite (eqb_neq k' k) by congruence. now apply IH.
  - rewrite (eqb_neq k o) by congruence. now apply IH.
Qed.

Lemma dicts_filter f sm : dicts sm -> dicts (filter f sm).
Proof.
  intros [H1 H2]. split.
  - clear H2. induction sm as [|[k v] m IH]; cbn [keys map fst filter] in *; [constructor|].
    inversion H1 as [|? ? Hk Hm]; subst. destruct (f (k, v)); [|now apply IH]. cbn [map fst]. constructor; [|now apply IH].
    intros H. apply Hk. apply in_map_iff in H as (x & <- & Hx). apply filter_In in Hx as [Hx _]. now apply in_map.
  - intros o m H. apply filter_In in H as [H _]. now apply (H2 o).
Qed.

Lemma filter_split_perm {A} (f g h : A -> bool) l : (forall x, h x = (f x || g x)%bool) -> (forall x, In x l -> f x = true -> g x = false) ->
  Permutation (filter f l ++ filter g l) (filter h l).
Proof.
  intros Hh. induction l as [|x l IH]; intros Hd; [constructor|]. cbn [filter]. rewrite Hh.
  assert (IH' := IH (fun y Hy => Hd y (or_intror Hy))). clear IH.
  destruct (f x) eqn:Ef.
  - rewrite (Hd x (or_introl eq_refl) Ef). cbn [orb app]. now constructor.
  - cbn [orb]. destruct (g x); [|exact IH']. symmetry. eapply Permutation_trans; [|apply Permutation_middle]. constructor. now symmetry.
Qed.

Lemma level_loops_spec served : forall usm acc L, dicts usm -> holds acc L ->
  let '(lv, usm') := level_loops served usm acc in
  holds lv (L ++ filter (fun om => in_b served (fst om)) usm) /\
  usm' = filter (fun om => negb (in_b served (fst om))) usm.
Proof.
  induction served as [|o served IH]; intros usm acc L Hd Ha; cbn [level_loops].
  - split.
    + replace (filter (fun om => in_b [] (fst om)) usm) with (@nil (string * dict string Q)); [now rewrite app_nil_r|].
      symmetry. clear. induction usm; [reflexivity|exact IHusm].
    + symmetry. apply filter_all. reflexivity.
  - assert (Hcons : forall k, in_b (o :: served) k = (eqb k o || in_b served k)%bool).
    { intros k. destruct (eqb_spec k o) as [->|Hne]; cbn [orb].
      - destruct (in_b_spec (o :: served) o) as [|H]; [reflexivity|exfalso; apply H; now left].
      - destruct (in_b_spec (o :: served) k) as [H|H], (in_b_spec served k) as [H'|H']; try reflexivity; exfalso.
        + destruct H as [H|H]; [congruence|tauto]. + apply H. now right. }
    destruct (dget o usm) as [m|] eqn:Em.
    + assert (Hm : NoDup (keys m)) by (apply dget_In in Em; now apply (proj2 Hd o)).
      assert (Hdd : dicts (ddel o usm)) by (rewrite ddel_filter' by apply Hd; now apply dicts_filter).
      specialize (IH (ddel o usm) (merge_loops acc m) (L ++ [(o, m)]) Hdd (holds_merge acc L o m Hm Ha)).
      destruct (level_loops served (ddel o usm) (merge_loops acc m)) as [lv usm']. destruct IH as [I1 I2]. split.
      * eapply holds_perm; [|exact I1]. rewrite <- app_assoc. apply Permutation_app_head.
        rewrite ddel_filter' by apply Hd. rewrite filter_filter. rewrite <- (filter_one o m usm) by (apply Hd || exact Em).
        apply filter_split_perm.
        -- intros x. rewrite Hcons. destruct (eqb (fst x) o); cbn; [reflexivity|]. now rewrite andb_true_r.
        -- intros x _ E. rewrite E. cbn. now rewrite andb_false_r.
      * rewrite I2, ddel_filter' by apply Hd. rewrite filter_filter. apply filter_ext. intros x. rewrite Hcons.
        destruct (eqb (fst x) o), (in_b served (fst x)); reflexivity.
    + specialize (IH usm acc L Hd Ha). destruct (level_loops served usm acc) as [lv usm']. destruct IH as [I1 I2].
      assert (Hsame : forall x, In x usm -> in_b (o :: served) (fst x) = in_b served (fst x)).
      { intros [k v] Hi. rewrite Hcons. cbn [fst]. destruct (eqb_spec k o) as [->|]; [|reflexivity].
        exfalso. apply dget_None in Em. apply Em. apply in_map_iff. now exists (o, v). }
      split.
      * replace (filter (fun om => in_b (o :: served) (fst om)) usm) with (filter (fun om => in_b served (fst om)) usm); [exact I1|].
        apply filter_ext_in. intros x Hi. now rewrite Hsame.
      * rewrite I2. apply filter_ext_in. intros x Hi. now rewrite Hsame.
Qed.

Lemma holds_nil : holds [] [].
Proof.
  split; [constructor|]. split; [|discriminate]. intros d. split; [intros []|]. intros (o & m & [] & _).
Qed.

Lemma holds_level_right usm lv : dicts usm -> holds lv usm -> level_right usm lv.
Proof.
  intros Hd (H1 & H2 & H3). split; [exact H1|]. split.
  - intros d. change (In d (map fst lv)) with (In d (keys lv)). rewrite H2. split.
    + intros (o & m & Hi & Hk). apply key_dget in Hk as (u & Hu). exists o, u, m. split; [|exact Hu]. apply In_dget; [apply Hd|exact Hi].
    + intros (o & u & m & Ho & Hu). exists o, m. split; [now apply dget_In|]. now apply dget_Some_key in Hu.
  - intros d q Hi. apply H3. now apply In_dget.
Qed.

Lemma merge_all usm : forall acc L, (forall o m, In (o, m) usm -> NoDup (keys m)) -> holds acc L ->
  holds (fold_left merge_loops (values usm) acc) (L ++ usm).
Proof.
  induction usm as [|[o m] usm IH]; intros acc L Hd Ha; cbn [values map fold_left snd].
  - now rewrite app_nil_r.
  - replace (L ++ (o, m) :: usm) with ((L ++ [(o, m)]) ++ usm) by now rewrite <- app_assoc.
    apply IH; [intros; eapply Hd; right; eassumption|]. apply holds_merge; [apply (Hd o); now left|exact Ha].
Qed.

Lemma level_total usm lv d : dicts usm -> level_right usm lv ->
  qprod (map snd (filter (fun x => if string_dec (fst x) d then true else false) lv)) == unrolled_total usm d.
Proof.
  intros Hd (H1 & H2 & H3).
  assert (E : qprod (map snd (filter (fun x => if string_dec (fst x) d then true else false) lv))
    == match dget d lv with Some u => u | None => 1 end).
  { rewrite <- filter_key_dget by exact H1. erewrite filter_ext; [reflexivity|]. intros x.
    destruct (string_dec (fst x) d) as [->|Hne]; [now rewrite eqb_refl|now rewrite eqb_neq]. }
  rewrite E. destruct (dget d lv) as [q|] eqn:Eq; [apply H3; now apply dget_In|].
  symmetry. apply unrolled_total_absent. intros o m Hi Hk. apply dget_None in Eq. apply Eq. apply H2.
  apply key_dget in Hk as (u & Hu). exists o, u, m. split; [|exact Hu]. apply In_dget; [apply Hd|exact Hi].
Qed.

Theorem per_mem_lvl_ok levels : forall usm, dicts usm ->
  length (per_mem_lvl levels usm) = S (length levels) /\
  (forall i loops, nth_error (per_mem_lvl levels usm) i = Some loops -> level_right (at_home levels i usm) loops) /\
  (forall d, over_levels (per_mem_lvl levels usm) d == unrolled_total usm d).
Proof.
  induction levels as [|served levels IH]; intros usm Hd; cbn [per_mem_lvl].
  - assert (Hr : level_right usm (fold_left merge_loops (values usm) [])).
    { apply holds_level_right; [exact Hd|]. apply (merge_all usm [] [] (proj2 Hd) holds_nil). }
    split; [reflexivity|]. split.
    + intros [|i] loops Hn; [|destruct i; discriminate]. injection Hn as <-. unfold at_home. rewrite filter_all by reflexivity. exact Hr.
    + intros d. unfold over_levels. cbn [concat]. rewrite app_nil_r. now apply level_total.
  - assert (H := level_loops_spec served usm [] [] Hd holds_nil). destruct (level_loops served usm []) as [lv usm'].
    destruct H as [H1 ->]. cbn [app] in H1. assert (Hf := dicts_filter (fun om => in_b served (fst om)) usm Hd).
    apply holds_level_right in H1; [|exact Hf].
    assert (Hg := dicts_filter (fun om => negb (in_b served (fst om))) usm Hd). destruct (IH _ Hg) as (I1 & I2 & I3).
    split; [cbn [length]; now rewrite I1|]. split.
    + intros [|i] loops Hn.
      * injection Hn as <-. unfold at_home. erewrite filter_ext; [exact H1|]. intros [o m]. cbn [home fst]. unfold in_b.
        now destruct (in_dec string_dec o served).
      * apply I2 in Hn. unfold at_home in *. rewrite filter_filter in Hn. erewrite filter_ext; [exact Hn|].
        intros [o m]. cbn [home fst]. unfold in_b. destruct (in_dec string_dec o served); cbn; [now rewrite andb_false_r|now rewrite andb_true_r].
    + intros d. unfold over_levels. cbn [concat]. rewrite filter_app, map_app, qprod_app.
      fold (over_levels (per_mem_lvl levels (filter (fun om => negb (in_b served (fst om))) usm)) d).
      rewrite I3, (level_total _ _ d Hf H1). apply (unrolled_total_split (fun om => in_b served (fst om))).
Qed.

Theorem mapping_per_mem_lvl_ok levels_of usm : dicts usm ->
  Forall2 (fun ol ol' => fst ol' = fst ol /\ length (snd ol') = S (length (snd ol)) /\
      (forall i loops, nth_error (snd ol') i = Some loops -> level_right (at_home (snd ol) i usm) loops) /\
      (forall d, over_levels (snd ol') d == unrolled_total usm d))
    levels_of (mapping_per_mem_lvl levels_of usm).
Proof.
  intros Hd. unfold mapping_per_mem_lvl. induction levels_of as [|[o l] ls IH]; cbn [map]; constructor; [|exact IH].
  cbn [fst snd]. split; [reflexivity|]. now apply per_mem_lvl_ok.
Qed.
