(** Proofs for C18. *)
From Coq Require Import QArith Lqa.
From Verif Require Import Base Model_SpatialMap Model_Convert Spec_SpatialMap Spec_Convert Proof_SpatialMap Proof_Convert Proof_AllocSearch.
Local Open Scope result_scope.
Local Open Scope Q_scope.

(** * Arithmetic *)
Lemma split_exact (l : Z) (u e : Q) : (1 <= l)%Z -> 0 < u -> 0 < e ->
  let t := Qceiling (inject_Z l / (u * e)) in let x := inject_Z l / inject_Z t / e in
  (1 <= t)%Z /\ 0 < x <= u /\ e * x * inject_Z t == inject_Z l /\
  (forall t', inject_Z l <= e * u * inject_Z t' -> (t <= t')%Z).
Proof.
  intros Hl Hu He t x.
  assert (Hl' : 1 <= inject_Z l) by (change 1 with (inject_Z 1); now apply inject_Z_le_iff).
  assert (Hue : 0 < u * e) by nra.
  destruct (Qceiling_bounds (inject_Z l / (u * e))) as [B1 B2]. fold t in B1, B2.
  assert (Eq : inject_Z l == inject_Z l / (u * e) * (u * e)) by (field; split; lra).
  assert (Hq : 0 < inject_Z l / (u * e)).
  { set (q := inject_Z l / (u * e)) in *. clearbody q. nra. }
  assert (Ht : (1 <= t)%Z).
  { assert (H : inject_Z 0 < inject_Z t) by (eapply Qlt_le_trans; [exact Hq|exact B1]). apply (proj1 (inject_Z_lt_iff _ _)) in H. lia. }
  assert (Ht' : 1 <= inject_Z t) by (change 1 with (inject_Z 1); now apply inject_Z_le_iff).
  assert (Ex : e * x * inject_Z t == inject_Z l) by (unfold x; field; split; lra).
  split; [exact Ht|]. split; [|split; [exact Ex|]].
  - clearbody x. set (q := inject_Z l / (u * e)) in *. clearbody q. assert (Hbound : inject_Z l <= u * e * inject_Z t) by nra.
    assert (0 < e * inject_Z t) by nra. split.
    + destruct (Qlt_le_dec 0 x) as [|H']; [assumption|]. exfalso. nra.
    + destruct (Qlt_le_dec u x) as [H'|]; [|assumption]. exfalso. nra.
  - intros t' H. set (q := inject_Z l / (u * e)) in *. clearbody q.
    assert (Hqt : q <= inject_Z t').
    { destruct (Qlt_le_dec (inject_Z t') q) as [H'|]; [|assumption]. exfalso. nra. }
    assert (H1 : inject_Z t < inject_Z t' + 1) by lra. change 1 with (inject_Z 1) in H1. rewrite <- inject_Z_plus in H1.
    apply (proj1 (inject_Z_lt_iff _ _)) in H1. lia.
Qed.

Lemma trunc_bounds q : 0 <= q -> inject_Z (trunc q) <= q < inject_Z (trunc q) + 1.
Proof.
  intros H. assert (E : trunc q = Qfloor q).
  { destruct q as [a b]. unfold trunc, Qfloor. cbn [Qnum Qden]. apply Z.quot_div_nonneg; [|lia]. unfold Qle in H. cbn in H. lia. }
  rewrite E. split; [apply Qfloor_le|]. assert (H' := Qlt_floor q). rewrite inject_Z_plus in H'. exact H'.
Qed.

(** * The first largest *)
Lemma find_split {A} (f : A -> bool) l x : find f l = Some x ->
  exists b a, l = b ++ x :: a /\ f x = true /\ forall y, In y b -> f y = false.
Proof.
  induction l as [|y l IH]; cbn [find]; [discriminate|]. destruct (f y) eqn:E.
  - intros [= ->]. exists [], l. split; [reflexivity|]. split; [exact E|]. intros ? [].
  - intros H. destruct (IH H) as (b & a & -> & Hx & Hb). exists (y :: b), a. split; [reflexivity|]. split; [exact Hx|].
    intros z [<-|Hz]; [exact E|now apply Hb].
Qed.
Lemma split_cases {A} (b b' a a' : list A) x y : b ++ x :: a = b' ++ y :: a' ->
  (b = b' /\ x = y /\ a = a') \/ In x b' \/ In y b.
Proof.
  revert b'. induction b as [|z b IH]; intros [|z' b'] H; cbn in H.
  - injection H as -> ->. now left.
  - injection H as -> _. right. left. now left.
  - injection H as -> _. right. right. now left.
  - injection H as -> H. destruct (IH b' H) as [(-> & -> & ->)|[Hi|Hi]]; [now left|right; left; now right|right; right; now right].
Qed.

Definition positive (sm : dict string (dict string Q)) : Prop :=
  forall o m d u, In (o, m) sm -> dget d m = Some u -> 0 < u.

Lemma is_first_max_ok sm o m d u : positive sm -> NoDup (keys sm) -> In (o, m) sm -> dget d m = Some u ->
  exists b, is_first_max o d sm = Ok b /\ (b = true <-> first_largest sm o d).
Proof.
  intros Hp Hn Hi Hd. unfold is_first_max.
  destruct (qmax_list (map (dim_or_zero d) (values sm))) as [mx|] eqn:E.
  2:{ destruct sm as [|x sm]; [destruct Hi|]. cbn [values map qmax_list] in E. destruct (qmax_list _); discriminate. }
  cbn [of_option rbind]. apply qmax_list_spec in E as [E1 E2].
  assert (Hmx : forall o' m' u', In (o', m') sm -> dget d m' = Some u' -> u' <= mx).
  { intros o' m' u' H1 H2. apply E2. apply in_map_iff. exists m'. split; [unfold dim_or_zero; now rewrite H2|].
    apply in_map_iff. now exists (o', m'). }
  assert (0 < mx) by (assert (u <= mx) by (eapply Hmx; eassumption); assert (0 < u) by (eapply Hp; eassumption); lra).
  destruct (qgt_spec mx 0); [|lra]. cbn [negb].
  set (test := fun om : string * dict string Q => match dget d (snd om) with Some u0 => Qeq_bool u0 mx | None => false end).
  assert (Hex : exists om, In om sm /\ test om = true).
  { apply in_map_iff in E1 as (m1 & Em & Hm1). apply in_map_iff in Hm1 as ([o1 m2] & <- & Hin). exists (o1, m2). split; [exact Hin|].
    unfold test, dim_or_zero in *. cbn [snd] in *. destruct (dget d m2) as [v|]; [apply Qeq_bool_iff; rewrite Em; reflexivity|].
    exfalso. rewrite <- Em in H. lra. }
  destruct (find test sm) as [[o1 m1]|] eqn:Ef.
  2:{ destruct Hex as (om & H1 & H2). apply (find_none _ _ Ef) in H1. congruence. }
  exists (eqb o o1). split; [reflexivity|].
  destruct (find_split _ _ _ Ef) as (b & a & Es & Ht & Hb).
  assert (Hu1 : exists u1, dget d m1 = Some u1 /\ u1 == mx).
  { unfold test in Ht. cbn [snd] in Ht. destruct (dget d m1) as [u1|]; [|discriminate]. exists u1. split; [reflexivity|]. now apply Qeq_bool_iff. }
  destruct Hu1 as (u1 & Ed1 & Eu1). cbn [fst]. split.
  - intros Eo. destruct (eqb_spec o o1) as [->|]; [|discriminate]. exists b, m1, a, u1. split; [exact Es|]. split; [exact Ed1|]. split.
    + intros o' m' u' H1 H2. assert (Hle : u' <= mx) by (apply (Hmx o' m'); [rewrite Es; apply in_or_app; now left|exact H2]).
      apply Hb in H1. unfold test in H1. cbn [snd] in H1. rewrite H2 in H1.
      destruct (Qlt_le_dec u' u1) as [|Hge]; [assumption|]. assert (u' == mx) by lra. apply Qeq_bool_iff in H0. congruence.
    + intros o' m' u' H1 H2. rewrite Eu1. apply (Hmx o' m'); [rewrite Es; apply in_or_app; right; now right|exact H2].
  - intros (b' & m' & a' & u' & Es' & Ed' & Hb' & Ha'). rewrite Es in Es'.
    destruct (split_cases _ _ _ _ _ _ Es') as [(_ & [= -> ->] & _)|[Hin|Hin]]; [apply eqb_refl|exfalso..].
    + specialize (Hb' o1 m1 u1 Hin Ed1). assert (u' <= mx); [|lra]. apply (Hmx o m'); [|exact Ed'].
      rewrite Es, Es'. apply in_or_app. right. now left.
    + apply Hb in Hin. unfold test in Hin. cbn [snd] in Hin. rewrite Ed' in Hin.
      assert (Hle : u' <= mx) by (apply (Hmx o m'); [rewrite Es, Es'; apply in_or_app; right; now left|exact Ed']).
      assert (Hge : u1 <= u').
      { assert (Hin1 : In (o1, m1) (b' ++ (o, m') :: a')) by (rewrite <- Es'; apply in_or_app; right; now left).
        apply in_app_or in Hin1 as [Hin1|[Hin1|Hin1]].
        - specialize (Hb' o1 m1 u1 Hin1 Ed1). lra.
        - injection Hin1 as -> ->. assert (u' = u1) by congruence. subst. lra.
        - now apply (Ha' o1 m1 u1). }
      assert (u' == mx) by lra. apply Qeq_bool_iff in H0. congruence.
Qed.

Lemma first_largest_unique sm o o' d : first_largest sm o d -> first_largest sm o' d -> o = o'.
Proof.
  intros (b & m & a & u & E & Ed & Hb & Ha) (b' & m' & a' & u' & E' & Ed' & Hb' & Ha').
  assert (Hi' : In (o', m') (b ++ (o, m) :: a)) by (rewrite <- E, E'; apply in_or_app; right; now left).
  assert (Hi : In (o, m) (b' ++ (o', m') :: a')) by (rewrite <- E', E; apply in_or_app; right; now left).
  rewrite E in E'. destruct (split_cases _ _ _ _ _ _ E') as [(_ & [= -> ->] & _)|[H|H]]; [reflexivity|exfalso..].
  - specialize (Hb' _ _ _ H Ed). apply in_app_or in Hi' as [H'|[H'|H']].
    + specialize (Hb _ _ _ H' Ed'). lra.
    + injection H' as <- <-. assert (u = u') by congruence. subst. lra.
    + specialize (Ha _ _ _ H' Ed'). lra.
  - specialize (Hb _ _ _ H Ed'). apply in_app_or in Hi as [H'|[H'|H']].
    + specialize (Hb' _ _ _ H' Ed). lra.
    + injection H' as <- <-. assert (u = u') by congruence. subst. lra.
    + specialize (Ha' _ _ _ H' Ed). lra.
Qed.

(** * The conversion *)
Section Limit.
  Variables (sizes oa_sizes : dict string Z) (user : dict string (dict string Q)).
  Hypothesis Hv : valid_user sizes oa_sizes user.

  Definition row_ok (o : string) (du : string * Q) (xy : (string * Q) * (string * Q)) : Prop :=
    fst (fst xy) = fst du /\ fst (snd xy) = fst du /\
    limited_to sizes user o (fst du) (snd du) (snd (fst xy)) /\
    ((~ first_largest user o (fst du) /\ snd (snd xy) = snd du) \/
     (first_largest user o (fst du) /\ rounded_down (snd (fst xy)) (snd (snd xy)))).

  Inductive conv : list (string * dict string Q) -> list (string * dict string Q) -> list (string * dict string Q) -> Prop :=
  | conv_nil : conv [] [] []
  | conv_skip pre a b o : conv pre a b -> conv (pre ++ [(o, [])]) a b
  | conv_add pre a b o m rows : conv pre a b -> m <> [] -> Forall2 (row_ok o) m rows ->
      conv (pre ++ [(o, m)]) (a ++ [(o, map fst rows)]) (b ++ [(o, map snd rows)]).

  Lemma rows_keys o m rows : Forall2 (row_ok o) m rows -> keys (map fst rows) = keys m /\ keys (map snd rows) = keys m.
  Proof.
    unfold keys. rewrite !map_map.
    induction 1 as [|x y m rows (E1 & E2 & _) F [I1 I2]]; [now split|]. cbn [map]. now rewrite E1, E2, I1, I2.
  Qed.

  Lemma rows_get o m rows d : Forall2 (row_ok o) m rows ->
    match dget d m with
    | Some u => exists x y, dget d (map fst rows) = Some x /\ dget d (map snd rows) = Some y /\ row_ok o (d, u) ((d, x), (d, y))
    | None => dget d (map fst rows) = None /\ dget d (map snd rows) = None
    end.
  Proof.
    induction 1 as [|[k v] [[k1 x] [k2 y]] m rows Hr F IH]; [now split|]. assert (Hr' := Hr). destruct Hr as (E1 & E2 & _).
    cbn [fst snd] in E1, E2. subst k1 k2.
    cbn [map fst snd dget]. destruct (eqb_spec d k) as [->|Hne]; [|exact IH]. now exists x, y.
  Qed.

  Lemma conv_keys pre a b : conv pre a b -> (forall o, In o (keys a) -> In o (keys pre)) /\ keys b = keys a.
  Proof.
    induction 1 as [|pre a b o C [I1 I2]|pre a b o m rows C [I1 I2] Hm F].
    - split; [auto|reflexivity].
    - split; [|exact I2]. intros k Hk. unfold keys. rewrite map_app. apply in_or_app. left. now apply I1.
    - unfold keys in *. rewrite !map_app, I2. split; [|reflexivity]. intros k Hk. apply in_app_or in Hk as [Hk|Hk]; apply in_or_app; [left; now apply I1|right; exact Hk].
  Qed.

  Lemma conv_total_same pre a b d : conv pre a b -> (forall o, In o (keys pre) -> ~ first_largest user o d) ->
    unrolled_total a d == unrolled_total pre d /\ unrolled_total b d == unrolled_total pre d.
  Proof.
    induction 1 as [|pre a b o C IH|pre a b o m rows C IH Hm F]; intros Hno.
    - split; reflexivity.
    - rewrite unrolled_total_app. cbn [unrolled_total dget]. destruct IH as [-> ->].
      + intros k Hk. apply Hno. unfold keys. rewrite map_app. apply in_or_app. now left.
      + split; lra.
    - rewrite !unrolled_total_app. cbn [unrolled_total]. destruct IH as [-> ->].
      { intros k Hk. apply Hno. unfold keys. rewrite map_app. apply in_or_app. now left. }
      assert (Hn : ~ first_largest user o d) by (apply Hno; unfold keys; rewrite map_app; apply in_or_app; right; now left).
      assert (Hg := rows_get o m rows d F). destruct (dget d m) as [u|].
      + destruct Hg as (x & y & -> & -> & _ & _ & Hl & Hr). cbn [fst snd] in Hl, Hr.
        destruct Hl as [[_ ->]|[Hl _]]; [|tauto]. destruct Hr as [[_ ->]|[Hr _]]; [|tauto]. split; reflexivity.
      + destruct Hg as [-> ->]. split; reflexivity.
  Qed.

  Lemma early_total o d sm : ~ In o (keys sm) -> (forall o' m, In (o', m) sm -> NoDup (keys m)) ->
    early_size o d sm == unrolled_total sm d.
  Proof.
    induction sm as [|[k m] sm IH]; cbn [keys map fst early_size unrolled_total]; intros Ho Hm; [reflexivity|].
    rewrite (eqb_neq o k) by (intros ->; apply Ho; now left).
    rewrite IH; [|intros H; apply Ho; now right|intros; eapply Hm; right; eassumption].
    rewrite <- filter_key_dget by (apply (Hm k); now left).
    erewrite (filter_ext (fun kv => eqb d (fst kv))); [reflexivity|]. intros [k' v]. cbn [fst].
    destruct (eqb_spec d k') as [->|Hne]; [now rewrite eqb_refl|now rewrite eqb_neq by congruence].
  Qed.

  Lemma conv_NoDup pre a b : conv pre a b -> (forall o m, In (o, m) pre -> NoDup (keys m)) ->
    (forall o m, In (o, m) a -> NoDup (keys m)) /\ (forall o m, In (o, m) b -> NoDup (keys m)).
  Proof.
    induction 1 as [|pre a b o C IH|pre a b o m rows C IH Hm F]; intros Hi.
    - split; intros ? ? [].
    - apply IH. intros; eapply Hi; apply in_or_app; left; eassumption.
    - destruct IH as [I1 I2]; [intros; eapply Hi; apply in_or_app; left; eassumption|].
      destruct (rows_keys o m rows F) as [K1 K2].
      assert (Hmk : NoDup (keys m)) by (apply (Hi o); apply in_or_app; right; now left).
      split; intros o' m' H; apply in_app_or in H as [H|[[= <- <-]|[]]]; try (eapply I1; eassumption); try (eapply I2; eassumption).
      + now rewrite K1. + now rewrite K2.
  Qed.

  Lemma before_app pre o m post : ~ In o (keys pre) -> before_oa o (pre ++ (o, m) :: post) = pre.
  Proof.
    induction pre as [|[k v] pre IH]; cbn [app before_oa keys map fst]; intros H.
    - destruct (string_dec o o); [reflexivity|tauto].
    - destruct (string_dec o k) as [->|Hne]; [exfalso; apply H; now left|]. f_equal. apply IH. intros Hi. apply H. now right.
  Qed.

  Lemma total_ge_one sm d : (forall o m d u, In (o, m) sm -> In (d, u) m -> 1 <= u) -> 1 <= unrolled_total sm d.
  Proof.
    induction sm as [|[o m] sm IH]; intros H; cbn [unrolled_total]; [lra|].
    assert (1 <= unrolled_total sm d) by (apply IH; intros; eapply H; [right|]; eassumption).
    destruct (dget d m) as [u|] eqn:E; [|lra]. apply dget_In in E. assert (1 <= u) by (eapply H; [left; reflexivity|exact E]). nra.
  Qed.

  Lemma user_ge_one o m d u : In (o, m) user -> In (d, u) m -> 1 <= u.
  Proof.
    intros H1 H2. destruct (vu_whole _ _ _ Hv o m d u H1 H2) as (k & Hk & ->). change 1 with (inject_Z 1). now apply inject_Z_le_iff.
  Qed.

  Lemma limited_ok pre o m post a b d u : user = pre ++ (o, m) :: post -> conv pre a b -> In (d, u) m ->
    exists x y, limited sizes oa_sizes o (d, u) user a true = Ok (Some (d, x)) /\
      limited sizes oa_sizes o (d, u) user b false = Ok (Some (d, y)) /\ row_ok o (d, u) ((d, x), (d, y)).
  Proof.
    intros Eu C Hi.
    assert (Hin : In (o, m) user) by (rewrite Eu; apply in_or_app; right; now left).
    destruct (vu_dicts _ _ _ Hv) as [Hk Hm].
    assert (Hdg : dget d m = Some u) by (apply In_dget; [now apply (Hm o)|exact Hi]).
    assert (Hun : unrolled user o d u) by (exists m; split; [now apply In_dget|exact Hdg]).
    destruct (vu_known _ _ _ Hv o d u Hun) as (l & El & Hl). destruct (vu_oa _ _ _ Hv o d u Hun) as (s & Es & Hs).
    assert (Hu1 : 1 <= u) by (eapply user_ge_one; eassumption).
    assert (Hop : ~ In o (keys pre)).
    { intros H. rewrite Eu in Hk. unfold keys in Hk. rewrite map_app in Hk. cbn [map fst] in Hk. apply NoDup_remove_2 in Hk. apply Hk.
      apply in_or_app. now left. }
    assert (Htot : unrolled_total pre d * u <= inject_Z l).
    { assert (H := vu_layer _ _ _ Hv d l El). rewrite Eu, unrolled_total_app in H. cbn [unrolled_total] in H. rewrite Hdg in H.
      assert (1 <= unrolled_total pre d) by (apply total_ge_one; intros o' m' d' u' H1 H2; apply (user_ge_one o' m' d'); [rewrite Eu; apply in_or_app; now left|exact H2]).
      assert (1 <= unrolled_total post d) by (apply total_ge_one; intros o' m' d' u' H1 H2; apply (user_ge_one o' m' d'); [rewrite Eu; apply in_or_app; right; now right|exact H2]).
      assert (0 < unrolled_total pre d * u) by nra.
      set (p := unrolled_total pre d * u) in *. assert (E : unrolled_total pre d * (u * unrolled_total post d) == p * unrolled_total post d) by (unfold p; ring).
      rewrite E in H. clearbody p. nra. }
    assert (Hpre1 : 1 <= unrolled_total pre d) by (apply total_ge_one; intros o' m' d' u' H1 H2; apply (user_ge_one o' m' d'); [rewrite Eu; apply in_or_app; now left|exact H2]).
    assert (Hul : u <= inject_Z l) by nra.
    destruct (is_first_max_ok user o m d u) as (f & Ef & Hf); [|exact Hk|exact Hin|exact Hdg|].
    { intros o' m' d' u' H1 H2. apply dget_In in H2. assert (1 <= u') by (eapply user_ge_one; eassumption). lra. }
    unfold limited. cbn [fst snd]. rewrite El. unfold dgetr. rewrite Es. cbn [of_option rbind].
    destruct (qgt_spec u (inject_Z s)); [lra|]. rewrite (proj2 (Qle_bool_iff u (inject_Z l)) Hul). cbn [negb]. rewrite Ef. cbn [rbind].
    destruct f.
    - assert (Hfl : first_largest user o d) by now apply Hf.
      assert (Hno : forall o', In o' (keys pre) -> ~ first_largest user o' d).
      { intros o' Ho' (b' & m' & a' & u' & E' & Ed' & Hb' & Ha').
        destruct Hfl as (b2 & m2 & a2 & u2 & E2 & Ed2 & Hb2 & Ha2).
        assert (Hpm : (b2, m2, a2) = (pre, m, post)).
        { rewrite Eu in E2. destruct (split_cases _ _ _ _ _ _ E2) as [(-> & [= ->] & ->)|[H|H]]; [reflexivity|exfalso..].
          - rewrite Eu, E2 in Hk. unfold keys in Hk. rewrite map_app in Hk. cbn in Hk. apply NoDup_remove_2 in Hk. apply Hk, in_or_app. left.
            apply in_map_iff. now exists (o, m).
          - apply Hop. apply in_map_iff. now exists (o, m2). }
        injection Hpm as -> -> ->.
        assert (Hpo : In (o', m') pre).
        { assert (H : In (o', m') user) by (rewrite E'; apply in_or_app; right; now left).
          apply in_map_iff in Ho' as ([o2 m2'] & Eo & H2). cbn in Eo. subst o2.
          assert (Ha : In (o', m2') user) by (rewrite Eu; apply in_or_app; now left).
          apply (In_dget _ _ _ Hk) in H. apply (In_dget _ _ _ Hk) in Ha. assert (m2' = m') by congruence. now subst. }
        assert (H1 := Hb2 o' m' u' Hpo Ed').
        assert (Hin2 : In (o, m) (b' ++ (o', m') :: a')) by (rewrite <- E'; exact Hin).
        apply in_app_or in Hin2 as [H2|[H2|H2]].
        - specialize (Hb' o m u H2 Hdg). assert (u2 = u) by congruence. subst. lra.
        - injection H2 as -> ->. apply Hop. apply in_map_iff. now exists (o, m).
        - specialize (Ha' o m u H2 Hdg). assert (u2 = u) by congruence. subst. lra. }
      destruct (conv_total_same pre a b d C Hno) as [T1 T2].
      assert (Hpm : forall o' m', In (o', m') pre -> NoDup (keys m')) by (intros o' m' H'; apply (Hm o'); rewrite Eu; apply in_or_app; now left).
      destruct (conv_NoDup pre a b C Hpm) as [N1 N2]. destruct (conv_keys pre a b C) as [K1 K2].
      assert (Ea : early_size o d a == unrolled_total pre d).
      { rewrite early_total; [exact T1|intros H; apply Hop; now apply K1|exact N1]. }
      assert (Eb : early_size o d b == unrolled_total pre d).
      { rewrite early_total; [exact T2|rewrite K2; intros H; apply Hop; now apply K1|exact N2]. }
      destruct (Qeq_bool (u * early_size o d a) 0) eqn:Ez; [apply Qeq_bool_iff in Ez; rewrite Ea in Ez; nra|].
      destruct (Qeq_bool (u * early_size o d b) 0) eqn:Ez'; [apply Qeq_bool_iff in Ez'; rewrite Eb in Ez'; nra|].
      assert (Hea : 0 < early_size o d a) by (rewrite Ea; lra). assert (Heb : 0 < early_size o d b) by (rewrite Eb; lra).
      destruct (split_exact l u (early_size o d a) Hl ltac:(lra) Hea) as (A1 & A2 & A3 & A4).
      destruct (split_exact l u (early_size o d b) Hl ltac:(lra) Heb) as (B1 & B2 & B3 & B4).
      cbv zeta. set (ta := Qceiling (inject_Z l / (u * early_size o d a))) in *.
      set (tb := Qceiling (inject_Z l / (u * early_size o d b))) in *.
      assert (Et : ta = tb) by (unfold ta, tb; apply Qceiling_comp; rewrite Ea, Eb; reflexivity).
      destruct (ta =? 0)%Z eqn:Eta; [apply Z.eqb_eq in Eta; lia|]. destruct (tb =? 0)%Z eqn:Etb; [apply Z.eqb_eq in Etb; lia|].
      set (xa := inject_Z l / inject_Z ta / early_size o d a) in *. set (xb := inject_Z l / inject_Z tb / early_size o d b) in *.
      assert (Exab : xa == xb) by (unfold xa, xb; rewrite Et, Ea, Eb; reflexivity).
      exists xa, (inject_Z (trunc xb)). split; [reflexivity|]. split; [reflexivity|].
      split; [reflexivity|]. split; [reflexivity|]. cbn [fst snd].
      assert (Ebef : before_oa o user = pre) by (rewrite Eu; now apply before_app).
      split.
      + right. split; [exact Hfl|]. split; [exact A2|]. exists l, ta. split; [exact El|]. split; [exact A1|]. rewrite Ebef. split.
        * rewrite <- Ea. exact A3.
        * intros t' Ht'. apply A4. rewrite Ea. exact Ht'.
      + right. split; [exact Hfl|]. exists (trunc xb). destruct (trunc_bounds xb) as [R1 R2]; [lra|].
        split; [reflexivity|]. split; [|rewrite Exab; split; assumption].
        assert (Hx1 : 1 <= xb).
        { assert (Htb := Qceiling_bounds (inject_Z l / (u * early_size o d b))). fold tb in Htb.
          assert (Hq : inject_Z l == inject_Z l / (u * early_size o d b) * (u * early_size o d b)) by (field; split; lra).
          destruct (vu_whole _ _ _ Hv o m d u Hin Hi) as (k & Hk1 & Ek).
          destruct (Z.eq_dec k 1) as [->|Hk2].
          - assert (Hp1 : unrolled_total pre d == 1).
            { apply unrolled_total_absent. intros o' m' H' Hd'. apply key_dget in Hd' as (u' & Hu').
              destruct Hfl as (b2 & m2 & a2 & u2 & E2 & Ed2 & Hb2 & Ha2).
              assert (Hpe : b2 = pre /\ m2 = m).
              { rewrite Eu in E2. destruct (split_cases _ _ _ _ _ _ E2) as [(-> & [= ->] & ->)|[H|H]]; [now split|exfalso..].
                - rewrite Eu, E2 in Hk. unfold keys in Hk. rewrite map_app in Hk. cbn in Hk. apply NoDup_remove_2 in Hk. apply Hk, in_or_app. left.
                  apply in_map_iff. now exists (o, m).
                - apply Hop. apply in_map_iff. now exists (o, m2). }
              destruct Hpe as [-> ->]. specialize (Hb2 o' m' u' H' Hu'). assert (u2 = u) by congruence. subst u2.
              assert (1 <= u') by (apply dget_In in Hu'; apply (user_ge_one o' m' d); [rewrite Eu; apply in_or_app; now left|exact Hu']).
              rewrite Ek in Hb2. change (inject_Z 1) with 1 in Hb2. lra. }
            assert (Htl : tb = l).
            { unfold tb. transitivity (Qceiling (inject_Z l)); [|apply Qceiling_Z]. apply Qceiling_comp.
              rewrite Ek, Eb, Hp1. change (inject_Z 1) with 1. field. }
            assert (Hl' : 1 <= inject_Z l) by (change 1 with (inject_Z 1); now apply inject_Z_le_iff).
            unfold xb. rewrite Htl, Eb, Hp1. apply Qle_lteq. right. field. lra.
          - assert (Hk3 : 2 <= u) by (rewrite Ek; change 2 with (inject_Z 2); apply inject_Z_le_iff; lia).
            set (q := inject_Z l / (u * early_size o d b)) in *. clearbody q.
            assert (Hge : u * early_size o d b <= inject_Z l) by (rewrite Eb; lra).
            assert (Hue : 0 < u * early_size o d b) by nra.
            assert (1 <= q). { destruct (Qlt_le_dec q 1) as [Hc|]; [|assumption]. exfalso. nra. }
            clearbody xb tb. assert (Htq : inject_Z tb < q + 1) by lra.
            set (e := early_size o d b) in *. clearbody e. set (T := inject_Z tb) in *.
            assert (Hxx : xb * T == q * u). 
            { assert (e * (xb * T) == e * (q * u)) by (transitivity (e * xb * T); [ring|]; rewrite B3, Hq; ring).
              apply (Qmult_inj_l _ _ e); [lra|assumption]. }
            assert (HT : 0 < T) by lra. clearbody T.
            destruct (Qlt_le_dec xb 1) as [Hc|]; [|assumption]. exfalso. nra. }
        assert (H2 : 0 < inject_Z (trunc xb)) by lra. change 0 with (inject_Z 0) in H2. apply (proj1 (inject_Z_lt_iff _ _)) in H2. lia.
    - assert (Hnf : ~ first_largest user o d) by (intros H; apply Hf in H; discriminate).
      exists u, u. split; [reflexivity|]. split; [reflexivity|]. split; [reflexivity|]. split; [reflexivity|]. cbn [fst snd]. split; left; now split.
  Qed.

  Lemma rows_ok pre o m post a b : user = pre ++ (o, m) :: post -> conv pre a b ->
    forall m', (forall x, In x m' -> In x m) -> exists rows,
    rmap (fun loop => x <- limited sizes oa_sizes o loop user a true ;; y <- limited sizes oa_sizes o loop user b false ;;
      Ok (match x, y with Some x, Some y => [(x, y)] | _, _ => [] end)) m' = Ok (map (fun r => [r]) rows) /\ Forall2 (row_ok o) m' rows.
  Proof.
    intros Eu C. induction m' as [|[d u] m' IH]; intros Hs.
    - exists []. split; [reflexivity|constructor].
    - destruct IH as (rows & E & F); [intros; apply Hs; now right|].
      destruct (limited_ok pre o m post a b d u Eu C (Hs _ (or_introl eq_refl))) as (x & y & E1 & E2 & Hr).
      exists (((d, x), (d, y)) :: rows). cbn [rmap]. rewrite E1. cbn [rbind]. rewrite E2. cbn [rbind]. rewrite E. cbn [rbind map].
      split; [reflexivity|]. now constructor.
  Qed.

  Lemma fold_dset (l : list (string * Q)) : forall acc, NoDup (keys (acc ++ l)) ->
    fold_left (fun m x => dset (fst x) (snd x) m) l acc = acc ++ l.
  Proof.
    induction l as [|[k v] l IH]; intros acc H; cbn [fold_left fst snd]; [now rewrite app_nil_r|].
    assert (Hd : dset k v acc = acc ++ [(k, v)]).
    { assert (Hk : ~ In k (keys acc)).
      { intros Hi. unfold keys in H. rewrite map_app in H. cbn [map fst] in H. apply NoDup_remove_2 in H. apply H, in_or_app. now left. }
      clear -Hk. induction acc as [|[k' v'] acc IH]; [reflexivity|]. cbn [dset app]. cbn [keys map fst] in Hk.
      rewrite (eqb_neq k k') by (intros ->; apply Hk; now left). f_equal. apply IH. intros Hi. apply Hk. now right. }
    rewrite Hd, IH; rewrite <- app_assoc; [reflexivity|exact H].
  Qed.
  Lemma dset_new (o : string) (m : dict string Q) (sm : dict string (dict string Q)) : ~ In o (keys sm) -> dset o m sm = sm ++ [(o, m)].
  Proof.
    induction sm as [|[k v] sm IH]; intros H; [reflexivity|]. cbn [dset app]. cbn [keys map fst] in H.
    rewrite (eqb_neq o k) by (intros ->; apply H; now left). f_equal. apply IH. intros Hi. apply H. now right.
  Qed.

  Lemma concat_singletons {A} (l : list A) : concat (map (fun r => [r]) l) = l.
  Proof. induction l; cbn; congruence. Qed.

  Lemma convert_steps post : forall pre a b, user = pre ++ post -> conv pre a b ->
    exists a' b', rfold (convert_oa sizes oa_sizes user) (a, b) post = Ok (a', b') /\ conv user a' b'.
  Proof.
    induction post as [|[o m] post IH]; intros pre a b Eu C.
    - exists a, b. split; [reflexivity|]. rewrite Eu, app_nil_r. exact C.
    - cbn [rfold]. unfold convert_oa at 1. cbn [fst snd].
      destruct (rows_ok pre o m post a b Eu C m (fun x H => H)) as (rows & E & F). rewrite E. cbn [rbind]. rewrite concat_singletons.
      destruct (vu_dicts _ _ _ Hv) as [Hk Hm].
      assert (Hmk : NoDup (keys m)) by (apply (Hm o); rewrite Eu; apply in_or_app; right; now left).
      assert (Eu' : user = (pre ++ [(o, m)]) ++ post) by (rewrite <- app_assoc; exact Eu).
      destruct rows as [|r rows].
      + inversion F; subst. apply (IH (pre ++ [(o, [])])); [exact Eu'|now constructor].
      + assert (Hop : ~ In o (keys pre)).
        { intros H. rewrite Eu in Hk. unfold keys in Hk. rewrite map_app in Hk. cbn [map fst] in Hk. apply NoDup_remove_2 in Hk. apply Hk, in_or_app. now left. }
        destruct (conv_keys pre a b C) as [K1 K2]. destruct (rows_keys o m _ F) as [R1 R2].
        rewrite !fold_dset by (cbn [app]; now rewrite ?R1, ?R2). cbn [app].
        match goal with |- context [rfold _ (?x, ?y) _] =>
          replace x with (a ++ [(o, map fst (r :: rows))]) by (symmetry; apply dset_new; intros H; apply Hop; now apply K1);
          replace y with (b ++ [(o, map snd (r :: rows))]) by (symmetry; apply dset_new; rewrite K2; intros H; apply Hop; now apply K1)
        end.
        apply (IH (pre ++ [(o, m)])); [exact Eu'|]. constructor; [exact C| |exact F]. intros ->. inversion F.
  Qed.

  Lemma conv_nonempty pre a b : conv pre a b ->
    keys a = keys (filter (fun om => match snd om with [] => false | _ => true end) pre).
  Proof.
    unfold keys. induction 1 as [|pre a b o C IH|pre a b o m rows C IH Hm F].
    - reflexivity.
    - rewrite filter_app, map_app, IH. cbn. now rewrite app_nil_r.
    - rewrite filter_app, !map_app, IH. cbn [filter snd]. destruct m; [easy|]. reflexivity.
  Qed.

  Lemma conv_get pre a b o d : conv pre a b -> NoDup (keys pre) ->
    (forall m u, dget o pre = Some m -> dget d m = Some u -> exists x y, unrolled a o d x /\ unrolled b o d y /\ row_ok o (d, u) ((d, x), (d, y))) /\
    (forall x, unrolled a o d x -> exists u, unrolled pre o d u) /\ (forall y, unrolled b o d y -> exists u, unrolled pre o d u).
  Proof.
    assert (Happ : forall (p : dict string (dict string Q)) o' m', dget o (p ++ [(o', m')]) = match dget o p with Some v => Some v | None => if eqb o o' then Some m' else None end).
    { intros p o' m'. induction p as [|[k v] p IH]; [reflexivity|]. cbn [app dget]. destruct (eqb o k); [reflexivity|exact IH]. }
    assert (Hnd : forall (p : dict string (dict string Q)) o' m', NoDup (keys (p ++ [(o', m')])) -> NoDup (keys p) /\ ~ In o' (keys p)).
    { intros p o' m' H. unfold keys in *. rewrite map_app in H. cbn [map fst] in H.
      assert (Hr := NoDup_remove_1 _ _ _ H). rewrite app_nil_r in Hr. apply NoDup_remove_2 in H. rewrite app_nil_r in H. now split. }
    induction 1 as [|pre a b o' C IH|pre a b o' m' rows C IH Hm F]; intros Hn.
    - split; [discriminate|]. split; intros ? (m & H & _); discriminate H.
    - destruct (Hnd _ _ _ Hn) as [Hn1 Hn2]. destruct (IH Hn1) as (I1 & I2 & I3). split; [|split].
      + intros m u. rewrite Happ. destruct (dget o pre) as [v|] eqn:E; [intros [= <-]; now apply I1|].
        destruct (eqb_spec o o'); [|discriminate]. intros [= <-]. discriminate.
      + intros x H. destruct (I2 x H) as (u & m & H1 & H2). exists u, m. split; [|exact H2]. now rewrite Happ, H1.
      + intros x H. destruct (I3 x H) as (u & m & H1 & H2). exists u, m. split; [|exact H2]. now rewrite Happ, H1.
    - destruct (Hnd _ _ _ Hn) as [Hn1 Hn2]. destruct (IH Hn1) as (I1 & I2 & I3). destruct (conv_keys pre a b C) as [K1 K2].
      assert (Hg := rows_get o' m' rows d F). split; [|split].
      + intros m u. rewrite Happ. destruct (dget o pre) as [v|] eqn:E.
        * intros [= <-] Hd. destruct (I1 v u eq_refl Hd) as (x & y & (m1 & H1 & H2) & (m2 & H3 & H4) & Hr).
          exists x, y. split; [exists m1; now rewrite Happ, H1|]. split; [exists m2; now rewrite Happ, H3|exact Hr].
        * destruct (eqb_spec o o') as [->|]; [|discriminate]. intros [= <-] Hd. rewrite Hd in Hg. destruct Hg as (x & y & G1 & G2 & Hr).
          assert (Ea : dget o' a = None) by (apply dget_None; intros H; apply Hn2; now apply K1).
          assert (Eb : dget o' b = None) by (apply dget_None; rewrite K2; intros H; apply Hn2; now apply K1).
          exists x, y. split; [eexists; rewrite Happ, Ea, eqb_refl; split; [reflexivity|exact G1]|].
          split; [eexists; rewrite Happ, Eb, eqb_refl; split; [reflexivity|exact G2]|exact Hr].
      + intros x (m & H1 & H2). rewrite Happ in H1. destruct (dget o a) as [v|] eqn:E.
        * injection H1 as ->. destruct (I2 x) as (u & m1 & H3 & H4); [now exists m|]. exists u, m1. split; [|exact H4]. now rewrite Happ, H3.
        * destruct (eqb_spec o o') as [->|]; [|discriminate]. injection H1 as <-.
          destruct (dget d m') as [u|] eqn:Ed; [|destruct Hg; congruence]. exists u, m'. split; [|exact Ed].
          rewrite Happ. replace (dget o' pre) with (@None (dict string Q)) by (symmetry; now apply dget_None). now rewrite eqb_refl.
      + intros x (m & H1 & H2). rewrite Happ in H1. destruct (dget o b) as [v|] eqn:E.
        * injection H1 as ->. destruct (I3 x) as (u & m1 & H3 & H4); [now exists m|]. exists u, m1. split; [|exact H4]. now rewrite Happ, H3.
        * destruct (eqb_spec o o') as [->|]; [|discriminate]. injection H1 as <-.
          destruct (dget d m') as [u|] eqn:Ed; [|destruct Hg; congruence]. exists u, m'. split; [|exact Ed].
          rewrite Happ. replace (dget o' pre) with (@None (dict string Q)) by (symmetry; now apply dget_None). now rewrite eqb_refl.
  Qed.

  Theorem limit_mapping_ok : exists lim lim_int, limit_mapping sizes oa_sizes user = Ok (lim, lim_int) /\
    keys lim = keys (filter (fun om => match snd om with [] => false | _ => true end) user) /\ keys lim_int = keys lim /\
    (forall o d u, unrolled user o d u -> exists x y, unrolled lim o d x /\ unrolled lim_int o d y /\
       limited_to sizes user o d u x /\
       ((~ first_largest user o d /\ y = u) \/ (first_largest user o d /\ rounded_down x y))) /\
    (forall o d x, unrolled lim o d x -> exists u, unrolled user o d u) /\
    (forall o d y, unrolled lim_int o d y -> exists u, unrolled user o d u).
  Proof.
    destruct (convert_steps user [] [] []) as (a & b & E & C); [reflexivity|constructor|].
    exists a, b. split; [exact E|]. split; [eapply conv_nonempty; exact C|]. split; [eapply conv_keys; exact C|].
    destruct (vu_dicts _ _ _ Hv) as [Hk _]. split; [|split].
    - intros o d u (m & H1 & H2). destruct (conv_get user a b o d C Hk) as (G & _). destruct (G m u H1 H2) as (x & y & X & Y & _ & _ & R1 & R2).
      exists x, y. split; [exact X|]. split; [exact Y|]. split; [exact R1|exact R2].
    - intros o d. apply (conv_get user a b o d C Hk).
    - intros o d. apply (conv_get user a b o d C Hk).
  Qed.

  Lemma conv_total_last pre a b d o : conv pre a b -> first_largest user o d ->
    forall p1 m p2 u, pre = p1 ++ (o, m) :: p2 -> dget d m = Some u -> ~ In o (keys p1) ->
    (forall o' m', In (o', m') p2 -> ~ In d (keys m')) ->
    exists x, limited_to sizes user o d u x /\ unrolled_total a d == unrolled_total p1 d * x.
  Proof.
    intros C Hfl. induction C as [|pre a b o' C IH|pre a b o' m' rows C IH Hm F]; intros p1 m p2 u E Hd Ho Hno.
    - destruct p1; discriminate.
    - destruct p2 as [|y p2] using rev_ind.
      + apply app_inj_tail in E as [_ [= _ <-]]. discriminate.
      + replace (p1 ++ (o, m) :: p2 ++ [y]) with ((p1 ++ (o, m) :: p2) ++ [y]) in E by (now rewrite <- app_assoc).
        apply app_inj_tail in E as [-> _]. apply (IH p1 m p2 u eq_refl Hd Ho). intros; eapply Hno; apply in_or_app; left; eassumption.
    - destruct p2 as [|y p2] using rev_ind.
      + apply app_inj_tail in E as [-> [= -> ->]]. assert (Hg := rows_get o m rows d F). rewrite Hd in Hg.
        destruct Hg as (x & y & G1 & _ & _ & _ & R & _). exists x. split; [exact R|]. rewrite unrolled_total_app. cbn [unrolled_total].
        rewrite G1. destruct (conv_total_same p1 a b d C) as [-> _]; [|lra].
        intros o' Ho' Hf'. assert (o' = o); [|congruence]. eapply first_largest_unique; eassumption.
      + replace (p1 ++ (o, m) :: p2 ++ [y]) with ((p1 ++ (o, m) :: p2) ++ [y]) in E by (now rewrite <- app_assoc).
        apply app_inj_tail in E as [-> <-].
        destruct (IH p1 m p2 u eq_refl Hd Ho) as (x & R & T); [intros; eapply Hno; apply in_or_app; left; eassumption|].
        exists x. split; [exact R|]. rewrite unrolled_total_app. cbn [unrolled_total]. rewrite T.
        assert (Hg := rows_get o' m' rows d F).
        destruct (dget d m') as [v|] eqn:Ev.
        * exfalso. apply dget_Some_key in Ev. eapply Hno; [|exact Ev]. apply in_or_app. right. now left.
        * destruct Hg as [-> _]. ring.
  Qed.

  Theorem limit_exact lim lim_int o d : limit_mapping sizes oa_sizes user = Ok (lim, lim_int) ->
    first_largest user o d -> 
    (forall before m after, user = before ++ (o, m) :: after -> forall o' m', In (o', m') after -> ~ In d (keys m')) ->
    exists l t, dget d sizes = Some l /\ (1 <= t)%Z /\ unrolled_total lim d * inject_Z t == inject_Z l.
  Proof.
    intros E Hfl Hlast. destruct (convert_steps user [] [] []) as (a & b & E' & C); [reflexivity|constructor|].
    unfold limit_mapping in E. rewrite E' in E. injection E as -> ->.
    assert (Hfl' := Hfl). destruct Hfl' as (p1 & m & p2 & u & Eu & Hd & _ & _).
    assert (Hop : ~ In o (keys p1)).
    { destruct (vu_dicts _ _ _ Hv) as [Hk _]. intros H. rewrite Eu in Hk. unfold keys in Hk. rewrite map_app in Hk. cbn [map fst] in Hk.
      apply NoDup_remove_2 in Hk. apply Hk, in_or_app. now left. }
    destruct (conv_total_last user lim lim_int d o C Hfl p1 m p2 u Eu Hd Hop) as (x & R & T); [now apply (Hlast p1 m p2)|].
    destruct R as [[R _]|(_ & _ & l & t & El & Ht & Ex & _)]; [tauto|]. exists l, t. split; [exact El|]. split; [exact Ht|].
    rewrite T, <- Ex. rewrite Eu, before_app by exact Hop. reflexivity.
  Qed.
End Limit.

Theorem limited_bounds sizes oa_sizes o d u user lim d' x :
  0 < u -> (forall s, dget o oa_sizes = Some s -> (1 <= s)%Z) -> (forall l, dget d sizes = Some l -> (1 <= l)%Z) ->
  (forall o' m' d' u', In (o', m') lim -> In (d', u') m' -> 0 < u') ->
  limited sizes oa_sizes o (d, u) user lim true = Ok (Some (d', x)) ->
  d' = d /\ 0 < x <= u /\ exists s, dget o oa_sizes = Some s /\ x <= inject_Z s.
Proof.
  intros Hu Hs Hl Hlim. unfold limited. cbn [fst snd]. destruct (dget d sizes) as [l|] eqn:El; [|discriminate].
  unfold dgetr. destruct (dget o oa_sizes) as [s|] eqn:Es; cbn [of_option rbind]; [|discriminate].
  assert (Hs' : 1 <= inject_Z s) by (change 1 with (inject_Z 1); now apply inject_Z_le_iff, Hs).
  set (c := if qgt u (inject_Z s) then inject_Z s else u).
  assert (Hc : 0 < c /\ c <= u /\ c <= inject_Z s) by (unfold c; destruct (qgt_spec u (inject_Z s)); split; lra). clearbody c.
  destruct (Qle_bool c (inject_Z l)); cbn [negb]; [|discriminate].
  destruct (is_first_max o d user) as [f|]; cbn [rbind]; [|discriminate]. destruct f.
  - assert (He : 0 < early_size o d lim).
    { clear -Hlim. induction lim as [|[k m] lim IH]; cbn [early_size]; [lra|]. destruct (eqb o k); [lra|].
      assert (0 < early_size o d lim) by (apply IH; intros; eapply Hlim; [right|]; eassumption).
      assert (0 < qprod (map snd (filter (fun kv => eqb d (fst kv)) m))); [|nra].
      assert (Hm : forall d' u', In (d', u') m -> 0 < u') by (intros; eapply Hlim; [left; reflexivity|eassumption]).
      clear -Hm. induction m as [|[k' v] m IH]; cbn [filter fst]; [cbn; lra|].
      assert (0 < qprod (map snd (filter (fun kv => eqb d (fst kv)) m))) by (apply IH; intros; eapply Hm; right; eassumption).
      destruct (eqb d k'); [|assumption]. cbn [map snd]. rewrite qprod_cons. assert (0 < v) by (apply (Hm k'); now left). nra. }
    destruct (Qeq_bool (c * early_size o d lim) 0); [discriminate|].
    destruct (split_exact l c (early_size o d lim)) as (A1 & A2 & _); [now apply Hl|lra|exact He|].
    destruct (_ =? 0)%Z; [discriminate|]. intros [= <- <-]. split; [reflexivity|]. split; [lra|]. exists s. split; [reflexivity|lra].
  - intros [= <- <-]. split; [reflexivity|]. split; [lra|]. exists s. split; [reflexivity|lra].
Qed.
