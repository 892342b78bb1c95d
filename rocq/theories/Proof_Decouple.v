(** Proofs for C14. *)
From Coq Require Import Lia Lqa QArith Qround.
From Verif Require Import Base Model_Pr Model_Alloc Model_Decouple Spec_Alloc Spec_Decouple
  Proof_AllocSearch Proof_AllocTile.
Local Open Scope result_scope.
Local Open Scope Q_scope.

Lemma runs_over_related ly p ab x : In (p, ab) (l_pr_loop ly) -> related (fst x) ab = true -> runs_over ly p x.
Proof.
  intros H E. destruct ab as [da db]. exists da, db. split; [easy|].
  unfold related in E. apply orb_true_iff in E. cbn [fst snd] in E.
  destruct E as [E|E]; apply String.eqb_eq in E; [left|right]; congruence.
Qed.
Lemma related_runs ly p ab x : NoDup (keys (l_pr_loop ly)) -> In (p, ab) (l_pr_loop ly) ->
  runs_over ly p x -> related (fst x) ab = true.
Proof.
  intros Hn H (da & db & Hi & E). apply In_dget in H; [|easy]. apply In_dget in Hi; [|easy].
  assert (ab = (da, db)) by congruence. subst. unfold related. cbn [fst snd].
  apply orb_true_iff. destruct E as [<-|<-]; [left|right]; apply String.eqb_refl.
Qed.

Lemma qprod_dset d q s (m : dict string Q) : dget d m = Some q ->
  qprod (values (dset d (q * s) m)) == qprod (values m) * s.
Proof.
  unfold values. induction m as [|[k v] m IH]; cbn [dget dset]; [discriminate|].
  destruct (eqb d k) eqn:E.
  - intros E2; injection E2 as ->. cbn [map snd]. rewrite !qprod_cons. ring.
  - intros H. cbn [map snd]. rewrite !qprod_cons, IH by easy. ring.
Qed.

Section Dec.
  Variable ly : layer.
  Hypothesis Hly : derived_ok ly.
  Variable rir : list string.

  Section One.
    Variables (p : string) (ab : string * string).
    Hypothesis Hp : In (p, ab) (l_pr_loop ly).

    Definition N (L : list qloop) : Q := elements_along ly L p.
    Definition D (L : list qloop) : Q := qprod (map snd (filter (fun l => related (fst l) ab) L)).

    Lemma Hpget : dget p (l_pr_loop ly) = Some ab.
    Proof. apply In_dget; [apply Hly|exact Hp]. Qed.

    Lemma extent_snoc L x d : extent (L ++ [x]) d == extent L d * (if eqb (fst x) d then snd x else 1).
    Proof.
      unfold extent. rewrite filter_app, map_app, qprod_app. cbn [filter].
      destruct (eqb (fst x) d); cbn [map]; [rewrite qprod_cons|]; change (qprod []) with 1; ring.
    Qed.
    Lemma D_snoc L x : D (L ++ [x]) == D L * (if related (fst x) ab then snd x else 1).
    Proof.
      unfold D. rewrite filter_app, map_app, qprod_app. cbn [filter].
      destruct (related (fst x) ab); cbn [map]; [rewrite qprod_cons|]; change (qprod []) with 1; ring.
    Qed.

    Lemma loops_ok_no_p L : operand_ok ly rir L -> existsb (fun l => eqb (fst l) p) L = false.
    Proof.
      intros H. apply not_true_iff_false. intros E. apply existsb_exists in E as (x & Hx & E).
      apply String.eqb_eq in E. destruct (H x Hx) as (_ & Hk & _). apply Hk. rewrite E.
      apply (in_map fst) in Hp. exact Hp.
    Qed.

    Lemma N_value L : operand_ok ly rir L -> exists sa sb m,
      dget p (l_pr_scaling ly) = Some (sa, sb) /\ (0 < sa)%Z /\ (0 < sb)%Z /\
      dget p (l_pr_sizes ly) = Some m /\ (0 < m)%Z /\
      N L = inject_Z (Z.min m (calc_pr_dimension_size sa (Qfloor (extent L (fst ab))) sb (Qfloor (extent L (snd ab))))).
    Proof.
      intros H. destruct (dok_scale ly Hly p ab Hp) as (sa & sb & m & E1 & H1 & H2 & E2 & H3).
      exists sa, sb, m. do 5 (split; [easy|]). unfold N, elements_along.
      rewrite (loops_ok_no_p L H), Hpget, E1, E2. now destruct ab.
    Qed.

    Lemma ext_ge_1 L d : operand_ok ly rir L -> 1 <= extent L d.
    Proof.
      intros H. unfold extent. apply qprod_ge_1. intros x Hx.
      apply in_map_iff in Hx. destruct Hx as (l & <- & Hx). apply filter_In in Hx. now apply H.
    Qed.
    Lemma D_ge_1 L : operand_ok ly rir L -> 1 <= D L.
    Proof.
      intros H. unfold D. apply qprod_ge_1. intros x Hx.
      apply in_map_iff in Hx. destruct Hx as (l & <- & Hx). apply filter_In in Hx. now apply H.
    Qed.

    Lemma N_ge_1 L : operand_ok ly rir L -> 1 <= N L.
    Proof.
      intros H. destruct (N_value L H) as (sa & sb & m & _ & H1 & H2 & _ & H3 & ->).
      change 1 with (inject_Z 1). apply inject_Z_le_iff.
      assert (F : forall d, (1 <= Qfloor (extent L d))%Z).
      { intros d. change 1%Z with (Qfloor 1). apply Qfloor_resp_le. now apply ext_ge_1. }
      pose proof (pr_size_mono sa sb _ _ _ _ H1 H2 (conj (F (fst ab)) (Z.le_refl _)) (conj (F (snd ab)) (Z.le_refl _))).
      lia.
    Qed.

    Lemma N_nil : N [] == 1.
    Proof.
      destruct (N_value []) as (sa & sb & m & _ & H1 & H2 & _ & H3 & ->); [easy|].
      unfold extent. cbn [filter map]. change (Qfloor (qprod [])) with 1%Z.
      unfold calc_pr_dimension_size.
      assert (Hg : (0 < Z.gcd sa sb)%Z).
      { pose proof (Z.gcd_nonneg sa sb). pose proof (Z.gcd_eq_0_l sa sb). lia. }
      assert (1 <= sa / Z.gcd sa sb)%Z.
      { apply Z.div_le_lower_bound; [easy|]. rewrite Z.mul_1_r. apply Z.divide_pos_le; [easy|]. apply Z.gcd_divide_l. }
      rewrite Z.max_l by lia. rewrite Z.mul_0_l, Z.sub_0_r. rewrite Z.min_r by lia. reflexivity.
    Qed.

    Lemma N_other L x : operand_ok ly rir (L ++ [x]) -> related (fst x) ab = false -> N (L ++ [x]) = N L.
    Proof.
      intros H E.
      assert (H' : operand_ok ly rir L) by (intros y Hy; apply H, in_or_app; now left).
      destruct (N_value _ H) as (sa & sb & m & E1 & _ & _ & E2 & _ & ->).
      destruct (N_value _ H') as (sa' & sb' & m' & E1' & _ & _ & E2' & _ & ->).
      assert (sa' = sa /\ sb' = sb /\ m' = m) as (-> & -> & ->) by (repeat split; congruence).
      unfold related in E. apply orb_false_iff in E as [Ea Eb].
      assert (F : forall d, eqb d (fst x) = false -> Qfloor (extent (L ++ [x]) d) = Qfloor (extent L d)).
      { intros d Ed. apply Qfloor_comp. rewrite extent_snoc.
        replace (eqb (fst x) d) with false; [ring|]. symmetry. apply eqb_neq. intros <-.
        now rewrite eqb_refl in Ed. }
      now rewrite !F.
    Qed.

    (** prefixes that end in a loop related to p *)
    Fixpoint marks (before loops : list qloop) : list (list qloop) :=
      match loops with
      | [] => []
      | x :: l => if related (fst x) ab then (before ++ [x]) :: marks (before ++ [x]) l
                  else marks (before ++ [x]) l
      end.

    Definition sizes_ok (L : list qloop) (sizes : dict string Q) : Prop :=
      dget p sizes = None /\
      (forall d, related d ab = true -> exists q, dget d sizes = Some q /\ q == extent L d) /\
      qprod (values sizes) == D L.

    Lemma sizes_init : sizes_ok [] (dset (snd ab) 1 [(fst ab, 1)]).
    Proof.
      destruct ab as [da db] eqn:Eab. cbn [fst snd].
      destruct (dok_flat ly Hly p da db Hp) as [Ha Hb].
      assert (da <> p /\ db <> p) as [Na Nb].
      { split; intros ->; [apply Ha|apply Hb]; apply (in_map fst) in Hp; exact Hp. }
      assert (Hex : forall d, extent [] d = 1) by reflexivity.
      unfold sizes_ok, D. cbn [filter map]. change (qprod []) with 1.
      assert (Hrel : forall d, related d (da, db) = true -> d = da \/ d = db).
      { intros d Hd. unfold related in Hd. cbn [fst snd] in Hd.
        apply orb_true_iff in Hd as [Hd|Hd]; apply String.eqb_eq in Hd; [left|right]; congruence. }
      cbn [dset]. destruct (eqb_spec db da) as [->|Hne].
      - cbn [dget]. destruct (eqb_spec p da) as [|_]; [congruence|]. split; [easy|]. split.
        + intros d Hd. rewrite Eab in Hd. exists 1. rewrite Hex. split; [|reflexivity].
          destruct (eqb_spec d da); [reflexivity|]. destruct (Hrel d Hd); contradiction.
        + reflexivity.
      - cbn [dget]. destruct (eqb_spec p da) as [|_]; [congruence|].
        destruct (eqb_spec p db) as [|_]; [congruence|]. split; [easy|]. split.
        + intros d Hd. rewrite Eab in Hd. exists 1. rewrite Hex. split; [|reflexivity].
          destruct (eqb_spec d da); [reflexivity|]. destruct (eqb_spec d db); [reflexivity|].
          destruct (Hrel d Hd); contradiction.
        + reflexivity.
    Qed.

    Lemma cabl_level_ok loops : forall L sizes, operand_ok ly rir (L ++ loops) -> sizes_ok L sizes ->
      exists sizes' xs, cabl_level ly rir p ab sizes loops = Ok (sizes', xs) /\
        sizes_ok (L ++ loops) sizes' /\
        Forall2 (fun P x => fst x == N P /\ snd x == D P / N P) (marks L loops) xs.
    Proof.
      induction loops as [|[d s] loops IH]; intros L sizes HL Hs.
      { exists sizes, []. rewrite app_nil_r. repeat split; try apply Hs. constructor. }
      assert (Hassoc : L ++ (d, s) :: loops = (L ++ [(d, s)]) ++ loops) by (now rewrite <- app_assoc).
      rewrite Hassoc in HL. assert (HLx : operand_ok ly rir (L ++ [(d, s)])).
      { intros y Hy. apply HL, in_or_app. now left. }
      cbn [cabl_level marks fst]. rewrite Hassoc.
      destruct (related d ab) eqn:Er.
      - replace (memb d rir) with false.
        2:{ symmetry. apply memb_not_In. apply (HLx (d, s)) with (p := p);
              [apply in_or_app; right; now left|]. now apply (runs_over_related ly p ab (d, s)). }
        destruct Hs as (Hs1 & Hs2 & Hs3). destruct (Hs2 d Er) as (q & Eq & Hq).
        assert (Hsz : size_of_dim sizes d = q) by (unfold size_of_dim; now rewrite Eq).
        rewrite Hsz. set (sizes' := dset d (q * s) sizes).
        assert (Hok : sizes_ok (L ++ [(d, s)]) sizes').
        { unfold sizes'. split; [|split].
          - rewrite dget_dset_neq; [easy|]. intros ->. unfold related in Er.
            destruct ab as [da db] eqn:Eab. cbn [fst snd] in Er.
            destruct (dok_flat ly Hly _ da db Hp) as [Ha Hb].
            apply orb_true_iff in Er as [Er|Er]; apply String.eqb_eq in Er; subst;
              [apply Ha|apply Hb]; apply (in_map fst) in Hp; exact Hp.
          - intros d' Hd'. destruct (Hs2 d' Hd') as (q' & Eq' & Hq').
            destruct (eqb_spec d d') as [<-|Hne].
            + exists (q * s). rewrite dget_dset_eq. split; [easy|]. rewrite extent_snoc. cbn [fst snd].
              rewrite eqb_refl. now rewrite Hq.
            + exists q'. rewrite dget_dset_neq by congruence. split; [easy|]. rewrite extent_snoc. cbn [fst].
              rewrite (eqb_neq d d') by exact Hne. rewrite Hq'. ring.
          - rewrite qprod_dset by easy. rewrite D_snoc. cbn [fst snd]. rewrite Er, Hs3. reflexivity. }
        clearbody sizes'.
        assert (Er' : calc_tensor_dim ly sizes' p = Ok (N (L ++ [(d, s)]))).
        { destruct (N_value _ HLx) as (sa & sb & m & E1 & _ & _ & E2 & _ & ->).
          destruct Hok as (Ho1 & Ho2 & _). unfold calc_tensor_dim. rewrite Ho1, Hpget.
          destruct ab as [da db] eqn:Eab. unfold dgetr. rewrite E1, E2. cbn [of_option rbind fst snd].
          assert (F : forall e, related e (da, db) = true -> Qfloor (size_of_dim sizes' e) = Qfloor (extent (L ++ [(d, s)]) e)).
          { intros e He. destruct (Ho2 e He) as (qe & Ee & Hqe). unfold size_of_dim. rewrite Ee.
            now apply Qfloor_comp. }
          rewrite !F; [reflexivity| |]; unfold related; cbn [fst snd]; rewrite eqb_refl;
            [now rewrite orb_true_r|reflexivity]. }
        rewrite Er'. cbn [rbind]. assert (HN := N_ge_1 _ HLx).
        unfold pdiv, qis0. replace (Qeq_bool (N (L ++ [(d, s)])) 0) with false.
        2:{ symmetry. apply not_true_iff_false. intros E. apply Qeq_bool_iff in E. lra. }
        cbn [rbind]. destruct (IH (L ++ [(d, s)]) sizes' HL Hok) as (sz & xs & E & Ho & F).
        rewrite E. cbn [rbind fst snd]. exists sz, ((N (L ++ [(d, s)]), qprod (values sizes') / N (L ++ [(d, s)])) :: xs).
        split; [reflexivity|]. split; [exact Ho|]. constructor; [|exact F]. cbn [fst snd].
        split; [reflexivity|]. destruct Hok as (_ & _ & Ho3). now rewrite Ho3.
      - assert (Hs' : sizes_ok (L ++ [(d, s)]) sizes).
        { destruct Hs as (Hs1 & Hs2 & Hs3). split; [easy|]. split.
          - intros d' Hd'. destruct (Hs2 d' Hd') as (q & Eq & Hq). exists q. split; [easy|].
            rewrite extent_snoc, Hq. cbn [fst]. destruct (eqb_spec d d') as [<-|]; [congruence|ring].
          - rewrite Hs3, D_snoc. cbn [fst]. rewrite Er. ring. }
        destruct (IH (L ++ [(d, s)]) sizes HL Hs') as (sz & xs & E & Ho & F).
        rewrite E. exists sz, xs. destruct (memb d rir); (split; [reflexivity|split; assumption]).
    Qed.

    Definition good (P : list qloop) (y : Q * Q) : Prop :=
      exists B x, P = B ++ [x] /\ fst y == N P / N B /\ fst y * snd y == snd x.

    Definition prev_ok (L : list qloop) (prev : Q * Q) : Prop := fst prev == N L /\ snd prev == D L / N L.

    Lemma pdiv_ok a b : ~ b == 0 -> pdiv a b = Ok (a / b).
    Proof.
      intros H. unfold pdiv, qis0. destruct (Qeq_bool b 0) eqn:E; [|reflexivity].
      apply Qeq_bool_iff in E. contradiction.
    Qed.

    Lemma DN_pos L : operand_ok ly rir L -> 0 < D L / N L.
    Proof.
      intros H. assert (H1 := D_ge_1 L H). assert (H2 := N_ge_1 L H).
      apply Qlt_shift_div_l; lra.
    Qed.

    Lemma ratios_level_ok loops : forall L xs prev, operand_ok ly rir (L ++ loops) -> prev_ok L prev ->
      Forall2 (fun P x => fst x == N P /\ snd x == D P / N P) (marks L loops) xs ->
      exists prev' ys, ratios_level prev xs = Ok (prev', ys) /\ prev_ok (L ++ loops) prev' /\
        Forall2 good (marks L loops) ys.
    Proof.
      induction loops as [|x loops IH]; intros L xs prev HL Hpr F.
      { cbn in F. inversion F; subst. exists prev, []. rewrite app_nil_r. split; [reflexivity|split; [exact Hpr|constructor]]. }
      assert (Hassoc : L ++ x :: loops = (L ++ [x]) ++ loops) by (now rewrite <- app_assoc).
      rewrite Hassoc in *. assert (HLx : operand_ok ly rir (L ++ [x])).
      { intros y Hy. apply HL, in_or_app. now left. }
      assert (HL0 : operand_ok ly rir L).
      { intros y Hy. apply HLx, in_or_app. now left. }
      assert (HN := N_ge_1 _ HLx). assert (HN0 := N_ge_1 _ HL0).
      assert (HD := DN_pos _ HLx). assert (HD0 := DN_pos _ HL0).
      assert (HDx := D_ge_1 _ HLx). assert (HDx0 := D_ge_1 _ HL0).
      cbn [marks] in *. destruct (related (fst x) ab) eqn:Er.
      - inversion F as [|P x1 Ps xs1 (Hx1 & Hx2) F1]; subst. cbn [ratios_level].
        destruct Hpr as [Hp1 Hp2].
        rewrite pdiv_ok by (rewrite Hp1; lra). cbn [rbind].
        rewrite pdiv_ok by (rewrite Hp2; lra). cbn [rbind].
        destruct (IH (L ++ [x]) xs1 x1 HL (conj Hx1 Hx2) F1) as (pv & ys & E & Ho & G).
        rewrite E. cbn [rbind fst snd]. exists pv, ((fst x1 / fst prev, snd x1 / snd prev) :: ys).
        split; [reflexivity|]. split; [exact Ho|]. constructor; [|exact G].
        exists L, x. split; [reflexivity|]. cbn [fst snd]. rewrite Hx1, Hx2, Hp1, Hp2. split; [reflexivity|].
        rewrite (D_snoc L x), Er. field. repeat split; lra.
      - assert (Hpr' : prev_ok (L ++ [x]) prev).
        { destruct Hpr as [Hp1 Hp2]. split; rewrite (N_other L x HLx Er); [easy|]. rewrite Hp2, D_snoc, Er. field. lra. }
        destruct (IH (L ++ [x]) xs prev HL Hpr' F) as (pv & ys & E & Ho & G).
        exists pv, ys. split; [exact E|split; assumption].
    Qed.

    Lemma per_levels_ok ls : forall L sizes prev, operand_ok ly rir (L ++ concat ls) ->
      sizes_ok L sizes -> prev_ok L prev ->
      exists c ys, cabl_levels ly rir p ab sizes ls = Ok c /\ ratios prev c = Ok ys /\
        length ys = length ls /\
        forall k l y, nth_error ls k = Some l -> nth_error ys k = Some y ->
          Forall2 good (marks (L ++ concat (firstn k ls)) l) y.
    Proof.
      induction ls as [|l ls IH]; intros L sizes prev HL Hs Hp'.
      { exists [], []. repeat split; [easy..|]. intros [|k] l y E; discriminate. }
      cbn [concat] in HL. rewrite app_assoc in HL. assert (HLl : operand_ok ly rir (L ++ l)).
      { intros y Hy. apply HL, in_or_app. now left. }
      destruct (cabl_level_ok l L sizes HLl Hs) as (sz & xs & E & Ho & F).
      destruct (ratios_level_ok l L xs prev HLl Hp' F) as (pv & ys & E' & Ho' & G).
      destruct (IH (L ++ l) sz pv HL Ho Ho') as (c & yss & E1 & E2 & Hlen & Hall).
      cbn [cabl_levels]. rewrite E. cbn [rbind fst snd]. rewrite E1. cbn [rbind].
      exists (xs :: c), (ys :: yss). cbn [ratios]. split; [reflexivity|].
      rewrite E'. cbn [rbind fst snd]. rewrite E2. cbn [rbind]. split; [reflexivity|].
      split; [cbn; now f_equal|]. intros [|k] l' y El Ey; cbn [nth_error] in El, Ey.
      - injection El as <-. injection Ey as <-. cbn. now rewrite app_nil_r.
      - cbn [firstn concat]. rewrite app_assoc. now apply (Hall k).
    Qed.

    Lemma per_pr_ok ls : operand_ok ly rir (concat ls) ->
      exists ys, per_pr ly rir ls (p, ab) = Ok (p, ys) /\ length ys = length ls /\
        forall k l y, nth_error ls k = Some l -> nth_error ys k = Some y ->
          Forall2 good (marks (concat (firstn k ls)) l) y.
    Proof.
      intros H. destruct (per_levels_ok ls [] _ (1, 1) H sizes_init) as (c & ys & E1 & E2 & Hlen & Hall).
      { split; cbn [fst snd]; rewrite N_nil; [reflexivity|]. unfold D. cbn. reflexivity. }
      exists ys. unfold per_pr. rewrite E1. cbn [rbind]. rewrite E2. cbn [rbind]. now repeat split.
    Qed.

    Lemma marks_app l1 : forall L l2, marks L (l1 ++ l2) = marks L l1 ++ marks (L ++ l1) l2.
    Proof.
      induction l1 as [|x l1 IH]; intros L l2; cbn [marks app]; [now rewrite app_nil_r|].
      rewrite IH, <- app_assoc. cbn [app]. now destruct (related (fst x) ab).
    Qed.
  End One.

  Lemma set_nth_app {A} (out : list A) x y l : set_nth (length out) x (out ++ y :: l) = Ok (out ++ x :: l).
  Proof. induction out as [|o out IH]; cbn; [reflexivity|]. now rewrite IH. Qed.
  Lemma insert_at_app {A} (out : list A) x l : insert_at (length out) x (out ++ l) = out ++ x :: l.
  Proof. induction out as [|o out IH]; cbn; [reflexivity|]. now rewrite IH. Qed.

  Lemma rfold_none sz idx d st prs : (forall p ab, In (p, ab) prs -> related d ab = false) ->
    rfold (replace_pr sz idx d) st prs = Ok st.
  Proof.
    induction prs as [|[p ab] prs IH]; intros H; cbn [rfold]; [reflexivity|].
    unfold replace_pr at 1. destruct st as [[new local] g]. rewrite (H p ab) by now left. cbn [rbind].
    apply IH. intros; eapply H; right; eassumption.
  Qed.

  Lemma rfold_one sz idx d st prs p ab : In (p, ab) prs -> NoDup (keys prs) ->
    (forall q cd, In (q, cd) prs -> related d cd = true -> q = p) ->
    rfold (replace_pr sz idx d) st prs = replace_pr sz idx d st (p, ab).
  Proof.
    intros Hin Hnd Hu. destruct (related d ab) eqn:Er.
    - revert st. induction prs as [|[q cd] prs IH]; intros st; [destruct Hin|].
      cbn in Hnd. inversion Hnd as [|? ? Hni Hnd']; subst. cbn [rfold].
      destruct Hin as [[= -> ->]|Hin].
      + destruct (replace_pr sz idx d st (p, ab)) as [st'|e]; cbn [rbind]; [|reflexivity].
        apply rfold_none. intros q cd Hq. destruct (related d cd) eqn:E; [|reflexivity]. exfalso.
        apply Hni. rewrite <- (Hu q cd (or_intror Hq) E). apply (in_map fst) in Hq. exact Hq.
      + unfold replace_pr at 1. destruct st as [[new local] g].
        replace (related d cd) with false.
        * cbn [rbind]. apply IH; [easy|easy|]. intros; eapply Hu; [right; eassumption|eassumption].
        * symmetry. apply not_true_iff_false. intros E. apply Hni.
          rewrite (Hu q cd (or_introl eq_refl) E). apply (in_map fst) in Hin. exact Hin.
    - unfold replace_pr. destruct st as [[new local] g]. rewrite Er.
      apply rfold_none. intros q cd Hq. destruct (related d cd) eqn:E; [|reflexivity].
      assert (q = p) by now apply (Hu q cd). subst q.
      assert (cd = ab). { apply In_dget in Hq; [|easy]. apply In_dget in Hin; [|easy]. congruence. }
      congruence.
  Qed.

  Definition sz_ok (before l : list qloop) (sz : dict string (list (Q * Q))) : Prop :=
    forall p ab, In (p, ab) (l_pr_loop ly) -> exists ys, dget p sz = Some ys /\
      Forall2 (good p) (marks ab before l) ys.

  Definition local_ok (before l1 : list qloop) (local : dict string nat) : Prop :=
    forall p ab, In (p, ab) (l_pr_loop ly) -> dget p local = Some (length (marks ab before l1)).

  Lemma Forall2_nth {A B} (R : A -> B -> Prop) l1 x l2 ys : Forall2 R (l1 ++ x :: l2) ys ->
    exists y, nth_error ys (length l1) = Some y /\ R x y.
  Proof.
    revert ys. induction l1 as [|z l1 IH]; intros ys H; inversion H; subst; cbn; [eauto|]. now apply IH.
  Qed.

  Lemma runs_dec (x : qloop) : (exists p ab, In (p, ab) (l_pr_loop ly) /\ related (fst x) ab = true) \/
    (forall p ab, In (p, ab) (l_pr_loop ly) -> related (fst x) ab = false).
  Proof.
    induction (l_pr_loop ly) as [|[p ab] prs IH]; [now right|].
    destruct (related (fst x) ab) eqn:E.
    - left. exists p, ab. split; [now left|easy].
    - destruct IH as [(q & cd & H & E')|H].
      + left. exists q, cd. split; [now right|easy].
      + right. intros q cd [[= <- <-]|Hq]; [easy|now apply (H q)].
  Qed.

  Lemma replace_level_ok l2 : forall before l1 idx out local g sz,
    operand_ok ly rir (before ++ l1 ++ l2) -> sz_ok before (l1 ++ l2) sz -> local_ok before l1 local ->
    (idx + g)%nat = length out ->
    exists out2 local' g', replace_level ly rir sz idx l2 (out ++ l2, local, g) = Ok (out ++ out2, local', g') /\
      decoupled ly (before ++ l1) l2 out2.
  Proof.
    induction l2 as [|[d s] l2 IH]; intros before l1 idx out local g sz HL Hsz Hloc Hlen.
    { exists [], local, g. split; [now rewrite app_nil_r|constructor]. }
    assert (Hassoc : l1 ++ (d, s) :: l2 = (l1 ++ [(d, s)]) ++ l2) by (now rewrite <- app_assoc).
    cbn [replace_level].
    assert (Hkeep : (forall p ab, In (p, ab) (l_pr_loop ly) -> related d ab = false) ->
      exists out2 local' g', replace_level ly rir sz (S idx) l2 (out ++ (d, s) :: l2, local, g)
         = Ok (out ++ out2, local', g') /\ decoupled ly (before ++ l1) ((d, s) :: l2) out2).
    { intros Hno. destruct (IH before (l1 ++ [(d, s)]) (S idx) (out ++ [(d, s)]) local g sz) as (o & lo & g' & E & Dec).
      - now rewrite <- Hassoc.
      - now rewrite <- Hassoc.
      - intros p ab Hp. rewrite marks_app, (Hloc p ab Hp). cbn [marks fst]. rewrite (Hno p ab Hp). now rewrite app_nil_r.
      - rewrite app_length. cbn. lia.
      - rewrite <- !app_assoc in E. cbn [app] in E. exists ((d, s) :: o), lo, g'. split; [exact E|].
        constructor; [|now rewrite <- app_assoc].
        intros p Hr. assert (Hr' := Hr). destruct Hr' as (da & db & Hi & _).
        apply (related_runs ly p (da, db) (d, s) (dok_nodup _ Hly) Hi) in Hr. cbn [fst] in Hr.
        rewrite (Hno p (da, db) Hi) in Hr. discriminate. }
    destruct (runs_dec (d, s)) as [(p & ab & Hp & Er)|Hno]; cbn [fst] in *.
    2:{ destruct (memb d rir); [now apply Hkeep|]. rewrite rfold_none by easy. cbn [rbind]. now apply Hkeep. }
    assert (Hr : runs_over ly p (d, s)) by now apply (runs_over_related ly p ab).
    replace (memb d rir) with false.
    2:{ symmetry. apply memb_not_In. apply (HL (d, s)) with (p := p); [|easy].
        apply in_or_app. right. apply in_or_app. right. now left. }
    rewrite (rfold_one sz idx d _ (l_pr_loop ly) p ab Hp (dok_nodup _ Hly)).
    2:{ intros q cd Hq E. apply (dok_unshared _ Hly q p (d, s)); [|easy]. now apply (runs_over_related ly q cd). }
    unfold replace_pr. rewrite Er. unfold dgetr. rewrite (Hloc p ab Hp). cbn [of_option rbind].
    destruct (Hsz p ab Hp) as (ys & Eys & F). rewrite Eys. cbn [of_option rbind].
    assert (Hm : marks ab before (l1 ++ (d, s) :: l2) =
      marks ab before l1 ++ (before ++ l1 ++ [(d, s)]) :: marks ab (before ++ l1 ++ [(d, s)]) l2).
    { rewrite marks_app. cbn [marks fst]. rewrite Er. now rewrite <- !app_assoc. }
    rewrite Hm in F. destruct (Forall2_nth _ _ _ _ _ F) as (y & Ey & B & x & EP & Ha & Hb).
    rewrite app_assoc in EP. apply app_inj_tail in EP as [<- <-].
    rewrite Ey. cbn [of_option rbind]. rewrite Hlen, set_nth_app. cbn [rbind].
    replace (length out + 1)%nat with (length (out ++ [(r_version p, fst y)])) by (rewrite app_length; reflexivity).
    change (out ++ (r_version p, fst y) :: l2) with (out ++ [(r_version p, fst y)] ++ l2).
    rewrite app_assoc, insert_at_app.
    destruct (IH before (l1 ++ [(d, s)]) (S idx) (out ++ [(r_version p, fst y); (ir_version p, snd y)])
      (dset p (S (length (marks ab before l1))) local) (S g) sz) as (o & lo & g' & E & Dec).
    - now rewrite <- Hassoc.
    - now rewrite <- Hassoc.
    - intros q cd Hq. rewrite marks_app, app_length. cbn [marks fst].
      destruct (eqb_spec q p) as [->|Hne].
      + assert (cd = ab). { apply In_dget in Hq; [|apply Hly]. apply In_dget in Hp; [|apply Hly]. congruence. }
        subst cd. rewrite Er, dget_dset_eq. cbn [length]. f_equal. lia.
      + rewrite dget_dset_neq by congruence. rewrite (Hloc q cd Hq). replace (related d cd) with false.
        * cbn [length]. f_equal. lia.
        * symmetry. apply not_true_iff_false. intros E. apply Hne.
          apply (dok_unshared _ Hly q p (d, s)); [|easy]. now apply (runs_over_related ly q cd).
    - rewrite app_length. cbn. lia.
    - rewrite <- !app_assoc in E |- *. cbn [app] in E |- *. rewrite E.
      exists ((r_version p, fst y) :: (ir_version p, snd y) :: o), lo, g'. split; [now rewrite <- app_assoc|].
      apply dec_split; [easy| |easy|now rewrite <- app_assoc].
      rewrite Ha. rewrite <- app_assoc. reflexivity.
  Qed.

  Definition per_ok (ls : list (list qloop)) (per : dict string (list (list (Q * Q)))) : Prop :=
    Forall2 (fun pab kv => fst kv = fst pab /\ length (snd kv) = length ls /\
       forall k l y, nth_error ls k = Some l -> nth_error (snd kv) k = Some y ->
          Forall2 (good (fst pab)) (marks (snd pab) (concat (firstn k ls)) l) y) (l_pr_loop ly) per.

  Lemma replace_levels_ok ls2 : forall ls1 per, operand_ok ly rir (concat (ls1 ++ ls2)) -> per_ok (ls1 ++ ls2) per ->
    exists outs, replace_levels ly rir per (length ls1) ls2 = Ok outs /\ decoupled_levels ly (concat ls1) ls2 outs.
  Proof.
    induction ls2 as [|l ls2 IH]; intros ls1 per HL Hper; cbn [replace_levels].
    { exists []. split; [reflexivity|constructor]. }
    assert (Hsz : exists sz, rmap (fun kv => x <- of_option IndexError (nth_error (snd kv) (length ls1)) ;; Ok (fst kv, x)) per = Ok sz
      /\ sz_ok (concat ls1) l sz).
    { unfold per_ok in Hper. unfold sz_ok. assert (Hnd := dok_nodup _ Hly). clear - Hper Hnd.
      induction Hper as [|[p ab] [q xss] prs per (E & Hl & Hall) Hper IHp].
      - exists []. split; [reflexivity|]. intros p ab [].
      - cbn [fst snd] in *. subst q. cbn in Hnd. inversion Hnd as [|? ? Hni Hnd']; subst.
        destruct (IHp Hnd') as (sz & E & Hsz). cbn [rmap fst snd].
        destruct (nth_error xss (length ls1)) as [xs|] eqn:Ex.
        2:{ exfalso. apply nth_error_None in Ex. rewrite Hl, app_length in Ex. cbn in Ex. lia. }
        cbn [of_option rbind]. rewrite E. cbn [rbind]. exists ((p, xs) :: sz). split; [reflexivity|].
        intros q cd [[= <- <-]|Hq].
        + exists xs. cbn [dget]. rewrite eqb_refl. split; [reflexivity|].
          specialize (Hall (length ls1) l xs). rewrite firstn_app, Nat.sub_diag, firstn_all, app_nil_r in Hall.
          apply Hall; [|exact Ex]. rewrite nth_error_app2, Nat.sub_diag by lia. reflexivity.
        + destruct (Hsz q cd Hq) as (ys & Ey & F). exists ys. split; [|exact F]. cbn [dget].
          destruct (eqb_spec q p) as [->|]; [|exact Ey]. exfalso. apply Hni. apply (in_map fst) in Hq. exact Hq. }
    destruct Hsz as (sz & E & Hsz). rewrite E. cbn [rbind].
    rewrite concat_app in HL. cbn [concat] in HL.
    destruct (replace_level_ok l (concat ls1) [] 0 [] (map (fun p => (p, O)) (keys (l_pr_loop ly))) 0 sz)
      as (o & lo & g & Eo & Dec).
    - intros x Hx. apply HL. cbn [app] in Hx. apply in_app_or in Hx. apply in_or_app. destruct Hx; [now left|right].
      apply in_or_app. now left.
    - exact Hsz.
    - intros p ab Hp. cbn [marks length]. apply In_dget.
      + unfold keys. rewrite map_map. cbn [fst]. rewrite map_id. apply Hly.
      + apply in_map_iff. exists p. split; [reflexivity|]. apply (in_map fst) in Hp. exact Hp.
    - reflexivity.
    - cbn [app] in Eo. cbn [app]. match goal with |- context [rbind ?t _] => replace t with (@Ok rstate (o, lo, g)) by (symmetry; exact Eo) end. cbn [rbind fst snd].
      destruct (IH (ls1 ++ [l]) per) as (outs & E' & Decs).
      + rewrite <- app_assoc, concat_app. cbn [app concat]. exact HL.
      + rewrite <- app_assoc. exact Hper.
      + rewrite app_length in E'. cbn [length] in E'. replace (length ls1 + 1)%nat with (S (length ls1)) in E' by lia.
        rewrite E'. cbn [rbind]. exists (o :: outs). split; [reflexivity|].
        constructor; [now rewrite app_nil_r in Dec|]. rewrite concat_app in Decs. cbn [concat] in Decs.
        now rewrite app_nil_r in Decs.
  Qed.

  Lemma decouple_operand_ok ls : operand_ok ly rir (concat ls) ->
    exists outs, decouple_operand ly rir ls = Ok outs /\ decoupled_levels ly [] ls outs.
  Proof.
    intros HL. unfold decouple_operand.
    assert (Hper : exists per, rmap (per_pr ly rir ls) (l_pr_loop ly) = Ok per /\ per_ok ls per).
    { unfold per_ok. assert (Hall : forall pab, In pab (l_pr_loop ly) -> In pab (l_pr_loop ly)) by easy.
      revert Hall. generalize (l_pr_loop ly) at 1 3 4. intros prs.
      induction prs as [|[p ab] prs IHp]; intros Hall.
      - exists []. split; [reflexivity|constructor].
      - destruct IHp as (per & E & F); [intros; apply Hall; now right|].
        destruct (per_pr_ok p ab (Hall _ (or_introl eq_refl)) ls HL) as (ys & Ey & Hlen & Hg).
        cbn [rmap]. rewrite Ey. cbn [rbind]. rewrite E. cbn [rbind]. exists ((p, ys) :: per). split; [reflexivity|].
        constructor; [|exact F]. cbn [fst snd]. now repeat split. }
    destruct Hper as (per & E & Hper). rewrite E. cbn [rbind].
    exact (replace_levels_ok ls [] per HL Hper).
  Qed.
End Dec.
