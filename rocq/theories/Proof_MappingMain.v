(** C21-C23, C58-C60: the theorems about built mappings. *)
From Coq Require Import QArith Qround Lqa Permutation.
From Verif Require Import Base Model_Alloc Model_Temporal Model_Decouple Model_SpatialInt Model_DataMove
  Model_Mapping Spec_Alloc Spec_Decouple Spec_SpatialInt Spec_Temporal Spec_Mapping
  Proof_AllocSearch Proof_AllocTile Proof_AllocRun Proof_Decouple Proof_DecoupleTotals Proof_SpatialInt Proof_Alloc
  Proof_Bandwidth Proof_MappingLoops Proof_Mapping Proof_MappingBuild Proof_MappingProps.
Local Open Scope Q_scope.

Lemma in_skipn_S {A} (l : list A) i x : In x (skipn (S i) l) -> In x (skipn i l).
Proof.
  revert i. induction l as [|a l IH]; intros i H; [now rewrite skipn_nil in H|].
  destruct i as [|i]; [now right|]. cbn [skipn] in H |- *. now apply IH.
Qed.

Section Built.
  Variables (ly : layer) (r_dims ir_dims : dict string (list string)) (pr_ops inputs : list string) (out : string).
  Variables (macs size_out total : Z) (free : bool) (read_bw : string -> nat -> Z) (ois : dict string opinput).
  Hypothesis HM : good_mapping ly r_dims ir_dims pr_ops inputs out total ois.

  Lemma mapping_total : exists flags res,
    build_mapping ly r_dims ir_dims pr_ops inputs out macs size_out total free read_bw ois = Ok (flags, res) /\
    keys res = keys ois /\
    forall op oi, In (op, oi) ois -> exists od ps, dget op res = Some (od, ps) /\ length ps = length (oi_temporal oi).
  Proof.
    destruct (mapping_built ly r_dims ir_dims pr_ops inputs out macs size_out total free read_bw ois HM)
      as (flags & res & E & K & _ & H). exists flags, res. split; [exact E|]. split; [exact K|].
    intros op oi Hin. destruct (H op oi Hin) as (od & ps & precision & r & ir & c1 & c2 & l1 & l2 & H1 & H2 & _). eauto.
  Qed.

  Variables (flags : list bool) (res : dict string (opdata * list pattern)).
  Hypothesis HB : build_mapping ly r_dims ir_dims pr_ops inputs out macs size_out total free read_bw ois = Ok (flags, res).

  Lemma unfold_built :
    (exists oio lsO ir c1 c2, In (out, oio) ois /\ dget out ir_dims = Some ir /\ combined (oi_spatial oio) (oi_temporal oio) = Ok (c1, c2) /\
       decoupled_for ly pr_ops out c1 lsO /\ flags = psum_flags (ir ++ map ir_version (keys (l_pr_loop ly)))%list lsO) /\
    forall op oi, In (op, oi) ois -> exists od ps precision r ir c1 c2 l1 l2,
      dget op res = Some (od, ps) /\ length ps = length (oi_temporal oi) /\
      dget op r_dims = Some r /\ dget op ir_dims = Some ir /\
      combined (oi_spatial oi) (oi_temporal oi) = Ok (c1, c2) /\ decoupled_for ly pr_ops op c1 l1 /\ decoupled_for ly pr_ops op c2 l2 /\
      opdata_facts ly macs op oi (ir ++ map ir_version (keys (l_pr_loop ly)))%list l1 l2 precision od /\
      length precision = length (oi_spatial oi) /\
      (In op inputs -> (forall i q, nth_error precision i = Some q -> dget op (l_precision ly) = Some q) /\
        forall i p, nth_error ps i = Some p -> input_row ly inputs total free op oi od precision i p) /\
      (op = out -> (forall i q f, nth_error precision i = Some q -> nth_error flags i = Some f ->
           if f : bool then dget out (l_precision ly) = Some q else q = l_final_precision ly) /\
        forall i p, nth_error ps i = Some p -> output_row ly inputs size_out total free op oi od precision flags (ir ++ map ir_version (keys (l_pr_loop ly)))%list l1 i p).
  Proof.
    destruct (mapping_built ly r_dims ir_dims pr_ops inputs out macs size_out total free read_bw ois HM)
      as (flags' & res' & E & K & H1 & H2). rewrite HB in E. injection E as <- <-. split; assumption.
  Qed.

  Lemma only_out oi oi' : In (out, oi) ois -> In (out, oi') ois -> oi = oi'.
  Proof.
    destruct (gm_keys _ _ _ _ _ _ _ _ HM) as (K1 & _). intros A B.
    pose proof (In_dget _ _ _ K1 A). pose proof (In_dget _ _ _ K1 B). congruence.
  Qed.

  (** * C21 *)
  Lemma reducing_outside ir oi i : good_operand ly r_dims ir_dims pr_ops out oi -> dget out ir_dims = Some ir ->
    existsb (reducing (ir ++ map ir_version (keys (l_pr_loop ly)))%list) (outside (oi_spatial oi) (oi_temporal oi) i (S i)) = true <->
    reduces_above ir (oi_spatial oi) (oi_temporal oi) i (S i).
  Proof.
    intros Hg Ei. rewrite existsb_exists. unfold reduces_above. split.
    - intros (x & Hx & Hr). unfold reducing in Hr. apply andb_true_iff in Hr as [H1 H2].
      rewrite (in_ird ly r_dims ir_dims pr_ops out oi Hg ir x Ei (outside_in _ _ _ _ _ Hx)) in H1.
      apply memb_In in H1. apply negb_true_iff in H2.
      assert (H3 : 1 < snd x). { apply Qnot_le_lt. intros H. apply Qle_bool_iff in H. congruence. }
      unfold outside in Hx. apply in_app_or in Hx as [Hx|Hx].
      + left. rewrite skipn_map, <- concat_map in Hx. apply in_map_iff in Hx as ([d s] & <- & Hx). cbn [fst snd] in *.
        exists d, s. repeat split; auto. change 1 with (inject_Z 1) in H3. now rewrite <- Zlt_Qlt in H3.
      + right. destruct x as [d s]. exists d, s. repeat split; auto.
    - intros [(d & s & Hx & Hd & Hs)|(d & s & Hx & Hd & Hs)].
      + assert (Hin : In (d, inject_Z s) (outside (oi_spatial oi) (oi_temporal oi) i (S i))).
        { unfold outside. apply in_or_app. left. rewrite skipn_map, <- concat_map. apply in_map_iff. now exists (d, s). }
        exists (d, inject_Z s). split; [exact Hin|]. unfold reducing.
        rewrite (in_ird ly r_dims ir_dims pr_ops out oi Hg ir _ Ei (outside_in _ _ _ _ _ Hin)). cbn [fst snd].
        apply andb_true_iff. split; [now apply memb_In|]. apply negb_true_iff. apply not_true_iff_false. intros H.
        apply Qle_bool_iff in H. change 1 with (inject_Z 1) in H. rewrite <- Zle_Qle in H. lia.
      + assert (Hin : In (d, s) (outside (oi_spatial oi) (oi_temporal oi) i (S i))).
        { unfold outside. apply in_or_app. now right. }
        exists (d, s). split; [exact Hin|]. unfold reducing.
        rewrite (in_ird ly r_dims ir_dims pr_ops out oi Hg ir _ Ei (outside_in _ _ _ _ _ Hin)). cbn [fst snd].
        apply andb_true_iff. split; [now apply memb_In|]. apply negb_true_iff. apply not_true_iff_false. intros H.
        apply Qle_bool_iff in H. lra.
  Qed.

  Lemma flags_sound : ~ In out pr_ops -> forall oi ir, In (out, oi) ois -> dget out ir_dims = Some ir ->
    length flags = S (length (oi_temporal oi)) /\
    forall i f, nth_error flags i = Some f -> (f = true <-> reduces_above ir (oi_spatial oi) (oi_temporal oi) i (S i)).
  Proof.
    intros Hnp oi ir Hin Ei. destruct unfold_built as [(oio & lsO & ir' & c1 & c2 & Ho & Ei' & EC & HD & EF) _].
    rewrite Ei in Ei'. injection Ei' as <-. rewrite <- (only_out oi oio Hin Ho) in *. clear Ho oio.
    destruct HD as [[Hp _]|[_ ->]]; [contradiction|].
    pose proof (gm_good _ _ _ _ _ _ _ _ HM out oi Hin) as Hg. destruct (go_levels _ _ _ _ _ _ Hg) as [Hal Hne].
    assert (L1 : length c1 = length (oi_spatial oi)).
    { destruct (combined_ok _ _ Hal) as (x1 & x2 & Ex & L1 & _). rewrite EC in Ex. injection Ex as <- <-. exact L1. }
    assert (Lf : length flags = length c1) by (rewrite EF; apply flags_length; intros E; rewrite E in L1; cbn in L1; lia).
    split; [lia|]. intros i f Hf. assert (Hi : (i < length c1)%nat) by (rewrite <- Lf; apply nth_error_Some; congruence).
    rewrite EF, flags_nth in Hf by exact Hi. injection Hf as <-.
    rewrite (existsb_perm _ _ _ (combined_suffix _ _ _ _ i Hal EC ltac:(lia))).
    now apply reducing_outside.
  Qed.

  (** once final, final above; the extra top flag is final *)
  Lemma flags_monotone : ~ In out pr_ops -> forall oi, In (out, oi) ois ->
    (forall i, nth_error flags (S i) = Some true -> nth_error flags i = Some true) /\
    nth_error flags (length (oi_temporal oi)) = Some false.
  Proof.
    intros Hnp oi Hin. pose proof (gm_good _ _ _ _ _ _ _ _ HM out oi Hin) as Hg.
    destruct (go_relevancy _ _ _ _ _ _ Hg) as (r & ir & Er & Ei & _). destruct (go_levels _ _ _ _ _ _ Hg) as [Hal _].
    destruct (flags_sound Hnp oi ir Hin Ei) as [L H]. split.
    - intros i Hi. assert (S i < length flags)%nat by (apply nth_error_Some; congruence).
      destruct (nth_lt flags i ltac:(lia)) as (f & Ef). rewrite Ef. f_equal. apply (H i f Ef).
      destruct (proj1 (H (S i) true Hi) eq_refl) as [(d & s & Hx & Hd & Hs)|(d & s & Hx & Hd & Hs)]; [left|right]; exists d, s; (split; [|tauto]).
      + apply in_concat in Hx as (l & Hl & Hx). apply in_concat. exists l. split; [|exact Hx].
        now apply in_skipn_S.
      + apply in_concat in Hx as (l & Hl & Hx). apply in_concat. exists l. split; [|exact Hx].
        now apply in_skipn_S.
    - destruct (nth_lt flags (length (oi_temporal oi)) ltac:(lia)) as (f & Ef). rewrite Ef. f_equal.
      apply not_true_is_false. intros ->. destruct (proj1 (H _ true Ef) eq_refl) as [(d & s & Hx & _)|(d & s & Hx & _)].
      + now rewrite skipn_all in Hx.
      + rewrite skipn_all2 in Hx by lia. destruct Hx.
  Qed.

  Lemma precision_follows oi od ps : In (out, oi) ois -> dget out res = Some (od, ps) ->
    length (od_precision od) = S (length (oi_temporal oi)) /\
    forall i q f, nth_error (od_precision od) i = Some q -> nth_error flags i = Some f ->
      if f : bool then dget out (l_precision ly) = Some q else q = l_final_precision ly.
  Proof.
    intros Hin Hr. destruct unfold_built as [_ H]. destruct (H out oi Hin) as (od' & ps' & precision & r & ir & c1 & c2 & l1 & l2 & E & _ & _ & _ & _ & _ & _ & Hod & Lp & _ & HO).
    rewrite Hr in E. injection E as <- <-. rewrite (of_precision _ _ _ _ _ _ _ _ _ Hod).
    destruct (go_levels _ _ _ _ _ _ (gm_good _ _ _ _ _ _ _ _ HM out oi Hin)) as [Hal _].
    split; [lia|]. now apply (HO eq_refl).
  Qed.

  (** * C22 *)
  Lemma external_off op oi od ps : In (op, oi) ois -> dget op res = Some (od, ps) ->
    exists p, nth_error ps (pred (length (oi_temporal oi))) = Some p /\
      forall a, entry p a RdHigh = Some 0%Z /\ entry p a WrHigh = Some 0%Z.
  Proof.
    intros Hin Hr. destruct unfold_built as [_ H].
    destruct (H op oi Hin) as (od' & ps' & precision & r & ir & c1 & c2 & l1 & l2 & E & Lps & _ & _ & _ & _ & _ & Hod & Lp & HI & HO).
    rewrite Hr in E. injection E as <- <-.
    destruct (go_levels _ _ _ _ _ _ (gm_good _ _ _ _ _ _ _ _ HM op oi Hin)) as [Hal Hne].
    assert (Hm : (0 < length (oi_temporal oi))%nat) by (destruct (oi_temporal oi); [contradiction|cbn; lia]).
    destruct (nth_lt ps (pred (length (oi_temporal oi))) ltac:(lia)) as (p & Ep). exists p. split; [exact Ep|].
    assert (T : (S (pred (length (oi_temporal oi))) =? length (oi_temporal oi))%nat = true) by (apply Nat.eqb_eq; lia).
    destruct (gm_ops _ _ _ _ _ _ _ _ HM) as (_ & _ & O3 & _).
    destruct (O3 op) as [Ho|Ho]; [unfold keys; apply in_map_iff; now exists (op, oi)| |].
    - destruct (HO Ho) as [_ HR]. specialize (HR _ _ Ep). unfold output_row in HR. rewrite T in HR.
      destruct HR as (full & wl & rh & k1 & k2 & bh & bl & c & c' & e & b & e' & cur & next & f & f' & (R1 & R2 & R3 & R4 & R5 & R6 & R7 & R8) & _).
      unfold row, ext in *. intros a. destruct a; tauto.
    - destruct (HI Ho) as [_ HR]. specialize (HR _ _ Ep). unfold input_row in HR. rewrite T in HR.
      destruct HR as (prec & raw & rl & wh & bh & bl & c & c' & e & b & e' & cur & next & (R1 & R2 & R3 & R4 & R5 & R6 & R7 & R8) & _).
      unfold row, ext in *. intros a. destruct a; tauto.
  Qed.

  (** * C23 *)
  Lemma input_counts op oi od ps : In (op, oi) ois -> In op inputs -> dget op res = Some (od, ps) ->
    forall i p, nth_error ps i = Some p -> exists n rd_low wr_high,
      moves ly op macs (within (oi_spatial oi) (oi_temporal oi) i (S i)) n /\
      (rd_low = n \/ (free = true /\ i = 0%nat /\ (0 <= n -> rd_low = n / oi_mac_stationary oi)))%Z /\
      moves ly op macs (within (oi_spatial oi) (oi_temporal oi) (S i) (S i)) wr_high /\
      row p MoveCount rd_low 0 0 (below_top i (length (oi_temporal oi)) wr_high).
  Proof.
    intros Hin Hinp Hr i p Hp. destruct unfold_built as [_ H].
    destruct (H op oi Hin) as (od' & ps' & precision & r & ir & c1 & c2 & l1 & l2 & E & Lps & _ & _ & _ & _ & _ & Hod & Lp & HI & HO).
    rewrite Hr in E. injection E as <- <-.
    destruct (go_levels _ _ _ _ _ _ (gm_good _ _ _ _ _ _ _ _ HM op oi Hin)) as [Hal Hne].
    assert (Hi : (i < length (oi_temporal oi))%nat) by (rewrite <- Lps; apply nth_error_Some; congruence).
    destruct (HI Hinp) as [_ HR]. destruct (HR i p Hp) as (prec & raw & rl & wh & bh & bl & c & c' & e & b & e' & cur & next & (R1 & _) & _ & Eraw & HRM & Ewh & _).
    destruct (of_raw _ _ _ _ _ _ _ _ _ Hod i ltac:(lia)) as (n & En & Mn). rewrite Eraw in En. injection En as <-.
    destruct (of_raw2 _ _ _ _ _ _ _ _ _ Hod (S i) ltac:(lia)) as (n' & En' & Mn'). rewrite Ewh in En'. injection En' as <-.
    exists raw, rl, wh. split; [exact Mn|]. split; [|split; [exact Mn'|exact R1]].
    destruct HRM as [->|(F1 & F2 & ->)]; [now left|right]. split; [exact F1|split; [exact F2|]]. intros Hpos.
    pose proof (gt_stationary _ _ _ _ _ _ (gm_tables _ _ _ _ _ _ _ _ HM op oi Hin)).
    assert (B : 0 < inject_Z (oi_mac_stationary oi)) by (change 0 with (inject_Z 0); rewrite <- Zlt_Qlt; lia).
    rewrite py_int_floor; [apply Qfloor_frac; lia|]. apply Qle_shift_div_l; [exact B|].
    rewrite Qmult_0_l. change 0 with (inject_Z 0). rewrite <- Zle_Qle. exact Hpos.
  Qed.

  Lemma output_counts oi od ps ir : ~ In out pr_ops -> (0 <= size_out)%Z -> In (out, oi) ois -> dget out res = Some (od, ps) -> dget out ir_dims = Some ir ->
    forall i p, nth_error ps i = Some p -> exists wr_low rd_high,
      moves ly out macs (within (oi_spatial oi) (oi_temporal oi) i (S i)) wr_low /\
      moves ly out macs (within (oi_spatial oi) (oi_temporal oi) (S i) (S i)) rd_high /\
      row p MoveCount
        (Qfloor (inject_Z size_out * (reuse ir (outside (oi_spatial oi) (oi_temporal oi) i (S i)) - 1)))
        wr_low
        (below_top i (length (oi_temporal oi)) rd_high)
        (below_top i (length (oi_temporal oi))
           (Qfloor (inject_Z size_out * (reuse ir (outside (oi_spatial oi) (oi_temporal oi) (S i) (S (S i))) - 1)))).
  Proof.
    intros Hnp Hs Hin Hr Ei i p Hp. destruct unfold_built as [_ H].
    destruct (H out oi Hin) as (od' & ps' & precision & r & ir' & c1 & c2 & l1 & l2 & E & Lps & _ & Ei' & EC & HD & _ & Hod & Lp & HI & HO).
    rewrite Hr in E. injection E as <- <-. rewrite Ei in Ei'. injection Ei' as <-.
    pose proof (gm_good _ _ _ _ _ _ _ _ HM out oi Hin) as Hg.
    destruct (go_levels _ _ _ _ _ _ Hg) as [Hal Hne].
    assert (Hi : (i < length (oi_temporal oi))%nat) by (rewrite <- Lps; apply nth_error_Some; congruence).
    destruct HD as [[Hx _]|[_ ->]]; [contradiction|].
    destruct (HO eq_refl) as [_ HR].
    destruct (HR i p Hp) as (full & wl & rh & k1 & k2 & bh & bl & c & c' & e & b & e' & cur & next & f & f' & (R1 & _) & _ & Ewl & Erh & _ & _ & K1 & K2 & _).
    destruct (of_raw _ _ _ _ _ _ _ _ _ Hod i ltac:(lia)) as (n & En & Mn). rewrite Ewl in En. injection En as <-.
    destruct (of_raw2 _ _ _ _ _ _ _ _ _ Hod (S i) ltac:(lia)) as (n' & En' & Mn'). rewrite Erh in En'. injection En' as <-.
    assert (FI : forall l, (forall x, In x l -> In x (whole_nest (oi_spatial oi) (oi_temporal oi))) ->
       filter (fun x => memb (fst x) (ir ++ map ir_version (keys (l_pr_loop ly)))%list) l = filter (fun x => memb (fst x) ir) l).
    { intros l Hl. apply filter_ext_in. intros x Hx. apply (in_ird ly r_dims ir_dims pr_ops out oi Hg ir x Ei). auto. }
    assert (Q1 : k1 == reuse ir (outside (oi_spatial oi) (oi_temporal oi) i (S i))).
    { rewrite K1. pose proof (combined_suffix _ _ _ _ i Hal EC ltac:(lia)) as P.
      rewrite FI by (intros x Hx; apply (Permutation_in x P) in Hx; eapply outside_in, Hx). now apply reuse_perm. }
    assert (Q2 : k2 == reuse ir (outside (oi_spatial oi) (oi_temporal oi) (S i) (S (S i)))).
    { rewrite K2. pose proof (combined_suffix _ _ _ _ (S i) Hal EC ltac:(lia)) as P.
      rewrite FI by (intros x Hx; apply (Permutation_in x P) in Hx; eapply outside_in, Hx). now apply reuse_perm. }
    assert (FL : forall k j, k == reuse ir (outside (oi_spatial oi) (oi_temporal oi) j (S j)) ->
      py_int (inject_Z size_out * (k - 1)) = Qfloor (inject_Z size_out * (reuse ir (outside (oi_spatial oi) (oi_temporal oi) j (S j)) - 1))).
    { intros k j Hk. rewrite py_int_floor; [apply Qfloor_comp; now rewrite Hk|].
      apply Qmult_le_0_compat; [change 0 with (inject_Z 0); now rewrite <- Zle_Qle|]. rewrite Hk.
      pose proof (reuse_ge_1 ly r_dims ir_dims pr_ops out oi Hg ir (outside (oi_spatial oi) (oi_temporal oi) j (S j)) ltac:(intros x; apply outside_in)). lra. }
    exists wl, rh. split; [exact Mn|]. split; [exact Mn'|]. rewrite <- (FL k1 i Q1), <- (FL k2 (S i) Q2). exact R1.
  Qed.

  (** exact counts of inputs without derived dimensions *)
  Lemma input_reuse op oi od ps ir : free = false -> (0 <= macs)%Z -> ~ In op pr_ops -> exact_nest oi macs -> dget op ir_dims = Some ir ->
    In (op, oi) ois -> In op inputs -> dget op res = Some (od, ps) ->
    (forall i p, nth_error ps i = Some p -> exists rd_low wr_high,
       row p MoveCount rd_low 0 0 (below_top i (length (oi_temporal oi)) wr_high) /\
       inject_Z rd_low * reuse ir (within (oi_spatial oi) (oi_temporal oi) i (S i)) == inject_Z macs /\
       inject_Z wr_high * reuse ir (within (oi_spatial oi) (oi_temporal oi) (S i) (S i)) == inject_Z macs /\
       (0 <= rd_low <= macs)%Z) /\
    (forall i p p' a b a', nth_error ps i = Some p -> nth_error ps (S i) = Some p' ->
       entry p MoveCount RdLow = Some a -> entry p MoveCount WrHigh = Some b -> entry p' MoveCount RdLow = Some a' ->
       (a' <= b <= a)%Z /\
       exists l, nth_error (oi_spatial oi) (S i) = Some l /\ inject_Z b == inject_Z a' * reuse ir l).
  Proof.
    intros Hf Hmp Hnp HE Ei Hin Hinp Hr.
    pose proof (gm_good _ _ _ _ _ _ _ _ HM op oi Hin) as Hg. pose proof (gm_layer _ _ _ _ _ _ _ _ HM) as Hly.
    set (su := oi_spatial oi) in *. set (tm := oi_temporal oi) in *.
    assert (M0 : 0 <= inject_Z macs) by (change 0 with (inject_Z 0); now rewrite <- Zle_Qle).
    assert (GE : forall i j, 1 <= reuse ir (within su tm i j)).
    { intros i j. apply (reuse_ge_1 ly r_dims ir_dims pr_ops op oi Hg). intros x. apply within_in_nest. }
    assert (BND : forall n R, 1 <= R -> inject_Z n * R == inject_Z macs -> (0 <= n <= macs)%Z).
    { intros n R HR E. assert (0 <= inject_Z n) by nra. assert (inject_Z n <= inject_Z macs) by nra.
      change 0 with (inject_Z 0) in H. rewrite <- Zle_Qle in *. lia. }
    assert (ONE : forall i p, nth_error ps i = Some p -> exists rd_low wr_high,
       row p MoveCount rd_low 0 0 (below_top i (length tm) wr_high) /\
       inject_Z rd_low * reuse ir (within su tm i (S i)) == inject_Z macs /\
       inject_Z wr_high * reuse ir (within su tm (S i) (S i)) == inject_Z macs /\ (0 <= rd_low <= macs)%Z).
    { intros i p Hp. destruct (input_counts op oi od ps Hin Hinp Hr i p Hp) as (n & rl & wh & M1 & [->|(F & _)] & M2 & R); [|congruence].
      exists n, wh. split; [exact R|].
      pose proof (moves_reuse ly Hly r_dims ir_dims pr_ops op oi Hg macs i (S i) n ir Hnp Ei HE M1) as E1.
      pose proof (moves_reuse ly Hly r_dims ir_dims pr_ops op oi Hg macs (S i) (S i) wh ir Hnp Ei HE M2) as E2.
      split; [exact E1|]. split; [exact E2|]. apply (BND _ _ (GE i (S i)) E1). }
    split; [exact ONE|].
    intros i p p' a b a' Hp Hp' Ea Eb Ea'.
    destruct (ONE i p Hp) as (x & y & (X1 & _ & _ & X2) & Q1 & Q2 & _). destruct (ONE (S i) p' Hp') as (x' & y' & (X1' & _) & Q1' & _ & (N0 & _)).
    rewrite Ea in X1. injection X1 as <-. rewrite Ea' in X1'. injection X1' as <-. rewrite Eb in X2. injection X2 as X2.
    assert (T : (S (S i) <= length tm)%nat).
    { destruct unfold_built as [_ H]. destruct (H op oi Hin) as (od' & ps' & _ & _ & _ & _ & _ & _ & _ & E & L & _).
      rewrite Hr in E. injection E as <- <-. fold tm in L. assert (S i < length ps)%nat by (apply nth_error_Some; congruence). lia. }
    assert (NT : (S i =? length tm)%nat = false) by (apply Nat.eqb_neq; lia). unfold below_top in X2. rewrite NT in X2. subst y.
    (* within grows *)
    destruct (go_levels _ _ _ _ _ _ Hg) as [Hal _]. fold su tm in Hal.
    destruct (nth_lt su (S i) ltac:(lia)) as (l & El).
    assert (G1 : reuse ir (within su tm (S i) (S (S i))) == reuse ir (within su tm (S i) (S i)) * reuse ir l).
    { unfold within. rewrite (firstn_S_nth su (S i) l El), concat_app. cbn [concat]. rewrite app_nil_r, app_assoc. apply reuse_app. }
    assert (Hq : exists t, nth_error (map (map (fun x => (fst x, inject_Z (snd x)))) tm) i = Some t) by (apply nth_lt; rewrite map_length; lia).
    destruct Hq as (t & Et).
    assert (G2 : reuse ir (within su tm (S i) (S i)) == reuse ir (within su tm i (S i)) * reuse ir t).
    { unfold within. rewrite (firstn_S_nth _ i t Et), concat_app. cbn [concat]. rewrite app_nil_r, !reuse_app. ring. }
    assert (GL : 1 <= reuse ir l).
    { apply (reuse_ge_1 ly r_dims ir_dims pr_ops op oi Hg). intros z Hz. unfold whole_nest, within. fold su. apply in_or_app. right.
      rewrite firstn_all. apply in_concat. exists l. split; [eapply nth_error_In, El|exact Hz]. }
    assert (GT : 1 <= reuse ir t).
    { apply (reuse_ge_1 ly r_dims ir_dims pr_ops op oi Hg). intros z Hz. unfold whole_nest, within. fold su tm. apply in_or_app. left.
      rewrite firstn_all2 by (now rewrite map_length). apply in_concat. exists t. split; [eapply nth_error_In, Et|exact Hz]. }
    rewrite G1 in Q1'. rewrite G2 in Q1', Q2. pose proof (GE i (S i)) as G0.
    set (R0 := reuse ir (within su tm i (S i))) in *. set (Rt := reuse ir t) in *. remember (reuse ir l) as Rl eqn:ERl. clearbody R0 Rt.
    assert (PR : 0 < R0 * Rt) by nra.
    assert (EB : inject_Z b == inject_Z a' * Rl).
    { apply (Qmult_inj_r _ _ (R0 * Rt)); [lra|]. rewrite Q2, <- Q1'. ring. }
    assert (EA : inject_Z a == inject_Z b * Rt).
    { apply (Qmult_inj_r _ _ R0); [lra|]. rewrite Q1, <- Q2. ring. }
    assert (A0 : 0 <= inject_Z a') by (change 0 with (inject_Z 0); now rewrite <- Zle_Qle).
    clear - EA EB A0 GL GT El ERl. assert (B0 : 0 <= inject_Z b) by (rewrite EB; nra).
    split; [|exists l; split; [exact El|now rewrite <- ERl]].
    assert (C1 : inject_Z a' <= inject_Z b) by (rewrite EB; nra). assert (C2 : inject_Z b <= inject_Z a) by (rewrite EA; nra).
    rewrite <- Zle_Qle in C1, C2. lia.
  Qed.

  (** every element of the output is written once more than it is read back *)
  Lemma output_balance oi od ps ir : ~ In out pr_ops -> (0 <= size_out)%Z -> exact_nest oi macs -> In (out, oi) ois -> dget out res = Some (od, ps) ->
    dget out ir_dims = Some ir ->
    inject_Z size_out == tile_elements ly out (whole_nest (oi_spatial oi) (oi_temporal oi)) ->
    forall i p, nth_error ps i = Some p ->
      (exists r w, entry p MoveCount RdLow = Some r /\ entry p MoveCount WrLow = Some w /\ (w - r = size_out)%Z /\ (0 <= r)%Z) /\
      (forall p' r w r' w', nth_error ps (S i) = Some p' -> entry p MoveCount RdHigh = Some r -> entry p MoveCount WrHigh = Some w ->
         entry p' MoveCount RdLow = Some r' -> entry p' MoveCount WrLow = Some w' -> (w = r' /\ w' <= r)%Z).
  Proof.
    intros Hnp Hs HE Hin Hr Ei Hsz.
    pose proof (gm_good _ _ _ _ _ _ _ _ HM out oi Hin) as Hg. pose proof (gm_layer _ _ _ _ _ _ _ _ HM) as Hly.
    set (su := oi_spatial oi) in *. set (tm := oi_temporal oi) in *.
    assert (S0 : 0 <= inject_Z size_out) by (change 0 with (inject_Z 0); now rewrite <- Zle_Qle).
    destruct (go_relevancy _ _ _ _ _ _ Hg) as (r0 & ir' & Er & Ei' & _). rewrite Ei in Ei'. injection Ei' as <-.
    assert (GE : forall i j, 1 <= reuse ir (within su tm i j)).
    { intros i j. apply (reuse_ge_1 ly r_dims ir_dims pr_ops out oi Hg). intros x. apply within_in_nest. }
    assert (GO : forall i j, 1 <= reuse ir (outside su tm i j)).
    { intros i j. apply (reuse_ge_1 ly r_dims ir_dims pr_ops out oi Hg). intros x. apply outside_in. }
    (* moves = size * reuse outside *)
    assert (MV : forall i j n, moves ly out macs (within su tm i j) n -> inject_Z n == inject_Z size_out * reuse ir (outside su tm i j)).
    { intros i j n Hn. pose proof (moves_reuse ly Hly r_dims ir_dims pr_ops out oi Hg macs i j n ir Hnp Ei HE Hn) as Q.
      destruct (plain_products ly Hly r_dims ir_dims pr_ops out oi Hg r0 ir (whole_nest su tm) Hnp Er Ei ltac:(auto)) as [_ P].
      destruct HE as [_ HE]. fold su tm in HE, Q. rewrite HE, <- P, <- Hsz, (reuse_perm _ _ _ (nest_split su tm i j)), reuse_app in Q.
      apply (Qmult_inj_r _ _ (reuse ir (within su tm i j))); [pose proof (GE i j); lra|]. rewrite Q. ring. }
    assert (WO : forall i j, exists z, reuse ir (outside su tm i j) == inject_Z z).
    { intros i j. apply whole_product. destruct HE as [HW _]. apply (whole_sub _ _ HW). intros x Hx. apply filter_In in Hx as [Hx _].
      eapply outside_in, Hx. }
    assert (FL : forall i j, inject_Z (Qfloor (inject_Z size_out * (reuse ir (outside su tm i j) - 1))) == inject_Z size_out * (reuse ir (outside su tm i j) - 1)).
    { intros i j. destruct (WO i j) as (z & Ez).
      rewrite (Qfloor_comp _ (inject_Z (size_out * (z - 1)))).
      - rewrite Qfloor_Z, Ez, inject_Z_mult. unfold Zminus. rewrite inject_Z_plus. reflexivity.
      - rewrite Ez, inject_Z_mult. unfold Zminus. rewrite inject_Z_plus. reflexivity. }
    intros i p Hp. destruct (output_counts oi od ps ir Hnp Hs Hin Hr Ei i p Hp) as (wl & rh & M1 & M2 & R1 & R2 & R3 & R4). fold su tm in M1, M2, R1, R3, R4.
    split.
    - eexists _, _. split; [exact R1|]. split; [exact R2|]. pose proof (MV _ _ _ M1) as Q. pose proof (FL i (S i)) as F.
      set (f := Qfloor _) in *. clearbody f. pose proof (GO i (S i)) as G. set (R := reuse ir (outside su tm i (S i))) in *. clearbody R.
      assert (D : inject_Z (wl - f) == inject_Z size_out).
      { unfold Zminus. rewrite inject_Z_plus, inject_Z_opp, Q, F. ring. }
      assert (N : 0 <= inject_Z f) by (rewrite F; nra).
      apply (proj1 (inject_Z_injective _ _)) in D. change 0 with (inject_Z 0) in N. rewrite <- Zle_Qle in N. split; assumption.
    - intros p' r w r' w' Hp' E1 E2 E3 E4.
      destruct (output_counts oi od ps ir Hnp Hs Hin Hr Ei (S i) p' Hp') as (wl' & rh' & M1' & M2' & R1' & R2' & R3' & R4'). fold su tm in M1', R1'.
      assert (T : (S (S i) <= length tm)%nat).
      { destruct unfold_built as [_ H]. destruct (H out oi Hin) as (od' & ps' & _ & _ & _ & _ & _ & _ & _ & E & L & _).
        rewrite Hr in E. injection E as <- <-. fold tm in L. assert (S i < length ps)%nat by (apply nth_error_Some; congruence). lia. }
      assert (NT : (S i =? length tm)%nat = false) by (apply Nat.eqb_neq; lia).
      unfold below_top in R3, R4. rewrite NT in R3, R4. split; [congruence|].
      assert (w' = wl') by congruence. assert (r = rh) by congruence. subst w' r.
      pose proof (MV _ _ _ M2) as Q1. pose proof (MV _ _ _ M1') as Q2.
      destruct (go_levels _ _ _ _ _ _ Hg) as [Hal _]. fold su tm in Hal.
      destruct (nth_lt su (S i) ltac:(lia)) as (l & El).
      assert (G1 : reuse ir (outside su tm (S i) (S i)) == reuse ir l * reuse ir (outside su tm (S i) (S (S i)))).
      { unfold outside. assert (K : skipn (S i) su = l :: skipn (S (S i)) su).
        { clear - El. revert El. generalize (S i) as n. induction su as [|a s IH]; intros [|n] H; try discriminate.
          - injection H as ->. reflexivity.
          - cbn [nth_error] in H. cbn [skipn]. rewrite (IH n H). reflexivity. }
        rewrite K. cbn [concat]. rewrite !reuse_app. ring. }
      assert (GL : 1 <= reuse ir l).
      { apply (reuse_ge_1 ly r_dims ir_dims pr_ops out oi Hg). intros z Hz. unfold whole_nest, within. fold su. apply in_or_app. right.
        rewrite firstn_all. apply in_concat. exists l. split; [eapply nth_error_In, El|exact Hz]. }
      pose proof (GO (S i) (S (S i))) as G. rewrite G1 in Q1.
      set (A := reuse ir l) in *. set (B := reuse ir (outside su tm (S i) (S (S i)))) in *. clearbody A B.
      assert (inject_Z wl' <= inject_Z rh).
      { rewrite Q1, Q2. assert (0 <= inject_Z size_out * B) by nra. nra. }
      now rewrite <- Zle_Qle in H.
  Qed.

  (** * C58 *)
  Section Transfers.
    Variables (op : string) (oi : opinput) (od : opdata) (precision : list Z) (ird : list string) (l1 l2 : qlevels).
    Hypothesis Hin : In (op, oi) ois.
    Hypothesis Hod : opdata_facts ly macs op oi ird l1 l2 precision od.
    Hypothesis HE : exact_nest oi macs.
    Let Hg := gm_good _ _ _ _ _ _ _ _ HM op oi Hin.
    Let Ht := gm_tables _ _ _ _ _ _ _ _ HM op oi Hin.
    Let Hly := gm_layer _ _ _ _ _ _ _ _ HM.

    Lemma elem_exact lv e : whole_sizes (whole_nest (oi_spatial oi) (oi_temporal oi)) ->
      nth_error (od_elem_unrolled od) lv = Some e -> (lv < length (oi_spatial oi))%nat ->
      inject_Z e == tile_elements ly op (within (oi_spatial oi) (oi_temporal oi) lv lv) /\ (1 <= e)%Z.
    Proof.
      intros HW He Hlv. destruct (of_elem_u _ _ _ _ _ _ _ _ _ Hod lv Hlv) as (n & En & Hn). rewrite He in En. injection En as <-.
      destruct (tile_whole' ly op oi (within (oi_spatial oi) (oi_temporal oi) lv lv)) as (z & Ez);
        [intros x; apply within_in_nest|exact HW|].
      rewrite (nearest_Z z e _ Ez Hn). split; [now symmetry|].
      pose proof (tile_ge_1 ly Hly r_dims ir_dims pr_ops op oi Hg (within (oi_spatial oi) (oi_temporal oi) lv lv) ltac:(intros x; apply within_in_nest)) as G.
      rewrite Ez in G. change 1 with (inject_Z 1) in G. now rewrite <- Zle_Qle in G.
    Qed.

    Lemma period_low i c : nth_error (cycle_each_level inputs free op oi) i = Some c ->
      (free = true -> In op inputs -> i <> 0%nat) -> (1 <= c)%Z /\ (c * (total / c) = total)%Z /\ (total / c)%Z = cycles (from i (oi_temporal oi)).
    Proof.
      intros Hc Hf. destruct (cyc_facts ly r_dims ir_dims pr_ops inputs total free read_bw op oi Hg Ht) as (_ & C1 & C2).
      assert (1 <= c)%Z by (eapply C1, nth_error_In, Hc).
      assert (E : c = cycles (below i (oi_temporal oi))).
      { destruct i as [|i]; [|now apply C2]. unfold cycle_each_level in Hc. cbn [nth_error] in Hc. injection Hc as <-.
        destruct (free && memb op inputs)%bool eqn:Eb; [|reflexivity]. apply andb_true_iff in Eb as [E1 E2]. apply memb_In in E2.
        now destruct (Hf E1 E2). }
      destruct (gt_cycles _ _ _ _ _ _ Ht) as [_ T]. rewrite (cycles_split oi i), <- E in T.
      assert (D : (total / c)%Z = cycles (from i (oi_temporal oi))) by (rewrite <- T, Z.mul_comm; apply Z.div_mul; lia).
      split; [assumption|]. split; [rewrite D; exact T|exact D].
    Qed.

    Lemma high_parts i bh bl c c' e b e' units n : (i < length (oi_temporal oi))%nat ->
      rates_facts inputs free op oi od precision i bh bl c c' e b e' ->
      nth_error (unit_count (oi_counts oi)) (S i) = Some units ->
      moves ly op macs (within (oi_spatial oi) (oi_temporal oi) (S i) (S i)) n ->
      (1 <= c' /\ c' * (total / c') = total /\ n = e' * (total / c') * units)%Z /\
      forall q, nth_error precision (S i) = Some q -> (0 <= q)%Z -> py_int bl = (e' * q / c')%Z.
    Proof.
      intros Hi HR Hu Hn. destruct (go_levels _ _ _ _ _ _ Hg) as [Hal _].
      destruct (rf_c _ _ _ _ _ _ _ _ _ _ _ _ _ _ HR) as [_ C2]. destruct (rf_e _ _ _ _ _ _ _ _ _ _ _ _ _ _ HR) as [_ E2].
      destruct (period_low (S i) c' C2 ltac:(discriminate)) as (P1 & P2 & P3).
      destruct (elem_exact (S i) e' (proj1 HE) E2 ltac:(lia)) as [X1 X2].
      destruct (gt_counts _ _ _ _ _ _ Ht) as (ls' & r0 & _ & _ & Hc).
      split.
      - split; [exact P1|]. split; [exact P2|].
        apply (count_exact ly r_dims ir_dims pr_ops op oi Hg macs (S i) (S i) n e' units); auto.
        apply (units_exact ly oi r0 ls'); auto. exact (proj1 HE).
      - intros q Hq Hq0. destruct (rf_bw _ _ _ _ _ _ _ _ _ _ _ _ _ _ HR) as (p & p' & _ & Hp' & _ & ->). rewrite Hq in Hp'. injection Hp' as <-.
        pose proof (aver_exact e' q c' 1 ltac:(lia) Hq0 P1 ltac:(lia)) as A. rewrite Z.mul_1_r in A. rewrite <- A. 
        rewrite !py_int_floor.
        + apply Qfloor_comp. change (inject_Z 1) with 1. ring.
        + change (inject_Z 1) with 1. rewrite Qmult_1_r. apply Qle_shift_div_l; [change 0 with (inject_Z 0); rewrite <- Zlt_Qlt; lia|].
          rewrite Qmult_0_l. change 0 with (inject_Z 0). rewrite <- Zle_Qle. nia.
        + apply Qle_shift_div_l; [change 0 with (inject_Z 0); rewrite <- Zlt_Qlt; lia|].
          rewrite Qmult_0_l. change 0 with (inject_Z 0). rewrite <- Zle_Qle. nia.
    Qed.

    Lemma low_parts i bh bl c c' e b e' units n : no_overlap ly pr_ops op (oi_spatial oi) i -> (i < length (oi_temporal oi))%nat ->
      (free = true -> In op inputs -> i <> 0%nat) ->
      rates_facts inputs free op oi od precision i bh bl c c' e b e' ->
      nth_error (unit_count (oi_counts oi)) (S i) = Some units ->
      moves ly op macs (within (oi_spatial oi) (oi_temporal oi) i (S i)) n ->
      (1 <= c /\ c * (total / c) = total /\ n = e * b * (total / c) * units)%Z /\
      forall q, nth_error precision i = Some q -> (0 <= q)%Z -> py_int bh = (e * b * q / c)%Z.
    Proof.
      intros Hnp Hi Hf HR Hu Hn. destruct (go_levels _ _ _ _ _ _ Hg) as [Hal _].
      destruct (rf_c _ _ _ _ _ _ _ _ _ _ _ _ _ _ HR) as [C2 _]. destruct (rf_e _ _ _ _ _ _ _ _ _ _ _ _ _ _ HR) as [E2 _].
      destruct (period_low i c C2 Hf) as (P1 & P2 & P3).
      destruct (elem_exact i e (proj1 HE) E2 ltac:(lia)) as [X1 X2].
      destruct (gt_counts _ _ _ _ _ _ Ht) as (ls' & r0 & Er & Hd & Hc).
      destruct (boost_exact ly r_dims ir_dims pr_ops op oi Hg r0 r0 ls' i e b Hnp Er Er Hd Hc (proj1 HE)
        (rf_b _ _ _ _ _ _ _ _ _ _ _ _ _ _ HR) X1) as [B1 B2].
      split.
      - split; [exact P1|]. split; [exact P2|].
        apply (count_exact ly r_dims ir_dims pr_ops op oi Hg macs i (S i) n (e * b)%Z units); auto.
        apply (units_exact ly oi r0 ls'); auto. exact (proj1 HE).
      - intros q Hq Hq0. destruct (rf_bw _ _ _ _ _ _ _ _ _ _ _ _ _ _ HR) as (p & p' & Hp & _ & -> & _). rewrite Hq in Hp. injection Hp as <-.
        apply aver_exact; lia.
    Qed.
  End Transfers.

  Lemma input_transfers op oi od ps prec : In (op, oi) ois -> In op inputs -> dget op res = Some (od, ps) -> exact_nest oi macs ->
    dget op (l_precision ly) = Some prec -> (0 <= prec)%Z ->
    forall i p units cur next, nth_error ps i = Some p -> nth_error (unit_count (oi_counts oi)) (S i) = Some units ->
      nth_error (oi_top_ir oi) i = Some cur -> nth_error (oi_top_ir oi) (S i) = Some next ->
      (no_overlap ly pr_ops op (oi_spatial oi) i -> free = false \/ i <> 0%nat -> transfers p RdLow prec total units cur) /\
      (S i <> length (oi_temporal oi) -> transfers p WrHigh prec total units next).
  Proof.
    intros Hin Hinp Hr HE Eprec Hpos i p units cur next Hp Hu Hcur Hnext. destruct unfold_built as [_ H].
    destruct (H op oi Hin) as (od' & ps' & precision & r & ir & c1 & c2 & l1 & l2 & E & Lps & _ & _ & _ & _ & _ & Hod & Lp & HI & HO).
    rewrite Hr in E. injection E as <- <-.
    destruct (go_levels _ _ _ _ _ _ (gm_good _ _ _ _ _ _ _ _ HM op oi Hin)) as [Hal Hne].
    destruct (gt_top_ir _ _ _ _ _ _ (gm_tables _ _ _ _ _ _ _ _ HM op oi Hin)) as [_ HT].
    assert (Hi : (i < length (oi_temporal oi))%nat) by (rewrite <- Lps; apply nth_error_Some; congruence).
    destruct (HI Hinp) as [HP HR].
    destruct (HR i p Hp) as (prec' & raw & rl & wh & bh & bl & c & c' & e & b & e' & cur' & next' & (R1 & R2 & R3 & R4 & R5 & R6 & R7 & R8) &
      Eprec' & Eraw & HRM & Ewh & HRF & Hcur' & Hnext').
    rewrite Hcur in Hcur'. injection Hcur' as <-. rewrite Hnext in Hnext'. injection Hnext' as <-.
    destruct (of_raw _ _ _ _ _ _ _ _ _ Hod i ltac:(lia)) as (n & En & Mn). rewrite Eraw in En. injection En as <-.
    destruct (of_raw2 _ _ _ _ _ _ _ _ _ Hod (S i) ltac:(lia)) as (n' & En' & Mn'). rewrite Ewh in En'. injection En' as <-.
    split.
    - intros Hnp Hf.
      assert (Erl : rl = raw) by (destruct HRM as [?|(F1 & F2 & _)]; [assumption|destruct Hf; congruence]). subst rl.
      destruct (low_parts op oi od precision _ l1 l2 Hin Hod HE i bh bl c c' e b e' units raw Hnp Hi) as [(P1 & P2 & P3) P4]; auto.
      { intros F _. destruct Hf; [congruence|assumption]. }
      destruct (nth_lt precision i ltac:(lia)) as (q & Eq). pose proof (HP i q Eq) as Eq'. rewrite Eprec in Eq'. injection Eq' as <-.
      exists raw, (py_int bh), (py_int bh * cur)%Z, c, (total / c)%Z, (e * b)%Z, (window c cur).
      destruct R1 as (R1 & _), R3 as (R3 & _), R4 as (R4 & _), R5 as (R5 & _), R6 as (R6 & _), R7 as (R7 & _), R8 as (R8 & _).
      repeat (split; [assumption|]). split; [now apply P4|]. split; [reflexivity|].
      apply window_exact; [eapply HT, nth_error_In, Hcur|lia].
    - intros Hnt. assert (NT : (S i =? length (oi_temporal oi))%nat = false) by now apply Nat.eqb_neq.
      rewrite NT in R1, R2, R3, R4, R5, R6, R7, R8. cbn [ext] in *.
      destruct (high_parts op oi od precision _ l1 l2 Hin Hod HE i bh bl c c' e b e' units wh Hi) as [(P1 & P2 & P3) P4]; auto.
      destruct (nth_lt precision (S i) ltac:(lia)) as (q & Eq). pose proof (HP (S i) q Eq) as Eq'. rewrite Eprec in Eq'. injection Eq' as <-.
      exists wh, (py_int bl), (py_int bl * next)%Z, c', (total / c')%Z, e', (window c' next).
      destruct R1 as (_ & _ & _ & R1), R3 as (_ & _ & _ & R3), R4 as (_ & _ & _ & R4), R5 as (_ & _ & _ & R5), R6 as (_ & _ & _ & R6), R7 as (_ & _ & _ & R7), R8 as (_ & _ & _ & R8).
      repeat (split; [assumption|]). split; [now apply P4|]. split; [reflexivity|].
      apply window_exact; [eapply HT, nth_error_In, Hnext|lia].
  Qed.

  Lemma output_transfers oi od ps : In (out, oi) ois -> dget out res = Some (od, ps) -> exact_nest oi macs ->
    (forall q, In q (od_precision od) -> (0 <= q)%Z) ->
    forall i p units cur next q q' f f', nth_error ps i = Some p -> nth_error (unit_count (oi_counts oi)) (S i) = Some units ->
      nth_error (oi_top_ir oi) i = Some cur -> nth_error (oi_top_ir oi) (S i) = Some next ->
      nth_error (od_precision od) i = Some q -> nth_error (od_precision od) (S i) = Some q' ->
      nth_error flags i = Some f -> nth_error flags (S i) = Some f' ->
      (no_overlap ly pr_ops out (oi_spatial oi) i -> transfers p WrLow q total units cur) /\
      (S i <> length (oi_temporal oi) -> transfers p RdHigh q' total units next) /\
      forall a, In a [BwAver; BwInst; Period; PeriodCount; AmountPerPeriod; TransWindow] ->
        entry p a RdLow = (if f : bool then entry p a WrLow else Some 0%Z) /\
        entry p a WrHigh = (if f' : bool then entry p a RdHigh else Some 0%Z).
  Proof.
    intros Hin Hr HE Hpos i p units cur next q q' f f' Hp Hu Hcur Hnext Hq Hq' Hf Hf'. destruct unfold_built as [_ H].
    destruct (H out oi Hin) as (od' & ps' & precision & r & ir & c1 & c2 & l1 & l2 & E & Lps & _ & _ & _ & _ & _ & Hod & Lp & HI & HO).
    rewrite Hr in E. injection E as <- <-.
    destruct (go_levels _ _ _ _ _ _ (gm_good _ _ _ _ _ _ _ _ HM out oi Hin)) as [Hal Hne].
    destruct (gt_top_ir _ _ _ _ _ _ (gm_tables _ _ _ _ _ _ _ _ HM out oi Hin)) as [_ HT].
    assert (Hi : (i < length (oi_temporal oi))%nat) by (rewrite <- Lps; apply nth_error_Some; congruence).
    destruct (HO eq_refl) as [HP HR].
    destruct (HR i p Hp) as (full & wl & rh & k1 & k2 & bh & bl & c & c' & e & b & e' & cur' & next' & g & g' & (R1 & R2 & R3 & R4 & R5 & R6 & R7 & R8) &
      Eprec' & Ewl & Erh & Hg & Hg' & _ & _ & HRF & Hcur' & Hnext').
    rewrite Hcur in Hcur'. injection Hcur' as <-. rewrite Hnext in Hnext'. injection Hnext' as <-.
    rewrite Hf in Hg. injection Hg as <-. rewrite Hf' in Hg'. injection Hg' as <-.
    destruct (of_raw _ _ _ _ _ _ _ _ _ Hod i ltac:(lia)) as (n & En & Mn). rewrite Ewl in En. injection En as <-.
    destruct (of_raw2 _ _ _ _ _ _ _ _ _ Hod (S i) ltac:(lia)) as (n' & En' & Mn'). rewrite Erh in En'. injection En' as <-.
    rewrite (of_precision _ _ _ _ _ _ _ _ _ Hod) in Hq, Hq', Hpos.
    destruct (gm_ops _ _ _ _ _ _ _ _ HM) as (_ & O2 & _ & _).
    split; [|split].
    - intros Hnp.
      destruct (low_parts out oi od precision _ l1 l2 Hin Hod HE i bh bl c c' e b e' units wl Hnp Hi) as [(P1 & P2 & P3) P4]; auto.
      exists wl, (py_int bh), (py_int bh * cur)%Z, c, (total / c)%Z, (e * b)%Z, (window c cur).
      destruct R1 as (_ & R1 & _), R3 as (_ & R3 & _), R4 as (_ & R4 & _), R5 as (_ & R5 & _), R6 as (_ & R6 & _), R7 as (_ & R7 & _), R8 as (_ & R8 & _).
      repeat (split; [assumption|]). split; [apply P4; [exact Hq|eapply Hpos, nth_error_In, Hq]|]. split; [reflexivity|].
      apply window_exact; [eapply HT, nth_error_In, Hcur|lia].
    - intros Hnt. assert (NT : (S i =? length (oi_temporal oi))%nat = false) by now apply Nat.eqb_neq.
      rewrite NT in R1, R2, R3, R4, R5, R6, R7, R8. cbn [ext] in *.
      destruct (high_parts out oi od precision _ l1 l2 Hin Hod HE i bh bl c c' e b e' units rh Hi) as [(P1 & P2 & P3) P4]; auto.
      exists rh, (py_int bl), (py_int bl * next)%Z, c', (total / c')%Z, e', (window c' next).
      destruct R1 as (_ & _ & R1 & _), R3 as (_ & _ & R3 & _), R4 as (_ & _ & R4 & _), R5 as (_ & _ & R5 & _), R6 as (_ & _ & R6 & _), R7 as (_ & _ & R7 & _), R8 as (_ & _ & R8 & _).
      repeat (split; [assumption|]). split; [apply P4; [exact Hq'|eapply Hpos, nth_error_In, Hq']|]. split; [reflexivity|].
      apply window_exact; [eapply HT, nth_error_In, Hnext|lia].
    - assert (Z0 : forall k, window 0 k = 0%Z) by apply window_0.
      assert (X0 : forall t, ext t 0 = 0%Z) by (intros []; reflexivity).
      intros a Ha. cbn [In] in Ha. unfold row in *.
      destruct f, f'; rewrite ?Z0, ?Z.mul_0_l, ?X0 in *; intuition (subst a; congruence).
  Qed.

  (** traffic below a level and the flags agree *)
  Lemma partial_sums_traffic oi od ps ir full : ~ In out pr_ops -> (1 <= size_out)%Z -> In (out, oi) ois -> dget out res = Some (od, ps) ->
    dget out ir_dims = Some ir -> dget out (l_precision ly) = Some full ->
    whole_sizes (whole_nest (oi_spatial oi) (oi_temporal oi)) ->
    forall i p f, nth_error ps i = Some p -> nth_error flags i = Some f ->
      (exists n, entry p MoveCount RdLow = Some n /\ (f = true <-> n <> 0%Z)) /\
      entry p Precision RdLow = Some (if f then full else 0%Z) /\
      entry p Precision WrLow = Some (if f then full else l_final_precision ly).
  Proof.
    intros Hnp Hs Hin Hr Ei Efull HW i p f Hp Hf.
    pose proof (gm_good _ _ _ _ _ _ _ _ HM out oi Hin) as Hg.
    destruct (output_counts oi od ps ir Hnp ltac:(lia) Hin Hr Ei i p Hp) as (wl & rh & _ & _ & R1 & _).
    destruct (flags_sound Hnp oi ir Hin Ei) as [_ HF].
    set (n := Qfloor _) in R1.
    assert (HN : f = true <-> n <> 0%Z).
    { rewrite (HF i f Hf).
      set (O := outside (oi_spatial oi) (oi_temporal oi) i (S i)) in *.
      destruct (whole_product (filter (fun x => memb (fst x) ir) O)) as (z & Ez).
      { apply (whole_sub _ _ HW). intros x Hx. apply filter_In in Hx as [Hx _]. eapply outside_in, Hx. }
      assert (En : n = (size_out * (z - 1))%Z).
      { unfold n. rewrite (Qfloor_comp _ (inject_Z (size_out * (z - 1)))); [apply Qfloor_Z|].
        unfold reuse. rewrite Ez, inject_Z_mult. unfold Zminus. rewrite inject_Z_plus. reflexivity. }
      assert (ALL : forall x, In x O -> 1 <= snd x) by (intros x Hx; apply (go_sizes _ _ _ _ _ _ Hg); eapply outside_in, Hx).
      assert (Z1 : (z <> 1)%Z <-> exists x, In x O /\ memb (fst x) ir = true /\ 1 < snd x).
      { clear - Ez ALL. revert z Ez. induction O as [|x l IH]; intros z Ez.
        - assert (z = 1%Z) by (apply (proj1 (inject_Z_injective z 1)); rewrite <- Ez; reflexivity). split; [intros; congruence|intros (x & [] & _)].
        - specialize (IH ltac:(intros y Hy; apply ALL; now right)).
          pose proof (ALL x (or_introl eq_refl)) as H1.
          assert (G : 1 <= iterations_of (filter (fun x => memb (fst x) ir) l)).
          { apply iterations_ge_1. intros y Hy. apply filter_In in Hy as [Hy _]. apply ALL. now right. }
          cbn [filter] in Ez. destruct (memb (fst x) ir) eqn:Em.
          + unfold iterations_of in Ez, G, IH. cbn [map] in Ez. rewrite qprod_cons in Ez.
            set (P := qprod _) in *. split.
            * intros Hz. destruct (Qlt_le_dec 1 (snd x)) as [Hx|Hx]; [exists x; split; [now left|split; [exact Em|exact Hx]]|].
              assert (Es : snd x == 1) by lra. rewrite Es, Qmult_1_l in Ez. destruct (proj1 (IH z Ez) Hz) as (y & Hy & Q). exists y. split; [now right|exact Q].
            * intros (y & [<-|Hy] & Q1 & Q2) ->.
              -- clearbody P. change (inject_Z 1) with 1 in Ez. nra.
              -- destruct (Qlt_le_dec 1 (snd x)) as [Hx|Hx].
                 ++ clearbody P. change (inject_Z 1) with 1 in Ez. nra.
                 ++ assert (Es : snd x == 1) by lra. rewrite Es, Qmult_1_l in Ez. apply (proj2 (IH 1%Z Ez)); [now exists y|reflexivity].
          + rewrite (IH z Ez). split; intros (y & Hy & Q).
            * exists y. split; [now right|exact Q].
            * destruct Hy as [<-|Hy]; [destruct Q; congruence|]. now exists y. }
      assert (NZ : n <> 0%Z <-> (z <> 1)%Z) by (rewrite En; nia).
      rewrite NZ, Z1. rewrite <- (reducing_outside ir oi i Hg Ei), existsb_exists. fold O. unfold reducing.
      split; intros (x & Hx & Q).
      - exists x. split; [exact Hx|]. apply andb_true_iff in Q as [Q1 Q2].
        rewrite (in_ird ly r_dims ir_dims pr_ops out oi Hg ir x Ei (outside_in _ _ _ _ _ Hx)) in Q1. split; [exact Q1|].
        apply Qnot_le_lt. intros K. apply Qle_bool_iff in K. rewrite K in Q2. discriminate.
      - exists x. split; [exact Hx|]. destruct Q as [Q1 Q2]. apply andb_true_iff.
        rewrite (in_ird ly r_dims ir_dims pr_ops out oi Hg ir x Ei (outside_in _ _ _ _ _ Hx)). split; [exact Q1|].
        apply negb_true_iff, not_true_iff_false. intros K. apply Qle_bool_iff in K. lra. }
    split; [exists n; split; [exact R1|exact HN]|].
    destruct unfold_built as [_ H].
    destruct (H out oi Hin) as (od' & ps' & precision & r & ir' & c1 & c2 & l1 & l2 & E & Lps & _ & _ & _ & _ & _ & Hod & Lp & HI & HO).
    rewrite Hr in E. injection E as <- <-.
    destruct (HO eq_refl) as [_ HR].
    destruct (HR i p Hp) as (full' & wl' & rh' & k1 & k2 & bh & bl & c & c' & e & b & e' & cur' & next' & g & g' & ((Ra & _) & (Rb & Rc & _) & _) & Eprec' & _).
    rewrite Efull in Eprec'. injection Eprec' as <-. rewrite R1 in Ra. injection Ra as Ra. rewrite <- Ra in Rb, Rc.
    destruct (Z.eqb_spec n 0) as [Hz|Hz].
    - assert (f = false) by (destruct f; [destruct (proj1 HN eq_refl Hz)|reflexivity]). subst f. split; assumption.
    - assert (f = true) by (now apply HN). subst f. split; assumption.
  Qed.

  (** * C59 *)
  Lemma data_sizes op oi od ps : In (op, oi) ois -> dget op res = Some (od, ps) ->
    forall lv, (lv <= length (oi_temporal oi))%nat -> exists n q u m t,
      nth_error (od_elem_unrolled od) lv = Some n /\ nearest (tile_elements ly op (within (oi_spatial oi) (oi_temporal oi) lv lv)) n /\
      nth_error (od_precision od) lv = Some q /\ nth_error (od_bit_unrolled od) lv = Some (n * q)%Z /\
      nth_error (unit_unique (oi_counts oi)) lv = Some u /\
      nth_error (od_elem od) lv = Some m /\ nearest (inject_Z n * u) m /\ nth_error (od_bit od) lv = Some (m * q)%Z /\
      nth_error (oi_top_r oi) lv = Some t /\
      nth_error (od_effective_elem od) lv = Some (n / t)%Z /\ nth_error (od_effective_bit od) lv = Some (n * q / t)%Z.
  Proof.
    intros Hin Hr lv Hlv. destruct unfold_built as [_ H].
    destruct (H op oi Hin) as (od' & ps' & precision & r & ir' & c1 & c2 & l1 & l2 & E & Lps & _ & _ & _ & _ & _ & Hod & Lp & HI & HO).
    rewrite Hr in E. injection E as <- <-.
    destruct (go_levels _ _ _ _ _ _ (gm_good _ _ _ _ _ _ _ _ HM op oi Hin)) as [Hal Hne].
    assert (Hl : (lv < length (oi_spatial oi))%nat) by lia.
    destruct (of_elem_u _ _ _ _ _ _ _ _ _ Hod lv Hl) as (n & A1 & A2).
    destruct (of_bit_u _ _ _ _ _ _ _ _ _ Hod lv Hl) as (n1 & q & B1 & B2 & B3).
    destruct (of_elem _ _ _ _ _ _ _ _ _ Hod lv Hl) as (n2 & u & m & C1 & C2 & C3 & C4).
    destruct (of_bit _ _ _ _ _ _ _ _ _ Hod lv Hl) as (m1 & q1 & D1 & D2 & D3).
    destruct (of_eff _ _ _ _ _ _ _ _ _ Hod lv Hl) as (n3 & w & t & F1 & F2 & F3 & F4 & F5).
    assert (n1 = n) by congruence. assert (n2 = n) by congruence. assert (n3 = n) by congruence. assert (m1 = m) by congruence. assert (q1 = q) by congruence.
    assert (w = (n1 * q)%Z) by congruence. subst.
    exists n, q, u, m, t. rewrite (of_precision _ _ _ _ _ _ _ _ _ Hod). repeat (split; [assumption|]). assumption.
  Qed.
End Built.

(** Disabling traffic beyond the top is a frame: other memories and directions stay. *)
Lemma entry_update k x p a k' :
  entry (update_single_dir_data k x p) a k' =
  match dget a p with Some f => if eqb k' k then Some x else dget k' f | None => None end.
Proof.
  unfold entry, update_single_dir_data. induction p as [|[b f] p IH]; [reflexivity|].
  cbn [map dget fst snd]. destruct (eqb a b); [|exact IH]. unfold four_set.
  destruct (eqb_spec k' k) as [E|N]; [rewrite E; apply dget_dset_eq|now apply dget_dset_neq].
Qed.

Lemma external_frame ps ps' : disable_external ps = Ok ps' ->
  length ps' = length ps /\
  forall i p p', nth_error ps i = Some p -> nth_error ps' i = Some p' ->
    (S i <> length ps -> p' = p) /\ forall a, entry p' a RdLow = entry p a RdLow /\ entry p' a WrLow = entry p a WrLow.
Proof.
  intros H. destruct (disable_ok ps) as (qs & E & L & N). { intros ->. discriminate H. }
  rewrite E in H. injection H as ->. split; [exact L|]. intros i p p' Hp Hp'. rewrite (N i p Hp) in Hp'. injection Hp' as <-.
  change (match length ps with O => false | S m => Nat.eqb i m end) with (Nat.eqb (S i) (length ps)).
  destruct (Nat.eqb_spec (S i) (length ps)) as [e|n].
  - split; [contradiction|]. intros a. unfold cut. rewrite !entry_update.
    pose proof (entry_update RdHigh 0 p a RdLow) as E1. pose proof (entry_update RdHigh 0 p a WrLow) as E2. unfold entry in *.
    destruct (dget a (update_single_dir_data RdHigh 0 p)), (dget a p); cbn [eqb EqB_direction] in *; auto.
  - split; [reflexivity|]. intros a. split; reflexivity.
Qed.
