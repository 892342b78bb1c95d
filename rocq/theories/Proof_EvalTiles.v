(** Amounts and periods of the unit memories of a mapping are those of tiles and iterations (C75). *)
From Coq Require Import QArith Qround Lia.
From Verif Require Import Base Model_Alloc Model_Temporal Model_Decouple Model_SpatialInt Model_DataMove Model_Mapping
  Spec_Alloc Spec_Decouple Spec_SpatialInt Spec_Temporal Spec_Mapping
  Proof_Mapping Proof_MappingBuild Proof_MappingProps Proof_MappingMain Proof_EvalMapping Proof_EvalBuild.

(** The periods, and the window in which data move. *)
Definition paced (tm : list (list (string * Z))) (tops : list Z) (total : Z) (p : pattern) (k : direction) (i : nat) (same prec a n : Z) : Prop :=
  exists t o, entry p Period k = Some t /\ entry p BwInst k = Some (a * prec / t * o)%Z /\ entry p TransWindow k = Some (t / o)%Z /\
    nth_error tops i = Some o /\ (t = same * cycles (below i tm) /\ t * n = total /\ 1 <= t /\ 1 <= o)%Z.
(** A tile moves: [a] elements in each of [n] periods. *)
Definition moved_row (ly : layer) (op : string) (su : list (list (string * Q))) (tm : list (list (string * Z))) (tops : list Z) (total : Z) (p : pattern)
    (k : direction) (i j : nat) (same units prec : Z) (ok : Prop) : Prop :=
  exists a n, entry p AmountPerPeriod k = Some a /\ entry p PeriodCount k = Some n /\ entry p Precision k = Some prec /\
    (ok -> (inject_Z a == tile_elements ly op (within su tm i j))%Q) /\
    (inject_Z (same * (n * units)) == iterations_of (outside su tm i j))%Q /\ paced tm tops total p k i same prec a n.
Definition still (p : pattern) (k : direction) : Prop := entry p AmountPerPeriod k = Some 0%Z /\ entry p PeriodCount k = Some 0%Z /\ entry p BwInst k = Some 0%Z.
(** The bits that a memory keeps, and those of them in use at a time. *)
Definition kept (ly : layer) (op : string) (su : list (list (string * Q))) (tm : list (list (string * Z))) (tops : list Z) (od : opdata) (i : nat) (prec : Z) : Prop :=
  exists e o, (inject_Z e == tile_elements ly op (within su tm i i))%Q /\ (1 <= e)%Z /\ nth_error (od_bit_unrolled od) i = Some (e * prec)%Z /\
    nth_error tops i = Some o /\ (1 <= o)%Z /\ nth_error (od_effective_bit od) i = Some (e * prec / o)%Z.

Section Tiles.
  Variables (ly : layer) (r_dims ir_dims : dict string (list string)) (pr_ops inputs : list string) (out : string).
  Variables (macs size_out total : Z) (free : bool) (read_bw : string -> nat -> Z) (ois : dict string opinput).
  Hypothesis HM : good_mapping ly r_dims ir_dims pr_ops inputs out total ois.
  Variables (flags : list bool) (res : dict string (opdata * list pattern)).
  Hypothesis HB : build_mapping ly r_dims ir_dims pr_ops inputs out macs size_out total free read_bw ois = Ok (flags, res).

  Definition saved (op : string) (oi : opinput) (i : nat) : Z :=
    if (free && memb op inputs && (i =? 0)%nat)%bool then oi_mac_stationary oi else 1%Z.

  Section Operand.
    Variables (op : string) (oi : opinput) (od : opdata) (precision : list Z) (ird : list string) (l1 l2 : qlevels).
    Hypothesis Hin : In (op, oi) ois.
    Hypothesis Hod : opdata_facts ly macs op oi ird l1 l2 precision od.
    Hypothesis HW : whole_sizes (whole_nest (oi_spatial oi) (oi_temporal oi)).
    Hypothesis HS : (oi_mac_stationary oi | total)%Z.
    Let Hg := gm_good _ _ _ _ _ _ _ _ HM op oi Hin.
    Let Ht := gm_tables _ _ _ _ _ _ _ _ HM op oi Hin.

    Lemma units_whole j u : nth_error (unit_count (oi_counts oi)) j = Some u -> (inject_Z u == unrolled_from j (oi_spatial oi))%Q.
    Proof. destruct (gt_counts _ _ _ _ _ _ Ht) as (ls' & r0 & _ & _ & Hc). now apply (units_exact ly oi r0 ls'). Qed.

    Lemma high_tile i bh bl c c' e b e' units : (i < length (oi_temporal oi))%nat ->
      rates_facts inputs free op oi od precision i bh bl c c' e b e' -> nth_error (unit_count (oi_counts oi)) (S i) = Some units ->
      (inject_Z e' == tile_elements ly op (within (oi_spatial oi) (oi_temporal oi) (S i) (S i)))%Q /\
      (inject_Z (1 * (total / c' * units)) == iterations_of (outside (oi_spatial oi) (oi_temporal oi) (S i) (S i)))%Q.
    Proof.
      intros Hi HR Hu. destruct (go_levels _ _ _ _ _ _ Hg) as [Hal _].
      destruct (rf_c _ _ _ _ _ _ _ _ _ _ _ _ _ _ HR) as [_ C2]. destruct (rf_e _ _ _ _ _ _ _ _ _ _ _ _ _ _ HR) as [_ E2].
      destruct (period_low ly r_dims ir_dims pr_ops inputs out macs size_out total free read_bw ois HM flags res HB op oi Hin (S i) c' C2 ltac:(discriminate)) as (P1 & P2 & P3).
      destruct (elem_exact ly r_dims ir_dims pr_ops inputs out macs total ois HM op oi od precision ird l1 l2 Hin Hod (S i) e' HW E2 ltac:(lia)) as [X1 X2].
      split; [exact X1|]. rewrite iterations_outside, P3, Z.mul_1_l, inject_Z_mult, (units_whole _ _ Hu). reflexivity.
    Qed.

    Lemma low_tile i bh bl c c' e b e' units : (i < length (oi_temporal oi))%nat ->
      rates_facts inputs free op oi od precision i bh bl c c' e b e' -> nth_error (unit_count (oi_counts oi)) (S i) = Some units ->
      (no_overlap ly pr_ops op (oi_spatial oi) i -> (inject_Z (e * b) == tile_elements ly op (within (oi_spatial oi) (oi_temporal oi) i (S i)))%Q) /\
      (inject_Z (saved op oi i * (total / c * units)) == iterations_of (outside (oi_spatial oi) (oi_temporal oi) i (S i)))%Q.
    Proof.
      intros Hi HR Hu. destruct (go_levels _ _ _ _ _ _ Hg) as [Hal _].
      destruct (rf_c _ _ _ _ _ _ _ _ _ _ _ _ _ _ HR) as [C2 _]. destruct (rf_e _ _ _ _ _ _ _ _ _ _ _ _ _ _ HR) as [E2 _].
      destruct (elem_exact ly r_dims ir_dims pr_ops inputs out macs total ois HM op oi od precision ird l1 l2 Hin Hod i e HW E2 ltac:(lia)) as [X1 X2].
      split.
      - intros Hnp. destruct (gt_counts _ _ _ _ _ _ Ht) as (ls' & r0 & Er & Hd & Hc).
        exact (proj1 (boost_exact ly r_dims ir_dims pr_ops op oi Hg r0 r0 ls' i e b Hnp Er Er Hd Hc HW (rf_b _ _ _ _ _ _ _ _ _ _ _ _ _ _ HR) X1)).
      - rewrite iterations_outside. rewrite !inject_Z_mult, (units_whole _ _ Hu), Qmult_assoc. apply Qmult_comp; [|reflexivity]. rewrite <- inject_Z_mult.
        unfold saved. destruct (free && memb op inputs && (i =? 0)%nat)%bool eqn:B.
        + apply andb_true_iff in B as [B B0]. apply Nat.eqb_eq in B0. subst i. unfold cycle_each_level in C2. cbn [nth_error] in C2. rewrite B in C2. injection C2 as <-.
          destruct HS as (q & Eq). pose proof (gt_stationary _ _ _ _ _ _ Ht) as Hs. rewrite Eq, Z.div_mul, Z.mul_comm, <- Eq by lia.
          unfold from. cbn [skipn]. rewrite (proj2 (gt_cycles _ _ _ _ _ _ Ht)). reflexivity.
        + rewrite Z.mul_1_l. destruct (period_low ly r_dims ir_dims pr_ops inputs out macs size_out total free read_bw ois HM flags res HB op oi Hin i c C2) as (P1 & P2 & P3); [|now rewrite P3].
          intros F I Q. subst i. rewrite F in B. apply memb_In in I. rewrite I in B. discriminate.
    Qed.

    Lemma stationary_whole i c c' e b e' bh bl : rates_facts inputs free op oi od precision i bh bl c c' e b e' ->
      (1 <= c /\ 1 <= c' /\ c = saved op oi i * cycles (below i (oi_temporal oi)) /\ c * (total / c) = total /\
       c' = 1 * cycles (below (S i) (oi_temporal oi)) /\ c' * (total / c') = total)%Z.
    Proof.
      intros HR. destruct (rf_c _ _ _ _ _ _ _ _ _ _ _ _ _ _ HR) as [C1 C2]. destruct (rf_c1 _ _ _ _ _ _ _ _ _ _ _ _ _ _ HR) as [P1 P2].
      destruct (cyc_facts ly r_dims ir_dims pr_ops inputs total free read_bw op oi Hg Ht) as (_ & _ & CC).
      destruct (period_low ly r_dims ir_dims pr_ops inputs out macs size_out total free read_bw ois HM flags res HB op oi Hin (S i) c' C2 ltac:(discriminate)) as (_ & Q2 & _).
      split; [exact P1|]. split; [exact P2|]. rewrite Z.mul_1_l.
      assert (X : (c = saved op oi i * cycles (below i (oi_temporal oi)))%Z /\ (c * (total / c) = total)%Z).
      { unfold saved. destruct (free && memb op inputs && (i =? 0)%nat)%bool eqn:B.
        - apply andb_true_iff in B as [B B0]. apply Nat.eqb_eq in B0. subst i. unfold cycle_each_level in C1. cbn [nth_error] in C1. rewrite B in C1. injection C1 as <-.
          split; [unfold below; cbn [firstn concat]; unfold cycles; cbn [map zprod fold_right]; lia|]. destruct HS as (q & Eq). rewrite Eq, Z.div_mul by lia. lia.
        - destruct (period_low ly r_dims ir_dims pr_ops inputs out macs size_out total free read_bw ois HM flags res HB op oi Hin i c C1) as (_ & Q1 & _).
          { intros F I Q0. subst i. rewrite F in B. apply memb_In in I. rewrite I in B. discriminate. }
          split; [|exact Q1]. rewrite Z.mul_1_l. destruct i as [|i]; [|now apply CC]. unfold cycle_each_level in C1. cbn [nth_error] in C1. injection C1 as <-.
          cbn [Nat.eqb] in B. rewrite andb_true_r in B. rewrite B. reflexivity. }
      destruct X as (X1 & X2). split; [exact X1|]. split; [exact X2|]. split; [|exact Q2]. now apply CC.
    Qed.
    Lemma rates_whole i bh bl c c' e b e' : (i < length (oi_temporal oi))%nat -> rates_facts inputs free op oi od precision i bh bl c c' e b e' ->
      (forall q, nth_error precision i = Some q -> (0 <= q)%Z -> py_int bh = (e * b * q / c)%Z) /\
      (forall q, nth_error precision (S i) = Some q -> (0 <= q)%Z -> py_int bl = (e' * q / c')%Z).
    Proof.
      intros Hi HR. destruct (go_levels _ _ _ _ _ _ Hg) as [Hal _]. destruct (rf_c1 _ _ _ _ _ _ _ _ _ _ _ _ _ _ HR) as [P1 P2].
      destruct (rf_e _ _ _ _ _ _ _ _ _ _ _ _ _ _ HR) as [E1 E2].
      destruct (elem_exact ly r_dims ir_dims pr_ops inputs out macs total ois HM op oi od precision ird l1 l2 Hin Hod i e HW E1 ltac:(lia)) as [_ X1].
      destruct (elem_exact ly r_dims ir_dims pr_ops inputs out macs total ois HM op oi od precision ird l1 l2 Hin Hod (S i) e' HW E2 ltac:(lia)) as [_ X2].
      assert (B0 := boost_nonneg _ _ _ _ _ _ _ _ HM op oi Hin i b (rf_b _ _ _ _ _ _ _ _ _ _ _ _ _ _ HR)).
      destruct (rf_bw _ _ _ _ _ _ _ _ _ _ _ _ _ _ HR) as (p & p' & Ep & Ep' & -> & ->). split.
      - intros q Eq Hq. rewrite Ep in Eq. injection Eq as <-. apply aver_exact; lia.
      - intros q Eq Hq. rewrite Ep' in Eq. injection Eq as <-. pose proof (aver_exact e' p' c' 1 ltac:(lia) Hq P2 ltac:(lia)) as A. rewrite Z.mul_1_r in A. rewrite <- A.
        assert (G : (0 <= inject_Z (e' * p') / inject_Z c')%Q).
        { apply Qle_shift_div_l; [change 0%Q with (inject_Z 0); rewrite <- Zlt_Qlt; lia|]. rewrite Qmult_0_l. change 0%Q with (inject_Z 0). rewrite <- Zle_Qle. nia. }
        rewrite !py_int_floor; [apply Qfloor_comp; change (inject_Z 1) with 1%Q; ring|change (inject_Z 1) with 1%Q; now rewrite Qmult_1_r|exact G].
    Qed.
    Lemma tops_pos j o : nth_error (oi_top_ir oi) j = Some o -> (1 <= o)%Z.
    Proof. intros Ho. apply (proj2 (gt_top_ir _ _ _ _ _ _ Ht)). exact (nth_error_In _ _ Ho). Qed.
    Lemma kept_at i q : (i < length (oi_spatial oi))%nat -> nth_error precision i = Some q -> kept ly op (oi_spatial oi) (oi_temporal oi) (oi_top_r oi) od i q.
    Proof.
      intros Hi Eq. destruct (of_bit_u _ _ _ _ _ _ _ _ _ Hod i Hi) as (e & q' & E1 & E2 & E3). rewrite Eq in E2. injection E2 as <-.
      destruct (elem_exact ly r_dims ir_dims pr_ops inputs out macs total ois HM op oi od precision ird l1 l2 Hin Hod i e HW E1 Hi) as [X1 X2].
      destruct (of_eff _ _ _ _ _ _ _ _ _ Hod i Hi) as (e' & b' & t & F1 & F2 & F3 & _ & F5). rewrite E3 in F2. injection F2 as <-.
      exists e, t. repeat (split; [assumption|]). split; [|exact F5]. apply (proj2 (gt_top_r _ _ _ _ _ _ Ht)). exact (nth_error_In _ _ F3).
    Qed.
  End Operand.

  Lemma input_tiles op oi od ps prec : In (op, oi) ois -> In op inputs -> dget op res = Some (od, ps) ->
    whole_sizes (whole_nest (oi_spatial oi) (oi_temporal oi)) -> (oi_mac_stationary oi | total)%Z -> dget op (l_precision ly) = Some prec -> (0 <= prec)%Z ->
    forall i p units, nth_error ps i = Some p -> nth_error (unit_count (oi_counts oi)) (S i) = Some units ->
      still p WrLow /\ still p RdHigh /\
      moved_row ly op (oi_spatial oi) (oi_temporal oi) (oi_top_ir oi) total p RdLow i (S i) (saved op oi i) units prec (no_overlap ly pr_ops op (oi_spatial oi) i) /\
      (S i = length (oi_temporal oi) -> still p WrHigh) /\
      (S i <> length (oi_temporal oi) -> moved_row ly op (oi_spatial oi) (oi_temporal oi) (oi_top_ir oi) total p WrHigh (S i) (S i) 1 units prec True) /\
      kept ly op (oi_spatial oi) (oi_temporal oi) (oi_top_r oi) od (S i) prec.
  Proof.
    intros Hin Hinp Hr HW HS Eprec Hq0 i p units Hp Hu. destruct (unfold_built _ _ _ _ _ _ _ _ _ _ _ _ HM flags res HB) as [_ H].
    destruct (H op oi Hin) as (od' & ps' & precision & r & ir & c1 & c2 & l1 & l2 & E & Lps & _ & _ & _ & _ & _ & Hod & Lp & HI & HO).
    rewrite Hr in E. injection E as <- <-.
    assert (Hi : (i < length (oi_temporal oi))%nat) by (rewrite <- Lps; apply nth_error_Some; congruence).
    destruct (HI Hinp) as [HP HR].
    destruct (HR i p Hp) as (prec' & raw & rl & wh & bh & bl & c & c' & e & b & e' & cur' & next' & (R1 & R2 & R3 & R4 & R5 & R6 & R7 & R8) &
      Eprec' & Eraw & HRM & Ewh & HRF & Hcur' & Hnext').
    rewrite Eprec in Eprec'. injection Eprec' as <-.
    destruct (low_tile op oi od precision _ l1 l2 Hin Hod HW HS i bh bl c c' e b e' units Hi HRF Hu) as (L1 & L2).
    destruct (high_tile op oi od precision _ l1 l2 Hin Hod HW i bh bl c c' e b e' units Hi HRF Hu) as (U1 & U2).
    destruct (stationary_whole op oi od precision Hin HS i c c' e b e' bh bl HRF) as (T1 & T2 & T3 & T4 & T5 & T6).
    destruct (go_levels _ _ _ _ _ _ (gm_good _ _ _ _ _ _ _ _ HM op oi Hin)) as [Hal Hne].
    destruct (nth_lt precision i ltac:(lia)) as (q & Eq). pose proof (HP i q Eq) as Eq'. rewrite Eprec in Eq'. injection Eq' as <-.
    destruct (nth_lt precision (S i) ltac:(lia)) as (q' & Eqn). pose proof (HP (S i) q' Eqn) as Eq'. rewrite Eprec in Eq'. injection Eq' as <-.
    destruct (rates_whole op oi od precision _ l1 l2 Hin Hod HW i bh bl c c' e b e' Hi HRF) as (W1 & W2). rewrite (W1 prec Eq Hq0), (W2 prec Eqn Hq0) in R4.
    assert (O1 := tops_pos op oi Hin i cur' Hcur'). assert (O2 := tops_pos op oi Hin (S i) next' Hnext'). rewrite !window_exact in R8 by lia.
    destruct R2 as (Pa & _ & _ & Pd), R6 as (Na & Nb & Nc & Nd), R7 as (Aa & Ab & Ac & Ad), R5 as (Ta & _ & _ & Td), R4 as (Ba & Bb & Bc & Bd), R8 as (Wa & _ & _ & Wd). unfold still.
    split; [tauto|]. split; [tauto|]. split; [|split; [|split]].
    - exists (e * b)%Z, (total / c)%Z. repeat (split; [assumption|]). exists c, cur'. now repeat (split; [assumption|]).
    - intros T. apply Nat.eqb_eq in T. rewrite T in Ad, Nd, Bd. tauto.
    - intros T. apply Nat.eqb_neq in T. rewrite T in Ad, Nd, Pd, Td, Bd, Wd. cbn [ext] in *. exists e', (total / c')%Z. repeat (split; [assumption|]). split; [auto|]. split; [assumption|].
      exists c', next'. now repeat (split; [assumption|]).
    - apply (kept_at op oi od precision _ l1 l2 Hin Hod HW); [lia|exact Eqn].
  Qed.

  Lemma output_tiles oi od ps ir full : ~ In out pr_ops -> (1 <= size_out)%Z -> In (out, oi) ois -> dget out res = Some (od, ps) ->
    whole_sizes (whole_nest (oi_spatial oi) (oi_temporal oi)) -> (oi_mac_stationary oi | total)%Z ->
    dget out ir_dims = Some ir -> dget out (l_precision ly) = Some full -> (0 <= full)%Z -> (0 <= l_final_precision ly)%Z ->
    forall i p units, nth_error ps i = Some p -> nth_error (unit_count (oi_counts oi)) (S i) = Some units ->
      exists f f' : bool,
      (f = true <-> reduces_above ir (oi_spatial oi) (oi_temporal oi) i (S i)) /\
      (f' = true <-> reduces_above ir (oi_spatial oi) (oi_temporal oi) (S i) (S (S i))) /\
      kept ly out (oi_spatial oi) (oi_temporal oi) (oi_top_r oi) od (S i) (if f' then full else l_final_precision ly) /\
      moved_row ly out (oi_spatial oi) (oi_temporal oi) (oi_top_ir oi) total p WrLow i (S i) 1 units (if f then full else l_final_precision ly) (no_overlap ly pr_ops out (oi_spatial oi) i) /\
      (f = false -> still p RdLow) /\
      (f = true -> moved_row ly out (oi_spatial oi) (oi_temporal oi) (oi_top_ir oi) total p RdLow i (S i) 1 units full (no_overlap ly pr_ops out (oi_spatial oi) i)) /\
      (S i = length (oi_temporal oi) -> still p RdHigh /\ still p WrHigh) /\
      (S i <> length (oi_temporal oi) ->
        moved_row ly out (oi_spatial oi) (oi_temporal oi) (oi_top_ir oi) total p RdHigh (S i) (S i) 1 units (if f' then full else l_final_precision ly) True /\
        (f' = false -> still p WrHigh) /\
        (f' = true -> moved_row ly out (oi_spatial oi) (oi_temporal oi) (oi_top_ir oi) total p WrHigh (S i) (S i) 1 units full True)).
  Proof.
    intros Hnp Hs Hin Hr HW HS Ei Efull Hq0 Hq1 i p units Hp Hu. destruct (unfold_built _ _ _ _ _ _ _ _ _ _ _ _ HM flags res HB) as [_ H].
    destruct (H out oi Hin) as (od' & ps' & precision & r & ir' & c1 & c2 & l1 & l2 & E & Lps & _ & _ & _ & _ & _ & Hod & Lp & HI & HO).
    rewrite Hr in E. injection E as <- <-.
    assert (Hi : (i < length (oi_temporal oi))%nat) by (rewrite <- Lps; apply nth_error_Some; congruence).
    destruct (HO eq_refl) as [HP HR].
    destruct (HR i p Hp) as (full' & wl & rh & k1 & k2 & bh & bl & c & c' & e & b & e' & cur' & next' & f & f' & (R1 & R2 & R3 & R4 & R5 & R6 & R7 & R8) &
      Eprec' & Ewl & Erh & Hf & Hf' & _ & _ & HRF & Hcur' & Hnext').
    rewrite Efull in Eprec'. injection Eprec' as <-.
    destruct (flags_sound ly r_dims ir_dims pr_ops inputs out macs size_out total free read_bw ois HM flags res HB Hnp oi ir Hin Ei) as [_ HF].
    exists f, f'. split; [now apply HF|]. split; [now apply HF|].
    destruct (low_tile out oi od precision _ l1 l2 Hin Hod HW HS i bh bl c c' e b e' units Hi HRF Hu) as (L1 & L2).
    destruct (high_tile out oi od precision _ l1 l2 Hin Hod HW i bh bl c c' e b e' units Hi HRF Hu) as (U1 & U2).
    assert (Sv : saved out oi i = 1%Z).
    { unfold saved. destruct (memb out inputs) eqn:M; [|now rewrite andb_false_r]. apply memb_In in M. now destruct (proj1 (proj2 (gm_ops _ _ _ _ _ _ _ _ HM))). }
    rewrite Sv in L2.
    destruct (partial_sums_traffic ly r_dims ir_dims pr_ops inputs out macs size_out total free read_bw ois HM flags res HB oi od ps ir full Hnp Hs Hin Hr Ei Efull HW i p f Hp Hf) as (_ & Q1 & Q2).
    destruct (stationary_whole out oi od precision Hin HS i c c' e b e' bh bl HRF) as (T1 & T2 & T3 & T4 & T5 & T6). rewrite Sv in T3.
    destruct (go_levels _ _ _ _ _ _ (gm_good _ _ _ _ _ _ _ _ HM out oi Hin)) as [Hal Hne].
    destruct (nth_lt precision i ltac:(lia)) as (q & Eq). pose proof (HP i q f Eq Hf) as Eq'.
    assert (Eqf : q = if f then full else l_final_precision ly) by (destruct f; congruence). subst q. clear Eq'.
    destruct (nth_lt precision (S i) ltac:(lia)) as (q' & Eqn). pose proof (HP (S i) q' f' Eqn Hf') as Eq'.
    assert (Eqf : q' = if f' then full else l_final_precision ly) by (destruct f'; congruence). subst q'. clear Eq'.
    destruct (rates_whole out oi od precision _ l1 l2 Hin Hod HW i bh bl c c' e b e' Hi HRF) as (W1 & W2).
    rewrite (W1 _ Eq ltac:(destruct f; assumption)), (W2 _ Eqn ltac:(destruct f'; assumption)) in R4.
    assert (O1 := tops_pos out oi Hin i cur' Hcur'). assert (O2 := tops_pos out oi Hin (S i) next' Hnext').
    destruct R6 as (Na & Nb & Nc & Nd), R7 as (Aa & Ab & Ac & Ad), R5 as (Ta & Tb & Tc & Td), R4 as (Ba & Bb & Bc & Bd), R8 as (Wa & Wb & Wc & Wd). unfold still.
    rewrite (window_exact c cur' ltac:(lia) ltac:(lia)) in Wb. rewrite (window_exact c' next' ltac:(lia) ltac:(lia)) in Wc.
    split; [apply (kept_at out oi od precision _ l1 l2 Hin Hod HW); [lia|exact Eqn]|]. split; [|split; [|split; [|split]]].
    - exists (e * b)%Z, (total / c)%Z. repeat (split; [assumption|]). exists c, cur'. now repeat (split; [assumption|]).
    - intros ->. tauto.
    - intros ->. exists (e * b)%Z, (total / c)%Z. repeat (split; [assumption|]). exists c, cur'. rewrite (window_exact c cur' ltac:(lia) ltac:(lia)) in Wa. now repeat (split; [assumption|]).
    - intros T. apply Nat.eqb_eq in T. rewrite T in Ac, Ad, Nc, Nd, Bc, Bd. tauto.
    - intros T. assert (T' := T). apply Nat.eqb_neq in T. rewrite T in R1, R2, Ac, Ad, Nc, Nd, Tc, Td, Bc, Bd, Wc, Wd. cbn [ext] in *.
      assert (Hs0 : (0 <= size_out)%Z) by lia.
      destruct (nth_error ps (S i)) as [q|] eqn:Hq; [|apply nth_error_None in Hq; lia].
      destruct (partial_sums_traffic ly r_dims ir_dims pr_ops inputs out macs size_out total free read_bw ois HM flags res HB oi od ps ir full Hnp Hs Hin Hr Ei Efull HW (S i) q f' Hq Hf') as ((n & En & Hn) & _).
      destruct (output_counts ly r_dims ir_dims pr_ops inputs out macs size_out total free read_bw ois HM flags res HB oi od ps ir Hnp Hs0 Hin Hr Ei (S i) q Hq) as (? & ? & _ & _ & Z1 & _).
      destruct (output_counts ly r_dims ir_dims pr_ops inputs out macs size_out total free read_bw ois HM flags res HB oi od ps ir Hnp Hs0 Hin Hr Ei i p Hp) as (? & ? & _ & _ & _ & _ & _ & Z2).
      unfold below_top in Z2. rewrite T in Z2. set (X := Qround.Qfloor _) in Z2. change (entry q MoveCount RdLow = Some X) in Z1. assert (Z1' : n = X) by congruence. rewrite <- Z1' in Z2.
      destruct R1 as (_ & _ & _ & R1). rewrite Z2 in R1. injection R1 as R1. rewrite <- R1 in R2. destruct R2 as (_ & _ & Pc & Pd).
      assert (Fn : (n =? 0)%Z = negb f').
      { destruct (Z.eqb_spec n 0) as [Z0'|Z0'], f'; try reflexivity; exfalso; [now apply Hn|]. now apply Hn in Z0'. }
      rewrite Fn in Pc, Pd. split; [|split].
      + exists e', (total / c')%Z. split; [assumption|]. split; [assumption|]. split; [destruct f'; exact Pc|]. split; [auto|]. split; [assumption|]. exists c', next'. now repeat (split; [assumption|]).
      + intros ->. tauto.
      + intros ->. exists e', (total / c')%Z. repeat (split; [assumption|]). split; [auto|]. split; [assumption|]. exists c', next'. rewrite (window_exact c' next' ltac:(lia) ltac:(lia)) in Wd. now repeat (split; [assumption|]).
  Qed.
End Tiles.
