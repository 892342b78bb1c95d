(** The unit memories of a built mapping, as the evaluation needs them (C74). *)
From Coq Require Import QArith Qround Lqa Lia.
From Verif Require Import Base Model_Pr Model_Alloc Model_Decouple Model_SpatialInt Model_DataMove Model_Mapping
  Spec_Alloc Spec_Decouple Spec_SpatialInt Spec_Temporal Spec_DataMove Spec_Mapping Spec_Cost Spec_Evaluate
  Proof_AllocTile Proof_Decouple Proof_MappingLoops Proof_Mapping Proof_MappingBuild Proof_MappingProps Proof_MappingMain.
Local Open Scope Q_scope.

(** * Sizes are positive *)
Lemma along_ge_1 ly L p : derived_ok ly -> (forall x, In x L -> 1 <= snd x) -> 1 <= elements_along ly L p.
Proof.
  intros Hly HL. assert (EX : forall d, 1 <= extent L d).
  { intros d. unfold extent. apply qprod_ge_1. intros q Hq. apply in_map_iff in Hq as (x & <- & Hx). apply filter_In in Hx as [Hx _]. now apply HL. }
  unfold elements_along. destruct (existsb _ L); [apply EX|]. destruct (dget p (l_pr_loop ly)) as [[da db]|] eqn:Ed; [|apply Qle_refl].
  destruct (dok_scale _ Hly p (da, db) (dget_In _ _ _ Ed)) as (sa & sb & m & -> & Ha & Hb & -> & Hm).
  pose proof (Qfloor_ge_1 _ (EX da)) as A. pose proof (Qfloor_ge_1 _ (EX db)) as B.
  pose proof (pr_size_mono sa sb _ _ _ _ Ha Hb (conj A (Z.le_refl _)) (conj B (Z.le_refl _))).
  change 1 with (inject_Z 1). rewrite <- Zle_Qle. lia.
Qed.

Lemma decoupled_pos ly before l out : derived_ok ly -> decoupled ly before l out -> (forall x, In x (before ++ l) -> 1 <= snd x) ->
  forall x, In x out -> 0 < snd x.
Proof.
  intros Hly D. induction D as [before|before y l out Hn D IH|before y p a b l out Hr Ea Eb D IH]; intros H x Hx.
  - destruct Hx.
  - destruct Hx as [<-|Hx].
    + assert (1 <= snd y) by (apply H, in_or_app; right; now left). lra.
    + apply IH; [|exact Hx]. intros z Hz. apply H. rewrite <- app_assoc in Hz. exact Hz.
  - assert (Y : 1 <= snd y) by (apply H, in_or_app; right; now left).
    assert (A : 0 < a).
    { assert (A1 : 1 <= elements_along ly (before ++ [y])%list p).
      { apply along_ge_1; [exact Hly|]. intros z Hz. apply H. apply in_app_or in Hz as [Hz|[<-|[]]]; apply in_or_app; [now left|right; now left]. }
      assert (B1 : 1 <= elements_along ly before p).
      { apply along_ge_1; [exact Hly|]. intros z Hz. apply H, in_or_app. now left. }
      rewrite Ea. apply Qlt_shift_div_l; lra. }
    assert (B : 0 < b).
    { destruct (Qlt_le_dec 0 b) as [P|P]; [exact P|]. exfalso. assert (a * b <= 0) by nra. lra. }
    destruct Hx as [<-|[<-|Hx]]; [exact A|exact B|]. apply IH; [|exact Hx]. intros z Hz. apply H. rewrite <- app_assoc in Hz. exact Hz.
Qed.
Lemma decoupled_levels_pos ly before ls ls' : derived_ok ly -> decoupled_levels ly before ls ls' -> (forall x, In x (before ++ concat ls) -> 1 <= snd x) ->
  forall l x, In l ls' -> In x l -> 0 < snd x.
Proof.
  intros Hly D. induction D as [before|before l ls o os D D' IH]; intros H k x Hk Hx; [destruct Hk|]. cbn [concat] in H.
  destruct Hk as [<-|Hk].
  - apply (decoupled_pos ly before l o Hly D); [|exact Hx]. intros z Hz. apply H. apply in_app_or in Hz as [Hz|Hz]; apply in_or_app; [now left|right]. apply in_or_app. now left.
  - apply (IH) with (l := k); [|exact Hk|exact Hx]. intros z Hz. apply H. now rewrite <- app_assoc in Hz.
Qed.
Lemma iterations_pos l : (forall x, In x l -> 0 < snd x) -> 0 < iterations_of l.
Proof.
  unfold iterations_of. induction l as [|x l IH]; intros H; [reflexivity|]. cbn [map]. rewrite qprod_cons.
  assert (0 < snd x) by (apply H; now left). assert (0 < qprod (map snd l)) by (apply IH; intros; apply H; now right). nra.
Qed.
Lemma nearest_nonneg q n : 0 <= q -> nearest q n -> (0 <= n)%Z.
Proof.
  intros H [[L _] _]. assert (- (1 # 2) <= inject_Z n) by lra. destruct (Z_lt_le_dec n 0) as [N|N]; [|exact N].
  assert (inject_Z n <= inject_Z (-1)) by (rewrite <- Zle_Qle; lia). change (inject_Z (-1)) with (-1) in H1. lra.
Qed.
Lemma py_int_nonneg q : 0 <= q -> (0 <= py_int q)%Z.
Proof. intros H. unfold py_int. apply Z.quot_pos; [|lia]. unfold Qle in H. cbn in H. lia. Qed.

(** * Rows *)
Lemma row_nonneg p a x y z w : row p a x y z w -> (0 <= x /\ 0 <= y /\ 0 <= z /\ 0 <= w)%Z -> forall k v, entry p a k = Some v -> (0 <= v)%Z.
Proof. intros (A & B & C & D) (P & Q & R & S) k v E. destruct k; congruence. Qed.
Lemma ext_nonneg b x : (0 <= x)%Z -> (0 <= ext b x)%Z.
Proof. destruct b; cbn; lia. Qed.

Section Built.
  Variables (ly : layer) (r_dims ir_dims : dict string (list string)) (pr_ops inputs : list string) (out : string).
  Variables (macs size_out total : Z) (free : bool) (read_bw : string -> nat -> Z) (ois : dict string opinput).
  Hypothesis HM : good_mapping ly r_dims ir_dims pr_ops inputs out total ois.
  Variables (flags : list bool) (res : dict string (opdata * list pattern)).
  Hypothesis HB : build_mapping ly r_dims ir_dims pr_ops inputs out macs size_out total free read_bw ois = Ok (flags, res).
  Hypothesis Hpr : ~ In out pr_ops.
  Hypothesis Hsizes : (0 <= macs /\ 0 <= size_out)%Z.
  Hypothesis Hfinal : (0 <= l_final_precision ly)%Z.
  Hypothesis Hprec : forall op p, In op (keys ois) -> dget op (l_precision ly) = Some p -> (0 <= p)%Z.
  Hypothesis Htotal : (1 <= total)%Z.

  Section One.
    Variables (op : string) (oi : opinput).
    Hypothesis Hin : In (op, oi) ois.
    Let Hg : good_operand ly r_dims ir_dims pr_ops op oi := gm_good _ _ _ _ _ _ _ _ HM op oi Hin.
    Let Ht : good_tables ly r_dims pr_ops total op oi := gm_tables _ _ _ _ _ _ _ _ HM op oi Hin.

    Lemma boost_nonneg i b : nth_error (mem_bw_boost (oi_counts oi)) i = Some b -> (0 <= b)%Z.
    Proof.
      intros E. destruct (gt_counts _ _ _ _ _ _ Ht) as (ls' & r & Er & D & R). destruct (rc_boost _ _ _ _ _ R i b E) as (l & El & N & _).
      assert (S1 : forall x, In x (concat (oi_spatial oi)) -> 1 <= snd x).
      { intros x Hx. apply (go_sizes _ _ _ _ _ _ Hg). apply (within_in_nest _ _ 0 (length (oi_spatial oi))). unfold within. apply in_or_app. right. now rewrite firstn_all. }
      assert (P : forall x, In x l -> 0 < snd x).
      { intros x Hx. destruct D as [[_ D]|[_ ->]].
        - apply (decoupled_levels_pos ly [] (oi_spatial oi) ls' (gm_layer _ _ _ _ _ _ _ _ HM) D S1 l x (nth_error_In _ _ El) Hx).
        - assert (1 <= snd x); [|lra]. apply S1. apply in_concat. exists l. split; [exact (nth_error_In _ _ El)|exact Hx]. }
      apply (nearest_nonneg _ _ (Qlt_le_weak _ _ (iterations_pos (data_loops ly r l) (fun x Hx => P x (proj1 (proj1 (filter_In _ _ _) Hx))))) N).
    Qed.
    Lemma tile_nonneg i j : 0 <= tile_elements ly op (within (oi_spatial oi) (oi_temporal oi) i j).
    Proof.
      pose proof (tile_ge_1 ly (gm_layer _ _ _ _ _ _ _ _ HM) r_dims ir_dims pr_ops op oi Hg (within (oi_spatial oi) (oi_temporal oi) i j)
        (fun x => within_in_nest _ _ i j x)). lra.
    Qed.
    Lemma moves_nonneg i j n : moves ly op macs (within (oi_spatial oi) (oi_temporal oi) i j) n -> (0 <= n)%Z.
    Proof.
      apply nearest_nonneg. apply Qmult_le_0_compat; [|apply tile_nonneg].
      apply Qle_shift_div_l; [pose proof (within_ge_1 ly r_dims ir_dims pr_ops op oi Hg i j); lra|].
      rewrite Qmult_0_l. change 0 with (inject_Z 0). rewrite <- Zle_Qle. tauto.
    Qed.
    Lemma rates_nonneg od precision ird l1 l2 i bh bl c c' e b e' : opdata_facts ly macs op oi ird l1 l2 precision od ->
      (forall q, In q precision -> (0 <= q)%Z) -> (i < length (oi_temporal oi))%nat ->
      rates_facts inputs free op oi od precision i bh bl c c' e b e' ->
      (1 <= c /\ 1 <= c' /\ 0 <= e /\ 0 <= e' /\ 0 <= b /\ 0 <= py_int bh /\ 0 <= py_int bl)%Z.
    Proof.
      intros Hod Hq Hi R. destruct (rf_c1 _ _ _ _ _ _ _ _ _ _ _ _ _ _ R) as [C1 C2]. destruct (go_levels _ _ _ _ _ _ Hg) as [Hal _].
      destruct (rf_e _ _ _ _ _ _ _ _ _ _ _ _ _ _ R) as [E1 E2].
      assert (P1 : (0 <= e)%Z).
      { destruct (of_elem_u _ _ _ _ _ _ _ _ _ Hod i ltac:(lia)) as (n & En & Nn). rewrite E1 in En. injection En as <-. exact (nearest_nonneg _ _ (tile_nonneg i i) Nn). }
      assert (P2 : (0 <= e')%Z).
      { destruct (of_elem_u _ _ _ _ _ _ _ _ _ Hod (S i) ltac:(lia)) as (n & En & Nn). rewrite E2 in En. injection En as <-. exact (nearest_nonneg _ _ (tile_nonneg (S i) (S i)) Nn). }
      assert (P3 := boost_nonneg i b (rf_b _ _ _ _ _ _ _ _ _ _ _ _ _ _ R)).
      destruct (rf_bw _ _ _ _ _ _ _ _ _ _ _ _ _ _ R) as (p & p' & Ep & Ep' & -> & ->).
      assert (Q1 := Hq p (nth_error_In _ _ Ep)). assert (Q2 := Hq p' (nth_error_In _ _ Ep')).
      assert (D : forall x y : Z, (0 <= x)%Z -> (1 <= y)%Z -> 0 <= inject_Z x / inject_Z y).
      { intros x y X Y. apply Qle_shift_div_l; [change 0 with (inject_Z 0); rewrite <- Zlt_Qlt; lia|]. rewrite Qmult_0_l. change 0 with (inject_Z 0). rewrite <- Zle_Qle. exact X. }
      repeat (split; [assumption|]). split; apply py_int_nonneg.
      - apply Qmult_le_0_compat; [apply D; [nia|assumption]|]. change 0 with (inject_Z 0). rewrite <- Zle_Qle. exact P3.
      - apply D; [nia|assumption].
    Qed.

    Hypothesis Hdiv : forall c, In c (cycle_each_level inputs free op oi) -> (c | total)%Z.
    Lemma whole_times c : In c (cycle_each_level inputs free op oi) -> (1 <= c)%Z -> (1 <= total / c)%Z.
    Proof. intros I C. destruct (Hdiv c I) as (q & E). rewrite E, Z.div_mul by lia. nia. Qed.

    Record unit_facts (od : opdata) (ps : list pattern) : Prop := {
      uf_len : length ps = length (oi_temporal oi);
      uf_bits : length (od_bit_unrolled od) = S (length ps) /\ (length ps < length (od_effective_bit od))%nat;
      uf_nonneg : forall b, In b (od_bit_unrolled od) -> (0 <= b)%Z;
      uf_attr : forall p a k, In p ps -> exists x, entry p a k = Some x /\ (0 <= x)%Z;
      uf_top : forall i p k, nth_error ps i = Some p -> S i = length ps -> k = RdHigh \/ k = WrHigh -> entry p AmountPerPeriod k = Some 0%Z;
      uf_in : In op inputs -> forall i p, nth_error ps i = Some p ->
        entry p AmountPerPeriod WrLow = Some 0%Z /\ entry p AmountPerPeriod RdHigh = Some 0%Z /\
        happens p RdLow /\ ((S i < length ps)%nat -> happens p WrHigh);
      uf_out : op = out -> forall i p, nth_error ps i = Some p -> happens p WrLow /\ ((S i < length ps)%nat -> happens p RdHigh);
      uf_period : forall p k, In p ps -> happens p k -> exists t, entry p Period k = Some t /\ In t (cycle_each_level inputs free op oi) }.

    Definition proper (i : nat) (p : pattern) : Prop :=
      (forall a k, exists x, entry p a k = Some x /\ (0 <= x)%Z) /\
      (forall k, happens p k -> exists t, entry p Period k = Some t /\ In t (cycle_each_level inputs free op oi)) /\
      (S i = length (oi_temporal oi) -> forall k, k = RdHigh \/ k = WrHigh -> entry p AmountPerPeriod k = Some 0%Z).

    Lemma from_rows p m1 m2 m3 m4 q1 q2 q3 q4 b1 b2 b3 b4 i1 i2 i3 i4 t1 t2 t3 t4 n1 n2 n3 n4 a1 a2 a3 a4 w1 w2 w3 w4 :
      row p MoveCount m1 m2 m3 m4 -> row p Precision q1 q2 q3 q4 -> row p BwAver b1 b2 b3 b4 -> row p BwInst i1 i2 i3 i4 ->
      row p Period t1 t2 t3 t4 -> row p PeriodCount n1 n2 n3 n4 -> row p AmountPerPeriod a1 a2 a3 a4 -> row p TransWindow w1 w2 w3 w4 ->
      Forall (fun x => (0 <= x)%Z) [m1; m2; m3; m4; q1; q2; q3; q4; b1; b2; b3; b4; i1; i2; i3; i4; t1; t2; t3; t4; n1; n2; n3; n4; a1; a2; a3; a4; w1; w2; w3; w4] ->
      forall a k, exists x, entry p a k = Some x /\ (0 <= x)%Z.
    Proof.
      intros (M1 & M2 & M3 & M4) (Q1 & Q2 & Q3 & Q4) (B1 & B2 & B3 & B4) (I1 & I2 & I3 & I4) (T1 & T2 & T3 & T4) (N1 & N2 & N3 & N4) (A1 & A2 & A3 & A4) (W1 & W2 & W3 & W4) F a k.
      rewrite Forall_forall in F.
      destruct a, k; eexists; (split; [eassumption|apply F; cbn [In]; tauto]).
    Qed.
    Lemma window_nonneg c x : (0 <= c)%Z -> (1 <= x)%Z -> (0 <= window c x)%Z.
    Proof.
      intros A B. apply py_int_nonneg. apply Qle_shift_div_l; [change 0 with (inject_Z 0); rewrite <- Zlt_Qlt; lia|]. rewrite Qmult_0_l. change 0 with (inject_Z 0). now rewrite <- Zle_Qle.
    Qed.
    Lemma reads_nonneg od i raw rl : (0 <= raw)%Z -> reads_merged free oi od i raw rl -> (0 <= rl)%Z.
    Proof.
      intros A [->|(_ & _ & ->)]; [exact A|]. apply window_nonneg; [exact A|]. exact (gt_stationary _ _ _ _ _ _ Ht).
    Qed.
    Lemma reuse_size c : 1 <= c -> (0 <= py_int (inject_Z size_out * (c - 1)))%Z.
    Proof.
      intros H. apply py_int_nonneg. apply Qmult_le_0_compat; [|lra]. change 0 with (inject_Z 0). rewrite <- Zle_Qle. tauto.
    Qed.

    Lemma input_unit_facts od precision ird l1 l2 i p : opdata_facts ly macs op oi ird l1 l2 precision od ->
      (forall q, In q precision -> (0 <= q)%Z) -> (i < length (oi_temporal oi))%nat ->
      input_row ly inputs total free op oi od precision i p ->
      proper i p /\ entry p AmountPerPeriod WrLow = Some 0%Z /\ entry p AmountPerPeriod RdHigh = Some 0%Z /\
      happens p RdLow /\ ((S i < length (oi_temporal oi))%nat -> happens p WrHigh).
    Proof.
      intros Hod Hq Hi (prec & raw & rl & wh & bh & bl & c & c' & e & b & e' & cur & next & (M & Q & B & I & T & N & A & W) & Ep & Eraw & Erl & Ewh & R & Ecur & Enext).
      destruct (rates_nonneg od precision ird l1 l2 i bh bl c c' e b e' Hod Hq Hi R) as (C1 & C2 & P1 & P2 & P3 & P4 & P5).
      destruct (go_levels _ _ _ _ _ _ Hg) as [Hal _].
      destruct (gt_top_ir _ _ _ _ _ _ Ht) as [_ Hir]. assert (K1 := Hir cur (nth_error_In _ _ Ecur)). assert (K2 := Hir next (nth_error_In _ _ Enext)).
      destruct (of_raw _ _ _ _ _ _ _ _ _ Hod i ltac:(lia)) as (raw' & Eraw' & Mraw). rewrite Eraw in Eraw'. injection Eraw' as <-.
      destruct (of_raw2 _ _ _ _ _ _ _ _ _ Hod (S i) ltac:(lia)) as (wh' & Ewh' & Mwh). rewrite Ewh in Ewh'. injection Ewh' as <-.
      assert (Q1 : (0 <= prec)%Z) by (apply (Hprec op); [unfold keys; apply in_map_iff; now exists (op, oi)|exact Ep]).
      assert (R1 := moves_nonneg _ _ _ Mraw). assert (R2 := moves_nonneg _ _ _ Mwh).
      assert (R3 := reads_nonneg od i raw rl R1 Erl).
      destruct (rf_c _ _ _ _ _ _ _ _ _ _ _ _ _ _ R) as [I1 I2]. assert (I1' := nth_error_In _ _ I1). assert (I2' := nth_error_In _ _ I2).
      assert (D1 := whole_times c I1' C1). assert (D2 := whole_times c' I2' C2).
      set (E := ext (S i =? length (oi_temporal oi))%nat) in *.
      split; [split; [|split]|].
      - apply (from_rows p _ _ _ _ _ _ _ _ _ _ _ _ _ _ _ _ _ _ _ _ _ _ _ _ _ _ _ _ _ _ _ _ M Q B I T N A W).
        repeat (apply Forall_cons; [first [lia|nia|assumption|apply ext_nonneg; first [lia|nia|assumption|now apply window_nonneg; lia]|apply window_nonneg; lia]|]). apply Forall_nil.
      - intros k (n & En & Hn). destruct T as (T1 & T2 & T3 & T4), N as (N1 & N2 & N3 & N4). destruct k.
        + exists c. split; [congruence|exact I1'].
        + congruence.
        + congruence.
        + rewrite N4 in En. injection En as En. unfold E in *. destruct (Nat.eqb (S i) (length (oi_temporal oi))); cbn [ext] in *; [congruence|]. exists c'. split; [congruence|exact I2'].
      - intros Htop k Hk. destruct A as (A1 & A2 & A3 & A4). unfold E in *. rewrite Htop, Nat.eqb_refl in *. cbn [ext] in *. destruct Hk as [-> | ->]; assumption.
      - destruct A as (A1 & A2 & A3 & A4), N as (N1 & N2 & N3 & N4). split; [exact A2|]. split; [exact A3|]. split; [exists (total / c)%Z; split; [exact N1|lia]|].
        intros L. exists (total / c')%Z. split; [|lia]. unfold E in *. destruct (Nat.eqb_spec (S i) (length (oi_temporal oi))); [lia|exact N4].
    Qed.

    Lemma output_unit_facts od precision ird l1 l2 i p : opdata_facts ly macs op oi ird l1 l2 precision od -> op = out ->
      (forall x, In x (concat l1) -> 1 <= snd x) ->
      (forall q, In q precision -> (0 <= q)%Z) -> (i < length (oi_temporal oi))%nat ->
      output_row ly inputs size_out total free op oi od precision flags ird l1 i p ->
      proper i p /\ happens p WrLow /\ ((S i < length (oi_temporal oi))%nat -> happens p RdHigh).
    Proof.
      intros Hod Eo Hl Hq Hi (full & wl & rh & c1 & c2 & bh & bl & c & c' & e & b & e' & cur & next & f & f' & (M & Q & B & I & T & N & A & W) & Ep & Ewl & Erh & Ef & Ef' & Ec1 & Ec2 & R & Ecur & Enext).
      destruct (rates_nonneg od precision ird l1 l2 i bh bl c c' e b e' Hod Hq Hi R) as (C1 & C2 & P1 & P2 & P3 & P4 & P5).
      destruct (go_levels _ _ _ _ _ _ Hg) as [Hal _].
      destruct (gt_top_ir _ _ _ _ _ _ Ht) as [_ Hir]. assert (K1 := Hir cur (nth_error_In _ _ Ecur)). assert (K2 := Hir next (nth_error_In _ _ Enext)).
      destruct (of_raw _ _ _ _ _ _ _ _ _ Hod i ltac:(lia)) as (raw' & Eraw' & Mraw). rewrite Ewl in Eraw'. injection Eraw' as <-.
      destruct (of_raw2 _ _ _ _ _ _ _ _ _ Hod (S i) ltac:(lia)) as (wh' & Ewh' & Mwh). rewrite Erh in Ewh'. injection Ewh' as <-.
      assert (Q1 : (0 <= full)%Z) by (apply (Hprec op); [unfold keys; apply in_map_iff; now exists (op, oi)|exact Ep]).
      assert (R1 := moves_nonneg _ _ _ Mraw). assert (R2 := moves_nonneg _ _ _ Mwh).
      assert (GE : forall j, 1 <= iterations_of (filter (fun x => memb (fst x) ird) (concat (skipn j l1)))).
      { intros j. apply iterations_ge_1. intros x Hx. apply filter_In in Hx as [Hx _]. apply Hl. apply in_concat in Hx as (l & Hs & Hx). apply in_concat. exists l. split; [|exact Hx].
        rewrite <- (firstn_skipn j l1). apply in_or_app. now right. }
      assert (S1 : (0 <= py_int (inject_Z size_out * (c1 - 1)))%Z) by (apply reuse_size; rewrite Ec1; apply GE).
      assert (S2 : (0 <= py_int (inject_Z size_out * (c2 - 1)))%Z) by (apply reuse_size; rewrite Ec2; apply GE).
      destruct (rf_c _ _ _ _ _ _ _ _ _ _ _ _ _ _ R) as [I1 I2]. assert (I1' := nth_error_In _ _ I1). assert (I2' := nth_error_In _ _ I2).
      assert (D1 := whole_times c I1' C1). assert (D2 := whole_times c' I2' C2).
      set (E := ext (S i =? length (oi_temporal oi))%nat) in *. cbv zeta in *.
      set (rl := py_int (inject_Z size_out * (c1 - 1))) in *. set (wh := py_int (inject_Z size_out * (c2 - 1))) in *.
      assert (IF : forall (z : bool) x y, (0 <= x)%Z -> (0 <= y)%Z -> (0 <= if z then x else y)%Z) by (intros []; auto).
      split; [split; [|split]|].
      - apply (from_rows p _ _ _ _ _ _ _ _ _ _ _ _ _ _ _ _ _ _ _ _ _ _ _ _ _ _ _ _ _ _ _ _ M Q B I T N A W).
        repeat (apply Forall_cons; [repeat first [assumption|lia|apply ext_nonneg|apply IF|apply Z.mul_nonneg_nonneg|apply window_nonneg]|]). apply Forall_nil.
      - intros k (n & En & Hn). destruct T as (T1 & T2 & T3 & T4), N as (N1 & N2 & N3 & N4). destruct k.
        + rewrite N1 in En. injection En as En. destruct f; [|congruence]. exists c. split; [congruence|exact I1'].
        + exists c. split; [congruence|exact I1'].
        + rewrite N3 in En. injection En as En. unfold E in *. destruct (Nat.eqb (S i) (length (oi_temporal oi))); cbn [ext] in *; [congruence|]. exists c'. split; [congruence|exact I2'].
        + rewrite N4 in En. injection En as En. unfold E in *. destruct (Nat.eqb (S i) (length (oi_temporal oi))); cbn [ext] in *; [congruence|]. destruct f'; [|congruence]. exists c'. split; [congruence|exact I2'].
      - intros Htop k Hk. destruct A as (A1 & A2 & A3 & A4). unfold E in *. rewrite Htop, Nat.eqb_refl in *. cbn [ext] in *. destruct Hk as [-> | ->]; assumption.
      - destruct N as (N1 & N2 & N3 & N4). split; [exists (total / c)%Z; split; [exact N2|lia]|].
        intros L. exists (total / c')%Z. split; [|lia]. unfold E in *. destruct (Nat.eqb_spec (S i) (length (oi_temporal oi))); [lia|exact N3].
    Qed.

    Lemma unit_facts_of : exists od ps, dget op res = Some (od, ps) /\ unit_facts od ps.
    Proof.
      destruct (unfold_built ly r_dims ir_dims pr_ops inputs out macs size_out total free read_bw ois HM flags res HB) as [HF H].
      destruct (H op oi Hin) as (od & ps & precision & r & ir & c1 & c2 & l1 & l2 & E & L & Er & Ei & EC & D1 & D2 & Hod & Lp & HI & HO).
      exists od, ps. split; [exact E|]. destruct (go_levels _ _ _ _ _ _ Hg) as [Hal Hne].
      destruct (gm_ops _ _ _ _ _ _ _ _ HM) as (Ho & Hno & Hcases & _).
      assert (Hk : In op (keys ois)) by (unfold keys; apply in_map_iff; now exists (op, oi)).
      destruct (combined_ok _ _ Hal) as (one' & two' & Ec' & L1 & L2 & PM1 & PM2). rewrite EC in Ec'. injection Ec' as <- <-.
      assert (Hq : forall q, In q precision -> (0 <= q)%Z).
      { intros q Iq. apply In_nth_error in Iq as (j & Ej). destruct (Hcases op Hk) as [Eo|Io].
        - assert (Lf : (j < length flags)%nat).
          { assert (Lj : (j < length (oi_spatial oi))%nat) by (rewrite <- Lp; apply nth_error_Some; congruence).
            destruct (gm_keys _ _ _ _ _ _ _ _ HM) as (K1 & _). destruct HF as (oio & lsO & ir' & x1 & x2 & Io & Ei' & EC' & DO & ->).
            assert (oio = oi). { pose proof (In_dget _ _ _ K1 Io) as A1. subst op. pose proof (In_dget _ _ _ K1 Hin) as A2. congruence. } subst oio.
            rewrite EC in EC'. injection EC' as <- <-. assert (lsO = c1) by (destruct DO as [[P _]|[_ P]]; [contradiction|exact P]). subst lsO.
            rewrite flags_length; [lia|]. intros Z. rewrite Z in L1. cbn in L1. lia. }
          destruct (nth_lt flags j Lf) as (f & Ef). destruct (HO Eo) as [HP _]. specialize (HP j q f Ej Ef). destruct f; [|now rewrite HP].
          apply (Hprec out); [exact Ho|exact HP].
        - destruct (HI Io) as [HP _]. apply (Hprec op q Hk). exact (HP j q Ej). }
      assert (EL : op = out -> forall x, In x (concat l1) -> 1 <= snd x).
      { intros Eo x Hx. assert (l1 = c1) by (destruct D1 as [[P _]|[_ P]]; [rewrite Eo in P; contradiction|exact P]). subst l1.
        apply (go_sizes _ _ _ _ _ _ Hg). apply (within_in_nest _ _ (length (oi_temporal oi)) (length (oi_spatial oi))).
        rewrite Hal. apply (Permutation_in x (PM1 (length (oi_temporal oi)) ltac:(lia))). rewrite <- Hal, <- L1, firstn_all. exact Hx. }
      assert (PR : forall i p, nth_error ps i = Some p -> proper i p).
      { intros i p Hp. assert (Hi : (i < length (oi_temporal oi))%nat) by (rewrite <- L; apply nth_error_Some; congruence).
        destruct (Hcases op Hk) as [Eo|Io].
        - destruct (HO Eo) as [_ HR]. exact (proj1 (output_unit_facts od precision _ l1 l2 i p Hod Eo (EL Eo) Hq Hi (HR i p Hp))).
        - destruct (HI Io) as [_ HR]. exact (proj1 (input_unit_facts od precision _ l1 l2 i p Hod Hq Hi (HR i p Hp))). }
      constructor.
      - exact L.
      - split; [rewrite (of_bits _ _ _ _ _ _ _ _ _ Hod); lia|].
        destruct (of_eff _ _ _ _ _ _ _ _ _ Hod (length ps) ltac:(lia)) as (x & y & z & _ & _ & _ & _ & G). apply nth_error_Some. congruence.
      - intros x Hx. apply In_nth_error in Hx as (j & Ej). assert (Lj : (j < length (oi_spatial oi))%nat) by (rewrite <- (of_bits _ _ _ _ _ _ _ _ _ Hod); apply nth_error_Some; congruence).
        destruct (of_bit_u _ _ _ _ _ _ _ _ _ Hod j Lj) as (e & q & Ee & Eq & Eb). rewrite Ej in Eb. injection Eb as ->.
        destruct (of_elem_u _ _ _ _ _ _ _ _ _ Hod j Lj) as (n & En & Nn). rewrite Ee in En. injection En as <-.
        pose proof (nearest_nonneg _ _ (tile_nonneg j j) Nn). pose proof (Hq q (nth_error_In _ _ Eq)). nia.
      - intros p a k Ip. apply In_nth_error in Ip as (i & Hp). exact (proj1 (PR i p Hp) a k).
      - intros i p k Hp Htop. apply (proj2 (proj2 (PR i p Hp))). lia.
      - intros Io i p Hp. assert (Hi : (i < length (oi_temporal oi))%nat) by (rewrite <- L; apply nth_error_Some; congruence).
        destruct (HI Io) as [_ HR]. rewrite L. exact (proj2 (input_unit_facts od precision _ l1 l2 i p Hod Hq Hi (HR i p Hp))).
      - intros Eo i p Hp. assert (Hi : (i < length (oi_temporal oi))%nat) by (rewrite <- L; apply nth_error_Some; congruence).
        destruct (HO Eo) as [_ HR]. rewrite L. exact (proj2 (output_unit_facts od precision _ l1 l2 i p Hod Eo (EL Eo) Hq Hi (HR i p Hp))).
      - intros p k Ip. apply In_nth_error in Ip as (i & Hp). exact (proj1 (proj2 (PR i p Hp)) k).
    Qed.
  End One.
End Built.
