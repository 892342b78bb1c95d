(** C78: the times of an evaluation. *)
From Coq Require Import QArith Qround Lia Lqa.
From Verif Require Import Base Model_Alloc Model_Temporal Model_Decouple Model_SpatialInt Model_DataMove Model_Mapping Model_Links Model_Cost Model_Latency Model_Hierarchy Model_Evaluate
  Spec_Alloc Spec_Decouple Spec_SpatialInt Spec_Temporal Spec_DataMove Spec_Mapping Spec_Cost Spec_Latency Spec_Hierarchy Spec_Evaluate Spec_EvalEnergy Spec_EvalTime
  Proof_AllocSearch Proof_Bandwidth Proof_Energy Proof_Links Proof_Hierarchy Proof_Ports Proof_TemporalRun Proof_MappingProps Proof_Mapping Proof_Loading Proof_Latency Proof_Buffer Proof_BufferBits
  Proof_EvalTotal Proof_EvalMapping Proof_EvalBuild Proof_EvalHardware Proof_EvalPrepare Proof_EvalTiles Proof_EvalEnergy Proof_EvalTimes.
Local Open Scope list_scope.

Lemma tops_outer dims tm i o : nth_error (top_sizes dims tm) i = Some o -> outer_of dims tm i o.
Proof.
  destruct (top_sizes_runs dims tm) as (tops & -> & F). destruct i as [|j]; cbn [nth_error outer_of]; [now intros [= <-]|]. intros Ho.
  revert j Ho. induction F as [|l t ls ts Hl F IH]; intros j Ho; destruct j as [|j]; try discriminate; cbn [nth_error] in *; [injection Ho as <-; eauto|now apply IH].
Qed.

Lemma few_inputs (l : list string) (f : string -> string) : NoDup l -> (forall x y, In x l -> In y l -> f x = f y -> x = y) ->
  (forall x, In x l -> f x = "I1"%string \/ f x = "I2"%string) -> (length l <= 2)%nat.
Proof.
  intros N Inj H. assert (NM : NoDup (map f l)).
  { clear H. induction N as [|x l Nx N IH]; [constructor|]. cbn [map]. constructor; [|apply IH; intros; apply Inj; auto; now right].
    intros I. apply in_map_iff in I. destruct I as (y & E & Iy). apply Nx. rewrite (Inj x y); auto; [now left|now right]. }
  rewrite <- (map_length f). apply (NoDup_incl_length NM (l' := ["I1"; "I2"]%string)). intros y I. apply in_map_iff in I. destruct I as (x & <- & Ix). destruct (H x Ix) as [-> | ->]; cbn; auto.
Qed.

Lemma held_before ms ls mo : Forall2 described ms ls -> forall i, before_count ls i mo = length (memories_for (firstn i ms) mo).
Proof.
  unfold before_count, memories_for. intros F. induction F as [|m l ms' ls' (D & _) F IH]; intros [|i]; try reflexivity.
  cbn [firstn filter]. unfold holds at 1, lv_operands. rewrite D. destruct (memb mo (ms_operands m)); cbn [length]; now rewrite IH.
Qed.

Section Times.
  Variables (rq : request) (fuel pc : nat) (ms : list memspec) (z : Z).
  Hypothesis V : valid_request rq.
  Hypothesis SH : sound_hardware rq pc ms.
  Hypothesis HF : (passes_bound (rq_temporal rq) <= fuel)%nat.
  Hypothesis HW : whole_request rq.
  Hypothesis HT : whole_time_loops rq.
  Hypothesis HS : (1 <= rq_size_out rq)%Z.
  Hypothesis DP : dedicated_ports ms.
  Hypothesis ND : NoDup (rq_inputs rq).
  Hypothesis HZ : (rq_cpo rq == inject_Z z)%Q.
  Let SL := vr_layer rq V.
  Let h := rq_hierarchy rq.
  Let E : build pc ms = Ok h := sh_built rq pc ms SH.
  Let N : names_once ms := proj1 (sh_once rq pc ms SH).

  Section Prepared.
    Variables (ci : inputs) (st : dict string tmlevels) (mac : dict string Z) (counts : dict string opcounts) (flags : dict string (list bool)).
    Hypothesis P : parts rq ci st mac counts.
    Hypothesis C : complete_inputs ci.

    (** * What the evaluation goes by *)
    Definition time_loops (op : string) : list (list (string * Z)) := match dget op st with Some l => l | None => [] end.
    Definition row_entry (op : string) (lv : nat) (a : attr) (k : direction) : Z :=
      match dget op (in_map_int ci) with
      | Some (_, ps) => match nth_error ps lv with Some p => match entry p a k with Some x => x | None => 0%Z end | None => 0%Z end
      | None => 0%Z end.
    Definition row_width (op : string) (lv : nat) (k : direction) : Z :=
      match nth_error (holders h (stored_as rq op)) lv with
      | Some l => match Spec_Hierarchy.get2 (ml_bw_max (lv_mem l)) (stored_as rq op) k with Some (Some b) => b | _ => 0%Z end
      | None => 0%Z end.
    Definition time_transfer (op : string) (lv : nat) (k : direction) : transfer :=
      mkTransfer (row_entry op lv AmountPerPeriod k * row_entry op lv Precision k) (row_width op lv k) (row_entry op lv Period k) (row_entry op lv PeriodCount k)
        (nth (fst (inside k lv)) (top_sizes (reuse_dims (rq_ir rq) op) (time_loops op)) 1%Z).
    Definition time_first (op : string) : Z :=
      match dget op (in_map_int ci) with Some (od, _) => nth 1 (od_bit_unrolled od) 0%Z | None => 0%Z end.
    Definition time_double (op : string) (i : nat) : bool := match dget op flags with Some l => nth i l false | None => false end.
    Notation su op := (unrolling (rq_spatial_int rq) op).

    Lemma links_same : in_links ci = rq_links rq.
    Proof. exact (proj1 (proj2 (pa_same _ _ _ _ _ P))). Qed.
    Lemma ops_same : in_ops ci = rq_ops rq.
    Proof. exact (proj1 (pa_same _ _ _ _ _ P)). Qed.
    Lemma op_linked op : In op (rq_ops rq) -> dget op (lk_data (rq_links rq)) = Some (stored_as rq op).
    Proof. exact (linked_op rq V op). Qed.

    Lemma width_get2 t op k b : Spec_Hierarchy.get2 t op k = Some b <-> width t op k b.
    Proof.
      unfold Spec_Hierarchy.get2, width. destruct (dget op t) as [f|]; split; [intros G; now exists f|intros (f' & Q & G); now injection Q as <-|discriminate|intros (f' & Q & _); discriminate].
    Qed.

    (** The rows of an operand *)
    Lemma rows op : In op (rq_ops rq) -> exists od ps,
      dget op (in_map_int ci) = Some (od, ps) /\ length ps = length (time_loops op) /\ length ps = length (holders h (stored_as rq op)) /\ ps <> [] /\
      (exists given, dget op (rq_temporal rq) = Some given /\ merged_down (reuse_dims (rq_ir rq) op) given (time_loops op)) /\
      kept_bits rq op (su op) (time_loops op) 0 (time_first op) /\ nth_error (od_bit_unrolled od) 1 = Some (time_first op) /\
      forall lv p k, nth_error ps lv = Some p ->
        (still p k /\ ~ moving rq op (su op) (time_loops op) lv k) \/
        (moving rq op (su op) (time_loops op) lv k /\ right_transfer rq ms op (su op) (time_loops op) lv k (time_transfer op lv k) /\
         exists a b, entry p AmountPerPeriod k = Some a /\ entry p Precision k = Some b /\ entry p Period k = Some (tr_period (time_transfer op lv k)) /\
           entry p PeriodCount k = Some (tr_count (time_transfer op lv k)) /\ tr_bits (time_transfer op lv k) = (a * b)%Z /\
           entry p TransWindow k = Some (tr_period (time_transfer op lv k) / tr_outer (time_transfer op lv k))%Z /\
           entry p BwInst k = Some (asked (time_transfer op lv k)) /\
           (1 <= tr_period (time_transfer op lv k) /\ 1 <= tr_outer (time_transfer op lv k))%Z /\ (tr_count (time_transfer op lv k) <> 0)%Z /\
           exists l, nth_error (holders h (stored_as rq op)) lv = Some l /\ width (ml_bw_max (lv_mem l)) (stored_as rq op) k (Some (tr_width (time_transfer op lv k))) /\
             (0 < tr_width (time_transfer op lv k))%Z).
    Proof.
      intros Io. assert (Hl := op_linked op Io). destruct (pa_timed _ _ _ _ _ P) as (cabl & total & ord & counts' & TI & _ & _ & MP & WR & Et).
      destruct (mapped_tiles rq fuel V HF HS _ _ _ _ _ _ _ _ op _ TI MP WR (HT op) Hl) as (su0 & tm & tm' & od & ps & A1 & A2 & A3 & A3' & A4 & A5 & A6 & A7 & A8 & A9 & c & Ec & B1 & _ & B3).
      fold h in A6. assert (Etm : time_loops op = tm') by (unfold time_loops; now rewrite A3'). assert (Esu : su op = su0) by (unfold unrolling; now rewrite A1). rewrite Etm, Esu.
      exists od, ps. split; [exact A4|]. split; [exact A5|]. split; [exact A6|]. split; [exact A7|]. split; [now exists tm|].
      assert (K0 : exists b, bits_moved rq op su0 tm' 0 RdHigh b /\ kept (rq_layer rq) op su0 tm' (top_sizes (reuse_dims (rq_r rq) op) tm') od 1 b).
      { destruct ps as [|p ps]; [easy|]. destruct (nth_lt (unit_count c) 1) as (u & Eu); [rewrite B1; cbn [length]; lia|]. exact (proj2 (B3 0%nat p u RdHigh eq_refl Eu)). }
      destruct K0 as (b0 & Hb0 & e0 & o0 & K1 & K2 & K3 & _).
      assert (Ef : time_first op = (e0 * b0)%Z) by (unfold time_first; rewrite A4; now apply nth_error_nth).
      split; [exists b0, e0; auto|]. split; [now rewrite Ef|].
      intros lv p k Ep. assert (Lt : (lv < length ps)%nat) by (now apply lt_nth in Ep).
      destruct (nth_lt (unit_count c) (S lv)) as (u & Eu); [lia|]. destruct (proj1 (B3 lv p u k Ep Eu)) as [(S1 & S2)|(Mv & b & same & Hb & Hsame & a & n & M1 & M2 & M3 & M4 & M5 & t & o & T1 & T2 & T3 & T4 & T5 & T6 & T7 & T8)]; [now left|right].
      destruct (nth_lt (holders h (stored_as rq op)) lv) as (l & El); [lia|].
      destruct (memory_at rq fuel pc ms SH HF op (stored_as rq op) lv l Hl El) as (i & m & Em & Ei & Dm & So & _).
      assert (Ln : length tm' = length (holders (rq_hierarchy rq) (stored_as rq op))) by (fold h; congruence).
      destruct (port_of rq fuel pc ms SH HF op lv m l i k Hl El Em Ei (moving_needed rq op _ su0 tm' lv k Hl Ln Mv)) as (pt & Mp & W5 & _ & Wp & _).
      assert (R : forall a0 x, entry p a0 k = Some x -> row_entry op lv a0 k = x) by (intros a0 x Q; unfold row_entry; now rewrite A4, Ep, Q).
      assert (Ew : row_width op lv k = ps_bw_max pt) by (unfold row_width; rewrite El; apply width_get2 in W5; now rewrite W5).
      assert (Eo : nth (fst (inside k lv)) (top_sizes (reuse_dims (rq_ir rq) op) tm') 1%Z = o) by (now apply nth_error_nth).
      assert (Nm : nth_error (memories_for ms (stored_as rq op)) lv = Some m).
      { assert (F := memories_held rq pc ms SH (stored_as rq op)). fold h in F. destruct (nth_lt (memories_for ms (stored_as rq op)) lv) as (m' & Em'); [rewrite (F2_len _ _ _ F); lia|].
        destruct (F2_nth_r _ _ _ F lv m' Em') as (l' & El' & _ & i' & Q1 & Q2). rewrite El in El'. injection El' as <-. rewrite Em'. f_equal.
        assert (Qi : i' = i); [|congruence]. destruct (build_inv pc ms h E) as (IV & _). rewrite <- (hi_ids h IV i' l Q2). exact (hi_ids h IV i l Ei). }
      unfold time_transfer. rewrite Etm, (R _ _ M1), (R _ _ M2), (R _ _ M3), (R _ _ T1), Ew, Eo. unfold asked. cbn [tr_bits tr_width tr_period tr_count tr_outer].
      split; [exact Mv|]. split.
      - split; [exists b, a, same; cbn [tr_bits tr_period]; now repeat (split; [assumption || reflexivity|])|]. cbn [tr_period tr_count tr_outer tr_width]. split; [exact T6|]. split; [now apply tops_outer|]. exists m, pt. now repeat (split; [assumption|]).
      - exists a, b. repeat (split; [assumption || reflexivity|]). split; [now split|]. split.
        + intros ->. rewrite Z.mul_0_r in T6. assert (CT := co_total ci C). rewrite Et in CT.
          destruct (ti_op _ _ _ _ _ _ TI op tm A2) as (ls & mm & cyc & Els & _ & _ & _ & Cls & Cord & _). rewrite A3' in Els. injection Els as <-.
          rewrite (ti_total _ _ _ _ _ _ TI) in CT. unfold cycles in CT, T6. rewrite Cls, Cord in T6. lia.
        + exists l. now repeat (split; [assumption|]).
    Qed.

    Lemma cpo_whole t : Qceiling (inject_Z t * in_cpo ci) = (t * z)%Z.
    Proof. destruct (pa_rest _ _ _ _ _ P) as (_ & _ & _ & ->). rewrite HZ, <- inject_Z_mult. apply Qceiling_Z. Qed.
    Lemma z_pos : (0 < z)%Z.
    Proof. destruct (vr_cycles rq V) as (z' & Q & Pz). rewrite HZ in Q. rewrite inject_Z_injective in Q. now subst z'. Qed.

    (** A port makes one movement. *)
    Lemma port_single m pt : In m (in_levels ci) -> In pt (ml_ports m) -> exists op lv k l,
      pt_served pt = [(stored_as rq op, lv, k)] /\ In op (rq_ops rq) /\ nth_error (holders h (stored_as rq op)) lv = Some l /\
      width (ml_bw_max (lv_mem l)) (stored_as rq op) k (Some (pt_bw_max pt)) /\ (0 < pt_bw_max pt)%Z.
    Proof.
      intros Im Ip. assert (PB := co_ports ci C m pt Im Ip). destruct (pa_rest _ _ _ _ _ P) as (_ & _ & Q & _). rewrite Q in Im. apply in_map_iff in Im. destruct Im as (l & <- & Il). assert (El := Il). apply In_nth_error in El. destruct El as (i & El).
      destruct (described_at pc ms h E i l El) as (d & Ed & Dd). destruct (level_ports pc ms h i d l N E Ed El) as (A1 & _ & A3 & _). destruct (A1 pt Ip) as (p & _ & _ & Bw & Ne & Nd & Sv).
      destruct (pt_served pt) as [|[[mo lv] k] rest] eqn:Es; [easy|]. destruct (proj1 (Sv mo lv k) (or_introl eq_refl)) as (D1 & M1).
      assert (Hr : rest = []).
      { destruct rest as [|[[mo' lv'] k'] rest]; [reflexivity|exfalso]. destruct (proj1 (Sv mo' lv' k') (or_intror (or_introl eq_refl))) as (D2 & M2).
        destruct (DP d p mo k mo' k' (nth_error_In _ _ Ed) M1 M2) as (<- & <-). rewrite D1 in D2. injection D2 as <-. inversion Nd as [|? ? Nx _]. subst. apply Nx. now left. }
      subst rest. assert (Hn := number_at pc ms h E mo lv l Il D1). destruct (numbered pc ms h E mo lv l Hn) as (_ & So & _).
      destruct (sh_used rq pc ms SH d mo (nth_error_In _ _ Ed)) as (op & Hl); [unfold stores in So; now rewrite <- (proj1 Dd)|].
      assert (Io : In op (rq_ops rq)) by (now apply (linked rq V op mo) in Hl). assert (Q2 : mo = stored_as rq op) by (unfold stored_as; now rewrite Hl). subst mo.
      exists op, lv, k, l. split; [reflexivity|]. split; [exact Io|]. split; [exact Hn|]. split; [|exact PB]. apply width_get2. destruct (A3 _ k p So M1) as (_ & ->). now rewrite Bw.
    Qed.

    Lemma port_served op lv k : In op (rq_ops rq) -> (lv < length (time_loops op))%nat -> moving rq op (su op) (time_loops op) lv k ->
      exists m pt, In m (in_levels ci) /\ In pt (ml_ports m) /\ In (stored_as rq op, lv, k) (pt_served pt).
    Proof.
      intros Io Lt Mv. destruct (rows op Io) as (od & ps & _ & L1 & L2 & _). assert (Hl := op_linked op Io). destruct (nth_lt (holders h (stored_as rq op)) lv) as (l & El); [lia|].
      destruct (pa_rest _ _ _ _ _ P) as (_ & _ & Q & _). rewrite Q.
      apply (Proof_EvalPrepare.served_at rq fuel pc ms SH HF op (stored_as rq op) lv l k Hl El). apply (moving_needed rq op _ (su op) (time_loops op) lv k Hl); [fold h; congruence|exact Mv].
    Qed.

    Hypothesis ST : sound_timing ci.

    (** Nothing is negative *)
    Lemma entries_nonneg op lv a k : In op (rq_ops rq) -> (0 <= row_entry op lv a k)%Z /\ (0 <= time_first op)%Z.
    Proof.
      intros Io. assert (Hl := op_linked op Io). destruct (pa_timed _ _ _ _ _ P) as (cabl & total & ord & counts' & TI & _ & _ & MP & WR & Et).
      destruct (mapped_tiles rq fuel V HF HS _ _ _ _ _ _ _ _ op _ TI MP WR (HT op) Hl) as (su0 & tm & tm' & od & ps & A1 & A2 & A3 & A3' & A4 & A5 & A6 & A7 & A8 & A9 & _).
      unfold row_entry, time_first. rewrite A4. split.
      - destruct (nth_error ps lv) as [p|] eqn:Ep; [|lia]. destruct (entry p a k) as [x|] eqn:Ex; [|lia]. exact (A8 p a k x (nth_error_In _ _ Ep) Ex).
      - destruct (Nat.lt_ge_cases 1 (length (od_bit_unrolled od))) as [L|L]; [apply A9; now apply nth_In|]. rewrite nth_overflow by lia. lia.
    Qed.
    Lemma widths_nonneg op lv k : In op (rq_ops rq) -> (0 <= row_width op lv k)%Z.
    Proof.
      intros Io. unfold row_width. destruct (nth_error (holders h (stored_as rq op)) lv) as [l|] eqn:El; [|lia].
      destruct (Spec_Hierarchy.get2 (ml_bw_max (lv_mem l)) (stored_as rq op) k) as [[b|]|] eqn:Eg; [|lia..]. apply width_get2 in Eg.
      assert (Hh := held rq V ci st mac counts P op _ (op_linked op Io)). apply dget_In in Hh. eapply (st_widths ci ST); [exact Hh| |exact Eg]. apply List.in_map. now apply nth_error_In in El.
    Qed.
    Lemma load_nonneg stall op lv k : In op (rq_ops rq) -> (0 <= loading_time (cycles (concat (time_loops op)) * z + stall) (time_first op) (time_transfer op lv k))%Z.
    Proof.
      intros Io. assert (W := widths_nonneg op lv k Io). destruct (entries_nonneg op lv AmountPerPeriod k Io) as (A & F). destruct (entries_nonneg op lv Precision k Io) as (B & _).
      assert (X : forall a b, (0 <= a -> 0 <= b -> 0 <= Qceiling (inject_Z a / inject_Z b))%Z) by (intros a b Ha Hb; apply Proof_Latency.ceil_nonneg; now apply Proof_Latency.div_nonneg).
      unfold loading_time, duration, time_transfer. cbn [tr_bits tr_width tr_count].
      assert (D := X _ _ (Z.mul_nonneg_nonneg _ _ A B) W). destruct (_ =? 1)%Z; [|exact D]. assert (Y := X _ _ F W). lia.
    Qed.

    Variables (allowed real : dict string (list (four Z))).
    Hypothesis T : transfer_cycles ci flags = Ok (allowed, real).

    (** * Stalls *)
    Lemma activity_wait pt l a op lv k : port_activities ci allowed real pt = Ok l -> In a l -> pa_served a = (op, lv, k) ->
      is_transfer rq time_loops (op, lv, k) /\ stall_or_slack a = waits z time_transfer time_double (op, lv, k).
    Proof.
      intros Ea Ia Hs. destruct (activities_spec ci flags allowed real pt l (co_links ci C) T Ea a Ia) as (op' & lv' & k' & mo & od & ps & p & msl & m & fs & this & next & period & amount & prec & S1 & S2 & S3 & S4 & S5 & S6 & S7 & S8 & S9 & S10 & S11 & S12 & S13 & S14 & S15 & S16 & (w & W1 & W2) & (x & X1 & X2)).
      rewrite Hs in S2. injection S2 as <- <- <-. assert (Io : In op (rq_ops rq)) by (rewrite <- ops_same; exact (link_in ci C op mo S3)).
      destruct (rows op Io) as (od' & ps' & D1 & L1 & L2 & _ & _ & _ & _ & R). rewrite S4 in D1. injection D1 as <- <-.
      destruct (R lv p k S5) as [((_ & Q & _) & _)|(Mv & _ & a0 & b0 & E1 & E2 & E3 & E4 & E5 & E6 & _ & _ & _ & l0 & E7 & E8 & E9)]; [rewrite S11 in Q; injection Q as Q; contradiction|].
      split; [split; [exact Io|]; split; [rewrite <- L1; now apply lt_nth in S5|exact Mv]|].
      unfold stall_or_slack, waits, wait. assert (Ec : pa_count a = tr_count (time_transfer op lv k)) by congruence. rewrite Ec. f_equal. f_equal.
      - rewrite W2. assert (Hm : mo = stored_as rq op) by (unfold stored_as; rewrite <- links_same; now rewrite S3). subst mo.
        rewrite (held rq V ci st mac counts P op _ (op_linked op Io)) in S6. injection S6 as <-. fold h in S7. rewrite nth_error_map, E7 in S7. cbn [option_map] in S7. injection S7 as <-.
        rewrite (width_same _ _ _ _ _ W1 E8). rewrite S15 in E1. injection E1 as <-. rewrite S16 in E2. injection E2 as <-. unfold duration. rewrite <- E5. destruct (Z.eqb_spec (tr_width (time_transfer op lv k)) 0); [lia|reflexivity].
      - rewrite X2, cpo_whole. unfold time_window. f_equal. unfold time_double. rewrite S8.
        destruct k; cbn [inside fst]; rewrite ?(nth_error_nth _ _ false S9), ?(nth_error_nth _ _ false S10); destruct this, next; cbv iota in X1; congruence.
    Qed.

    Lemma stall_right s : stall_slack_comb ci allowed real = Ok s -> greatest_or_0 (is_transfer rq time_loops) (waits z time_transfer time_double) s.
    Proof.
      intros Hs. destruct (stall_ge ci allowed real s Hs) as (S0 & Sge). split; [exact S0|]. split.
      - intros [[op lv] k] (Io & Lt & Mv). destruct (port_served op lv k Io Lt Mv) as (m & pt & Im & Ip & Is).
        assert (Nn : NoDup (map pt_name (ml_ports m))).
        { destruct (pa_rest _ _ _ _ _ P) as (_ & _ & Q & _). rewrite Q in Im. apply in_map_iff in Im. destruct Im as (l & <- & Il). exact (level_names pc ms h l N E Il). }
        destruct (Sge m pt Im Nn Ip) as (l & El & Hl). destruct (rows op Io) as (od & ps & D1 & L1 & L2 & _ & _ & _ & _ & R). destruct (nth_lt ps lv) as (p & Ep); [lia|].
        destruct (R lv p k Ep) as [(_ & Q)|(_ & _ & a0 & b0 & _ & _ & _ & E4 & _ & _ & _ & _ & N0 & _)]; [contradiction|].
        assert (Hk := op_linked op Io). rewrite <- links_same in Hk.
        destruct (activity_of ci allowed real pt op _ lv k od ps p _ l (link_contains ci op _ Hk) (link_back ci C op _ Hk) D1 Ep E4 N0 Is El) as (a & Ia & Ea).
        rewrite <- (proj2 (activity_wait pt l a op lv k El Ia Ea)). now apply Hl.
      - destruct (stall_attained ci allowed real s Hs) as [->|(m & pt & a & Im & Ip & Ea & <-)]; [|now left|right].
        + intros m pt l Im Ip. destruct (port_single m pt Im Ip) as (op & lv & k & l0 & Es & _). now apply activity_one with (s := (stored_as rq op, lv, k)).
        + destruct (pa_served a) as [[op lv] k] eqn:Es. destruct (activity_wait pt [a] a op lv k Ea (or_introl eq_refl) Es) as (A & B). exists (op, lv, k). now split.
    Qed.

    (** * Loading *)
    Lemma total_loops op : In op (rq_ops rq) -> in_total ci = cycles (concat (time_loops op)).
    Proof.
      intros Io. destruct (pa_timed _ _ _ _ _ P) as (cabl & total & ord & counts' & TI & _ & _ & _ & _ & ->). rewrite (ti_total _ _ _ _ _ _ TI).
      destruct (linked rq V op _ (op_linked op Io)) as (_ & _ & tm & Et & _). destruct (ti_op _ _ _ _ _ _ TI op tm Et) as (ls & mm & cyc & Els & _ & _ & _ & Cls & Cord & _).
      unfold time_loops. rewrite Els. now rewrite Cls, Cord.
    Qed.

    Section Loads.
      Variable stall : Z.
      Hypothesis S0 : (0 <= stall)%Z.
      Definition load_at (op : string) (lv : nat) (k : direction) : Z :=
        loading_time (cycles (concat (time_loops op)) * z + stall) (time_first op) (time_transfer op lv k).

      Lemma ports_right m pt : In m (in_levels ci) -> In pt (ml_ports m) -> right_port ci load_at real stall pt.
      Proof.
        intros Im Ip. destruct (port_single m pt Im Ip) as (op & lv & k & l & Es & Io & El & Hw & Pw). exists (stored_as rq op), lv, k. split; [exact Es|]. split; [exact Pw|].
        intros op' od ps p n c Eb D Ep En N0 Hc _. assert (Hk := op_linked op Io). rewrite <- links_same in Hk. rewrite (link_back ci C op _ Hk) in Eb. injection Eb as <-.
        destruct (rows op Io) as (od' & ps' & D1 & L1 & L2 & _ & _ & _ & Kf & R). rewrite D in D1. injection D1 as <- <-. rewrite Kf.
        destruct (R lv p k Ep) as [((_ & Q & _) & _)|(Mv & _ & a0 & b0 & E1 & E2 & E3 & E4 & E5 & E6 & _ & _ & _ & l0 & E7 & E8 & E9)]; [rewrite En in Q; injection Q as Q; contradiction|].
        rewrite En in E4. injection E4 as ->. fold h in El, E7. rewrite El in E7. injection E7 as <-. pose proof (width_same _ _ _ _ _ Hw E8) as X. injection X as X.
        assert (Ec : c = duration (time_transfer op lv k)).
        { destruct (real_entry ci flags allowed real op lv k c T Hc) as (mo & fr & Q1 & Q3 & Q4).
          destruct (real_spec ci op mo lv fr Q3) as (msl & ml & od2 & ps2 & p2 & Y1 & Y2 & Y3 & Y4 & Y5). destruct (Y5 k c Q4) as (am & pr & w & Z1 & Z2 & Z3 & ->).
          rewrite Hk in Q1. injection Q1 as <-. rewrite (held rq V ci st mac counts P op _ (op_linked op Io)) in Y1. injection Y1 as <-. fold h in Y2. rewrite nth_error_map, El in Y2. cbn [option_map] in Y2. injection Y2 as <-.
          rewrite D in Y3. injection Y3 as <- <-. rewrite Ep in Y4. injection Y4 as <-. rewrite E1 in Z1. injection Z1 as <-. rewrite E2 in Z2. injection Z2 as <-.
          rewrite (width_same _ _ _ _ _ Z3 E8). unfold duration. rewrite <- E5. destruct (Z.eqb_spec (tr_width (time_transfer op lv k)) 0); [lia|reflexivity]. }
        unfold load_at, loading_time. rewrite <- Ec, <- (total_loops op Io), cpo_whole, X. reflexivity.
      Qed.
    End Loads.

    (** * Second buffers *)
    Lemma live_row op : In op (rq_ops rq) -> exists od ps, dget op (in_map ci) = Some (od, ps) /\ length ps = length (time_loops op) /\
      forall lv, (lv < length ps)%nat -> exists b, nth_error (od_effective_bit od) (S lv) = Some b /\ (0 <= b)%Z /\ live_bits rq op (unrolling (rq_spatial rq) op) (time_loops op) lv b.
    Proof.
      intros Io. assert (Hl := op_linked op Io). destruct (pa_timed _ _ _ _ _ P) as (cabl & total & ord & counts' & TI & MP & WR & _ & _ & Et).
      destruct (mapped_tiles rq fuel V HF HS _ _ _ _ _ _ _ _ op _ TI MP WR (HW op) Hl) as (su0 & tm & tm' & od & ps & A1 & A2 & A3 & A3' & A4 & A5 & A6 & A7 & A8 & A9 & c & Ec & B1 & _ & B3).
      assert (Etm : time_loops op = tm') by (unfold time_loops; now rewrite A3'). assert (Esu : unrolling (rq_spatial rq) op = su0) by (unfold unrolling; now rewrite A1). rewrite Etm, Esu.
      exists od, ps. split; [exact A4|]. split; [exact A5|]. intros lv Lt. destruct (nth_lt ps lv Lt) as (p & Ep). destruct (nth_lt (unit_count c) (S lv)) as (u & Eu); [lia|].
      destruct (proj2 (B3 lv p u RdHigh Ep Eu)) as (b & Hb & e & o & K1 & K2 & K3 & K4 & K5 & K6). exists (e * b / o)%Z. split; [exact K6|]. split; [apply Z.div_pos; [apply A9; now apply nth_error_In in K3|lia]|].
      exists (e * b)%Z, o. split; [now exists b, e|]. split; [now apply tops_outer|reflexivity].
    Qed.
    Definition time_live (op : string) (lv : nat) : Z := match dget op (in_map ci) with Some (od, _) => nth (S lv) (od_effective_bit od) 0%Z | None => 0%Z end.

    Lemma levels_same op : In op (rq_ops rq) -> Model_Cost.levels_of (in_map ci) op = Ok (length (time_loops op)) /\ Model_Cost.levels_of (in_map_int ci) op = Ok (length (time_loops op)).
    Proof.
      intros Io. destruct (live_row op Io) as (od & ps & D & L & _). destruct (rows op Io) as (od' & ps' & D' & L' & _). unfold Model_Cost.levels_of, dgetr. rewrite D, D'. cbn. split; congruence.
    Qed.
    Lemma live_tile op lv : In op (rq_ops rq) -> (lv < length (time_loops op))%nat ->
      Spec_Latency.tile_bits ci od_effective_bit (op, lv) (time_live op lv) /\ (0 <= time_live op lv)%Z /\ live_bits rq op (unrolling (rq_spatial rq) op) (time_loops op) lv (time_live op lv).
    Proof.
      intros Io Lt. destruct (live_row op Io) as (od & ps & D & L & R). rewrite <- L in Lt. destruct (R lv Lt) as (b & Eb & Pb & Lb).
      assert (Q : time_live op lv = b) by (unfold time_live; rewrite D; now apply nth_error_nth). rewrite Q. split; [now exists od, ps|]. now split.
    Qed.

    Lemma level_dict i l mo lv : nth_error (h_list h) i = Some l -> In (mo, lv) (lv_dict l) <-> In mo (ml_operands (lv_mem l)) /\ lv = before_count (h_list h) i mo.
    Proof.
      intros El. destruct (build_inv pc ms h E) as (IV & _). assert (D := hi_dict h IV i l mo El). fold (lv_operands l). split.
      - intros I. apply In_dget in I; [|exact (hi_keys h IV l (nth_error_In _ _ El))]. rewrite D in I. destruct (memb mo (lv_operands l)) eqn:M; [|discriminate]. apply memb_In in M. injection I as <-. now split.
      - intros (I & ->). apply memb_In in I. rewrite I in D. now apply dget_In in D.
    Qed.
    Lemma count_memories i mo : before_count (h_list h) i mo = length (memories_for (firstn i ms) mo).
    Proof.
      destruct (build_inv pc ms h E) as (_ & F). exact (held_before ms (h_list h) mo F i).
    Qed.

    Lemma sharing : sharing_ok ci.
    Proof.
      destruct (build_inv pc ms h E) as (IV & _). constructor.
      - exact (co_links ci C).
      - exact (co_once ci C).
      - intros g I. apply (pa_sharing _ _ _ _ _ P) in I. destruct I as (l & Il & -> & _). fold h in Il. apply (NoDup_map_inv fst). exact (hi_keys h IV l Il).
      - intros g g' [mo lv] I I' X X'. apply (pa_sharing _ _ _ _ _ P) in I. apply (pa_sharing _ _ _ _ _ P) in I'. destruct I as (l & Il & -> & _), I' as (l' & Il' & -> & _). fold h in Il, Il'.
        apply In_dget in X; [|exact (hi_keys h IV l Il)]. apply In_dget in X'; [|exact (hi_keys h IV l' Il')]. apply (number_at pc ms h E mo lv l Il) in X. apply (number_at pc ms h E mo lv l' Il') in X'. congruence.
    Qed.

    Lemma members_resident i l x : nth_error (h_list h) i = Some l -> In x (members ci (lv_dict l)) <-> resident rq ms i x.
    Proof.
      intros El. rewrite (members_In ci _ x sharing). destruct (described_at pc ms h E i l El) as (m & Em & Dm). split.
      - intros (mo & I & Hl). rewrite links_same in Hl. assert (Io : In (fst x) (rq_ops rq)) by (now apply (linked rq V (fst x) mo) in Hl).
        assert (Q : mo = stored_as rq (fst x)) by (unfold stored_as; now rewrite Hl). subst mo. apply (level_dict i l _ _ El) in I. destruct I as (I & Q). rewrite count_memories in Q.
        split; [exact Io|]. split; [exists m; split; [exact Em|now rewrite <- (proj1 Dm)]|exact Q].
      - intros (Io & (m' & Em' & I) & Q). rewrite Em in Em'. injection Em' as <-. exists (stored_as rq (fst x)). split; [|rewrite links_same; exact (op_linked _ Io)].
        apply (level_dict i l _ _ El). rewrite count_memories. split; [now rewrite (proj1 Dm)|exact Q].
    Qed.
    Lemma resident_level i l x : nth_error (h_list h) i = Some l -> In x (members ci (lv_dict l)) ->
      In (fst x) (rq_ops rq) /\ (snd x < length (time_loops (fst x)))%nat /\ nth_error (holders h (stored_as rq (fst x))) (snd x) = Some l.
    Proof.
      intros El Ix. apply (members_In ci _ x sharing) in Ix. destruct Ix as (mo & I & Hl). rewrite links_same in Hl. assert (Io : In (fst x) (rq_ops rq)) by (now apply (linked rq V (fst x) mo) in Hl).
      assert (Q : mo = stored_as rq (fst x)) by (unfold stored_as; now rewrite Hl). subst mo. destruct (build_inv pc ms h E) as (IV & _).
      apply In_dget in I; [|exact (hi_keys h IV l (nth_error_In _ _ El))]. apply (number_at pc ms h E _ _ l (nth_error_In _ _ El)) in I.
      split; [exact Io|]. split; [|exact I]. destruct (rows _ Io) as (od & ps & _ & L1 & L2 & _). apply lt_nth in I. lia.
    Qed.

    Variables (ind sh : dict string (list Q)) (sh' : dict string (list Q)).
    Hypothesis HI : individual ci od_effective_bit = Ok ind.
    Hypothesis HSh : Model_Cost.shared ci ind = Ok sh.
    Hypothesis HD : calc_double_buffer_flag ci ind sh = Ok (flags, sh').

    Lemma no_array op : time_double op 0 = false.
    Proof.
      clear T. assert (G : forall op' l, dget op' flags = Some l -> nth 0 l false = false).
      { unfold calc_double_buffer_flag in HD. refine (rfold_inv (fun a : dict string (list bool) * dict string (list Q) => forall op' l, dget op' (fst a) = Some l -> nth 0 l false = false) _ _ _ _ _ HD _); [|intros; discriminate].
        intros a b a' _ Hb Ha op' l. apply rbind_Ok in Hb. destruct Hb as ((fl & d) & Hb & Q). injection Q as <-. cbn [fst].
        unfold double_buffer_op in Hb. apply rbind_Ok in Hb. destruct Hb as (mo & _ & Hb). apply rbind_Ok in Hb. destruct Hb as (n & _ & Hb).
        assert (F0 : nth 0 fl false = false /\ fl <> []).
        { refine (rfold_inv (fun a : list bool * dict string (list Q) => nth 0 (fst a) false = false /\ fst a <> []) _ _ _ _ _ Hb _); [|split; [reflexivity|discriminate]].
          intros c lv c' _ Hc (N0 & Ne). apply rbind_Ok in Hc. destruct Hc as (y & _ & Q). injection Q as <-. cbn [fst]. destruct (fst c) as [|b0 r]; [easy|]. split; [exact N0|discriminate]. }
        destruct (eqb_spec op' b) as [->|Nb]; [rewrite dget_dset_eq; intros Q; injection Q as <-; exact (proj1 F0)|rewrite dget_dset_neq by assumption; apply Ha]. }
      unfold time_double. destruct (dget op flags) as [l|] eqn:D; [exact (G op l D)|reflexivity].
    Qed.

    Lemma buffers_right : right_buffers rq ms time_loops time_double.
    Proof.
      assert (SO := sharing). assert (NO := so_ops ci SO). exists time_live. split; [intros op lv Io Lt; now apply live_tile|]. split; [intros; apply no_array|].
      intros i m Em. destruct (build_inv pc ms h E) as (IV & DF). destruct (F2_nth_r _ _ _ DF i m Em) as (l & El & Dm). set (ops := members ci (lv_dict l)).
      assert (NG : NoDup (lv_dict l)) by (apply (NoDup_map_inv fst); exact (hi_keys h IV l (nth_error_In _ _ El))).
      assert (S1 : (0 < ms_size m)%Z) by (apply (sh_sizes rq pc ms SH); now apply nth_error_In in Em).
      assert (MS : forall x, In x ops -> In (fst x) (in_ops ci) /\ memory_size ci x (ms_size m)).
      { intros x Ix. destruct (resident_level i l x El Ix) as (Io & _ & Eh). split; [now rewrite ops_same|]. exists (map lv_mem (holders h (stored_as rq (fst x)))), (lv_mem l).
        split; [exists (stored_as rq (fst x)); rewrite links_same; split; [now apply op_linked|exact (held rq V ci st mac counts P _ _ (op_linked _ Io))]|]. split; [rewrite nth_error_map, Eh; reflexivity|exact (proj1 (proj2 Dm))]. }
      assert (TB : forall l', incl l' ops -> Forall2 (Spec_Latency.tile_bits ci od_effective_bit) l' (map (fun x : string * nat => time_live (fst x) (snd x)) l')).
      { intros l' I. induction l' as [|[op lv] l' IH]; cbn [map]; constructor; [|apply IH; intros y Hy; apply I; now right]. destruct (resident_level i l (op, lv) El (I _ (or_introl eq_refl))) as (Io & Lt & _). now apply live_tile. }
      exists ops. split; [now apply members_NoDup|]. split; [intros x; now apply members_resident|]. cbv zeta. cbn [fst snd].
      assert (PB : forall x b, Spec_Latency.tile_bits ci od_effective_bit x b -> (0 <= b)%Z).
      { intros [op lv] b (od & ps & D & L & Eb). cbn [fst snd] in *. assert (Io : In op (rq_ops rq)).
        { destruct (pa_timed _ _ _ _ _ P) as (cabl & total & ord & counts' & TI & MP & _). destruct (row_linked rq V total ord (in_map ci) op _ MP (or_intror D)) as (_ & mo & Hl). now apply (linked rq V op mo) in Hl. }
        destruct (live_row op Io) as (od' & ps' & D' & L' & R). rewrite D in D'. injection D' as <- <-. destruct (R lv L) as (b' & Eb' & Pb & _). rewrite Eb in Eb'. now injection Eb' as <-. }
      assert (PM : forall x s, memory_size ci x s -> (0 <= s)%Z).
      { intros [op lv] s (msl & ml & (mo & Hl & Hh) & Eml & <-). cbn [fst snd] in *. rewrite (proj2 (pa_hier _ _ _ _ _ P) _ _ (dget_In _ _ _ Hh)) in Eml. rewrite nth_error_map in Eml. destruct (nth_error _ lv) as [l0|] eqn:E0; [|discriminate]. cbn [option_map] in Eml. injection Eml as <-.
        fold h in E0. destruct (numbered pc ms h E mo lv l0 E0) as (_ & _ & j & Ej). destruct (described_at pc ms h E j l0 Ej) as (d & Ed & Dd). rewrite (proj1 (proj2 Dd)). apply Z.lt_le_incl, (sh_sizes rq pc ms SH). now apply nth_error_In in Ed. }
      assert (GB := group_bits ci od_effective_bit ind (ms_size m) ops _ NO HI MS (TB ops (incl_refl _))).
      destruct (Nat.lt_ge_cases 1 (length (lv_dict l))) as [Lg|Lg].
      - assert (IG : In (lv_dict l) (in_sharing ci)) by (apply (pa_sharing _ _ _ _ _ P); exists l; split; [now apply nth_error_In in El|now split]). split.
        + intros Ne. apply (buffer_bits ci od_effective_bit ind sh flags sh' (lv_dict l) (ms_size m) _ _ SO HI HSh HD IG PB PM MS).
          * apply TB. apply incl_refl.
          * apply (TB (filter (granted flags) ops)). intros x Hx. now apply filter_In in Hx.
          * intros Q. apply map_eq_nil in Q. exact (Ne Q).
        + intros Le. destruct (buffer_group ci ind sh flags sh' (lv_dict l) SO (util_nonneg' _ _ _ NO HI PB PM) IG HSh HD) as (_ & B).
          assert (Half : (qsum (map (util ind) ops) <= 1 # 2)%Q).
          { assert (Q0 : (0 < inject_Z (ms_size m))%Q) by (change 0%Q with (inject_Z 0); now rewrite <- Zlt_Qlt). apply (Qmult_le_r _ _ _ Q0). rewrite GB. apply (Qmult_le_r _ _ 2); [reflexivity|].
            setoid_replace ((1 # 2) * inject_Z (ms_size m) * 2)%Q with (inject_Z (ms_size m)) by field. change 2%Q with (inject_Z 2). rewrite <- inject_Z_mult, <- Zle_Qle. lia. }
          assert (All : forall x, In x ops -> granted flags x = true).
          { intros [op lv] Ix. destruct (resident_level i l (op, lv) El Ix) as (Io & Lt & _). cbn [fst snd] in *. apply (B Half op lv (length (time_loops op)) Ix); [now rewrite ops_same|exact (proj2 (levels_same op Io))|exact Lt]. }
          change (fun x : string * nat => time_double (fst x) (S (snd x))) with (granted flags). clearbody ops. clear -All. induction ops as [|x r IH]; [reflexivity|]. cbn [filter]. rewrite (All x (or_introl eq_refl)). f_equal. apply IH. intros y Hy. apply All. now right.
      - assert (One : ops = [] \/ exists x, ops = [x]).
        { assert (NM : NoDup ops) by (now apply members_NoDup). assert (Same : forall x y, In x ops -> In y ops -> x = y).
          { intros [op lv] [op' lv'] Ix Iy. apply (members_In ci _ _ SO) in Ix, Iy. destruct Ix as (mo & Ix & Hx), Iy as (mo' & Iy & Hy). cbn [fst snd] in *.
            destruct (lv_dict l) as [|e [|? ?]]; [easy| |cbn in Lg; lia]. destruct Ix as [->|[]], Iy as [Q|[]]. injection Q as -> ->. f_equal.
            apply (link_back ci C) in Hx, Hy. congruence. }
          destruct ops as [|x [|y r]]; [now left|right; now exists x|]. exfalso. assert (Q := Same x y (or_introl eq_refl) (or_intror (or_introl eq_refl))). subst y. inversion NM as [|? ? Nx _]. apply Nx. now left. }
        destruct One as [Q|([op lv] & Q)].
        + rewrite Q. cbn [filter]. split; [intros Ne; now contradiction Ne|reflexivity].
        + assert (Ix : In (op, lv) ops) by (rewrite Q; now left). destruct (resident_level i l (op, lv) El Ix) as (Io & Lt & Eh). cbn [fst snd] in *.
          assert (A : granted flags (op, lv) = true <-> (util ind (op, lv) <= 1 # 2)%Q).
          { apply (buffer_alone ci ind sh flags sh' op lv (length (time_loops op)) SO HSh HD); [|now rewrite ops_same|exact (proj2 (levels_same op Io))|exact Lt].
            intros g Ig Im. apply (pa_sharing _ _ _ _ _ P) in Ig. destruct Ig as (l' & Il' & -> & Lg'). fold h in Il'. apply In_nth_error in Il'. destruct Il' as (i' & El').
            destruct (resident_level i' l' (op, lv) El' Im) as (_ & _ & Eh'). cbn [fst snd] in Eh'. rewrite Eh in Eh'. injection Eh' as <-. lia. }
          destruct (live_tile op lv Io Lt) as (Tl & Pl & _). destruct (utilization_bits ci od_effective_bit ind op lv _ _ NO HI (proj1 (MS _ Ix)) Tl (proj2 (MS _ Ix))) as (_ & Ub).
          assert (A' : granted flags (op, lv) = true <-> (2 * time_live op lv <= ms_size m)%Z).
          { rewrite A. assert (Q0 : (0 < inject_Z (ms_size m))%Q) by (change 0%Q with (inject_Z 0); now rewrite <- Zlt_Qlt). rewrite <- (Qmult_le_r _ _ _ Q0), Ub, <- (Qmult_le_r _ _ 2) by reflexivity.
            setoid_replace ((1 # 2) * inject_Z (ms_size m) * 2)%Q with (inject_Z (ms_size m)) by field. change 2%Q with (inject_Z 2). rewrite <- inject_Z_mult, <- Zle_Qle. lia. }
          change (fun x : string * nat => time_double (fst x) (S (snd x))) with (granted flags). rewrite Q. cbn [filter]. destruct (granted flags (op, lv)); cbn [map fst snd]; rewrite ?zsum_cons.
          * change (zsum []) with 0%Z. split; [intros _; assert (X := proj1 A' eq_refl); lia|reflexivity].
          * split; [intros Ne; now contradiction Ne|]. change (zsum []) with 0%Z. intros Le. assert (X : false = true) by (apply A'; lia). discriminate X.
    Qed.
  End Prepared.
  Lemma times_of ci la : prepare rq fuel = Ok ci -> calc_latency ci = Ok la ->
    exists st mac counts ind sh flags sh' allowed real lst, parts rq ci st mac counts /\ complete_inputs ci /\
      individual ci od_effective_bit = Ok ind /\ Model_Cost.shared ci ind = Ok sh /\ calc_double_buffer_flag ci ind sh = Ok (flags, sh') /\
      transfer_cycles ci flags = Ok (allowed, real) /\ stall_slack_comb ci allowed real = Ok (la_stall la) /\ loading_all ci real (la_stall la) = Ok lst /\
      (0 <= la_stall la)%Z /\
      timing rq ms z (time_loops st) (time_transfer ci st) (time_first ci) (time_double flags) la /\ right_buffers rq ms (time_loops st) (time_double flags).
  Proof.
    intros Ep L. destruct (parts_of rq fuel pc ms V SH HF ci Ep) as (st & mac & counts & P). rename la into la'.
    destruct (Proof_EvalPrepare.prepared rq fuel pc ms V SH HF) as (ci' & Ep' & C & ST). rewrite Ep in Ep'. injection Ep' as <-.
    destruct (latency_inv ci la' L) as (ind & sh & flags & sh' & allowed & real & lst & HI & HSh & HD & T & Sl & LD & ON & OFF & OV).
    assert (BR := buffers_right ci st mac counts flags P C ind sh sh' HI HSh HD).
    assert (SR := stall_right ci st mac counts flags P C allowed real T _ Sl). assert (S0 : (0 <= la_stall la')%Z) by (now destruct SR).
    destruct (pa_rest _ _ _ _ _ P) as (Ri & Ro & _ & Rc). assert (Io : In (rq_out rq) (rq_ops rq)) by (apply (proj1 (sl_operands rq SL _)); now left). assert (Ii : forall op, In op (rq_inputs rq) -> In op (rq_ops rq)) by (intros op I; apply (proj1 (sl_operands rq SL _)); now right).
    assert (RL : right_loading (load_at ci st (la_stall la')) lst).
    { eapply loading_right; [|intros m pt; apply (ports_right ci st mac counts flags P C allowed real T)|exact LD]. rewrite (cpo_whole ci st mac counts P). assert (Z0' := z_pos). assert (CT := co_total ci C). nia. }
    destruct (onloading_right ci _ (la_stall la') lst _ RL ON) as (xn & Ex & Px & Ax & opx & nx & Ix & Nx & Vx).
    { now rewrite Ri. }
    { rewrite Ri. apply (few_inputs (rq_inputs rq) (stored_as rq) ND).
      - intros a b Ia Ib Q. assert (Ha := op_linked a (Ii a Ia)). assert (Hb := op_linked b (Ii b Ib)). rewrite <- (links_same ci st mac counts P) in Ha, Hb. apply (link_back ci C) in Ha, Hb. congruence.
      - intros a Ia. destruct (proj2 (sl_inputs rq SL) a Ia) as (m & Hm & Q). unfold stored_as. now rewrite Hm. }
    { rewrite Ri. intros op n I _. unfold over_levels. assert (Nn := fun lv k => load_nonneg ci st mac counts P ST (la_stall la') op lv k (Ii op I)). fold (load_at ci st (la_stall la') op) in Nn.
      generalize (seq 0 (n - 1)). intros ls. induction ls as [|lv ls IH]; [discriminate|]. cbn [map]. rewrite zsum_cons. assert (Q := Nn lv WrHigh). unfold load_at in *. lia. }
    assert (OL := fun n => offloading_right ci _ lst _ n RL OFF). rewrite Ro in OL. specialize (OL _ (proj1 (levels_same ci st mac counts P C (rq_out rq) Io))).
    exists st, mac, counts, ind, sh, flags, sh', allowed, real, lst. do 9 (split; [assumption|]). split; [|exact BR].
    constructor.
    - intros op I. now destruct (rows ci st mac counts P C op I) as (od & ps & _ & _ & _ & _ & G & _).
    - intros op lv k (I & Lt & Mv). destruct (rows ci st mac counts P C op I) as (od & ps & _ & L1 & _ & _ & _ & _ & _ & R). destruct (nth_lt ps lv) as (p & Ep'); [lia|]. destruct (R lv p k Ep') as [(_ & N0)|(_ & G & _)]; [contradiction|exact G].
    - intros op I. now destruct (rows ci st mac counts P C op I) as (od & ps & _ & _ & _ & _ & _ & G & _).
    - exact SR.
    - exists xn. split; [exact Ex|]. split; [exact Px|]. split.
      + intros op I. rewrite Ri in Ax. exact (Ax op _ I (proj1 (levels_same ci st mac counts P C op (Ii op I)))).
      + right. rewrite Ri in Ix. exists opx. split; [exact Ix|]. rewrite (proj1 (levels_same ci st mac counts P C opx (Ii opx Ix))) in Nx. injection Nx as <-. exact Vx.
    - exact OL.
    - intros op I. destruct (latency_totals ci la' L) as (_ & _ & _ & Te & _). rewrite Te, Rc, HZ, (total_loops ci st mac counts P op I), inject_Z_mult. reflexivity.
    - destruct (latency_totals ci la' L) as (_ & _ & _ & _ & _ & T0 & T1 & T2 & _). rewrite T2, T1, T0. ring.
  Qed.

  Theorem times_right e la : evaluation rq fuel = Ok (e, la) ->
    exists tm tr first double, timing rq ms z tm tr first double la /\ right_buffers rq ms tm double.
  Proof.
    unfold evaluation. intros Q. apply rbind_Ok in Q. destruct Q as (ci & Ep & Q).
    unfold evaluate in Q. do 4 (apply rbind_Ok in Q; destruct Q as (? & _ & Q)). apply rbind_Ok in Q. destruct Q as (la' & L & Q). injection Q as _ <-.
    destruct (times_of ci la' Ep L) as (st & mac & counts & ind & sh & flags & sh' & allowed & real & lst & _ & _ & _ & _ & _ & _ & _ & _ & _ & H).
    exists (time_loops st), (time_transfer ci st), (time_first ci), (time_double flags). exact H.
  Qed.
End Times.
