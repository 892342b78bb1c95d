(** A valid request provides complete inputs to the evaluation (C74). *)
From Coq Require Import QArith Lia.
From Verif Require Import Base Model_Alloc Model_Temporal Model_Decouple Model_SpatialInt Model_DataMove Model_Mapping Model_Links Model_Cost Model_Latency Model_Hierarchy Model_Evaluate
  Spec_Alloc Spec_Decouple Spec_SpatialInt Spec_Temporal Spec_Mapping Spec_Cost Spec_Latency Spec_Hierarchy Spec_Evaluate
  Proof_AllocSearch Proof_Bandwidth Proof_Links Proof_Hierarchy Proof_Ports Proof_EvalTotal Proof_EvalMapping Proof_EvalBuild Proof_EvalHardware.
Local Open Scope list_scope.

Section Prepare.
  Variables (rq : request) (fuel pc : nat) (ms : list memspec).
  Hypothesis V : valid_request rq.
  Hypothesis SH : sound_hardware rq pc ms.
  Hypothesis HF : (passes_bound (rq_temporal rq) <= fuel)%nat.
  Let SL := vr_layer rq V.
  Let TF := vr_temporal rq V.
  Let h := rq_hierarchy rq.
  Let E : build pc ms = Ok h := sh_built rq pc ms SH.
  Let N : names_once ms := proj1 (sh_once rq pc ms SH).
  Let G : heights_grow h := sh_order rq pc ms SH.

  (** An operand with its memories and unit memories *)
  Lemma linked op mem_op : dget op (lk_data (rq_links rq)) = Some mem_op ->
    In op (rq_ops rq) /\ (op = rq_out rq \/ In op (rq_inputs rq)) /\ exists tm, dget op (rq_temporal rq) = Some tm /\ length tm = length (holders h mem_op) /\ tm <> [] /\
      forall sp, spatial_fits rq sp -> exists su, dget op sp = Some su /\ length su = S (length tm).
  Proof.
    intros Hl. assert (I : In op (rq_ops rq)) by (apply (proj2 (sl_operands rq SL op)); now apply dget_Some_key in Hl). split; [exact I|]. split; [now apply (proj1 (sl_operands rq SL op))|].
    destruct (in_ops_dget rq TF op I) as (tm & Et). exists tm. split; [exact Et|]. split; [exact (tf_levels rq TF op mem_op tm Hl Et)|].
    assert (F : forall sp, spatial_fits rq sp -> exists su, dget op sp = Some su /\ length su = S (length tm) /\ tm <> []).
    { intros sp SF. destruct (sf_fits rq sp SF op tm Et) as (su & Esu & oi & Es & Eo & Go). destruct (go_levels _ _ _ _ _ _ Go) as (G1 & G2). rewrite Es, Eo in *. eauto. }
    split; [destruct (F _ (vr_spatial rq V)) as (su & _ & _ & Q); exact Q|]. intros sp SF. destruct (F sp SF) as (su & Q1 & Q2 & _). eauto.
  Qed.

  (** The memory of an operand at a level, and whether there is one above *)
  Lemma memory_at op mem_op lv l : dget op (lk_data (rq_links rq)) = Some mem_op -> nth_error (holders h mem_op) lv = Some l ->
    exists i m, nth_error ms i = Some m /\ nth_error (h_list h) i = Some l /\ described m l /\ stores mem_op l /\ In mem_op (ms_operands m) /\ dget mem_op (lv_dict l) = Some lv /\
      ((S lv < length (holders h mem_op))%nat -> exists j m', (i < j)%nat /\ nth_error ms j = Some m' /\ In mem_op (ms_operands m')).
  Proof.
    intros Hl El. destruct (numbered pc ms h E mem_op lv l El) as (D & S0 & _). destruct (Nat.lt_ge_cases (S lv) (length (holders h mem_op))) as [Lt|Lt].
    - destruct (nth_error (holders h mem_op) (S lv)) as [l'|] eqn:El'; [|apply nth_error_None in El'; lia].
      destruct (filter_order _ _ lv (S lv) l l' (Nat.lt_succ_diag_r lv) El El') as (i & j & Lij & Ei & Ej). destruct (described_at pc ms h E i l Ei) as (m & Em & Dm). destruct (described_at pc ms h E j l' Ej) as (m' & Em' & Dm').
      destruct (numbered pc ms h E mem_op (S lv) l' El') as (_ & S1 & _). exists i, m. repeat (split; [assumption|]). split; [unfold stores in S0; now rewrite <- (proj1 Dm)|]. split; [exact D|]. intros _. exists j, m'.
      split; [exact Lij|]. split; [exact Em'|]. unfold stores in S1. now rewrite <- (proj1 Dm').
    - destruct (numbered pc ms h E mem_op lv l El) as (_ & _ & i & Ei). destruct (described_at pc ms h E i l Ei) as (m & Em & Dm). exists i, m. repeat (split; [assumption|]).
      split; [unfold stores in S0; now rewrite <- (proj1 Dm)|]. split; [exact D|]. lia.
  Qed.

  (** A needed movement has a port. *)
  Lemma port_at op mem_op lv l k : dget op (lk_data (rq_links rq)) = Some mem_op -> nth_error (holders h mem_op) lv = Some l ->
    needed rq op (S lv < length (holders h mem_op))%nat k ->
    exists i m p, nth_error ms i = Some m /\ nth_error (h_list h) i = Some l /\ moved_by m mem_op k p /\ stores mem_op l /\ dget mem_op (lv_dict l) = Some lv.
  Proof.
    intros Hl El Hn. destruct (memory_at op mem_op lv l Hl El) as (i & m & Em & Ei & Dm & S0 & Io & D & Ab).
    destruct (sh_moved rq pc ms SH i m op mem_op k Em Io Hl) as (p & M); [|now exists i, m, p]. unfold needed in *. intuition.
  Qed.

  Lemma served_at op mem_op lv l k : dget op (lk_data (rq_links rq)) = Some mem_op -> nth_error (holders h mem_op) lv = Some l ->
    needed rq op (S lv < length (holders h mem_op))%nat k -> exists m pt, In m (map lv_mem (h_list h)) /\ In pt (ml_ports m) /\ In (mem_op, lv, k) (pt_served pt).
  Proof.
    intros Hl El Hn. destruct (port_at op mem_op lv l k Hl El Hn) as (i & m & p & Em & Ei & M & _ & D). destruct (level_ports pc ms h i m l N E Em Ei) as (_ & A2 & _ & _).
    destruct (A2 mem_op lv k p D M) as (pt & Ip & _ & Is). exists (lv_mem l), pt. split; [apply List.in_map; now apply nth_error_In in Ei|]. now split.
  Qed.

  Lemma widths_at op mem_op lv l k : dget op (lk_data (rq_links rq)) = Some mem_op -> nth_error (holders h mem_op) lv = Some l ->
    (width (ml_bw_max (lv_mem l)) mem_op k None /\ width (ml_bw_min (lv_mem l)) mem_op k None /\ ~ needed rq op (S lv < length (holders h mem_op))%nat k) \/
    (exists mx mn, width (ml_bw_max (lv_mem l)) mem_op k (Some mx) /\ width (ml_bw_min (lv_mem l)) mem_op k (Some mn) /\ (0 < mx)%Z /\ (0 < mn)%Z).
  Proof.
    intros Hl El. destruct (memory_at op mem_op lv l Hl El) as (i & m & Em & Ei & Dm & S0 & Io & D & Ab).
    destruct (level_widths pc ms h E N i m l mem_op k Em Ei S0) as [(p & M & Ip & W1 & W2)|(M & W1 & W2)].
    - right. exists (ps_bw_max p), (ps_bw_min p). destruct (sh_widths rq pc ms SH m p (nth_error_In _ _ Em) Ip). repeat (split; [assumption|]). assumption.
    - left. split; [exact W1|]. split; [exact W2|]. intros Hn. destruct (port_at op mem_op lv l k Hl El Hn) as (i' & m' & p & Em' & Ei' & M' & _).
      assert (i' = i). { destruct (build_inv pc ms h E) as (IV & _). now rewrite <- (hi_ids h IV i l Ei), <- (hi_ids h IV i' l Ei'). } subst i'. rewrite Em in Em'. injection Em' as <-. now apply (M p).
  Qed.

  Lemma read_ok hd op tm lv : (forall o, holders h o <> [] -> dget o hd = Some (map lv_mem (holders h o))) -> In op (rq_inputs rq) -> dget op (rq_temporal rq) = Some tm -> (lv < length tm)%nat ->
    exists b, read_bandwidth rq hd op lv = Ok b.
  Proof.
    intros Hd I Et Lt. destruct (proj2 (sl_inputs rq SL) op I) as (mem_op & Hl & _). destruct (linked op mem_op Hl) as (_ & _ & tm' & Et' & Ll & Ne & _). rewrite Et in Et'. injection Et' as <-.
    unfold read_bandwidth, layer_to_mem_op, dgetr. rewrite Hl. cbn [of_option rbind]. rewrite Hd by (intros Q; rewrite Q in Ll; cbn in Ll; lia). cbn [of_option rbind].
    destruct (nth_error (holders h mem_op) lv) as [l|] eqn:El; [|apply nth_error_None in El; lia].
    unfold at_. rewrite nth_error_map, El. cbn [option_map of_option rbind]. destruct (widths_at op mem_op lv l RdLow Hl El) as [(_ & _ & Q)|(mx & mn & (f & Ef & Ek) & _)].
    - exfalso. apply Q. left. split; [exact I|now left].
    - unfold bandwidth, dgetr. rewrite Ef. cbn [of_option rbind]. rewrite Ek. cbn [of_option rbind]. eauto.
  Qed.

  (** A table of unit memories *)
  Lemma unit_of total ord res op mem_op od ps : mapped rq total ord res -> dget op (lk_data (rq_links rq)) = Some mem_op -> dget op res = Some (od, ps) ->
    length ps = length (holders h mem_op) /\ ps <> [] /\ exists oi, unit_facts (rq_inputs rq) (rq_out rq) (rq_free rq) op oi od ps /\
      forall c, In c (cycle_each_level (rq_inputs rq) (rq_free rq) op oi) -> prefix_product ord c.
  Proof.
    intros M Hl Er. destruct (linked op mem_op Hl) as (_ & _ & tm & Et & Ll & Ne & _). destruct (mp_op _ _ _ _ M op tm Et) as (od' & ps' & oi & Er' & U & Lp & Pc). rewrite Er in Er'. injection Er' as <- <-.
    split; [congruence|]. split; [|eauto]. intros Q. rewrite Q in Lp. destruct tm; [easy|discriminate].
  Qed.
  Lemma row_linked total ord res op x : mapped rq total ord res -> In (op, x) res \/ dget op res = Some x -> dget op res = Some x /\ exists mem_op, dget op (lk_data (rq_links rq)) = Some mem_op.
  Proof.
    intros M I. assert (D : dget op res = Some x). { destruct I as [I|I]; [|exact I]. apply In_dget; [|exact I]. rewrite (mp_keys _ _ _ _ M). exact (proj1 (sl_once rq SL)). }
    split; [exact D|]. apply key_dget. apply (proj2 (sl_operands rq SL op)). rewrite <- (mp_keys _ _ _ _ M). now apply dget_Some_key in D.
  Qed.

  Theorem prepared : exists ci, prepare rq fuel = Ok ci /\ complete_inputs ci /\ sound_timing ci.
  Proof.
    destruct (temporal_built rq fuel SL TF HF _ (vr_spatial rq V)) as (st & mac & cabl & total & ord & Et & TI).
    destruct (spatial_built rq SL TF _ (vr_spatial rq V)) as (counts & Ec & CT). destruct (spatial_built rq SL TF _ (vr_spatial_int rq V)) as (counts' & Ec' & CT').
    destruct (accelerator_ok pc ms h E G) as (hd & sharing & Ea & Hd & Hall & Hsh).
    assert (RB := fun op tm lv => read_ok hd op tm lv Hd).
    destruct (mapping_built rq SL TF hd _ counts st mac cabl total ord (vr_spatial rq V) CT TI RB) as (res & Er & MP & _).
    destruct (mapping_built rq SL TF hd _ counts' st mac cabl total ord (vr_spatial_int rq V) CT' TI RB) as (res' & Er' & MP' & _).
    unfold prepare. fold h. rewrite Et. cbn [rbind]. rewrite Ec. cbn [rbind]. rewrite Ec'. cbn [rbind]. rewrite Ea. cbn [rbind]. rewrite Er. cbn [rbind]. rewrite Er'. cbn [rbind snd].
    eexists. split; [reflexivity|].
    assert (Hier : forall op mem_op, dget op (lk_data (rq_links rq)) = Some mem_op -> dget mem_op hd = Some (map lv_mem (holders h mem_op))).
    { intros op mem_op Hl. apply Hd. intros Q. destruct (linked op mem_op Hl) as (_ & _ & tm & _ & Ll & Ne & _). rewrite Q in Ll. destruct tm; [easy|discriminate]. }
    assert (Pn : exists pts, pts = map lv_mem (h_list h)) by eauto.
    assert (Ports : forall m pt, In m (map lv_mem (h_list h)) -> In pt (ml_ports m) -> (0 < pt_bw_max pt)%Z /\
      forall mem_op lv k, In (mem_op, lv, k) (pt_served pt) -> exists l, nth_error (holders h mem_op) lv = Some l).
    { intros m pt I Ip. apply in_map_iff in I. destruct I as (l & <- & I). assert (I' := I). apply In_nth_error in I'. destruct I' as (i & Ei). destruct (described_at pc ms h E i l Ei) as (d & Em & Dm).
      destruct (level_ports pc ms h i d l N E Em Ei) as (A1 & _). destruct (A1 pt Ip) as (p & Hp & _ & Ew & _ & _ & Sv). split.
      - rewrite Ew. now apply (sh_widths rq pc ms SH d p (nth_error_In _ _ Em)).
      - intros mem_op lv k Is. apply Sv in Is. destruct Is as (D & _). exists l. exact (number_at pc ms h E mem_op lv l I D). }
    assert (Used : forall mem_op lv l, nth_error (holders h mem_op) lv = Some l -> exists op, dget op (lk_data (rq_links rq)) = Some mem_op).
    { intros mem_op lv l El. destruct (numbered pc ms h E mem_op lv l El) as (_ & S0 & i & Ei). destruct (described_at pc ms h E i l Ei) as (d & Em & Dm).
      apply (sh_used rq pc ms SH d mem_op (nth_error_In _ _ Em)). unfold stores in S0. now rewrite <- (proj1 Dm). }
    assert (Row : forall op mem_op (r : dict string (opdata * list pattern)), mapped rq total ord r -> dget op (lk_data (rq_links rq)) = Some mem_op -> exists od ps, dget op r = Some (od, ps)).
    { intros op mem_op r M Hl. destruct (linked op mem_op Hl) as (_ & _ & tm & Etm & _). destruct (mp_op _ _ _ _ M op tm Etm) as (od & ps & _ & Q & _). eauto. }
    split.
    { constructor; cbn [in_links in_ops in_inputs in_out in_map in_map_int in_sharing in_levels in_total in_units in_cpo in_hier in_unit_count].
      - exact (sl_links rq SL).
      - exact (sl_operands rq SL).
      - exact (proj1 (sl_once rq SL)).
      - exact (sl_inputs rq SL).
      - exact (sl_output rq SL).
      - intros op mem_op Hl. destruct (linked op mem_op Hl) as (Io & Ik & tm & Etm & Ll & Ne & Su). assert (Hm := Hier op mem_op Hl).
        destruct (Row op mem_op res MP Hl) as (od & ps & Eps). destruct (Row op mem_op res' MP' Hl) as (od' & ps' & Eps').
        destruct (unit_of _ _ _ _ _ _ _ MP Hl Eps) as (Lp & Np & oi & U & _). destruct (unit_of _ _ _ _ _ _ _ MP' Hl Eps') as (Lp' & Np' & oi' & U' & _).
        constructor; cbn [in_links in_ops in_inputs in_out in_map in_map_int in_sharing in_levels in_total in_units in_cpo in_hier in_unit_count].
        + destruct (CT op Io) as (su & Esu & c & Ecs & su' & r & _ & _ & Rc). destruct (Su _ (vr_spatial rq V)) as (su0 & Esu0 & Lsu). rewrite Esu in Esu0. injection Esu0 as <-.
          exists (map lv_mem (holders h mem_op)), od, ps, od', ps', (unit_count c). split; [exact Hm|]. split; [exact Eps|]. split; [exact Eps'|]. split; [now rewrite dget_mapped, Ecs|].
          split; [exact Np|]. rewrite map_length. split; [now symmetry|]. split; [congruence|]. split; [rewrite (proj1 (rc_levels _ _ _ _ _ Rc)); lia|].
          split; [rewrite (proj1 (uf_bits _ _ _ _ _ _ _ U)); lia|]. split; [exact (proj2 (uf_bits _ _ _ _ _ _ _ U))|]. rewrite (proj1 (uf_bits _ _ _ _ _ _ _ U')). lia.
        + intros mm m Em Im. rewrite Hm in Em. injection Em as <-. apply in_map_iff in Im. destruct Im as (l & <- & Il). apply In_nth_error in Il. destruct Il as (lv & El).
          destruct (memory_at op mem_op lv l Hl El) as (i & d & Ed & _ & Dd & _). rewrite (proj1 (proj2 Dd)). apply (sh_sizes rq pc ms SH). now apply nth_error_In in Ed.
        + intros o p q Q Ip a k. destruct Q as [Q|Q]; [rewrite Eps in Q|rewrite Eps' in Q]; injection Q as <- <-.
          * destruct (uf_attr _ _ _ _ _ _ _ U q a k Ip) as (x & Ex & _). eauto.
          * destruct (uf_attr _ _ _ _ _ _ _ U' q a k Ip) as (x & Ex & _). eauto.
        + intros mm o qs lv m q k Em Eq Enm Enq. rewrite Hm in Em. injection Em as <-. rewrite Eps in Eq. injection Eq as <- <-. rewrite nth_error_map in Enm.
          destruct (nth_error (holders h mem_op) lv) as [l|] eqn:El; [|discriminate]. injection Enm as <-. destruct (widths_at op mem_op lv l k Hl El) as [(W1 & W2 & Hn)|W]; [left|now right].
          split; [exact W1|]. split; [exact W2|].
          assert (Lv : (lv < length ps)%nat) by (apply nth_error_Some; congruence).
          assert (Top : (k = RdHigh \/ k = WrHigh) -> ~ (S lv < length (holders h mem_op))%nat -> entry q AmountPerPeriod k = Some 0%Z).
          { intros Hk Nt. apply (uf_top _ _ _ _ _ _ _ U lv q k Enq); [lia|exact Hk]. }
          unfold needed in Hn. destruct Ik as [Ik|Ik].
          * destruct k; first [exfalso; apply Hn; right; split; [exact Ik|tauto]|apply Top; [tauto|]; intros Q; apply Hn; right; split; [exact Ik|tauto]].
          * destruct (uf_in _ _ _ _ _ _ _ U Ik lv q Enq) as (A1 & A2 & _). destruct k; try assumption; [exfalso; apply Hn; left; split; [exact Ik|tauto]|].
            apply Top; [tauto|]. intros Q. apply Hn. left. split; [exact Ik|tauto].
      - intros g op mem_op lv Ig Ix Hl. destruct (proj1 (Hsh g) Ig) as (l & Il & -> & _). destruct (build_inv pc ms h E) as (IV & _). apply In_dget in Ix; [|now apply (hi_keys h IV)].
        assert (El := number_at pc ms h E mem_op lv l Il Ix). destruct (Row op mem_op res MP Hl) as (od & ps & Eps). destruct (unit_of _ _ _ _ _ _ _ MP Hl Eps) as (Lp & _). exists od, ps. split; [exact Eps|].
        rewrite Lp. apply nth_error_Some. congruence.
      - intros mem_op lv k (m & pt & Im & Ip & Is). destruct (proj2 (Ports m pt Im Ip) mem_op lv k Is) as (l & El). destruct (Used mem_op lv l El) as (op & Hl).
        destruct (Row op mem_op res' MP' Hl) as (od & ps & Eps). destruct (unit_of _ _ _ _ _ _ _ MP' Hl Eps) as (Lp & _). exists op, od, ps. split; [exact Hl|]. split; [exact Eps|]. rewrite Lp. apply nth_error_Some. congruence.
      - intros m pt Im Ip. exact (proj1 (Ports m pt Im Ip)).
      - intros op mem_op od ps lv p q Ii Hl Eps Ep Eq. destruct (unit_of _ _ _ _ _ _ _ MP' Hl Eps) as (Lp & _ & oi & U & _).
        assert (L1 : (S lv < length ps)%nat) by (apply nth_error_Some; congruence).
        destruct (nth_error (holders h mem_op) lv) as [l|] eqn:El; [|apply nth_error_None in El; lia]. destruct (nth_error (holders h mem_op) (S lv)) as [l'|] eqn:El'; [|apply nth_error_None in El'; lia].
        destruct (uf_in _ _ _ _ _ _ _ U Ii lv p Ep) as (_ & _ & _ & B1). destruct (uf_in _ _ _ _ _ _ _ U Ii (S lv) q Eq) as (_ & _ & B2 & _).
        split; [|split; [exact (B1 L1)|split; [|exact B2]]].
        + apply (served_at op mem_op lv l WrHigh Hl El). left. split; [exact Ii|]. right. split; [reflexivity|lia].
        + apply (served_at op mem_op (S lv) l' RdLow Hl El'). left. split; [exact Ii|]. now left.
      - intros mem_op od ps lv p q Hl Eps Ep Eq. destruct (unit_of _ _ _ _ _ _ _ MP' Hl Eps) as (Lp & _ & oi & U & _).
        assert (L1 : (S lv < length ps)%nat) by (apply nth_error_Some; congruence).
        destruct (nth_error (holders h mem_op) lv) as [l|] eqn:El; [|apply nth_error_None in El; lia]. destruct (nth_error (holders h mem_op) (S lv)) as [l'|] eqn:El'; [|apply nth_error_None in El'; lia].
        destruct (uf_out _ _ _ _ _ _ _ U eq_refl lv p Ep) as (_ & B1). destruct (uf_out _ _ _ _ _ _ _ U eq_refl (S lv) q Eq) as (B2 & _).
        split; [|split; [exact (B1 L1)|split; [|exact B2]]].
        + apply (served_at (rq_out rq) mem_op lv l RdHigh Hl El). right. split; [reflexivity|]. right. right. split; [now left|lia].
        + apply (served_at (rq_out rq) mem_op (S lv) l' WrLow Hl El'). right. split; [reflexivity|]. right. now left.
      - intros op od ps p k t op' od' ps' p' k' t' D Ip Hp Et1 D' Ip' Hp' Et1'.
        destruct (row_linked _ _ _ op (od, ps) MP' (or_intror D)) as (_ & mem_op & Hl). destruct (row_linked _ _ _ op' (od', ps') MP' (or_intror D')) as (_ & mem_op' & Hl').
        destruct (unit_of _ _ _ _ _ _ _ MP' Hl D) as (_ & _ & oi & U & Pc). destruct (unit_of _ _ _ _ _ _ _ MP' Hl' D') as (_ & _ & oi' & U' & Pc').
        destruct (uf_period _ _ _ _ _ _ _ U p k Ip Hp) as (t0 & Q & It). rewrite Et1 in Q. injection Q as <-. destruct (uf_period _ _ _ _ _ _ _ U' p' k' Ip' Hp') as (t0 & Q & It'). rewrite Et1' in Q. injection Q as <-.
        apply Pc in It. apply Pc' in It'. assert (P1 := prefix_pos ord t (ti_sizes _ _ _ _ _ _ TI) It). assert (P2 := prefix_pos ord t' (ti_sizes _ _ _ _ _ _ TI) It'). split; [lia|]. split; [lia|]. exact (prefix_divides ord t t' It It').
      - rewrite (ti_total _ _ _ _ _ _ TI). assert (Q := prefix_pos ord (cycles ord) (ti_sizes _ _ _ _ _ _ TI)). assert (1 <= cycles ord)%Z; [|lia]. apply Q. exists (length ord). now rewrite firstn_all.
      - exact (vr_units rq V).
      - exact (vr_cycles rq V). }
    { constructor; cbn [in_links in_ops in_inputs in_out in_map in_map_int in_sharing in_levels in_total in_units in_cpo in_hier in_unit_count].
      - intros op od ps p I Ip a k x Ex. destruct (row_linked _ _ _ op (od, ps) MP' (or_introl I)) as (D & mem_op & Hl). destruct (unit_of _ _ _ _ _ _ _ MP' Hl D) as (_ & _ & oi & U & _).
        destruct (uf_attr _ _ _ _ _ _ _ U p a k Ip) as (y & Ey & Hy). rewrite Ex in Ey. now injection Ey as <-.
      - intros op od ps b I Ib. destruct (row_linked _ _ _ op (od, ps) MP' (or_introl I)) as (D & mem_op & Hl). destruct (unit_of _ _ _ _ _ _ _ MP' Hl D) as (_ & _ & oi & U & _). exact (uf_nonneg _ _ _ _ _ _ _ U b Ib).
      - intros op mm m mem_op k b I Im W. rewrite (Hall op mm I) in Im. apply in_map_iff in Im. destruct Im as (l & <- & Il). apply filter_In in Il. destruct Il as (Il & _). apply In_nth_error in Il. destruct Il as (i & Ei).
        assert (S0 := width_stored pc ms h E i l mem_op k _ Ei (or_introl W)). destruct (described_at pc ms h E i l Ei) as (d & Ed & Dd).
        destruct (level_widths pc ms h E N i d l mem_op k Ed Ei S0) as [(p & _ & Ip & W1 & _)|(_ & W1 & _)]; destruct W as (f & W2 & W3), W1 as (f' & W4 & W5); rewrite W2 in W4; injection W4 as <-; rewrite W3 in W5; [|discriminate].
        injection W5 as ->. destruct (sh_widths rq pc ms SH d p (nth_error_In _ _ Ed) Ip). lia.
      - intros m pt Im Ip. exact (proj1 (Ports m pt Im Ip)). }
  Qed.
End Prepare.
