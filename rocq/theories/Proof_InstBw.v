(** C79: the bandwidth reported for a memory. *)
From Coq Require Import QArith Qround Lia Lqa Permutation.
From Verif Require Import Base Model_Alloc Model_Temporal Model_Decouple Model_SpatialInt Model_DataMove Model_Mapping Model_Links Model_Cost Model_Latency Model_Hierarchy Model_Evaluate Model_InstBw
  Spec_Alloc Spec_Decouple Spec_Temporal Spec_DataMove Spec_Mapping Spec_Cost Spec_Latency Spec_Hierarchy Spec_Evaluate Spec_EvalEnergy Spec_EvalTime Spec_InstBw
  Proof_AllocSearch Proof_Bandwidth Proof_Energy Proof_Links Proof_DataMove Proof_Hierarchy Proof_Ports Proof_Mapping Proof_Balance Proof_Loading Proof_Latency Proof_Buffer
  Proof_EvalTotal Proof_EvalMapping Proof_EvalBuild Proof_EvalHardware Proof_EvalPrepare Proof_EvalTiles Proof_EvalEnergy Proof_EvalTimes Proof_EvalTime.
Local Open Scope list_scope.

(** * What loading records *)
Lemma record_bw st pt mo op lv k c st' : record_cycles st pt mo op lv k c = Ok st' -> lo_bw st' = lo_bw st.
Proof.
  unfold record_cycles. intros H. destruct (memb mo _); apply rbind_Ok in H; destruct H as (d & _ & H); injection H as <-; reflexivity.
Qed.

Section Recorded.
  Variables (ci : inputs) (real : dict string (list (four Z))) (stall : Z).
  Let comp : Z := (Qceiling (inject_Z (in_total ci) * in_cpo ci) + stall)%Z.

  (** One port that makes one transfer *)
  Definition books (pt : port) (mo : string) (lv : nat) (k : direction) (b : option Z) : Prop :=
    exists op od ps p n, mem_to_layer_op (in_links ci) mo = Ok op /\ dget op (in_map_int ci) = Some (od, ps) /\ nth_error ps lv = Some p /\ entry p PeriodCount k = Some n /\
      ((n = 1%Z /\ ~ (dget (in_out ci) (lk_data (in_links ci)) = Some mo /\ (k = RdLow \/ k = WrHigh)) /\ exists c bits, cycles_at real op lv k = Ok c /\ nth_error (od_bit_unrolled od) 1 = Some bits /\
          b = Some (Qceiling (inject_Z (c - Z.max (Qceiling (inject_Z bits / inject_Z (pt_bw_max pt))) (c - comp)) / inject_Z comp * inject_Z (pt_bw_max pt)))) \/
       (b = None /\ n <> 1%Z)).
  Definition books_any (pt : port) (mo : string) (lv : nat) (k : direction) (b : option Z) : Prop :=
    books pt mo lv k b \/ (b = None /\ dget (in_out ci) (lk_data (in_links ci)) = Some mo /\ (k = RdLow \/ k = WrHigh)).

  Lemma port_bw pt st st' mo lv k : pt_served pt = [(mo, lv, k)] -> (0 < pt_bw_max pt)%Z -> (0 < comp)%Z -> loading_port ci real stall st pt = Ok st' ->
    exists b, books_any pt mo lv k b /\
      match b with
      | Some x => exists bs, lo_bw st' = dset (pt_id pt) (dset mo x bs) (lo_bw st)
      | None => lo_bw st' = lo_bw st
      end.
  Proof.
    intros Es PB CP H. unfold loading_port in H. apply rbind_Ok in H. destruct H as (om & Eo & H). unfold layer_to_mem_op in Eo. apply dgetr_Ok in Eo.
    apply rbind_Ok in H. destruct H as (cls & Ec & H). cbn zeta in H. apply rbind_Ok in H. destruct H as (bws & Ebw & H). apply rbind_Ok in H. destruct H as (st1 & E1 & E2).
    rewrite Es in Ec. cbn [rmap] in Ec. apply rbind_Ok in Ec. destruct Ec as (sc & Ec & Q). cbn [rbind] in Q. injection Q as <-.
    (* nothing to record *)
    assert (Z0 : forall s, sc = (s, 0%Z) -> lo_bw st' = lo_bw st).
    { intros s ->. cbn [filter map snd Z.eqb negb andb] in E1, E2, Ebw. cbn [rmap] in Ebw. injection Ebw as <-. unfold loading_multi in E2. cbn [rfold] in E2. injection E2 as <-.
      unfold loading_single in E1. cbn [rmap rbind map] in E1. apply rbind_Ok in E1. destruct E1 as (sh & _ & E1). apply rbind_Ok in E1. destruct E1 as (rr & _ & E1). cbn [combine rfold rbind] in E1. injection E1 as <-. reflexivity. }
    destruct (eqb mo om && match k with RdLow | WrHigh => true | _ => false end) eqn:B.
    { injection Ec as <-. exists None. split; [|eapply Z0; reflexivity]. right. split; [reflexivity|]. apply andb_true_iff in B. destruct B as (B1 & B2). destruct (eqb_spec mo om) as [->|]; [|discriminate]. split; [exact Eo|]. destruct k; try discriminate; auto. }
    apply rbind_Ok in Ec. destruct Ec as (op & Eop & Ec). apply rbind_Ok in Ec. destruct Ec as (p & Ep & Ec). apply rbind_Ok in Ec. destruct Ec as (n & En & Ec). injection Ec as <-.
    assert (Ep' := Ep). unfold unit_mem in Ep. apply rbind_Ok in Ep. destruct Ep as ([od ps] & Hx & Hp). apply dgetr_Ok in Hx. apply at_Ok in Hp. cbn [snd] in Hp. assert (En' := En). apply attr_of_entry in En.
    assert (NO : ~ (dget (in_out ci) (lk_data (in_links ci)) = Some mo /\ (k = RdLow \/ k = WrHigh))).
    { intros (Q & Hk). rewrite Eo in Q. injection Q as ->. rewrite eqb_refl in B. destruct Hk as [-> | ->]; discriminate. }
    destruct (Z.eqb_spec n 0) as [->|N0].
    { exists None. split; [|eapply Z0; reflexivity]. left. exists op, od, ps, p, 0%Z. repeat (split; [assumption|]). right. split; [reflexivity|discriminate]. }
    destruct (Z.eqb_spec n 1) as [N1|N1].
    - subst n. cbn [filter map snd fst Z.eqb negb andb] in E1, E2, Ebw. change (1 =? 1)%Z with true in *. change (1 =? 0)%Z with false in *. cbn [filter map fst negb andb] in E1, E2, Ebw.
      cbn [rmap] in Ebw. injection Ebw as <-. unfold loading_multi in E2. cbn [rfold] in E2. injection E2 as <-.
      unfold loading_single in E1. cbn [rmap] in E1. apply rbind_Ok in E1. destruct E1 as (cm & Ecm & E1). apply rbind_Ok in Ecm. destruct Ecm as (cm1 & Ecm & Q). cbn [rbind] in Q. injection Q as <-.
      rewrite Eop in Ecm. cbn [rbind] in Ecm. unfold dgetr at 1 in Ecm. rewrite Hx in Ecm. cbn [of_option rbind fst] in Ecm. apply rbind_Ok in Ecm. destruct Ecm as (bits & Hb & Ecm). apply at_Ok in Hb.
      apply rbind_Ok in Ecm. destruct Ecm as (mn & Hmn & Ecm). apply pdiv_val in Hmn. destruct Hmn as (-> & _). apply rbind_Ok in Ecm. destruct Ecm as (c & Hc & Ecm). injection Ecm as <-.
      apply rbind_Ok in E1. destruct E1 as (share & Hs & E1). apply pdiv_val in Hs. destruct Hs as (-> & _). cbn [map fst snd] in E1. fold comp in E1.
      change (zsum []) with 0%Z in E1. rewrite Z.sub_0_r in E1.
      set (sp := qmax 0 (inject_Z (pt_bw_max pt) / inject_Z (pt_bw_max pt) * inject_Z comp)) in E1.
      assert (PB' : ~ (inject_Z (pt_bw_max pt) == 0)%Q) by (change 0%Q with (inject_Z 0); rewrite inject_Z_injective; lia).
      assert (CQ : (0 < inject_Z comp)%Q) by (change 0%Q with (inject_Z 0); now rewrite <- Zlt_Qlt).
      assert (Esp : (sp == inject_Z comp)%Q).
      { assert (Q1 : (inject_Z (pt_bw_max pt) / inject_Z (pt_bw_max pt) * inject_Z comp == inject_Z comp)%Q) by (field; exact PB').
        unfold sp. destruct (qmax_cases 0 (inject_Z (pt_bw_max pt) / inject_Z (pt_bw_max pt) * inject_Z comp)) as [(X & Y)|(X & Y)]; rewrite Y; [exact Q1|]. rewrite Q1 in X. lra. }
      destruct (reduce_one (inject_Z c) (inject_Z (Qceiling (inject_Z bits / inject_Z (pt_bw_max pt)))) sp ltac:(rewrite Esp; exact CQ)) as (r & dd & Er & Ed & Cases).
      rewrite Er in E1. cbn [rbind fst snd combine rfold] in E1. apply rbind_Ok in E1. destruct E1 as (st2 & Es2 & E1). apply rbind_Ok in Es2. destruct Es2 as (st3 & Es3 & Q). injection Q as <-. injection E1 as <-.
      unfold record_single in Es3. cbn [fst] in Es3. rewrite Eop in Es3. cbn [rbind] in Es3. apply rbind_Ok in Es3. destruct Es3 as (st4 & Es4 & Es3). apply rbind_Ok in Es3. destruct Es3 as (sh2 & Hsh & Es3). injection Es3 as <-.
      apply pdiv_val in Hsh. destruct Hsh as (-> & _). apply record_bw in Es4.
      eexists. split; [left; exists op, od, ps, p, 1%Z; do 4 (split; [assumption|]); left; split; [reflexivity|]; split; [exact NO|]; exists c, bits; do 2 (split; [assumption|]); reflexivity|].
      cbn [lo_bw]. rewrite Es4. eexists. do 2 f_equal. apply Qceiling_comp. apply Qmult_comp; [|reflexivity]. apply Qmult_comp; [|reflexivity]. rewrite Ed.
      unfold Z.sub at 1. rewrite inject_Z_plus, inject_Z_opp. apply Qplus_comp; [reflexivity|]. apply Qopp_comp.
      rewrite Esp in Cases. set (M := Qceiling (inject_Z bits / inject_Z (pt_bw_max pt))) in *. destruct Cases as [(X & ->)|(X & ->)].
      + assert (X' : (c <= M + comp)%Z) by (rewrite Zle_Qle, inject_Z_plus; lra). now rewrite Z.max_l by lia.
      + assert (X' : (M + comp < c)%Z) by (rewrite Zlt_Qlt, inject_Z_plus; lra). rewrite Z.max_r by lia.
        unfold Z.sub. rewrite inject_Z_plus, inject_Z_opp. reflexivity.
    - assert (B1 : (n =? 1)%Z = false) by now apply Z.eqb_neq. assert (B0 : (n =? 0)%Z = false) by now apply Z.eqb_neq.
      cbn [filter snd] in E1, E2, Ebw. rewrite B1 in E1. rewrite B0, B1 in E2. cbn [negb andb map fst] in E1, E2.
      assert (R1 : lo_bw st1 = lo_bw st).
      { unfold loading_single in E1. cbn [rmap rbind map] in E1. apply rbind_Ok in E1. destruct E1 as (sh & _ & E1). apply rbind_Ok in E1. destruct E1 as (rr & _ & E1). cbn [combine rfold rbind] in E1. injection E1 as <-. reflexivity. }
      unfold loading_multi in E2. cbn [rfold fst] in E2. apply rbind_Ok in E2. destruct E2 as (st2 & E2 & Q). injection Q as <-. rewrite Eop in E2. cbn [rbind] in E2. rewrite Ep' in E2. cbn [rbind] in E2. rewrite En' in E2. cbn [rbind] in E2. rewrite B0 in E2.
      apply rbind_Ok in E2. destruct E2 as (c & Hc & E2). apply record_bw in E2.
      exists None. split; [left; exists op, od, ps, p, n; do 4 (split; [assumption|]); right; now split|]. now rewrite E2.
  Qed.

  (** All ports, one after another *)
  Lemma ports_bw (pts : list port) : NoDup (map pt_id pts) -> (0 < comp)%Z ->
    (forall pt, In pt pts -> exists mo lv k, pt_served pt = [(mo, lv, k)] /\ (0 < pt_bw_max pt)%Z) ->
    forall st st', rfold (loading_port ci real stall) st pts = Ok st' ->
    (forall i, In i (map pt_id pts) -> dget i (lo_bw st) = None) ->
    (forall pt mo lv k, In pt pts -> pt_served pt = [(mo, lv, k)] -> exists b, books_any pt mo lv k b /\ borrowed_by st' pt mo = match b with Some x => x | None => 0%Z end) /\
    forall i, ~ In i (map pt_id pts) -> dget i (lo_bw st') = dget i (lo_bw st).
  Proof.
    intros Nd CP HS. induction pts as [|p0 pts IH]; intros st st' H F; cbn [rfold] in H.
    { injection H as <-. split; [intros ? ? ? ? []|reflexivity]. }
    apply rbind_Ok in H. destruct H as (st1 & E1 & H). cbn [map] in Nd. inversion Nd as [|? ? N0 Nd']. subst.
    destruct (HS p0 (or_introl eq_refl)) as (mo0 & lv0 & k0 & Es & PB). destruct (port_bw p0 st st1 mo0 lv0 k0 Es PB CP E1) as (b & Hb & Eb).
    assert (Oth : forall i, i <> pt_id p0 -> dget i (lo_bw st1) = dget i (lo_bw st)).
    { intros i Ni. destruct b as [x|]; [destruct Eb as (bs & ->); now apply dget_dset_neq|now rewrite Eb]. }
    destruct (IH Nd' (fun pt I => HS pt (or_intror I)) st1 st' H) as (A & K).
    { intros i I. rewrite Oth by (intros ->; contradiction). apply F. now right. }
    split.
    - intros pt mo lv k [<-|I] Ept; [|now apply (A pt mo lv k)]. rewrite Es in Ept. injection Ept as <- <- <-. exists b. split; [exact Hb|].
      unfold borrowed_by. rewrite K by exact N0. destruct b as [x|].
      + destruct Eb as (bs & ->). now rewrite !dget_dset_eq.
      + rewrite Eb, F by now left. reflexivity.
    - intros i Ni. rewrite K by (intros I; apply Ni; now right). apply Oth. intros ->. apply Ni. now left.
  Qed.

  Lemma rfold_flat {A B C} (f : A -> C -> result A) (g : B -> list C) l : forall a, rfold (fun a b => rfold f a (g b)) a l = rfold f a (flat_map g l).
  Proof.
    induction l as [|b l IH]; intros a; [reflexivity|]. cbn [rfold flat_map]. rewrite rfold_app. destruct (rfold f a (g b)); [cbn [rbind]; apply IH|reflexivity].
  Qed.

  Lemma recorded_bw st : NoDup (map pt_id (flat_map ml_ports (in_levels ci))) -> (0 < comp)%Z ->
    (forall m pt, In m (in_levels ci) -> In pt (ml_ports m) -> exists mo lv k, pt_served pt = [(mo, lv, k)] /\ (0 < pt_bw_max pt)%Z) ->
    loading_all ci real stall = Ok st ->
    forall m pt mo lv k, In m (in_levels ci) -> In pt (ml_ports m) -> pt_served pt = [(mo, lv, k)] ->
      exists b, books_any pt mo lv k b /\ borrowed_by st pt mo = match b with Some x => x | None => 0%Z end.
  Proof.
    intros Nd CP HS E m pt mo lv k Im Ip Es. unfold loading_all in E. rewrite rfold_flat in E.
    refine (proj1 (ports_bw _ Nd CP _ _ _ E _) pt mo lv k _ Es); [|reflexivity|apply in_flat_map; now exists m].
    intros pt' I. apply in_flat_map in I. destruct I as (m' & Im' & Ip'). now apply (HS m').
  Qed.
End Recorded.

(** * Adding up over the ports of a memory *)
Lemma directions_all k : In k directions.
Proof. destruct k; cbn; auto. Qed.
Lemma directions_once : NoDup directions.
Proof. repeat constructor; cbn; intuition discriminate. Qed.

Lemma zsum_perm l l' : Permutation l l' -> zsum l = zsum l'.
Proof. induction 1; rewrite ?zsum_cons in *; lia. Qed.

Lemma over_directions (G : direction -> Z) (l : list direction) : NoDup l -> (forall k, ~ In k l -> G k = 0%Z) -> zsum (map G l) = zsum (map G directions).
Proof.
  intros N H. assert (P : Permutation l (filter (fun k => memb k l) directions)).
  { apply NoDup_Permutation; [exact N|apply NoDup_filter, directions_once|]. intros k. rewrite filter_In, memb_In. assert (D := directions_all k). tauto. }
  rewrite (zsum_perm _ _ (Permutation_map G P)). generalize directions as ds. induction ds as [|k ds IH]; [reflexivity|]. cbn [filter map]. destruct (memb k l) eqn:M; cbn [map]; rewrite !zsum_cons, IH; [reflexivity|].
  rewrite (H k); [lia|]. rewrite <- memb_In. congruence.
Qed.

Lemma add_borrowed_all st l mo s : forall pts bw, complete bw ->
  exists f, rfold (add_borrowed st l mo s) bw pts = Ok f /\
    forall k x, dget k bw = Some x -> dget k f = Some (x + if eqb k (if memb "O"%string (lv_operands l) then WrHigh else RdLow)
      then zsum (map (fun pt => Qceiling (inject_Z (borrowed_by st pt mo) * s)) (filter (fun pt => existsb (fun y => eqb (fst (fst y)) mo) (pt_served pt)) pts)) else 0)%Z.
Proof.
  set (d := if memb "O"%string (lv_operands l) then WrHigh else RdLow). induction pts as [|pt pts IH]; intros bw Cb.
  - exists bw. split; [reflexivity|]. intros k x Hx. cbn [filter map]. rewrite Hx. f_equal. change (zsum []) with 0%Z. destruct (eqb k d); lia.
  - cbn [rfold filter]. unfold add_borrowed at 1. fold d. destruct (existsb _ (pt_served pt)) eqn:B.
    + destruct (Cb d) as (y & Ey). unfold four_get, dgetr. rewrite Ey. cbn [of_option rbind].
      set (v := (y + Qceiling (inject_Z (borrowed_by st pt mo) * s))%Z). destruct (get_set d v bw Cb) as (Cb' & _). destruct (IH _ Cb') as (f & Ef & Hf). exists f. split; [exact Ef|].
      intros k x Hx. destruct (eqb_spec k d) as [->|Nk].
      * rewrite (Hf d v) by (unfold four_set; apply dget_dset_eq). rewrite eqb_refl. cbn [map]. rewrite zsum_cons. rewrite Ey in Hx. injection Hx as ->. f_equal. unfold v. lia.
      * rewrite (Hf k x) by (unfold four_set; now rewrite dget_dset_neq). now destruct (eqb_spec k d).
    + cbn [rbind]. exact (IH bw Cb).
Qed.

Lemma names_differ {A} (f : A -> string) l x y : NoDup (map f l) -> In x l -> In y l -> f x = f y -> x = y.
Proof.
  induction l as [|q l IH]; intros Nn I I' E; [destruct I|]. cbn [map] in Nn. apply NoDup_cons_iff in Nn. destruct Nn as (N1 & N2).
  destruct I as [<-|I], I' as [<-|I']; [reflexivity| | |now apply IH]; exfalso; apply N1; [rewrite E|rewrite <- E]; now apply List.in_map.
Qed.
Lemma moved_once m op k p p' : moved_by m op k p -> moved_by m op k p' -> p = p'.
Proof.
  intros Q Q'. assert (X := last_find (fun p => listedb op k (ps_alloc p)) (listed op k) _ p (fun y => listedb_spec op k y) Q).
  assert (X' := last_find (fun p => listedb op k (ps_alloc p)) (listed op k) _ p' (fun y => listedb_spec op k y) Q'). congruence.
Qed.

(** * Enough bandwidth *)
Lemma ceil_div_le a b c : (0 < b)%Z -> (Qceiling (inject_Z a / inject_Z b) <= c)%Z <-> (a <= c * b)%Z.
Proof.
  intros B. assert (BQ : (0 < inject_Z b)%Q) by (change 0%Q with (inject_Z 0); now rewrite <- Zlt_Qlt).
  assert (Em : (inject_Z a / inject_Z b * inject_Z b == inject_Z a)%Q) by (field; intros Q; rewrite Q in BQ; discriminate BQ). split; intros H.
  - rewrite Zle_Qle, inject_Z_mult, <- Em. apply Qmult_le_r; [exact BQ|]. eapply Qle_trans; [apply Qle_ceiling|]. now rewrite <- Zle_Qle.
  - assert (Q : (inject_Z a / inject_Z b <= inject_Z c)%Q) by (apply (Qmult_le_r _ _ _ BQ); rewrite Em, <- inject_Z_mult, <- Zle_Qle; exact H).
    apply Qceiling_resp_le in Q. now rewrite Qceiling_Z in Q.
Qed.

Lemma cycles_app a b : cycles (a ++ b) = (cycles a * cycles b)%Z.
Proof. unfold cycles. rewrite map_app. induction (map snd a) as [|x l IH]; [cbn [app]; change (zprod []) with 1%Z; lia|]. cbn [app]. change (zprod (x :: l ++ map snd b)) with (x * zprod (l ++ map snd b))%Z. change (zprod (x :: l)) with (x * zprod l)%Z. rewrite IH. lia. Qed.
Lemma outer_divides dims tm i o : outer_of dims tm i o -> (o | cycles (below i tm))%Z.
Proof.
  destruct i as [|j]; cbn [outer_of]; [intros ->; apply Z.divide_1_l|]. intros (level & El & inner & outer & -> & -> & _). unfold below.
  revert j El. induction tm as [|l tm IH]; intros j El; [destruct j; discriminate|]. destruct j as [|j]; cbn [nth_error] in El.
  - injection El as ->. cbn [firstn concat]. rewrite app_nil_r, cycles_app. apply Z.divide_factor_r.
  - cbn [firstn concat]. rewrite cycles_app. apply Z.divide_mul_r. exact (IH j El).
Qed.

Lemma enough_time z double t : (0 < z)%Z -> (1 <= tr_period t)%Z -> (1 <= tr_count t)%Z -> (0 < tr_width t)%Z -> (tr_outer t | tr_period t)%Z -> (1 <= tr_outer t)%Z -> (tr_period t | tr_bits t)%Z ->
  (Qceiling (inject_Z (asked t) * 1 / inject_Z z) <= tr_width t)%Z -> (wait z double t <= 0)%Z.
Proof.
  intros Hz Hp Hc Hw (u & Hu) Ho (q & Hq) Ha. assert (Q : (inject_Z (asked t) * 1 / inject_Z z == inject_Z (asked t) / inject_Z z)%Q) by (unfold Qdiv; ring). rewrite Q in Ha. apply (ceil_div_le _ _ _ Hz) in Ha.
  unfold asked in Ha. rewrite Hq in Ha. rewrite Z.div_mul in Ha by lia.
  assert (D : (duration t <= tr_period t / tr_outer t * z)%Z).
  { unfold duration. apply (ceil_div_le _ _ _ Hw). rewrite Hq, Hu, Z.div_mul by lia. assert (U : (0 <= u)%Z) by nia. assert (X : (0 <= u * (tr_width t * z - q * tr_outer t))%Z) by (apply Z.mul_nonneg_nonneg; lia). lia. }
  unfold wait, time_window. assert (W : (duration t <= (if double then tr_period t else tr_period t / tr_outer t) * z)%Z).
  { destruct double; [|exact D]. eapply Z.le_trans; [exact D|]. apply Z.mul_le_mono_nonneg_r; [lia|]. rewrite Hu, Z.div_mul by lia. nia. }
  nia.
Qed.

Lemma zsum_nonneg l : (forall x, In x l -> (0 <= x)%Z) -> (0 <= zsum l)%Z.
Proof. induction l as [|x l IH]; intros H; [discriminate|]. rewrite zsum_cons. assert (X := H x (or_introl eq_refl)). assert (Y := IH (fun y I => H y (or_intror I))). lia. Qed.

(** * The bandwidth of a request's evaluation *)
Section Bandwidths.
  Variables (rq : request) (fuel pc : nat) (ms : list memspec) (z : Z).
  Hypothesis V : valid_request rq.
  Hypothesis SH : sound_hardware rq pc ms.
  Hypothesis HF : (passes_bound (rq_temporal rq) <= fuel)%nat.
  Hypothesis HT : whole_time_loops rq.
  Hypothesis HS : (1 <= rq_size_out rq)%Z.
  Hypothesis DP : dedicated_ports ms.
  Hypothesis HZ : (rq_cpo rq == inject_Z z)%Q.
  Let SL := vr_layer rq V.
  Let h := rq_hierarchy rq.
  Let E : build pc ms = Ok h := sh_built rq pc ms SH.
  Let N : names_once ms := proj1 (sh_once rq pc ms SH).

  Lemma levels_known mo : get_memory_levels h mo = Ok (holders h mo).
  Proof.
    destruct (build_inv pc ms h E) as (IV & _). destruct (levels_perm pc ms h E) as (L & _ & T & Q). destruct (Q mo) as (ls & E' & Ef & _).
    rewrite E', Ef. f_equal. apply grown_order; [exact IV|exact (sh_order rq pc ms SH)|exact T].
  Qed.
  Lemma level_index i l mo lv : nth_error (h_list h) i = Some l -> nth_error (holders h mo) lv = Some l -> index_of i (map lv_id (holders h mo)) = Some lv.
  Proof.
    intros El Eh. destruct (build_inv pc ms h E) as (IV & _).
    assert (I : In i (map lv_id (holders h mo))) by (rewrite <- (hi_ids h IV i l El); apply List.in_map; now apply nth_error_In in Eh).
    destruct (index_found i _ I) as (j & -> & Ej). rewrite nth_error_map in Ej. destruct (nth_error (holders h mo) j) as [l'|] eqn:El'; [|discriminate]. cbn [option_map] in Ej. injection Ej as Ej.
    destruct (numbered pc ms h E mo j l' El') as (D' & _ & i' & Ei'). destruct (numbered pc ms h E mo lv l Eh) as (D & _). rewrite (hi_ids h IV i' l' Ei') in Ej. subst i'. rewrite El in Ei'. injection Ei' as <-. congruence.
  Qed.

  Section Prepared.
    Variables (ci : inputs) (st : dict string tmlevels) (mac : dict string Z) (counts : dict string opcounts).
    Hypothesis P : parts rq ci st mac counts.
    Hypothesis C : complete_inputs ci.
    Variables (flags : dict string (list bool)) (allowed real : dict string (list (four Z))) (stall : Z) (lst : loading).
    Hypothesis T : transfer_cycles ci flags = Ok (allowed, real).
    Hypothesis S0 : (0 <= stall)%Z.
    Hypothesis LD : loading_all ci real stall = Ok lst.

    Notation su op := (unrolling (rq_spatial_int rq) op).
    Notation tm := (time_loops st).
    Notation tr := (time_transfer rq ci st).
    Notation first := (time_first ci).

    Lemma row_at op lv : In op (rq_ops rq) -> (lv < length (tm op))%nat -> exists od ps p l,
      dget op (in_map_int ci) = Some (od, ps) /\ nth_error ps lv = Some p /\ nth_error (od_bit_unrolled od) 1 = Some (first op) /\ nth_error (holders h (stored_as rq op)) lv = Some l /\
      forall k, (still p k /\ ~ is_transfer rq tm (op, lv, k)) \/
        (is_transfer rq tm (op, lv, k) /\ exists a b, entry p AmountPerPeriod k = Some a /\ entry p Precision k = Some b /\ tr_bits (tr op lv k) = (a * b)%Z /\
           entry p PeriodCount k = Some (tr_count (tr op lv k)) /\ entry p BwInst k = Some (asked (tr op lv k)) /\
           width (ml_bw_max (lv_mem l)) (stored_as rq op) k (Some (tr_width (tr op lv k))) /\ (0 < tr_width (tr op lv k))%Z).
    Proof.
      intros Io Lt. destruct (rows rq fuel pc ms V SH HF HT HS ci st mac counts P C op Io) as (od & ps & D1 & L1 & L2 & _ & _ & _ & Kf & R).
      destruct (nth_lt ps lv) as (p & Ep); [lia|]. destruct (nth_lt (holders h (stored_as rq op)) lv) as (l & El); [fold h in L2; lia|].
      exists od, ps, p, l. do 4 (split; [assumption|]). intros k. destruct (R lv p k Ep) as [(S1 & S2)|(Mv & _ & a0 & b0 & E1 & E2 & E3 & E4 & E5 & E6 & E6' & _ & _ & l0 & E7 & E8 & E9)].
      - left. split; [exact S1|]. intros (_ & _ & Q). contradiction.
      - right. split; [split; [exact Io|]; now split|]. fold h in E7. rewrite El in E7. injection E7 as <-. exists a0, b0. now repeat (split; [assumption|]).
    Qed.

    (** the port of a movement *)
    Definition makes (mo : string) (k : direction) (pt : port) : bool := match pt_served pt with [(mo', _, k')] => eqb mo' mo && eqb k' k | _ => false end.
    Definition lent (op : string) (lv : nat) (k : direction) : Z :=
      match nth_error (holders h (stored_as rq op)) lv with
      | Some l => match find (makes (stored_as rq op) k) (ml_ports (lv_mem l)) with Some pt => borrowed_by lst pt (stored_as rq op) | None => 0%Z end
      | None => 0%Z end.

    Lemma in_levels_of l : In l (h_list h) -> In (lv_mem l) (in_levels ci).
    Proof. intros I. destruct (pa_rest _ _ _ _ _ P) as (_ & _ & -> & _). now apply List.in_map. Qed.

    Lemma level_port mo lv l pt : nth_error (holders h mo) lv = Some l -> In pt (ml_ports (lv_mem l)) -> existsb (fun y => eqb (fst (fst y)) mo) (pt_served pt) = true ->
      exists k, pt_served pt = [(mo, lv, k)] /\ (0 < pt_bw_max pt)%Z /\ width (ml_bw_max (lv_mem l)) mo k (Some (pt_bw_max pt)).
    Proof.
      intros El Ip B. destruct (numbered pc ms h E mo lv l El) as (D & So & i & Ei). destruct (port_single rq pc ms V SH DP ci st mac counts P C (lv_mem l) pt (in_levels_of l (nth_error_In _ _ Ei)) Ip) as (op' & lv' & k & l' & Es & Io & El' & W & Pw).
      rewrite Es in B. cbn [existsb fst] in B. rewrite orb_false_r in B. destruct (eqb_spec (stored_as rq op') mo) as [Q|]; [|discriminate]. rewrite Q in *.
      destruct (described_at pc ms h E i l Ei) as (m & Em & Dm). destruct (level_ports pc ms h i m l N E Em Ei) as (A1 & _ & A3 & _). destruct (A1 pt Ip) as (p & _ & _ & Bw & _ & _ & Sv).
      destruct (proj1 (Sv mo lv' k)) as (D' & _); [rewrite Es; now left|]. rewrite D in D'. injection D' as <-. exists k. split; [exact Es|]. split; [exact Pw|].
      fold h in El'. rewrite El in El'. injection El' as <-. exact W.
    Qed.
    Lemma same_port mo lv l pt pt' k : nth_error (holders h mo) lv = Some l -> In pt (ml_ports (lv_mem l)) -> In pt' (ml_ports (lv_mem l)) ->
      pt_served pt = [(mo, lv, k)] -> pt_served pt' = [(mo, lv, k)] -> pt = pt'.
    Proof.
      intros El Ip Ip' Es Es'. destruct (numbered pc ms h E mo lv l El) as (D & So & i & Ei). destruct (described_at pc ms h E i l Ei) as (m & Em & Dm). destruct (level_ports pc ms h i m l N E Em Ei) as (A1 & _).
      destruct (A1 pt Ip) as (p & _ & Np & _ & _ & _ & Sv). destruct (A1 pt' Ip') as (p' & _ & Np' & _ & _ & _ & Sv').
      assert (M := proj2 (proj1 (Sv mo lv k) ltac:(rewrite Es; now left))). assert (M' := proj2 (proj1 (Sv' mo lv k) ltac:(rewrite Es'; now left))).
      apply (names_differ pt_name (ml_ports (lv_mem l))); [exact (level_names pc ms h l N E (nth_error_In _ _ Ei))|assumption..|]. rewrite Np, Np'. f_equal. eapply moved_once; eassumption.
    Qed.
    Lemma makes_served mo k pt lv : pt_served pt = [(mo, lv, k)] -> makes mo k pt = true.
    Proof. intros Es. unfold makes. now rewrite Es, !eqb_refl. Qed.
    Lemma makes_inv mo k pt : makes mo k pt = true -> exists lv, pt_served pt = [(mo, lv, k)].
    Proof.
      unfold makes. intros H. destruct (pt_served pt) as [|[[mo' lv'] k'] [|? ?]]; try discriminate. apply andb_true_iff in H. destruct H as (A & B).
      destruct (eqb_spec mo' mo) as [->|]; [|discriminate]. destruct (eqb_spec k' k) as [->|]; [|discriminate]. now exists lv'.
    Qed.

    Lemma comp_right op : In op (rq_ops rq) -> (Qceiling (inject_Z (in_total ci) * in_cpo ci) + stall)%Z = computing z stall tm op /\ (0 < computing z stall tm op)%Z.
    Proof.
      intros Io. unfold computing. rewrite (cpo_whole rq z HZ ci st mac counts P), <- (total_loops rq V ci st mac counts P op Io). split; [reflexivity|].
      assert (Z0' := z_pos rq z V HZ). assert (CT := co_total ci C). nia.
    Qed.

    Lemma booked_ports m pt mo lv k : In m (in_levels ci) -> In pt (ml_ports m) -> pt_served pt = [(mo, lv, k)] ->
      exists b, books_any ci real stall pt mo lv k b /\ borrowed_by lst pt mo = match b with Some x => x | None => 0%Z end.
    Proof.
      apply recorded_bw; [| | |exact LD].
      - destruct (pa_rest _ _ _ _ _ P) as (_ & _ & -> & _). assert (B := proj1 (build_ids pc ms N h E)). fold h.
        assert (Q : flat_map ml_ports (map lv_mem (h_list h)) = flat_map (fun l => ml_ports (lv_mem l)) (h_list h)) by (clear; induction (h_list h) as [|l ls IH]; [reflexivity|]; cbn [map flat_map]; now rewrite IH).
        now rewrite Q.
      - assert (Io : In (rq_out rq) (rq_ops rq)) by (apply (proj1 (sl_operands rq SL _)); now left). destruct (comp_right _ Io) as (-> & Q). exact Q.
      - intros m' pt' Im Ip. destruct (port_single rq pc ms V SH DP ci st mac counts P C m' pt' Im Ip) as (op' & lv' & k' & l' & Es & _ & _ & _ & Pw). eauto.
    Qed.

    Lemma lent_right : right_borrowed rq z stall tm tr first lent.
    Proof.
      intros op lv k Io Lt. destruct (row_at op lv Io Lt) as (od & ps & p & l & D & Ep & Kf & El & R). assert (Hk := op_linked rq V op Io). assert (Hk' := Hk). rewrite <- (links_same rq ci st mac counts P) in Hk'.
      set (mo := stored_as rq op) in *. destruct (numbered pc ms h E mo lv l El) as (Dl & So & i & Ei).
      unfold lent. fold mo. rewrite El. destruct (find (makes mo k) (ml_ports (lv_mem l))) as [pt|] eqn:F.
      - apply find_some in F. destruct F as (Ip & F). apply makes_inv in F. destruct F as (lv' & Es).
        destruct (level_port mo lv l pt El Ip) as (k0 & Es' & Pw & W); [rewrite Es; cbn [existsb fst]; now rewrite eqb_refl|]. rewrite Es in Es'. injection Es' as -> <-.
        destruct (booked_ports (lv_mem l) pt mo lv k (in_levels_of l (nth_error_In _ _ Ei)) Ip Es) as (b & B & ->).
        destruct B as [(op' & od' & ps' & p' & n & B1 & B2 & B3 & B4 & B)|(-> & Q1 & Q2)].
        + rewrite (link_back ci C op mo Hk') in B1. injection B1 as <-. rewrite D in B2. injection B2 as <- <-. rewrite Ep in B3. injection B3 as <-.
          destruct B as [(-> & NO & c & bits & Hc & Hb & ->)|(-> & N1)].
          * destruct (R k) as [((_ & Q & _) & _)|(It & a & b & E1 & E2 & E5 & E4 & _ & W' & Pw')]; [congruence|]. assert (E4' : tr_count (tr op lv k) = 1%Z) by congruence. clear E4.
            assert (Pr : prolonged rq tm tr op lv k).
            { split; [exact It|]. split; [exact E4'|]. intros (-> & Hd). apply NO. split; [|exact Hd]. destruct (pa_rest _ _ _ _ _ P) as (_ & -> & _). exact Hk'. }
            split; [intros _|contradiction]. assert (Ew := width_same _ _ _ _ _ W W'). injection Ew as Ew.
            assert (Ec : c = duration (tr op lv k)).
            { destruct (real_entry ci flags allowed real op lv k c T Hc) as (mo' & fr & Q1 & Q3 & Q4).
              destruct (real_spec ci op mo' lv fr Q3) as (msl & ml & od2 & ps2 & p2 & Y1 & Y2 & Y3 & Y4 & Y5). destruct (Y5 k c Q4) as (am & pr & w & Z1 & Z2 & Z3 & ->).
              rewrite Hk' in Q1. injection Q1 as <-. rewrite (held rq V ci st mac counts P op _ Hk) in Y1. injection Y1 as <-. fold h in Y2. rewrite nth_error_map, El in Y2. cbn [option_map] in Y2. injection Y2 as <-.
              rewrite D in Y3. injection Y3 as <- <-. rewrite Ep in Y4. injection Y4 as <-. rewrite E1 in Z1. injection Z1 as <-. rewrite E2 in Z2. injection Z2 as <-.
              rewrite (width_same _ _ _ _ _ Z3 W'). unfold duration. rewrite <- E5. destruct (Z.eqb_spec (tr_width (tr op lv k)) 0); [lia|reflexivity]. }
            rewrite Kf in Hb. injection Hb as <-. unfold meanwhile, loading_time. rewrite <- Ec, E4', (proj1 (comp_right op Io)), Ew. reflexivity.
          * split; [intros (It & Q & _)|reflexivity]. destruct (R k) as [(_ & X)|(_ & a & b & _ & _ & _ & E4 & _)]; [contradiction|]. congruence.
        + split; [intros (_ & _ & X)|reflexivity]. exfalso. apply X. split; [|exact Q2]. destruct (pa_rest _ _ _ _ _ P) as (_ & Ro & _). rewrite Ro in Q1. apply (link_back ci C) in Q1. rewrite (link_back ci C op mo Hk') in Q1. now injection Q1.
      - split; [intros ((_ & _ & Mv) & _)|reflexivity]. exfalso.
        destruct (port_served rq fuel pc ms V SH HF HT HS ci st mac counts P C op lv k Io Lt Mv) as (m & pt & Im & Ip & Is). fold mo in Is.
        destruct (pa_rest _ _ _ _ _ P) as (_ & _ & Q & _). rewrite Q in Im. apply in_map_iff in Im. destruct Im as (l' & <- & Il'). assert (El' := Il'). apply In_nth_error in El'. destruct El' as (i' & El').
        fold h in El', Il'. destruct (described_at pc ms h E i' l' El') as (d & Ed & _). destruct (level_ports pc ms h i' d l' N E Ed El') as (A1 & _). destruct (A1 pt Ip) as (p0 & _ & _ & _ & _ & _ & Sv).
        assert (X := number_at pc ms h E mo lv l' Il' (proj1 (proj1 (Sv mo lv k) Is))). rewrite El in X. injection X as <-.
        destruct (level_port mo lv l pt El Ip) as (k0 & Es & _); [apply existsb_exists; eexists; split; [exact Is|cbn [fst]; apply eqb_refl]|].
        rewrite Es in Is. destruct Is as [Is|[]]. injection Is as ->. assert (F' := find_none _ _ F pt Ip). rewrite (makes_served mo k pt lv Es) in F'. discriminate.
    Qed.

    (** What a memory reports for one operand *)
    Lemma lent_sum op lv l s : In op (rq_ops rq) -> nth_error (holders h (stored_as rq op)) lv = Some l ->
      zsum (map (fun pt => Qceiling (inject_Z (borrowed_by lst pt (stored_as rq op)) * s)) (filter (fun pt => existsb (fun y => eqb (fst (fst y)) (stored_as rq op)) (pt_served pt)) (ml_ports (lv_mem l)))) =
      zsum (map (fun k => Qceiling (inject_Z (lent op lv k) * s)) directions).
    Proof.
      intros Io El. set (mo := stored_as rq op) in *. set (dir := fun pt => match pt_served pt with (_, _, k) :: _ => k | [] => RdLow end).
      set (F := filter _ _). assert (HF' : forall pt, In pt F -> In pt (ml_ports (lv_mem l)) /\ pt_served pt = [(mo, lv, dir pt)]).
      { intros pt I. apply filter_In in I. destruct I as (I & B). split; [exact I|]. destruct (level_port mo lv l pt El I B) as (k & Es & _). unfold dir. now rewrite Es. }
      destruct (numbered pc ms h E mo lv l El) as (Dl & So & i & Ei). assert (Nn := level_names pc ms h l N E (nth_error_In _ _ Ei)).
      rewrite <- (over_directions (fun k => Qceiling (inject_Z (lent op lv k) * s)) (map dir F)).
      - rewrite map_map. f_equal. apply map_ext_in. intros pt I. destruct (HF' pt I) as (Ip & Es). do 3 f_equal. unfold lent. fold mo. rewrite El.
        destruct (find (makes mo (dir pt)) (ml_ports (lv_mem l))) as [pt'|] eqn:Fd.
        + apply find_some in Fd. destruct Fd as (Ip' & Fd). apply makes_inv in Fd. destruct Fd as (lv' & Es'). destruct (level_port mo lv l pt' El Ip') as (k0 & Es'' & _); [rewrite Es'; cbn [existsb fst]; now rewrite eqb_refl|].
          rewrite Es' in Es''. injection Es'' as -> <-. now rewrite (same_port mo lv l pt pt' _ El Ip Ip' Es Es').
        + assert (X := find_none _ _ Fd pt Ip). rewrite (makes_served mo _ pt lv Es) in X. discriminate.
      - assert (NF : NoDup F) by (apply NoDup_filter, (NoDup_map_inv pt_name); exact Nn). clear -NF HF' El E N. clearbody F. induction NF as [|pt F Nx NF IH]; cbn [map]; constructor.
        + intros I. apply in_map_iff in I. destruct I as (pt' & Q & I). destruct (HF' pt (or_introl eq_refl)) as (Ip & Es). destruct (HF' pt' (or_intror I)) as (Ip' & Es'). rewrite Q in Es'.
          rewrite (same_port mo lv l pt pt' _ El Ip Ip' Es Es') in Nx. contradiction.
        + apply IH. intros pt' I. apply HF'. now right.
      - intros k Nk. unfold lent. fold mo. rewrite El. destruct (find (makes mo k) (ml_ports (lv_mem l))) as [pt|] eqn:Fd; [exfalso|].
        + apply find_some in Fd. destruct Fd as (Ip & Fd). apply makes_inv in Fd. destruct Fd as (lv' & Es). apply Nk. apply in_map_iff. exists pt. split; [unfold dir; now rewrite Es|].
          apply filter_In. split; [exact Ip|]. rewrite Es. cbn [existsb fst]. now rewrite eqb_refl.
        + assert (Q : (inject_Z 0 * s == inject_Z 0)%Q) by (change (inject_Z 0) with 0%Q; ring). rewrite Q. apply Qceiling_Z.
    Qed.

    Lemma inst_right i m op lv s : nth_error ms i = Some m -> resident rq ms i (op, lv) ->
      exists f, inst_bandwidth h ci lst i (stored_as rq op) s = Ok f /\ complete f /\ right_bandwidth rq z tm tr lent s m op lv f.
    Proof.
      intros Em Rs. destruct (build_inv pc ms h E) as (IV & DF). destruct (F2_nth_r _ _ _ DF i m Em) as (l & El & Dm).
      assert (Ix := proj2 (members_resident rq pc ms V SH ci st mac counts P C i l (op, lv) El) Rs). destruct (resident_level rq fuel pc ms V SH HF HT HS ci st mac counts P C i l (op, lv) El Ix) as (Io & Lt & Eh). cbn [fst snd] in Io, Lt, Eh. fold h in Eh.
      destruct (row_at op lv Io Lt) as (od & ps & p & l' & D & Ep & _ & El' & R). rewrite Eh in El'. injection El' as <-. assert (Hk := op_linked rq V op Io). rewrite <- (links_same rq ci st mac counts P) in Hk.
      unfold inst_bandwidth. rewrite El. cbn [of_option rbind]. rewrite levels_known. cbn [rbind]. rewrite (level_index i l _ lv El Eh). cbn [of_option rbind].
      change (four_way 0%Z (Some (map (fun k : direction => (k, 0%Z)) directions))) with (Ok (map (fun k : direction => (k, 0%Z)) directions)). cbn [rbind].
      rewrite (link_back ci C op _ Hk). cbn [rbind]. unfold unit_mem. rewrite (dgetr_ok _ _ _ D). cbn [rbind snd]. unfold at_. rewrite Ep. cbn [of_option rbind].
      assert (Zp := z_pos rq z V HZ). assert (Ecpo : (in_cpo ci == inject_Z z)%Q) by (destruct (pa_rest _ _ _ _ _ P) as (_ & _ & _ & ->); exact HZ).
      assert (Znz : ~ (in_cpo ci == 0)%Q) by (rewrite Ecpo; change 0%Q with (inject_Z 0); rewrite inject_Z_injective; lia).
      assert (B : forall k, exists b, attr_of p BwInst k = Ok b /\ (is_transfer rq tm (op, lv, k) -> b = asked (tr op lv k)) /\ (~ is_transfer rq tm (op, lv, k) -> b = 0%Z)).
      { intros k. destruct (R k) as [((_ & _ & Q) & X)|(X & a & b & _ & _ & _ & _ & Q & _)]; (eexists; split; [exact (attr_entry _ _ _ _ Q)|]); split; [contradiction|reflexivity|reflexivity|contradiction]. }
      destruct (B RdLow) as (b1 & Q1 & B1), (B WrLow) as (b2 & Q2 & B2), (B RdHigh) as (b3 & Q3 & B3), (B WrHigh) as (b4 & Q4 & B4).
      set (need := [(RdLow, Qceiling (inject_Z b1 * s / in_cpo ci)); (WrLow, Qceiling (inject_Z b2 * s / in_cpo ci)); (RdHigh, Qceiling (inject_Z b3 * s / in_cpo ci)); (WrHigh, Qceiling (inject_Z b4 * s / in_cpo ci))]).
      assert (En : rmap (fun k => b <- attr_of p BwInst k ;; x <- pdiv (inject_Z b * s) (in_cpo ci) ;; Ok (k, Qceiling x))%result directions = Ok need).
      { unfold directions. cbn [rmap]. rewrite Q1, Q2, Q3, Q4. cbn [rbind]. rewrite !(Proof_Mapping.pdiv_ok _ _ Znz). reflexivity. }
      rewrite En. cbn [rbind]. change (four_way 0%Z (Some need)) with (Ok need). cbn [rbind].
      assert (Cs : complete (map (fun k : direction => (k, 0%Z)) directions)) by (intros []; eexists; reflexivity). assert (Cn : complete need) by (intros []; eexists; reflexivity).
      destruct (add_ok 0%Z Z.add _ _ Cs Cn) as (bw & Ebw & Cbw & Hbw). rewrite Ebw. cbn [rbind].
      destruct (add_borrowed_all lst l (stored_as rq op) s (ml_ports (lv_mem l)) bw Cbw) as (f & Ef & Hf). exists f. split; [exact Ef|]. split; [intros k; destruct (Cbw k) as (x & Ex); rewrite (Hf k x Ex); eauto|].
      rewrite (lent_sum op lv l s Io Eh) in Hf. unfold lv_operands in Hf. rewrite (proj1 Dm) in Hf. fold (booked m) in Hf.
      intros k. destruct (Cn k) as (x & Ex). exists x. assert (Es : dget k (map (fun k : direction => (k, 0%Z)) directions) = Some 0%Z) by (destruct k; reflexivity).
      assert (X := Hbw k 0%Z x Es Ex). rewrite Z.add_0_l in X. split; [exact (Hf k x X)|].
      assert (Zero : Qceiling (inject_Z 0 * s / in_cpo ci) = 0%Z) by (assert (Q : (inject_Z 0 * s / in_cpo ci == inject_Z 0)%Q) by (change (inject_Z 0) with 0%Q; field; exact Znz); rewrite Q; apply Qceiling_Z).
      assert (G : forall b, x = Qceiling (inject_Z b * s / in_cpo ci) -> (is_transfer rq tm (op, lv, k) -> b = asked (tr op lv k)) /\ (~ is_transfer rq tm (op, lv, k) -> b = 0%Z) ->
        (is_transfer rq tm (op, lv, k) -> x = Qceiling (inject_Z (asked (tr op lv k)) * s / inject_Z z)) /\ (~ is_transfer rq tm (op, lv, k) -> x = 0%Z)).
      { intros b -> (A & A'). split; [intros It; rewrite (A It), Ecpo; reflexivity|intros Nt; now rewrite (A' Nt)]. }
      destruct k; injection Ex as <-; [apply (G b1)|apply (G b2)|apply (G b3)|apply (G b4)]; auto.
    Qed.

    (** and altogether *)
    Lemma total_right i m s : nth_error ms i = Some m ->
      exists fs f, Forall2 (fun mo g => inst_bandwidth h ci lst i mo s = Ok g) (ms_operands m) fs /\ total_inst_bandwidth h ci lst i s = Ok f /\ forall k, dget k f = Some (zsum (map (said k) fs)).
    Proof.
      intros Em. destruct (build_inv pc ms h E) as (IV & DF). destruct (F2_nth_r _ _ _ DF i m Em) as (l & El & Dm). unfold total_inst_bandwidth. rewrite El. cbn [of_option rbind].
      change (four_way 0%Z (Some (map (fun k : direction => (k, 0%Z)) directions))) with (Ok (map (fun k : direction => (k, 0%Z)) directions)). cbn [rbind]. unfold lv_operands. rewrite (proj1 Dm).
      assert (All : forall mo, In mo (ms_operands m) -> exists g, inst_bandwidth h ci lst i mo s = Ok g /\ complete g).
      { intros mo I. destruct (sh_used rq pc ms SH m mo (nth_error_In _ _ Em) I) as (op & Hl). assert (Q : mo = stored_as rq op) by (unfold stored_as; now rewrite Hl). subst mo. assert (Io : In op (rq_ops rq)) by (now apply (linked rq V op _) in Hl).
        destruct (inst_right i m op (length (memories_for (firstn i ms) (stored_as rq op))) s Em) as (g & Eg & Cg & _); [split; [exact Io|]; split; [now exists m|reflexivity]|eauto]. }
      assert (G : forall ops bw, (forall mo, In mo ops -> exists g, inst_bandwidth h ci lst i mo s = Ok g /\ complete g) -> complete bw ->
        exists fs f, Forall2 (fun mo g => inst_bandwidth h ci lst i mo s = Ok g) ops fs /\
          rfold (fun total mo => b <- inst_bandwidth h ci lst i mo s ;; four_add 0%Z Z.add total b)%result bw ops = Ok f /\ forall k, dget k f = Some (said k bw + zsum (map (said k) fs))%Z).
      { clear. induction ops as [|mo ops IH]; intros bw All Cb.
        - exists [], bw. split; [constructor|]. split; [reflexivity|]. intros k. destruct (Cb k) as (x & Ex). unfold said at 1. rewrite Ex. f_equal. change (zsum (map (said k) [])) with 0%Z. lia.
        - cbn [rfold]. destruct (All mo (or_introl eq_refl)) as (g & Eg & Cg). rewrite Eg. cbn [rbind]. destruct (add_ok 0%Z Z.add _ _ Cb Cg) as (b' & Eb & Cb' & Hb). rewrite Eb. cbn [rbind].
          destruct (IH b' (fun mo' I => All mo' (or_intror I)) Cb') as (fs & f & F & Ef & Hf). exists (g :: fs), f. split; [now constructor|]. split; [exact Ef|]. intros k. rewrite Hf. f_equal. cbn [map]. rewrite zsum_cons.
          destruct (Cb k) as (x & Ex), (Cg k) as (y & Ey). unfold said at 1 3 4. rewrite (Hb k x y Ex Ey), Ex, Ey. lia. }
      destruct (G (ms_operands m) (map (fun k : direction => (k, 0%Z)) directions) All) as (fs & f & F & Ef & Hf); [intros []; eexists; reflexivity|]. exists fs, f. split; [exact F|]. split; [exact Ef|].
      intros k. rewrite Hf. now destruct k.
    Qed.
  End Prepared.

  Hypothesis HW : whole_request rq.
  Hypothesis ND : NoDup (rq_inputs rq).

  Theorem bandwidth_right e la : evaluation rq fuel = Ok (e, la) ->
    exists tm tr first double borrowed, timing rq ms z tm tr first double la /\ right_buffers rq ms tm double /\
      right_borrowed rq z (la_stall la) tm tr first borrowed /\
      (forall i m op lv s, nth_error ms i = Some m -> resident rq ms i (op, lv) ->
         exists f, reported_bandwidth rq fuel i (stored_as rq op) s = Ok f /\ right_bandwidth rq z tm tr borrowed s m op lv f) /\
      (forall i m s, nth_error ms i = Some m -> exists fs f, Forall2 (fun mo g => reported_bandwidth rq fuel i mo s = Ok g) (ms_operands m) fs /\
         reported_total rq fuel i s = Ok f /\ forall k, dget k f = Some (zsum (map (said k) fs))) /\
      ((forall op lv k, is_transfer rq tm (op, lv, k) -> (tr_period (tr op lv k) | tr_bits (tr op lv k))%Z /\ (tr_count (tr op lv k) = 1%Z -> (first op <= tr_bits (tr op lv k))%Z) /\
          forall i f, resident rq ms i (op, lv) -> reported_bandwidth rq fuel i (stored_as rq op) 1 = Ok f -> (said k f <= tr_width (tr op lv k))%Z) ->
       la_stall la = 0%Z).
  Proof.
    unfold evaluation. intros Q. apply rbind_Ok in Q. destruct Q as (ci & Ep & Q). assert (Ev := Q). unfold evaluate in Q. do 4 (apply rbind_Ok in Q; destruct Q as (? & _ & Q)). apply rbind_Ok in Q. destruct Q as (la' & L & Q). injection Q as _ <-.
    destruct (times_of rq fuel pc ms z V SH HF HW HT HS DP ND HZ ci la' Ep L) as (st & mac & counts & ind & sh & flags & sh' & allowed & real & lst & P & C & HI & HSh & HD & T & Sl & LD & S0 & Ti & Bu).
    assert (Rc : recorded ci = Ok lst) by (unfold recorded; rewrite HI; cbn [rbind]; rewrite HSh; cbn [rbind]; rewrite HD; cbn [rbind fst]; rewrite T; cbn [rbind]; rewrite Sl; exact LD).
    assert (Rb : forall i mo s, reported_bandwidth rq fuel i mo s = inst_bandwidth h ci lst i mo s) by (intros; unfold reported_bandwidth; rewrite Ep; cbn [rbind]; rewrite Ev; cbn [rbind]; now rewrite Rc).
    assert (LR : right_borrowed rq z (la_stall la') (time_loops st) (time_transfer rq ci st) (time_first ci) (lent lst)) by (eapply lent_right; eassumption).
    exists (time_loops st), (time_transfer rq ci st), (time_first ci), (time_double flags), (lent lst). split; [exact Ti|]. split; [exact Bu|]. split; [exact LR|]. split; [|split].
    - intros i m op lv s Em Rs. destruct (inst_right ci st mac counts P C lst i m op lv s Em Rs) as (f & Ef & _ & Rf). exists f. now rewrite Rb.
    - intros i m s Em. destruct (total_right ci st mac counts P C lst i m s Em) as (fs & f & F & Ef & Hf). exists fs, f. split; [|split; [|exact Hf]].
      + eapply F2_impl; [|exact F]. intros mo g Q. now rewrite Rb.
      + unfold reported_total. rewrite Ep. cbn [rbind]. rewrite Ev. cbn [rbind]. now rewrite Rc.
    - intros Hyp. destruct (tg_stall _ _ _ _ _ _ _ _ Ti) as (_ & _ & [Q|([[op lv] k] & It & Q)]); [exact Q|]. enough ((waits z (time_transfer rq ci st) (time_double flags) (op, lv, k) <= 0)%Z) by lia. unfold waits.
      destruct It as (Io & Lt & Mv). assert (It : is_transfer rq (time_loops st) (op, lv, k)) by (split; [exact Io|]; now split). destruct (Hyp op lv k It) as (H1 & _ & H3). set (t := time_transfer rq ci st op lv k) in *.
      destruct (rows rq fuel pc ms V SH HF HT HS ci st mac counts P C op Io) as (od & ps & D1 & L1 & L2 & _ & _ & _ & Kf & R). destruct (nth_lt ps lv) as (p & Ep'); [lia|].
      destruct (R lv p k Ep') as [(_ & X)|(_ & RT & a0 & b0 & E1 & E2 & E3 & E4 & E5 & E6 & E6' & (Pp & O1) & Cn & l & El & E8 & Wp)]; [contradiction|]. fold t in RT, E3, E4, E5, E6, E6', Pp, O1, Cn, E8, Wp.
      destruct RT as ((b & el & same & _ & _ & _ & _ & Pt) & Pc & Ou & _). assert (Tot := total_loops rq V ci st mac counts P op Io). assert (CT := co_total ci C).
      assert (Od : (tr_outer t | tr_period t)%Z) by (rewrite Pt; apply Z.divide_mul_r; eapply outer_divides; exact Ou).
      assert (Zp := z_pos rq z V HZ). assert (C1 : (1 <= tr_count t)%Z) by nia.
      apply enough_time; try assumption.
      destruct (numbered pc ms h E _ lv l El) as (Dl & So & i & Ei). destruct (described_at pc ms h E i l Ei) as (m & Em & Dm).
      assert (Rs : resident rq ms i (op, lv)).
      { apply (members_resident rq pc ms V SH ci st mac counts P C i l (op, lv) Ei). apply (members_In ci _ _ (sharing rq pc ms SH ci st mac counts P C)). exists (stored_as rq op). split; [now apply dget_In|]. rewrite (links_same rq ci st mac counts P). now apply op_linked. }
      destruct (inst_right ci st mac counts P C lst i m op lv 1 Em Rs) as (f & Ef & _ & Rf). rewrite <- Rb in Ef. assert (Le := H3 i f Rs Ef). destruct (Rf k) as (need & Hn & Hn1 & _). rewrite (Hn1 It) in Hn. fold t in Hn. unfold said in Le. rewrite Hn in Le.
      assert (NN : (0 <= zsum (map (fun k' => Qceiling (inject_Z (lent lst op lv k') * 1)) directions))%Z).
      { apply zsum_nonneg. intros v I. apply in_map_iff in I. destruct I as (k' & <- & _). rewrite Qmult_1_r, Qceiling_Z. destruct (LR op lv k' Io Lt) as (A & B).
        destruct (Z.lt_ge_cases (lent lst op lv k') 0) as [Lt0|Ge]; [exfalso|exact Ge]. assert (NP : ~ prolonged rq (time_loops st) (time_transfer rq ci st) op lv k').
        { intros Pr. assert (X := A Pr). destruct Pr as (It' & Cc & _). destruct (Hyp op lv k' It') as (_ & F1 & _). specialize (F1 Cc). enough ((0 <= meanwhile z (la_stall la') (time_loops st) (time_transfer rq ci st) (time_first ci) op lv k')%Z) by lia.
          destruct (comp_right ci st mac counts P C (la_stall la') S0 op Io) as (_ & Cp). set (t' := time_transfer rq ci st op lv k') in *.
          assert (Wp' : (0 < tr_width t')%Z) by (destruct It' as (_ & _ & Mv'); destruct (R lv p k' Ep') as [(_ & Y)|(_ & _ & a1 & b1 & _ & _ & _ & _ & _ & _ & _ & _ & _ & l1 & _ & _ & Y)]; [contradiction|exact Y]).
          unfold meanwhile. fold t'. apply Proof_Latency.ceil_nonneg. change 0%Q with (inject_Z 0). apply Qmult_le_0_compat; [|change 0%Q with (inject_Z 0); rewrite <- Zle_Qle; lia].
          apply Qmult_le_0_compat; [|apply Qinv_le_0_compat; change 0%Q with (inject_Z 0); rewrite <- Zle_Qle; lia]. change 0%Q with (inject_Z 0). rewrite <- Zle_Qle.
          unfold loading_time. rewrite Cc. change (1 =? 1)%Z with true. cbv iota. assert (Y : (Qceiling (inject_Z (time_first ci op) / inject_Z (tr_width t')) <= duration t')%Z).
          { apply (ceil_div_le _ _ _ Wp'). eapply Z.le_trans; [exact F1|]. apply (ceil_div_le _ _ _ Wp'). unfold duration. lia. }
          lia. }
        rewrite (B NP) in Lt0. lia. }
      destruct (eqb k (booked m)); lia.
  Qed.
End Bandwidths.
