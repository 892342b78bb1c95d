(** Stalls and loading when every port makes one kind of transfer (C78). *)
From Coq Require Import QArith Qround Lia Lqa.
From Verif Require Import Base Model_Alloc Model_Decouple Model_DataMove Model_Mapping Model_Links Model_Cost Model_Latency
  Spec_Mapping Spec_Cost Spec_Latency Spec_Evaluate
  Proof_AllocSearch Proof_Bandwidth Proof_Energy Proof_Links Proof_Balance Proof_Loading Proof_Latency Proof_EvalTotal.
Local Open Scope list_scope.

Lemma zmax_attained l : zmax_list l = 0%Z \/ In (zmax_list l) l.
Proof.
  unfold zmax_list. assert (G : forall l x, fold_left Z.max l x = x \/ In (fold_left Z.max l x) l).
  { clear. induction l as [|y l IH]; intros x; [now left|]. cbn [fold_left]. destruct (IH (Z.max x y)) as [Q|Q]; [|right; now right].
    destruct (Z.max_spec x y) as [(_ & E)|(_ & E)]; rewrite E in *; [right; left; now rewrite Q|now left]. }
  destruct (G l 0%Z) as [Q|Q]; auto.
Qed.

Lemma stall_attained ci allowed real s : stall_slack_comb ci allowed real = Ok s ->
  (forall m pt l, In m (in_levels ci) -> In pt (ml_ports m) -> port_activities ci allowed real pt = Ok l -> (length l <= 1)%nat) ->
  s = 0%Z \/ exists m pt a, In m (in_levels ci) /\ In pt (ml_ports m) /\ port_activities ci allowed real pt = Ok [a] /\ stall_or_slack a = s.
Proof.
  unfold stall_slack_comb. intros H HP. apply rbind_Ok in H. destruct H as (ds & E & H). apply rbind_Ok in H. destruct H as (ss & E2 & H). injection H as H.
  match type of H with zmax_list ?L = _ => destruct (zmax_attained L) as [Q|Hx] end; [left; congruence|]. rewrite H in Hx. right.
  apply in_concat in Hx. destruct Hx as (o & Io & Hx). apply in_map_iff in Io. destruct Io as (oo & <- & Io).
  destruct oo as [y|]; [|destruct Hx]. destruct Hx as [->|[]]. apply in_concat in Io. destruct Io as (os & Ios & Iy).
  apply rmap_Forall2 in E2. destruct (Forall2_in_r _ _ _ _ E2 Ios) as (d & Id & Ed). apply rmap_Forall2 in Ed. destruct (Forall2_in_r _ _ _ _ Ed Iy) as ([k l] & Il & Hl).
  apply rmap_Forall2 in E. destruct (Forall2_in_r _ _ _ _ E Id) as (m & Im & Hm). unfold memory_activities in Hm.
  destruct (dict_of_ports' _ _ _ _ _ _ Hm k l Il) as [[]|(pt & Ip & Ep)]. assert (L := HP m pt l Im Ip Ep).
  cbn [snd] in Hl. destruct l as [|a [|b l]]; cbn in L; [discriminate| |lia]. cbn in Hl. injection Hl as <-. exists m, pt, a. auto.
Qed.

(** A port that makes one transfer has one activity, or none when it never happens. *)
Lemma activity_one ci allowed real pt s l : pt_served pt = [s] -> port_activities ci allowed real pt = Ok l -> (length l <= 1)%nat.
Proof.
  intros Es H. unfold port_activities in H. rewrite Es in H. apply rbind_Ok in H. destruct H as (r & E & H). injection H as <-.
  apply rmap_Forall2 in E. destruct r as [|x [|y r]]; [cbn; lia| |apply F2_len in E; discriminate]. cbn [concat]. rewrite app_nil_r. inversion E as [|? ? ? ? Hx _]. subst.
  destruct s as [[mo lv] k]. destruct (contains_mem_op (in_links ci) mo); [|injection Hx as <-; cbn; lia].
  repeat (apply rbind_Ok in Hx; destruct Hx as (? & _ & Hx); try (destruct (_ =? 0)%Z; [injection Hx as <-; cbn; lia|])). injection Hx as <-. cbn. lia.
Qed.
Lemma activity_of ci allowed real pt op mo lv k od ps p n l : contains_mem_op (in_links ci) mo = true -> mem_to_layer_op (in_links ci) mo = Ok op ->
  dget op (in_map_int ci) = Some (od, ps) -> nth_error ps lv = Some p -> entry p PeriodCount k = Some n -> n <> 0%Z ->
  In (mo, lv, k) (pt_served pt) -> port_activities ci allowed real pt = Ok l -> exists a, In a l /\ pa_served a = (op, lv, k).
Proof.
  intros Hc Hb Hm Hp Hn N0 Is H. unfold port_activities in H. apply rbind_Ok in H. destruct H as (r & E & H). injection H as <-.
  apply rmap_Forall2 in E. destruct (Forall2_in_l _ _ _ _ E Is) as (x & Ix & Hx). cbv beta iota in Hx. rewrite Hc, Hb in Hx. cbn [rbind] in Hx.
  unfold unit_mem in Hx. rewrite (dgetr_ok _ _ _ Hm) in Hx. cbn [rbind snd] in Hx. unfold at_ in Hx. rewrite Hp in Hx. cbn [of_option rbind] in Hx.
  rewrite (attr_entry _ _ _ _ Hn) in Hx. cbn [rbind] in Hx. destruct (Z.eqb_spec n 0); [contradiction|].
  apply rbind_Ok in Hx. destruct Hx as (t & _ & Hx). apply rbind_Ok in Hx. destruct Hx as (rc & _ & Hx). apply rbind_Ok in Hx. destruct Hx as (ac & _ & Hx). injection Hx as <-.
  eexists. split; [apply in_concat; eexists; split; [exact Ix|now left]|reflexivity].
Qed.

Lemma real_entry ci flags allowed real op lv k rc : transfer_cycles ci flags = Ok (allowed, real) -> cycles_at real op lv k = Ok rc ->
  exists mem_op r, dget op (lk_data (in_links ci)) = Some mem_op /\ real_cycles ci op mem_op lv = Ok r /\ dget k r = Some rc.
Proof.
  unfold transfer_cycles. intros H. apply rbind_Ok in H. destruct H as (l & E & H). injection H as <- <-. intros Hr. unfold cycles_at in Hr.
  apply rbind_Ok in Hr. destruct Hr as (lr & Hlr & Hr). apply dgetr_Ok in Hlr.
  assert (X : dget op (map (fun kv => (fst kv, map snd (snd kv))) l) = match dget op l with Some x => Some (map snd x) | None => None end).
  { clear. induction l as [|[k x] l IH]; [reflexivity|]. cbn [map fst snd dget]. destruct (eqb op k); [reflexivity|exact IH]. }
  rewrite X in Hlr. destruct (dget op l) as [x|] eqn:D; [|discriminate]. injection Hlr as <-.
  apply rbind_Ok in Hr. destruct Hr as (r & Hr & Hk). apply at_Ok in Hr. rewrite nth_error_map in Hr. destruct (nth_error x lv) as [[a r']|] eqn:N; [|discriminate]. injection Hr as <-. cbn [snd] in *.
  apply rmap_Forall2 in E. apply dget_In in D. destruct (Forall2_in_r _ _ _ _ E D) as (op' & _ & Ho).
  apply rbind_Ok in Ho. destruct Ho as (mem_op & Hm & Ho). apply rbind_Ok in Ho. destruct Ho as (n & Hn & Ho). apply rbind_Ok in Ho. destruct Ho as (l' & El & Ho).
  injection Ho as <- <-. unfold layer_to_mem_op in Hm. apply dgetr_Ok in Hm. apply rmap_Forall2 in El.
  assert (R := seq_F2 _ _ _ _ _ El N). apply rbind_Ok in R. destruct R as (a2 & R1 & R). apply rbind_Ok in R. destruct R as (r2 & R2 & R). injection R as <- <-.
  exists mem_op, r2. repeat (split; [assumption|]). unfold four_get in Hk. now apply dgetr_Ok in Hk.
Qed.

(** * Loading *)
Section Loading.
  Variables (ci : inputs) (load : string -> nat -> direction -> Z).

  (** All that is recorded is right, and no port is shared. *)
  Definition right_table (t : dict string (dict (nat * direction) (Q * bool))) : Prop :=
    forall op d lv k c s, dget op t = Some d -> dget (lv, k) d = Some (c, s) -> (c == inject_Z (load op lv k))%Q /\ s = false.
  Definition right_loading (st : loading) : Prop := right_table (lo_on st) /\ right_table (lo_off st).

  Lemma right_set t op d lv k c s : right_table t -> dget op t = Some d -> (c == inject_Z (load op lv k))%Q -> s = false ->
    right_table (dset op (dset (lv, k) (c, s) d) t).
  Proof.
    intros R D Hc Hs op' d' lv' k' c' s' D' D2. destruct (eqb_spec op' op) as [Q|Q].
    - subst op'. rewrite dget_dset_eq in D'. injection D' as <-. destruct (eqb_spec (lv', k') (lv, k)) as [Q2|Q2].
      + injection Q2 as -> ->. rewrite dget_dset_eq in D2. injection D2 as <- <-. now split.
      + rewrite dget_dset_neq in D2 by assumption. eapply R; eassumption.
    - rewrite dget_dset_neq in D' by assumption. eapply R; eassumption.
  Qed.
  Lemma right_record st pt mo op lv k c st' : record_cycles st pt mo op lv k c = Ok st' -> shared_by_inputs pt = false -> (c == inject_Z (load op lv k))%Q ->
    right_loading st -> right_loading st'.
  Proof.
    intros H S Hc (R1 & R2). unfold record_cycles in H. destruct (memb mo ["I1"; "I2"]%string); apply rbind_Ok in H; destruct H as (d & D & H); apply dgetr_Ok in D; injection H as <-.
    - split; cbn [lo_on lo_off]; [now apply right_set|assumption].
    - split; cbn [lo_on lo_off]; [assumption|now apply right_set].
  Qed.

  Lemma single_unshared pt s : pt_served pt = [s] -> shared_by_inputs pt = false.
  Proof.
    intros E. unfold shared_by_inputs. rewrite E. cbn [existsb]. rewrite !orb_false_r. destruct (eqb_spec (fst (fst s)) "I1"%string) as [->|]; reflexivity.
  Qed.

  Variables (real : dict string (list (four Z))) (stall : Z).
  Let computing : Z := (Qceiling (inject_Z (in_total ci) * in_cpo ci) + stall)%Z.

  (** What a port should record for the transfer it makes. *)
  Definition right_port (pt : port) : Prop :=
    exists mo lv k, pt_served pt = [(mo, lv, k)] /\ (0 < pt_bw_max pt)%Z /\
    forall op od ps p n c, mem_to_layer_op (in_links ci) mo = Ok op -> dget op (in_map_int ci) = Some (od, ps) -> nth_error ps lv = Some p ->
      entry p PeriodCount k = Some n -> n <> 0%Z -> cycles_at real op lv k = Ok c ->
      ~ (dget (in_out ci) (lk_data (in_links ci)) = Some mo /\ (k = RdLow \/ k = WrHigh)) ->
      load op lv k = if (n =? 1)%Z then match nth_error (od_bit_unrolled od) 1 with
                                       | Some bits => Z.max (Qceiling (inject_Z bits / inject_Z (pt_bw_max pt))) (c - computing) | None => 0%Z end
                     else c.

  Lemma right_port_step pt st st' : (0 < computing)%Z -> right_port pt -> loading_port ci real stall st pt = Ok st' -> right_loading st -> right_loading st'.
  Proof.
    intros CP (mo & lv & k & Es & PB & HL) H R. assert (SU := single_unshared pt _ Es). unfold loading_port in H. apply rbind_Ok in H. destruct H as (om & Eo & H). unfold layer_to_mem_op in Eo. apply dgetr_Ok in Eo.
    apply rbind_Ok in H. destruct H as (cls & Ec & H). cbn zeta in H. apply rbind_Ok in H. destruct H as (bws & Ebw & H). apply rbind_Ok in H. destruct H as (st1 & E1 & E2).
    rewrite Es in Ec. cbn [rmap] in Ec. apply rbind_Ok in Ec. destruct Ec as (sc & Ec & Q). cbn [rbind] in Q. injection Q as <-.
    (* nothing to record *)
    assert (Z0 : forall s, sc = (s, 0%Z) -> right_loading st').
    { intros s ->. cbn [filter map snd Z.eqb negb andb] in E1, E2, Ebw. cbn [rmap] in Ebw. injection Ebw as <-. unfold loading_multi in E2. cbn [rfold] in E2. injection E2 as <-.
      unfold loading_single in E1. cbn [rmap rbind map] in E1. apply rbind_Ok in E1. destruct E1 as (sh & _ & E1). apply rbind_Ok in E1. destruct E1 as (rr & _ & E1). cbn [combine rfold rbind] in E1. injection E1 as <-. exact R. }
    destruct (eqb mo om && match k with RdLow | WrHigh => true | _ => false end) eqn:B; [injection Ec as <-; eapply Z0; reflexivity|].
    apply rbind_Ok in Ec. destruct Ec as (op & Eop & Ec). apply rbind_Ok in Ec. destruct Ec as (p & Ep & Ec). apply rbind_Ok in Ec. destruct Ec as (n & En & Ec). injection Ec as <-.
    assert (Ep' := Ep). unfold unit_mem in Ep. apply rbind_Ok in Ep. destruct Ep as ([od ps] & Hx & Hp). apply dgetr_Ok in Hx. apply at_Ok in Hp. cbn [snd] in Hp. assert (En' := En). apply attr_of_entry in En.
    destruct (Z.eqb_spec n 0) as [->|N0]; [eapply Z0; reflexivity|].
    assert (NO : ~ (dget (in_out ci) (lk_data (in_links ci)) = Some mo /\ (k = RdLow \/ k = WrHigh))).
    { intros (Q & Hk). rewrite Eo in Q. injection Q as ->. rewrite eqb_refl in B. destruct Hk as [-> | ->]; discriminate. }
    destruct (Z.eqb_spec n 1) as [N1|N1].
    - subst n. cbn [filter map snd fst Z.eqb negb andb] in E1, E2, Ebw. change (1 =? 1)%Z with true in *. change (1 =? 0)%Z with false in *. cbn [filter map fst negb andb] in E1, E2, Ebw.
      cbn [rmap] in Ebw. injection Ebw as <-. unfold loading_multi in E2. cbn [rfold] in E2. injection E2 as <-.
      unfold loading_single in E1. cbn [rmap] in E1. apply rbind_Ok in E1. destruct E1 as (cm & Ecm & E1). apply rbind_Ok in Ecm. destruct Ecm as (cm1 & Ecm & Q). cbn [rbind] in Q. injection Q as <-.
      rewrite Eop in Ecm. cbn [rbind] in Ecm. unfold dgetr at 1 in Ecm. rewrite Hx in Ecm. cbn [of_option rbind fst] in Ecm. apply rbind_Ok in Ecm. destruct Ecm as (bits & Hb & Ecm). apply at_Ok in Hb.
      apply rbind_Ok in Ecm. destruct Ecm as (mn & Hmn & Ecm). apply pdiv_val in Hmn. destruct Hmn as (-> & _). apply rbind_Ok in Ecm. destruct Ecm as (c & Hc & Ecm). injection Ecm as <-.
      apply rbind_Ok in E1. destruct E1 as (share & Hs & E1). apply pdiv_val in Hs. destruct Hs as (-> & _). cbn [map fst snd] in E1. fold computing in E1.
      change (zsum []) with 0%Z in E1. rewrite Z.sub_0_r in E1.
      set (sp := qmax 0 (inject_Z (pt_bw_max pt) / inject_Z (pt_bw_max pt) * inject_Z computing)) in E1.
      assert (PB' : ~ (inject_Z (pt_bw_max pt) == 0)%Q) by (change 0%Q with (inject_Z 0); rewrite inject_Z_injective; lia).
      assert (CQ : (0 < inject_Z computing)%Q) by (change 0%Q with (inject_Z 0); now rewrite <- Zlt_Qlt).
      assert (Esp : (sp == inject_Z computing)%Q).
      { assert (Q1 : (inject_Z (pt_bw_max pt) / inject_Z (pt_bw_max pt) * inject_Z computing == inject_Z computing)%Q) by (field; exact PB').
        unfold sp. destruct (qmax_cases 0 (inject_Z (pt_bw_max pt) / inject_Z (pt_bw_max pt) * inject_Z computing)) as [(X & Y)|(X & Y)]; rewrite Y; [exact Q1|]. rewrite Q1 in X. lra. }
      destruct (reduce_one (inject_Z c) (inject_Z (Qceiling (inject_Z bits / inject_Z (pt_bw_max pt)))) sp ltac:(rewrite Esp; exact CQ)) as (r & dd & Er & _ & Cases).
      rewrite Er in E1. cbn [rbind fst snd combine rfold] in E1. apply rbind_Ok in E1. destruct E1 as (st2 & Es2 & E1). apply rbind_Ok in Es2. destruct Es2 as (st3 & Es3 & Q). injection Q as <-. injection E1 as <-.
      unfold record_single in Es3. cbn [fst] in Es3. rewrite Eop in Es3. cbn [rbind] in Es3. apply rbind_Ok in Es3. destruct Es3 as (st4 & Es4 & Es3). apply rbind_Ok in Es3. destruct Es3 as (sh2 & _ & Es3). injection Es3 as <-.
      assert (R4 : right_loading st4).
      { eapply right_record; [exact Es4|exact SU| |exact R]. rewrite (HL op od ps p 1%Z c Eop Hx Hp En N0 Hc NO), Hb. change (1 =? 1)%Z with true. cbv iota.
        rewrite Esp in Cases. set (M := Qceiling (inject_Z bits / inject_Z (pt_bw_max pt))) in *. destruct Cases as [(X & ->)|(X & ->)].
        - assert (X' : (c <= M + computing)%Z) by (rewrite Zle_Qle, inject_Z_plus; lra). now rewrite Z.max_l by lia.
        - assert (X' : (M + computing < c)%Z) by (rewrite Zlt_Qlt, inject_Z_plus; lra). rewrite Z.max_r by lia.
          unfold Z.sub. rewrite inject_Z_plus, inject_Z_opp. reflexivity. }
      exact R4.
    - assert (B1 : (n =? 1)%Z = false) by now apply Z.eqb_neq. assert (B0 : (n =? 0)%Z = false) by now apply Z.eqb_neq.
      cbn [filter snd] in E1, E2, Ebw. rewrite B1 in E1. rewrite B0, B1 in E2. cbn [negb andb map fst] in E1, E2.
      assert (R1 : right_loading st1).
      { unfold loading_single in E1. cbn [rmap rbind map] in E1. apply rbind_Ok in E1. destruct E1 as (sh & _ & E1). apply rbind_Ok in E1. destruct E1 as (rr & _ & E1). cbn [combine rfold rbind] in E1. injection E1 as <-. exact R. }
      unfold loading_multi in E2. cbn [rfold fst] in E2. apply rbind_Ok in E2. destruct E2 as (st2 & E2 & Q). injection Q as <-. rewrite Eop in E2. cbn [rbind] in E2. rewrite Ep' in E2. cbn [rbind] in E2. rewrite En' in E2. cbn [rbind] in E2. rewrite B0 in E2.
      apply rbind_Ok in E2. destruct E2 as (c & Hc & E2). eapply right_record; [exact E2|exact SU| |exact R1]. rewrite (HL op od ps p n c Eop Hx Hp En N0 Hc NO), B1. reflexivity.
  Qed.

  Lemma loading_right st : (0 < computing)%Z -> (forall m pt, In m (in_levels ci) -> In pt (ml_ports m) -> right_port pt) -> loading_all ci real stall = Ok st -> right_loading st.
  Proof.
    intros CP H E. unfold loading_all in E. eapply (rfold_inv right_loading); [|exact E|].
    - intros a m a' Im Ea Ra. eapply (rfold_inv right_loading); [|exact Ea|exact Ra]. intros b pt b' Ip Eb Rb. eapply right_port_step; [exact CP|eapply H; eassumption|exact Eb|exact Rb].
    - split; cbn [lo_on lo_off]; intros op d lv k c s D D2.
      + apply dget_In, in_map_iff in D. destruct D as (? & Q & _). injection Q as _ <-. discriminate.
      + cbn [dget] in D. destruct (eqb op (in_out ci)); [injection D as <-; discriminate|discriminate].
  Qed.

  Definition over_levels (op : string) (inner outer : direction) (n : nat) : Z := zsum (map (fun lv => Z.max (load op lv inner) (load op (S lv) outer)) (seq 0 n)).

  Lemma qmax_Z a b x y : (a == inject_Z x)%Q -> (b == inject_Z y)%Q -> (qmax a b == inject_Z (Z.max x y))%Q.
  Proof.
    intros A B. destruct (qmax_cases a b) as [(L & ->)|(L & ->)]; rewrite A, B in L; rewrite <- Zle_Qle in L; [rewrite B, Z.max_r by assumption|rewrite A, Z.max_l by assumption]; reflexivity.
  Qed.

  Lemma parts_right st op n i h s : right_loading st -> Model_Cost.levels_of (in_map ci) op = Ok n -> loading_parts ci st op = Ok (i, h, s) ->
    (i == inject_Z (over_levels op WrHigh RdLow (n - 1)))%Q /\ h = 0%Q /\ s = 0%Q.
  Proof.
    intros (R & _) En H. unfold loading_parts in H. rewrite En in H. cbn [rbind] in H.
    assert (G : forall l i0 h0 s0, rfold (fun (parts : Q * Q * Q) lv => let '(i, h, s) := parts in
             d <- dgetr op (lo_on st) ;; e1 <- dgetr (lv, WrHigh) d ;; e2 <- dgetr (S lv, RdLow) d ;;
             let longest := qmax (fst e1) (fst e2) in
             if negb (snd e1) && negb (snd e2) then Ok ((i + longest)%Q, h, s) else if snd e1 && snd e2 then Ok (i, h, (s + longest)%Q) else Ok (i, longest, s))%result (i0, h0, s0) l = Ok (i, h, s) ->
          (i == i0 + inject_Z (zsum (map (fun lv => Z.max (load op lv WrHigh) (load op (S lv) RdLow)) l)))%Q /\ h = h0 /\ s = s0).
    { clear H En. induction l as [|lv l IH]; intros i0 h0 s0 H; cbn [rfold] in H.
      - injection H as <- <- <-. split; [change (zsum (map _ [])) with 0%Z; change (inject_Z 0) with 0%Q; ring|now split].
      - apply rbind_Ok in H. destruct H as (x & Hx & H). apply rbind_Ok in Hx. destruct Hx as (d & D & Hx). apply dgetr_Ok in D. apply rbind_Ok in Hx. destruct Hx as ([c1 b1] & D1 & Hx). apply dgetr_Ok in D1.
        apply rbind_Ok in Hx. destruct Hx as ([c2 b2] & D2 & Hx). apply dgetr_Ok in D2. destruct (R _ _ _ _ _ _ D D1) as (Q1 & ->). destruct (R _ _ _ _ _ _ D D2) as (Q2 & ->). cbn [fst snd negb andb] in Hx. injection Hx as <-.
        destruct (IH _ _ _ H) as (A & B & C). split; [|now split]. rewrite A, (qmax_Z _ _ _ _ Q1 Q2). cbn [map]. rewrite zsum_cons, inject_Z_plus. ring. }
    destruct (G _ _ _ _ H) as (A & B & C). split; [|now split]. rewrite A. unfold over_levels. ring.
  Qed.

  Lemma onloading_right st on : right_loading st -> onloading ci st = Ok on -> NoDup (in_inputs ci) -> (length (in_inputs ci) <= 2)%nat ->
    (forall op n, In op (in_inputs ci) -> Model_Cost.levels_of (in_map ci) op = Ok n -> (0 <= over_levels op WrHigh RdLow (n - 1))%Z) ->
    exists x, (on == inject_Z x)%Q /\ (0 <= x)%Z /\
      (forall op n, In op (in_inputs ci) -> Model_Cost.levels_of (in_map ci) op = Ok n -> (over_levels op WrHigh RdLow (n - 1) <= x)%Z) /\
      exists op n, In op (in_inputs ci) /\ Model_Cost.levels_of (in_map ci) op = Ok n /\ over_levels op WrHigh RdLow (n - 1) = x.
  Proof.
    intros R H Nd Le Pos. unfold onloading in H. apply rbind_Ok in H. destruct H as (parts & E & H).
    assert (Lv : forall op x, loading_parts ci st op = Ok x -> exists n, Model_Cost.levels_of (in_map ci) op = Ok n).
    { intros op x Q. unfold loading_parts in Q. apply rbind_Ok in Q. destruct Q as (n & En & _). eauto. }
    destruct (in_inputs ci) as [|a [|b [|? ?]]] eqn:Ei; [| | |cbn in Le; lia]; cbn [rmap] in E.
    - injection E as <-. discriminate.
    - apply rbind_Ok in E. destruct E as ([[i h] s] & E1 & E). cbn [rbind] in E. injection E as <-. injection H as <-. destruct (Lv _ _ E1) as (n & En). destruct (parts_right st a n i h s R En E1) as (A & _).
      exists (over_levels a WrHigh RdLow (n - 1)). split; [exact A|]. split; [apply (Pos a n); [now left|exact En]|]. split.
      + intros op n' [<-|[]] En'. rewrite En in En'. injection En' as <-. lia.
      + exists a, n. split; [now left|]. now split.
    - apply rbind_Ok in E. destruct E as ([[i h] s] & E1 & E). apply rbind_Ok in E. destruct E as (rest & E2 & E). injection E as <-. apply rbind_Ok in E2. destruct E2 as ([[i2 h2] s2] & E2 & E). cbn [rbind] in E. injection E as <-. injection H as <-.
      destruct (Lv _ _ E1) as (n & En). destruct (parts_right st a n i h s R En E1) as (A & -> & ->). destruct (Lv _ _ E2) as (n2 & En2). destruct (parts_right st b n2 i2 h2 s2 R En2 E2) as (A2 & -> & ->).
      set (X := over_levels a WrHigh RdLow (n - 1)) in *. set (Y := over_levels b WrHigh RdLow (n2 - 1)) in *. exists (Z.max X Y).
      assert (X0 : (0 <= X)%Z) by (apply (Pos a n); [now left|exact En]). assert (Y0 : (0 <= Y)%Z) by (apply (Pos b n2); [right; now left|exact En2]). split.
      + assert (Q1 : (0 + qmax (0 + 0 + i2) (0 + i) == inject_Z (Z.max X Y))%Q) by (rewrite (qmax_Z _ _ Y X); [rewrite Z.max_comm; ring|rewrite A2; ring|rewrite A; ring]).
        assert (Q2 : (0 + qmax (0 + 0 + i) (0 + i2) == inject_Z (Z.max X Y))%Q) by (rewrite (qmax_Z _ _ X Y); [ring|rewrite A; ring|rewrite A2; ring]).
        destruct (qmin_cases (0 + qmax (0 + 0 + i2) (0 + i)) (0 + qmax (0 + 0 + i) (0 + i2))) as [(_ & ->)|(_ & ->)]; assumption.
      + split; [lia|]. split.
        * intros op n' [<-|[<-|[]]] En'; [rewrite En in En'|rewrite En2 in En']; injection En' as <-; fold X Y; lia.
        * destruct (Z.max_spec X Y) as [(_ & ->)|(_ & ->)]; [exists b, n2|exists a, n]; (split; [cbn; auto|]); now split.
  Qed.

  Lemma offloading_right st off n : right_loading st -> offloading ci st = Ok off -> Model_Cost.levels_of (in_map ci) (in_out ci) = Ok n ->
    (off == inject_Z (over_levels (in_out ci) RdHigh WrLow (n - 1)))%Q.
  Proof.
    intros (_ & R) H En. unfold offloading in H. rewrite En in H. cbn [rbind] in H. apply rbind_Ok in H. destruct H as (l & El & H). injection H as <-. unfold over_levels. revert l El.
    generalize (seq 0 (n - 1)). intros ls. induction ls as [|lv ls IH]; intros l El; cbn [rmap] in El; [injection El as <-; reflexivity|].
    apply rbind_Ok in El. destruct El as (x & Hx & El). apply rbind_Ok in El. destruct El as (l' & El & Q). injection Q as <-.
    apply rbind_Ok in Hx. destruct Hx as (d & D & Hx). apply dgetr_Ok in D. apply rbind_Ok in Hx. destruct Hx as ([c1 b1] & D1 & Hx). apply dgetr_Ok in D1.
    apply rbind_Ok in Hx. destruct Hx as ([c2 b2] & D2 & Hx). apply dgetr_Ok in D2. destruct (R _ _ _ _ _ _ D D1) as (Q1 & _). destruct (R _ _ _ _ _ _ D D2) as (Q2 & _). cbn [fst] in Hx. injection Hx as <-.
    cbn [map]. rewrite qsum_cons, zsum_cons, inject_Z_plus, (IH l' El), (qmax_Z _ _ _ _ Q1 Q2). reflexivity.
  Qed.
End Loading.
