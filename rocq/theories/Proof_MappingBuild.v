(** The mapping of a whole layer. *)
From Coq Require Import QArith Qround Lqa Permutation.
From Verif Require Import Base Model_Alloc Model_Temporal Model_Decouple Model_SpatialInt Model_DataMove
  Model_Mapping Spec_Alloc Spec_Decouple Spec_SpatialInt Spec_Temporal Spec_Mapping
  Proof_AllocSearch Proof_AllocTile Proof_AllocRun Proof_Decouple Proof_DecoupleTotals Proof_SpatialInt Proof_Alloc
  Proof_Bandwidth Proof_MappingLoops Proof_Mapping.
Local Open Scope Q_scope.

Lemma window_0 cur : window 0 cur = 0%Z.
Proof. unfold window, py_int. destruct cur; reflexivity. Qed.

(** * psum flags *)
Definition reducing (ird : list string) (x : qloop) : bool := memb (fst x) ird && negb (Qle_bool (snd x) 1).
Lemma flags_length ird ls : ls <> [] -> length (psum_flags ird ls) = length ls.
Proof.
  intros H. unfold psum_flags, ir_flags. cbv zeta. rewrite app_length, map_length. destruct ls as [|l ls]; [contradiction|].
  cbn [length seq map tl]. rewrite map_length, seq_length. cbn. lia.
Qed.
Lemma existsb_concat {A} (f : A -> bool) ls : existsb (fun b => b) (map (existsb f) ls) = existsb f (concat ls).
Proof. induction ls as [|l ls IH]; [reflexivity|]. cbn. now rewrite existsb_app, IH. Qed.
Lemma flags_nth ird ls i : (i < length ls)%nat ->
  nth_error (psum_flags ird ls) i = Some (existsb (reducing ird) (concat (skipn (S i) ls))).
Proof.
  intros Hi. unfold psum_flags. cbv zeta.
  replace (length (ir_flags ird ls)) with (length ls) by (unfold ir_flags; now rewrite map_length).
  assert (E : forall lv, existsb (fun b => b) (skipn lv (ir_flags ird ls)) = existsb (reducing ird) (concat (skipn lv ls))).
  { intros lv. unfold ir_flags. rewrite skipn_map. apply existsb_concat. }
  destruct ls as [|l ls]; [cbn in Hi; lia|]. cbn [length seq map tl]. cbn [length] in Hi.
  destruct (Nat.lt_ge_cases i (length ls)) as [H|H].
  - rewrite nth_error_app1 by (now rewrite map_length, seq_length).
    assert (En : nth_error (seq 1 (length ls)) i = Some (S i)).
    { rewrite (nth_error_nth' _ 0%nat) by (now rewrite seq_length). now rewrite seq_nth. }
    rewrite (map_nth_error _ _ _ En). f_equal. apply E.
  - rewrite nth_error_app2 by (now rewrite map_length, seq_length). rewrite map_length, seq_length.
    replace (i - length ls)%nat with 0%nat by lia. cbn [nth_error]. f_equal.
    rewrite skipn_all2 by (cbn; lia). reflexivity.
Qed.

(** * external traffic *)
Definition cut (p : pattern) : pattern := update_single_dir_data WrHigh 0%Z (update_single_dir_data RdHigh 0%Z p).
Lemma disable_ok ps : ps <> [] -> exists ps', disable_external ps = Ok ps' /\ length ps' = length ps /\
  forall i p, nth_error ps i = Some p -> nth_error ps' i = Some (if (S i =? length ps)%nat then cut p else p).
Proof.
  induction ps as [|p ps IH]; intros H; [contradiction|]. destruct ps as [|q ps].
  - exists [cut p]. repeat split. intros [|[|i]] x Hx; try discriminate. injection Hx as ->. reflexivity.
  - destruct IH as (ps' & E & L & Hn); [discriminate|]. exists (p :: ps'). 
    change (disable_external (p :: q :: ps)) with (r <- disable_external (q :: ps) ;; Ok (p :: r))%result.
    rewrite E. cbn [rbind]. split; [reflexivity|]. split; [cbn [length]; now rewrite L|].
    intros [|i] x Hx; [injection Hx as ->; reflexivity|]. cbn [nth_error] in *. rewrite (Hn i x Hx). cbn [length]. reflexivity.
Qed.
Definition ext (top : bool) (x : Z) : Z := if top then 0%Z else x.
Lemma cut_unit8 (top : bool) cur next m1 m2 m3 m4 q1 q2 q3 q4 b1 b2 b3 b4 p1 p2 p3 p4 n1 n2 n3 n4 a1 a2 a3 a4 p :
  p = (if top then cut (unit8 cur next (values4 m1 m2 m3 m4) (values4 q1 q2 q3 q4) b1 b2 b3 b4 p1 p2 p3 p4 (values4 n1 n2 n3 n4) (values4 a1 a2 a3 a4))
       else unit8 cur next (values4 m1 m2 m3 m4) (values4 q1 q2 q3 q4) b1 b2 b3 b4 p1 p2 p3 p4 (values4 n1 n2 n3 n4) (values4 a1 a2 a3 a4)) ->
  row p MoveCount m1 m2 (ext top m3) (ext top m4) /\ row p Precision q1 q2 (ext top q3) (ext top q4) /\
  row p BwAver b1 b2 (ext top b3) (ext top b4) /\
  row p BwInst (b1 * cur) (b2 * cur) (ext top (b3 * next)) (ext top (b4 * next)) /\
  row p Period p1 p2 (ext top p3) (ext top p4) /\ row p PeriodCount n1 n2 (ext top n3) (ext top n4) /\
  row p AmountPerPeriod a1 a2 (ext top a3) (ext top a4) /\
  row p TransWindow (window p1 cur) (window p2 cur) (ext top (window p3 next)) (ext top (window p4 next)).
Proof. intros ->. destruct top; repeat split; reflexivity. Qed.

Section Mapping.
  Variable ly : layer.
  Variables (r_dims ir_dims : dict string (list string)) (pr_ops : list string).
  Variables (inputs : list string) (out : string) (macs size_out total : Z) (free : bool) (read_bw : string -> nat -> Z).
  Variable ois : dict string opinput.
  Hypothesis HM : good_mapping ly r_dims ir_dims pr_ops inputs out total ois.
  Let Hly : derived_ok ly := gm_layer _ _ _ _ _ _ _ _ HM.

  Lemma reforms_ok : exists one two, reforms ly r_dims ir_dims pr_ops ois = Ok (one, two) /\
    forall op oi, In (op, oi) ois -> exists c1 c2 l1 l2, combined (oi_spatial oi) (oi_temporal oi) = Ok (c1, c2) /\
      dget op one = Some l1 /\ dget op two = Some l2 /\ decoupled_for ly pr_ops op c1 l1 /\ decoupled_for ly pr_ops op c2 l2.
  Proof.
    destruct (gm_keys _ _ _ _ _ _ _ _ HM) as (K1 & K2 & K3). destruct (gm_ops _ _ _ _ _ _ _ _ HM) as (O1 & O2 & O3 & O4).
    unfold reforms.
    assert (HC : forall op oi, In (op, oi) ois -> exists c1 c2, combined (oi_spatial oi) (oi_temporal oi) = Ok (c1, c2) /\
      (forall x, In x (concat c1) \/ In x (concat c2) -> In x (whole_nest (oi_spatial oi) (oi_temporal oi)))).
    { intros op oi Hin. destruct (go_levels _ _ _ _ _ _ (gm_good _ _ _ _ _ _ _ _ HM op oi Hin)) as [Hal _].
      destruct (combined_ok (oi_spatial oi) (oi_temporal oi) Hal) as (c1 & c2 & E & L1 & L2 & P1 & P2).
      exists c1, c2. split; [exact E|]. intros x [Hx|Hx].
      - apply (within_in_nest _ _ (length (oi_temporal oi)) (S (length (oi_temporal oi)))).
        apply (Permutation_in x (P1 (length (oi_temporal oi)) ltac:(lia))). rewrite <- Hal, <- L1, firstn_all. exact Hx.
      - apply (within_in_nest _ _ (length (oi_spatial oi)) (length (oi_spatial oi))).
        apply (Permutation_in x (P2 (length (oi_spatial oi)) ltac:(lia))). rewrite <- L2, firstn_all. exact Hx. }
    destruct (rmap_list (fun kv => c <- combined (oi_spatial (snd kv)) (oi_temporal (snd kv)) ;; Ok (fst kv, c))%result ois) as (both & EB & LB & HB).
    { intros [op oi] Hin. cbn [fst snd]. destruct (HC op oi Hin) as (c1 & c2 & E & _). rewrite E. cbn [rbind]. eauto. }
    rewrite EB. cbn [rbind]. cbv zeta.
    assert (KB : map fst both = keys ois).
    { apply nth_ext with (d := EmptyString) (d' := EmptyString); [unfold keys; now rewrite !map_length|].
      intros n Hn. rewrite map_length in Hn. unfold keys.
      destruct (nth_lt ois n ltac:(lia)) as ([op oi] & Eo). destruct (HB n (op, oi) Eo) as (y & Ey & Fy).
      rewrite (nth_error_nth _ _ _ (map_nth_error fst _ _ Ey)), (nth_error_nth _ _ _ (map_nth_error fst _ _ Eo)).
      cbn [fst snd] in Fy. destruct (combined _ _); cbn in Fy; [injection Fy as <-; reflexivity|discriminate]. }
    assert (GB : forall op oi, In (op, oi) ois -> exists c1 c2, combined (oi_spatial oi) (oi_temporal oi) = Ok (c1, c2) /\ In (op, (c1, c2)) both).
    { intros op oi Hin. destruct (In_nth_error _ _ Hin) as (n & En). destruct (HB n _ En) as (y & Ey & Fy). cbn [fst snd] in Fy.
      destruct (HC op oi Hin) as (c1 & c2 & E & _). rewrite E in Fy. cbn in Fy. injection Fy as <-. exists c1, c2.
      split; [exact E|eapply nth_error_In, Ey]. }
    assert (DEC : forall g : qlevels * qlevels -> qlevels, (g = fst \/ g = snd) ->
      exists o, decouple_pr_loop ly (rir_dims r_dims ir_dims) pr_ops (map (fun kv => (fst kv, g (snd kv))) both) = Ok o /\
      forall op oi c1 c2, In (op, oi) ois -> combined (oi_spatial oi) (oi_temporal oi) = Ok (c1, c2) ->
        exists l, dget op o = Some l /\ decoupled_for ly pr_ops op (g (c1, c2)) l).
    { intros g Hg.
      assert (GD : forall op oi c1 c2, In (op, oi) ois -> combined (oi_spatial oi) (oi_temporal oi) = Ok (c1, c2) ->
        dget op (map (fun kv => (fst kv, g (snd kv))) both) = Some (g (c1, c2))).
      { intros op oi c1 c2 Hin E. destruct (GB op oi Hin) as (c1' & c2' & E' & Hb). rewrite E in E'. injection E' as <- <-.
        apply In_dget; [unfold keys; rewrite map_map; change (NoDup (map fst both)); rewrite KB; exact K1|].
        apply in_map_iff. exists (op, (c1, c2)). split; [reflexivity|exact Hb]. }
      destruct (decouple_ok ly Hly (rir_dims r_dims ir_dims) pr_ops (map (fun kv => (fst kv, g (snd kv))) both)) as (o & Eo & _ & D1 & D2).
      { intros op Hp. specialize (O4 op Hp). unfold keys in O4. apply in_map_iff in O4 as ([op' oi] & Eop & Hin). cbn in Eop. subst op'.
        pose proof (gm_good _ _ _ _ _ _ _ _ HM op oi Hin) as Hgo.
        destruct (go_relevancy _ _ _ _ _ _ Hgo) as (r & ir & Er & Ei & _).
        destruct (HC op oi Hin) as (c1 & c2 & E & Hn).
        exists (r ++ ir)%list, (g (c1, c2)). split; [now apply (good_rir r_dims ir_dims op K2)|]. split; [now apply (GD op oi)|].
        apply (good_operand_ok ly r_dims ir_dims pr_ops op oi Hgo r ir); auto.
        intros x Hx. apply Hn. destruct Hg as [-> | ->]; cbn in Hx; tauto. }
      exists o. split; [exact Eo|]. intros op oi c1 c2 Hin E. pose proof (GD op oi c1 c2 Hin E) as GDo.
      destruct (in_dec string_dec op pr_ops) as [Hp|Hp].
      - destruct (D2 op _ GDo Hp) as (l & El & Hd). exists l. split; [exact El|]. left. split; assumption.
      - exists (g (c1, c2)). split; [now apply D1|]. right. split; [exact Hp|reflexivity]. }
    destruct (DEC fst (or_introl eq_refl)) as (one & E1 & D1). rewrite E1. cbn [rbind].
    destruct (DEC snd (or_intror eq_refl)) as (two & E2 & D2). rewrite E2. cbn [rbind].
    exists one, two. split; [reflexivity|]. intros op oi Hin. destruct (HC op oi Hin) as (c1 & c2 & E & _).
    destruct (D1 op oi c1 c2 Hin E) as (l1 & F1 & G1). destruct (D2 op oi c1 c2 Hin E) as (l2 & F2 & G2).
    exists c1, c2, l1, l2. repeat split; assumption.
  Qed.

  Definition input_row (op : string) (oi : opinput) (od : opdata) (precision : list Z) (i : nat) (p : pattern) : Prop :=
    let E := ext (S i =? length (oi_temporal oi))%nat in
    exists prec raw rl wh bh bl c c' e b e' cur next,
      (row p MoveCount rl 0 0 (E wh) /\ row p Precision prec 0 0 (E prec) /\
       row p BwAver (py_int bh) 0 0 (E (py_int bl)) /\ row p BwInst (py_int bh * cur) 0 0 (E (py_int bl * next)) /\
       row p Period c 0 0 (E c') /\ row p PeriodCount (total / c) 0 0 (E (total / c')) /\
       row p AmountPerPeriod (e * b) 0 0 (E e') /\ row p TransWindow (window c cur) 0 0 (E (window c' next)))%Z /\
      dget op (l_precision ly) = Some prec /\
      nth_error (od_raw od) i = Some raw /\ reads_merged free oi od i raw rl /\ nth_error (od_raw2 od) (S i) = Some wh /\
      rates_facts inputs free op oi od precision i bh bl c c' e b e' /\
      nth_error (oi_top_ir oi) i = Some cur /\ nth_error (oi_top_ir oi) (S i) = Some next.

  Definition output_row (op : string) (oi : opinput) (od : opdata) (precision : list Z) (flags : list bool)
      (ird : list string) (reform1 : qlevels) (i : nat) (p : pattern) : Prop :=
    let E := ext (S i =? length (oi_temporal oi))%nat in
    exists full wl rh c1 c2 bh bl c c' e b e' cur next f f',
      let rl := py_int (inject_Z size_out * (c1 - 1)) in
      let wh := py_int (inject_Z size_out * (c2 - 1)) in
      let low (x : Z) := if (f : bool) then x else 0%Z in
      let high (x : Z) := if (f' : bool) then x else 0%Z in
      let fin := l_final_precision ly in
      (row p MoveCount rl wl (E rh) (E wh) /\
       row p Precision (if (rl =? 0)%Z then 0 else full) (if (rl =? 0)%Z then fin else full)
                     (E (if (wh =? 0)%Z then fin else full)) (E (if (wh =? 0)%Z then 0 else full)) /\
       row p BwAver (low (py_int bh)) (py_int bh) (E (py_int bl)) (E (high (py_int bl))) /\
       row p BwInst (low (py_int bh) * cur) (py_int bh * cur) (E (py_int bl * next)) (E (high (py_int bl) * next)) /\
       row p Period (low c) c (E c') (E (high c')) /\
       row p PeriodCount (low (total / c)) (total / c) (E (total / c')) (E (high (total / c'))) /\
       row p AmountPerPeriod (low (e * b)) (e * b) (E e') (E (high e')) /\
       row p TransWindow (window (low c) cur) (window c cur) (E (window c' next)) (E (window (high c') next)))%Z /\
      dget op (l_precision ly) = Some full /\
      nth_error (od_raw od) i = Some wl /\ nth_error (od_raw2 od) (S i) = Some rh /\
      nth_error flags i = Some f /\ nth_error flags (S i) = Some f' /\
      c1 == iterations_of (filter (fun x => memb (fst x) ird) (concat (skipn (S i) reform1))) /\
      c2 == iterations_of (filter (fun x => memb (fst x) ird) (concat (skipn (S (S i)) reform1))) /\
      rates_facts inputs free op oi od precision i bh bl c c' e b e' /\
      nth_error (oi_top_ir oi) i = Some cur /\ nth_error (oi_top_ir oi) (S i) = Some next.

  Lemma mapping_built : exists flags res, build_mapping ly r_dims ir_dims pr_ops inputs out macs size_out total free read_bw ois = Ok (flags, res) /\
    keys res = keys ois /\
    (exists oio lsO ir c1 c2, In (out, oio) ois /\ dget out ir_dims = Some ir /\ combined (oi_spatial oio) (oi_temporal oio) = Ok (c1, c2) /\
       decoupled_for ly pr_ops out c1 lsO /\ flags = psum_flags (ir ++ map ir_version (keys (l_pr_loop ly)))%list lsO) /\
    forall op oi, In (op, oi) ois -> exists od ps precision r ir c1 c2 l1 l2,
      dget op res = Some (od, ps) /\ length ps = length (oi_temporal oi) /\
      dget op r_dims = Some r /\ dget op ir_dims = Some ir /\
      combined (oi_spatial oi) (oi_temporal oi) = Ok (c1, c2) /\ decoupled_for ly pr_ops op c1 l1 /\ decoupled_for ly pr_ops op c2 l2 /\
      opdata_facts ly macs op oi (ir ++ map ir_version (keys (l_pr_loop ly)))%list l1 l2 precision od /\
      length precision = length (oi_spatial oi) /\
      (In op inputs -> (forall i q, nth_error precision i = Some q -> dget op (l_precision ly) = Some q) /\
        forall i p, nth_error ps i = Some p -> input_row op oi od precision i p) /\
      (op = out -> (forall i q f, nth_error precision i = Some q -> nth_error flags i = Some f ->
           if f : bool then dget out (l_precision ly) = Some q else q = l_final_precision ly) /\
        forall i p, nth_error ps i = Some p -> output_row op oi od precision flags (ir ++ map ir_version (keys (l_pr_loop ly)))%list l1 i p).
  Proof.
    destruct (gm_keys _ _ _ _ _ _ _ _ HM) as (K1 & K2 & K3). destruct (gm_ops _ _ _ _ _ _ _ _ HM) as (O1 & O2 & O3 & O4).
    destruct reforms_ok as (one & two & ER & HR).
    unfold keys in O1. apply in_map_iff in O1 as ([o' oio] & Eo & Ho). cbn in Eo. subst o'.
    destruct (HR out oio Ho) as (co1 & co2 & lo1 & lo2 & EC & D1 & D2 & G1 & G2).
    pose proof (gm_good _ _ _ _ _ _ _ _ HM out oio Ho) as Hgo.
    destruct (go_relevancy _ _ _ _ _ _ Hgo) as (ro & iro & Ero & Eio & _).
    set (irdo := (iro ++ map ir_version (keys (l_pr_loop ly)))%list).
    set (flags := psum_flags irdo lo1).
    destruct (go_levels _ _ _ _ _ _ Hgo) as [Halo Hneo].
    assert (Ld : forall op ls ls', decoupled_for ly pr_ops op ls ls' -> length ls' = length ls).
    { intros op ls ls' [[_ H]|[_ ->]]; [now apply (decs_length ly [] ls ls')|reflexivity]. }
    assert (Lo1 : length lo1 = length (oi_spatial oio)).
    { destruct (combined_ok _ _ Halo) as (x1 & x2 & Ex & L1 & _). rewrite EC in Ex. injection Ex as <- <-.
      rewrite (Ld _ _ _ G1). exact L1. }
    assert (Lf : length flags = length (oi_spatial oio)).
    { unfold flags. rewrite flags_length; [exact Lo1|]. intros E. rewrite E in Lo1. cbn in Lo1. lia. }
    assert (OPS : forall op oi, In (op, oi) ois -> exists od ps precision r ir c1 c2 l1 l2,
      (l1' <- dgetr op one ;; l2' <- dgetr op two ;;
       m <- operand_movement ly r_dims ir_dims inputs out macs size_out total free read_bw flags op oi l1' l2' ;;
       ps <- disable_external (snd m) ;; Ok (op, (fst m, ps)))%result = Ok (op, (od, ps)) /\ length ps = length (oi_temporal oi) /\
      dget op r_dims = Some r /\ dget op ir_dims = Some ir /\
      combined (oi_spatial oi) (oi_temporal oi) = Ok (c1, c2) /\ decoupled_for ly pr_ops op c1 l1 /\ decoupled_for ly pr_ops op c2 l2 /\
      opdata_facts ly macs op oi (ir ++ map ir_version (keys (l_pr_loop ly)))%list l1 l2 precision od /\
      length precision = length (oi_spatial oi) /\
      (In op inputs -> (forall i q, nth_error precision i = Some q -> dget op (l_precision ly) = Some q) /\
        forall i p, nth_error ps i = Some p -> input_row op oi od precision i p) /\
      (op = out -> (forall i q f, nth_error precision i = Some q -> nth_error flags i = Some f ->
           if f : bool then dget out (l_precision ly) = Some q else q = l_final_precision ly) /\
        forall i p, nth_error ps i = Some p -> output_row op oi od precision flags (ir ++ map ir_version (keys (l_pr_loop ly)))%list l1 i p)).
    { intros op oi Hin. destruct (HR op oi Hin) as (c1 & c2 & l1 & l2 & EC' & D1' & D2' & G1' & G2').
      pose proof (gm_good _ _ _ _ _ _ _ _ HM op oi Hin) as Hg. pose proof (gm_tables _ _ _ _ _ _ _ _ HM op oi Hin) as Ht.
      destruct (go_relevancy _ _ _ _ _ _ Hg) as (r & ir & Er & Ei & _). destruct (go_levels _ _ _ _ _ _ Hg) as [Hal Hne].
      assert (exists prec, dget op (l_precision ly) = Some prec) as (prec & Eprec).
      { destruct (dget op (l_precision ly)) eqn:E; [eauto|]. apply dget_None in E. destruct (E (gt_precision _ _ _ _ _ _ Ht)). }
      assert (L1' : length l1 = length (oi_spatial oi)).
      { destruct (combined_ok _ _ Hal) as (x1 & x2 & Ex & L1 & _). rewrite EC' in Ex. injection Ex as <- <-.
        rewrite (Ld _ _ _ G1'). exact L1. }
      unfold dgetr. rewrite D1', D2'. cbn [of_option rbind].
      assert (MAIN : exists od ps0 precision,
        operand_movement ly r_dims ir_dims inputs out macs size_out total free read_bw flags op oi l1 l2 = Ok (od, ps0) /\
        length ps0 = length (oi_temporal oi) /\
        opdata_facts ly macs op oi (ir ++ map ir_version (keys (l_pr_loop ly)))%list l1 l2 precision od /\
        length precision = length (oi_spatial oi) /\
        (In op inputs -> (forall i q, nth_error precision i = Some q -> dget op (l_precision ly) = Some q) /\
          forall i p0 p, nth_error ps0 i = Some p0 -> p = (if (S i =? length (oi_temporal oi))%nat then cut p0 else p0) -> input_row op oi od precision i p) /\
        (op = out -> (forall i q f, nth_error precision i = Some q -> nth_error flags i = Some f ->
           if f : bool then dget out (l_precision ly) = Some q else q = l_final_precision ly) /\
          forall i p0 p, nth_error ps0 i = Some p0 -> p = (if (S i =? length (oi_temporal oi))%nat then cut p0 else p0) ->
            output_row op oi od precision flags (ir ++ map ir_version (keys (l_pr_loop ly)))%list l1 i p)).
      { unfold operand_movement. cbv zeta. destruct (memb op inputs) eqn:Em.
        - apply memb_In in Em. unfold precision_in, dgetr. rewrite Eprec. cbn [of_option rbind].
          set (precision := repeat prec (S (length (oi_temporal oi)))).
          assert (Lp : length precision = length (oi_spatial oi)) by (unfold precision; rewrite repeat_length; lia).
          destruct (opdata_ok ly Hly r_dims ir_dims pr_ops macs total read_bw op oi Hg Ht c1 c2 l1 l2 precision r ir _ _ EC' Er Ei eq_refl eq_refl G1' G2' Lp)
            as (od & Eod & Hod). rewrite Eod. cbn [rbind].
          destruct (bw_ok ly r_dims ir_dims pr_ops inputs macs total free read_bw op oi Hg Ht _ _ _ _ _ Hod Lp) as (bw & Ebw & Hbw).
          rewrite Ebw. cbn [rbind].
          destruct (rmap_seq (fun i => p <- (p <- access_input ly free read_bw op oi od i ;; rates_input inputs total free op oi od bw i p) ;; instants oi i p)%result
            (length (oi_temporal oi)) 0) as (ps & Eps & Lps & Hps).
          { intros i Hi. cbn [Nat.add]. destruct (input_unit ly r_dims ir_dims pr_ops inputs macs total free read_bw op oi Hg Ht _ _ _ _ _ bw i prec Hod Hi Eprec (Hbw i Hi))
              as (raw & rl & wh & bh & bl & c & c' & e & b & e' & cur & next & E & _). rewrite E. eauto. }
          rewrite Eps. cbn [rbind]. exists od, ps, precision. split; [reflexivity|]. split; [exact Lps|]. split; [exact Hod|]. split; [exact Lp|].
          split; [|intros ->; contradiction]. intros _. split.
          + intros i q Hq. apply nth_error_In, repeat_spec in Hq. now subst q.
          + intros i p0 p Hp0 Ep. assert (Hi : (i < length (oi_temporal oi))%nat) by (rewrite <- Lps; apply nth_error_Some; congruence).
            destruct (Hps i Hi) as (y & Ey & Fy). rewrite Hp0 in Ey. injection Ey as <-. cbn [Nat.add] in Fy.
            destruct (input_unit ly r_dims ir_dims pr_ops inputs macs total free read_bw op oi Hg Ht _ _ _ _ _ bw i prec Hod Hi Eprec (Hbw i Hi))
              as (raw & rl & wh & bh & bl & c & c' & e & b & e' & cur & next & E & R1 & R2 & R3 & R4 & R5 & R6).
            rewrite Fy in E. injection E as E. subst p0. apply cut_unit8 in Ep. rewrite !window_0 in Ep.
            exists prec, raw, rl, wh, bh, bl, c, c', e, b, e', cur, next.
            split; [|split; [exact Eprec|split; [exact R1|split; [exact R2|split; [exact R3|split; [exact R4|split; [exact R5|exact R6]]]]]]].
            destruct (S i =? length (oi_temporal oi))%nat; exact Ep.
        - assert (Hop : op = out).
          { destruct (O3 op) as [E|E]; [unfold keys; apply in_map_iff; now exists (op, oi)|exact E|]. apply memb_In in E. congruence. }
          assert (Eoi : oi = oio).
          { rewrite Hop in Hin. pose proof (In_dget _ _ _ K1 Hin) as A1. pose proof (In_dget _ _ _ K1 Ho) as A2. congruence. }
          assert (PO : exists precision, precision_out ly out flags (length (oi_temporal oi)) = Ok precision /\ length precision = length (oi_spatial oi) /\
             forall i q f, nth_error precision i = Some q -> nth_error flags i = Some f ->
               if f : bool then dget out (l_precision ly) = Some q else q = l_final_precision ly).
          { unfold precision_out. destruct (rmap_seq (fun i => b <- at_ flags i ;; if b : bool then dgetr out (l_precision ly) else Ok (l_final_precision ly))%result
              (S (length (oi_temporal oi))) 0) as (pr & Epr & Lpr & Hpr).
            { intros i Hi. cbn [Nat.add]. destruct (nth_lt flags i ltac:(subst oi; lia)) as (f & Ef). rewrite (at_ok _ _ _ Ef). cbn [rbind].
              unfold dgetr. rewrite <- Hop, Eprec. destruct f; cbn; eauto. }
            exists pr. split; [exact Epr|]. split; [lia|]. intros i q f Hq Hf.
            assert (Hi : (i < S (length (oi_temporal oi)))%nat) by (rewrite <- Lpr; apply nth_error_Some; congruence).
            destruct (Hpr i Hi) as (y & Ey & Fy). cbn [Nat.add] in Fy. rewrite (at_ok _ _ _ Hf) in Fy. cbn [rbind] in Fy.
            rewrite Hq in Ey. injection Ey as <-. destruct f; [|injection Fy as ->; reflexivity].
            unfold dgetr in Fy. destruct (dget out (l_precision ly)); cbn in Fy; congruence. }
          destruct PO as (precision & Epo & Lp & Hpo). rewrite Epo. cbn [rbind].
          destruct (opdata_ok ly Hly r_dims ir_dims pr_ops macs total read_bw op oi Hg Ht c1 c2 l1 l2 precision r ir _ _ EC' Er Ei eq_refl eq_refl G1' G2' Lp)
            as (od & Eod & Hod). rewrite Eod. cbn [rbind].
          destruct (bw_ok ly r_dims ir_dims pr_ops inputs macs total free read_bw op oi Hg Ht _ _ _ _ _ Hod Lp) as (bw & Ebw & Hbw).
          rewrite Ebw. cbn [rbind].
          pose proof (fun i Hi => output_unit ly r_dims ir_dims pr_ops inputs out macs size_out total free read_bw op oi Hg Ht _ _ _ _ _ bw i prec flags
             Hop L1' Hod Hi ltac:(subst oi; exact Lf) Eprec (Hbw i Hi)) as HU.
          destruct (rmap_seq (fun i => p <- (p <- access_output ly out size_out od i ;; rates_output inputs out total free flags oi od bw i p) ;; instants oi i p)%result
            (length (oi_temporal oi)) 0) as (ps & Eps & Lps & Hps).
          { intros i Hi. cbn [Nat.add]. destruct (HU i Hi) as (wl & rh & k1 & k2 & bh & bl & c & c' & e & b & e' & cur & next & f & f' & E & _).
            rewrite E. eauto. }
          rewrite Eps. cbn [rbind]. exists od, ps, precision. split; [reflexivity|]. split; [exact Lps|]. split; [exact Hod|]. split; [exact Lp|].
          split; [intros Hi; apply memb_In in Hi; congruence|]. intros _. split; [exact Hpo|].
          intros i p0 p Hp0 Ep. assert (Hi : (i < length (oi_temporal oi))%nat) by (rewrite <- Lps; apply nth_error_Some; congruence).
          destruct (Hps i Hi) as (y & Ey & Fy). rewrite Hp0 in Ey. injection Ey as <-. cbn [Nat.add] in Fy.
          destruct (HU i Hi) as (wl & rh & k1 & k2 & bh & bl & c & c' & e & b & e' & cur & next & f & f' & E & R).
          rewrite Fy in E. injection E as E. subst p0. apply cut_unit8 in Ep.
          exists prec, wl, rh, k1, k2, bh, bl, c, c', e, b, e', cur, next, f, f'. cbv zeta.
          split; [exact Ep|split; [exact Eprec|exact R]]. }
      destruct MAIN as (od & ps0 & precision & Eom & Lps & Hod & Lp & HI & HO). rewrite Eom. cbn [rbind fst snd].
      destruct (disable_ok ps0) as (ps & Ed & Ld' & Hd).
      { intros E. subst ps0. cbn in Lps. destruct (oi_temporal oi); [contradiction|discriminate]. }
      rewrite Ed. cbn [rbind]. rewrite Lps in Hd, Ld'.
      assert (BACK : forall i p, nth_error ps i = Some p -> exists p0, nth_error ps0 i = Some p0 /\ p = (if (S i =? length (oi_temporal oi))%nat then cut p0 else p0)).
      { intros i p Hp. assert (Hi : (i < length (oi_temporal oi))%nat) by (rewrite <- Ld'; apply nth_error_Some; congruence).
        destruct (nth_lt ps0 i ltac:(lia)) as (p0 & E0). exists p0. split; [exact E0|]. apply Hd in E0. congruence. }
      exists od, ps, precision, r, ir, c1, c2, l1, l2.
      split; [reflexivity|]. split; [exact Ld'|]. split; [exact Er|]. split; [exact Ei|]. split; [exact EC'|]. split; [exact G1'|]. split; [exact G2'|].
      split; [exact Hod|]. split; [exact Lp|]. split.
      - intros Hi. destruct (HI Hi) as [A B]. split; [exact A|]. intros i p Hp. destruct (BACK i p Hp) as (p0 & E0 & E1). now apply (B i p0).
      - intros Hi. destruct (HO Hi) as [A B]. split; [exact A|]. intros i p Hp. destruct (BACK i p Hp) as (p0 & E0 & E1). now apply (B i p0). }
    unfold build_mapping. rewrite ER. cbn [rbind fst snd].
    assert (EIRD : decoupled_ir_dims ly ir_dims out = Ok irdo) by (unfold decoupled_ir_dims, dgetr; rewrite Eio; reflexivity).
    rewrite EIRD. cbn [rbind]. assert (EL : dgetr out one = Ok lo1) by (unfold dgetr; now rewrite D1). rewrite EL. cbn [rbind]. cbv zeta.
    fold flags.
    destruct (rmap_list (fun kv => l1' <- dgetr (fst kv) one ;; l2' <- dgetr (fst kv) two ;;
       m <- operand_movement ly r_dims ir_dims inputs out macs size_out total free read_bw flags (fst kv) (snd kv) l1' l2' ;;
       ps <- disable_external (snd m) ;; Ok (fst kv, (fst m, ps)))%result ois) as (res & Eres & Lres & Hres).
    { intros [op oi] Hin. cbn [fst snd]. destruct (OPS op oi Hin) as (od & ps & precision & r & ir & c1 & c2 & l1 & l2 & E & _). rewrite E. eauto. }
    rewrite Eres. cbn [rbind]. exists flags, res. split; [reflexivity|].
    assert (KR : keys res = keys ois).
    { unfold keys. apply nth_ext with (d := EmptyString) (d' := EmptyString); [now rewrite !map_length|].
      intros n Hn. rewrite map_length in Hn. destruct (nth_lt ois n ltac:(lia)) as ([op oi] & Eo). destruct (Hres n (op, oi) Eo) as (y & Ey & Fy).
      rewrite (nth_error_nth _ _ _ (map_nth_error fst _ _ Ey)), (nth_error_nth _ _ _ (map_nth_error fst _ _ Eo)).
      cbn [fst snd] in Fy |- *. destruct (OPS op oi (nth_error_In _ _ Eo)) as (od & ps & precision & r & ir & c1 & c2 & l1 & l2 & E & _).
      rewrite E in Fy. injection Fy as <-. reflexivity. }
    split; [exact KR|]. split.
    { exists oio, lo1, iro, co1, co2. repeat split; assumption. }
    intros op oi Hin. destruct (OPS op oi Hin) as (od & ps & precision & r & ir & c1 & c2 & l1 & l2 & E & REST).
    exists od, ps, precision, r, ir, c1, c2, l1, l2. split; [|exact REST].
    destruct (In_nth_error _ _ Hin) as (n & En). destruct (Hres n _ En) as (y & Ey & Fy). cbn [fst snd] in Fy. rewrite E in Fy. injection Fy as <-.
    apply In_dget; [rewrite KR; exact K1|eapply nth_error_In, Ey].
  Qed.
End Mapping.
