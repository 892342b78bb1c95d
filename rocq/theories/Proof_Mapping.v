(** The mapping is built, and what its tables hold. *)
From Coq Require Import QArith Qround Lqa Permutation.
From Verif Require Import Base Model_Alloc Model_Temporal Model_Decouple Model_SpatialInt Model_DataMove
  Model_Mapping Spec_Alloc Spec_Decouple Spec_SpatialInt Spec_Temporal Spec_Mapping
  Proof_AllocSearch Proof_AllocTile Proof_AllocRun Proof_Decouple Proof_DecoupleTotals Proof_SpatialInt Proof_Alloc
  Proof_MappingLoops.
Local Open Scope Q_scope.

Lemma nearest_comp q q' n : q == q' -> nearest q n -> nearest q' n.
Proof.
  intros E [[H1 H2] H3]. split; [split; lra|]. intros [H|H]; apply H3; [left|right]; lra.
Qed.

Lemma at_ok {A} (l : list A) i x : nth_error l i = Some x -> at_ l i = Ok x.
Proof. unfold at_. now intros ->. Qed.
Lemma nth_lt {A} (l : list A) i : (i < length l)%nat -> exists x, nth_error l i = Some x.
Proof. intros H. destruct (nth_error l i) eqn:E; [eauto|]. apply nth_error_None in E. lia. Qed.

Lemma rmap_seq {B} (f : nat -> result B) n : forall s,
  (forall i, (i < n)%nat -> exists y, f (s + i)%nat = Ok y) ->
  exists ys, rmap f (seq s n) = Ok ys /\ length ys = n /\
    forall i, (i < n)%nat -> exists y, nth_error ys i = Some y /\ f (s + i)%nat = Ok y.
Proof.
  induction n as [|n IH]; intros s H.
  - exists []. repeat split. intros i Hi. lia.
  - destruct (H 0%nat ltac:(lia)) as (y & Ey). rewrite Nat.add_0_r in Ey.
    destruct (IH (S s)) as (ys & E & L & Hn).
    { intros i Hi. destruct (H (S i) ltac:(lia)) as (z & Ez). exists z. rewrite <- Ez. f_equal. lia. }
    exists (y :: ys). cbn [seq rmap]. rewrite Ey. cbn. rewrite E. cbn. split; [reflexivity|]. split; [now rewrite L|].
    intros [|i] Hi; [exists y; split; [reflexivity|now rewrite Nat.add_0_r]|].
    destruct (Hn i ltac:(lia)) as (z & Ez & Fz). exists z. split; [exact Ez|]. rewrite <- Fz. f_equal. lia.
Qed.
Lemma rmap_list {A B} (f : A -> result B) l : (forall x, In x l -> exists y, f x = Ok y) ->
  exists ys, rmap f l = Ok ys /\ length ys = length l /\
    forall i x, nth_error l i = Some x -> exists y, nth_error ys i = Some y /\ f x = Ok y.
Proof.
  induction l as [|x l IH]; intros H.
  - exists []. repeat split. intros [|i] x; discriminate.
  - destruct (H x (or_introl eq_refl)) as (y & Ey). destruct IH as (ys & E & L & Hn); [intros; apply H; now right|].
    exists (y :: ys). cbn [rmap]. rewrite Ey. cbn. rewrite E. cbn. split; [reflexivity|]. split; [now rewrite L|].
    intros [|i] z Hz; [injection Hz as <-; now exists y|now apply Hn].
Qed.

Lemma pdiv_ok a b : ~ b == 0 -> pdiv a b = Ok (a / b).
Proof.
  intros H. unfold pdiv, qis0. destruct (Qeq_bool b 0) eqn:E; [|reflexivity]. apply Qeq_bool_eq in E. contradiction.
Qed.
Lemma zfloordiv_ok a b : (1 <= b)%Z -> zfloordiv a b = Ok (a / b)%Z.
Proof. intros H. unfold zfloordiv. destruct (Z.eqb_spec b 0); [lia|reflexivity]. Qed.
Lemma inject_nz b : (1 <= b)%Z -> ~ inject_Z b == 0.
Proof. intros H E. apply (proj1 (inject_Z_injective b 0)) in E. lia. Qed.

Lemma nth_error_map' {A B} (f : A -> B) l i x : nth_error l i = Some x -> nth_error (map f l) i = Some (f x).
Proof. apply map_nth_error. Qed.

(** * patterns *)
Definition mk8 (a b c d e f g h : four Z) : pattern :=
  [(MoveCount, a); (Precision, b); (BwAver, c); (BwInst, d); (Period, e); (PeriodCount, f); (AmountPerPeriod, g); (TransWindow, h)].
Lemma new_pattern_eq : new_pattern = Ok (mk8 (values4 0 0 0 0) (values4 0 0 0 0) (values4 0 0 0 0) (values4 0 0 0 0)
  (values4 0 0 0 0) (values4 0 0 0 0) (values4 0 0 0 0) (values4 0 0 0 0)).
Proof. reflexivity. Qed.
Lemma set4 a w x y z p : set_attribute a (values4 w x y z) p = Ok (dset a (values4 w x y z) p).
Proof. reflexivity. Qed.

Section Operand.
  Variable ly : layer.
  Hypothesis Hly : derived_ok ly.
  Variables (r_dims ir_dims : dict string (list string)) (pr_ops : list string).
  Variables (inputs : list string) (out : string) (macs size_out total : Z) (free : bool) (read_bw : string -> nat -> Z).
  Variables (op : string) (oi : opinput).
  Hypothesis Hgood : good_operand ly r_dims ir_dims pr_ops op oi.
  Hypothesis Htab : good_tables ly r_dims pr_ops total op oi.
  Notation su := (oi_spatial oi).
  Notation tm := (oi_temporal oi).
  Notation mem := (length (oi_temporal oi)).
  Notation arch := (length (oi_spatial oi)).

  Record opdata_facts (ird : list string) (reform1 reform2 : qlevels) (precision : list Z) (od : opdata) : Prop := {
    of_ir_level : od_ir_level od = sizes_in ird reform1;
    of_precision : od_precision od = precision;
    of_r : forall lv, (lv < arch)%nat -> exists n, nth_error (od_r_cabl od) lv = Some n /\
      nearest (tile_elements ly op (within su tm lv (S lv))) n;
    of_elem_u : forall lv, (lv < arch)%nat -> exists n, nth_error (od_elem_unrolled od) lv = Some n /\
      nearest (tile_elements ly op (within su tm lv lv)) n;
    of_bit_u : forall lv, (lv < arch)%nat -> exists e p, nth_error (od_elem_unrolled od) lv = Some e /\
      nth_error precision lv = Some p /\ nth_error (od_bit_unrolled od) lv = Some (e * p)%Z;
    of_elem : forall lv, (lv < arch)%nat -> exists e u n, nth_error (od_elem_unrolled od) lv = Some e /\
      nth_error (unit_unique (oi_counts oi)) lv = Some u /\ nth_error (od_elem od) lv = Some n /\ nearest (inject_Z e * u) n;
    of_bit : forall lv, (lv < arch)%nat -> exists e p, nth_error (od_elem od) lv = Some e /\
      nth_error precision lv = Some p /\ nth_error (od_bit od) lv = Some (e * p)%Z;
    of_eff : forall lv, (lv < arch)%nat -> exists e b t, nth_error (od_elem_unrolled od) lv = Some e /\
      nth_error (od_bit_unrolled od) lv = Some b /\ nth_error (oi_top_r oi) lv = Some t /\
      nth_error (od_effective_elem od) lv = Some (e / t)%Z /\ nth_error (od_effective_bit od) lv = Some (b / t)%Z;
    of_raw : forall lv, (lv < arch)%nat -> exists n, nth_error (od_raw od) lv = Some n /\
      moves ly op macs (within su tm lv (S lv)) n;
    of_raw2 : forall lv, (lv < arch)%nat -> exists n, nth_error (od_raw2 od) lv = Some n /\
      moves ly op macs (within su tm lv lv) n;
    of_bits : length (od_bit_unrolled od) = arch }.

  Lemma within_ge_1 i j : 1 <= iterations_of (within su tm i j).
  Proof.
    apply iterations_ge_1. intros x Hx. apply within_in_nest in Hx. now apply (go_sizes _ _ _ _ _ _ Hgood).
  Qed.

  (** the cumulative lists of one of the two combinations *)
  Lemma cumulative r ir rd ird ls ls' (W : nat -> list (string * Q)) n :
    dget op r_dims = Some r -> dget op ir_dims = Some ir ->
    rd = (r ++ map r_version (keys (l_pr_loop ly)))%list -> ird = (ir ++ map ir_version (keys (l_pr_loop ly)))%list ->
    decoupled_for ly pr_ops op ls ls' -> (n <= length ls')%nat ->
    (forall x, In x (concat ls) -> In x (whole_nest su tm)) ->
    (forall i, (i < n)%nat -> Permutation (concat (firstn (S i) ls)) (W i)) ->
    (forall i x, (i < n)%nat -> In x (W i) -> In x (whole_nest su tm)) ->
    forall lv, (lv < n)%nat ->
    exists q q', nth_error (cabl (sizes_in rd (firstn n ls'))) lv = Some q /\
      q == tile_elements ly op (W lv) /\
      nth_error (cabl (sizes_in ird (firstn n ls'))) lv = Some q' /\
      ~ q' == 0 /\ inject_Z macs / q' == inject_Z macs / iterations_of (W lv) * tile_elements ly op (W lv).
  Proof.
    intros Er Ei Erd Eird Hd Hn HL HW HWin lv Hlv.
    destruct (prefix_products ly Hly r_dims ir_dims pr_ops op oi Hgood r ir rd ird ls ls' (S lv) Er Ei Erd Eird HL Hd)
      as (P1 & P2 & _).
    rewrite (tile_elements_perm ly op _ _ (HW lv Hlv)) in P1, P2.
    rewrite (iterations_perm _ _ (HW lv Hlv)) in P2.
    assert (HI : 1 <= iterations_of (W lv)).
    { apply iterations_ge_1. intros x Hx. apply (HWin lv x Hlv) in Hx. now apply (go_sizes _ _ _ _ _ _ Hgood). }
    assert (F : firstn (S lv) (firstn n ls') = firstn (S lv) ls') by (rewrite firstn_firstn; f_equal; lia).
    assert (L : forall ds, length (sizes_in ds (firstn n ls')) = n).
    { intros ds. rewrite sizes_in_length, firstn_length. lia. }
    exists (qprod (firstn (S lv) (sizes_in rd (firstn n ls')))), (qprod (firstn (S lv) (sizes_in ird (firstn n ls')))).
    rewrite !cabl_nth by (rewrite L; lia).
    assert (G1 := prefix_filter rd (firstn n ls') (S lv)). assert (G2 := prefix_filter ird (firstn n ls') (S lv)).
    rewrite F in G1, G2. cbv zeta in P1, P2.
    split; [reflexivity|]. split; [etransitivity; [exact G1|exact P1]|]. split; [reflexivity|].
    rewrite <- G2 in P2.
    set (I := iterations_of (W lv)) in *. set (T := tile_elements ly op (W lv)) in *.
    set (q' := qprod (firstn (S lv) (sizes_in ird (firstn n ls')))) in *.
    clearbody I T q'. clear - HI P2.
    assert (Hq : ~ q' == 0) by (intros E; rewrite E in P2; lra).
    assert (HT : ~ T == 0) by (intros E; rewrite E in P2; lra).
    split; [exact Hq|]. rewrite <- P2. field. split; assumption.
  Qed.

  Lemma opdata_ok one two reform1 reform2 precision r ir rd ird :
    combined su tm = Ok (one, two) ->
    dget op r_dims = Some r -> dget op ir_dims = Some ir ->
    rd = (r ++ map r_version (keys (l_pr_loop ly)))%list -> ird = (ir ++ map ir_version (keys (l_pr_loop ly)))%list ->
    decoupled_for ly pr_ops op one reform1 -> decoupled_for ly pr_ops op two reform2 ->
    length precision = arch ->
    exists od, calc_opdata ly r_dims ir_dims macs op oi reform1 reform2 precision = Ok od /\
      opdata_facts ird reform1 reform2 precision od.
  Proof.
    intros Ec Er Ei Erd Eird Hd1 Hd2 Hp.
    destruct (go_levels _ _ _ _ _ _ Hgood) as [Hal Hne].
    destruct (combined_ok su tm Hal) as (one' & two' & Ec' & L1 & L2 & P1 & P2).
    rewrite Ec in Ec'. injection Ec' as <- <-.
    assert (Ld : forall ls ls', decoupled_for ly pr_ops op ls ls' -> length ls' = length ls).
    { intros ls ls' [[_ H]|[_ ->]]; [now apply (decs_length ly [] ls ls')|reflexivity]. }
    assert (N1 : forall x, In x (concat one) -> In x (whole_nest su tm)).
    { intros x Hx. apply (within_in_nest su tm mem arch). rewrite Hal.
      apply (Permutation_in x (P1 mem ltac:(lia))). rewrite <- Hal, <- L1, firstn_all. exact Hx. }
    assert (N2 : forall x, In x (concat two) -> In x (whole_nest su tm)).
    { intros x Hx. apply (within_in_nest su tm arch arch).
      apply (Permutation_in x (P2 arch ltac:(lia))). rewrite <- L2, firstn_all. exact Hx. }
    pose proof (cumulative r ir rd ird one reform1 (fun i => within su tm i (S i)) arch Er Ei Erd Eird Hd1
      ltac:(rewrite (Ld _ _ Hd1); lia) N1 P1 ltac:(intros i x _; apply within_in_nest)) as C1.
    pose proof (cumulative r ir rd ird two reform2 (fun i => within su tm i i) arch Er Ei Erd Eird Hd2
      ltac:(rewrite (Ld _ _ Hd2); lia) N2 ltac:(intros i Hi; apply P2; lia) ltac:(intros i x _; apply within_in_nest)) as C2.
    destruct (gt_counts _ _ _ _ _ _ Htab) as (lsu & r0 & _ & _ & Hc). destruct (rc_levels _ _ _ _ _ Hc) as (_ & Lu & _).
    destruct (gt_top_r _ _ _ _ _ _ Htab) as [Lt Ht].
    assert (ERD : decoupled_r_dims ly r_dims op = Ok rd) by (unfold decoupled_r_dims, dgetr; rewrite Er; cbn; now rewrite Erd).
    assert (EIRD : decoupled_ir_dims ly ir_dims op = Ok ird) by (unfold decoupled_ir_dims, dgetr; rewrite Ei; cbn; now rewrite Eird).
    unfold calc_opdata. rewrite ERD, EIRD. cbn [rbind]. cbv zeta.
    set (r2 := map py_round (cabl (sizes_in rd (firstn arch reform2)))).
    assert (R2 : forall lv, (lv < arch)%nat -> exists q, nth_error r2 lv = Some (py_round q) /\ q == tile_elements ly op (within su tm lv lv)).
    { intros lv Hlv. destruct (C2 lv Hlv) as (q & q' & E & Eq & _). exists q. split; [|exact Eq]. now apply nth_error_map'. }
    destruct (rmap_seq (fun lv => e <- at_ r2 lv ;; p <- at_ precision lv ;; Ok (e * p)%Z)%result arch 0) as (bu & Ebu & Lbu & Hbu).
    { intros i Hi. destruct (R2 i Hi) as (q & E & _). destruct (nth_lt precision i ltac:(lia)) as (p & Ep).
      cbn. rewrite (at_ok _ _ _ E), (at_ok _ _ _ Ep). cbn. eauto. }
    rewrite Ebu. cbn [rbind].
    destruct (rmap_seq (fun lv => e <- at_ r2 lv ;; u <- at_ (unit_unique (oi_counts oi)) lv ;; Ok (py_round (inject_Z e * u)))%result arch 0)
      as (el & Eel & Lel & Hel).
    { intros i Hi. destruct (R2 i Hi) as (q & E & _). destruct (nth_lt (unit_unique (oi_counts oi)) i ltac:(lia)) as (p & Ep).
      cbn. rewrite (at_ok _ _ _ E), (at_ok _ _ _ Ep). cbn. eauto. }
    rewrite Eel. cbn [rbind].
    destruct (rmap_seq (fun lv => e <- at_ el lv ;; p <- at_ precision lv ;; Ok (e * p)%Z)%result arch 0) as (bi & Ebi & Lbi & Hbi).
    { intros i Hi. destruct (nth_lt el i ltac:(lia)) as (e & E). destruct (nth_lt precision i ltac:(lia)) as (p & Ep).
      cbn. rewrite (at_ok _ _ _ E), (at_ok _ _ _ Ep). cbn. eauto. }
    rewrite Ebi. cbn [rbind].
    destruct (rmap_seq (fun lv => e <- at_ r2 lv ;; t <- at_ (oi_top_r oi) lv ;; zfloordiv e t)%result arch 0) as (ee & Eee & Lee & Hee).
    { intros i Hi. destruct (R2 i Hi) as (q & E & _). destruct (nth_lt (oi_top_r oi) i ltac:(lia)) as (p & Ep).
      cbn. rewrite (at_ok _ _ _ E), (at_ok _ _ _ Ep). cbn. rewrite zfloordiv_ok by (eapply Ht, nth_error_In, Ep). eauto. }
    rewrite Eee. cbn [rbind].
    destruct (rmap_seq (fun lv => e <- at_ bu lv ;; t <- at_ (oi_top_r oi) lv ;; zfloordiv e t)%result arch 0) as (eb & Eeb & Leb & Heb).
    { intros i Hi. destruct (nth_lt bu i ltac:(lia)) as (e & E). destruct (nth_lt (oi_top_r oi) i ltac:(lia)) as (p & Ep).
      cbn. rewrite (at_ok _ _ _ E), (at_ok _ _ _ Ep). cbn. rewrite zfloordiv_ok by (eapply Ht, nth_error_In, Ep). eauto. }
    rewrite Eeb. cbn [rbind].
    assert (RAW : forall reform (W : nat -> list (string * Q)), length reform = arch \/ length reform = S arch ->
      (forall lv, (lv < arch)%nat -> exists q q', nth_error (cabl (sizes_in rd (firstn arch reform))) lv = Some q /\
         q == tile_elements ly op (W lv) /\ nth_error (cabl (sizes_in ird (firstn arch reform))) lv = Some q' /\
         ~ q' == 0 /\ inject_Z macs / q' == inject_Z macs / iterations_of (W lv) * tile_elements ly op (W lv)) ->
      exists raw, rmap (fun q => x <- pdiv (inject_Z macs) q ;; Ok (py_round x))%result (cabl (sizes_in ird (firstn arch reform))) = Ok raw /\
        forall lv, (lv < arch)%nat -> exists n, nth_error raw lv = Some n /\ moves ly op macs (W lv) n).
    { intros reform W HLr HC.
      assert (LC : length (cabl (sizes_in ird (firstn arch reform))) = arch).
      { rewrite cabl_length, sizes_in_length, firstn_length. lia. }
      destruct (rmap_list (fun q => x <- pdiv (inject_Z macs) q ;; Ok (py_round x))%result (cabl (sizes_in ird (firstn arch reform))))
        as (raw & E & _ & Hraw).
      { intros q Hq. apply In_nth_error in Hq as (lv & Hq). assert (Hlv : (lv < arch)%nat).
        { rewrite <- LC. apply nth_error_Some. congruence. }
        destruct (HC lv Hlv) as (_ & q' & _ & _ & E & Hnz & _). rewrite Hq in E. injection E as <-.
        rewrite pdiv_ok by exact Hnz. cbn. eauto. }
      exists raw. split; [exact E|]. intros lv Hlv. destruct (HC lv Hlv) as (_ & q' & _ & _ & Eq & Hnz & Hm).
      destruct (Hraw lv q' Eq) as (n & En & Fn). rewrite pdiv_ok in Fn by exact Hnz. cbn in Fn. injection Fn as <-.
      exists (py_round (inject_Z macs / q')). split; [exact En|]. unfold moves. eapply nearest_comp; [exact Hm|apply py_round_nearest]. }
    destruct (RAW reform1 (fun i => within su tm i (S i)) ltac:(left; rewrite (Ld _ _ Hd1); lia) C1) as (raw & Eraw & Hraw).
    destruct (RAW reform2 (fun i => within su tm i i) ltac:(right; rewrite (Ld _ _ Hd2); lia) C2) as (raw2 & Eraw2 & Hraw2).
    rewrite Eraw. cbn [rbind]. rewrite Eraw2. cbn [rbind]. eexists. split; [reflexivity|].
    split; cbn [od_ir_level od_precision od_r_cabl od_elem_unrolled od_bit_unrolled od_elem od_bit od_effective_elem od_effective_bit od_raw od_raw2].
    - rewrite <- L1, <- (Ld _ _ Hd1), firstn_all. reflexivity.
    - reflexivity.
    - intros lv Hlv. destruct (C1 lv Hlv) as (q & q' & E & Eq & _). exists (py_round q). split; [now apply nth_error_map'|].
      eapply nearest_comp; [exact Eq|apply py_round_nearest].
    - intros lv Hlv. destruct (R2 lv Hlv) as (q & E & Eq). exists (py_round q). split; [exact E|].
      eapply nearest_comp; [exact Eq|apply py_round_nearest].
    - intros lv Hlv. destruct (Hbu lv Hlv) as (y & Ey & Fy). cbn in Fy. destruct (R2 lv Hlv) as (q & E & _).
      destruct (nth_lt precision lv ltac:(lia)) as (p & Ep). rewrite (at_ok _ _ _ E), (at_ok _ _ _ Ep) in Fy. cbn in Fy.
      injection Fy as <-. exists (py_round q), p. repeat split; assumption.
    - intros lv Hlv. destruct (Hel lv Hlv) as (y & Ey & Fy). cbn in Fy. destruct (R2 lv Hlv) as (q & E & _).
      destruct (nth_lt (unit_unique (oi_counts oi)) lv ltac:(lia)) as (p & Ep). rewrite (at_ok _ _ _ E), (at_ok _ _ _ Ep) in Fy. cbn in Fy.
      injection Fy as <-. exists (py_round q), p, (py_round (inject_Z (py_round q) * p)).
      split; [exact E|]. split; [exact Ep|]. split; [exact Ey|apply py_round_nearest].
    - intros lv Hlv. destruct (Hbi lv Hlv) as (y & Ey & Fy). cbn in Fy. destruct (nth_lt el lv ltac:(lia)) as (e & E).
      destruct (nth_lt precision lv ltac:(lia)) as (p & Ep). rewrite (at_ok _ _ _ E), (at_ok _ _ _ Ep) in Fy. cbn in Fy.
      injection Fy as <-. exists e, p. repeat split; assumption.
    - intros lv Hlv. destruct (Hee lv Hlv) as (y & Ey & Fy). destruct (Heb lv Hlv) as (z & Ez & Fz). cbn in Fy, Fz.
      destruct (R2 lv Hlv) as (q & E & _). destruct (nth_lt bu lv ltac:(lia)) as (b & Eb).
      destruct (nth_lt (oi_top_r oi) lv ltac:(lia)) as (t & Et).
      rewrite (at_ok _ _ _ E), (at_ok _ _ _ Et) in Fy. rewrite (at_ok _ _ _ Eb), (at_ok _ _ _ Et) in Fz. cbn in Fy, Fz.
      rewrite zfloordiv_ok in Fy by (eapply Ht, nth_error_In, Et). rewrite zfloordiv_ok in Fz by (eapply Ht, nth_error_In, Et).
      injection Fy as <-. injection Fz as <-. exists (py_round q), b, t. repeat split; assumption.
    - exact Hraw.
    - exact Hraw2.
    - exact Lbu.
  Qed.

  (** * rates *)
  Lemma cyc_facts : length (cycle_each_level inputs free op oi) = S mem /\
    (forall c, In c (cycle_each_level inputs free op oi) -> (1 <= c)%Z) /\
    (forall i c, nth_error (cycle_each_level inputs free op oi) (S i) = Some c -> c = cycles (below (S i) tm)).
  Proof.
    destruct (gt_cycles _ _ _ _ _ _ Htab) as [(L & HC & _) _].
    unfold cycle_each_level. split; [cbn; now rewrite L|]. split.
    - intros c [<-|Hc].
      + pose proof (gt_stationary _ _ _ _ _ _ Htab). destruct (free && memb op inputs); lia.
      + apply In_nth_error in Hc as (k & Hk). rewrite (HC k c Hk). unfold cycles.
        assert (G : forall l : list (string * Z), (forall x, In x l -> (1 <= snd x)%Z) -> (1 <= zprod (map snd l))%Z).
        { induction l as [|x l IH]; intros H; [cbn; lia|]. cbn [map]. rewrite zprod_cons.
          pose proof (H x (or_introl eq_refl)). specialize (IH ltac:(intros; apply H; now right)). nia. }
        apply G. intros x Hx. unfold below in Hx.
        assert (Hin : In (fst x, inject_Z (snd x)) (whole_nest su tm)).
        { apply (within_in_nest su tm (S k) 0). unfold within. apply in_or_app. left.
          rewrite firstn_map, <- concat_map. apply in_map_iff. exists x. split; [reflexivity|exact Hx]. }
        apply (go_sizes _ _ _ _ _ _ Hgood) in Hin as [H1 _]. cbn in H1.
        unfold Qle, inject_Z in H1; cbn in H1. lia.
    - intros i c H. cbn in H. now apply HC.
  Qed.
  Lemma unique_nz i u : nth_error (unit_unique (oi_counts oi)) i = Some u -> ~ u == 0.
  Proof.
    intros Hu. destruct (gt_counts _ _ _ _ _ _ Htab) as (lsu & r0 & _ & _ & Hc).
    destruct (rc_levels _ _ _ _ _ Hc) as (_ & Lu & Ldup & _).
    assert (Hi : (i < arch)%nat) by (rewrite <- Lu; apply nth_error_Some; congruence).
    destruct (nth_lt (unit_duplicate (oi_counts oi)) i ltac:(lia)) as (d & Ed).
    pose proof (rc_product _ _ _ _ _ Hc i u d Hu Ed) as P.
    assert (1 <= unrolled_from i su).
    { apply iterations_ge_1. intros x Hx. apply (go_sizes _ _ _ _ _ _ Hgood). unfold whole_nest, within.
      apply in_or_app. right. rewrite firstn_all. apply in_concat in Hx as (l & Hl & Hx).
      apply in_concat. exists l. split; [|exact Hx]. rewrite <- (firstn_skipn i su). apply in_or_app. now right. }
    intros E. rewrite E in P. lra.
  Qed.

  Record rates_facts (od : opdata) (precision : list Z) (i : nat)
      (bh bl : Q) (c c' e b e' : Z) : Prop := {
    rf_c : nth_error (cycle_each_level inputs free op oi) i = Some c /\ nth_error (cycle_each_level inputs free op oi) (S i) = Some c';
    rf_c1 : (1 <= c)%Z /\ (1 <= c')%Z;
    rf_e : nth_error (od_elem_unrolled od) i = Some e /\ nth_error (od_elem_unrolled od) (S i) = Some e';
    rf_b : nth_error (mem_bw_boost (oi_counts oi)) i = Some b;
    rf_bw : exists p p', nth_error precision i = Some p /\ nth_error precision (S i) = Some p' /\
       bh = inject_Z (e * p) / inject_Z c * inject_Z b /\ bl = inject_Z (e' * p') / inject_Z c' }.

  Lemma bw_ok ird reform1 reform2 precision od : opdata_facts ird reform1 reform2 precision od -> length precision = arch ->
    exists bw, bw_raw inputs free op oi od = Ok bw /\
    forall i, (i < mem)%nat -> exists bh bl c c' e b e', nth_error (snd bw) i = Some bh /\ nth_error (fst bw) (S i) = Some bl /\
      nth_error (mem_bw_boost (oi_counts oi) ++ [1%Z]) i = Some b /\ rates_facts od precision i bh bl c c' e b e'.
  Proof.
    intros Hod Hp. destruct cyc_facts as (Lc & Hc1 & _).
    destruct (go_levels _ _ _ _ _ _ Hgood) as [Hal _].
    destruct (gt_counts _ _ _ _ _ _ Htab) as (lsu & r0 & _ & _ & Hrc).
    destruct (rc_levels _ _ _ _ _ Hrc) as (_ & _ & _ & _ & Lb).
    unfold bw_raw. cbv zeta. rewrite (of_precision _ _ _ _ _ Hod).
    set (cyc := cycle_each_level inputs free op oi) in *. set (boost := mem_bw_boost (oi_counts oi)) in *.
    assert (GL : forall lv, (lv < arch)%nat -> exists e p c, nth_error (od_elem_unrolled od) lv = Some e /\ nth_error precision lv = Some p /\
      nth_error cyc lv = Some c /\ (1 <= c)%Z).
    { intros lv Hlv. destruct (of_elem_u _ _ _ _ _ Hod lv Hlv) as (e & Ee & _). destruct (nth_lt precision lv ltac:(lia)) as (p & Ep).
      destruct (nth_lt cyc lv ltac:(lia)) as (c & Ec). exists e, p, c. repeat split; auto. eapply Hc1, nth_error_In, Ec. }
    destruct (rmap_seq (fun lv => e <- at_ (od_elem_unrolled od) lv ;; p <- at_ precision lv ;;
       c <- at_ cyc lv ;; pdiv (inject_Z (e * p)) (inject_Z c))%result arch 0) as (low & El & Ll & Hl).
    { intros lv Hlv. destruct (GL lv Hlv) as (e & p & c & E1 & E2 & E3 & H1). cbn [Nat.add].
      rewrite (at_ok _ _ _ E1), (at_ok _ _ _ E2), (at_ok _ _ _ E3). cbn [rbind]. rewrite pdiv_ok by now apply inject_nz. eauto. }
    rewrite El. cbn [rbind].
    destruct (rmap_seq (fun lv => x <- at_ low lv ;; b <- at_ (boost ++ [1%Z]) lv ;; Ok (x * inject_Z b))%result arch 0) as (high & Eh & Lh & Hh).
    { intros lv Hlv. cbn [Nat.add]. destruct (nth_lt low lv ltac:(lia)) as (x & Ex).
      destruct (nth_lt (boost ++ [1%Z]) lv) as (b & Eb); [rewrite app_length; cbn; lia|].
      rewrite (at_ok _ _ _ Ex), (at_ok _ _ _ Eb). cbn [rbind]. eauto. }
    rewrite Eh. cbn [rbind]. eexists. split; [reflexivity|]. cbn [fst snd]. intros i Hi.
    destruct (GL i ltac:(lia)) as (e & p & c & E1 & E2 & E3 & H1).
    destruct (GL (S i) ltac:(lia)) as (e' & p' & c' & E1' & E2' & E3' & H1').
    destruct (nth_lt boost i ltac:(lia)) as (b & Eb).
    assert (Eb' : nth_error (boost ++ [1%Z]) i = Some b) by (rewrite nth_error_app1 by lia; exact Eb).
    destruct (Hl i ltac:(lia)) as (x & Ex & Fx). cbn [Nat.add] in Fx.
    rewrite (at_ok _ _ _ E1), (at_ok _ _ _ E2), (at_ok _ _ _ E3) in Fx. cbn [rbind] in Fx. rewrite pdiv_ok in Fx by now apply inject_nz.
    injection Fx as Fx.
    destruct (Hl (S i) ltac:(lia)) as (x' & Ex' & Fx'). cbn [Nat.add] in Fx'.
    rewrite (at_ok _ _ _ E1'), (at_ok _ _ _ E2'), (at_ok _ _ _ E3') in Fx'. cbn [rbind] in Fx'. rewrite pdiv_ok in Fx' by now apply inject_nz.
    injection Fx' as Fx'.
    destruct (Hh i ltac:(lia)) as (y & Ey & Fy). cbn [Nat.add] in Fy.
    rewrite (at_ok _ _ _ Ex), (at_ok _ _ _ Eb') in Fy. cbn [rbind] in Fy. injection Fy as Fy.
    exists y, x', c, c', e, b, e'. split; [exact Ey|]. split; [exact Ex'|]. split; [exact Eb'|].
    split; auto. exists p, p'. subst. repeat split; assumption.
  Qed.

  (** the attributes of a unit memory *)
  Definition window (x cur : Z) : Z := py_int (inject_Z x / inject_Z cur).
  Lemma instants_ok i cur next mc pr b1 b2 b3 b4 bi p1 p2 p3 p4 pc am tw :
    nth_error (oi_top_ir oi) i = Some cur -> nth_error (oi_top_ir oi) (S i) = Some next -> (1 <= cur)%Z -> (1 <= next)%Z ->
    instants oi i (mk8 mc pr (values4 b1 b2 b3 b4) bi (values4 p1 p2 p3 p4) pc am tw) =
    Ok (mk8 mc pr (values4 b1 b2 b3 b4) (values4 (b1 * cur) (b2 * cur) (b3 * next) (b4 * next)) (values4 p1 p2 p3 p4) pc am
        (values4 (window p1 cur) (window p2 cur) (window p3 next) (window p4 next))).
  Proof.
    intros E1 E2 H1 H2. unfold instants.
    rewrite (at_ok _ _ _ E1), (at_ok _ _ _ E2).
    assert (D1 : forall x, pdiv (inject_Z x) (inject_Z cur) = Ok (inject_Z x / inject_Z cur)) by (intros; now apply pdiv_ok, inject_nz).
    assert (D2 : forall x, pdiv (inject_Z x) (inject_Z next) = Ok (inject_Z x / inject_Z next)) by (intros; now apply pdiv_ok, inject_nz).
    cbn -[pdiv inject_Z Z.mul Qdiv py_int]. rewrite !D1, !D2. reflexivity.
  Qed.

  (** all attributes of a unit memory, from its bandwidths, periods, … *)
  Definition unit8 (cur next : Z) (mc pr : four Z) (b1 b2 b3 b4 p1 p2 p3 p4 : Z) (pc am : four Z) : pattern :=
    mk8 mc pr (values4 b1 b2 b3 b4) (values4 (b1 * cur) (b2 * cur) (b3 * next) (b4 * next)) (values4 p1 p2 p3 p4) pc am
        (values4 (window p1 cur) (window p2 cur) (window p3 next) (window p4 next)).

  Lemma top_ir_facts i : (i < mem)%nat -> exists cur next, nth_error (oi_top_ir oi) i = Some cur /\
    nth_error (oi_top_ir oi) (S i) = Some next /\ (1 <= cur)%Z /\ (1 <= next)%Z.
  Proof.
    intros Hi. destruct (gt_top_ir _ _ _ _ _ _ Htab) as [L H].
    destruct (nth_lt (oi_top_ir oi) i ltac:(lia)) as (cur & E). destruct (nth_lt (oi_top_ir oi) (S i) ltac:(lia)) as (next & E').
    exists cur, next. repeat split; auto; eapply H, nth_error_In; eassumption.
  Qed.

  Definition reads_merged (od : opdata) (i : nat) (raw rl : Z) : Prop :=
    rl = raw \/ (free = true /\ i = 0%nat /\ rl = py_int (inject_Z raw / inject_Z (oi_mac_stationary oi))).

  Lemma input_unit ird reform1 reform2 precision od bw i prec :
    opdata_facts ird reform1 reform2 precision od -> (i < mem)%nat ->
    dget op (l_precision ly) = Some prec ->
    (exists bh bl c c' e b e', nth_error (snd bw) i = Some bh /\ nth_error (fst bw) (S i) = Some bl /\
      nth_error (mem_bw_boost (oi_counts oi) ++ [1%Z]) i = Some b /\ rates_facts od precision i bh bl c c' e b e') ->
    exists raw rl wh bh bl c c' e b e' cur next,
      ((p <- (p <- access_input ly free read_bw op oi od i ;; rates_input inputs total free op oi od bw i p) ;; instants oi i p)%result =
       Ok (unit8 cur next (values4 rl 0 0 wh) (values4 prec 0 0 prec) (py_int bh) 0 0 (py_int bl) c 0 0 c'
            (values4 (total / c) 0 0 (total / c')) (values4 (e * b) 0 0 e'))) /\
      nth_error (od_raw od) i = Some raw /\ reads_merged od i raw rl /\ nth_error (od_raw2 od) (S i) = Some wh /\
      rates_facts od precision i bh bl c c' e b e' /\
      nth_error (oi_top_ir oi) i = Some cur /\ nth_error (oi_top_ir oi) (S i) = Some next.
  Proof.
    intros Hod Hi Hp (bh & bl & c & c' & e & b & e' & B1 & B2 & B3 & HR).
    destruct (go_levels _ _ _ _ _ _ Hgood) as [Hal _].
    destruct (gt_counts _ _ _ _ _ _ Htab) as (lsu & r0 & _ & _ & Hrc).
    destruct (rc_levels _ _ _ _ _ Hrc) as (_ & Lu & _).
    destruct (nth_lt (unit_unique (oi_counts oi)) (S i) ltac:(lia)) as (u & Eu).
    destruct (of_bit _ _ _ _ _ Hod i ltac:(lia)) as (e0 & p0 & _ & _ & Ebit).
    destruct (of_raw _ _ _ _ _ Hod i ltac:(lia)) as (raw & Eraw & _).
    destruct (of_raw2 _ _ _ _ _ Hod (S i) ltac:(lia)) as (wh & Ewh & _).
    destruct (top_ir_facts i Hi) as (cur & next & Ec & En & Hc & Hn).
    destruct (rf_c _ _ _ _ _ _ _ _ _ _ HR) as [C1 C2]. destruct (rf_c1 _ _ _ _ _ _ _ _ _ _ HR) as [C1' C2'].
    destruct (rf_e _ _ _ _ _ _ _ _ _ _ HR) as [E1 E2].
    set (rl := if (free && Nat.eqb i 0 && (Qfloor (inject_Z (e0 * p0) / u) <=? read_bw op i)%Z)%bool
       then py_int (inject_Z raw / inject_Z (oi_mac_stationary oi)) else raw).
    exists raw, rl, wh, bh, bl, c, c', e, b, e', cur, next.
    split; [|split; [exact Eraw|split; [|split; [exact Ewh|split; [exact HR|split; assumption]]]]].
    - unfold access_input. rewrite new_pattern_eq. cbn [rbind].
      rewrite (at_ok _ _ _ Eu). cbn [rbind]. rewrite (at_ok _ _ _ Ebit). cbn [rbind].
      rewrite pdiv_ok by (eapply unique_nz; exact Eu). cbn [rbind]. rewrite (at_ok _ _ _ Eraw). cbn [rbind].
      assert (ER : (if (free && Nat.eqb i 0 && (Qfloor (inject_Z (e0 * p0) / u) <=? read_bw op i)%Z)%bool
               then y <- pdiv (inject_Z raw) (inject_Z (oi_mac_stationary oi)) ;; Ok (py_int y)
               else Ok raw)%result = Ok rl).
      { unfold rl. destruct (free && _ && _)%bool; [|reflexivity].
        rewrite pdiv_ok by (apply inject_nz, (gt_stationary _ _ _ _ _ _ Htab)). reflexivity. }
      rewrite ER. cbn [rbind]. rewrite (at_ok _ _ _ Ewh). cbn [rbind]. rewrite set4. cbn [rbind].
      unfold dgetr. rewrite Hp. cbn [of_option rbind]. rewrite set4. cbn [rbind].
      unfold rates_input. cbv zeta. rewrite (at_ok _ _ _ B1), (at_ok _ _ _ B2). cbn [rbind]. rewrite set4. cbn [rbind].
      rewrite (at_ok _ _ _ C1), (at_ok _ _ _ C2). cbn [rbind]. rewrite set4. cbn [rbind].
      rewrite !zfloordiv_ok by assumption. cbn [rbind]. rewrite set4. cbn [rbind].
      rewrite (at_ok _ _ _ E1), (at_ok _ _ _ E2), (at_ok _ _ _ B3). cbn [rbind]. rewrite set4. cbn [rbind].
      refine (eq_trans _ (instants_ok i cur next (values4 rl 0 0 wh) (values4 prec 0 0 prec) (py_int bh) 0 0 (py_int bl) (values4 0 0 0 0) c 0 0 c'
         (values4 (total / c) 0 0 (total / c')) (values4 (e * b) 0 0 e') (values4 0 0 0 0) Ec En Hc Hn)).
      reflexivity.
    - unfold reads_merged, rl. destruct free eqn:F; cbn [andb]; [|now left].
      destruct (Nat.eqb i 0) eqn:F0; cbn [andb]; [|now left]. apply Nat.eqb_eq in F0.
      destruct (_ <=? _)%Z; [right; auto|now left].
  Qed.

  Lemma caal_nth s k : (k < length s)%nat -> nth_error (caal s) k = Some (qprod (skipn k s)).
  Proof.
    intros H. unfold caal. rewrite nth_error_app1 by (rewrite map_length, seq_length; lia).
    assert (E : nth_error (seq 0 (length s)) k = Some k)
      by (rewrite (nth_error_nth' _ 0%nat) by (now rewrite seq_length); now rewrite seq_nth).
    now rewrite (map_nth_error _ _ _ E).
  Qed.
  Lemma caal_nth' s k : (k <= S (length s))%nat -> exists q, nth_error (caal s) k = Some q /\ q == qprod (skipn k s).
  Proof.
    intros H. destruct (Nat.lt_ge_cases k (length s)) as [Hk|Hk].
    - exists (qprod (skipn k s)). split; [now apply caal_nth|reflexivity].
    - exists 1. split.
      + unfold caal. rewrite nth_error_app2 by (rewrite map_length, seq_length; lia). rewrite map_length, seq_length.
        assert (D : (k - length s = 0 \/ k - length s = 1)%nat) by lia. destruct D as [-> | ->]; reflexivity.
      + rewrite skipn_all2 by lia. reflexivity.
  Qed.

  Lemma output_unit ird reform1 reform2 precision od bw i full flags :
    op = out -> length reform1 = arch ->
    opdata_facts ird reform1 reform2 precision od -> (i < mem)%nat -> length flags = arch ->
    dget op (l_precision ly) = Some full ->
    (exists bh bl c c' e b e', nth_error (snd bw) i = Some bh /\ nth_error (fst bw) (S i) = Some bl /\
      nth_error (mem_bw_boost (oi_counts oi) ++ [1%Z]) i = Some b /\ rates_facts od precision i bh bl c c' e b e') ->
    exists wl rh c1 c2 bh bl c c' e b e' cur next f f',
      let rl := py_int (inject_Z size_out * (c1 - 1)) in
      let wh := py_int (inject_Z size_out * (c2 - 1)) in
      let low (x : Z) := if (f : bool) then x else 0%Z in
      let high (x : Z) := if (f' : bool) then x else 0%Z in
      let fin := l_final_precision ly in
      ((p <- (p <- access_output ly out size_out od i ;; rates_output inputs out total free flags oi od bw i p) ;; instants oi i p)%result =
       Ok (unit8 cur next (values4 rl wl rh wh)
            (values4 (if (rl =? 0)%Z then 0 else full) (if (rl =? 0)%Z then fin else full)
                     (if (wh =? 0)%Z then fin else full) (if (wh =? 0)%Z then 0 else full))%Z
            (low (py_int bh)) (py_int bh) (py_int bl) (high (py_int bl)) (low c) c c' (high c')
            (values4 (low (total / c)) (total / c) (total / c') (high (total / c')))%Z
            (values4 (low (e * b)) (e * b) e' (high e')))%Z) /\
      nth_error (od_raw od) i = Some wl /\ nth_error (od_raw2 od) (S i) = Some rh /\
      nth_error flags i = Some f /\ nth_error flags (S i) = Some f' /\
      c1 == iterations_of (filter (fun x => memb (fst x) ird) (concat (skipn (S i) reform1))) /\
      c2 == iterations_of (filter (fun x => memb (fst x) ird) (concat (skipn (S (S i)) reform1))) /\
      rates_facts od precision i bh bl c c' e b e' /\
      nth_error (oi_top_ir oi) i = Some cur /\ nth_error (oi_top_ir oi) (S i) = Some next.
  Proof.
    intros Ho Lr Hod Hi Lf Hp (bh & bl & c & c' & e & b & e' & B1 & B2 & B3 & HR).
    destruct (go_levels _ _ _ _ _ _ Hgood) as [Hal _].
    destruct (of_raw _ _ _ _ _ Hod i ltac:(lia)) as (wl & Ewl & _).
    destruct (of_raw2 _ _ _ _ _ Hod (S i) ltac:(lia)) as (rh & Erh & _).
    destruct (top_ir_facts i Hi) as (cur & next & Ec & En & Hc & Hn).
    destruct (rf_c _ _ _ _ _ _ _ _ _ _ HR) as [C1 C2]. destruct (rf_c1 _ _ _ _ _ _ _ _ _ _ HR) as [C1' C2'].
    destruct (rf_e _ _ _ _ _ _ _ _ _ _ HR) as [E1 E2].
    destruct (nth_lt flags i ltac:(lia)) as (f & Ef). destruct (nth_lt flags (S i) ltac:(lia)) as (f' & Ef').
    assert (Ls : length (od_ir_level od) = arch) by (rewrite (of_ir_level _ _ _ _ _ Hod), sizes_in_length; exact Lr).
    destruct (caal_nth' (od_ir_level od) (S i) ltac:(lia)) as (c1 & Ec1 & Q1).
    destruct (caal_nth' (od_ir_level od) (S (S i)) ltac:(lia)) as (c2 & Ec2 & Q2).
    rewrite (of_ir_level _ _ _ _ _ Hod), suffix_filter_in in Q1, Q2.
    exists wl, rh, c1, c2, bh, bl, c, c', e, b, e', cur, next, f, f'. cbv zeta.
    split; [|split; [exact Ewl|split; [exact Erh|split; [exact Ef|split; [exact Ef'|split; [exact Q1|split; [exact Q2|split; [exact HR|split; assumption]]]]]]]].
    set (rl := py_int (inject_Z size_out * (c1 - 1))). set (wh := py_int (inject_Z size_out * (c2 - 1))).
    unfold access_output. rewrite new_pattern_eq. cbn [rbind].
    rewrite (at_ok _ _ _ Ewl), (at_ok _ _ _ Ec1), (at_ok _ _ _ Erh), (at_ok _ _ _ Ec2). cbn [rbind]. cbv zeta.
    fold rl. fold wh. rewrite set4. cbn [rbind]. unfold dgetr. rewrite <- Ho, Hp. cbn [of_option rbind].
    assert (EP : forall p0, (let '(a, b0) := if negb (rl =? 0)%Z then (full, full) else (0%Z, l_final_precision ly) in
       let '(x, y) := if negb (wh =? 0)%Z then (full, full) else (l_final_precision ly, 0%Z) in
       set_attribute Precision (values4 a b0 x y) p0) =
       Ok (dset Precision (values4 (if (rl =? 0)%Z then 0 else full) (if (rl =? 0)%Z then l_final_precision ly else full)
                     (if (wh =? 0)%Z then l_final_precision ly else full) (if (wh =? 0)%Z then 0 else full))%Z p0)).
    { intros p0. destruct (rl =? 0)%Z, (wh =? 0)%Z; reflexivity. }
    rewrite EP. cbn [rbind]. clearbody rl wh.
    unfold rates_output. cbv zeta.
    rewrite (at_ok _ _ _ B1), (at_ok _ _ _ B2), (at_ok _ _ _ C1), (at_ok _ _ _ C2). cbn [rbind].
    rewrite !zfloordiv_ok by assumption. cbn [rbind].
    rewrite (at_ok _ _ _ E1), (at_ok _ _ _ E2), (at_ok _ _ _ B3), (at_ok _ _ _ Ef), (at_ok _ _ _ Ef'). cbn [rbind].
    rewrite !set4. cbn [rbind]. rewrite !set4. cbn [rbind]. rewrite !set4. cbn [rbind]. rewrite !set4. cbn [rbind].
    match goal with |- instants oi i ?p = Ok (unit8 _ _ ?mc ?pr ?b1 ?b2 ?b3 ?b4 ?p1 ?p2 ?p3 ?p4 ?pc ?am) =>
      refine (eq_trans _ (instants_ok i cur next mc pr b1 b2 b3 b4 (values4 0 0 0 0) p1 p2 p3 p4 pc am (values4 0 0 0 0) Ec En Hc Hn)) end.
    reflexivity.
  Qed.
End Operand.
