(** C86: no run reports less than its operations need. *)
From Coq Require Import QArith Lia Lqa.
From Verif Require Import Base Model_Text Model_DataMove Model_Mapping Model_SpatialInt Model_Alloc Model_Loma Model_Links Model_Cost Model_Latency Model_Graph Model_Hierarchy Model_Layer Model_MapFile Model_WorkFile
  Model_Cacti Model_AccelFile Model_SpatialMap Model_Generation Model_Convert Model_Evaluate Model_TemporalStage Model_Search Model_Cme Model_Workload Model_Pipeline Model_Run
  Spec_Layer Spec_MapFile Spec_Graph Spec_Workload Spec_WorkFile Spec_AccelFile Spec_Hierarchy Spec_Temporal Spec_SpatialInt Spec_Mapping Spec_Cost Spec_SpatialMap Spec_Convert Spec_Evaluate Spec_Loma Spec_Cme Spec_Search Spec_Pipeline Spec_Run Spec_RunFloor
  Proof_AllocSearch Proof_Bandwidth Proof_Capacity Proof_Energy Proof_EvalMapping Proof_EvalBuild Proof_EvalPrepare Proof_EvalEnergy Proof_Convert Proof_Limited Proof_CmeMore Proof_Search Proof_SearchGiven
  Proof_RunHardware Proof_RunSpatial Proof_RunSearch Proof_RunRequest Proof_RunGeneration Proof_RunCourse Proof_AccelFile.
Open Scope string_scope.
Open Scope list_scope.
Open Scope Z_scope.

(** * Products *)

Lemma qprod_le {X} (f g : X -> Q) l : (forall x, In x l -> 0 <= f x /\ f x <= g x)%Q -> (0 <= qprod (map f l) /\ qprod (map f l) <= qprod (map g l))%Q.
Proof.
  induction l as [|x l IH]; intros H; [unfold qprod; cbn; lra|]. cbn [map]. rewrite !qprod_cons. destruct IH as (I1 & I2); [intros y I; apply H; now right|].
  destruct (H x (or_introl eq_refl)). nra.
Qed.
Lemma qprod_mul {X} (f g : X -> Q) l : (qprod (map (fun x => f x * g x) l) == qprod (map f l) * qprod (map g l))%Q.
Proof. induction l as [|x l IH]; [reflexivity|]. cbn [map]. rewrite !qprod_cons, IH. ring. Qed.
Lemma qprod_whole {X} (f : X -> Z) l : (qprod (map (fun x => inject_Z (f x)) l) == inject_Z (zprod (map f l)))%Q.
Proof. induction l as [|x l IH]; [reflexivity|]. cbn [map]. rewrite qprod_cons, zprod_cons, inject_Z_mult, IH. reflexivity. Qed.

Definition one_or (m : dict string Q) (d : string) : Q := match dget d m with Some u => u | None => 1%Q end.
Lemma name_once (m : dict string Q) d : NoDup (keys m) -> (of_name d m == one_or m d)%Q.
Proof.
  unfold of_name, one_or. induction m as [|[k x] m IH]; intros N; [reflexivity|]. inversion N as [|? ? N1 N2]; subst. cbn [filter fst dget].
  destruct (eqb_spec d k) as [->|Q].
  - destruct (string_dec k k) as [_|]; [|congruence]. cbn [map snd]. rewrite qprod_cons. assert (E : filter (fun y : string * Q => if string_dec (fst y) k then true else false) m = []).
    { clear - N1. induction m as [|[k' x'] m IH]; [reflexivity|]. cbn [filter fst]. destruct (string_dec k' k) as [->|]; [exfalso; apply N1; now left|]. apply IH. intros J. apply N1. now right. }
    rewrite E. unfold qprod. cbn [map fold_right]. ring.
  - destruct (string_dec k d) as [->|]; [congruence|]. now apply IH.
Qed.
Lemma values_over D (m : dict string Q) : NoDup D -> NoDup (keys m) -> (forall d, In d (keys m) -> In d D) -> (qprod (values m) == qprod (map (one_or m) D))%Q.
Proof.
  intros N Nm S. unfold values. rewrite (qprod_names D m N); [|intros x I; apply S; now apply List.in_map].
  apply qprod_map_eq. intros d _. now apply name_once.
Qed.
(** Smaller entries, fewer of them *)
Lemma values_le (m m' : dict string Q) : NoDup (keys m) -> NoDup (keys m') ->
  (forall k x, dget k m = Some x -> 0 <= x /\ exists y, dget k m' = Some y /\ x <= y)%Q -> (forall k y, dget k m' = Some y -> 1 <= y)%Q ->
  (0 <= qprod (values m) /\ qprod (values m) <= qprod (values m'))%Q.
Proof.
  intros N N' L G. assert (S : forall d, In d (keys m) -> In d (keys m')).
  { intros d I. destruct (key_dget _ _ I) as (x & Ex). destruct (L d x Ex) as (_ & y & Ey & _). now apply dget_Some_key in Ey. }
  rewrite (values_over (keys m') m N' N S), (values_over (keys m') m' N' N' (fun _ I => I)). apply qprod_le. intros d _. unfold one_or.
  destruct (dget d m) as [x|] eqn:Ex.
  - destruct (L d x Ex) as (P & y & -> & Q). now split.
  - destruct (dget d m') as [y|] eqn:Ey; [pose proof (G d y Ey)|]; lra.
Qed.

(** * Unrollings and the array *)

(** What is unrolled together is not more than there are units. *)
Lemma unrolled_within D sizes oas user lim : NoDup D -> valid_user sizes oas user -> within_array oas user -> NoDup (keys oas) -> (forall o s, dget o oas = Some s -> 1 <= s) -> dicts lim ->
  (forall o d u, unrolled user o d u -> exists x, unrolled lim o d x /\ (0 < x /\ x <= u)%Q) -> (forall o d x, unrolled lim o d x -> exists u, unrolled user o d u) ->
  (forall o, In o (keys lim) -> In o (keys user)) -> (forall o d u, unrolled user o d u -> In d D) ->
  (0 <= qprod (map (unrolled_total lim) D) /\ qprod (map (unrolled_total lim) D) <= inject_Z (zprod (map snd oas)))%Q.
Proof.
  intros ND V W No Po Dl Lo Ex Ks Kn.
  assert (T : (qprod (map (unrolled_total lim) D) == qprod (values (map (fun om => (fst om, qprod (map (one_or (snd om)) D))) lim)))%Q).
  { clear. induction lim as [|[o m] lim IH]; cbn [map values fst snd].
    - unfold qprod at 2. cbn [fold_right]. induction D as [|d D IH]; [reflexivity|]. cbn [map unrolled_total]. rewrite qprod_cons, IH. ring.
    - rewrite qprod_cons. change (map snd (map (fun om => (fst om, qprod (map (one_or (snd om)) D))) lim)) with (values (map (fun om => (fst om, qprod (map (one_or (snd om)) D))) lim)).
      rewrite <- IH, <- qprod_mul. apply qprod_map_eq. intros d _. reflexivity. }
  rewrite T. assert (Tz : (inject_Z (zprod (map snd oas)) == qprod (values (map (fun x => (fst x, inject_Z (snd x))) oas)))%Q).
  { unfold values. rewrite map_map. cbn [snd]. now rewrite (qprod_whole snd oas). }
  rewrite Tz. destruct Dl as (Dl1 & Dl2). destruct (vu_dicts _ _ _ V) as (Du1 & Du2).
  assert (Dg : forall k q, dget k (map (fun om => (fst om, qprod (map (one_or (snd om)) D))) lim) = Some q -> exists m, dget k lim = Some m /\ q = qprod (map (one_or m) D)).
  { clear. induction lim as [|[o m] lim IH]; intros k q E; [discriminate|]. cbn [map dget fst snd] in *. destruct (eqb k o); [injection E as <-; eauto|now apply IH]. }
  assert (Dz : forall k, dget k (map (fun x : string * Z => (fst x, inject_Z (snd x))) oas) = option_map inject_Z (dget k oas)).
  { clear. induction oas as [|[o s] oas IH]; intros k; [reflexivity|]. cbn [map dget fst snd]. destruct (eqb k o); [reflexivity|apply IH]. }
  assert (Ge : forall o d u, unrolled user o d u -> (1 <= u)%Q).
  { intros o d u (m & Em & Eu). apply dget_In in Em, Eu. destruct (vu_whole _ _ _ V o m d u Em Eu) as (k & Lk & Ek). rewrite Ek. change 1%Q with (inject_Z 1). now rewrite <- Zle_Qle. }
  apply values_le.
  - unfold keys. rewrite map_map. exact Dl1.
  - unfold keys. rewrite map_map. exact No.
  - intros o q E. destruct (Dg o q E) as (m & Em & ->). assert (Ko : In o (keys lim)) by now apply dget_Some_key in Em. destruct (key_dget _ _ (Ks o Ko)) as (m' & Em').
    destruct (W o m' Em') as (s & Es & Ls). assert (Nm' : NoDup (keys m')) by (apply (Du2 o); now apply dget_In).
    assert (Pw : forall d, In d D -> (0 <= one_or m d /\ one_or m d <= one_or m' d)%Q).
    { intros d _. unfold one_or. destruct (dget d m) as [x|] eqn:Ed.
      - destruct (Ex o d x) as (u & m1 & Em1 & Eu); [now exists m|]. assert (m1 = m') by congruence. subst m1. rewrite Eu.
        destruct (Lo o d u) as (x' & (m2 & Em2 & Ex2) & P1 & P2); [now exists m'|]. assert (x' = x) by congruence. subst x'. split; [now apply Qlt_le_weak|exact P2].
      - destruct (dget d m') as [u|] eqn:Eu; [|lra]. pose proof (Ge o d u (ex_intro _ m' (conj Em' Eu))). lra. }
    destruct (qprod_le _ _ D Pw) as (P1 & P2). split; [exact P1|]. exists (inject_Z s). split; [now rewrite Dz, Es|].
    eapply Qle_trans; [exact P2|]. rewrite <- (values_over D m' ND Nm'); [exact Ls|]. intros d I. destruct (key_dget _ _ I) as (u & Eu). apply (Kn o d u). now exists m'.
  - intros o y E. rewrite Dz in E. destruct (dget o oas) as [s|] eqn:Es; [|discriminate]. cbn [option_map] in E. injection E as <-. change 1%Q with (inject_Z 1). rewrite <- Zle_Qle. exact (Po o s Es).
Qed.

(** * Loops and cycles *)

Lemma products_le D l : NoDup D -> (forall x, In x l -> 1 <= snd x) -> 0 <= zprod (map (fun d => loop_product d l) D) <= zprod (map snd l).
Proof.
  revert l. induction D as [|d D IH]; intros l N G.
  - cbn [map]. unfold zprod at 1 2. cbn [fold_right]. assert (0 < zprod (map snd l)); [|lia]. apply zprod_pos. intros y I. apply in_map_iff in I. destruct I as (x & <- & I). specialize (G x I). lia.
  - inversion N as [|? ? N1 N2]; subst. cbn [map]. rewrite zprod_cons. set (rest := filter (fun x : string * Z => negb (eqb (fst x) d)) l).
    assert (E1 : zprod (map snd l) = loop_product d l * zprod (map snd rest)).
    { unfold rest, loop_product. clear. induction l as [|x l IH]; [reflexivity|]. cbn [filter map]. rewrite zprod_cons, IH. destruct (eqb (fst x) d); cbn [negb map]; rewrite zprod_cons; ring. }
    assert (E2 : zprod (map (fun d' => loop_product d' l) D) = zprod (map (fun d' => loop_product d' rest) D)).
    { f_equal. apply map_ext_in. intros d' I. assert (Q : d' <> d) by congruence. unfold rest, loop_product. clear - Q. induction l as [|x l IH]; [reflexivity|]. cbn [filter].
      destruct (eqb_spec (fst x) d) as [E|E]; cbn [negb filter].
      - destruct (eqb_spec (fst x) d') as [E'|E']; [congruence|exact IH].
      - destruct (eqb (fst x) d'); cbn [map]; [rewrite !zprod_cons; now rewrite IH|exact IH]. }
    destruct (IH rest N2) as (P1 & P2); [intros x I; apply G; unfold rest in I; now apply filter_In in I|]. rewrite E1, E2.
    assert (0 < loop_product d l). { unfold loop_product. apply zprod_pos. intros y I. apply in_map_iff in I. destruct I as (x & <- & I). apply filter_In in I. specialize (G x (proj1 I)). lia. }
    nia.
Qed.

(** Unrollings and cycles together are enough for the operations. *)
Lemma covered_operations (sizes : list (string * Z)) unrolled loops units : NoDup (keys sizes) -> (forall d n, In (d, n) sizes -> 1 <= n) -> (forall x, In x loops -> 1 <= snd x) ->
  (forall d n, In (d, n) sizes -> (inject_Z n <= qprod (unrollings_of d unrolled) * inject_Z (loop_product d loops))%Q) ->
  (forall d, In d (keys sizes) -> 0 <= qprod (unrollings_of d unrolled))%Q ->
  (qprod (map (fun d => qprod (unrollings_of d unrolled)) (keys sizes)) <= units)%Q ->
  (inject_Z (zprod (map snd sizes)) <= units * inject_Z (cycles loops))%Q.
Proof.
  intros N G Gl C P U. destruct (products_le (keys sizes) loops N Gl) as (P1 & P2). unfold cycles.
  assert (H : (inject_Z (zprod (map snd sizes)) <= qprod (map (fun x => qprod (unrollings_of (fst x) unrolled) * inject_Z (loop_product (fst x) loops)) sizes))%Q).
  { rewrite <- (qprod_whole snd sizes). apply qprod_le. intros [d n] I. cbn [fst snd]. split; [|now apply C]. change 0%Q with (inject_Z 0). rewrite <- Zle_Qle. specialize (G d n I). lia. }
  eapply Qle_trans; [exact H|]. rewrite qprod_mul, (qprod_whole (fun x => loop_product (fst x) loops) sizes).
  unfold keys in U, P1, P2, P. rewrite map_map in U, P1, P2.
  assert (Q0 : (0 <= qprod (map (fun x : string * Z => qprod (unrollings_of (fst x) unrolled)) sizes))%Q).
  { apply (proj1 (qprod_le (fun x : string * Z => qprod (unrollings_of (fst x) unrolled)) (fun x => qprod (unrollings_of (fst x) unrolled)) sizes (fun x I => conj (P _ (List.in_map fst _ _ I)) (Qle_refl _)))). }
  rewrite Zle_Qle in P1, P2. change (inject_Z 0) with 0%Q in P1. nra.
Qed.

(** * Evaluations *)

Section Evaluation.
  Variables (rq : request) (fuel pc : nat) (ms : list memspec).
  Hypothesis V : valid_request rq.
  Hypothesis SH : sound_hardware rq pc ms.
  Hypothesis HF : (passes_bound (rq_temporal rq) <= fuel)%nat.
  Let SL := vr_layer rq V.

  (** Nothing negative is counted. *)
  Lemma inputs_nonneg ci st mac counts : parts rq ci st mac counts -> sound_inputs ci.
  Proof.
    intros P. destruct (pa_timed _ _ _ _ _ P) as (cabl & total & ord & counts2 & _ & MP & (ois & flags & rb & GM & _ & Hois) & _). destruct (pa_counts _ _ _ _ _ P) as (Ec & Kc).
    constructor.
    - intros op od ps p I Ip a k x Ex. destruct (row_linked rq V _ _ _ op (od, ps) MP (or_introl I)) as (D & mem_op & Hl).
      destruct (unit_of rq V _ _ _ op mem_op od ps MP Hl D) as (_ & _ & oi & U & _). destruct (uf_attr _ _ _ _ _ _ _ U p a k Ip) as (y & Ey & Hy). congruence.
    - intros op uc u I Iu. assert (Io : In op (rq_ops rq)). { rewrite <- Kc. rewrite Ec in I. apply in_map_iff in I. destruct I as ((op' & c) & Q & I). injection Q as <- _. apply in_map_iff. now exists (op', c). }
      destruct (Hois op Io) as (oi & Iois & _ & Ed & _).
      assert (D : dget op (in_unit_count ci) = Some uc).
      { apply In_dget; [|exact I]. rewrite Ec. unfold keys. rewrite map_map. cbn [fst]. change (NoDup (keys counts)). rewrite Kc. exact (proj1 (sl_once rq SL)). }
      rewrite Ec, Proof_EvalHardware.dget_mapped, Ed in D. cbn [option_map] in D. injection D as <-.
      destruct (gt_counts _ _ _ _ _ _ (gm_tables _ _ _ _ _ _ _ _ GM op oi Iois)) as (ls' & r0 & _ & _ & Hc).
      apply In_nth_error in Iu. destruct Iu as (j & Eu). destruct (rc_units _ _ _ _ _ Hc j u Eu) as ((t & Nt & Nu) & _).
      assert (G1 : (1 <= unrolled_from j (oi_spatial oi))%Q).
      { apply (Proof_MappingLoops.iterations_ge_1). intros x Hx. apply (go_sizes _ _ _ _ _ _ (gm_good _ _ _ _ _ _ _ _ GM op oi Iois)). apply (Proof_MappingProps.outside_in _ _ 0 j). unfold outside. apply in_or_app. now right. }
      assert (T0 : 0 <= t) by (apply (nearest_nonneg (unrolled_from j (oi_spatial oi) * 1000)%Q); [lra|exact Nt]).
      apply (nearest_nonneg (inject_Z t / 1000)%Q); [|exact Nu]. rewrite Zle_Qle in T0. change (inject_Z 0) with 0%Q in T0. apply Qle_shift_div_l; lra.
    - intros op msl m mem_op k b I Im Hw. assert (E := sh_built rq pc ms SH). assert (N := proj1 (sh_once rq pc ms SH)).
      rewrite (proj2 (pa_hier _ _ _ _ _ P) op msl I) in Im. apply in_map_iff in Im. destruct Im as (l & <- & Il).
      unfold holders in Il. apply filter_In in Il. destruct Il as (Il & _). apply In_nth_error in Il. destruct Il as (i & Ei). destruct (Proof_EvalHardware.described_at pc ms _ E i l Ei) as (d & Ed & Dd).
      assert (St : stores mem_op l) by exact (Proof_EvalHardware.width_stored pc ms _ E i l mem_op k _ Ei Hw).
      destruct (Proof_EvalHardware.level_widths pc ms _ E N i d l mem_op k Ed Ei St) as [(p & M & Ip & W1 & W2)|(M & W1 & W2)].
      + destruct (sh_widths rq pc ms SH d p (nth_error_In _ _ Ed) Ip) as (B1 & B2). destruct Hw as [Hw|Hw]; [pose proof (width_same _ _ _ _ _ Hw W1) as Q|pose proof (width_same _ _ _ _ _ Hw W2) as Q]; now injection Q as ->.
      + destruct Hw as [Hw|Hw]; [pose proof (width_same _ _ _ _ _ Hw W1) as Q|pose proof (width_same _ _ _ _ _ Hw W2) as Q]; discriminate.
  Qed.
End Evaluation.

Lemma words_nonneg bits mn mx reps n : words bits mn mx reps n -> 0 <= bits -> 0 < mn -> 0 < mx -> 0 <= reps -> 0 <= n.
Proof.
  intros (w & (W1 & W2) & N1 & N2) B Mn Mx R. assert (0 <= w) by nia. assert (0 <= w * mn * reps) by (apply Z.mul_nonneg_nonneg; [apply Z.mul_nonneg_nonneg; lia|lia]). nia.
Qed.

(** The multipliers alone spend that much. *)
Lemma energy_floor rq sizes pc ms tm ident name fuel x : searchable rq sizes pc ms -> (forall s, In s ms -> 0 <= ms_r_cost s /\ 0 <= ms_w_cost s)%Q ->
  valid_request (with_temporal rq tm) -> (passes_bound tm <= fuel)%nat -> evaluate_mapping rq fuel ident name tm = Ok x ->
  (rq_mac_cost rq * inject_Z (rq_macs rq) <= ev_energy x)%Q.
Proof.
  intros Rq Pr V F E. assert (SH : sound_hardware (with_temporal rq tm) pc ms) by (destruct (se_hardware _ _ _ _ Rq); constructor; assumption).
  unfold evaluate_mapping in E. apply rbind_Ok in E. destruct E as (ci & Ep & E).
  destruct (parts_of (with_temporal rq tm) fuel pc ms V SH F ci Ep) as (st & mac & counts & P).
  assert (SI := inputs_nonneg (with_temporal rq tm) pc ms V SH ci st mac counts P).
  unfold cme_of in E. apply rbind_Ok in E. destruct E as (ind & _ & E). apply rbind_Ok in E. destruct E as (sh & _ & E).
  apply rbind_Ok in E. destruct E as (acc & Ea & E). apply rbind_Ok in E. destruct E as ([[[bd fu] mem] total] & Em & E).
  apply rbind_Ok in E. destruct E as (la & _ & E). injection E as <-. cbn [ev_energy].
  assert (G := words_good ci acc Ea). assert (T := Proof_Energy.energy_total ci acc bd fu mem total Em).
  destruct (energy_spends ci acc bd fu mem total G Em) as (qs & Fq & Sq).
  destruct (pa_same _ _ _ _ _ P) as (_ & _ & Mm & Mc). cbn [rq_macs rq_mac_cost with_temporal] in Mm, Mc.
  assert (N : (0 <= mem)%Q); [|rewrite T, Mm, Mc; lra].
  rewrite Sq. apply qsum_nonneg. intros q Iq. destruct (Forall2_in_r _ _ _ _ Fq Iq) as ((op & fs) & Ia & msl & Mo & ->). cbn [fst snd] in *.
  destruct (words_all ci acc SI Ea) as (_ & _ & W).
  assert (Hm : forall m, In m msl -> (0 <= ml_read_energy m /\ 0 <= ml_write_energy m)%Q).
  { intros m Im. destruct Mo as (mem_op & _ & Eh). apply dget_In in Eh. rewrite (proj2 (pa_hier _ _ _ _ _ P) mem_op msl Eh) in Im.
    apply in_map_iff in Im. destruct Im as (l & <- & Il). unfold holders in Il. apply filter_In in Il. destruct Il as (Il & _). apply In_nth_error in Il. destruct Il as (i & Ei).
    destruct (Proof_EvalHardware.described_at pc ms _ (sh_built _ pc ms SH) i l Ei) as (d & Ed & _ & _ & -> & -> & _). exact (Pr d (nth_error_In _ _ Ed)). }
  assert (Hc : forall f k, In f fs -> 0 <= count_in f k).
  { intros f k If. apply In_nth_error in If. destruct If as (lv & Ef). unfold count_in. destruct (dget k f) as [n|] eqn:En; [|lia].
    destruct (proj2 (W op fs lv f Ia Ef) k n En) as (mem_op & msl' & m & od & ps & p & av & prec & c & Dl & Dh & Nm & Dm & Np & Ev & Epr & Ec & [(_ & ->)|(mx & mn & uc & u & Wx & Wn & Du & Nu & Ww)]); [lia|].
    apply dget_In in Dh, Dm, Du. assert (Sp := si_patterns ci SI op od ps p Dm (nth_error_In _ _ Np)).
    pose proof (Sp _ _ _ Ev). pose proof (Sp _ _ _ Epr). pose proof (Sp _ _ _ Ec). pose proof (si_units ci SI op uc u Du (nth_error_In _ _ Nu)).
    pose proof (si_widths ci SI mem_op msl' m mem_op k mx Dh (nth_error_In _ _ Nm) (or_introl Wx)). pose proof (si_widths ci SI mem_op msl' m mem_op k mn Dh (nth_error_In _ _ Nm) (or_intror Wn)).
    apply (words_nonneg _ _ _ _ _ Ww); try assumption; now apply Z.mul_nonneg_nonneg. }
  clear - Hm Hc. revert fs Hc. induction msl as [|m msl IH]; intros [|f fs] Hc; cbn [spent_all]; try lra.
  assert (H1 : (0 <= spent m f)%Q).
  { destruct (Hm m (or_introl eq_refl)) as (R & W). unfold spent, dir_energy, access_cost.
    assert (C : forall k, (0 <= inject_Z (count_in f k))%Q) by (intros k; change 0%Q with (inject_Z 0); rewrite <- Zle_Qle; apply Hc; now left).
    pose proof (Qmult_le_0_compat _ _ (C RdLow) R). pose proof (Qmult_le_0_compat _ _ (C WrLow) W). pose proof (Qmult_le_0_compat _ _ (C RdHigh) R). pose proof (Qmult_le_0_compat _ _ (C WrHigh) W). lra. }
  assert (H2 : (0 <= spent_all msl fs)%Q) by (apply IH; [intros m' I; apply Hm; now right|intros f' k I; apply Hc; now right]). lra.
Qed.

(** The unrollings of a request are those of the mapping, lowered. *)
Lemma request_unrolled visit free a l loops sm rq un : ln_sizes (bl_node l) = loops -> valid_user loops (ar_sizes (ac_array a)) sm -> request_with visit free a l sm = Ok rq -> spatial_loop_dim_size rq = Ok un ->
  exists lim whole, limit_mapping loops (ar_sizes (ac_array a)) sm = Ok (lim, whole) /\ forall d, (qprod (unrollings_of d un) == unrolled_total lim d)%Q.
Proof.
  intros Ls V E Eu. unfold request_with in E. apply rbind_Ok in E. destruct E as (sp & Es & E). do 4 (apply rbind_Ok in E; destruct E as (? & _ & E)). injection E as <-.
  unfold spatial_levels in Es. rewrite Ls in Es. apply rbind_Ok in Es. destruct Es as ([lim whole] & El & Es). apply rbind_Ok in Es. destruct Es as (served & _ & Es). injection Es as <-.
  exists lim, whole. split; [exact El|]. intros d. unfold spatial_loop_dim_size in Eu. cbn [rq_inputs rq_spatial fst snd] in Eu. apply rbind_Ok in Eu. destruct Eu as (op & _ & Eu). apply rbind_Ok in Eu. destruct Eu as (ls & Els & Eu).
  injection Eu as <-. unfold dgetr in Els. destruct (dget op (mapping_per_mem_lvl served lim)) as [ls'|] eqn:Ed; [|discriminate]. cbn in Els. injection Els as ->. apply dget_In in Ed.
  destruct (Forall2_in_r _ _ _ _ (mapping_per_mem_lvl_ok served lim (proj1 (limit_dicts _ _ _ _ _ El))) Ed) as (ol & _ & _ & _ & _ & Hd). rewrite <- (Hd d). cbn [snd]. unfold Spec_Convert.over_levels, unrollings_of.
  replace (filter (fun sl : string * Q => eqb (fst sl) d) (concat ls)) with (filter (fun x : string * Q => if string_dec (fst x) d then true else false) (concat ls)); [reflexivity|].
  apply filter_ext. intros [d' q]. cbn [fst]. destruct (string_dec d' d), (eqb_spec d' d); congruence.
Qed.

(** The cycles that the search gives are enough for the operations. *)
Lemma latency_floor visit free a l loops sm rq ms factorint lim mt : factorint_ok factorint -> (forall n, lim = Some n -> 1 <= n) -> ln_sizes (bl_node l) = loops -> (forall o s, dget o (ar_sizes (ac_array a)) = Some s -> 1 <= s) ->
  NoDup (keys (ar_sizes (ac_array a))) -> valid_user loops (ar_sizes (ac_array a)) sm -> within_array (ar_sizes (ac_array a)) sm -> request_with visit free a l sm = Ok rq -> searchable rq loops 0 ms -> rq_cpo rq = 1%Q ->
  exists enough, forall fuel, (enough <= fuel)%nat -> dedicated_ports ms -> forall tm, In tm (fst (outcome (loma_mappings rq factorint lim loops mt fuel))) ->
    forall ident name fuel' x, (passes_bound tm <= fuel')%nat -> evaluate_mapping rq fuel' ident name tm = Ok x ->
    (inject_Z (zprod (map snd loops)) <= inject_Z (zprod (map snd (ar_sizes (ac_array a)))) * ev_l2 x)%Q.
Proof.
  intros Hf Hl Ls Pa Na V W Er Se Cp. destruct (search_ok rq loops 0 ms Se factorint lim mt Hf Hl) as (un & tops & nodes & lpfs & Vs & Eu & Ev & Cov & _ & _ & H). exists (length Vs). intros fuel F D tm It ident name fuel' x Pb Ex.
  destruct (H fuel F) as (found & e & El & _ & _ & Va). rewrite El in It. unfold outcome in It. cbn [fst] in It. destruct (Va tm It) as (Vr & p & Pp & Cc).
  destruct (dedicated_ok rq loops 0 ms tm ident name fuel' Se D Vr Pb) as (x' & Ex' & Lt). assert (x' = x) by congruence. subst x'.
  destruct (se_sizes _ _ _ _ Se) as (_ & Nd & Ge).
  assert (Tf := vr_temporal _ Vr).
  assert (Op : exists op levels, In (op, levels) tm).
  { assert (K : In (rq_out rq) (keys tm)) by (apply (proj2 (tf_operands _ Tf (rq_out rq))); apply (proj2 (proj1 (sl_operands _ (se_layer _ _ _ _ Se) (rq_out rq)))); now left).
    destruct (key_dget _ _ K) as (levels & E1). apply dget_In in E1. now exists (rq_out rq), levels. }
  destruct Op as (op & levels & I). specialize (Lt op levels I). rewrite (Cc op levels I), Cp in Lt.
  destruct (tf_loops _ Tf) as (ord & Go & Eo). assert (ord = p) by (rewrite <- (Eo op levels I); exact (Cc op levels I)). subst ord.
  assert (Gl : forall y, In y lpfs -> 1 <= snd y) by (intros y Iy; apply Go; apply (Permutation_in _ (Permutation_sym Pp)); exact Iy).
  assert (Cy : cycles p = cycles lpfs) by (unfold cycles; apply zprod_perm; now apply Permutation_map).
  destruct (request_unrolled visit free a l loops sm rq un Ls V Er Eu) as (li & whole & Elm & Tot).
  destruct (limit_mapping_ok _ _ _ V) as (li' & whole' & Elm' & Kl & _ & H1 & H2 & _). assert (li' = li /\ whole' = whole) as (-> & ->) by (split; congruence).
  destruct (limit_dicts _ _ _ _ _ Elm) as (Dl & _).
  assert (Un := unrolled_within (keys loops) loops (ar_sizes (ac_array a)) sm li Nd V W Na Pa Dl). destruct Un as (_ & U2).
  - intros o d u U. destruct (H1 o d u U) as (y & z & Y & _ & Lm & _). exists y. split; [exact Y|]. destruct Lm as [(_ & ->)|(_ & B & _)]; [|exact B]. split; [|lra].
    destruct U as (m & Em & Ed). apply dget_In in Em, Ed. destruct (vu_whole _ _ _ V o m d u Em Ed) as (k & Lk & Ek). rewrite Ek. change 0%Q with (inject_Z 0). rewrite <- Zlt_Qlt. lia.
  - exact H2.
  - intros o Io. rewrite Kl in Io. apply in_map_iff in Io. destruct Io as (om & <- & Io). apply filter_In in Io. apply List.in_map. exact (proj1 Io).
  - intros o d u U. destruct (vu_known _ _ _ V o d u U) as (n & En & _). now apply dget_Some_key in En.
  - assert (Co := covered_operations loops un lpfs (inject_Z (zprod (map snd (ar_sizes (ac_array a))))) Nd Ge Gl Cov).
    assert (Ps : (0 <= inject_Z (zprod (map snd (ar_sizes (ac_array a)))))%Q).
    { change 0%Q with (inject_Z 0). rewrite <- Zle_Qle. apply Z.lt_le_incl, zprod_pos. intros y Iy. apply in_map_iff in Iy. destruct Iy as ((o & s) & <- & Iy). cbn [snd]. specialize (Pa o s (In_dget _ _ _ Na Iy)). lia. }
    eapply Qle_trans; [apply Co|].
    + intros d Id. rewrite (Tot d). clear - H1 H2 Dl V. destruct Dl as (D1 & D2). assert (G : forall o m x, In (o, m) li -> dget d m = Some x -> (0 <= x)%Q).
      { intros o m y Im Ey. destruct (H2 o d y) as (u & U); [exists m; split; [now apply In_dget|exact Ey]|]. destruct (H1 o d u U) as (y' & z & (m' & Em' & Ed') & _ & Lm & _).
        assert (Q1 : dget o li = Some m) by now apply In_dget. assert (y' = y) by congruence. subst y'. destruct Lm as [(_ & ->)|(_ & B & _)]; [|lra].
        destruct U as (m1 & Em & Ed). apply dget_In in Em, Ed. destruct (vu_whole _ _ _ V o m1 d u Em Ed) as (k & Lk & Ek). rewrite Ek. change 0%Q with (inject_Z 0). rewrite <- Zle_Qle. lia. }
      clear - G. induction li as [|[o m] li IH]; cbn [unrolled_total]; [lra|]. assert (0 <= unrolled_total li d)%Q by (apply IH; intros o' m' y I; apply (G o'); now right).
      destruct (dget d m) as [y|] eqn:E; [|lra]. assert (0 <= y)%Q by (apply (G o m y); [now left|exact E]). now apply Qmult_le_0_compat.
    + eapply Qle_trans; [|exact U2]. rewrite (qprod_map_eq _ (unrolled_total li) (keys loops)); [lra|]. intros d _. apply Tot.
    + rewrite <- Cy. nra.
Qed.

(** * Sums over the layers *)

Lemma zsum_map_perm {X} (f : X -> Z) l l' : Permutation l l' -> zsum (map f l) = zsum (map f l').
Proof. intros P. apply zsum_perm. now apply Permutation_map. Qed.
Lemma qsum_floor {X} (f : X -> Z) (g : X -> Q) (k : Q) l : (forall x, In x l -> (k * inject_Z (f x) <= g x)%Q) -> (k * inject_Z (zsum (map f l)) <= qsum (map g l))%Q.
Proof.
  induction l as [|x l IH]; intros H; [unfold zsum, qsum; cbn [map fold_right]; change (inject_Z 0) with 0%Q; lra|]. cbn [map]. change (zsum (f x :: map f l)) with (f x + zsum (map f l)). change (qsum (g x :: map g l)) with (g x + qsum (map g l))%Q.
  rewrite inject_Z_plus, Qmult_plus_distr_r. assert (I := IH (fun y Iy => H y (or_intror Iy))). specialize (H x (or_introl eq_refl)). lra.
Qed.
Lemma qsum_floor' {X} (f : X -> Z) (g : X -> Q) (k : Q) l : (forall x, In x l -> (inject_Z (f x) <= k * g x)%Q) -> (inject_Z (zsum (map f l)) <= k * qsum (map g l))%Q.
Proof.
  induction l as [|x l IH]; intros H; [unfold zsum, qsum; cbn [map fold_right]; change (inject_Z 0) with 0%Q; lra|]. cbn [map]. change (zsum (f x :: map f l)) with (f x + zsum (map f l)). change (qsum (g x :: map g l)) with (g x + qsum (map g l))%Q.
  rewrite inject_Z_plus, Qmult_plus_distr_r. assert (I := IH (fun y Iy => H y (or_intror Iy))). specialize (H x (or_introl eq_refl)). lra.
Qed.

Section Floor.
  Variables order1 order2 dim_order visit order : list string -> list string.
  Variable pick_dim : string -> dict string Q -> string.
  Variable pick_oa : string -> dict string (dict string Q) -> string.
  Variable factorint : Z -> list (Z * Z).
  Variables (lim : option Z) (mt : mapping_type) (mix : bool) (nb : nat) (free : bool).
  Variables (bank : Z -> Z -> Z -> Z -> result Q) (adc : Z -> Q) (sim : simulator) (tech : Z) (known : pool).
  Variables (hardware : raw_accel) (mapping : list raw_entry).
  Hypothesis order_perm : forall l, Permutation (order l) l.
  Hypothesis visit_perm : forall l, Permutation (visit l) l.
  Hypotheses (Ho1 : orders order1) (Ho2 : orders order2) (Hdo : orders dim_order) (Hpd : picks_dim pick_dim) (Hpo : picks_oa pick_oa).
  Hypothesis factors : factorint_ok factorint.
  Hypothesis limit : forall n, lim = Some n -> 1 <= n.
  Hypothesis some : (1 <= nb)%nat.
  Hypothesis usable_hardware : usable_accelerator hardware.
  Hypothesis mapping_ok : proper_file mapping /\ exists data, parse_mapping mapping = Ok data.
  Hypothesis costs : exists cs p', priced sim tech known (memories hardware) cs p'.

  Lemma hardware_priced : exists a p' ms e u, parse_accelerator bank adc sim tech known hardware = Ok (a, p') /\
    sizes_as (rf_array hardware) (ac_array a) /\ Forall2 mem_of (memories hardware) ms /\ build 0 ms = Ok (ac_hierarchy a) /\
    ar_kind (ac_array a) = Multipliers e u (u * inject_Z (ar_units (ac_array a))) /\ ra_energy (rf_array hardware) = Some e /\
    (no_negative_price sim tech known hardware -> forall s, In s ms -> (0 <= ms_r_cost s /\ 0 <= ms_w_cost s)%Q).
  Proof.
    pose proof usable_hardware as Ua. destruct (ua_accepted _ Ua) as (Ac & En & Ar & So). destruct costs as (cs & p' & Pr).
    destruct (regular_builds bank adc sim tech known hardware p') as (B & R); [exact (proj1 (proj2 Ac))|].
    destruct (proj2 B) as (a & Ea); [repeat (split; [assumption|]); now exists cs|]. destruct (R a Ea) as ((Na & Sz & Me & _) & e & u & Ce & _ & K).
    pose proof Me as Me'. destruct Me' as (cs' & ms & Pr' & F & L & Bu & _). exists a, p', ms, e, u. split; [exact Ea|]. split; [exact Sz|].
    assert (Lc : length cs' = length (memories hardware)) by exact (priced_length _ _ _ _ _ _ Pr').
    fold (memories hardware) in F. split.
    - clear - F Lc. revert cs' ms Lc F. induction (memories hardware) as [|m l IH]; intros [|c cs'] ms Lc F; try discriminate Lc; cbn [combine] in F; inversion F as [|x s xs ss H F']; subst; constructor.
      + destruct H as (H1 & _ & _ & H2 & H3 & H4). cbn [fst snd] in *. now repeat split.
      + apply (IH cs'); [now injection Lc|exact F'].
    - split; [exact Bu|]. split; [exact K|]. split; [exact Ce|]. intros Np s Is. destruct (Forall2_in_r _ _ _ _ F Is) as ((m & [[r w] ar]) & Ic & H). apply in_combine_r in Ic.
      destruct H as (_ & -> & -> & _). cbn [fst snd]. exact (Np cs' p' Pr' r w ar Ic).
  Qed.

  Variables (layer : nat -> result built_layer) (positions : list nat) (about : nat -> raw_layer -> written_equation -> list written_relation -> list (string * Z) -> Prop).
  Hypothesis layers : forall i, In i positions -> exists r e ws loops l, about i r e ws loops /\ usable_layer r e ws loops /\ layer i = Ok l /\ layer_as order mapping r e ws loops l /\
    forall t p en, rl_type r = Some t -> rl_precision r = Some p -> Spec_MapFile.chosen (called r) t (map normalise mapping) en -> usable_entry hardware en /\ one_element hardware (en_links en) p.
  Hypothesis only : forall i l, layer i = Ok l -> In i positions.
  Variables (unit : Q) (operations : nat -> Z).
  Hypothesis priced_unit : ra_energy (rf_array hardware) = Some unit.
  Hypothesis counted : forall i r e ws loops, about i r e ws loops -> zprod (map snd loops) = operations i.

  Lemma given_floor (dummy : nat -> bool) (g : graph nat) :
    (forall i, In i (g_nodes g) /\ dummy i = false <-> In i positions) -> NoDup positions -> ranked g -> graph_ok g ->
    exists a p', parse_accelerator bank adc sim tech known hardware = Ok (a, p') /\
    exists enough, forall fuel, (enough <= fuel)%nat -> exists enough', forall fuel', (enough' <= fuel')%nat ->
    forall opt le, Spec_Pipeline.criterion opt le -> forall energy latency cmes,
    api dummy (fun _ => false) g (spatials order1 order2 dim_order visit pick_dim pick_oa mix nb a layer) (convert visit free a layer) (temporals factorint lim mt fuel layer) (evaluate fuel' a) order opt = Ok (energy, latency, cmes) ->
    (no_negative_price sim tech known hardware -> energy_needed unit (zsum (map operations positions)) energy) /\
    (one_movement hardware -> ~ orders_loops mapping -> time_needed (zprod (ra_sizes (rf_array hardware))) (zsum (map operations positions)) latency).
  Proof.
    intros Nn No Ra Gk. destruct hardware_priced as (a & p' & ms & eu & au & Ea & Sz & Me & Bu & K & Ce & Pz). exists a, p'. split; [exact Ea|].
    assert (eu = unit) by congruence. subst eu.
    assert (Full := layer_full order1 order2 dim_order visit order pick_dim pick_oa factorint lim mt mix nb free bank adc tech hardware mapping order_perm visit_perm Ho1 Ho2 Hdo Hpd Hpo limit some usable_hardware mapping_ok a ms unit au layer positions about Sz Me Bu K layers only).
    destruct (enough_search order1 order2 dim_order visit order pick_dim pick_oa factorint lim mt mix nb free bank adc tech hardware mapping order_perm visit_perm Ho1 Ho2 Hdo Hpd Hpo factors limit some usable_hardware mapping_ok a ms unit au layer positions about Sz Me Bu K layers only) as (n & Hn).
    assert (Sized : ar_sizes (ac_array a) = combine (ra_dims (rf_array hardware)) (ra_sizes (rf_array hardware)) /\ ar_units (ac_array a) = zprod (ra_sizes (rf_array hardware))) by exact (proj2 (proj2 Sz) (proj1 (ua_array _ usable_hardware))).
    assert (Pos : forall o s, dget o (ar_sizes (ac_array a)) = Some s -> 1 <= s).
    { intros o s E. apply dget_In in E. rewrite (proj1 Sized) in E. apply in_combine_r in E. exact (proj2 (ua_array _ usable_hardware) s E). }
    assert (Prod : zprod (map snd (ar_sizes (ac_array a))) = zprod (ra_sizes (rf_array hardware))).
    { rewrite (proj1 Sized). f_equal. apply combine_snd. destruct (ua_accepted _ usable_hardware) as ((PP & _) & _). exact (proj1 (proj2 (proj1 PP))). }
    (** all candidates *)
    assert (Lat : exists n, forall fuel, (n <= fuel)%nat -> forall i, In i positions ->
      exists sms, spatials order1 order2 dim_order visit pick_dim pick_oa mix nb a layer i = Ok sms /\ forall sm, In sm sms -> exists rq loops, convert visit free a layer i sm = Ok rq /\ searchable rq loops 0 ms /\
      rq_macs rq = operations i /\ rq_mac_cost rq = unit /\
      (one_movement hardware -> ~ orders_loops mapping -> forall tm, In tm (fst (temporals factorint lim mt fuel layer i rq)) -> forall fuel' x, (passes_bound tm <= fuel')%nat -> evaluate fuel' a i rq tm = Ok x ->
         (inject_Z (operations i) <= inject_Z (zprod (ra_sizes (rf_array hardware))) * ev_l2 x)%Q)).
    { apply (uniform positions (fun i fuel => exists sms, spatials order1 order2 dim_order visit pick_dim pick_oa mix nb a layer i = Ok sms /\ forall sm, In sm sms -> exists rq loops, convert visit free a layer i sm = Ok rq /\ searchable rq loops 0 ms /\
      rq_macs rq = operations i /\ rq_mac_cost rq = unit /\
      (one_movement hardware -> ~ orders_loops mapping -> forall tm, In tm (fst (temporals factorint lim mt fuel layer i rq)) -> forall fuel' x, (passes_bound tm <= fuel')%nat -> evaluate fuel' a i rq tm = Ok x ->
         (inject_Z (operations i) <= inject_Z (zprod (ra_sizes (rf_array hardware))) * ev_l2 x)%Q))).
      intros i Ii. destruct (Full i Ii) as (sms & r & e & ws & loops & l & en & Es & _ & _ & Ab & U & El & A & Lk & _ & _ & _ & Oo & H).
      destruct (uniform sms (fun sm fuel => exists rq loops, convert visit free a layer i sm = Ok rq /\ searchable rq loops 0 ms /\ rq_macs rq = operations i /\ rq_mac_cost rq = unit /\
        (one_movement hardware -> ~ orders_loops mapping -> forall tm, In tm (fst (temporals factorint lim mt fuel layer i rq)) -> forall fuel' x, (passes_bound tm <= fuel')%nat -> evaluate fuel' a i rq tm = Ok x ->
         (inject_Z (operations i) <= inject_Z (zprod (ra_sizes (rf_array hardware))) * ev_l2 x)%Q))) as (m & Hm); [|exists m; intros fuel F; exists sms; split; [exact Es|exact (Hm fuel F)]].
      intros sm Im. destruct (H sm Im) as ((V & W) & rq & Eq & Ec & Se & Et).
      assert (R := right_made order visit free mapping hardware r e ws loops a l ms en unit au visit_perm usable_hardware Me Bu Sz K Ce A Lk sm rq V Eq).
      destruct (rr_array _ _ _ _ _ _ _ _ R) as (_ & Mc & Cp).
      destruct (latency_floor visit free a l loops sm rq ms factorint lim mt factors limit (as_sizes _ _ _ _ _ _ _ A) Pos (proj1 Sz) V W Eq Se Cp) as (m & Hm). exists m. intros fuel F.
      exists rq, loops. split; [exact Ec|]. split; [exact Se|]. split; [rewrite (rr_operations _ _ _ _ _ _ _ _ R); exact (counted i r e ws loops Ab)|]. split; [congruence|].
      intros O U' tm It fuel' x Pb Ex. rewrite <- (counted i r e ws loops Ab), <- Prod. rewrite Et in It.
      assert (Q : ordered en loops = []) by (destruct (ordered en loops) as [|y ys]; [reflexivity|]; exfalso; apply U', Oo; discriminate). rewrite Q in It.
      exact (Hm fuel F (ports_dedicated hardware mapping usable_hardware mapping_ok ms Me O) tm It i (ac_name a) fuel' x Pb Ex). }
    destruct Lat as (n2 & Lat). exists (n + n2)%nat. intros fuel F.
    destruct (enough_passes order1 order2 dim_order visit order pick_dim pick_oa factorint lim mt mix nb free bank adc tech hardware mapping limit some a layer positions about layers only fuel) as (n' & Hn'). exists n'. intros fuel' F' opt le Cr energy latency cmes Er.
    destruct (course_best order1 order2 dim_order visit order pick_dim pick_oa factorint lim mt mix nb free bank adc tech hardware mapping order_perm mapping_ok a layer positions about layers only fuel fuel' dummy g (fun _ _ => False) opt le Nn No (fun u v Fa => False_ind _ Fa) Gk Cr energy latency cmes Er)
      as (total & rs & _ & -> & -> & Su & Pe & _ & Each). cbv zeta in Pe.
    rewrite (zsum_map_perm operations _ _ (Permutation_sym Pe)), map_map. unfold energy_needed, time_needed.
    assert (Cand : forall b i others, In (b, (i, others)) rs -> exists rq loops tm, In i positions /\ searchable rq loops 0 ms /\ valid_request (with_temporal rq tm) /\ (passes_bound tm <= fuel')%nat /\ evaluate fuel' a i rq tm = Ok b /\
      rq_macs rq = operations i /\ rq_mac_cost rq = unit /\ (one_movement hardware -> ~ orders_loops mapping -> (inject_Z (operations i) <= inject_Z (zprod (ra_sizes (rf_array hardware))) * ev_l2 b)%Q)).
    { intros b i others I. destruct (Each b i others I) as (_ & (sms & sm & rq & tm & Es & Im & Eq & It & Ex) & _).
      assert (Ii : In i positions) by (apply (Permutation_in _ Pe); apply in_map_iff; now exists (b, (i, others))).
      destruct (Lat fuel ltac:(lia) i Ii) as (sms' & Es' & Hs). assert (sms' = sms) by congruence. subst sms'. destruct (Hs sm Im) as (rq' & loops & Eq' & Se & Mm & Mc & La). assert (rq' = rq) by congruence. subst rq'.
      destruct (Hn fuel ltac:(lia) i Ii) as (sms' & Es2 & _ & Hv). assert (sms' = sms) by congruence. subst sms'. destruct (Hv sm Im) as (rq' & Eq2 & _ & _ & Va). assert (rq' = rq) by congruence. subst rq'.
      pose proof (Hn' fuel' F' i Ii sms sm rq tm Es Im Eq It) as Pb. exists rq, loops, tm. do 2 (split; [assumption|]). split; [exact (proj1 (Va tm It))|]. do 4 (split; [assumption|]). intros O U. exact (La O U tm It fuel' b Pb Ex). }
    split.
    - intros Np. rewrite (su_energy _ _ Su). unfold total_of. rewrite map_map. apply qsum_floor. intros [b [i others]] I. cbn [fst snd]. destruct (Cand b i others I) as (rq & loops & tm & Ii & Se & Vr & Pb & Ex & Mm & Mc & _).
      rewrite <- Mm, <- Mc. exact (energy_floor rq loops 0 ms tm i (ac_name a) fuel' b Se (Pz Np) Vr Pb Ex).
    - intros O U. rewrite (su_l2 _ _ Su). unfold total_of. rewrite map_map. apply qsum_floor'. intros [b [i others]] I. cbn [fst snd]. destruct (Cand b i others I) as (rq & loops & tm & _ & _ & _ & _ & _ & _ & _ & La). exact (La O U).
  Qed.
End Floor.
