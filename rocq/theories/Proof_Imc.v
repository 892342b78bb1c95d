(** Proofs about in-memory-computing arrays (C51, C68-C70). *)
From Coq Require Import QArith Lia Lqa Qround Permutation.
From Verif Require Import Base Model_Pr Spec_Pr Model_Imc Spec_Imc Proof_Pr.
Open Scope string_scope.
Open Scope list_scope.
Open Scope Z_scope.

Lemma pow2_pos d : 0 < 2 ^ Z.of_nat d. Proof. apply Z.pow_pos_nonneg; lia. Qed.
Lemma pow2_S d : 2 ^ Z.of_nat (S d) = 2 * 2 ^ Z.of_nat d.
Proof. rewrite Nat2Z.inj_succ, Z.pow_succ_r; lia. Qed.

(** * Balanced trees *)
Lemma balanced_width p d : forall first m, width p (balanced d first m) = p + Z.of_nat d.
Proof. induction d as [|d IH]; intros; cbn [balanced width]; [lia|]. rewrite !IH. lia. Qed.
Lemma balanced_adders p d : forall first m, one_bit_adders p (balanced d first m) = regular_adders p (2 ^ Z.of_nat d) (Z.of_nat d).
Proof.
  unfold regular_adders. induction d as [|d IH]; intros; cbn [balanced one_bit_adders]; [change (2 ^ Z.of_nat 0) with 1; lia|].
  rewrite !IH. unfold adder_bits. rewrite !balanced_width, pow2_S. lia.
Qed.
Lemma balanced_leaves d : forall first m, leaves (balanced d first m) = map (fun k => first + Z.of_nat k <? m) (seq 0 (Nat.pow 2 d)).
Proof.
  induction d as [|d IH]; intros; cbn [balanced leaves].
  - cbn. now rewrite Z.add_0_r.
  - rewrite !IH. replace (Nat.pow 2 (S d)) with (Nat.pow 2 d + Nat.pow 2 d)%nat by (cbn [Nat.pow]; lia).
    rewrite seq_app, map_app. f_equal. cbn [Nat.add].
    assert (E : forall n a, seq a n = map (fun k => (a + k)%nat) (seq 0 n)).
    { induction n as [|n In]; intros a; [easy|]. cbn [seq map]. f_equal; [lia|]. rewrite (In 1%nat), (In (S a)), map_map. apply map_ext. lia. }
    rewrite (E (2 ^ d)%nat (2 ^ d)%nat), map_map. apply map_ext. intros k. f_equal. rewrite Nat2Z.inj_add, Nat2Z.inj_pow. lia.
Qed.
Lemma balanced_used d : forall first m, in_use (balanced d first m) = (first <? m).
Proof.
  induction d as [|d IH]; intros; cbn [balanced in_use]; [easy|]. rewrite !IH. pose proof (pow2_pos d).
  destruct (Z.ltb_spec first m), (Z.ltb_spec (first + 2 ^ Z.of_nat d) m); cbn; lia.
Qed.
Lemma balanced_full p d : forall first m, first + 2 ^ Z.of_nat d <= m ->
  adding p (balanced d first m) = one_bit_adders p (balanced d first m) /\ passing p (balanced d first m) = 0.
Proof.
  induction d as [|d IH]; intros first m L; cbn [balanced adding passing one_bit_adders]; [easy|].
  rewrite pow2_S in L. pose proof (pow2_pos d).
  destruct (IH first m ltac:(lia)) as (-> & ->), (IH (first + 2 ^ Z.of_nat d) m ltac:(lia)) as (-> & ->). rewrite !balanced_used.
  rewrite !(proj2 (Z.ltb_lt _ _)) by lia. cbn [andb xorb]. lia.
Qed.
Lemma balanced_idle p d : forall first m, m <= first ->
  adding p (balanced d first m) = 0 /\ passing p (balanced d first m) = 0.
Proof.
  induction d as [|d IH]; intros first m L; cbn [balanced adding passing]; [easy|]. pose proof (pow2_pos d).
  destruct (IH first m ltac:(lia)) as (-> & ->), (IH (first + 2 ^ Z.of_nat d) m ltac:(lia)) as (-> & ->). rewrite !balanced_used.
  rewrite !(proj2 (Z.ltb_ge _ _)) by lia. cbn [andb xorb]. lia.
Qed.
Lemma balanced_shift d : forall first m k, balanced d (first + k) (m + k) = balanced d first m.
Proof.
  induction d as [|d IH]; intros; cbn [balanced].
  - f_equal. destruct (Z.ltb_spec first m), (Z.ltb_spec (first + k) (m + k)); lia.
  - rewrite IH. f_equal. rewrite <- (IH _ m k). f_equal. lia.
Qed.
Lemma width_nonneg p t : 0 <= p -> 0 <= width p t.
Proof. intros P. induction t; cbn; lia. Qed.
Lemma used_le p t : 0 <= p -> 0 <= adding p t /\ 0 <= passing p t /\ adding p t + passing p t <= one_bit_adders p t.
Proof.
  intros P. induction t as [|l L r R]; cbn [adding passing one_bit_adders]; [lia|].
  assert (0 <= adder_bits p l r) by (unfold adder_bits; pose proof (width_nonneg p l P); lia).
  destruct (in_use l), (in_use r); cbn [andb xorb]; lia.
Qed.

Lemma half_pow d : 2 ^ Z.of_nat (S d) / 2 = 2 ^ Z.of_nat d.
Proof. rewrite pow2_S, Z.mul_comm, Z.div_mul; lia. Qed.

Lemma used_adders_spec p d : forall fuel m full half, 1 <= m < 2 ^ Z.of_nat d -> (d < fuel)%nat ->
  used_adders fuel p m (2 ^ Z.of_nat d) full half = Ok (full + adding p (balanced d 0 m), half + passing p (balanced d 0 m)).
Proof.
  induction d as [|d IH]; intros fuel m full half R F; [cbn in R; lia|].
  destruct fuel as [|fuel]; [lia|]. cbn [used_adders]. rewrite (proj2 (Z.eqb_neq m 0)) by lia.
  rewrite half_pow, Z.log2_pow2 by lia. pose proof (pow2_pos d) as P.
  cbn [balanced adding passing]. rewrite !balanced_used, (proj2 (Z.ltb_lt 0 m)) by lia. cbn [Z.add].
  assert (W : adder_bits p (balanced d 0 m) (balanced d (2 ^ Z.of_nat d) m) = p + Z.of_nat d)
    by (unfold adder_bits; rewrite !balanced_width; lia).
  rewrite W. clear W.
  assert (Z0 : forall f h, used_adders fuel p 0 (2 ^ Z.of_nat d) f h = Ok (f, h)) by (intros; destruct fuel; [lia|easy]).
  destruct ((m <=? 1) && (2 ^ Z.of_nat d =? 1)) eqn:E.
  - apply andb_true_iff in E as (E1 & E2). apply Z.leb_le in E1. apply Z.eqb_eq in E2. rewrite Z0, E2.
    assert (d = 0)%nat as -> by (destruct d; [easy|rewrite pow2_S in E2; lia]).
    assert (m = 1) as -> by lia. cbn. f_equal. f_equal; lia.
  - destruct (Z.ltb_spec (2 ^ Z.of_nat d) m) as [L|L].
    + rewrite IH; [|rewrite pow2_S in R; lia|lia].
      destruct (balanced_full p d 0 m ltac:(lia)) as (-> & ->). rewrite balanced_adders.
      rewrite <- (balanced_shift d 0 (m - 2 ^ Z.of_nat d) (2 ^ Z.of_nat d)).
      replace (m - 2 ^ Z.of_nat d + 2 ^ Z.of_nat d) with m by lia.
      cbn [andb xorb Z.add]. unfold regular_adders. f_equal. f_equal; lia.
    + destruct (balanced_idle p d (2 ^ Z.of_nat d) m ltac:(lia)) as (-> & ->). cbn [andb xorb].
      destruct (Z.ltb_spec m (2 ^ Z.of_nat d)) as [L'|L'].
      * rewrite IH by lia. f_equal. f_equal; lia.
      * assert (m = 2 ^ Z.of_nat d) by lia. subst m. rewrite Z.sub_diag, Z0.
        destruct (balanced_full p d 0 (2 ^ Z.of_nat d) ltac:(lia)) as (-> & ->). rewrite balanced_adders. unfold regular_adders.
        f_equal. f_equal; lia.
Qed.

Lemma tree_counts_spec fuel p m d : (d < fuel)%nat ->
  tree_counts fuel p m (2 ^ Z.of_nat d) = Ok (adding p (balanced d 0 m), passing p (balanced d 0 m)).
Proof.
  intros F. unfold tree_counts. destruct (Z.leb_spec 1 m).
  - destruct (Z.leb_spec (2 ^ Z.of_nat d) m).
    + destruct (balanced_full p d 0 m ltac:(lia)) as (-> & ->). now rewrite balanced_adders, Z.log2_pow2 by lia.
    + now rewrite used_adders_spec by lia.
  - destruct (balanced_idle p d 0 m ltac:(lia)) as (-> & ->). easy.
Qed.

(** * Place values *)
Lemma place_needed q d : 2 * place_one_bit_adders q d = 2 * (q * (2 ^ Z.of_nat d - 1)) + 2 ^ Z.of_nat d * (Z.of_nat d - 1) + (match d with O => 1 | _ => 0 end).
Proof.
  induction d as [|d IH]; [change (2 ^ Z.of_nat 0) with 1; cbn [place_one_bit_adders]; lia|]. cbn [place_one_bit_adders]. rewrite pow2_S, Nat2Z.inj_succ.
  unfold place_width. destruct d as [|d]; [change (2 ^ Z.of_nat 0) with 1 in *; cbn [place_one_bit_adders] in *; lia|]. rewrite Z.add_0_r in *. nia.
Qed.
Lemma place_count q d : (place_adders q (2 ^ Z.of_nat (S d)) (Z.of_nat (S d)) == inject_Z (place_one_bit_adders q (S d) + 2 ^ Z.of_nat d * Z.of_nat (S d)))%Q.
Proof.
  unfold place_adders. pose proof (place_needed q (S d)) as E. rewrite pow2_S in *.
  set (n := 2 ^ Z.of_nat d) in *. set (k := Z.of_nat (S d)) in *. set (t := place_one_bit_adders q (S d)) in *. clearbody n k t.
  assert (E2 : t = q * (2 * n - 1) + n * (k - 1)) by lia. subst t.
  rewrite !inject_Z_plus, !inject_Z_mult. unfold Z.sub. rewrite !inject_Z_plus, !inject_Z_mult. change (inject_Z 2) with 2%Q. change (inject_Z (- (1))) with (-1)%Q. ring.
Qed.
Lemma place_width_exact q d : 2 <= q -> (0 < d)%nat -> let n := 2 ^ Z.of_nat d in
  2 ^ (place_width q d - 1) <= (2 ^ n - 1) * (2 ^ q - 1) < 2 ^ place_width q d.
Proof.
  intros Q D n. unfold place_width. destruct d as [|d]; [lia|]. fold n.
  assert (N : 2 <= n) by (unfold n; rewrite pow2_S; pose proof (pow2_pos d); lia). clearbody n. clear d D.
  replace q with (q - 2 + 2) by lia. replace n with (n - 2 + 2) by lia.
  assert (A : 1 <= 2 ^ (q - 2)) by (pose proof (Z.pow_pos_nonneg 2 (q - 2)); lia).
  assert (B : 1 <= 2 ^ (n - 2)) by (pose proof (Z.pow_pos_nonneg 2 (n - 2)); lia).
  replace (q - 2 + 2 + (n - 2 + 2)) with ((q - 2) + (n - 2) + 4) by lia.
  replace (q - 2 + (n - 2) + 4 - 1) with ((q - 2) + (n - 2) + 3) by lia.
  rewrite !Z.pow_add_r by lia. change (2 ^ 2) with 4. change (2 ^ 4) with 16. change (2 ^ 3) with 8. nia.
Qed.

(** * Construction *)
Lemma log2_whole_iff n d : log2_whole n = Ok d <-> exists k : nat, n = 2 ^ Z.of_nat k /\ d = Z.of_nat k.
Proof.
  unfold log2_whole. split.
  - destruct (Z.leb_spec n 0); [easy|]. destruct (Z.eqb_spec (2 ^ Z.log2 n) n) as [E|]; [|easy].
    injection 1 as <-. exists (Z.to_nat (Z.log2 n)). pose proof (Z.log2_nonneg n). rewrite Z2Nat.id by lia. easy.
  - intros (k & -> & ->). pose proof (pow2_pos k). rewrite (proj2 (Z.leb_gt _ _)) by lia.
    rewrite Z.log2_pow2 by lia. now rewrite Z.eqb_refl.
Qed.
Lemma power_ge1 n : power_of_two n -> 1 <= n.
Proof. intros (k & ->). pose proof (pow2_pos k). lia. Qed.
Lemma inject_nonneg n : 0 <= n -> (0 <= inject_Z n)%Q.
Proof. intros. change 0%Q with (inject_Z 0). now rewrite <- Zle_Qle. Qed.
Lemma Qmul_nonneg x y : (0 <= x -> 0 <= y -> 0 <= x * y)%Q.
Proof. apply Qmult_le_0_compat. Qed.
Lemma regular_nonneg p d : 0 <= p -> 0 <= regular_adders p (2 ^ Z.of_nat d) (Z.of_nat d).
Proof. intros P. rewrite <- (balanced_adders p d 0 0). pose proof (used_le p (balanced d 0 0) P). lia. Qed.
Lemma place_nonneg q d : 0 <= q -> (0 <= place_adders q (2 ^ Z.of_nat (S d)) (Z.of_nat (S d)))%Q.
Proof.
  intros P. rewrite place_count. apply inject_nonneg. pose proof (pow2_pos d).
  assert (H0 : forall k, 0 <= place_one_bit_adders q k).
  { induction k; cbn [place_one_bit_adders]; [lia|]. assert (0 <= place_width q k) by (unfold place_width; pose proof (pow2_pos k); destruct k; lia). lia. }
  specialize (H0 (S d)). nia.
Qed.

Section Valid.
  Variable a : imc.
  Hypothesis V : valid a.

  Lemma depth_ok : exists d : nat, regular_depth a = Ok (Z.of_nat d) /\ (im_analog a = false -> im_bitline a = 2 ^ Z.of_nat d).
  Proof.
    unfold regular_depth. destruct (im_analog a) eqn:A; [exists 0%nat; easy|].
    destruct (wf_rows _ V A) as (d & E). exists d. split; [|easy]. apply log2_whole_iff. now exists d.
  Qed.
  Lemma inputs_power : power_of_two (place_inputs a).
  Proof. unfold place_inputs. destruct (im_analog a); [apply (wf_weight _ V)|apply (wf_serial _ V)]. Qed.
  Lemma precision_nonneg d : 0 <= d -> 0 <= place_precision a d.
  Proof. intros. unfold place_precision. pose proof (power_ge1 _ (wf_weight _ V)). pose proof (wf_adc _ V). destruct (im_analog a); lia. Qed.
  Lemma acc_pos d : 0 <= d -> 2 <= accumulator_precision a d.
  Proof.
    intros. unfold accumulator_precision. pose proof (power_ge1 _ (wf_weight _ V)). pose proof (power_ge1 _ (wf_act _ V)).
    pose proof (wf_adc _ V). destruct (im_analog a); lia.
  Qed.
  Lemma place_tree_ok d : 0 <= d -> exists pv, place_tree a d = Ok pv /\ (0 <= pv)%Q.
  Proof.
    intros D. unfold place_tree. destruct (Z.eqb_spec (place_inputs a) 1) as [E|E]; [exists 0%Q; split; [easy|apply Qle_refl]|].
    destruct inputs_power as (k & K). rewrite (proj2 (log2_whole_iff _ (Z.of_nat k))) by (now exists k). cbn [rbind].
    destruct k as [|k]; [easy|]. eexists. split; [easy|]. rewrite K. apply place_nonneg, precision_nonneg, D.
  Qed.
  Lemma nonneg_total d : parts_nonneg d -> (0 <= total d)%Q.
  Proof.
    unfold total. induction d as [|(k, v) d IH]; intros N; [apply Qle_refl|]. cbn [map snd]. rewrite qsum_cons.
    assert (A := N k v (or_introl eq_refl)). assert (B := IH (fun k v I => N k v (or_intror I))). lra.
  Qed.
  Lemma part_le_total d k v : parts_nonneg d -> In (k, v) d -> (v <= total d)%Q.
  Proof.
    unfold total. induction d as [|(k', v') d IH]; intros N I; [easy|]. cbn [map snd]. rewrite qsum_cons.
    assert (A := N k' v' (or_introl eq_refl)). assert (N' : parts_nonneg d) by (intros x y J; apply (N x y); now right).
    assert (B := nonneg_total d N'). unfold total in B. destruct I as [I|I].
    - injection I as -> ->. lra.
    - specialize (IH N' I). lra.
  Qed.
End Valid.

Ltac parts := intros key val I; cbn [In] in I; repeat (destruct I as [I|I]; [injection I as <- <-|]); [..|easy].
Ltac nonneg := repeat first [apply Qmul_nonneg | apply inject_nonneg | apply Qle_refl | assumption | (unfold vdd, nd2_cap, bl_cap; lra) ].

Lemma adder_area_pos : (0 < adder_area)%Q. Proof. reflexivity. Qed.
Lemma adder_energy_pos : (0 < adder_energy)%Q. Proof. reflexivity. Qed.
Lemma half_le_full : (0 <= adder_energy_half <= adder_energy)%Q. Proof. now split. Qed.
Lemma reg_nonneg : (0 <= reg_area /\ 0 <= reg_energy)%Q. Proof. now split. Qed.
Lemma mult_pos : (0 < multiplier_area /\ 0 < multiplier_energy /\ 0 < multiplier_dly)%Q. Proof. now repeat split. Qed.
Lemma delays_pos : (0 < adder_in2sum /\ 0 < adder_in2cout /\ 0 < adder_cin2cout)%Q. Proof. now repeat split. Qed.
Global Opaque adder_area adder_energy adder_energy_half reg_area reg_energy multiplier_area multiplier_energy multiplier_dly adder_in2sum adder_in2cout adder_cin2cout.

Lemma inject_mul n x : 0 <= n -> (0 <= x)%Q -> (0 <= inject_Z n * x)%Q.
Proof. intros. apply Qmul_nonneg; [now apply inject_nonneg|easy]. Qed.

Section Built.
  Variable a : imc.
  Hypothesis V : valid a.

  Lemma mults_pos : 0 < one_bit_multipliers a.
  Proof.
    unfold one_bit_multipliers. pose proof (power_ge1 _ (wf_weight _ V)). pose proof (power_ge1 _ (wf_serial _ V)).
    pose proof (wf_word _ V). pose proof (wf_bit _ V). pose proof (wf_banks _ V).
    repeat apply Z.mul_pos_pos; try lia. destruct (im_analog a); lia.
  Qed.
  Lemma inject_pos n : 0 < n -> (0 < inject_Z n)%Q.
  Proof. intros. change 0%Q with (inject_Z 0). now rewrite <- Zlt_Qlt. Qed.
  Lemma adc_nonneg : (0 <= adc_delay a /\ 0 <= adc_energy a /\ 0 <= dac_energy a)%Q.
  Proof.
    pose proof (wf_adc _ V) as A. pose proof (wf_bit _ V) as B. pose proof (power_ge1 _ (wf_serial _ V)) as S1.
    apply inject_nonneg in A. assert (B' := inject_nonneg (im_bitline a) ltac:(lia)). assert (S' := inject_nonneg (im_serial a) ltac:(lia)).
    unfold adc_delay, adc_energy, dac_energy. repeat split.
    - destruct (im_adc a =? 0); [apply Qle_refl|]. apply Qmul_nonneg; [easy|]. nra.
    - destruct (im_adc a =? 0); [apply Qle_refl|]. assert (P := inject_nonneg (4 ^ im_adc a) ltac:(apply Z.pow_nonneg; lia)).
      unfold Qdiv. apply Qmul_nonneg; [|now compute]. apply Qmul_nonneg; [nra|now compute].
    - destruct (im_serial a =? 1); [apply Qle_refl|]. apply Qmul_nonneg; [nra|now compute].
  Qed.
  Lemma sizes_pos : 1 <= im_wordline a /\ 1 <= im_bitline a /\ 1 <= im_banks a /\ 1 <= im_weight a /\ 1 <= im_serial a /\ 1 <= im_act a /\ im_serial a <= im_act a /\ 0 <= im_adc a.
  Proof.
    repeat split; first [apply (wf_word _ V)|apply (wf_bit _ V)|apply (wf_banks _ V)|apply (wf_order _ V)|apply (wf_adc _ V)|apply power_ge1; first [apply (wf_weight _ V)|apply (wf_serial _ V)|apply (wf_act _ V)]].
  Qed.

  Lemma area_ok : exists ar, get_area a = Ok ar /\ parts_nonneg ar /\ (0 < total ar)%Q.
  Proof.
    destruct (depth_ok a V) as (d & Ed & Bd). destruct (place_tree_ok a V (Z.of_nat d) ltac:(lia)) as (pv & Ep & Np).
    unfold get_area. rewrite Ed. cbn [rbind]. rewrite Ep. cbn [rbind].
    pose proof (acc_pos a V (Z.of_nat d) ltac:(lia)) as Ap. pose proof mults_pos as Mp. destruct mult_pos as (M & _). pose proof adder_area_pos as AA.
    destruct reg_nonneg as (RA & _). destruct sizes_pos as (W & B & K & Wt & S1 & A1 & O1 & D1).
    assert (N : parts_nonneg [("cells", im_cells_area a); ("dacs", 0%Q);
      ("adcs", if im_analog a then (im_adc_area a * inject_Z (im_weight a * im_wordline a * im_banks a))%Q else 0%Q);
      ("mults", (multiplier_area * inject_Z (one_bit_multipliers a))%Q);
      ("adders_regular", if im_analog a then 0%Q else (adder_area * inject_Z (regular_adders (im_weight a) (im_bitline a) (Z.of_nat d) * (im_serial a * im_wordline a * im_banks a)))%Q);
      ("adders_pv", (adder_area * pv * inject_Z (im_wordline a * im_banks a))%Q);
      ("accumulators", if im_serial a =? im_act a then 0%Q else (adder_area * inject_Z (accumulator_precision a (Z.of_nat d) * im_wordline a * im_banks a) + reg_area * inject_Z (accumulator_precision a (Z.of_nat d) * im_wordline a * im_banks a))%Q)]).
    { parts.
      - apply (wf_cells _ V).
      - apply Qle_refl.
      - destruct (im_analog a); [|apply Qle_refl]. apply Qmul_nonneg; [apply (wf_adc_area _ V)|apply inject_nonneg; nia].
      - apply Qmul_nonneg; [lra|apply inject_nonneg; lia].
      - destruct (im_analog a) eqn:An; [apply Qle_refl|]. apply Qmul_nonneg; [lra|]. apply inject_nonneg. rewrite (Bd eq_refl).
        apply Z.mul_nonneg_nonneg; [apply regular_nonneg; lia|nia].
      - apply Qmul_nonneg; [apply Qmul_nonneg; [lra|easy]|apply inject_nonneg; nia].
      - destruct (im_serial a =? im_act a); [apply Qle_refl|].
        assert (Z0 := inject_nonneg (accumulator_precision a (Z.of_nat d) * im_wordline a * im_banks a) ltac:(apply Z.mul_nonneg_nonneg; [apply Z.mul_nonneg_nonneg|]; lia)).
        assert (Q1 := Qmul_nonneg adder_area _ ltac:(lra) Z0). assert (Q2 := Qmul_nonneg reg_area _ ltac:(lra) Z0). lra. }
    eexists. split; [easy|]. split; [exact N|].
    eapply Qlt_le_trans; [|eapply (part_le_total _ "mults"); [exact N|right; right; right; left; reflexivity]].
    assert (P := inject_pos _ Mp). now apply Qmult_lt_0_compat.
  Qed.

  Lemma tclk_ok : im_analog a = true \/ 2 <= im_bitline a -> exists tc, get_tclk a = Ok tc /\ parts_nonneg tc /\ (0 < total tc)%Q.
  Proof.
    intros R. destruct (depth_ok a V) as (d & Ed & Bd). unfold get_tclk. rewrite Ed. cbn [rbind].
    destruct (inputs_power a V) as (k & K). pose proof (precision_nonneg a V (Z.of_nat d) ltac:(lia)) as Pn.
    destruct sizes_pos as (W & B & K1 & Wt & S1 & A1 & O1 & D1). destruct delays_pos as (D2 & D3 & D4). destruct mult_pos as (_ & _ & M).
    assert (PD : exists pd, (if place_inputs a =? 1 then Ok 0 else log2_whole (place_inputs a)) = Ok pd /\ (place_inputs a <> 1 -> 1 <= pd)).
    { destruct (Z.eqb_spec (place_inputs a) 1) as [E|E]; [now exists 0|]. exists (Z.of_nat k). split; [apply log2_whole_iff; now exists k|].
      intros _. destruct k; [easy|lia]. }
    destruct PD as (pd & -> & PD). cbn [rbind].
    set (out := if place_inputs a =? 1 then place_precision a (Z.of_nat d) else place_inputs a + place_precision a (Z.of_nat d)).
    assert (AC : exists acc, (if im_serial a =? im_act a then Ok 0%Q
          else if out <? accumulator_precision a (Z.of_nat d)
            then Ok (adder_in2cout + inject_Z (accumulator_precision a (Z.of_nat d) - out - 1) * adder_cin2cout)%Q
            else Err AssertionError) = Ok acc /\ (0 <= acc)%Q).
    { destruct (Z.eqb_spec (im_serial a) (im_act a)) as [E|E]; [exists 0%Q; split; [easy|apply Qle_refl]|].
      assert (L : out < accumulator_precision a (Z.of_nat d)).
      { unfold out, accumulator_precision, place_precision, place_inputs. destruct (im_analog a).
        - destruct (im_weight a =? 1); lia.
        - destruct (im_serial a =? 1); lia. }
      clearbody out. rewrite (proj2 (Z.ltb_lt _ _) L). eexists. split; [easy|].
      assert (Q1 := inject_mul (accumulator_precision a (Z.of_nat d) - out - 1) adder_cin2cout ltac:(lia) ltac:(lra)). lra. }
    destruct AC as (acc & -> & AC). cbn [rbind].
    assert (N : parts_nonneg [("cells", 0%Q); ("dacs", 0%Q); ("adcs", if im_analog a then adc_delay a else 0%Q); ("mults", multiplier_dly);
      ("adders_regular", if im_analog a then 0%Q else
         (inject_Z (Z.of_nat d - 1) * adder_in2sum + adder_in2cout + inject_Z (im_weight a + Z.of_nat d - 1 - 1) * adder_cin2cout)%Q);
      ("adders_pv", if place_inputs a =? 1 then 0%Q else
         (inject_Z (pd - 1) * adder_in2sum + adder_in2cout + inject_Z (out - place_precision a (Z.of_nat d) - 1) * adder_cin2cout)%Q);
      ("accumulators", acc)]).
    { parts; try apply Qle_refl.
      - destruct (im_analog a); [apply adc_nonneg|apply Qle_refl].
      - lra.
      - destruct (im_analog a) eqn:An; [apply Qle_refl|]. destruct R as [R|R]; [easy|]. rewrite (Bd eq_refl) in R.
        assert (1 <= Z.of_nat d) by (destruct d; [cbn in R; lia|lia]).
        assert (Q1 := inject_mul (Z.of_nat d - 1) adder_in2sum ltac:(lia) ltac:(lra)).
        assert (Q2 := inject_mul (im_weight a + Z.of_nat d - 1 - 1) adder_cin2cout ltac:(lia) ltac:(lra)). lra.
      - unfold out. destruct (Z.eqb_spec (place_inputs a) 1) as [E|E]; [apply Qle_refl|]. specialize (PD E).
        assert (1 <= place_inputs a) by (apply power_ge1; now exists k).
        assert (Q1 := inject_mul (pd - 1) adder_in2sum ltac:(lia) ltac:(lra)).
        assert (Q2 := inject_mul (place_inputs a + place_precision a (Z.of_nat d) - place_precision a (Z.of_nat d) - 1) adder_cin2cout ltac:(lia) ltac:(lra)). lra.
      - easy. }
    eexists. split; [easy|]. split; [exact N|].
    eapply Qlt_le_trans; [|eapply (part_le_total _ "mults"); [exact N|right; right; right; left; reflexivity]]. exact M.
  Qed.

  Lemma peak_ok : exists pk, peak_energy a = Ok pk /\ parts_nonneg pk /\ (0 < total pk)%Q.
  Proof.
    destruct (depth_ok a V) as (d & Ed & Bd). destruct (place_tree_ok a V (Z.of_nat d) ltac:(lia)) as (pv & Ep & Np).
    unfold peak_energy. rewrite Ed. cbn [rbind]. rewrite Ep. cbn [rbind].
    pose proof (acc_pos a V (Z.of_nat d) ltac:(lia)) as Ap. pose proof mults_pos as Mp. destruct mult_pos as (_ & M & _). pose proof adder_energy_pos as AA.
    destruct reg_nonneg as (_ & RA). destruct sizes_pos as (W & B & K & Wt & S1 & A1 & O1 & D1). destruct adc_nonneg as (_ & An1 & An2).
    match goal with |- exists pk, Ok ?p = _ /\ _ => assert (N : parts_nonneg p) end.
    { parts; try apply Qle_refl.
      - destruct (im_analog a); [|apply Qle_refl]. apply Qmul_nonneg; [easy|apply inject_nonneg; nia].
      - destruct (im_analog a); [|apply Qle_refl]. apply Qmul_nonneg; [easy|apply inject_nonneg; nia].
      - apply Qmul_nonneg; [lra|apply inject_nonneg; lia].
      - destruct (im_analog a); [|apply Qle_refl]. apply Qmul_nonneg; [|apply inject_nonneg; nia].
        apply Qmul_nonneg; [now compute|apply inject_nonneg; lia].
      - destruct (im_analog a) eqn:An; [apply Qle_refl|]. apply Qmul_nonneg; [lra|]. apply inject_nonneg. rewrite (Bd eq_refl).
        apply Z.mul_nonneg_nonneg; [apply regular_nonneg; lia|nia].
      - apply Qmul_nonneg; [apply Qmul_nonneg; [lra|easy]|apply inject_nonneg; nia].
      - destruct (im_serial a =? im_act a); [apply Qle_refl|].
        assert (Z0 := inject_nonneg (accumulator_precision a (Z.of_nat d) * im_wordline a * im_banks a) ltac:(apply Z.mul_nonneg_nonneg; [apply Z.mul_nonneg_nonneg|]; lia)).
        assert (Q1 := Qmul_nonneg adder_energy _ ltac:(lra) Z0). assert (Q2 := Qmul_nonneg reg_energy _ ltac:(lra) Z0). lra. }
    eexists. split; [easy|]. split; [exact N|].
    eapply Qlt_le_trans; [|eapply (part_le_total _ "mults"); [exact N|right; right; right; left; reflexivity]].
    assert (P := inject_pos _ Mp). now apply Qmult_lt_0_compat.
  Qed.
End Built.

Lemma nonzero q : (0 < q)%Q -> Qeq_bool q 0 = false.
Proof. intros H. destruct (Qeq_bool q 0) eqn:E; [|easy]. apply Qeq_bool_iff in E. rewrite E in H. discriminate H. Qed.

Lemma construct_ok a : valid a -> im_analog a = true \/ 2 <= im_bitline a ->
  exists area tclk pk tops topsw topsmm2, construct a = Ok (area, tclk, (tops, topsw, topsmm2)) /\ peak_energy a = Ok pk /\
    parts_nonneg area /\ parts_nonneg tclk /\ parts_nonneg pk /\ (0 < total area /\ 0 < total tclk /\ 0 < total pk)%Q /\
    (let ops := 2 * inject_Z (im_wordline a * im_bitline a * im_banks a * im_serial a) / inject_Z (im_act a) in
     tops * 1000 * total tclk == ops /\ topsw * total pk == ops /\ topsmm2 * total area == tops)%Q.
Proof.
  intros V R. destruct (area_ok a V) as (ar & Ea & Na & Pa). destruct (tclk_ok a V R) as (tc & Et & Nt & Pt). destruct (peak_ok a V) as (pk & Ep & Np & Pp).
  unfold construct. rewrite Ea. cbn [rbind]. rewrite Et. cbn [rbind]. rewrite Ep. cbn [rbind].
  destruct (sizes_pos a V) as (W & B & K & Wt & S1 & A1 & O1 & D1).
  assert (S' := inject_pos (im_serial a) ltac:(lia)). assert (A' := inject_pos (im_act a) ltac:(lia)).
  rewrite !nonzero by easy. cbn [orb].
  eexists _, _, _, _, _, _. split; [reflexivity|]. split; [reflexivity|]. split; [easy|]. split; [easy|]. split; [easy|]. split; [easy|].
  cbv zeta. rewrite !inject_Z_mult. repeat split; field; repeat split; try (intros Z0; rewrite Z0 in *; discriminate);
    intros Z0; match goal with H : (0 < ?x)%Q |- _ => match type of Z0 with (x == 0)%Q => rewrite Z0 in H; discriminate H end end.
Qed.

Lemma construct_power a r : construct a = Ok r -> im_analog a = false -> power_of_two (im_bitline a).
Proof.
  unfold construct, get_area, regular_depth. intros H A. rewrite A in H.
  destruct (log2_whole (im_bitline a)) as [d|e] eqn:E; [|discriminate]. apply log2_whole_iff in E as (k & E & _). now exists k.
Qed.

(** The area and peak energy of the trees *)
Lemma area_tree a ar : get_area a = Ok ar -> im_analog a = false ->
  exists d v, im_bitline a = 2 ^ Z.of_nat d /\ dget "adders_regular" ar = Some v /\
    (v == adder_area * inject_Z (one_bit_adders (im_weight a) (balanced d 0 (im_bitline a))) * inject_Z (im_serial a * im_wordline a * im_banks a))%Q.
Proof.
  unfold get_area, regular_depth. intros H A. rewrite A in H.
  destruct (log2_whole (im_bitline a)) as [z|e] eqn:E; [|discriminate]. apply log2_whole_iff in E as (d & E & ->). cbn [rbind] in H.
  destruct (place_tree a (Z.of_nat d)) as [pv|]; [|discriminate]. cbn [rbind] in H. injection H as <-.
  exists d. eexists. split; [exact E|]. split; [reflexivity|]. rewrite balanced_adders, E, inject_Z_mult. ring.
Qed.
Lemma peak_tree a pk : peak_energy a = Ok pk -> im_analog a = false ->
  exists d v, im_bitline a = 2 ^ Z.of_nat d /\ dget "adders_regular" pk = Some v /\
    (v == adder_energy * inject_Z (one_bit_adders (im_weight a) (balanced d 0 (im_bitline a))) * inject_Z (im_serial a * im_wordline a * im_banks a))%Q.
Proof.
  unfold peak_energy, regular_depth. intros H A. rewrite A in H.
  destruct (log2_whole (im_bitline a)) as [z|e] eqn:E; [|discriminate]. apply log2_whole_iff in E as (d & E & ->). cbn [rbind] in H.
  destruct (place_tree a (Z.of_nat d)) as [pv|]; [|discriminate]. cbn [rbind] in H. injection H as <-.
  exists d. eexists. split; [exact E|]. split; [reflexivity|]. rewrite balanced_adders, E, inject_Z_mult. ring.
Qed.
(** what a layer spends in the trees *)
Lemma layer_tree fuel a rows cols times pre e : layer_energy fuel a rows cols times pre = Ok e -> im_analog a = false ->
  (Z.to_nat (Z.log2 (im_bitline a)) < fuel)%nat ->
  exists d v, im_bitline a = 2 ^ Z.of_nat d /\ dget "adders_regular" e = Some v /\
    (v == (inject_Z (adding (im_weight a) (balanced d 0 rows)) * adder_energy + inject_Z (passing (im_weight a) (balanced d 0 rows)) * adder_energy_half)
      * (inject_Z (im_serial a) * cols) * (inject_Z (im_act a) / inject_Z (im_serial a)) * times)%Q.
Proof.
  unfold layer_energy, regular_depth. intros H A F. rewrite A in H.
  destruct (log2_whole (im_bitline a)) as [z|e'] eqn:E; [|discriminate]. apply log2_whole_iff in E as (d & E & ->). cbn [rbind] in H.
  destruct (place_tree a (Z.of_nat d)) as [pv|]; [|discriminate]. cbn [rbind] in H.
  unfold tree_energy in H. rewrite E in H, F. rewrite Z.log2_pow2, Nat2Z.id in F by lia. rewrite tree_counts_spec in H by easy. cbn [rbind fst snd] in H. injection H as <-.
  exists d. eexists. split; [exact E|]. split; [reflexivity|]. reflexivity.
Qed.

(** * The energy of a layer against the peak *)
Lemma mul_le c x y l r : (0 <= c)%Q -> (x <= y)%Q -> (l == c * x)%Q -> (r == c * y)%Q -> (l <= r)%Q.
Proof.
  intros C L -> ->. destruct (Qlt_le_dec 0 c) as [P|P].
  - apply Qmult_le_l; easy.
  - assert (Z0 : (c == 0)%Q) by (apply Qle_antisym; easy). rewrite Z0, !Qmult_0_l. apply Qle_refl.
Qed.
Lemma tree_energy_le p m d : 0 <= p ->
  (inject_Z (adding p (balanced d 0 m)) * adder_energy + inject_Z (passing p (balanced d 0 m)) * adder_energy_half
   <= inject_Z (regular_adders p (2 ^ Z.of_nat d) (Z.of_nat d)) * adder_energy)%Q.
Proof.
  intros P. rewrite <- (balanced_adders p d 0 m). destruct (used_le p (balanced d 0 m) P) as (A & B & C).
  set (x := adding p (balanced d 0 m)) in *. set (y := passing p (balanced d 0 m)) in *. set (z := one_bit_adders p (balanced d 0 m)) in *. clearbody x y z.
  pose proof adder_energy_pos as AE. destruct half_le_full as (H0 & H1).
  apply inject_nonneg in A, B. rewrite Zle_Qle, inject_Z_plus in C.
  assert (E1 := mul_le (inject_Z y) _ _ _ _ B H1 (Qeq_refl _) (Qeq_refl _)).
  assert (E2 := mul_le adder_energy _ _ _ _ ltac:(lra) C (Qeq_refl _) (Qeq_refl _)). lra.
Qed.
Lemma tree_energy_full p d m : 2 ^ Z.of_nat d <= m ->
  (inject_Z (adding p (balanced d 0 m)) * adder_energy + inject_Z (passing p (balanced d 0 m)) * adder_energy_half
   == inject_Z (regular_adders p (2 ^ Z.of_nat d) (Z.of_nat d)) * adder_energy)%Q.
Proof. intros L. destruct (balanced_full p d 0 m ltac:(lia)) as (-> & ->). rewrite balanced_adders. change (inject_Z 0) with 0%Q. ring. Qed.

Definition against (R : Q -> Q -> Prop) (banks k : Q) (x y : string * Q) : Prop := fst x = fst y /\ R (snd x * banks)%Q (snd y * k)%Q.

Ltac nn := first [assumption | (apply Qlt_le_weak; assumption) | apply Qmul_nonneg; [nn|nn] | lra].

Section Bound.
  Variables (a : imc) (fuel : nat) (rows : Z) (cols times pre : Q) (e pk : dict string Q).
  Hypothesis V : valid a.
  Hypothesis F : (Z.to_nat (Z.log2 (im_bitline a)) < fuel)%nat.
  Hypothesis He : layer_energy fuel a rows cols times pre = Ok e.
  Hypothesis Hp : peak_energy a = Ok pk.
  Hypothesis T : (0 <= times)%Q.
  Let k : Q := (inject_Z (im_act a) / inject_Z (im_serial a) * times)%Q.

  Lemma k_nonneg : (0 <= k)%Q.
  Proof.
    destruct (sizes_pos a V) as (W & B & K & Wt & S1 & A1 & O1 & D1). unfold k, Qdiv. apply Qmul_nonneg; [|easy].
    apply Qmul_nonneg; [apply inject_nonneg; lia|]. apply Qinv_le_0_compat, inject_nonneg. lia.
  Qed.

  Lemma energy_le : 0 <= rows <= im_bitline a -> (0 <= cols <= inject_Z (im_wordline a))%Q ->
    exists e' pk', e = ("local_bl_precharging", pre) :: e' /\ pk = ("local_bl_precharging", 0%Q) :: pk' /\
      Forall2 (against Qle (inject_Z (im_banks a)) k) e' pk'.
  Proof.
    intros R C. assert (C0 := proj1 C). destruct (depth_ok a V) as (d & Ed & Bd). destruct (place_tree_ok a V (Z.of_nat d) ltac:(lia)) as (pv & Ep & Np).
    unfold layer_energy in He. unfold peak_energy in Hp. rewrite Ed in He, Hp. cbn [rbind] in He, Hp. rewrite Ep in He, Hp. cbn [rbind] in He, Hp.
    injection Hp as <-. pose proof k_nonneg as Kn. destruct (sizes_pos a V) as (W & B & K & Wt & S1 & A1 & O1 & D1).
    destruct (adc_nonneg a V) as (_ & An1 & An2). destruct mult_pos as (_ & M & _). pose proof adder_energy_pos as AE. destruct reg_nonneg as (_ & RE).
    pose proof (acc_pos a V (Z.of_nat d) ltac:(lia)) as Ap.
    assert (Rq : (inject_Z rows <= inject_Z (im_bitline a))%Q) by (rewrite <- Zle_Qle; lia).
    assert (IW := inject_nonneg (im_wordline a) ltac:(lia)). assert (IB := inject_nonneg (im_bitline a) ltac:(lia)). assert (IK := inject_nonneg (im_banks a) ltac:(lia)).
    assert (IWt := inject_nonneg (im_weight a) ltac:(lia)). assert (IS := inject_nonneg (im_serial a) ltac:(lia)). assert (IA := inject_nonneg (accumulator_precision a (Z.of_nat d)) ltac:(lia)).
    assert (NV : (0 <= bl_cap * (vdd * vdd))%Q) by now compute.
    destruct (im_analog a) eqn:An.
    - cbn [rbind] in He. injection He as <-. eexists _, _. split; [reflexivity|]. split; [reflexivity|].
      repeat (constructor; [split; [reflexivity|cbn [snd]]|]); [..|constructor]; rewrite ?inject_Z_mult.
      + eapply (mul_le (dac_energy a * inject_Z (im_banks a) * k)); [nn|exact Rq|unfold k; ring|ring].
      + eapply (mul_le (adc_energy a * inject_Z (im_weight a) * inject_Z (im_banks a) * k)); [nn|apply C|unfold k; ring|ring].
      + unfold one_bit_multipliers. rewrite An, !inject_Z_mult.
        eapply (mul_le (multiplier_energy * inject_Z (im_weight a) * inject_Z (im_wordline a) * inject_Z (im_banks a) * k)); [nn|exact Rq|unfold k; ring|change (inject_Z 1) with 1%Q; ring].
      + eapply (mul_le (bl_cap * (vdd * vdd) * inject_Z (im_weight a) * inject_Z (im_bitline a) * inject_Z (im_banks a) * k)); [nn|apply C|unfold k; ring|ring].
      + rewrite !Qmult_0_l. apply Qle_refl.
      + eapply (mul_le (adder_energy * pv * inject_Z (im_banks a) * k)); [nn|apply C|unfold k; ring|ring].
      + destruct (im_serial a =? im_act a); [rewrite !Qmult_0_l; apply Qle_refl|].
        eapply (mul_le ((adder_energy + reg_energy) * inject_Z (accumulator_precision a (Z.of_nat d)) * inject_Z (im_banks a) * k)); [nn|apply C|unfold k; ring|ring].
    - unfold tree_energy in He. rewrite (Bd eq_refl) in He, F. rewrite Z.log2_pow2, Nat2Z.id in F by lia. rewrite tree_counts_spec in He by easy. cbn [rbind fst snd] in He.
      injection He as <-. eexists _, _. split; [reflexivity|]. split; [reflexivity|].
      repeat (constructor; [split; [reflexivity|cbn [snd]]|]); [..|constructor]; rewrite ?inject_Z_mult.
      + rewrite !Qmult_0_l. apply Qle_refl.
      + rewrite !Qmult_0_l. apply Qle_refl.
      + unfold one_bit_multipliers. rewrite An, !inject_Z_mult, (Bd eq_refl). unfold k. apply Qle_lteq. right. ring.
      + rewrite !Qmult_0_l. apply Qle_refl.
      + assert (TE := tree_energy_le (im_weight a) rows d ltac:(lia)).
        match goal with |- (?l <= ?r)%Q => match type of TE with (?x <= ?y)%Q =>
          apply (Qle_trans _ (y * (inject_Z (im_serial a) * cols) * inject_Z (im_banks a) * k));
          [eapply (mul_le (inject_Z (im_serial a) * cols * inject_Z (im_banks a) * k) x y); [nn|exact TE|unfold k; ring|ring] | ] end end.
        rewrite (Bd eq_refl).
        assert (RN := inject_nonneg _ (regular_nonneg (im_weight a) d ltac:(lia))).
        eapply (mul_le (inject_Z (regular_adders (im_weight a) (2 ^ Z.of_nat d) (Z.of_nat d)) * adder_energy * inject_Z (im_serial a) * inject_Z (im_banks a) * k));
          [nn|apply C|ring|ring].
      + eapply (mul_le (adder_energy * pv * inject_Z (im_banks a) * k)); [nn|apply C|unfold k; ring|ring].
      + destruct (im_serial a =? im_act a); [rewrite !Qmult_0_l; apply Qle_refl|].
        eapply (mul_le ((adder_energy + reg_energy) * inject_Z (accumulator_precision a (Z.of_nat d)) * inject_Z (im_banks a) * k)); [nn|apply C|unfold k; ring|ring].
  Qed.

  Lemma energy_eq : rows = im_bitline a -> (cols == inject_Z (im_wordline a))%Q ->
    exists e' pk', e = ("local_bl_precharging", pre) :: e' /\ pk = ("local_bl_precharging", 0%Q) :: pk' /\
      Forall2 (against Qeq (inject_Z (im_banks a)) k) e' pk'.
  Proof.
    intros R C. destruct (depth_ok a V) as (d & Ed & Bd). destruct (place_tree_ok a V (Z.of_nat d) ltac:(lia)) as (pv & Ep & Np).
    unfold layer_energy in He. unfold peak_energy in Hp. rewrite Ed in He, Hp. cbn [rbind] in He, Hp. rewrite Ep in He, Hp. cbn [rbind] in He, Hp.
    injection Hp as <-. rewrite R in He.
    destruct (im_analog a) eqn:An.
    - cbn [rbind] in He. injection He as <-. eexists _, _. split; [reflexivity|]. split; [reflexivity|].
      repeat (constructor; [split; [reflexivity|cbn [snd]]|]); [..|constructor]; unfold one_bit_multipliers; rewrite ?An, ?inject_Z_mult, ?C; unfold k; change (inject_Z 1) with 1%Q; try ring.
      destruct (im_serial a =? im_act a); rewrite ?C; ring.
    - unfold tree_energy in He. rewrite (Bd eq_refl) in He, F. rewrite Z.log2_pow2, Nat2Z.id in F by lia. rewrite tree_counts_spec in He by easy. cbn [rbind fst snd] in He.
      injection He as <-. eexists _, _. split; [reflexivity|]. split; [reflexivity|].
      repeat (constructor; [split; [reflexivity|cbn [snd]]|]); [..|constructor]; unfold one_bit_multipliers; rewrite ?An, ?inject_Z_mult, ?C; unfold k; try ring.
      + rewrite (Bd eq_refl). ring.
      + rewrite tree_energy_full by lia. rewrite (Bd eq_refl). ring.
      + destruct (im_serial a =? im_act a); rewrite ?C; ring.
  Qed.
End Bound.

Lemma against_parts (R : Q -> Q -> Prop) b k e pk : Forall2 (against R b k) e pk ->
  forall name v w, dget name e = Some v -> dget name pk = Some w -> R (v * b)%Q (w * k)%Q.
Proof.
  induction 1 as [|(n1, v1) (n2, v2) e pk (N & H) _ IH]; intros name v w; cbn [dget]; [easy|]. cbn [fst snd] in N, H. subst n2.
  destruct (eqb_spec name n1); [|apply IH]. injection 1 as ->. injection 1 as ->. exact H.
Qed.
Lemma against_le b k e pk : Forall2 (against Qle b k) e pk -> (total e * b <= total pk * k)%Q.
Proof.
  unfold total. induction 1 as [|(n1, v1) (n2, v2) e pk (N & H) _ IH]; cbn [map snd]; [cbn; rewrite !Qmult_0_l; apply Qle_refl|]. cbn [snd] in H.
  rewrite !qsum_cons, !Qmult_plus_distr_l. lra.
Qed.
Lemma against_eq b k e pk : Forall2 (against Qeq b k) e pk -> (total e * b == total pk * k)%Q.
Proof.
  unfold total. induction 1 as [|(n1, v1) (n2, v2) e pk (N & H) _ IH]; cbn [map snd]; [cbn; now rewrite !Qmult_0_l|]. cbn [snd] in H.
  rewrite !qsum_cons, !Qmult_plus_distr_l. lra.
Qed.
Lemma total_cons n v d : (total ((n, v) :: d) == v + total d)%Q.
Proof. reflexivity. Qed.

Lemma bound_le a fuel rows cols times pre e pk : valid a -> (Z.to_nat (Z.log2 (im_bitline a)) < fuel)%nat ->
  layer_energy fuel a rows cols times pre = Ok e -> peak_energy a = Ok pk -> (0 <= times)%Q ->
  0 <= rows <= im_bitline a -> (0 <= cols <= inject_Z (im_wordline a))%Q ->
  let uses := (inject_Z (im_act a) / inject_Z (im_serial a) * times)%Q in
  (forall name v w, name <> "local_bl_precharging" -> dget name e = Some v -> dget name pk = Some w -> (v * inject_Z (im_banks a) <= w * uses)%Q) /\
  ((total e - pre) * inject_Z (im_banks a) <= total pk * uses)%Q.
Proof.
  intros V F He Hp T R C uses. destruct (energy_le a fuel rows cols times pre e pk V F He Hp T R C) as (e' & pk' & -> & -> & A). split.
  - intros name v w N Hv Hw. apply (against_parts Qle _ _ _ _ A name); [destruct (eqb_spec "local_bl_precharging" name); congruence || idtac..];
      cbn [dget] in Hv, Hw; destruct (eqb_spec name "local_bl_precharging"); congruence.
  - rewrite !total_cons. pose proof (against_le _ _ _ _ A) as L. fold uses in L.
    assert (E1 : ((pre + total e' - pre) * inject_Z (im_banks a) == total e' * inject_Z (im_banks a))%Q) by ring.
    assert (E2 : ((0 + total pk') * uses == total pk' * uses)%Q) by ring. rewrite E1, E2. exact L.
Qed.
Lemma bound_eq a fuel rows cols times pre e pk : valid a -> (Z.to_nat (Z.log2 (im_bitline a)) < fuel)%nat ->
  layer_energy fuel a rows cols times pre = Ok e -> peak_energy a = Ok pk -> (0 <= times)%Q ->
  rows = im_bitline a -> (cols == inject_Z (im_wordline a))%Q ->
  let uses := (inject_Z (im_act a) / inject_Z (im_serial a) * times)%Q in
  ((total e - pre) * inject_Z (im_banks a) == total pk * uses)%Q.
Proof.
  intros V F He Hp T R C uses. destruct (energy_eq a fuel rows cols times pre e pk V F He Hp R C) as (e' & pk' & -> & -> & A).
  rewrite !total_cons. pose proof (against_eq _ _ _ _ A) as L. fold uses in L.
  assert (E1 : ((pre + total e' - pre) * inject_Z (im_banks a) == total e' * inject_Z (im_banks a))%Q) by ring.
  assert (E2 : ((0 + total pk') * uses == total pk' * uses)%Q) by ring. rewrite E1, E2. exact L.
Qed.
Lemma energy_total fuel a rows cols times pre : valid a -> (Z.to_nat (Z.log2 (im_bitline a)) < fuel)%nat ->
  exists e, layer_energy fuel a rows cols times pre = Ok e.
Proof.
  intros V F. destruct (depth_ok a V) as (d & Ed & Bd). destruct (place_tree_ok a V (Z.of_nat d) ltac:(lia)) as (pv & Ep & Np).
  unfold layer_energy. rewrite Ed. cbn [rbind]. rewrite Ep. cbn [rbind]. destruct (im_analog a) eqn:An; [cbn [rbind]; now eexists|].
  unfold tree_energy. rewrite (Bd eq_refl) in *. rewrite Z.log2_pow2, Nat2Z.id in F by lia. rewrite tree_counts_spec by easy. cbn [rbind]. now eexists.
Qed.

(** * Rows *)
Definition ends (pairs : list (string * string)) : list string := flat_map (fun p => [fst p; snd p]) pairs.
Lemma pair_up_fold ir : forall pairs (sm0 : dict string (dict string Q)) (link0 : dict string string), NoDup (ends pairs) ->
  (forall a b, In (a, b) pairs -> (In a ir /\ ~ In b ir) \/ (In b ir /\ ~ In a ir)) ->
  let st := fold_left (pair_up ir) pairs (sm0, link0) in
  (forall a b, In (a, b) pairs -> In a ir -> dget b (fst st) = Some [(a, 1%Q)] /\ dget a (snd st) = Some b) /\
  (forall a b, In (a, b) pairs -> In b ir -> dget a (fst st) = Some [(b, 1%Q)] /\ dget b (snd st) = Some a) /\
  (forall x, ~ In x (ends pairs) -> dget x (fst st) = dget x sm0 /\ dget x (snd st) = dget x link0) /\
  (forall x, In x ir -> dget x (fst st) = dget x sm0).
Proof.
  induction pairs as [|(a, b) pairs IH]; intros sm0 link0 N X st; [now subst st|].
  change (ends ((a, b) :: pairs)) with (a :: b :: ends pairs) in *.
  inversion N as [|? ? Na N1]; subst. inversion N1 as [|? ? Nb N2]; subst.
  assert (X' : forall a b, In (a, b) pairs -> (In a ir /\ ~ In b ir) \/ (In b ir /\ ~ In a ir)) by (intros; apply X; now right).
  subst st. cbn [fold_left pair_up].
  assert (Nab : a <> b) by (intros ->; apply Na; now left). assert (Na' : ~ In a (ends pairs)) by (intros I; apply Na; now right).
  destruct (X a b (or_introl eq_refl)) as [(Ia & Ib)|(Ib & Ia)].
  - rewrite (proj2 (memb_In a ir) Ia). specialize (IH (dset b [(a, 1%Q)] sm0) (dset a b link0) N2 X') as (A & B & C & D).
    assert (E : dget b (dset b [(a, 1%Q)] sm0) = Some [(a, 1%Q)] /\ dget a (dset a b link0) = Some b) by now rewrite !dget_dset_eq.
    destruct (C b Nb) as (C1 & _), (C a Na') as (_ & C2).
    repeat split.
    + destruct H as [H|H]; [injection H as <- <-; exact (eq_trans C1 ltac:(apply E))|now apply A].
    + destruct H as [H|H]; [injection H as <- <-; exact (eq_trans C2 ltac:(apply E))|now apply A].
    + destruct H as [H|H]; [injection H as <- <-; now elim Ib|now apply B].
    + destruct H as [H|H]; [injection H as <- <-; now elim Ib|now apply B].
    + refine (eq_trans (proj1 (C x ltac:(intros I; apply H; now right; right))) _). apply dget_dset_neq. intros ->. apply H. right. now left.
    + refine (eq_trans (proj2 (C x ltac:(intros I; apply H; now right; right))) _). apply dget_dset_neq. intros ->. apply H. now left.
    + intros x I. refine (eq_trans (D x I) _). apply dget_dset_neq. now intros ->.
  - rewrite (proj2 (memb_not_In a ir) Ia). specialize (IH (dset a [(b, 1%Q)] sm0) (dset b a link0) N2 X') as (A & B & C & D).
    assert (E : dget a (dset a [(b, 1%Q)] sm0) = Some [(b, 1%Q)] /\ dget b (dset b a link0) = Some a) by now rewrite !dget_dset_eq.
    destruct (C b Nb) as (_ & C1), (C a Na') as (C2 & _).
    repeat split.
    + destruct H as [H|H]; [injection H as <- <-; now elim Ia|now apply A].
    + destruct H as [H|H]; [injection H as <- <-; now elim Ia|now apply A].
    + destruct H as [H|H]; [injection H as <- <-; exact (eq_trans C2 ltac:(apply E))|now apply B].
    + destruct H as [H|H]; [injection H as <- <-; exact (eq_trans C1 ltac:(apply E))|now apply B].
    + refine (eq_trans (proj1 (C x ltac:(intros I; apply H; now right; right))) _). apply dget_dset_neq. intros ->. apply H. now left.
    + refine (eq_trans (proj2 (C x ltac:(intros I; apply H; now right; right))) _). apply dget_dset_neq. intros ->. apply H. right. now left.
    + intros x I. refine (eq_trans (D x I) _). apply dget_dset_neq. now intros ->.
Qed.

Definition unrolled (word : dict string Q) (w : string) (u : Q) : Prop :=
  match dget w word with Some f => (u == f)%Q | None => u = 1%Q end.
Lemma unroll_fold word link : forall ws (sm : dict string (dict string Q)), NoDup ws ->
  (forall w, In w ws -> exists b, dget w link = Some b /\ dget b sm = Some [(w, 1%Q)]) ->
  exists sm', rfold (pair_unroll word link) sm ws = Ok sm' /\
    (forall w b, In w ws -> dget w link = Some b -> exists u, dget b sm' = Some [(w, u)] /\ unrolled word w u) /\
    (forall b, (forall w, In w ws -> dget w link <> Some b) -> dget b sm' = dget b sm).
Proof.
  induction ws as [|w ws IH]; intros sm N H; [exists sm; repeat split; easy|].
  inversion N as [|? ? Nw N']; subst. destruct (H w (or_introl eq_refl)) as (b & Lb & Sb).
  assert (P : exists (sm1 : dict string (dict string Q)) u, pair_unroll word link sm w = Ok sm1 /\ dget b sm1 = Some [(w, u)] /\ unrolled word w u /\ forall x, x <> b -> dget x sm1 = dget x sm).
  { unfold pair_unroll, dgetr. rewrite Lb. cbn [of_option rbind]. unfold unrolled. destruct (dget w word) as [f|]; [|now exists sm, 1%Q].
    rewrite Sb. cbn [of_option rbind]. destruct (Nat.eqb (length word) 1).
    - exists (dset b [(w, f)] sm), f. split; [cbn [dset]; now rewrite eqb_refl|]. rewrite dget_dset_eq. split; [easy|]. split; [reflexivity|]. intros x Nx. now apply dget_dset_neq.
    - cbn [dget]. rewrite eqb_refl. cbn [of_option rbind]. exists (dset b [(w, 1 * f)%Q] sm), (1 * f)%Q.
      split; [cbn [dset]; now rewrite eqb_refl|]. rewrite dget_dset_eq. split; [easy|]. split; [ring|]. intros x Nx. now apply dget_dset_neq. }
  destruct P as (sm1 & u & E1 & Sb1 & U & O1).
  assert (D : forall w' b', In w' ws -> dget w' link = Some b' -> b' <> b).
  { intros w' b' I L ->. destruct (H w' (or_intror I)) as (b2 & L2 & S2). assert (b2 = b) by congruence. subst b2. rewrite Sb in S2. injection S2 as <-. now apply Nw. }
  destruct (IH sm1 N') as (sm' & E & A & B).
  { intros w' I. destruct (H w' (or_intror I)) as (b' & L & S'). exists b'. split; [easy|]. rewrite O1; [easy|]. now apply (D w'). }
  exists sm'. split; [cbn [rfold]; now rewrite E1|]. split.
  - intros w' b' [->|I] L; [|now apply A]. assert (b' = b) by congruence. subst b'. exists u. split; [|easy].
    rewrite B; [easy|]. intros w2 I2 L2. now apply (D w2 b).
  - intros x Hx. rewrite B by (intros w' I; apply Hx; now right). apply O1. intros ->. now apply (Hx w (or_introl eq_refl)).
Qed.

Section Rows.
  Variables (l : imc_layer) (word : dict string Q).
  Hypothesis P : paired (il_pairs l) (il_ir l).

  Lemma sliding_table : exists st sm, fold_left (pair_up (il_ir l)) (il_pairs l) ([], []) = st /\ rfold (pair_unroll word (snd st)) (fst st) (il_ir l) = Ok sm /\
    forall b, exists u, diagonal sm b = Ok (u - 1)%Q /\ copies (il_pairs l) (il_ir l) word b u \/ diagonal sm b = Ok 0%Q /\ copies (il_pairs l) (il_ir l) word b 1.
  Proof.
    destruct P as (N & Ni & X & All). destruct (pair_up_fold (il_ir l) (il_pairs l) [] [] N X) as (A & B & C & D).
    set (st := fold_left (pair_up (il_ir l)) (il_pairs l) ([], [])) in *.
    assert (SL : forall w b, slides_over (il_pairs l) (il_ir l) w b -> dget b (fst st) = Some [(w, 1%Q)] /\ dget w (snd st) = Some b).
    { intros w b (I & [J|J]); [now apply A|now apply B]. }
    destruct (unroll_fold word (snd st) (il_ir l) (fst st) Ni) as (sm & E & F & G).
    { intros w I. destruct (All w I) as (b & S1). exists b. destruct (SL w b S1). easy. }
    exists st, sm. split; [easy|]. split; [exact E|]. intros b.
    destruct (in_dec String.string_dec b (map (fun w => match dget w (snd st) with Some b => b | None => w end) (il_ir l))) as [I|I].
    - apply in_map_iff in I as (w & Eb & Iw). destruct (All w Iw) as (b' & S1). destruct (SL w b' S1) as (S2 & S3). rewrite S3 in Eb. subst b'.
      destruct (F w b Iw S3) as (u & Su & U). exists u. left. unfold diagonal. rewrite Su. split; [easy|]. unfold unrolled in U. unfold copies.
      destruct (dget w word) as [f|] eqn:Ew.
      + left. exists w, f. easy.
      + right. split; [|now subst u]. intros w' S'. destruct (SL w' b S') as (S4 & _). rewrite S2 in S4. injection S4 as <-. exact Ew.
    - exists 0%Q. right.
      assert (NS : forall w, slides_over (il_pairs l) (il_ir l) w b -> False).
      { intros w S'. apply I. apply in_map_iff. exists w. destruct (SL w b S') as (_ & ->). split; [easy|apply S']. }
      assert (Z0 : dget b (fst st) = None).
      { destruct (in_dec String.string_dec b (ends (il_pairs l))) as [J|J]; [|apply (C b J)]. unfold ends in J. apply in_flat_map in J as ((x, y) & J1 & J2).
        destruct (in_dec String.string_dec b (il_ir l)) as [K|K]; [now apply D|exfalso].
        cbn [fst snd In] in J2. destruct (X x y J1) as [(X1 & X2)|(X1 & X2)]; destruct J2 as [J2|[J2|[]]]; subst b.
        - easy.
        - apply (NS x). split; [easy|now left].
        - apply (NS y). split; [easy|now right].
        - easy. }
      unfold diagonal. rewrite G, Z0.
      + split; [easy|]. right. split; [intros w S'; now elim (NS w)|reflexivity].
      + intros w Iw L. destruct (All w Iw) as (b' & S1). destruct (SL w b' S1) as (_ & S3). rewrite S3 in L. injection L as ->. now apply (NS w).
  Qed.
  Lemma sliding_table' : exists st sm, fold_left (pair_up (il_ir l)) (il_pairs l) ([], []) = st /\ rfold (pair_unroll word (snd st)) (fst st) (il_ir l) = Ok sm /\
    forall b, exists u x, diagonal sm b = Ok x /\ (x == u - 1)%Q /\ copies (il_pairs l) (il_ir l) word b u.
  Proof.
    destruct sliding_table as (st & sm & A & B & C). exists st, sm. repeat split; try easy. intros b. destruct (C b) as (u & [(H & K)|(H & K)]).
    - exists u, (u - 1)%Q. repeat split; easy.
    - exists 1%Q, 0%Q. repeat split; easy.
  Qed.

  Lemma diagonal_rows_spec bit : (2 <= length bit)%nat ->
    exists us, Forall2 (fun d u => copies (il_pairs l) (il_ir l) word (fst d) u) bit us /\
      diagonal_rows l word bit (keys bit) = Ok (Qceiling (qprod (map (fun x => snd (fst x) + snd x - 1) (combine bit us))%Q), Qceiling (qprod (map snd bit))).
  Proof.
    intros L. destruct sliding_table' as (st & sm & E1 & E2 & T). unfold diagonal_rows. rewrite E1. destruct st as (sm0, link). cbn [fst snd] in *. rewrite E2. cbn [rbind].
    unfold keys. rewrite map_length. rewrite (proj2 (Nat.eqb_neq _ _)) by lia.
    assert (G : forall bit r0 s0, exists us r s, Forall2 (fun d u => copies (il_pairs l) (il_ir l) word (fst d) u) bit us /\
      rfold (fun st x => rbind (diagonal sm (fst x)) (fun extra => Ok (fst st * (snd x + extra), snd st * snd x)%Q)) (r0, s0) (combine (map fst bit) (map snd bit)) = Ok (r, s) /\
      (r == r0 * qprod (map (fun x => snd (fst x) + snd x - 1) (combine bit us)))%Q /\ (s == s0 * qprod (map snd bit))%Q).
    { clear L bit. induction bit as [|(d, n) bit IH]; intros r0 s0.
      - exists [], r0, s0. repeat split; [constructor|cbn; ring|cbn; ring].
      - destruct (T d) as (u & x & Hd & Ex & Cd). cbn [map fst snd combine rfold]. rewrite Hd. cbn [rbind].
        destruct (IH (r0 * (n + x))%Q (s0 * n)%Q) as (us & r & s & F & E & R & S'). exists (u :: us), r, s.
        split; [constructor; easy|]. split; [exact E|]. cbn [combine map fst snd]. rewrite !qprod_cons. split; [rewrite R, Ex; ring|rewrite S'; ring]. }
    destruct (G bit 1%Q 1%Q) as (us & r & s & F & E & R & S'). exists us. split; [exact F|].
    change (@map (string * Q) string fst bit) with (map fst bit). rewrite E. cbn [rbind fst snd]. f_equal. f_equal; apply Qceiling_comp; [rewrite R|rewrite S']; ring.
  Qed.
End Rows.

Lemma rows_held_1 n c : 1 <= n -> 1 <= c -> rows_held n c 1 = n + c - 1.
Proof. intros. unfold rows_held. rewrite distinct_formula by lia. change (1 / Z.gcd 1 1) with 1. nia. Qed.
Lemma rows_held_s n c s : 1 <= n -> 1 <= c -> 1 <= s <= n -> rows_held n c s = n + (c - 1) * s.
Proof. intros. unfold rows_held. rewrite distinct_formula by lia. rewrite Z.gcd_1_l, Z.div_1_r, Z.div_1_r. nia. Qed.

Lemma dget_whole k d : dget k (whole d) = option_map inject_Z (dget k d).
Proof. induction d as [|(k', v) d IH]; [easy|]. cbn [whole map fst snd dget]. destruct (eqb k k'); [easy|apply IH]. Qed.
Lemma keys_whole d : keys (whole d) = keys d.
Proof. unfold keys, whole. rewrite map_map. now apply map_ext. Qed.
Lemma qprod_whole d : (qprod (map snd (whole d)) == inject_Z (zprod (map snd d)))%Q.
Proof.
  induction d as [|(k, v) d IH]; [reflexivity|]. cbn [whole map fst snd]. rewrite qprod_cons, zprod_cons, inject_Z_mult. fold (whole d). now rewrite IH.
Qed.

Lemma whole_copies pairs ir word b u : (forall k v, In (k, v) word -> 1 <= v) -> copies pairs ir (whole word) b u ->
  exists c, 1 <= c /\ (u == inject_Z c)%Q /\ copies pairs ir (whole word) b (inject_Z c).
Proof.
  intros Pw [(w & f & S1 & G & E)|(A & E)].
  - rewrite dget_whole in G. destruct (dget w word) as [c|] eqn:Ew; [|discriminate]. injection G as <-. exists c.
    split; [apply (Pw w), dget_In, Ew|]. split; [exact E|]. left. exists w, (inject_Z c). rewrite dget_whole, Ew. split; [exact S1|]. split; [easy|reflexivity].
  - exists 1. split; [lia|]. split; [exact E|]. right. split; [exact A|reflexivity].
Qed.

Lemma mapped_diagonal l word bit : paired (il_pairs l) (il_ir l) -> il_word l = Some (whole word) -> il_bit l = Some (whole bit) ->
  (2 <= length bit)%nat -> (forall k v, In (k, v) word -> 1 <= v) -> (forall k v, In (k, v) bit -> 1 <= v) ->
  (exists d, In d (keys word) /\ In d (il_ir l)) -> zprod (map snd bit) <> 1 ->
  exists cs cols times, Forall2 (fun x c => 1 <= c /\ copies (il_pairs l) (il_ir l) (whole word) (fst x) (inject_Z c)) bit cs /\
    mapped l (keys bit) = Ok (zprod (map (fun x => rows_held (snd (fst x)) (snd x) 1) (combine bit cs)), zprod (map snd bit), cols, times) /\
    (cols == inject_Z (zprod (map snd word)))%Q /\ (times * inject_Z (zprod (map snd word) * zprod (map snd bit)) == inject_Z (il_macs l))%Q.
Proof.
  intros P Ew Eb L Pw Pb (d & Id1 & Id2) N1.
  destruct (diagonal_rows_spec l (whole word) P (whole bit)) as (us & F & E); [unfold whole; now rewrite map_length|].
  rewrite keys_whole in E.
  assert (G : exists cs, Forall2 (fun x c => 1 <= c /\ copies (il_pairs l) (il_ir l) (whole word) (fst x) (inject_Z c)) bit cs /\
    (qprod (map (fun x => snd (fst x) + snd x - 1) (combine (whole bit) us)) == inject_Z (zprod (map (fun x => rows_held (snd (fst x)) (snd x) 1%Z) (combine bit cs))))%Q).
  { clear E L N1 Eb. revert us F Pb. induction bit as [|(b, n) bit IH]; intros us F Pb.
    - exists []. split; [constructor|]. reflexivity.
    - cbn [whole map fst snd] in F. fold (whole bit) in F. inversion F as [|? u ? us' C1 F']; subst. cbn [fst] in C1.
      destruct (whole_copies _ _ _ _ _ Pw C1) as (c & Pc & Ec & Cc). destruct (IH us' F' (fun k v I => Pb k v (or_intror I))) as (cs & Fc & Q1).
      exists (c :: cs). split; [constructor; [now split|easy]|]. cbn [whole combine map fst snd]. fold (whole bit). rewrite qprod_cons, zprod_cons, inject_Z_mult, Q1, Ec.
      rewrite rows_held_1 by (try easy; apply (Pb b); now left). apply Qmult_comp; [|reflexivity]. unfold Z.sub. rewrite !inject_Z_plus. reflexivity. }
  destruct G as (cs & Fc & Q1). exists cs.
  assert (Pz : forall d, (forall k v, In (k, v) d -> 1 <= v) -> 1 <= zprod (map (@snd string Z) d)).
  { induction d0 as [|(k, v) d0 IH]; intros H; [cbn; lia|]. cbn [map snd]. rewrite zprod_cons. assert (1 <= v) by (apply (H k); now left).
    assert (1 <= zprod (map snd d0)) by (apply IH; intros; eapply H; right; eassumption). nia. }
  pose proof (Pz _ Pw) as Zw. pose proof (Pz _ Pb) as Zb.
  unfold mapped. rewrite Ew, Eb.
  assert (X : existsb (fun d => memb d (il_ir l)) (keys (whole word)) = true).
  { apply existsb_exists. exists d. rewrite keys_whole. split; [easy|now apply memb_In]. }
  rewrite X. cbn [negb orb].
  assert (C1 : Qceiling (qprod (map snd (whole bit))) = zprod (map snd bit)).
  { rewrite (Qceiling_comp _ _ (qprod_whole bit)). apply Qceiling_Z. }
  rewrite C1, (proj2 (Z.eqb_neq _ _) N1), E. cbn [rbind fst snd].
  assert (NZ : Qeq_bool (qprod (map snd (whole word)) * qprod (map snd (whole bit))) 0 = false).
  { apply nonzero. rewrite !qprod_whole, <- inject_Z_mult. apply inject_pos. nia. }
  rewrite NZ. eexists _, _. split; [exact Fc|]. split.
  - rewrite C1, (Qceiling_comp _ _ Q1), Qceiling_Z. reflexivity.
  - split; [apply qprod_whole|]. rewrite !qprod_whole, <- inject_Z_mult.
    assert (NZ2 : ~ (inject_Z (zprod (map snd word) * zprod (map snd bit)) == 0)%Q).
    { intros E0. assert (P0 := inject_pos (zprod (map snd word) * zprod (map snd bit)) ltac:(nia)). rewrite E0 in P0. discriminate P0. }
    now field.
Qed.

Lemma mapped_plain l word bit order : il_word l = Some word -> il_bit l = Some bit -> (forall d, In d (keys word) -> ~ In d (il_ir l)) ->
  ~ (qprod (map snd word) * qprod (map snd bit) == 0)%Q ->
  mapped l order = Ok (Qceiling (qprod (map snd bit)), Qceiling (qprod (map snd bit)), qprod (map snd word), (inject_Z (il_macs l) / (qprod (map snd word) * qprod (map snd bit)))%Q).
Proof.
  intros Ew Eb N Z0. unfold mapped. rewrite Ew, Eb.
  assert (X : existsb (fun d => memb d (il_ir l)) (keys word) = false).
  { destruct (existsb _ _) eqn:E; [|easy]. apply existsb_exists in E as (d & I & M). apply memb_In in M. now elim (N d). }
  rewrite X. cbn [negb orb rbind fst snd]. destruct (Qeq_bool _ 0) eqn:E; [|easy]. apply Qeq_bool_iff in E. easy.
Qed.

(** the failures *)
Lemma mapped_single l word d n order : paired (il_pairs l) (il_ir l) -> il_word l = Some word -> il_bit l = Some [(d, n)] -> length order = 1%nat ->
  (exists d, In d (keys word) /\ In d (il_ir l)) -> Qceiling n <> 1 -> mapped l order = Err IndexError.
Proof.
  intros P Ew Eb Lo (w & I1 & I2) N. unfold mapped. rewrite Ew, Eb.
  assert (X : existsb (fun d => memb d (il_ir l)) (keys word) = true) by (apply existsb_exists; exists w; split; [easy|now apply memb_In]).
  rewrite X. cbn [negb orb map snd]. assert (C : Qceiling (qprod [n]) = Qceiling n) by (apply Qceiling_comp; cbn; ring). rewrite C, (proj2 (Z.eqb_neq _ _) N).
  destruct (sliding_table' l word P) as (st & sm & E1 & E2 & _). unfold diagonal_rows. rewrite E1. destruct st as (sm0, link). cbn [fst snd] in E2. rewrite E2. cbn [rbind].
  rewrite Lo. cbn [Nat.eqb]. destruct order as [|x order]; easy.
Qed.
Lemma fold_link_ends ir : forall pairs sm0 link0 x, dget x link0 = None -> ~ In x (ends pairs) -> dget x (snd (fold_left (pair_up ir) pairs (sm0, link0))) = None.
Proof.
  induction pairs as [|(a, b) pairs IH]; intros sm0 link0 x N I; [easy|]. change (ends ((a, b) :: pairs)) with (a :: b :: ends pairs) in I. cbn [fold_left pair_up].
  destruct (memb a ir); apply IH; try (intros J; apply I; now right; right); (rewrite dget_dset_neq; [easy|]; intros ->; apply I); [now left|right; now left].
Qed.
Lemma unroll_keys word link : forall ws (sm : dict string (dict string Q)), (exists w, In w ws /\ dget w link = None) -> (forall w b, In w ws -> dget w link = Some b -> exists i, dget b sm = Some i /\ dget w i <> None) ->
  rfold (pair_unroll word link) sm ws = Err KeyError.
Proof.
  induction ws as [|w ws IH]; intros sm (x & I & Nx) H; [easy|]. cbn [rfold]. unfold pair_unroll at 1, dgetr. destruct (dget w link) as [b|] eqn:Lw; cbn [of_option rbind]; [|easy].
  destruct I as [->|I]; [congruence|].
  assert (A : forall sm', (forall w b, In w ws -> dget w link = Some b -> exists i, dget b sm' = Some i /\ dget w i <> None) -> rfold (pair_unroll word link) sm' ws = Err KeyError) by (intros; apply IH; [now exists x|easy]).
  assert (H' := fun w b I => H w b (or_intror I)).
  destruct (dget w word) as [f|]; [|now apply A]. destruct (H w b (or_introl eq_refl) Lw) as (i & Si & Wi). rewrite Si. cbn [of_option rbind].
  assert (D : forall g, rfold (pair_unroll word link) (dset b (dset w g i) sm) ws = Err KeyError).
  { intros g. apply A. intros w' b' I' L'. destruct (H' w' b' I' L') as (i' & S' & W'). destruct (eqb_spec b' b) as [E|E].
    - subst b'. rewrite dget_dset_eq. eexists. split; [reflexivity|]. rewrite Si in S'. injection S' as <-. destruct (eqb_spec w' w) as [E|E]; [subst; now rewrite dget_dset_eq|now rewrite dget_dset_neq].
    - rewrite dget_dset_neq by easy. now exists i'. }
  destruct (Nat.eqb (length word) 1); [apply D|]. destruct (dget w i) as [o|]; [|easy]. cbn [of_option rbind]. apply D.
Qed.

Lemma mapped_unpaired l word bit w order : NoDup (ends (il_pairs l)) ->
  (forall a b, In (a, b) (il_pairs l) -> (In a (il_ir l) /\ ~ In b (il_ir l)) \/ (In b (il_ir l) /\ ~ In a (il_ir l))) ->
  il_word l = Some word -> il_bit l = Some bit -> (exists d, In d (keys word) /\ In d (il_ir l)) -> Qceiling (qprod (map snd bit)) <> 1 ->
  In w (il_ir l) -> ~ In w (ends (il_pairs l)) -> mapped l order = Err KeyError.
Proof.
  intros N X Ew Eb (d & I1 & I2) N1 Iw Nw. unfold mapped. rewrite Ew, Eb.
  assert (Ex : existsb (fun d => memb d (il_ir l)) (keys word) = true) by (apply existsb_exists; exists d; split; [easy|now apply memb_In]).
  rewrite Ex. cbn [negb orb]. rewrite (proj2 (Z.eqb_neq _ _) N1).
  destruct (pair_up_fold (il_ir l) (il_pairs l) [] [] N X) as (A & B & C & D). unfold diagonal_rows.
  destruct (fold_left (pair_up (il_ir l)) (il_pairs l) ([], [])) as (sm, link) eqn:E. assert (E1 := f_equal fst E). assert (E2 := f_equal snd E). cbn [fst snd] in E1, E2.
  assert (Lx : forall x, ~ In x (ends (il_pairs l)) -> dget x link = None) by (intros x J; rewrite <- E2; now apply fold_link_ends).
  assert (A' : forall a b, In (a, b) (il_pairs l) -> In a (il_ir l) -> dget b sm = Some [(a, 1%Q)] /\ dget a link = Some b) by (intros; rewrite <- E1, <- E2; now apply A).
  assert (B' : forall a b, In (a, b) (il_pairs l) -> In b (il_ir l) -> dget a sm = Some [(b, 1%Q)] /\ dget b link = Some a) by (intros; rewrite <- E1, <- E2; now apply B).
  clear A B C D E E1 E2.
  rewrite (unroll_keys word link (il_ir l) sm); [easy|exists w; split; [exact Iw|now apply Lx]|].
  intros x b Ix Lb. destruct (in_dec String.string_dec x (ends (il_pairs l))) as [J|J]; [|rewrite (Lx x J) in Lb; discriminate].
  unfold ends in J. apply in_flat_map in J as ((p, q) & J1 & J2). cbn [fst snd In] in J2. destruct J2 as [J2|[J2|[]]]; subst x.
  - destruct (A' p q J1 Ix) as (S1 & S2). rewrite S2 in Lb. injection Lb as <-. exists [(p, 1%Q)]. split; [exact S1|]. cbn [dget]. now rewrite eqb_refl.
  - destruct (B' p q J1 Ix) as (S1 & S2). rewrite S2 in Lb. injection Lb as <-. exists [(q, 1%Q)]. split; [exact S1|]. cbn [dget]. now rewrite eqb_refl.
Qed.

(** * Reports *)
Lemma mem_area_sum : forall mems s, (fold_left (fun s m => s + ma_area m) mems s == s + qsum (map ma_area mems))%Q.
Proof. induction mems as [|m mems IH]; intros s; cbn [fold_left map]; [cbn; ring|]. rewrite IH, qsum_cons. ring. Qed.
Lemma dset_new {V} (k : string) (v : V) d : ~ In k (keys d) -> dset k v d = d ++ [(k, v)].
Proof.
  induction d as [|(k', v') d IH]; intros N; [easy|]. cbn [dset app]. destruct (eqb_spec k k') as [E|E]; [subst; elim N; now left|]. rewrite IH; [easy|]. intros I. apply N. now right.
Qed.
Lemma mem_breakdown : forall mems d, NoDup (map ma_name mems) -> (forall m, In m mems -> ~ In (ma_name m) (keys d)) ->
  fold_left (fun d m => dset (ma_name m) (ma_area m) d) mems d = d ++ map (fun m => (ma_name m, ma_area m)) mems.
Proof.
  induction mems as [|m mems IH]; intros d N H; cbn [fold_left map]; [now rewrite app_nil_r|]. cbn [map] in N. inversion N as [|? ? Nm N']; subst.
  rewrite (dset_new (ma_name m)) by (apply H; now left). rewrite IH; [now rewrite <- app_assoc|easy|].
  intros x I J. unfold keys in J. rewrite map_app in J. apply in_app_or in J as [J|[J|[]]]; [apply (H x); [now right|exact J]|]. cbn [fst] in J. apply Nm. rewrite J. now apply in_map.
Qed.
Lemma collect_ok imc_area mems : NoDup (map ma_name mems) ->
  let '(mem, parts, all) := collect_area imc_area mems in
  parts = map (fun m => (ma_name m, ma_area m)) mems /\ (mem == total parts)%Q /\ (all == imc_area + total parts)%Q.
Proof.
  intros N. unfold collect_area. rewrite mem_breakdown by easy. cbn [app]. split; [easy|]. unfold total. rewrite map_map.
  assert (E := mem_area_sum mems 0%Q). rewrite (map_ext _ ma_area) by easy. split; rewrite E; ring.
Qed.

Lemma precharge_one a levels : valid a -> im_cells a <= im_weight a -> precharge a levels = Ok (0%Q, 1%Q).
Proof.
  intros V L. pose proof (power_ge1 _ (wf_weight _ V)) as W. unfold precharge. rewrite (proj2 (Z.eqb_neq _ 0)) by lia.
  replace (Qle_bool _ 1) with true; [easy|]. symmetry. apply Qle_bool_iff. apply Qle_shift_div_r; [apply inject_pos; lia|]. rewrite Qmult_1_l, <- Zle_Qle. exact L.
Qed.
Lemma precharge_several a levels : valid a -> im_weight a < im_cells a -> levels <> [] -> precharge a levels = Err AttributeError.
Proof.
  intros V L N. pose proof (power_ge1 _ (wf_weight _ V)) as W. unfold precharge. rewrite (proj2 (Z.eqb_neq _ 0)) by lia.
  replace (Qle_bool _ 1) with false; [now destruct levels|]. symmetry. apply Bool.not_true_is_false. intros T. apply Qle_bool_iff in T.
  apply (Qmult_le_compat_r _ _ (inject_Z (im_weight a))) in T; [|rewrite <- (Zle_Qle 0); lia].
  assert (P := inject_pos (im_weight a) ltac:(lia)).
  assert (E : (inject_Z (im_cells a) / inject_Z (im_weight a) * inject_Z (im_weight a) == inject_Z (im_cells a))%Q) by (field; intros E; rewrite E in P; discriminate P).
  rewrite E, Qmult_1_l, <- Zle_Qle in T. lia.
Qed.

(** * Examples *)
Definition small_digital : imc := mkImc false 1 8 4 0 8 32 2 64 (1 # 100) 0.
Definition small_analog : imc := mkImc true 2 8 4 5 16 64 1 4 (1 # 100) (1 # 1000).
(** One row, one bit: valid, and its clock period is negative. *)
Definition one_bit_digital : imc := mkImc false 1 1 1 0 1 1 1 1 (1 # 100) 0.
Lemma small_digital_valid : valid small_digital.
Proof. split; cbn; try lia; try (now compute); intros; first [now exists 0%nat|now exists 3%nat|now exists 2%nat|now exists 5%nat]. Qed.
Lemma small_analog_valid : valid small_analog.
Proof. split; cbn; try lia; try (now compute); intros; first [now exists 1%nat|now exists 3%nat|now exists 2%nat|discriminate]. Qed.
Lemma one_bit_valid : valid one_bit_digital.
Proof. split; cbn; try lia; try (now compute); intros; now exists 0%nat. Qed.

(** A convolution: columns of the output on the wordlines, channels and columns of the filter on the bitlines *)
Definition conv_word : dict string Z := [("K", 4); ("OX", 3)].
Definition conv_bit : dict string Z := [("C", 2); ("FX", 4)].
Definition conv_layer : imc_layer :=
  mkImcLayer (Some (whole conv_word)) (Some (whole conv_bit)) ["OX"; "OY"] [("OX", "FX"); ("OY", "FY")] 9600.
Lemma conv_paired : paired (il_pairs conv_layer) (il_ir conv_layer).
Proof.
  split; [|split; [|split]]; cbn.
  - repeat (constructor; [cbn; intuition discriminate|]). constructor.
  - repeat (constructor; [cbn; intuition discriminate|]). constructor.
  - intros a b [E|[E|[]]]; injection E as <- <-; left; (split; [tauto|]); intuition discriminate.
  - intros w [<-|[<-|[]]]; [exists "FX"|exists "FY"]; (split; cbn; tauto).
Qed.
