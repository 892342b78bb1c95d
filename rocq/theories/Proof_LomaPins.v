From Verif Require Import Base Model_Loma Spec_Loma Proof_LomaLoops Proof_LomaFactors.
From Coq Require Import Znumtheory.

(** [factorint] of a prime power is that single entry. *)
Lemma prime_pow_divisor p q m : prime p -> prime q -> 0 <= m -> (q | p ^ m) -> q = p.
Proof.
  intros Hp Hq Hm. revert m Hm. apply (natlike_ind (fun m => (q | p ^ m) -> q = p)).
  - intros Hd. rewrite Z.pow_0_r in Hd. apply prime_ge_2 in Hq.
    apply Z.divide_1_r in Hd. lia.
  - intros m Hm IH Hd. rewrite Z.pow_succ_r in Hd by assumption.
    apply prime_mult in Hd; [|exact Hq]. destruct Hd as [Hd|Hd]; [|now apply IH].
    now apply prime_div_prime.
Qed.

Lemma factorint_prime_power factorint p m : factorint_ok factorint -> prime p -> 1 <= m ->
  factorint (p ^ m) = [(p, m)].
Proof.
  intros Hfac Hp Hm. pose proof (prime_ge_2 p Hp) as Hp2.
  assert (H2 : 2 <= p ^ m).
  { replace m with (Z.succ (m - 1)) by lia. rewrite Z.pow_succ_r by lia.
    pose proof (Z.pow_pos_nonneg p (m - 1)). nia. }
  destruct (Hfac (p ^ m) H2) as (F1 & F2 & F3).
  assert (Hall : forall q k, In (q, k) (factorint (p ^ m)) -> q = p).
  { intros q k Hin. destruct (F1 q k Hin) as [Hq Hk].
    apply (prime_pow_divisor p q m Hp Hq); [lia|]. rewrite <- F3 at 1.
    apply Z.divide_trans with (q ^ k).
    - replace k with (Z.succ (k - 1)) by lia. rewrite Z.pow_succ_r by lia.
      apply Z.divide_factor_l.
    - revert Hin. clear. intros Hin. induction (factorint (p ^ m)) as [|x l IH]; [destruct Hin|].
      cbn [map]. rewrite zprod_cons. destruct Hin as [->|Hin].
      + apply Z.divide_factor_l.
      + apply Z.divide_mul_r. now apply IH. }
  destruct (factorint (p ^ m)) as [|[q k] [|[q' k'] l]].
  - cbn in F3. lia.
  - assert (q = p) by (apply (Hall q k); now left). subst q.
    cbn [map fst snd] in F3. rewrite zprod_cons in F3. change (zprod []) with 1 in F3.
    rewrite Z.mul_1_r in F3. destruct (F1 p k) as [_ Hk]; [now left|].
    apply Z.pow_inj_r in F3; [now subst|lia|lia|lia].
  - assert (q = p) by (apply (Hall q k); now left).
    assert (q' = p) by (apply (Hall q' k'); right; now left). subst q q'.
    cbn in F2. inversion F2 as [|a l0 Hni _]; subst. exfalso. apply Hni. now left.
Qed.

(** Invariant with zero counts allowed (pinning may use up a factor). *)
Definition dim_ok0 (done : list loop) (st : factors) (d : string) (n : Z) : Prop :=
  exists fs cs s,
    dget d (pfs st) = Some fs /\ dget d (pf_counts st) = Some cs /\
    dget d (pf_count_sums st) = Some s /\ s = zsum cs /\
    length fs = length cs /\ nonneg cs /\ wprod fs cs = n /\
    (forall f, In f fs -> prime f \/ In (d, f) done).

Definition PInv (loops : dict string Z) (done : list loop) (st : factors) : Prop :=
  NoDup (keys loops) /\ keys (pfs st) = keys loops /\
  keys (pf_counts st) = keys loops /\ keys (pf_count_sums st) = keys loops /\
  forall d n, In (d, n) loops -> dim_ok0 done st d n.

Lemma add_at_sum k delta cs : (k < length cs)%nat ->
  zsum (add_at k delta cs) = zsum cs + delta.
Proof.
  revert k; induction cs as [|c cs IH]; intros [|k] Hk; cbn [length add_at] in *; try lia.
  - rewrite !zsum_cons. lia.
  - rewrite !zsum_cons, IH by lia. lia.
Qed.

Lemma wprod_sub k m fs cs f c : length fs = length cs -> nonneg cs ->
  nth_error fs k = Some f -> nth_error cs k = Some c -> 0 <= m <= c ->
  wprod fs (add_at k (- m) cs) * f ^ m = wprod fs cs /\ nonneg (add_at k (- m) cs).
Proof.
  revert fs cs; induction k as [|k IH]; intros [|f0 fs] [|c0 cs] Hlen Hnn Hf Hc Hm;
    cbn [nth_error add_at length] in *; try discriminate.
  - injection Hf as ->. injection Hc as ->. rewrite !wprod_cons. split.
    + assert (Ec : f ^ c = f ^ (c + - m) * f ^ m).
      { rewrite <- Z.pow_add_r by lia. f_equal. lia. }
      rewrite Ec. ring.
    + intros x [<-|Hx]; [lia|]. apply Hnn. now right.
  - destruct (IH fs cs) as [H1 H2]; auto.
    { intros x Hx. apply Hnn. now right. }
    rewrite !wprod_cons. split; [rewrite <- H1; ring|].
    intros x [<-|Hx]; [apply Hnn; now left|now apply H2].
Qed.

Lemma wprod_snoc fs cs f c : length fs = length cs ->
  wprod (fs ++ [f]) (cs ++ [c]) = wprod fs cs * f ^ c.
Proof.
  revert cs; induction fs as [|f0 fs IH]; intros [|c0 cs] Hlen; cbn [length] in Hlen; try lia.
  - cbn [app]. rewrite wprod_cons. change (wprod [] []) with 1. ring.
  - cbn [app]. rewrite !wprod_cons, IH by lia. ring.
Qed.

Lemma add_at_cancel k m cs : add_at k m (add_at k (- m) cs) = cs.
Proof.
  revert k; induction cs as [|c cs IH]; intros [|k]; cbn [add_at]; auto.
  - f_equal. lia.
  - now rewrite IH.
Qed.

Lemma reduce_static_ok loops done st st' d p m :
  PInv loops done st -> prime p -> 1 <= m -> ~ In (d, p ^ m) done ->
  reduce_static_factor d (p ^ m) st (p, m) = Ok st' -> PInv loops ((d, p ^ m) :: done) st'.
Proof.
  intros (Hnd & K1 & K2 & K3 & Hdim) Hp Hm Hnew E.
  assert (Hweak : forall st0 d' n, dim_ok0 done st0 d' n -> dim_ok0 ((d, p ^ m) :: done) st0 d' n).
  { intros st0 d' n (fs & cs & s & G1 & G2 & G3 & G4 & G5 & G6 & G7 & G8).
    exists fs, cs, s. repeat split; auto. intros f Hf. destruct (G8 f Hf); [now left|right; now right]. }
  unfold reduce_static_factor, dgetr in E.
  destruct (dget d (pfs st)) as [fs|] eqn:Gf; [|discriminate]. cbn [of_option rbind] in E.
  destruct (index_of p fs) as [k|] eqn:Ek; [|discriminate]. cbn [of_option rbind] in E.
  destruct (dget d (pf_counts st)) as [cs|] eqn:Gc; [|discriminate]. cbn [of_option rbind] in E.
  destruct (nth_error cs k) as [c|] eqn:En; [|discriminate]. cbn [of_option rbind] in E.
  destruct (Z.leb_spec m c) as [Hmc|Hmc].
  2:{ injection E as <-. repeat split; auto. }
  destruct (dget d (pf_count_sums st)) as [s|] eqn:Gs; [|discriminate].
  cbn [of_option rbind] in E.
  assert (Hk : In d (keys loops)) by (rewrite <- K1; now apply dget_Some_key in Gf).
  destruct (key_dget d loops Hk) as (n & Gn).
  destruct (Hdim d n) as (fs' & cs' & s' & G1 & G2 & G3 & G4 & G5 & G6 & G7 & G8);
    [now apply dget_In|].
  rewrite Gf in G1. injection G1 as <-. rewrite Gc in G2. injection G2 as <-.
  rewrite Gs in G3. injection G3 as <-.
  apply index_of_nth in Ek.
  destruct (wprod_sub k m fs cs p c G5 G6 Ek En) as [W1 W2]; [lia|].
  assert (Hkl : (k < length cs)%nat) by (apply nth_error_Some; congruence).
  destruct (memb (p ^ m) fs) eqn:Em.
  - (* the pinned size is one of the factors: it must be the prime itself *)
    apply memb_In in Em. assert (Hm1 : m = 1).
    { destruct (G8 _ Em) as [Hpr|Hin]; [|contradiction].
      destruct (Z.eq_dec m 1) as [|Hne]; [assumption|]. exfalso.
      assert (Hd : p = p ^ m).
      { apply prime_div_prime; [exact Hp|exact Hpr|].
        replace m with (Z.succ (m - 1)) by lia. rewrite Z.pow_succ_r by lia.
        apply Z.divide_factor_l. }
      pose proof (prime_ge_2 p Hp). rewrite <- (Z.pow_1_r p) in Hd at 1.
      apply Z.pow_inj_r in Hd; lia. }
    subst m. injection E as <-.
    repeat split; cbn [pfs pf_counts pf_count_sums]; auto.
    + rewrite keys_dset_in; [exact K2|now rewrite K2].
    + rewrite keys_dset_in; [exact K3|now rewrite K3].
    + intros d' n' Hin. apply Hweak.
      destruct (Hdim d' n' Hin) as (fs1 & cs1 & s1 & A1 & A2 & A3 & A4 & A5 & A6 & A7 & A8).
      exists fs1, cs1, s1. cbn [pfs pf_counts pf_count_sums].
      destruct (eqb_spec d' d) as [->|Hne].
      * rewrite !dget_dset_eq. rewrite add_at_cancel.
        rewrite Z.sub_0_r.
        repeat split; auto; congruence.
      * rewrite !dget_dset_neq by assumption. repeat split; auto.
  - injection E as <-.
    repeat split; cbn [pfs pf_counts pf_count_sums]; auto.
    + rewrite keys_dset_in; [exact K1|now rewrite K1].
    + rewrite keys_dset_in; [exact K2|now rewrite K2].
    + rewrite keys_dset_in; [exact K3|now rewrite K3].
    + intros d' n' Hin. destruct (eqb_spec d' d) as [->|Hne].
      * assert (n' = n).
        { apply (In_dget d n' loops Hnd) in Hin. congruence. }
        subst n'. exists (fs ++ [p ^ m]), (add_at k (- m) cs ++ [1]), (s - (m - 1)).
        cbn [pfs pf_counts pf_count_sums]. rewrite !dget_dset_eq.
        repeat split.
        -- rewrite zsum_app, add_at_sum by assumption.
           change (zsum [1]) with 1. lia.
        -- rewrite !app_length, length_add_at. cbn [length]. lia.
        -- intros x Hx. apply in_app_iff in Hx. destruct Hx as [Hx|[<-|[]]]; [|lia].
           now apply W2.
        -- rewrite wprod_snoc by (now rewrite length_add_at).
           rewrite Z.pow_1_r. lia.
        -- intros f Hf. apply in_app_iff in Hf. destruct Hf as [Hf|[<-|[]]].
           ++ destruct (G8 f Hf); [now left|right; now right].
           ++ right. now left.
      * apply Hweak. destruct (Hdim d' n' Hin) as (fs1 & cs1 & s1 & Hr).
        exists fs1, cs1, s1. cbn [pfs pf_counts pf_count_sums].
        now rewrite !dget_dset_neq by assumption.
Qed.

Lemma reduce_static_fps_ok factorint loops pins : factorint_ok factorint ->
  NoDup pins -> (forall d s, In (d, s) pins -> prime_power s) ->
  forall done st st', (forall x, In x pins -> ~ In x done) ->
  PInv loops done st -> reduce_static_fps factorint pins st = Ok st' ->
  exists done', PInv loops done' st'.
Proof.
  intros Hfac. induction pins as [|[d s] pins IH]; intros Hnd Hpp done st st' Hfresh Hinv E.
  - injection E as <-. now exists done.
  - inversion Hnd as [|a l Hni Hnd']; subst.
    destruct (Hpp d s) as (p & m & Hp & Hm & Es); [now left|].
    unfold reduce_static_fps in E. cbn [rfold fst snd] in E.
    rewrite Es, (factorint_prime_power factorint p m Hfac Hp Hm) in E. cbn [rfold] in E.
    destruct (reduce_static_factor d (p ^ m) st (p, m)) as [st1|e] eqn:E1; [|discriminate].
    apply (reduce_static_ok loops done) in E1; auto.
    2:{ rewrite <- Es. apply Hfresh. now left. }
    eapply (IH Hnd'); [|  |exact E1|exact E].
    + intros d' s' Hin. apply (Hpp d'). now right.
    + intros x Hx [Ex|Hin].
      * subst x. apply Hni. now rewrite Es.
      * apply (Hfresh x); [now right|exact Hin].
Qed.

Lemma rebuild_ok0 loops done st : PInv loops done st ->
  forall lpfs, rebuild_lpfs st = Ok lpfs ->
    (forall d, loop_product d lpfs = size_or_1 d loops).
Proof.
  intros (Hnd & K1 & K2 & K3 & Hdim) lpfs E.
  assert (Hpfs : forall d fs, In (d, fs) (pfs st) -> exists cs,
     dget d (pf_counts st) = Some cs /\ dget d (pf_count_sums st) = Some (zsum cs) /\
     length fs = length cs /\ nonneg cs /\ dget d loops = Some (wprod fs cs)).
  { intros d fs Hin.
    assert (Hk : In d (keys loops)).
    { rewrite <- K1. change d with (fst (d, fs)). now apply in_map. }
    destruct (key_dget d loops Hk) as (n & En).
    destruct (Hdim d n) as (fs' & cs & s & Gf & Gc & Gs & Es & Hlen & H1 & Hw & _);
      [now apply dget_In|].
    assert (fs' = fs).
    { apply (In_dget d fs (pfs st)) in Hin; [congruence|now rewrite K1]. }
    subst fs' s. exists cs. repeat split; auto. now rewrite Hw. }
  destruct (rebuild_aux (pf_counts st) (pf_count_sums st) (pfs st))
    as (ls & E' & P0 & P1 & _).
  { now rewrite K1. }
  { intros d fs Hin. destruct (Hpfs d fs Hin) as (cs & Hr). exists cs. tauto. }
  unfold rebuild_lpfs in E. rewrite E' in E. cbn [rbind] in E. injection E as <-.
  intros d. unfold size_or_1. destruct (dget d loops) as [n|] eqn:En.
  - assert (Hk : In d (keys (pfs st))).
    { rewrite K1. now apply dget_Some_key in En. }
    destruct (key_dget d _ Hk) as (fs & Gf). apply dget_In in Gf.
    destruct (Hpfs d fs Gf) as (cs & Gc & _ & _ & _ & Gl).
    rewrite (P1 d fs cs Gf Gc). congruence.
  - apply P0. rewrite K1. now apply dget_None.
Qed.

(** The positive half of C05. *)
Lemma pins_conserve factorint pins dims loops st lpfs :
  factorint_ok factorint -> NoDup (keys loops) ->
  (forall d n, In (d, n) loops -> 1 < n) -> loops <> [] ->
  NoDup pins -> (forall d s, In (d, s) pins -> prime_power s) ->
  get_prime_factors factorint (Some pins) None dims loops = Ok (st, lpfs) ->
  forall d, loop_product d lpfs = size_or_1 d loops.
Proof.
  intros Hfac Hnd Hn Hne Hndp Hpp E. unfold get_prime_factors in E.
  rewrite with_dummy_some in E by assumption. cbn [rbind fst snd] in E.
  unfold limit_lpfs in E.
  destruct (reduce_static_fps factorint pins (initial_factors factorint loops))
    as [st1|] eqn:E1; [|discriminate]. cbn [rbind] in E.
  destruct (rebuild_lpfs st1) as [l1|] eqn:E2; [|discriminate]. cbn [rbind] in E.
  injection E as <- <-.
  assert (Hinv : PInv loops [] (initial_factors factorint loops)).
  { pose proof (initial_inv factorint Hfac loops Hnd Hn) as (I0 & I1 & I2 & I3 & I4).
    repeat split; auto. intros d n Hin.
    destruct (I4 d n Hin) as (fs & cs & G1 & G2 & G3 & G4 & G5 & G6 & G7 & G8).
    exists fs, cs, (zsum cs). repeat split; auto.
    - intros c Hc. apply G5 in Hc. lia.
    - intros f Hf. left. specialize (Hn d n Hin).
      unfold initial_factors in G1. cbn [pfs] in G1.
      rewrite (dget_map (fun kv => _)), (find_key loops d n) in G1 by assumption.
      injection G1 as <-. cbn [snd] in Hf. apply in_map_iff in Hf.
      destruct Hf as ([q k] & <- & Hf). destruct (Hfac n ltac:(lia)) as (F1 & _).
      cbn. now apply (F1 q k). }
  destruct (reduce_static_fps_ok factorint loops pins Hfac Hndp Hpp [] _ st1
              (fun x _ Hf => Hf) Hinv E1) as (done' & Hinv').
  now apply (rebuild_ok0 loops done' st1).
Qed.
