From Verif Require Import Base Model_Loma Spec_Loma.
From Coq Require Import Lqa.

Definition shrink (v : Z) (s : Q) : Z := Qceiling (inject_Z v / s).

Lemma Qdiv_le_l (v : Q) (s : Q) : (1 <= s)%Q -> (0 <= v)%Q -> (v / s <= v)%Q.
Proof.
  intros Hs Hv. apply Qle_shift_div_r; [lra|]. nra.
Qed.

Lemma shrink_spec v s : (0 < s)%Q ->
  (inject_Z v <= inject_Z (shrink v s) * s)%Q /\
  ((inject_Z (shrink v s) - 1) * s < inject_Z v)%Q.
Proof.
  intros Hs. unfold shrink.
  destruct (Qceiling_bounds (inject_Z v / s)) as [H1 H2].
  assert (E : (inject_Z v / s * s == inject_Z v)%Q) by (field; lra).
  split.
  - setoid_rewrite <- E at 1. apply Qmult_le_compat_r; lra.
  - setoid_rewrite <- E at 2. apply Qmult_lt_compat_r; lra.
Qed.

Lemma shrink_ge_1 v s : (1 <= s)%Q -> 1 <= v -> 1 <= shrink v s.
Proof.
  intros Hs Hv. destruct (shrink_spec v s) as [H1 _]; [lra|].
  destruct (Z_lt_le_dec (shrink v s) 1) as [Hlt|Hle]; [|exact Hle].
  exfalso. assert (Hz : (inject_Z (shrink v s) <= 0)%Q).
  { change 0%Q with (inject_Z 0). apply inject_Z_le_iff. lia. }
  assert (Hv' : (1 <= inject_Z v)%Q).
  { change 1%Q with (inject_Z 1). apply inject_Z_le_iff. lia. }
  nra.
Qed.

Lemma shrink_1 s : (1 <= s)%Q -> shrink 1 s = 1.
Proof.
  intros Hs. pose proof (shrink_ge_1 1 s Hs ltac:(lia)) as H1.
  destruct (shrink_spec 1 s) as [_ H2]; [lra|].
  destruct (Z_lt_le_dec 1 (shrink 1 s)) as [Hlt|Hle]; [|lia].
  exfalso. assert (Hz : (inject_Z 2 <= inject_Z (shrink 1 s))%Q).
  { apply inject_Z_le_iff. lia. }
  change (inject_Z 1) with 1%Q in H2. change (inject_Z 2) with 2%Q in Hz. nra.
Qed.

Definition sizes_ok (sizes : dict string Z) : Prop :=
  forall d n, In (d, n) sizes -> 1 <= n.

Lemma sizes_ok_size d sizes : sizes_ok sizes -> 1 <= size_or_1 d sizes.
Proof.
  intros Hok. unfold size_or_1. destruct (dget d sizes) as [n|] eqn:E; [|lia].
  apply dget_In in E. now apply Hok in E.
Qed.

Lemma In_dset {K V} `{EqB K} (k k' : K) (v v' : V) d :
  In (k, v) (dset k' v' d) -> (k = k' /\ v = v') \/ In (k, v) d.
Proof.
  induction d as [|[k1 v1] d IH]; cbn.
  - intros [E|[]]. injection E as -> ->. now left.
  - destruct (eqb_spec k' k1) as [->|Hne]; cbn.
    + intros [E|Hin]; [injection E as -> ->; now left|tauto].
    + intros [E|Hin]; [tauto|]. destruct (IH Hin); tauto.
Qed.

(** One step: the dimension is shrunk, the others keep their size. *)
Lemma temporal_step sizes dim s :
  NoDup (keys sizes) -> sizes_ok sizes -> (1 <= s)%Q ->
  exists sizes', temporal_loops_step sizes (dim, s) = Ok sizes' /\
    NoDup (keys sizes') /\ sizes_ok sizes' /\
    (forall d, In d (keys sizes') -> In d (keys sizes)) /\
    (forall d, size_or_1 d sizes' =
               if eqb d dim then shrink (size_or_1 d sizes) s
               else size_or_1 d sizes).
Proof.
  intros Hnd Hok Hs. unfold temporal_loops_step.
  destruct (dget dim sizes) as [n|] eqn:Eg.
  - assert (Hn : 1 <= n) by (apply dget_In in Eg; now apply Hok in Eg).
    destruct (Qeq_bool s 0) eqn:Es; [apply Qeq_bool_iff in Es; exfalso; lra|].
    fold (shrink n s). pose proof (shrink_ge_1 n s Hs Hn) as Hq.
    destruct (Z.eqb_spec (shrink n s) 1) as [E1|E1].
    + exists (ddel dim sizes). repeat split.
      * now apply NoDup_ddel.
      * intros d m Hin. apply In_ddel in Hin. now apply Hok in Hin.
      * intros d. apply In_keys_ddel.
      * intros d. destruct (eqb_spec d dim) as [->|Hne].
        -- unfold size_or_1. rewrite dget_ddel_eq, Eg by assumption. now rewrite E1.
        -- unfold size_or_1. now rewrite dget_ddel_neq.
    + exists (dset dim (shrink n s) sizes). repeat split.
      * now apply NoDup_dset.
      * intros d m Hin. apply In_dset in Hin.
        destruct Hin as [[_ ->]|Hin]; [exact Hq|now apply Hok in Hin].
      * intros d Hd. apply In_keys_dset in Hd.
        destruct Hd as [->|Hd]; [|exact Hd]. now apply dget_Some_key in Eg.
      * intros d. destruct (eqb_spec d dim) as [->|Hne].
        -- unfold size_or_1. now rewrite dget_dset_eq, Eg.
        -- unfold size_or_1. now rewrite dget_dset_neq.
  - exists sizes. repeat split; auto. intros d.
    destruct (eqb_spec d dim) as [->|Hne]; [|reflexivity].
    unfold size_or_1. rewrite Eg. symmetry. now apply shrink_1.
Qed.

Lemma temporal_fold spatial : forall sizes,
  NoDup (keys sizes) -> sizes_ok sizes ->
  (forall d s, In (d, s) spatial -> (1 <= s)%Q) ->
  exists sizes', rfold temporal_loops_step sizes spatial = Ok sizes' /\
    NoDup (keys sizes') /\ sizes_ok sizes' /\
    (forall d, In d (keys sizes') -> In d (keys sizes)) /\
    (forall d, size_or_1 d sizes' =
               fold_left shrink (unrollings_of d spatial) (size_or_1 d sizes)).
Proof.
  induction spatial as [|[dim s] spatial IH]; intros sizes Hnd Hok Hsp.
  - exists sizes. repeat split; auto.
  - destruct (temporal_step sizes dim s) as (s1 & E1 & Hnd1 & Hok1 & Hk1 & Hz1);
      [assumption|assumption|apply (Hsp dim); now left|].
    destruct (IH s1 Hnd1 Hok1) as (s2 & E2 & Hnd2 & Hok2 & Hk2 & Hz2).
    { intros d s' Hin. apply (Hsp d). now right. }
    exists s2. cbn [rfold]. rewrite E1. repeat split; auto.
    intros d. rewrite Hz2, Hz1. unfold unrollings_of. cbn [filter fst].
    destruct (eqb_spec d dim) as [->|Hne].
    + rewrite eqb_refl. reflexivity.
    + rewrite (eqb_neq dim d) by congruence. reflexivity.
Qed.

Lemma filter_dget (f : string * Z -> bool) d : NoDup (keys d) -> forall k,
  dget k (filter f d) = match dget k d with
                        | Some v => if f (k, v) then Some v else None
                        | None => None end.
Proof.
  induction d as [|[k1 v1] d IH]; intros Hnd k; [reflexivity|].
  inversion Hnd as [|a l Hni Hnd']; subst. cbn [filter dget].
  destruct (eqb_spec k k1) as [->|Hne].
  - destruct (f (k1, v1)) eqn:Ef; cbn [dget].
    + now rewrite eqb_refl.
    + rewrite IH by assumption. apply dget_None in Hni. now rewrite Hni.
  - destruct (f (k1, v1)) eqn:Ef; cbn [dget]; rewrite ?(eqb_neq _ _ Hne); now apply IH.
Qed.

Lemma keys_filter (f : string * Z -> bool) d k :
  In k (keys (filter f d)) -> In k (keys d).
Proof.
  unfold keys. rewrite !in_map_iff. intros (kv & E & Hin).
  apply filter_In in Hin. exists kv. tauto.
Qed.

Lemma NoDup_keys_filter (f : string * Z -> bool) d :
  NoDup (keys d) -> NoDup (keys (filter f d)).
Proof.
  induction d as [|[k v] d IH]; intros Hnd; [constructor|].
  inversion Hnd as [|a l Hni Hnd']; subst. cbn [filter].
  destruct (f (k, v)); [|now apply IH]. cbn. constructor; [|now apply IH].
  intros Hin. apply Hni. now apply keys_filter in Hin.
Qed.

(** Functional description of the whole function. *)
Lemma get_temporal_loops_spec layer spatial :
  NoDup (keys layer) -> sizes_ok layer ->
  (forall d s, In (d, s) spatial -> (1 <= s)%Q) ->
  exists loops, get_temporal_loops layer spatial = Ok loops /\
    NoDup (keys loops) /\
    (forall d n, In (d, n) loops -> 1 < n) /\
    (forall d, In d (keys loops) -> In d (keys layer)) /\
    (forall d, size_or_1 d loops =
               fold_left shrink (unrollings_of d spatial) (size_or_1 d layer)).
Proof.
  intros Hnd Hok Hsp.
  destruct (temporal_fold spatial layer Hnd Hok Hsp) as (s1 & E1 & Hnd1 & Hok1 & Hk1 & Hz1).
  unfold get_temporal_loops. rewrite E1. cbn [rbind].
  eexists. split; [reflexivity|]. repeat split.
  - now apply NoDup_keys_filter.
  - intros d n Hin. apply filter_In in Hin. cbn in Hin. lia.
  - intros d Hd. apply Hk1. now apply keys_filter in Hd.
  - intros d. rewrite <- Hz1. unfold size_or_1. rewrite filter_dget by assumption.
    destruct (dget d s1) as [n|] eqn:E; [|reflexivity]. cbn [snd].
    destruct (Z.ltb_spec 1 n); [reflexivity|].
    apply dget_In in E. apply Hok1 in E. lia.
Qed.

Lemma fold_shrink_cover ss : forall n, 1 <= n -> (forall s, In s ss -> (1 <= s)%Q) ->
  1 <= fold_left shrink ss n /\
  (inject_Z n <= inject_Z (fold_left shrink ss n) * qprod ss)%Q.
Proof.
  induction ss as [|s ss IH]; intros n Hn Hss; cbn [fold_left].
  - split; [exact Hn|]. unfold qprod; cbn. lra.
  - assert (Hs : (1 <= s)%Q) by (apply Hss; now left).
    pose proof (shrink_ge_1 n s Hs Hn) as Hq.
    destruct (IH (shrink n s) Hq) as [H1 H2].
    { intros s' Hin. apply Hss. now right. }
    split; [exact H1|]. rewrite qprod_cons.
    destruct (shrink_spec n s) as [H3 _]; [lra|].
    eapply Qle_trans; [exact H3|].
    setoid_replace (inject_Z (fold_left shrink ss (shrink n s)) * (s * qprod ss))%Q
      with (inject_Z (fold_left shrink ss (shrink n s)) * qprod ss * s)%Q by ring.
    apply Qmult_le_compat_r; lra.
Qed.

(** Later unrollings being integers makes the result the exact ceiling. *)
Lemma fold_shrink_tight_aux ss : forall n N (P : Q), 1 <= n -> (0 < P)%Q ->
  (forall s, In s ss -> exists z, 1 <= z /\ (s == inject_Z z)%Q) ->
  ((inject_Z n - 1) * P < N)%Q ->
  ((inject_Z (fold_left shrink ss n) - 1) * (P * qprod ss) < N)%Q.
Proof.
  induction ss as [|s ss IH]; intros n N P Hn HP Hss HN; cbn [fold_left].
  - unfold qprod; cbn. setoid_replace (P * 1)%Q with P by ring. exact HN.
  - destruct (Hss s) as (z & Hz & Es); [now left|].
    assert (Hz' : (1 <= inject_Z z)%Q)
      by (change 1%Q with (inject_Z 1); now apply inject_Z_le_iff).
    assert (Hs : (1 <= s)%Q) by (rewrite Es; exact Hz').
    pose proof (shrink_ge_1 n s Hs Hn) as Hq.
    rewrite qprod_cons.
    setoid_replace (P * (s * qprod ss))%Q with ((P * s) * qprod ss)%Q by ring.
    apply IH; [exact Hq|nra| |].
    + intros s' Hin. apply Hss. now right.
    + destruct (shrink_spec n s) as [_ H2]; [lra|].
      revert H2 Hq. generalize (shrink n s) as q. intros q H2 Hq. rewrite Es in H2.
      assert (Hint : ((inject_Z q - 1) * inject_Z z <= inject_Z n - 1)%Q).
      { assert (Hlt : (q - 1) * z < n).
        { apply inject_Z_lt_iff. unfold Z.sub.
          rewrite inject_Z_mult, inject_Z_plus. exact H2. }
        change 1%Q with (inject_Z 1). unfold Qminus.
        rewrite <- inject_Z_opp, <- !inject_Z_plus, <- inject_Z_mult.
        apply inject_Z_le_iff. lia. }
      rewrite Es. nra.
Qed.

Lemma fold_shrink_tight ss n : 1 <= n -> (forall s, In s ss -> (1 <= s)%Q) ->
  (forall s, In s (tl ss) -> exists z, 1 <= z /\ (s == inject_Z z)%Q) ->
  ((inject_Z (fold_left shrink ss n) - 1) * qprod ss < inject_Z n)%Q.
Proof.
  destruct ss as [|s ss]; intros Hn Hge Hss; cbn [fold_left tl] in *.
  - unfold qprod; cbn. lra.
  - assert (Hs : (1 <= s)%Q) by (apply Hge; now left).
    rewrite qprod_cons. apply fold_shrink_tight_aux; [now apply shrink_ge_1|lra|exact Hss|].
    destruct (shrink_spec n s) as [_ H2]; [lra|]. exact H2.
Qed.

(** * The statements used by the property file *)

Lemma temporal_loops_cover layer spatial :
  NoDup (keys layer) -> (forall d n, In (d, n) layer -> 1 <= n) ->
  (forall d s, In (d, s) spatial -> (1 <= s)%Q) ->
  exists loops, get_temporal_loops layer spatial = Ok loops /\
    NoDup (keys loops) /\
    (forall d n, In (d, n) loops -> 1 < n /\ In d (keys layer)) /\
    (forall d n, In (d, n) layer ->
       (inject_Z n <= qprod (unrollings_of d spatial) * inject_Z (size_or_1 d loops))%Q).
Proof.
  intros Hnd Hok Hsp.
  destruct (get_temporal_loops_spec layer spatial Hnd Hok Hsp)
    as (loops & E & Hnd' & Hgt & Hk & Hz).
  exists loops. repeat split; auto.
  - now apply (Hgt d).
  - apply Hk. change d with (fst (d, n)). now apply in_map.
  - intros d n Hin. rewrite Hz. unfold size_or_1.
    rewrite (In_dget d n layer Hnd Hin). rewrite Qmult_comm.
    apply fold_shrink_cover; [now apply Hok in Hin|].
    intros s Hs. unfold unrollings_of in Hs. apply in_map_iff in Hs.
    destruct Hs as ([d' s'] & <- & Hs). apply filter_In in Hs.
    apply (Hsp d'). tauto.
Qed.

Lemma temporal_loops_tight layer spatial loops :
  NoDup (keys layer) -> (forall d n, In (d, n) layer -> 1 <= n) ->
  (forall d s, In (d, s) spatial -> (1 <= s)%Q) ->
  get_temporal_loops layer spatial = Ok loops ->
  forall d n, In (d, n) layer ->
    (forall s, In s (tl (unrollings_of d spatial)) ->
               exists z, 1 <= z /\ (s == inject_Z z)%Q) ->
    (qprod (unrollings_of d spatial) * (inject_Z (size_or_1 d loops) - 1) < inject_Z n)%Q.
Proof.
  intros Hnd Hok Hsp E d n Hin Hint.
  destruct (get_temporal_loops_spec layer spatial Hnd Hok Hsp)
    as (loops' & E' & Hnd' & Hgt & Hk & Hz).
  rewrite E in E'. injection E' as <-.
  rewrite Hz. unfold size_or_1. rewrite (In_dget d n layer Hnd Hin).
  rewrite Qmult_comm. apply fold_shrink_tight; [now apply Hok in Hin| |exact Hint].
  intros s Hs. unfold unrollings_of in Hs. apply in_map_iff in Hs.
  destruct Hs as ([d' s'] & <- & Hs). apply filter_In in Hs.
  apply (Hsp d'). tauto.
Qed.
