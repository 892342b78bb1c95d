(** Loops of the search over a dimension of size 1 have size 1. *)
From Coq Require Import QArith ZArith Znumtheory Lia.
From Verif Require Import Base Model_Loma Spec_Loma Proof_LomaLoops Proof_LomaFactors.
Local Open Scope Z_scope.

Lemma ceiling_one (s : Q) : (1 <= s)%Q -> Qceiling (inject_Z 1 / s) = 1.
Proof.
  intros Hs. assert (P : (0 < s)%Q) by (apply (Qlt_le_trans _ 1); [reflexivity|exact Hs]).
  assert (L : Qceiling (inject_Z 1 / s) <= 1).
  { rewrite <- (Qceiling_Z 1) at 2. apply Qceiling_resp_le. apply Qle_shift_div_r; [exact P|]. change (inject_Z 1) with 1%Q. now rewrite Qmult_1_l. }
  assert (G : 0 < Qceiling (inject_Z 1 / s)).
  { rewrite Zlt_Qlt. eapply Qlt_le_trans; [|apply Qle_ceiling]. change (inject_Z 0) with 0%Q. apply Qlt_shift_div_l; [exact P|]. now rewrite Qmult_0_l. }
  lia.
Qed.

Lemma In_dset_cases (k k' : string) (v v' : Z) d : NoDup (keys d) -> In (k, v) (dset k' v' d) -> (k = k' /\ v = v') \/ In (k, v) d.
Proof.
  intros Nd I. assert (D := In_dget _ _ _ (NoDup_dset k' v' d Nd) I). destruct (string_dec k k') as [->|N].
  - rewrite dget_dset_eq in D. left. split; congruence.
  - rewrite dget_dset_neq in D by exact N. right. now apply dget_In in D.
Qed.

(** A dimension of size 1 keeps that size, or goes. *)
Definition ones (layer d : dict string Z) : Prop := forall k n, In (k, n) d -> dget k layer = Some 1 -> n = 1.

Lemma temporal_ones layer spatial loops : NoDup (keys layer) -> (forall d s, In (d, s) spatial -> (1 <= s)%Q) ->
  get_temporal_loops layer spatial = Ok loops -> forall d n, In (d, n) loops -> dget d layer <> Some 1.
Proof.
  intros Nd Hs E d n I D. unfold get_temporal_loops in E.
  assert (G : forall sp acc out, (forall d s, In (d, s) sp -> (1 <= s)%Q) -> NoDup (keys acc) -> ones layer acc -> rfold temporal_loops_step acc sp = Ok out -> ones layer out).
  { clear. induction sp as [|[d s] sp IH]; intros acc out Hs Nd O E; cbn [rfold] in E; [injection E as <-; exact O|].
    destruct (temporal_loops_step acc (d, s)) as [acc'|] eqn:St; cbn [rbind] in E; [|discriminate].
    cbn [temporal_loops_step] in St. apply (IH acc' out); [intros d1 s1 I1; apply (Hs d1 s1); now right| | |exact E]; destruct (dget d acc) as [m|] eqn:Dm.
    - destruct (Qeq_bool s 0); [discriminate|]. destruct (Qceiling (inject_Z m / s) =? 1); injection St as <-; [now apply NoDup_ddel|now apply NoDup_dset].
    - now injection St as <-.
    - destruct (Qeq_bool s 0); [discriminate|]. assert (Ho := fun H => O d m (dget_In _ _ _ Dm) H).
      destruct (Qceiling (inject_Z m / s) =? 1) eqn:Q; injection St as <-; intros k n Ik Hk.
      + apply (O k n); [|exact Hk]. exact (In_ddel _ _ _ _ Ik).
      + apply In_dset_cases in Ik; [|exact Nd]. destruct Ik as [[-> ->]|Ik]; [|exact (O k n Ik Hk)]. rewrite (Ho Hk), ceiling_one in Q by (apply (Hs d); now left). discriminate.
    - injection St as <-. exact O. }
  destruct (rfold temporal_loops_step layer spatial) as [out|] eqn:Ef; [|discriminate]. cbn [rbind] in E. injection E as <-. apply filter_In in I. destruct I as (I & L). cbn [snd] in L. apply Z.ltb_lt in L.
  assert (O : ones layer layer) by (intros k m Ik Hk; rewrite (In_dget _ _ _ Nd Ik) in Hk; now injection Hk). pose proof (G spatial layer out Hs Nd O Ef d n I D). lia.
Qed.

Lemma engine_ones factorint layer spatial lim lpfs : factorint_ok factorint -> NoDup (keys layer) -> (forall d n, In (d, n) layer -> 1 <= n) ->
  (forall d s, In (d, s) spatial -> (1 <= s)%Q) -> (forall l, lim = Some l -> 1 <= l) ->
  engine_lpfs factorint None lim layer spatial = Ok lpfs -> forall d f, In (d, f) lpfs -> dget d layer = Some 1 -> f = 1.
Proof.
  intros Hfac Nd Hge Hs Hlim E d f I D. destruct (temporal_loops_cover layer spatial Nd Hge Hs) as (loops & El & Nd' & Hgt & _).
  assert (Hgt' : forall d n, In (d, n) loops -> 1 < n) by (intros d' n Hin; now apply (Hgt d')).
  assert (NO := temporal_ones layer spatial loops Nd Hs El). unfold engine_lpfs in E. rewrite El in E. cbn [rbind] in E.
  assert (G : (forall d f, In (d, f) lpfs -> In d (keys loops)) -> f = 1).
  { intros K. exfalso. destruct (key_dget _ _ (K d f I)) as (n & Dn). exact (NO d n (dget_In _ _ _ Dn) D). }
  destruct loops as [|kv loops].
  - destruct layer as [|[d0 n0] layer]; [discriminate D|]. cbn [keys map fst] in E.
    destruct (prime_factors_dummy factorint d0 (map fst layer) (update_min_lpf_factor lim [])) as (st & Est).
    { intros l Q. unfold update_min_lpf_factor in Q. destruct lim as [l0|]; [|discriminate]. specialize (Hlim l0 eq_refl). cbn [length Z.of_nat] in Q. destruct (Z.ltb_spec l0 0); injection Q as <-; lia. }
    rewrite Est in E. cbn [rbind snd] in E. injection E as <-. destruct I as [I|[]]. now injection I.
  - set (lp := kv :: loops) in *. assert (Hne : lp <> []) by discriminate. apply G. clear G. destruct lim as [l|]; cbn [update_min_lpf_factor] in E.
    + specialize (Hlim l eq_refl). set (l' := if l <? Z.of_nat (length lp) then Z.of_nat (length lp) else l).
      replace (if l <? Z.of_nat (length lp) then Some (Z.of_nat (length lp)) else Some l) with (Some l') in E by (unfold l'; destruct (l <? Z.of_nat (length lp)); reflexivity).
      destruct (prime_factors_limit factorint Hfac (keys layer) lp l') as (st & lpfs' & Est & _ & _ & Hd & _); auto; [unfold l'; destruct (Z.ltb_spec l (Z.of_nat (length lp))); lia|].
      rewrite Est in E. cbn [rbind snd] in E. injection E as <-. intros d' f' I'. now apply (Hd d' f').
    + destruct (prime_factors_nolimit factorint Hfac (keys layer) lp) as (st & lpfs' & Est & _ & Hd); auto.
      rewrite Est in E. cbn [rbind snd] in E. injection E as <-. intros d' f' I'. now apply (Hd d' f').
Qed.
