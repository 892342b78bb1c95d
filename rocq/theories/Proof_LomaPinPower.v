(** Pinned loops of prime-power size together with a limit on the loops. *)
From Coq Require Import Lia Permutation Znumtheory Zpow_facts.
From Verif Require Import Base Model_Loma Model_Perm Spec_Loma Spec_Perm Spec_LomaCount
  Proof_PermProps Proof_LomaLoops Proof_LomaFactors Proof_LomaPins Proof_LomaCount
  Proof_LomaPinLimit.
Open Scope Z_scope.

(** Sums of exponents split along lists. *)
Lemma exponents_cons big d p m ts e q :
  exponents big ((d, p, m) :: ts) e q =
  (if String.eqb d e && (p =? q) && (negb big || (2 <=? m)) then m else 0)
  + exponents big ts e q.
Proof.
  unfold exponents. cbn [filter fst snd].
  destruct (String.eqb d e && (p =? q) && _); cbn [map snd].
  - now rewrite zsum_cons.
  - lia.
Qed.

Definition big_pins (ts : list (string * Z * Z)) : list (string * Z) :=
  powers (filter (fun t => 2 <=? snd t) ts).

Lemma powers_cons d p m ts : powers ((d, p, m) :: ts) = (d, p ^ m) :: powers ts.
Proof. reflexivity. Qed.

Lemma occurs_cons d s l e f :
  occurs ((d, s) :: l) e f = (if String.eqb d e && (s =? f) then 1 else 0) + occurs l e f.
Proof.
  unfold occurs. cbn [filter fst snd]. destruct (String.eqb d e && (s =? f)); cbn [length]; lia.
Qed.

Lemma exponents_nonneg big ts : (forall d p m, In (d, p, m) ts -> prime p /\ 1 <= m) ->
  forall e q, 0 <= exponents big ts e q.
Proof.
  induction ts as [|[[d p] m] ts IH]; intros H e q; [cbn; lia|]. rewrite exponents_cons.
  destruct (H d p m (or_introl eq_refl)).
  assert (0 <= exponents big ts e q)
    by (apply IH; intros d' p' m' Hi; apply (H d' p' m'); now right).
  destruct (String.eqb d e && (p =? q) && _); lia.
Qed.

Lemma prime_not_power p m : prime p -> 2 <= m -> ~ prime (p ^ m).
Proof.
  intros Hp Hm Hq. pose proof (prime_ge_2 p Hp).
  assert (Hd : (p | p ^ m)).
  { exists (p ^ (m - 1)). replace m with (m - 1 + 1) at 1 by lia. rewrite Z.pow_add_r by lia.
    now rewrite Z.pow_1_r. }
  apply (prime_div_prime p (p ^ m) Hp Hq) in Hd.
  assert (p ^ 1 < p ^ m) by (apply Z.pow_lt_mono_r; lia). rewrite Z.pow_1_r in *. lia.
Qed.

Lemma cnt_snoc fs cs g c f : length fs = length cs ->
  cnt (fs ++ [g]) (cs ++ [c]) f = cnt fs cs f + (if g =? f then c else 0).
Proof.
  revert cs; induction fs as [|x fs IH]; intros [|y cs] Hlen; try discriminate.
  - cbn [app]. rewrite cnt_cons. change (cnt [] [] f) with 0. lia.
  - cbn [app]. rewrite !cnt_cons, IH by now injection Hlen. lia.
Qed.

Lemma cnt_pos_in fs : forall cs f, 1 <= cnt fs cs f -> In f fs.
Proof.
  induction fs as [|g fs IH]; intros [|c cs] f H; try (cbn in H; lia).
  rewrite cnt_cons in H. destruct (Z.eqb_spec g f) as [->|]; [now left|right].
  apply (IH cs). lia.
Qed.

Lemma in_cnt_pos fs cs f : NoDup fs -> length fs = length cs -> ge1 cs -> In f fs ->
  1 <= cnt fs cs f.
Proof.
  intros Hnd Hlen H1 Hi. apply In_nth_error in Hi. destruct Hi as (k & Hk).
  destruct (nth_error cs k) as [c|] eqn:Hc.
  - rewrite (cnt_nth fs cs k f c); auto. apply H1. now apply nth_error_In in Hc.
  - apply nth_error_None in Hc. assert (k < length fs)%nat by (apply nth_error_Some; congruence). lia.
Qed.

Lemma add_at_in k delta : forall cs x, In x (add_at k delta cs) ->
  In x cs \/ exists c, nth_error cs k = Some c /\ x = c + delta.
Proof.
  induction k as [|k IH]; intros [|c cs] x Hx; cbn [add_at] in Hx; try (destruct Hx; fail).
  - destruct Hx as [<-|Hx]; [right; now exists c|left; now right].
  - destruct Hx as [->|Hx]; [left; now left|]. destruct (IH cs x Hx) as [Hi|Hi].
    + left. now right.
    + now right.
Qed.

Section Reduce.
  Variable factorint : Z -> list (Z * Z).
  Hypothesis Hfac : factorint_ok factorint.
  Variable loops : dict string Z.
  Hypothesis Hnd : NoDup (keys loops).
  Hypothesis Hn : forall d n, In (d, n) loops -> 1 < n.
  Variable ts : list (string * Z * Z).

  (** How often a prime divides the size of a dimension. *)
  Let mult (n p : Z) : Z := cnt (map fst (factorint n)) (map snd (factorint n)) p.

  Definition after (done : list (string * Z * Z)) (st : factors) : Prop :=
    keys (pfs st) = keys loops /\ keys (pf_counts st) = keys loops /\
    keys (pf_count_sums st) = keys loops /\
    zsum (values (pf_count_sums st)) =
      zsum (values (pf_count_sums (initial_factors factorint loops)))
      - zsum (map (fun t => snd t - 1) done) /\
    forall d n, In (d, n) loops -> exists fs cs,
      dget d (pfs st) = Some fs /\ dget d (pf_counts st) = Some cs /\
      dget d (pf_count_sums st) = Some (zsum cs) /\
      length fs = length cs /\ ge1 cs /\ ge2 fs /\ NoDup fs /\ 1 <= zsum cs /\
      wprod fs cs = n /\
      (forall p, prime p -> cnt fs cs p = mult n p - exponents true done d p) /\
      (forall s, ~ prime s -> cnt fs cs s = occurs (big_pins done) d s).

  Lemma after_start : after [] (initial_factors factorint loops).
  Proof.
    destruct (initial_inv factorint Hfac loops Hnd Hn) as (_ & K1 & K2 & K3 & Hdim).
    split; [exact K1|]. split; [exact K2|]. split; [exact K3|]. split; [cbn [map]; change (zsum []) with 0; lia|].
    intros d n Hin.
    destruct (Hdim d n Hin) as (fs & cs & Gf & Gc & Gs & Hlen & H1 & H2 & Hs & Hw).
    exists fs, cs.
    assert (Ef : fs = map fst (factorint n) /\ cs = map snd (factorint n)).
    { unfold initial_factors in Gf, Gc. cbn [pfs pf_counts] in Gf, Gc.
      rewrite (dget_map (fun kv => _)), (find_key loops d n Hnd Hin) in Gf.
      rewrite (dget_map (fun kv => _)), (find_key loops d n Hnd Hin) in Gc.
      injection Gf as <-. injection Gc as <-. now split. }
    destruct Ef as (-> & ->). pose proof (Hn d n Hin).
    destruct (Hfac n ltac:(lia)) as (F1 & F2 & _).
    repeat (split; [assumption|]). split.
    - intros p _. unfold mult. change (exponents true [] d p) with 0. lia.
    - intros s Hs'. change (occurs (big_pins []) d s) with 0.
      destruct (Z_le_gt_dec 1 (cnt (map fst (factorint n)) (map snd (factorint n)) s)) as [Hc|Hc].
      + exfalso. apply Hs'. apply cnt_pos_in in Hc. apply in_map_iff in Hc.
        destruct Hc as ([q m] & <- & Hi). now apply F1 in Hi.
      + assert (0 <= cnt (map fst (factorint n)) (map snd (factorint n)) s); [|lia].
        unfold cnt. rewrite combine_fst_snd. clear - F1.
        induction (factorint n) as [|[g c] l IH]; [cbn; lia|]. cbn [map fst snd].
        rewrite zsum_cons.
        assert (0 <= zsum (map (fun fc => if fst fc =? s then snd fc else 0) l)).
        { apply IH. intros q m Hi. apply F1. now right. }
        destruct (F1 g c (or_introl eq_refl)). destruct (g =? s); lia.
  Qed.

  (** One pin. *)
  Lemma after_step done st d n p m : after done st -> In (d, n) loops -> prime p -> 1 <= m ->
    (m = 1 -> exponents true done d p + 1 <= mult n p) ->
    (2 <= m -> exponents true done d p + m + 1 <= mult n p) ->
    (2 <= m -> occurs (big_pins done) d (p ^ m) = 0) ->
    exists st', rfold (reduce_static_factor d (p ^ m)) st (factorint (p ^ m)) = Ok st' /\
      after ((d, p, m) :: done) st'.
  Proof.
    intros (K1 & K2 & K3 & Ksum & Hdim) Hin Hp Hm1 Hone Hbig Hnew.
    rewrite (factorint_prime_power factorint p m Hfac Hp Hm1). cbn [rfold].
    destruct (Hdim d n Hin)
      as (fs & cs & Gf & Gc & Gs & Hlen & H1 & H2 & Hdf & Hs1 & Hw & Hpr & Hnp).
    pose proof (Hpr p Hp) as Ep.
    destruct (Z_le_gt_dec 2 m) as [Hm2|Hm2].
    2:{ assert (m = 1) by lia. subst m. rewrite Z.pow_1_r.
        specialize (Hone eq_refl).
        rewrite (reduce_prime d p st fs cs _ Gf Gc Gs Hlen H1); [|apply (cnt_pos_in fs cs); lia].
        cbn [rbind]. exists st. split; [reflexivity|].
        split; [exact K1|]. split; [exact K2|]. split; [exact K3|].
        split; [cbn [map snd]; rewrite zsum_cons; lia|].
        intros e k He. destruct (Hdim e k He) as (gs & es & Hr). exists gs, es.
        repeat match goal with H : _ /\ _ |- _ => destruct H end.
        repeat (split; [assumption|]). split.
        - intros q Hq. rewrite exponents_cons. cbn [negb orb]. change (2 <=? 1) with false.
          rewrite Bool.andb_false_r. rewrite Z.add_0_l. auto.
        - intros s Hs. unfold big_pins. cbn [filter snd]. change (2 <=? 1) with false. auto. }
    specialize (Hbig Hm2). specialize (Hnew Hm2).
    assert (Hpf : In p fs) by (apply (cnt_pos_in fs cs); lia).
    destruct (in_index p fs Hpf) as (k & Ek). pose proof (index_of_nth p fs k Ek) as Nk.
    destruct (nth_error cs k) as [c|] eqn:Nc.
    2:{ apply nth_error_None in Nc. assert (k < length fs)%nat by (apply nth_error_Some; congruence). lia. }
    assert (Ec : c = mult n p - exponents true done d p)
      by (rewrite <- Ep; symmetry; now apply (cnt_nth fs cs k p c)).
    assert (Hsf : ~ In (p ^ m) fs).
    { intros Hi. apply (in_cnt_pos fs cs) in Hi; auto.
      rewrite (Hnp _ (prime_not_power p m Hp Hm2)) in Hi. lia. }
    assert (Hnn : nonneg cs) by (intros x Hx; apply H1 in Hx; lia).
    unfold reduce_static_factor, dgetr. rewrite Gf, Gc, Gs. cbn [of_option rbind].
    rewrite Ek. cbn [of_option rbind]. rewrite Nc. cbn [of_option rbind].
    destruct (Z.leb_spec m c) as [_|Hc]; [|lia].
    rewrite (proj2 (memb_not_In (p ^ m) fs) Hsf). cbn [rbind].
    eexists. split; [reflexivity|].
    destruct (wprod_sub k m fs cs p c Hlen Hnn Nk Nc) as (W & N); [lia|].
    set (cs1 := add_at k (- m) cs) in *.
    assert (Hlen1 : length fs = length cs1) by (unfold cs1; now rewrite length_add_at).
    assert (Hsum1 : zsum cs1 = zsum cs - m).
    { unfold cs1. rewrite add_at_sum; [lia|]. apply nth_error_Some. now rewrite Nc. }
    assert (Hk : In d (keys loops)) by (change d with (fst (d, n)); now apply List.in_map).
    assert (Hsn : zsum (cs1 ++ [1]) = zsum cs - (m - 1)).
    { rewrite zsum_app, Hsum1. cbn. lia. }
    assert (Hp2 : 2 <= p ^ m).
    { pose proof (prime_ge_2 p Hp).
      assert (p ^ 1 <= p ^ m) by (apply Z.pow_le_mono_r; lia). rewrite Z.pow_1_r in *. lia. }
    assert (H11 : ge1 (cs1 ++ [1])).
    { intros x Hx. apply in_app_iff in Hx. destruct Hx as [Hx|[<-|[]]]; [|lia].
      apply add_at_in in Hx. destruct Hx as [Hx|(c' & Hc' & ->)]; [now apply H1|].
      assert (c' = c) by congruence. lia. }
    split; [|split; [|split; [|split]]]; cbn [pfs pf_counts pf_count_sums].
    - rewrite keys_dset_in; [exact K1|now rewrite K1].
    - rewrite keys_dset_in; [exact K2|now rewrite K2].
    - rewrite keys_dset_in; [exact K3|now rewrite K3].
    - rewrite (zsum_values_dset _ _ _ (zsum cs)) by exact Gs.
      cbn [map snd]. rewrite zsum_cons. lia.
    - intros e k' He. destruct (eqb_spec e d) as [->|Hed].
      + assert (k' = n).
        { apply (In_dget d k' loops Hnd) in He. apply (In_dget d n loops Hnd) in Hin. congruence. }
        subst k'. exists (fs ++ [p ^ m]), (cs1 ++ [1]). rewrite !dget_dset_eq, Hsn.
        split; [reflexivity|]. split; [reflexivity|]. split; [reflexivity|].
        split; [rewrite !app_length; cbn [length]; lia|]. split; [exact H11|].
        split; [intros x Hx; apply in_app_iff in Hx; destruct Hx as [Hx|[<-|[]]]; [now apply H2|exact Hp2]|].
        split.
        { apply (Permutation_NoDup (Permutation_cons_append fs (p ^ m))). now constructor. }
        split.
        { rewrite <- Hsn, zsum_app. cbn [zsum]. 
          assert (0 <= zsum cs1); [|cbn; lia].
          clear - N. induction cs1 as [|x l IH]; [cbn; lia|]. rewrite zsum_cons.
          assert (0 <= x) by (apply N; now left).
          assert (0 <= zsum l) by (apply IH; intros y Hy; apply N; now right). lia. }
        split; [rewrite wprod_snoc, Z.pow_1_r by exact Hlen1; lia|]. split.
        * intros q Hq. rewrite cnt_snoc by exact Hlen1. unfold cs1.
          rewrite (cnt_add k _ fs cs p q Hlen Nk), exponents_cons, String.eqb_refl.
          destruct (Z.leb_spec 2 m); [|lia]. cbn [negb orb andb].
          rewrite Bool.andb_true_r, (Hpr q Hq).
          destruct (Z.eqb_spec (p ^ m) q) as [Eq|_].
          { exfalso. subst q. now apply (prime_not_power p m Hp Hm2). }
          destruct (p =? q); lia.
        * intros s Hs. rewrite cnt_snoc by exact Hlen1. unfold cs1.
          rewrite (cnt_add k _ fs cs p s Hlen Nk), (Hnp s Hs).
          unfold big_pins. cbn [filter snd]. destruct (Z.leb_spec 2 m); [|lia].
          rewrite powers_cons, occurs_cons, String.eqb_refl. cbn [andb].
          destruct (Z.eqb_spec p s) as [->|_]; [contradiction|]. lia.
      + destruct (Hdim e k' He) as (gs & es & Hr). exists gs, es.
        rewrite !dget_dset_neq by assumption.
        repeat match goal with H : _ /\ _ |- _ => destruct H end.
        repeat (split; [assumption|]).
        assert (Hde : String.eqb d e = false) by (apply String.eqb_neq; congruence). split.
        * intros q Hq. rewrite exponents_cons, Hde. cbn [andb]. rewrite Z.add_0_l. auto.
        * intros s Hs. unfold big_pins. cbn [filter snd]. destruct (Z.leb_spec 2 m); [|lia].
          rewrite powers_cons, occurs_cons, Hde. cbn [andb]. rewrite Z.add_0_l. auto.
  Qed.

  Hypothesis Hts : forall d p m, In (d, p, m) ts -> prime p /\ 1 <= m /\
    (p ^ exponents false ts d p | size_or_1 d loops) /\
    (2 <= m -> (p ^ (exponents true ts d p + 1) | size_or_1 d loops) /\
               occurs (powers ts) d (p ^ m) <= 1).

  Lemma ts_prime d p m : In (d, p, m) ts -> prime p /\ 1 <= m.
  Proof. intros Hi. destruct (Hts d p m Hi) as (H1 & H2 & _). now split. Qed.

  Lemma exponents_in : forall l d p m, (forall d p m, In (d, p, m) l -> prime p /\ 1 <= m) ->
    In (d, p, m) l -> m <= exponents false l d p.
  Proof.
    induction l as [|[[d' p'] m'] l IH]; intros d p m Hl Hi; [destruct Hi|].
    assert (Hl' : forall d p m, In (d, p, m) l -> prime p /\ 1 <= m)
      by (intros d1 p1 m1 I1; apply (Hl d1 p1 m1); now right).
    rewrite exponents_cons. destruct Hi as [E|Hi].
    - injection E as -> -> ->. rewrite String.eqb_refl, Z.eqb_refl. cbn [andb negb orb].
      pose proof (exponents_nonneg false l Hl' d p). lia.
    - specialize (IH d p m Hl' Hi). destruct (Hl d' p' m' (or_introl eq_refl)).
      destruct (String.eqb d' d && (p' =? p) && _); lia.
  Qed.

  Lemma ts_dim d p m : In (d, p, m) ts -> exists n, In (d, n) loops.
  Proof.
    intros Hi. destruct (Hts d p m Hi) as (Hp & Hm & Hd & _). unfold size_or_1 in Hd.
    destruct (dget d loops) as [n|] eqn:En; [exists n; now apply dget_In|].
    exfalso. pose proof (prime_ge_2 p Hp). pose proof (exponents_in ts d p m ts_prime Hi) as He.
    apply Z.divide_pos_le in Hd; [|lia].
    assert (p ^ 1 <= p ^ exponents false ts d p) by (apply Z.pow_le_mono_r; lia).
    rewrite Z.pow_1_r in *. lia.
  Qed.

  Lemma mult_ge d n p k : In (d, n) loops -> prime p -> 0 <= k ->
    (p ^ k | size_or_1 d loops) -> k <= mult n p.
  Proof.
    intros Hin Hp Hk Hd. unfold size_or_1 in Hd. rewrite (In_dget d n loops Hnd Hin) in Hd.
    pose proof (Hn d n Hin). destruct (Hfac n ltac:(lia)) as (F1 & F2 & F3).
    apply multiplicity_ge; auto. now rewrite F3.
  Qed.

  Lemma exponents_split l d p : prime p ->
    (forall d p m, In (d, p, m) l -> prime p /\ 1 <= m) ->
    exponents false l d p = exponents true l d p + occurs (powers l) d p.
  Proof.
    intros Hp. induction l as [|[[d' q] m] l IH]; intros Hl; [reflexivity|].
    assert (Hl' : forall d p m, In (d, p, m) l -> prime p /\ 1 <= m)
      by (intros d1 p1 m1 I1; apply (Hl d1 p1 m1); now right).
    rewrite !exponents_cons, powers_cons, occurs_cons, (IH Hl'). cbn [negb orb].
    destruct (Hl d' q m (or_introl eq_refl)) as (Hq & Hm).
    destruct (String.eqb d' d); cbn [andb]; [|lia].
    destruct (Z.leb_spec 2 m) as [Hm2|Hm2].
    - destruct (Z.eqb_spec (q ^ m) p) as [Ep|_]; [|destruct (q =? p); cbn [andb]; lia].
      exfalso. apply (prime_not_power q m Hq Hm2). now rewrite Ep.
    - assert (m = 1) by lia. subst m. rewrite Z.pow_1_r.
      destruct (q =? p); cbn [andb]; lia.
  Qed.

  Lemma big_occurs l d s : ~ prime s -> (forall d p m, In (d, p, m) l -> prime p /\ 1 <= m) ->
    occurs (powers l) d s = occurs (big_pins l) d s.
  Proof.
    intros Hs. induction l as [|[[d' q] m] l IH]; intros Hl; [reflexivity|].
    assert (Hl' : forall d p m, In (d, p, m) l -> prime p /\ 1 <= m)
      by (intros d1 p1 m1 I1; apply (Hl d1 p1 m1); now right).
    destruct (Hl d' q m (or_introl eq_refl)) as (Hq & Hm).
    rewrite powers_cons, occurs_cons, (IH Hl'). unfold big_pins at 2. cbn [filter snd].
    destruct (Z.leb_spec 2 m) as [Hm2|Hm2].
    - now rewrite powers_cons, occurs_cons.
    - assert (m = 1) by lia. subst m. rewrite Z.pow_1_r.
      destruct (Z.eqb_spec q s) as [->|_]; [contradiction|]. rewrite Bool.andb_false_r.
      reflexivity.
  Qed.

  Lemma after_all : forall rest done st, after done st ->
    (forall t, In t rest -> In t ts) ->
    (forall d p, exponents true done d p + exponents true rest d p = exponents true ts d p) ->
    (forall d s, occurs (big_pins done) d s + occurs (big_pins rest) d s
                 = occurs (big_pins ts) d s) ->
    exists done' st', reduce_static_fps factorint (powers rest) st = Ok st' /\ after done' st' /\
      (forall d p, exponents true done' d p = exponents true ts d p) /\
      (forall d s, occurs (big_pins done') d s = occurs (big_pins ts) d s) /\
      zsum (map (fun t => snd t - 1) done') =
        zsum (map (fun t => snd t - 1) done) + zsum (map (fun t => snd t - 1) rest).
  Proof.
    induction rest as [|[[d p] m] rest IH]; intros done st Ha Hsub He Ho.
    - exists done, st. split; [reflexivity|]. split; [exact Ha|]. split; [|split].
      + intros d p. specialize (He d p). change (exponents true [] d p) with 0 in He. lia.
      + intros d s. specialize (Ho d s). change (occurs (big_pins []) d s) with 0 in Ho. lia.
      + cbn [map]. change (zsum []) with 0. lia.
    - assert (Hi : In (d, p, m) ts) by (apply Hsub; now left).
      destruct (Hts d p m Hi) as (Hp & Hm & Hd & Hb).
      destruct (ts_dim d p m Hi) as (n & Hin).
      assert (Hrest : forall d p m, In (d, p, m) rest -> prime p /\ 1 <= m)
        by (intros d' p' m' H'; apply (ts_prime d' p' m'), Hsub; now right).
      pose proof (exponents_nonneg true rest Hrest d p) as Hr0.
      pose proof (exponents_nonneg false ts ts_prime d p) as Ht0.
      pose proof (exponents_nonneg true ts ts_prime d p) as Ht1.
      pose proof (mult_ge d n p _ Hin Hp Ht0 Hd) as Hmult.
      rewrite (exponents_split ts d p Hp ts_prime) in Hmult.
      destruct (after_step done st d n p m Ha Hin Hp Hm) as (st1 & E1 & Ha1).
      + intros ->. pose proof (He d p) as He'. rewrite exponents_cons in He'.
        change (2 <=? 1) with false in He'. cbn [negb orb] in He'.
        rewrite Bool.andb_false_r in He'. cbv beta iota in He'.
        assert (1 <= occurs (powers ts) d p); [|lia]. apply occurs_of_in.
        unfold powers. apply in_map_iff. exists (d, p, 1). split; [|exact Hi].
        cbn [fst snd]. now rewrite Z.pow_1_r.
      + intros Hm2. destruct (Hb Hm2) as (Hb1 & _).
        pose proof (mult_ge d n p (exponents true ts d p + 1) Hin Hp ltac:(lia) Hb1) as Hm'.
        pose proof (He d p) as He'. rewrite exponents_cons, String.eqb_refl, Z.eqb_refl in He'.
        destruct (Z.leb_spec 2 m); [|lia]. cbn [negb orb andb] in He'. lia.
      + intros Hm2. destruct (Hb Hm2) as (_ & Hb2).
        rewrite (big_occurs ts d _ (prime_not_power p m Hp Hm2) ts_prime) in Hb2.
        pose proof (Ho d (p ^ m)) as Ho'. unfold big_pins at 2 in Ho'. cbn [filter snd] in Ho'.
        destruct (Z.leb_spec 2 m); [|lia].
        rewrite powers_cons, occurs_cons, String.eqb_refl, Z.eqb_refl in Ho'. cbn [andb] in Ho'.
        unfold occurs in *. lia.
      + destruct (IH ((d, p, m) :: done) st1 Ha1) as (done' & st' & E & Ha' & Q1 & Q2 & Q3).
        * intros t Ht. apply Hsub. now right.
        * intros e q. rewrite <- (He e q), !exponents_cons. lia.
        * intros e s. rewrite <- (Ho e s). unfold big_pins. cbn [filter snd].
          destruct (2 <=? m); [|reflexivity]. rewrite !powers_cons, !occurs_cons. lia.
        * exists done', st'. split.
          { rewrite powers_cons. unfold reduce_static_fps in *. cbn [rfold fst snd].
            rewrite E1. cbn [rbind]. exact E. }
          split; [exact Ha'|]. split; [exact Q1|]. split; [exact Q2|].
          rewrite Q3. cbn [map snd]. rewrite !zsum_cons. lia.
  Qed.

  Lemma power_pins_with_limit P layer_dims lim : loops <> [] ->
    (forall d, In d (keys loops) -> loops_on (powers ts) d <= P) ->
    (forall l, lim = Some l -> Z.of_nat (length loops) * (P + 1) <= l) ->
    exists st lpfs,
      get_prime_factors factorint (Some (powers ts)) lim layer_dims loops = Ok (st, lpfs) /\
      (forall d, loop_product d lpfs = size_or_1 d loops) /\
      Z.of_nat (length lpfs) =
        (let n := Z.of_nat (length (initial_lpfs factorint loops))
                  - zsum (map (fun t => snd t - 1) ts) in
         match lim with Some l => Z.min l n | None => n end) /\
      (forall d s, occurs (powers ts) d s <= occurs lpfs d s).
  Proof.
    intros Hne HP Hlim.
    assert (HP0 : 0 <= P).
    { destruct loops as [|[d n] loops']; [congruence|].
      specialize (HP d (or_introl eq_refl)). unfold loops_on in HP. lia. }
    destruct (after_all ts [] (initial_factors factorint loops) after_start)
      as (done & st1 & Hred & (K1 & K2 & K3 & Ksum & Hdim) & Q1 & Q2 & Q3).
    { auto. } { intros d p. reflexivity. } { intros d s. reflexivity. }
    set (st0 := initial_factors factorint loops) in *.
    change (zsum (map (fun t : string * Z * Z => snd t - 1) [])) with 0 in Q3.
    assert (Hinv1 : FInv loops st1).
    { split; [exact Hnd|]. split; [exact K1|]. split; [exact K2|]. split; [exact K3|].
      intros d n Hin. destruct (Hdim d n Hin)
        as (fs & cs & Gf & Gc & Gs & Hlen & H1 & H2 & _ & Hs1 & Hw & _).
      exists fs, cs. repeat (split; [assumption|]). exact Hw. }
    assert (Hloop : forall d fs, dget d (pfs st1) = Some fs -> exists n, In (d, n) loops).
    { intros d fs Gf. apply dget_Some_key in Gf. rewrite K1 in Gf.
      destruct (key_dget d loops Gf) as (n & En). exists n. now apply dget_In. }
    assert (Hdis1 : distinct_factors st1).
    { intros d fs Hi. apply (In_dget d fs (pfs st1)) in Hi; [|now rewrite K1].
      destruct (Hloop d fs Hi) as (n & Hin). destruct (Hdim d n Hin)
        as (fs' & cs & Gf & _ & _ & _ & _ & _ & Hdf & _). congruence. }
    assert (Hkp1 : keeps_pins (powers ts) st1).
    { intros d fs cs f Gf Gc. destruct (Hloop d fs Gf) as (n & Hin). destruct (Hdim d n Hin)
        as (fs' & cs' & Gf' & Gc' & _ & Hlen & H1 & _ & Hdf & _ & _ & Hpr & Hnp).
      rewrite Gf in Gf'. injection Gf' as <-. rewrite Gc in Gc'. injection Gc' as <-.
      destruct (prime_dec f) as [Hf|Hf].
      - rewrite (Hpr f Hf), Q1.
        destruct (Z_le_gt_dec 1 (occurs (powers ts) d f)) as [Ho|Ho].
        + apply occurs_in in Ho. unfold powers in Ho. apply in_map_iff in Ho.
          destruct Ho as ([[d' q] m] & E & Hi). cbn [fst snd] in E. injection E as -> Eq.
          destruct (ts_prime d q m Hi) as (Hq & Hm).
          assert (q = f).
          { destruct (Z_le_gt_dec 2 m) as [Hm2|Hm2].
            - exfalso. apply (prime_not_power q m Hq Hm2). now rewrite Eq.
            - assert (m = 1) by lia. subst m. now rewrite Z.pow_1_r in Eq. }
          subst q. destruct (Hts d f m Hi) as (_ & _ & Hd & _).
          pose proof (mult_ge d n f _ Hin Hf (exponents_nonneg false ts ts_prime d f) Hd) as Hm'.
          rewrite (exponents_split ts d f Hf ts_prime) in Hm'. lia.
        + specialize (Hpr f Hf). rewrite Q1 in Hpr. rewrite <- Hpr.
          assert (0 <= cnt fs cs f); [|unfold occurs in *; lia].
          clear - H1. unfold cnt. revert cs H1.
          induction fs as [|g fs IH]; intros [|c cs] H1; try (cbn; lia).
          cbn [combine map fst snd]. rewrite zsum_cons.
          assert (1 <= c) by (apply H1; now left).
          specialize (IH cs ltac:(intros x Hx; apply H1; now right)). destruct (g =? f); lia.
      - rewrite (Hnp f Hf), Q2, (big_occurs ts d f Hf ts_prime). lia. }
    assert (Hend : forall st, FInv loops st -> keeps_pins (powers ts) st ->
      exists l, rebuild_lpfs st = Ok l /\
        (forall d, loop_product d l = size_or_1 d loops) /\
        Z.of_nat (length l) = zsum (values (pf_count_sums st)) /\
        (forall d s, occurs (powers ts) d s <= occurs l d s)).
    { intros st Hi Hk. destruct (rebuild_ok loops st Hi) as (l & El & Hp & Hlen & _).
      exists l. split; [exact El|]. split; [exact Hp|]. split; [exact Hlen|].
      intros d s. destruct (Z_le_gt_dec 1 (occurs (powers ts) d s)) as [Ho|Ho];
        [|unfold occurs in *; lia].
      apply occurs_in in Ho. unfold powers in Ho. apply in_map_iff in Ho.
      destruct Ho as ([[d' q] m] & E & Hit). cbn [fst snd] in E. injection E as -> Eq.
      destruct (ts_dim d q m Hit) as (n & Hin).
      destruct Hi as (_ & _ & _ & _ & Hdim').
      destruct (Hdim' d n Hin) as (fs & cs & Gf & Gc & _).
      etransitivity; [exact (Hk d fs cs s Gf Gc)|].
      unfold rebuild_lpfs in El.
      destruct (rmap _ (pfs st)) as [ls|] eqn:Er; [|discriminate]. cbn [rbind] in El.
      injection El as <-. apply (occurs_rebuild (pf_counts st) d fs cs s (pfs st) ls Er); auto.
      now apply dget_In. }
    assert (Hsum0 : zsum (values (pf_count_sums st0))
                    = Z.of_nat (length (initial_lpfs factorint loops))).
    { destruct (rebuild_ok loops st0 (initial_inv factorint Hfac loops Hnd Hn))
        as (l & El & _ & Hlen & _).
      pose proof (rebuild_initial factorint loops Hnd) as Er. fold st0 in Er.
      rewrite Er in El. injection El as <-. now rewrite Hlen. }
    unfold get_prime_factors. rewrite with_dummy_some by assumption. fold st0.
    cbn [rbind fst snd]. unfold limit_lpfs. rewrite Hred. cbn [rbind].
    destruct (Hend st1 Hinv1 Hkp1) as (l1 & El1 & Hp1 & Hlen1 & Ho1).
    rewrite El1. cbn [rbind]. cbv zeta.
    destruct lim as [lim|]; [specialize (Hlim lim eq_refl)|].
    2:{ exists st1, l1. split; [reflexivity|]. split; [exact Hp1|]. split; [|exact Ho1]. lia. }
    destruct (Z.leb_spec (zsum (values (pf_count_sums st1))) lim) as [Hle|Hgt].
    - exists st1, l1. split; [reflexivity|]. split; [exact Hp1|]. split; [|exact Ho1]. lia.
    - destruct (limit_iter_pins (powers ts) P loops lim HP0 HP Hlim
                  (Z.to_nat (zsum (values (pf_count_sums st1)) - lim)) st1 Hinv1 Hdis1 Hkp1)
        as (st' & E' & Hinv' & Hkp' & Hn'); [lia|].
      rewrite E'. cbn [rbind].
      destruct (Hend st' Hinv' Hkp') as (l' & El' & Hp' & Hlen' & Ho').
      rewrite El'. cbn [rbind]. exists st', l'. split; [reflexivity|].
      split; [exact Hp'|]. split; [|exact Ho']. lia.
  Qed.
End Reduce.

Lemma power_pins_met factorint : factorint_ok factorint ->
  forall (qs : dict Z (string * Z)) ts P layer_dims loops lim, NoDup (keys loops) ->
  values qs = powers ts ->
  (forall d n, In (d, n) loops -> 1 < n) -> loops <> [] ->
  (forall d p m, In (d, p, m) ts -> prime p /\ 1 <= m /\
     (p ^ exponents false ts d p | size_or_1 d loops) /\
     (2 <= m -> (p ^ (exponents true ts d p + 1) | size_or_1 d loops) /\
                occurs (powers ts) d (p ^ m) <= 1)) ->
  (forall d, In d (keys loops) -> loops_on (values qs) d <= P) ->
  (forall l, lim = Some l -> Z.of_nat (length loops) * (P + 1) <= l) ->
  exists st lpfs,
    get_prime_factors factorint (Some (values qs)) lim layer_dims loops = Ok (st, lpfs) /\
    ((forall pos x, In (pos, x) qs -> position_in (length lpfs) pos) ->
     NoDup (map (place_of (length lpfs)) (keys qs)) ->
     exists V N, V <> [] /\
       (forall fuel, (N <= fuel)%nat ->
          constrained_permutations loop_ltb fuel lpfs
            [positions_valid []; positions_sizes_valid qs] = Ok V) /\
       (forall p, In p V <-> Permutation p lpfs /\
          forall pos d s, In (pos, (d, s)) qs -> loop_at p pos d s)).
Proof.
  intros Hfac qs ts P dims loops lim Hnd Hqs Hn Hne Hts HP Hlim. rewrite Hqs in HP.
  destruct (power_pins_with_limit factorint Hfac loops Hnd Hn ts Hts P dims lim Hne HP Hlim)
    as (st & lpfs & E & Hprod & _ & Hocc).
  rewrite <- Hqs in E, Hocc.
  exists st, lpfs. split; [exact E|]. intros Hpos Hdis.
  destruct (pins_placed qs lpfs Hocc Hpos Hdis) as (p0 & Hp0 & Hat0).
  assert (Hlne : lpfs <> []).
  { intros ->. destruct loops as [|[d n] loops]; [congruence|]. specialize (Hprod d).
    assert (Hi : In (d, n) ((d, n) :: loops)) by now left.
    unfold size_or_1 in Hprod. rewrite (In_dget d n _ Hnd Hi) in Hprod.
    apply Hn in Hi. cbn in Hprod. lia. }
  destruct (constrained_ok lpfs [] qs Hlne) as (V & keep & _ & Hc & Hperm & Hkeep).
  { intros pos d []. }
  { intros pos d s Hi. exact (Hpos pos (d, s) Hi). }
  assert (Hiff : forall p, In p (filter keep V) <-> Permutation p lpfs /\
          forall pos d s, In (pos, (d, s)) qs -> loop_at p pos d s).
  { intros p. rewrite filter_In. split.
    - intros (Hi & Hk). split; [now apply Hperm|]. now apply (Hkeep p Hi).
    - intros (Hp & Hat). apply Hperm in Hp. split; [exact Hp|]. apply (Hkeep p Hp).
      split; [intros pos d []|exact Hat]. }
  exists (filter keep V), (length V). split; [|split; [exact Hc|exact Hiff]].
  intros Enil. assert (Hi : In p0 (filter keep V)) by (apply Hiff; now split).
  rewrite Enil in Hi. destruct Hi.
Qed.
