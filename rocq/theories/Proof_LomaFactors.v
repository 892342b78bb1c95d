From Verif Require Import Base Model_Loma Spec_Loma Proof_LomaLoops.
From Coq Require Import Znumtheory.

(** * Weighted products *)

Definition wprod (fs cs : list Z) : Z :=
  zprod (map (fun fc => fst fc ^ snd fc) (combine fs cs)).

Definition nonneg (l : list Z) : Prop := forall c, In c l -> 0 <= c.
Definition ge2 (l : list Z) : Prop := forall c, In c l -> 2 <= c.
Definition ge1 (l : list Z) : Prop := forall c, In c l -> 1 <= c.

Lemma wprod_cons f c fs cs : wprod (f :: fs) (c :: cs) = f ^ c * wprod fs cs.
Proof. reflexivity. Qed.

Lemma length_add_at i delta l : length (add_at i delta l) = length l.
Proof. revert i; induction l as [|x l IH]; intros [|i]; cbn; auto. Qed.

Lemma wprod_add_1 : forall k fs cs f, length fs = length cs -> nonneg cs ->
  nth_error fs k = Some f ->
  wprod fs (add_at k 1 cs) = wprod fs cs * f /\
  zsum (add_at k 1 cs) = zsum cs + 1 /\ nonneg (add_at k 1 cs).
Proof.
  induction k as [|k IH]; intros [|f0 fs] [|c0 cs] f Hlen Hnn Hn;
    cbn [add_at nth_error length] in *; try discriminate.
  - injection Hn as ->. rewrite !wprod_cons, !zsum_cons. repeat split.
    + rewrite Z.pow_add_r; [|apply Hnn; now left|lia]. rewrite Z.pow_1_r. ring.
    + lia.
    + intros c [<-|Hc]; [|apply Hnn; now right].
      assert (0 <= c0) by (apply Hnn; now left). lia.
  - destruct (IH fs cs f) as (H1 & H2 & H3); [lia| |exact Hn|].
    { intros c Hc. apply Hnn. now right. }
    rewrite !wprod_cons, !zsum_cons, H1, H2. repeat split; [ring|lia|].
    intros c [<-|Hc]; [apply Hnn; now left|now apply H3].
Qed.

Lemma wprod_insert : forall k fs cs f, length fs = length cs -> nonneg cs ->
  (k <= length fs)%nat ->
  wprod (insert_at k f fs) (insert_at k 1 cs) = wprod fs cs * f /\
  zsum (insert_at k 1 cs) = zsum cs + 1 /\ nonneg (insert_at k 1 cs) /\
  length (insert_at k f fs) = length (insert_at k 1 cs).
Proof.
  induction k as [|k IH]; intros fs cs f Hlen Hnn Hk; cbn [insert_at].
  - rewrite wprod_cons, zsum_cons, Z.pow_1_r. repeat split; [ring|lia| |cbn; lia].
    intros c [<-|Hc]; [lia|now apply Hnn].
  - destruct fs as [|f0 fs], cs as [|c0 cs]; cbn in Hlen, Hk; try lia.
    destruct (IH fs cs f) as (H1 & H2 & H3 & H4); [lia| |lia|].
    { intros c Hc. apply Hnn. now right. }
    rewrite !wprod_cons, !zsum_cons, H1, H2. repeat split; [ring|lia| |cbn; lia].
    intros c [<-|Hc]; [apply Hnn; now left|now apply H3].
Qed.

Lemma in_insert_at {A} k (x y : A) l : In y (insert_at k x l) -> y = x \/ In y l.
Proof.
  revert l; induction k as [|k IH]; intros l; cbn [insert_at].
  - intros [E|Hin]; auto.
  - destruct l as [|z l]; cbn; [intros [E|[]]; auto|].
    intros [E|Hin]; [auto|]. destruct (IH l Hin); auto.
Qed.

Lemma filter_nonzero fs cs : length fs = length cs -> nonneg cs ->
  let keep := filter (fun fc => negb (snd fc =? 0)) (combine fs cs) in
  wprod (map fst keep) (map snd keep) = wprod fs cs /\
  zsum (map snd keep) = zsum cs /\
  length (map fst keep) = length (map snd keep) /\
  ge1 (map snd keep) /\
  (forall f, In f (map fst keep) -> In f fs).
Proof.
  cbn zeta. revert cs; induction fs as [|f fs IH]; intros [|c cs] Hlen Hnn; cbn in Hlen; try lia.
  - cbn. repeat split; auto. intros x [].
  - cbn [combine filter snd].
    destruct (IH cs) as (H1 & H2 & H3 & H4 & H5); [lia| |].
    { intros x Hx. apply Hnn. now right. }
    assert (Hc : 0 <= c) by (apply Hnn; now left).
    destruct (Z.eqb_spec c 0) as [->|Hne]; cbn [negb].
    + rewrite wprod_cons, zsum_cons, H1, H2. repeat split; auto; [ring|].
      intros x Hx. right. now apply H5.
    + cbn [map fst snd]. rewrite !wprod_cons, !zsum_cons, H1, H2. repeat split; auto.
      * cbn [length]. now rewrite H3.
      * intros x [<-|Hx]; [lia|now apply H4].
      * intros x [<-|Hx]; [now left|]. right. now apply H5.
Qed.

Lemma index_of_nth {A} `{EqB A} (x : A) l k : index_of x l = Some k -> nth_error l k = Some x.
Proof.
  revert k; induction l as [|y l IH]; intros k; cbn; [discriminate|].
  destruct (eqb_spec x y) as [->|Hne]; [intros E; injection E as <-; reflexivity|].
  destruct (index_of x l) as [k'|]; cbn; [|discriminate].
  intros E; injection E as <-. cbn. now apply IH.
Qed.

(** Without pinned loops the two positions are (0,0) or (0,1). *)
Lemma find_smallest_nil fs cs : length fs = length cs -> ge1 cs -> 2 <= zsum cs ->
  (exists f c fs' cs', fs = f :: fs' /\ cs = c :: cs' /\ 2 <= c /\
     find_smallest_non_static_pf [] "" fs cs = Ok (O, O)) \/
  (exists f f2 c2 fs' cs', fs = f :: f2 :: fs' /\ cs = 1 :: c2 :: cs' /\ 1 <= c2 /\
     find_smallest_non_static_pf [] "" fs cs = Ok (O, 1%nat)).
Proof.
  intros Hlen H1 H2. destruct fs as [|f fs], cs as [|c cs]; cbn in Hlen; try lia.
  - cbn in H2. lia.
  - assert (Hc : 1 <= c) by (apply H1; now left).
    destruct (Z_le_gt_dec 2 c) as [Hc2|Hc2].
    + left. exists f, c, fs, cs. repeat split; auto.
      cbn [find_smallest_non_static_pf find_smallest_from filter map memb existsb negb orb count].
      unfold find_smallest_non_static_pf. cbn.
      destruct (Z.ltb_spec 1 c); [reflexivity|lia].
    + right. assert (c = 1) by lia. subst c. rewrite zsum_cons in H2.
      destruct fs as [|f2 fs], cs as [|c2 cs]; cbn in Hlen; try lia.
      * cbn in H2. lia.
      * exists f, f2, c2, fs, cs. repeat split; auto. apply H1. right. now left.
Qed.

Lemma find_smallest_static_nil d fs cs :
  find_smallest_non_static_pf [] d fs cs = find_smallest_non_static_pf [] "" fs cs.
Proof. reflexivity. Qed.

Lemma merge_bump fs cs new : length fs = length cs -> nonneg cs -> ge2 fs -> 2 <= new ->
  let '(fs2, cs2) :=
    match index_of new fs with
    | Some k => (fs, add_at k 1 cs)
    | None =>
        let k := length (filter (fun f => f <? new) fs) in
        (insert_at k new fs, insert_at k 1 cs)
    end in
  wprod fs2 cs2 = wprod fs cs * new /\ zsum cs2 = zsum cs + 1 /\ nonneg cs2 /\
  length fs2 = length cs2 /\ ge2 fs2.
Proof.
  intros Hlen Hnn Hge Hnew. destruct (index_of new fs) as [k|] eqn:E.
  - apply index_of_nth in E.
    destruct (wprod_add_1 k fs cs new Hlen Hnn E) as (H1 & H2 & H3).
    repeat split; auto. now rewrite length_add_at.
  - cbn zeta.
    destruct (wprod_insert (length (filter (fun f => f <? new) fs)) fs cs new)
      as (H1 & H2 & H3 & H4); auto.
    { clear. induction fs as [|x fs IH]; cbn; [lia|]. destruct (x <? new); cbn; lia. }
    repeat split; auto. intros f Hf. apply in_insert_at in Hf.
    destruct Hf as [->|Hf]; [exact Hnew|now apply Hge].
Qed.

Lemma merge_ok fs cs : length fs = length cs -> ge1 cs -> ge2 fs -> 2 <= zsum cs ->
  exists ij fs' cs',
    find_smallest_non_static_pf [] "" fs cs = Ok ij /\
    merge_factors fs cs (fst ij) (snd ij) = Ok (fs', cs') /\
    length fs' = length cs' /\ ge1 cs' /\ ge2 fs' /\
    zsum cs' = zsum cs - 1 /\ wprod fs' cs' = wprod fs cs.
Proof.
  intros Hlen H1 H2 Hs.
  assert (Hcore : forall i j fi fj, nth_error fs i = Some fi -> nth_error fs j = Some fj ->
    let cs1 := add_at j (-1) (add_at i (-1) cs) in
    nonneg cs1 -> zsum cs1 = zsum cs - 2 -> wprod fs cs = wprod fs cs1 * (fi * fj) ->
    exists fs' cs', merge_factors fs cs i j = Ok (fs', cs') /\
      length fs' = length cs' /\ ge1 cs' /\ ge2 fs' /\
      zsum cs' = zsum cs - 1 /\ wprod fs' cs' = wprod fs cs).
  { intros i j fi fj Ei Ej cs1 Hnn Hsum Hprod. unfold merge_factors.
    rewrite Ei, Ej. cbn [rbind of_option]. fold cs1.
    assert (Hlen1 : length fs = length cs1)
      by (unfold cs1; now rewrite !length_add_at).
    assert (Hnew : 2 <= fi * fj).
    { apply nth_error_In in Ei, Ej. apply H2 in Ei, Ej. nia. }
    pose proof (merge_bump fs cs1 (fi * fj) Hlen1 Hnn H2 Hnew) as Hb.
    destruct (match index_of (fi * fj) fs with
              | Some k => (fs, add_at k 1 cs1)
              | None => _ end) as [fs2 cs2].
    destruct Hb as (B1 & B2 & B3 & B4 & B5).
    destruct (filter_nonzero fs2 cs2 B4 B3) as (F1 & F2 & F3 & F4 & F5).
    do 2 eexists. split; [reflexivity|]. repeat split; auto.
    - intros f Hf. apply B5. now apply F5.
    - lia.
    - rewrite F1, B1. lia. }
  destruct (find_smallest_nil fs cs Hlen H1 Hs)
    as [(f & c & fs' & cs' & Ef & Ec & Hc & E)|(f & f2 & c2 & fs' & cs' & Ef & Ec & Hc & E)].
  - exists (O, O). cbn [fst snd].
    destruct (Hcore O O f f) as (fs2 & cs2 & HH); subst fs cs; try reflexivity.
    + intros x. cbn. intros [<-|Hx]; [lia|]. assert (1 <= x) by (apply H1; now right). lia.
    + cbn [add_at]. rewrite !zsum_cons. lia.
    + cbn [add_at]. rewrite !wprod_cons.
      replace c with ((c + -1 + -1) + 2) at 1 by lia.
      rewrite Z.pow_add_r by lia. ring.
    + exists fs2, cs2. tauto.
  - exists (O, 1%nat). cbn [fst snd].
    destruct (Hcore O 1%nat f f2) as (fs2 & cs2 & HH); subst fs cs; try reflexivity.
    + intros x. cbn. intros [<-|[<-|Hx]]; [lia|lia|].
      assert (1 <= x) by (apply H1; right; now right). lia.
    + cbn [add_at]. rewrite !zsum_cons. lia.
    + cbn [add_at]. rewrite !wprod_cons.
      replace c2 with ((c2 + -1) + 1) at 1 by lia.
      rewrite (Z.pow_add_r f2) by lia. cbn [Z.add]. 
      change (1 + -1) with 0. rewrite Z.pow_0_r, !Z.pow_1_r. ring.
    + exists fs2, cs2. tauto.
Qed.

(** * argmax *)

Lemma argmax_from_spec d : forall best,
  (argmax_from best d = best \/ In (argmax_from best d) d) /\
  snd best <= snd (argmax_from best d) /\
  (forall kv, In kv d -> snd kv <= snd (argmax_from best d)).
Proof.
  induction d as [|kv d IH]; intros best; cbn [argmax_from].
  - repeat split; [now left|lia|]. intros kv [].
  - set (b := if snd best <? snd kv then kv else best).
    destruct (IH b) as (H1 & H2 & H3).
    assert (Hb : snd best <= snd b /\ snd kv <= snd b).
    { unfold b. destruct (Z.ltb_spec (snd best) (snd kv)); lia. }
    repeat split.
    + destruct H1 as [H1|H1]; [|right; now right]. rewrite H1. unfold b.
      destruct (snd best <? snd kv); [right; now left|now left].
    + lia.
    + intros kv' [<-|Hin]; [lia|now apply H3].
Qed.

Lemma argmax_ok d : d <> [] -> NoDup (keys d) ->
  exists k v, argmax d = Ok k /\ dget k d = Some v /\
    (forall kv, In kv d -> snd kv <= v).
Proof.
  intros Hne Hnd. destruct d as [|kv d]; [congruence|]. cbn [argmax].
  destruct (argmax_from_spec d kv) as (H1 & H2 & H3).
  exists (fst (argmax_from kv d)), (snd (argmax_from kv d)). repeat split.
  - apply In_dget; [exact Hnd|]. rewrite <- surjective_pairing.
    destruct H1 as [->|H1]; [now left|now right].
  - intros kv' [<-|Hin]; [exact H2|now apply H3].
Qed.

Lemma zsum_le_const (l : list Z) c : (forall x, In x l -> x <= c) ->
  zsum l <= c * Z.of_nat (length l).
Proof.
  induction l as [|x l IH]; intros Hl; [cbn; lia|].
  rewrite zsum_cons. cbn [length]. assert (x <= c) by (apply Hl; now left).
  assert (zsum l <= c * Z.of_nat (length l)) by (apply IH; intros y Hy; apply Hl; now right).
  lia.
Qed.

Lemma zsum_values_dset (d : dict string Z) k v v0 :
  dget k d = Some v0 -> zsum (values (dset k v d)) = zsum (values d) - v0 + v.
Proof.
  induction d as [|[k1 v1] d IH]; cbn [dget dset]; [discriminate|].
  destruct (eqb_spec k k1) as [->|Hne]; intros E.
  - injection E as ->. cbn [values map snd]. rewrite !zsum_cons. fold (values d). lia.
  - cbn [values map snd]. rewrite !zsum_cons. fold (values d).
    fold (values (dset k v d)). rewrite (IH E). lia.
Qed.

(** * The invariant *)

Definition dim_ok (st : factors) (d : string) (n : Z) : Prop :=
  exists fs cs,
    dget d (pfs st) = Some fs /\ dget d (pf_counts st) = Some cs /\
    dget d (pf_count_sums st) = Some (zsum cs) /\
    length fs = length cs /\ ge1 cs /\ ge2 fs /\ 1 <= zsum cs /\ wprod fs cs = n.

Definition FInv (loops : dict string Z) (st : factors) : Prop :=
  NoDup (keys loops) /\ keys (pfs st) = keys loops /\
  keys (pf_counts st) = keys loops /\ keys (pf_count_sums st) = keys loops /\
  forall d n, In (d, n) loops -> dim_ok st d n.

Lemma limit_step_ok loops st lim :
  FInv loops st -> Z.of_nat (length loops) <= lim ->
  lim < zsum (values (pf_count_sums st)) ->
  exists st', limit_step [] st = Ok st' /\ FInv loops st' /\
    zsum (values (pf_count_sums st')) = zsum (values (pf_count_sums st)) - 1.
Proof.
  intros (Hnd & K1 & K2 & K3 & Hdim) Hlim Hbig.
  assert (Hne : pf_count_sums st <> []).
  { intros E. rewrite E in Hbig. cbn in Hbig. lia. }
  destruct (argmax_ok (pf_count_sums st) Hne) as (k & v & Ek & Eg & Hmax).
  { now rewrite K3. }
  assert (Hv : 2 <= v).
  { destruct (Z_le_gt_dec 2 v) as [|Hv]; [assumption|]. exfalso.
    assert (Hle : zsum (values (pf_count_sums st))
                  <= 1 * Z.of_nat (length (values (pf_count_sums st)))).
    { apply zsum_le_const. intros x Hx. unfold values in Hx. apply in_map_iff in Hx.
      destruct Hx as (kv & <- & Hx). apply Hmax in Hx. lia. }
    assert (El : length (values (pf_count_sums st)) = length loops).
    { unfold values. rewrite map_length, <- (map_length fst). fold (keys (pf_count_sums st)).
      rewrite K3. unfold keys. now rewrite map_length. }
    rewrite El in Hle. lia. }
  assert (Hin : In k (keys loops)).
  { rewrite <- K3. now apply dget_Some_key in Eg. }
  destruct (key_dget k loops Hin) as (n & En).
  assert (Hkn : In (k, n) loops) by now apply dget_In.
  destruct (Hdim k n Hkn) as (fs & cs & Gf & Gc & Gs & Hlen & H1 & H2 & Hs1 & Hw).
  rewrite Gs in Eg. injection Eg as <-.
  destruct (merge_ok fs cs Hlen H1 H2 Hv)
    as (ij & fs' & cs' & Efind & Emerge & Hlen' & H1' & H2' & Hsum' & Hw').
  unfold limit_step. rewrite Ek. cbn [rbind]. unfold dgetr. rewrite Gf, Gc, Gs.
  cbn [rbind of_option]. rewrite find_smallest_static_nil, Efind. cbn [rbind].
  rewrite Emerge. cbn [rbind fst snd].
  eexists. split; [reflexivity|]. split.
  - repeat split; cbn [pfs pf_counts pf_count_sums]; auto.
    + rewrite keys_dset_in; [exact K1|now rewrite K1].
    + rewrite keys_dset_in; [exact K2|now rewrite K2].
    + rewrite keys_dset_in; [exact K3|now rewrite K3].
    + intros d m Hdm. destruct (eqb_spec d k) as [->|Hdk].
      * assert (m = n).
        { apply (In_dget k m loops Hnd) in Hdm. congruence. }
        subst m. exists fs', cs'. cbn [pfs pf_counts pf_count_sums].
        rewrite !dget_dset_eq. replace (zsum cs - 1) with (zsum cs') by lia.
        repeat split; auto; [lia|]. now rewrite Hw'.
      * destruct (Hdim d m Hdm) as (fs0 & cs0 & Hrest).
        exists fs0, cs0. cbn [pfs pf_counts pf_count_sums].
        now rewrite !dget_dset_neq by assumption.
  - cbn [pf_count_sums]. rewrite (zsum_values_dset _ _ _ (zsum cs)) by exact Gs. lia.
Qed.

Lemma limit_iter_ok loops lim : forall k st,
  FInv loops st -> Z.of_nat (length loops) <= lim ->
  zsum (values (pf_count_sums st)) = lim + Z.of_nat k ->
  exists st', limit_iter [] k st = Ok st' /\ FInv loops st' /\
    zsum (values (pf_count_sums st')) = lim.
Proof.
  induction k as [|k IH]; intros st Hinv Hlim Hn; cbn [limit_iter].
  - exists st. repeat split; try apply Hinv. lia.
  - destruct (limit_step_ok loops st lim Hinv Hlim) as (st1 & E1 & Hinv1 & Hn1); [lia|].
    rewrite E1. cbn [rbind]. apply IH; auto. lia.
Qed.

(** * Rebuilding the loop list *)

Lemma map_repeat {A B} (f : A -> B) x n : map f (repeat x n) = repeat (f x) n.
Proof. induction n as [|n IH]; cbn; [reflexivity|now rewrite IH]. Qed.

Lemma expand_product d fs cs : nonneg cs ->
  zprod (map snd (expand d fs cs)) = wprod fs cs.
Proof.
  revert cs; induction fs as [|f fs IH]; intros [|c cs] Hnn; try reflexivity.
  unfold expand. cbn [combine flat_map fst snd]. rewrite map_app, zprod_app.
  fold (expand d fs cs). rewrite IH, wprod_cons.
  - f_equal. rewrite map_repeat. cbn [snd]. rewrite zprod_repeat. f_equal.
    assert (0 <= c) by (apply Hnn; now left). lia.
  - intros x Hx. apply Hnn. now right.
Qed.

Lemma expand_dim d fs cs x : In x (expand d fs cs) -> fst x = d /\ In (snd x) fs.
Proof.
  unfold expand. rewrite in_flat_map. intros ([f c] & Hin & Hr).
  apply repeat_spec in Hr. subst x. cbn. split; [reflexivity|].
  now apply in_combine_l in Hin.
Qed.

Lemma expand_length d fs cs : length fs = length cs -> nonneg cs ->
  Z.of_nat (length (expand d fs cs)) = zsum cs.
Proof.
  revert cs; induction fs as [|f fs IH]; intros [|c cs] Hlen Hnn; cbn in Hlen; try lia.
  - reflexivity.
  - unfold expand. cbn [combine flat_map fst snd]. rewrite app_length, repeat_length.
    fold (expand d fs cs). rewrite zsum_cons, Nat2Z.inj_add, IH.
    + assert (0 <= c) by (apply Hnn; now left). lia.
    + lia.
    + intros x Hx. apply Hnn. now right.
Qed.

Lemma filter_dim_all (d : string) (l : list loop) :
  (forall x, In x l -> fst x = d) -> filter (fun x => eqb (fst x) d) l = l.
Proof.
  induction l as [|x l IH]; intros Hl; [reflexivity|]. cbn [filter].
  rewrite (Hl x) by now left. rewrite eqb_refl. f_equal. apply IH.
  intros y Hy. apply Hl. now right.
Qed.

Lemma filter_dim_none (d d' : string) (l : list loop) : d' <> d ->
  (forall x, In x l -> fst x = d') -> filter (fun x => eqb (fst x) d) l = [].
Proof.
  intros Hne. induction l as [|x l IH]; intros Hl; [reflexivity|]. cbn [filter].
  rewrite (Hl x) by now left. rewrite (eqb_neq _ _ Hne). apply IH.
  intros y Hy. apply Hl. now right.
Qed.

Lemma loop_product_app d l1 l2 :
  loop_product d (l1 ++ l2) = loop_product d l1 * loop_product d l2.
Proof. unfold loop_product. now rewrite filter_app, map_app, zprod_app. Qed.

Lemma loop_product_expand d fs cs : nonneg cs ->
  loop_product d (expand d fs cs) = wprod fs cs.
Proof.
  intros Hnn. unfold loop_product.
  rewrite filter_dim_all by (intros x Hx; apply expand_dim in Hx; tauto).
  now apply expand_product.
Qed.

Lemma loop_product_expand_other d d' fs cs : d <> d' ->
  loop_product d' (expand d fs cs) = 1.
Proof.
  intros Hne. unfold loop_product.
  rewrite (filter_dim_none d' d); [reflexivity|exact Hne|].
  intros x Hx; apply expand_dim in Hx; tauto.
Qed.

(** General shape of [rebuild_lpfs]. *)
Lemma rebuild_aux (counts : dict string (list Z)) (sums : dict string Z)
    (fsd : dict string (list Z)) :
  NoDup (keys fsd) ->
  (forall d fs, In (d, fs) fsd -> exists cs, dget d counts = Some cs /\
     dget d sums = Some (zsum cs) /\ length fs = length cs /\ nonneg cs) ->
  exists ls,
    rmap (fun kv => rbind (dgetr (fst kv) counts)
                     (fun cs => Ok (expand (fst kv) (snd kv) cs))) fsd = Ok ls /\
    (forall d, ~ In d (keys fsd) -> loop_product d (concat ls) = 1) /\
    (forall d fs cs, In (d, fs) fsd -> dget d counts = Some cs ->
       loop_product d (concat ls) = wprod fs cs) /\
    (forall x, In x (concat ls) -> exists fs, In (fst x, fs) fsd /\ In (snd x) fs) /\
    Z.of_nat (length (concat ls)) =
      zsum (map (fun kv => match dget (fst kv) sums with Some v => v | None => 0 end) fsd) /\
    (forall d fs cs, In (d, fs) fsd -> dget d counts = Some cs -> 1 <= zsum cs ->
       exists f, In (d, f) (concat ls)).
Proof.
  induction fsd as [|[d fs] fsd IH]; intros Hnd Hfs.
  - exists []. repeat split; auto; try (intros; contradiction).
  - inversion Hnd as [|a l Hni Hnd']; subst.
    destruct (Hfs d fs) as (cs & Gc & Gs & Hlen & Hnn); [now left|].
    destruct IH as (ls & E & P0 & P1 & P2 & P3 & P4); [assumption| |].
    { intros d' fs' Hin. apply Hfs. now right. }
    exists (expand d fs cs :: ls). cbn [rmap fst snd].
    unfold dgetr at 1. rewrite Gc. cbn [of_option rbind]. rewrite E.
    assert (Hothers : forall x, In x (concat ls) -> fst x <> d).
    { intros x Hx Ex. destruct (P2 x Hx) as (fs' & Hin & _). apply Hni.
      rewrite <- Ex. change (fst x) with (fst (fst x, fs')). now apply in_map. }
    assert (Hd : loop_product d (concat ls) = 1).
    { apply P0. exact Hni. }
    repeat split.
    + intros d' Hn. cbn [concat]. rewrite loop_product_app.
      rewrite loop_product_expand_other by (intros ->; apply Hn; now left).
      rewrite P0; [reflexivity|]. intros Hi. apply Hn. now right.
    + intros d' fs' cs' [Ein|Hin] Gc'; cbn [concat]; rewrite loop_product_app.
      * injection Ein as <- <-. rewrite Gc in Gc'. injection Gc' as <-.
        rewrite Hd, loop_product_expand by assumption. ring.
      * assert (Hdd : d <> d').
        { intros ->. apply Hni. change d' with (fst (d', fs')). now apply in_map. }
        rewrite (P1 _ _ _ Hin Gc'), loop_product_expand_other by assumption. ring.
    + intros x Hx. cbn [concat] in Hx. apply in_app_iff in Hx.
      destruct Hx as [Hx|Hx].
      * apply expand_dim in Hx. destruct Hx as [Ex Hx]. exists fs.
        split; [left; now rewrite Ex|exact Hx].
      * destruct (P2 x Hx) as (fs' & Hin & Hf). exists fs'. split; [now right|exact Hf].
    + cbn [concat map fst]. rewrite app_length, Nat2Z.inj_add, zsum_cons, P3, Gs.
      rewrite expand_length by assumption. reflexivity.
    + intros d' fs' cs' [Ein|Hin] Gc' Hpos.
      * injection Ein as <- <-. rewrite Gc in Gc'. injection Gc' as <-.
        pose proof (expand_length d fs cs Hlen Hnn) as Hl.
        destruct (expand d fs cs) as [|[d1 f1] rest] eqn:Ee; [cbn in Hl; lia|].
        assert (Hx : In (d1, f1) (expand d fs cs)) by (rewrite Ee; now left).
        apply expand_dim in Hx. cbn in Hx. destruct Hx as [-> _].
        exists f1. cbn [concat]. apply in_app_iff. left. now left.
      * destruct (P4 d' fs' cs' Hin Gc' Hpos) as (f & Hf). exists f.
        cbn [concat]. apply in_app_iff. now right.
Qed.

Lemma map_keys_sum (sums : dict string Z) (ks : list string) :
  NoDup (keys sums) -> ks = keys sums ->
  map (fun k => match dget k sums with Some v => v | None => 0 end) ks = values sums.
Proof.
  intros Hnd ->. unfold keys, values. rewrite map_map. apply map_ext_in.
  intros [k v] Hin. cbn. now rewrite (In_dget k v sums Hnd Hin).
Qed.

Lemma rebuild_ok loops st : FInv loops st ->
  exists lpfs, rebuild_lpfs st = Ok lpfs /\
    (forall d, loop_product d lpfs = size_or_1 d loops) /\
    Z.of_nat (length lpfs) = zsum (values (pf_count_sums st)) /\
    (forall d f, In (d, f) lpfs -> 2 <= f /\ In d (keys loops)) /\
    (forall d, In d (keys loops) -> exists f, In (d, f) lpfs).
Proof.
  intros (Hnd & K1 & K2 & K3 & Hdim).
  assert (Hpfs : forall d fs, In (d, fs) (pfs st) -> exists cs,
     dget d (pf_counts st) = Some cs /\ dget d (pf_count_sums st) = Some (zsum cs) /\
     length fs = length cs /\ nonneg cs /\ ge2 fs /\ 1 <= zsum cs /\
     dget d loops = Some (wprod fs cs)).
  { intros d fs Hin.
    assert (Hk : In d (keys loops)).
    { rewrite <- K1. change d with (fst (d, fs)). now apply in_map. }
    destruct (key_dget d loops Hk) as (n & En).
    destruct (Hdim d n) as (fs' & cs & Gf & Gc & Gs & Hlen & H1 & H2 & H3 & Hw);
      [now apply dget_In|].
    assert (fs' = fs).
    { apply (In_dget d fs (pfs st)) in Hin; [congruence|now rewrite K1]. }
    subst fs'. exists cs. repeat split; auto.
    - intros c Hc. apply H1 in Hc. lia.
    - now rewrite Hw. }
  destruct (rebuild_aux (pf_counts st) (pf_count_sums st) (pfs st))
    as (ls & E & P0 & P1 & P2 & P3 & P4).
  { now rewrite K1. }
  { intros d fs Hin. destruct (Hpfs d fs Hin) as (cs & Hr). exists cs. tauto. }
  exists (concat ls). unfold rebuild_lpfs. rewrite E. cbn [rbind]. repeat split.
  - intros d. unfold size_or_1. destruct (dget d loops) as [n|] eqn:En.
    + assert (Hk : In d (keys (pfs st))).
      { rewrite K1. now apply dget_Some_key in En. }
      destruct (key_dget d _ Hk) as (fs & Gf). apply dget_In in Gf.
      destruct (Hpfs d fs Gf) as (cs & Gc & _ & _ & _ & _ & _ & Gl).
      rewrite (P1 d fs cs Gf Gc). congruence.
    + apply P0. rewrite K1. now apply dget_None.
  - rewrite P3. f_equal.
    rewrite <- (map_keys_sum (pf_count_sums st) (keys (pfs st))).
    + unfold keys. now rewrite map_map.
    + now rewrite K3.
    + now rewrite K1, K3.
  - destruct (P2 (d, f) H) as (fs & Hin & Hf). cbn in Hin, Hf.
    destruct (Hpfs d fs Hin) as (cs & Hr). apply (proj1 (proj2 (proj2 (proj2 (proj2 Hr))))). exact Hf.
  - destruct (P2 (d, f) H) as (fs & Hin & _). rewrite <- K1.
    change d with (fst (d, fs)). now apply in_map.
  - intros d Hk. rewrite <- K1 in Hk. destruct (key_dget d _ Hk) as (fs & Gf).
    apply dget_In in Gf. destruct (Hpfs d fs Gf) as (cs & Gc & _ & _ & _ & _ & Hpos & _).
    now apply (P4 d fs cs).
Qed.

(** * The initial state *)

Lemma combine_fst_snd {A B} (l : list (A * B)) : combine (map fst l) (map snd l) = l.
Proof. induction l as [|[a b] l IH]; cbn; [reflexivity|now rewrite IH]. Qed.

Lemma dget_map {V W} (f : string * V -> W) (d : dict string V) k :
  dget k (map (fun kv => (fst kv, f kv)) d) =
  match find (fun kv => eqb k (fst kv)) d with Some kv => Some (f kv) | None => None end.
Proof.
  induction d as [|[k1 v1] d IH]; cbn; [reflexivity|].
  destruct (String.eqb k k1); [reflexivity|exact IH].
Qed.

Lemma find_key {V} (d : dict string V) k v : NoDup (keys d) -> In (k, v) d ->
  find (fun kv => eqb k (fst kv)) d = Some (k, v).
Proof.
  induction d as [|[k1 v1] d IH]; intros Hnd Hin; [destruct Hin|].
  inversion Hnd as [|a l Hni Hnd']; subst. cbn [find fst].
  destruct (eqb_spec k k1) as [->|Hne].
  - destruct Hin as [E|Hin]; [now rewrite E|]. exfalso. apply Hni.
    change k1 with (fst (k1, v)). now apply in_map.
  - destruct Hin as [E|Hin]; [congruence|]. now apply IH.
Qed.

Section Init.
  Variable factorint : Z -> list (Z * Z).
  Hypothesis Hfac : factorint_ok factorint.

  Lemma initial_inv loops : NoDup (keys loops) -> (forall d n, In (d, n) loops -> 1 < n) ->
    FInv loops (initial_factors factorint loops).
  Proof.
    intros Hnd Hn. unfold FInv, initial_factors; cbn [pfs pf_counts pf_count_sums].
    split; [exact Hnd|].
    repeat split; try (unfold keys; rewrite map_map; reflexivity).
    intros d n Hin. unfold dim_ok; cbn [pfs pf_counts pf_count_sums].
    specialize (Hn d n Hin). destruct (Hfac n ltac:(lia)) as (F1 & F2 & F3).
    exists (map fst (factorint n)), (map snd (factorint n)).
    rewrite !(dget_map (fun kv => _)), !(find_key loops d n) by assumption.
    cbn [snd]. repeat split; auto.
    - now rewrite !map_length.
    - intros c Hc. apply in_map_iff in Hc. destruct Hc as ([p m] & <- & Hc).
      now apply F1 in Hc.
    - intros f Hf. apply in_map_iff in Hf. destruct Hf as ([p m] & <- & Hf).
      apply F1 in Hf. destruct Hf as [Hp _]. cbn. now apply prime_ge_2.
    - destruct (factorint n) as [|[p m] l] eqn:E.
      + cbn in F3. lia.
      + cbn [map snd]. rewrite zsum_cons. destruct (F1 p m) as [_ Hm]; [now left|].
        assert (Hl : forall x, In x (map snd l) -> 1 <= x).
        { intros x Hx. apply in_map_iff in Hx. destruct Hx as ([p' m'] & <- & Hx).
          apply (F1 p' m'). now right. }
        revert Hl. generalize (map snd l) as l0. clear -Hm.
        induction l0 as [|y l0 IH]; intros Hl; [cbn; lia|].
        rewrite zsum_cons. assert (1 <= y) by (apply Hl; now left).
        assert (1 <= m + zsum l0) by (apply IH; intros z Hz; apply Hl; now right). lia.
    - unfold wprod. now rewrite combine_fst_snd.
  Qed.

  Lemma rebuild_initial loops : NoDup (keys loops) ->
    rebuild_lpfs (initial_factors factorint loops) = Ok (initial_lpfs factorint loops).
  Proof.
    intros Hnd. unfold rebuild_lpfs, initial_factors; cbn [pfs pf_counts].
    assert (Hgen : forall l, (forall kv, In kv l -> In kv loops) ->
      rmap (fun kv => rbind (dgetr (fst kv) (map (fun kv => (fst kv, map snd (factorint (snd kv)))) loops))
              (fun cs => Ok (expand (fst kv) (snd kv) cs)))
        (map (fun kv => (fst kv, map fst (factorint (snd kv)))) l)
      = Ok (map (fun kv => flat_map (fun pm => repeat (fst kv, fst pm) (Z.to_nat (snd pm)))
                                    (factorint (snd kv))) l)).
    { induction l as [|[d n] l IH]; intros Hl; [reflexivity|].
      cbn [map rmap fst snd]. unfold dgetr at 1.
      rewrite (dget_map (fun kv => _)), (find_key loops d n Hnd) by (apply Hl; now left).
      cbn [of_option rbind snd]. rewrite IH by (intros kv Hkv; apply Hl; now right).
      unfold expand. now rewrite combine_fst_snd. }
    rewrite Hgen by auto. cbn [rbind]. unfold initial_lpfs. now rewrite flat_map_concat_map.
  Qed.

  Lemma initial_lpfs_nonempty loops : NoDup (keys loops) ->
    (forall d n, In (d, n) loops -> 1 < n) -> loops <> [] ->
    initial_lpfs factorint loops <> [].
  Proof.
    intros Hnd Hn Hne E.
    destruct (rebuild_ok loops _ (initial_inv loops Hnd Hn)) as (l & El & _ & _ & _ & Hex).
    rewrite rebuild_initial in El by assumption. injection El as <-.
    destruct loops as [|[d n] loops]; [congruence|].
    destruct (Hex d) as (f & Hf); [now left|]. rewrite E in Hf. destruct Hf.
  Qed.

  Lemma with_dummy_some dims loops : NoDup (keys loops) ->
    (forall d n, In (d, n) loops -> 1 < n) -> loops <> [] ->
    with_dummy factorint dims loops =
    Ok (initial_factors factorint loops, initial_lpfs factorint loops).
  Proof.
    intros Hnd Hn Hne. unfold with_dummy.
    pose proof (initial_lpfs_nonempty loops Hnd Hn Hne) as Hi.
    destruct (initial_lpfs factorint loops); [congruence|reflexivity].
  Qed.

  Lemma with_dummy_none d dims :
    with_dummy factorint (d :: dims) [] =
    Ok (mkFactors [(d, [1])] [(d, [1])] [(d, 1)], [(d, 1)]).
  Proof. reflexivity. Qed.

  (** Every initial loop is prime. *)
  Lemma initial_prime loops : (forall d n, In (d, n) loops -> 1 < n) ->
    forall d f, In (d, f) (initial_lpfs factorint loops) -> prime f.
  Proof.
    intros Hn d f Hin. unfold initial_lpfs in Hin. apply in_flat_map in Hin.
    destruct Hin as ([d' n] & Hin & Hf). apply in_flat_map in Hf.
    destruct Hf as ([p m] & Hpm & Hr). apply repeat_spec in Hr. cbn in Hr, Hpm.
    injection Hr as -> ->. specialize (Hn d' n Hin).
    destruct (Hfac n ltac:(lia)) as (F1 & _). now apply F1 in Hpm.
  Qed.

  Lemma prime_factors_nolimit dims loops : NoDup (keys loops) ->
    (forall d n, In (d, n) loops -> 1 < n) -> loops <> [] ->
    exists st lpfs, get_prime_factors factorint None None dims loops = Ok (st, lpfs) /\
      (forall d, loop_product d lpfs = size_or_1 d loops) /\
      (forall d f, In (d, f) lpfs -> prime f /\ In d (keys loops)).
  Proof.
    intros Hnd Hn Hne. unfold get_prime_factors.
    rewrite with_dummy_some by assumption. cbn [rbind fst snd limit_lpfs].
    do 2 eexists. split; [reflexivity|].
    destruct (rebuild_ok loops _ (initial_inv loops Hnd Hn)) as (l & El & Hp & _ & Hd & _).
    rewrite rebuild_initial in El by assumption. injection El as <-.
    split; [exact Hp|]. intros d f Hin. split.
    - now apply (initial_prime loops Hn d).
    - now apply (Hd d f).
  Qed.

  Lemma prime_factors_limit dims loops lim : NoDup (keys loops) ->
    (forall d n, In (d, n) loops -> 1 < n) -> loops <> [] ->
    Z.of_nat (length loops) <= lim ->
    exists st lpfs, get_prime_factors factorint None (Some lim) dims loops = Ok (st, lpfs) /\
      (forall d, loop_product d lpfs = size_or_1 d loops) /\
      Z.of_nat (length lpfs) = Z.min lim (Z.of_nat (length (initial_lpfs factorint loops))) /\
      (forall d f, In (d, f) lpfs -> 2 <= f /\ In d (keys loops)) /\
      (forall d, In d (keys loops) -> exists f, In (d, f) lpfs).
  Proof.
    intros Hnd Hn Hne Hlim. unfold get_prime_factors.
    rewrite with_dummy_some by assumption. cbn [rbind fst snd limit_lpfs].
    pose proof (initial_inv loops Hnd Hn) as Hinv.
    destruct (rebuild_ok loops _ Hinv) as (l & El & Hp & Hlen & Hd & Hex).
    rewrite rebuild_initial in El by assumption. injection El as <-.
    set (st0 := initial_factors factorint loops) in *.
    destruct (Z.leb_spec (zsum (values (pf_count_sums st0))) lim) as [Hle|Hgt].
    - do 2 eexists. split; [reflexivity|]. repeat split; auto.
      + lia.
      + now apply (Hd d).
      + now apply (Hd d f).
    - destruct (limit_iter_ok loops lim
                  (Z.to_nat (zsum (values (pf_count_sums st0)) - lim)) st0 Hinv Hlim)
        as (st' & E' & Hinv' & Hn'); [lia|].
      rewrite E'. cbn [rbind].
      destruct (rebuild_ok loops _ Hinv') as (l' & El' & Hp' & Hlen' & Hd' & Hex').
      rewrite El'. cbn [rbind]. do 2 eexists. split; [reflexivity|]. repeat split; auto.
      + lia.
      + now apply (Hd' d).
      + now apply (Hd' d f).
  Qed.

  Lemma prime_factors_dummy d dims lim : (forall l, lim = Some l -> 1 <= l) ->
    exists st, get_prime_factors factorint None lim (d :: dims) [] = Ok (st, [(d, 1)]).
  Proof.
    intros Hl. unfold get_prime_factors. rewrite with_dummy_none. cbn [rbind fst snd].
    unfold limit_lpfs. cbn [rbind]. destruct lim as [l|]; [|now eexists].
    specialize (Hl l eq_refl). cbn [pf_count_sums values map snd].
    replace (zsum [1] <=? l) with true; [now eexists|]. symmetry. apply Z.leb_le. cbn. lia.
  Qed.
End Init.

(** * Trial division meets the contract *)

Lemma strip_spec fuel : forall p n, 2 <= p -> 1 <= n -> n < 2 ^ Z.of_nat fuel ->
  let '(m, r) := strip fuel p n in
  0 <= m /\ 1 <= r /\ n = p ^ m * r /\ ~ (p | r) /\ ((p | n) -> 1 <= m).
Proof.
  induction fuel as [|fuel IH]; intros p n Hp Hn Hf; cbn [strip].
  - cbn in Hf. lia.
  - destruct (Z.eqb_spec (n mod p) 0) as [E|E].
    + assert (Hdiv : n = p * (n / p)) by (apply Z_div_exact_full_2; lia).
      assert (Hq : 1 <= n / p) by nia.
      assert (Hlt : n / p < 2 ^ Z.of_nat fuel).
      { rewrite Nat2Z.inj_succ, Z.pow_succ_r in Hf by lia. nia. }
      specialize (IH p (n / p) Hp Hq Hlt). destruct (strip fuel p (n / p)) as [m r].
      destruct IH as (H1 & H2 & H3 & H4 & _). repeat split; auto; try lia.
      rewrite Z.pow_add_r, Z.pow_1_r by lia.
      rewrite Hdiv, H3 at 1. ring.
    + repeat split; try lia.
      * intros Hd. apply Z.mod_divide in Hd; lia.
      * intros Hd. apply Z.mod_divide in Hd; lia.
Qed.

Lemma pow2_gt n : 1 <= n -> n < 2 ^ n.
Proof.
  intros Hn. apply Z.pow_gt_lin_r; lia.
Qed.

Lemma prime_of_least p n : 2 <= p -> (p | n) ->
  (forall q, 2 <= q < p -> ~ (q | n)) -> prime p.
Proof.
  intros Hp Hd Hleast. apply prime_alt. split; [lia|].
  intros q Hq Hqp. apply (Hleast q); [lia|]. now apply Z.divide_trans with p.
Qed.

Lemma trial_spec fuel : forall p n, 2 <= p -> 1 <= n ->
  n <= p + Z.of_nat fuel - 1 ->
  (forall q, 2 <= q < p -> ~ (q | n)) ->
  (forall q m, In (q, m) (trial fuel p n) -> prime q /\ 1 <= m /\ p <= q) /\
  NoDup (map fst (trial fuel p n)) /\
  zprod (map (fun pm => fst pm ^ snd pm) (trial fuel p n)) = n.
Proof.
  induction fuel as [|fuel IH]; intros p n Hp Hn Hf Hleast; cbn [trial].
  - assert (n = 1).
    { destruct (Z.eq_dec n 1) as [|Hne]; [assumption|]. exfalso.
      apply (Hleast n); [lia|]. apply Z.divide_refl. }
    subst n. split; [intros q m []|split; [constructor|reflexivity]].
  - destruct (Z.leb_spec n 1) as [H1|H1].
    + assert (n = 1) by lia. subst n.
      split; [intros q m []|split; [constructor|reflexivity]].
    + destruct (Z.eqb_spec (n mod p) 0) as [E|E].
      * assert (Hd : (p | n)) by (apply Z.mod_divide; lia).
        assert (Hpn : p <= n) by (apply Z.divide_pos_le; [lia|exact Hd]).
        pose proof (strip_spec (Z.to_nat n) p n Hp Hn) as Hs.
        rewrite Z2Nat.id in Hs by lia. specialize (Hs (pow2_gt n Hn)).
        destruct (strip (Z.to_nat n) p n) as [m r].
        destruct Hs as (S1 & S2 & S3 & S4 & S5). specialize (S5 Hd).
        assert (Hrn : r <= n).
        { assert (1 <= p ^ m) by (pose proof (Z.pow_pos_nonneg p m); lia). nia. }
        destruct (IH (p + 1) r) as (I1 & I2 & I3); [lia|lia|lia| |].
        { intros q Hq Hqr. destruct (Z.eq_dec q p) as [->|Hne]; [contradiction|].
          apply (Hleast q); [lia|]. rewrite S3. now apply Z.divide_mul_r. }
        split; [|split].
        -- intros q m' [Eq|Hin].
           ++ injection Eq as <- <-. split; [now apply prime_of_least with n|lia].
           ++ apply I1 in Hin. destruct Hin as (J1 & J2 & J3).
              split; [exact J1|lia].
        -- cbn [map fst]. constructor; [|exact I2]. intros Hin.
           apply in_map_iff in Hin. destruct Hin as ([q m'] & Eq & Hin). cbn in Eq. subst q.
           apply I1 in Hin. lia.
        -- cbn [map fst snd]. rewrite zprod_cons, I3. symmetry. exact S3.
      * destruct (IH (p + 1) n) as (I1 & I2 & I3); [lia|lia|lia| |].
        { intros q Hq Hqn. destruct (Z.eq_dec q p) as [->|Hne].
          - apply Z.mod_divide in Hqn; lia.
          - apply (Hleast q); [lia|exact Hqn]. }
        split; [|split; assumption].
        intros q m Hin. apply I1 in Hin. destruct Hin as (J1 & J2 & J3).
        split; [exact J1|lia].
Qed.

Lemma factorint_td_ok : factorint_ok factorint_td.
Proof.
  intros n Hn. unfold factorint_td.
  destruct (trial_spec (Z.to_nat n) 2 n) as (H1 & H2 & H3); [lia|lia|lia|intros q Hq; lia|].
  split; [|split; assumption].
  intros p m Hin. apply H1 in Hin. tauto.
Qed.

(** * End to end *)

Lemma engine_ok factorint layer spatial lim :
  factorint_ok factorint -> layer <> [] ->
  NoDup (keys layer) -> (forall d n, In (d, n) layer -> 1 <= n) ->
  (forall d s, In (d, s) spatial -> (1 <= s)%Q) ->
  (forall l, lim = Some l -> 1 <= l) ->
  exists lpfs, engine_lpfs factorint None lim layer spatial = Ok lpfs /\ lpfs <> [] /\
    (forall d n, In (d, n) layer ->
      (inject_Z n <= qprod (unrollings_of d spatial) * inject_Z (loop_product d lpfs))%Q) /\
    (forall d f, In (d, f) lpfs -> 1 <= f /\ In d (keys layer)) /\
    (forall l, lim = Some l ->
       Z.of_nat (length lpfs) <= Z.max l (Z.of_nat (length layer))).
Proof.
  intros Hfac Hlne Hnd Hge Hsp Hlim.
  destruct (temporal_loops_cover layer spatial Hnd Hge Hsp)
    as (loops & E & Hnd' & Hgt & Hcov).
  assert (Hgt' : forall d n, In (d, n) loops -> 1 < n) by (intros d n Hin; now apply (Hgt d)).
  assert (Hlen : (length loops <= length layer)%nat).
  { rewrite <- (map_length fst loops), <- (map_length fst layer).
    apply NoDup_incl_length; [exact Hnd'|]. intros d Hd. apply in_map_iff in Hd.
    destruct Hd as ([d' n] & <- & Hin). apply (Hgt d' n Hin). }
  unfold engine_lpfs. rewrite E. cbn [rbind].
  destruct loops as [|kv loops].
  - destruct layer as [|[d0 n0] layer]; [congruence|]. cbn [keys map fst].
    destruct (prime_factors_dummy factorint d0 (map fst layer)
                (update_min_lpf_factor lim [])) as (st & Est).
    { intros l El. unfold update_min_lpf_factor in El. destruct lim as [l0|]; [|discriminate].
      specialize (Hlim l0 eq_refl). cbn [length Z.of_nat] in El.
      destruct (Z.ltb_spec l0 0); injection El as <-; lia. }
    rewrite Est. cbn [rbind snd]. eexists. split; [reflexivity|]. repeat split.
    + discriminate.
    + intros d n Hin. specialize (Hcov d n Hin). unfold size_or_1 in Hcov. cbn in Hcov.
      unfold loop_product. cbn [filter fst].
      destruct (eqb d0 d); cbn [map snd]; exact Hcov.
    + destruct H as [Ein|[]]. injection Ein as <- <-. lia.
    + destruct H as [Ein|[]]. injection Ein as <- <-. now left.
    + intros l El. specialize (Hlim l El). cbn [length]. lia.
  - set (lp := kv :: loops) in *.
    assert (Hne : lp <> []) by discriminate.
    destruct lim as [l|]; cbn [update_min_lpf_factor].
    + specialize (Hlim l eq_refl).
      set (l' := if l <? Z.of_nat (length lp) then Z.of_nat (length lp) else l).
      assert (Hl' : Z.of_nat (length lp) <= l' /\ l' <= Z.max l (Z.of_nat (length lp))).
      { unfold l'. destruct (Z.ltb_spec l (Z.of_nat (length lp))); lia. }
      replace (if l <? Z.of_nat (length lp) then Some (Z.of_nat (length lp)) else Some l)
        with (Some l') by (unfold l'; destruct (l <? Z.of_nat (length lp)); reflexivity).
      destruct (prime_factors_limit factorint Hfac (keys layer) lp l')
        as (st & lpfs & Est & Hp & Hlp & Hd & Hex); auto; [lia|].
      rewrite Est. cbn [rbind snd]. eexists. split; [reflexivity|]. repeat split.
      * intros ->. destruct (Hex (fst kv)) as (f & []). now left.
      * intros d n Hin. rewrite Hp. now apply Hcov.
      * destruct (Hd d f H) as [Hf _]. lia.
      * destruct (Hd d f H) as [_ Hk]. apply in_map_iff in Hk.
        destruct Hk as ([d' n] & <- & Hk). apply (Hgt d' n Hk).
      * intros l0 El0. injection El0 as <-. lia.
    + destruct (prime_factors_nolimit factorint Hfac (keys layer) lp)
        as (st & lpfs & Est & Hp & Hd); auto.
      rewrite Est. cbn [rbind snd]. eexists. split; [reflexivity|]. repeat split.
      * intros ->. destruct kv as [d n]. assert (Hin : In (d, n) lp) by now left.
        specialize (Hp d). unfold loop_product in Hp. cbn in Hp.
        unfold size_or_1 in Hp. rewrite (In_dget d n lp Hnd' Hin) in Hp.
        apply Hgt' in Hin. lia.
      * intros d n Hin. rewrite Hp. now apply Hcov.
      * destruct (Hd d f H) as [Hf _]. apply prime_ge_2 in Hf. lia.
      * destruct (Hd d f H) as [_ Hk]. apply in_map_iff in Hk.
        destruct Hk as ([d' n] & <- & Hk). apply (Hgt d' n Hk).
      * intros l0 El0. discriminate.
Qed.

(** * run *)

Lemma run_loop_spec {O M} (alloc : O -> result M) os : forall y,
  (forall o e, In o os -> alloc o = Err e -> skippable e = true) ->
  run_loop alloc os y =
  (flat_map (fun o => match alloc o with Ok m => [m] | Err _ => [] end) os,
   if y || existsb (fun o => is_ok (alloc o)) os then None else Some NoValidLoopOrdering).
Proof.
  induction os as [|o os IH]; intros y Hsk; cbn [run_loop flat_map existsb].
  - now rewrite orb_false_r.
  - assert (Hsk' : forall o' e, In o' os -> alloc o' = Err e -> skippable e = true)
      by (intros o' e Ho'; apply Hsk; now right).
    destruct (alloc o) as [m|e] eqn:E; cbn [is_ok].
    + rewrite (IH true Hsk'). cbn [orb app]. now rewrite orb_true_r.
    + rewrite (Hsk o e) by (now left || exact E). cbn [app orb]. now apply IH.
Qed.
