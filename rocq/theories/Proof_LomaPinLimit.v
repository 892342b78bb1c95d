(** Pinned loops of prime size together with a limit on the loops. *)
From Coq Require Import Lia Permutation Znumtheory Zpow_facts.
From Verif Require Import Base Model_Loma Model_Perm Spec_Loma Spec_Perm Spec_LomaCount Proof_PermProps Proof_LomaLoops
  Proof_LomaFactors Proof_LomaPins Proof_LomaCount.
Open Scope Z_scope.

Lemma zsum_map_add {X} (f g : X -> Z) l :
  zsum (map (fun x => f x + g x) l) = zsum (map f l) + zsum (map g l).
Proof. induction l as [|x l IH]; [reflexivity|]. cbn [map]. rewrite !zsum_cons, IH. lia. Qed.

Lemma zsum_indicator s fs : NoDup fs ->
  0 <= zsum (map (fun f => if s =? f then 1 else 0) fs) <= 1.
Proof.
  assert (H0 : forall l, ~ In s l -> zsum (map (fun f => if s =? f then 1 else 0) l) = 0).
  { induction l as [|f l IH]; intros Hni; [reflexivity|]. cbn [map]. rewrite zsum_cons, IH.
    - destruct (Z.eqb_spec s f) as [->|]; [exfalso; apply Hni; now left|reflexivity].
    - intros Hi. apply Hni. now right. }
  induction 1 as [|f fs Hni Hnd IH]; [cbn; lia|]. cbn [map]. rewrite zsum_cons.
  destruct (Z.eqb_spec s f) as [->|]; [rewrite (H0 fs Hni); lia|lia].
Qed.

Lemma sum_occurs pins d fs : NoDup fs -> zsum (map (occurs pins d) fs) <= loops_on pins d.
Proof.
  intros Hnd. induction pins as [|[d' s] pins IH].
  - unfold occurs, loops_on. cbn [filter length Z.of_nat]. clear.
    induction fs as [|f fs IH]; [reflexivity|]. cbn [map]. rewrite zsum_cons. lia.
  - unfold loops_on in *. cbn [filter fst].
    destruct (String.eqb d' d) eqn:E.
    + rewrite (map_ext (occurs ((d', s) :: pins) d)
                (fun f => (if s =? f then 1 else 0) + occurs pins d f)).
      * rewrite zsum_map_add. pose proof (zsum_indicator s fs Hnd). cbn [length]. lia.
      * intros f. unfold occurs. cbn [filter fst snd]. rewrite E. cbn [andb].
        destruct (s =? f); cbn [length]; lia.
    + rewrite (map_ext (occurs ((d', s) :: pins) d) (occurs pins d)); [exact IH|].
      intros f. unfold occurs. cbn [filter fst snd]. now rewrite E.
Qed.

Lemma spare_enough pins d fs : forall cs, length fs = length cs ->
  zsum cs - zsum (map (occurs pins d) fs)
  <= zsum (map (fun fc => spare pins d (fst fc) (snd fc)) (combine fs cs)).
Proof.
  induction fs as [|f fs IH]; intros [|c cs] Hlen; [cbn; lia|discriminate|discriminate|].
  cbn [map combine fst snd]. rewrite !zsum_cons. specialize (IH cs ltac:(now injection Hlen)).
  unfold spare at 1. lia.
Qed.

Lemma nth_add_at k m delta : forall cs c, nth_error cs m = Some c ->
  nth_error (add_at k delta cs) m = Some (if Nat.eqb k m then c + delta else c).
Proof.
  revert m. induction k as [|k IH]; intros [|m] [|x cs] c H; try discriminate; cbn in *.
  - now injection H as ->.
  - exact H.
  - exact H.
  - now apply IH.
Qed.

Lemma occurs_nonneg pins d f : 0 <= occurs pins d f.
Proof. unfold occurs. lia. Qed.

(** How many loops of size [f]. *)
Definition cnt (fs cs : list Z) (f : Z) : Z :=
  zsum (map (fun fc => if fst fc =? f then snd fc else 0) (combine fs cs)).

Lemma cnt_cons g fs c cs f : cnt (g :: fs) (c :: cs) f = (if g =? f then c else 0) + cnt fs cs f.
Proof. unfold cnt. cbn [combine map fst snd]. now rewrite zsum_cons. Qed.

Lemma cnt_add k delta : forall fs cs g f, length fs = length cs -> nth_error fs k = Some g ->
  cnt fs (add_at k delta cs) f = cnt fs cs f + (if g =? f then delta else 0).
Proof.
  induction k as [|k IH]; intros [|x fs] [|c cs] g f Hlen Hg; try discriminate;
    cbn [nth_error add_at] in *.
  - injection Hg as ->. rewrite !cnt_cons. destruct (g =? f); lia.
  - rewrite !cnt_cons, (IH fs cs g f); [lia|now injection Hlen|exact Hg].
Qed.

Lemma cnt_insert k g : forall fs cs f, length fs = length cs -> (k <= length fs)%nat ->
  cnt (insert_at k g fs) (insert_at k 1 cs) f = cnt fs cs f + (if g =? f then 1 else 0).
Proof.
  induction k as [|k IH]; intros [|x fs] [|c cs] f Hlen Hk; try discriminate;
    cbn [insert_at length] in *; rewrite ?cnt_cons; try lia.
  rewrite IH; [lia|now injection Hlen|lia].
Qed.

Lemma cnt_filter f : forall fs cs,
  cnt (map fst (filter (fun fc => negb (snd fc =? 0)) (combine fs cs)))
      (map snd (filter (fun fc => negb (snd fc =? 0)) (combine fs cs))) f = cnt fs cs f.
Proof.
  intros fs cs. unfold cnt. rewrite combine_fst_snd.
  induction (combine fs cs) as [|[g c] l IH]; [reflexivity|]. cbn [filter snd map fst].
  destruct (Z.eqb_spec c 0) as [->|Hc]; cbn [negb map fst snd]; rewrite !zsum_cons, IH.
  - destruct (g =? f); lia.
  - reflexivity.
Qed.

Lemma cnt_nth fs : forall cs k f c, NoDup fs -> length fs = length cs ->
  nth_error fs k = Some f -> nth_error cs k = Some c -> cnt fs cs f = c.
Proof.
  assert (H0 : forall l cs f, ~ In f l -> cnt l cs f = 0).
  { induction l as [|g l IH]; intros [|c cs] f Hni; try reflexivity. rewrite cnt_cons, IH.
    - destruct (Z.eqb_spec g f) as [->|]; [exfalso; apply Hni; now left|reflexivity].
    - intros Hi. apply Hni. now right. }
  induction fs as [|g fs IH]; intros [|x cs] [|k] f c Hnd Hlen Hf Hc; try discriminate;
    inversion Hnd; subst; cbn [nth_error] in *; rewrite cnt_cons.
  - injection Hf as ->. injection Hc as ->. rewrite Z.eqb_refl, H0 by assumption. lia.
  - destruct (Z.eqb_spec g f) as [->|].
    + exfalso. apply nth_error_In in Hf. contradiction.
    + rewrite (IH cs k f c); auto.
Qed.

Section Merge.
  Variables (pins : list (string * Z)) (d : string).

  Lemma merge_pins fs cs : NoDup fs -> length fs = length cs -> ge1 cs -> ge2 fs ->
    loops_on pins d + 2 <= zsum cs ->
    exists ij fs' cs',
      find_smallest_non_static_pf pins d fs cs = Ok ij /\
      merge_factors fs cs (fst ij) (snd ij) = Ok (fs', cs') /\
      length fs' = length cs' /\ ge1 cs' /\ ge2 fs' /\
      zsum cs' = zsum cs - 1 /\ wprod fs' cs' = wprod fs cs /\
      (forall f, occurs pins d f <= cnt fs cs f -> occurs pins d f <= cnt fs' cs' f).
  Proof.
    intros Hnd Hlen H1 H2 Hs.
    destruct (merges_spare pins d fs cs Hlen H1)
      as (a & b & fa & fb & ca & cb & E & Hab & Na & Ca & Nb & Cb & Sa & Sb & Heq & _).
    { pose proof (spare_enough pins d fs cs Hlen). pose proof (sum_occurs pins d fs Hnd). lia. }
    assert (Hnn : nonneg cs) by (intros c Hc; apply H1 in Hc; lia).
    pose proof (occurs_nonneg pins d fa) as Pa. pose proof (occurs_nonneg pins d fb) as Pb.
    unfold spare in Sa, Sb, Heq.
    destruct (wprod_sub a 1 fs cs fa ca Hlen Hnn Na Ca) as (W1 & N1); [lia|].
    set (cs0 := add_at a (- (1)) cs) in *.
    assert (Hlen0 : length fs = length cs0) by (unfold cs0; now rewrite length_add_at).
    pose proof (nth_add_at a b (- (1)) cs cb Cb) as Cb0. fold cs0 in Cb0.
    assert (Hcb0 : 0 <= 1 <= (if Nat.eqb a b then cb + - (1) else cb)).
    { destruct (Nat.eqb_spec a b) as [Eab|]; [|lia]. subst b.
      assert (cb = ca) by congruence. lia. }
    destruct (wprod_sub b 1 fs cs0 fb _ Hlen0 N1 Nb Cb0 Hcb0) as (W2 & N2).
    set (cs1 := add_at b (- (1)) cs0) in *.
    assert (Hlen1 : length fs = length cs1) by (unfold cs1; now rewrite length_add_at).
    assert (Hsum1 : zsum cs1 = zsum cs - 2).
    { unfold cs1. rewrite add_at_sum.
      - unfold cs0. rewrite add_at_sum; [lia|]. apply nth_error_Some. now rewrite Ca.
      - rewrite <- Hlen0. apply nth_error_Some. now rewrite Nb. }
    assert (Hnew : 2 <= fa * fb).
    { pose proof (H2 fa (nth_error_In _ _ Na)). pose proof (H2 fb (nth_error_In _ _ Nb)). nia. }
    assert (Hkeep : forall f, occurs pins d f <= cnt fs cs f -> occurs pins d f <= cnt fs cs1 f).
    { intros f Hp. unfold cs1. rewrite (cnt_add b _ fs cs0 fb f Hlen0 Nb).
      unfold cs0. rewrite (cnt_add a _ fs cs fa f Hlen Na).
      destruct (Z.eqb_spec fa f) as [Ea|Ea]; destruct (Z.eqb_spec fb f) as [Eb|Eb]; try lia.
      - assert (a = b).
        { apply (NoDup_nth_error fs); [exact Hnd|apply nth_error_Some; now rewrite Na|congruence]. }
        subst f. rewrite (cnt_nth fs cs a fa ca) in * by assumption. lia.
      - subst f. rewrite (cnt_nth fs cs a fa ca) in * by assumption. lia.
      - subst f. rewrite (cnt_nth fs cs b fb cb) in * by assumption. lia. }
    exists (a, b). cbn [fst snd].
    unfold merge_factors. rewrite Na, Nb. cbn [of_option rbind].
    change (-1) with (- (1)). fold cs0. fold cs1.
    pose proof (merge_bump fs cs1 (fa * fb) Hlen1 N2 H2 Hnew) as Hb.
    assert (Hgrow : forall f, cnt fs cs1 f <=
      cnt (fst (match index_of (fa * fb) fs with
                | Some k => (fs, add_at k 1 cs1)
                | None => let k := length (filter (fun f => f <? fa * fb) fs) in
                          (insert_at k (fa * fb) fs, insert_at k 1 cs1) end))
          (snd (match index_of (fa * fb) fs with
                | Some k => (fs, add_at k 1 cs1)
                | None => let k := length (filter (fun f => f <? fa * fb) fs) in
                          (insert_at k (fa * fb) fs, insert_at k 1 cs1) end)) f).
    { intros f. destruct (index_of (fa * fb) fs) as [k|] eqn:Ei; cbn [fst snd].
      - apply index_of_nth in Ei. rewrite (cnt_add k 1 fs cs1 (fa * fb) f Hlen1 Ei).
        destruct (fa * fb =? f); lia.
      - cbn zeta. rewrite cnt_insert; [destruct (fa * fb =? f); lia|exact Hlen1|].
        clear. induction fs as [|x fs IH]; cbn; [lia|]. destruct (x <? fa * fb); cbn; lia. }
    destruct (match index_of (fa * fb) fs with
              | Some k => (fs, add_at k 1 cs1)
              | None => _ end) as [fs2 cs2].
    destruct Hb as (B1 & B2 & B3 & B4 & B5). cbn [fst snd] in Hgrow.
    destruct (filter_nonzero fs2 cs2 B4 B3) as (F1 & F2 & F3 & F4 & F5).
    do 2 eexists. split; [exact E|]. split; [reflexivity|].
    split; [exact F4 || exact F3 || auto|]. split; [auto|].
    split; [intros f Hf; apply B5; now apply F5|]. split; [lia|].
    split; [rewrite F1, B1, <- W1, <- W2, !Z.pow_1_r; ring|].
    intros f Hp. rewrite cnt_filter. apply Hkeep in Hp. specialize (Hgrow f). lia.
  Qed.
End Merge.

Definition keeps_pins (pins : list (string * Z)) (st : factors) : Prop :=
  forall d fs cs f, dget d (pfs st) = Some fs -> dget d (pf_counts st) = Some cs ->
    occurs pins d f <= cnt fs cs f.

Lemma limit_step_pins pins P loops st lim :
  FInv loops st -> distinct_factors st -> keeps_pins pins st ->
  0 <= P -> (forall d, In d (keys loops) -> loops_on pins d <= P) ->
  Z.of_nat (length loops) * (P + 1) <= lim ->
  lim < zsum (values (pf_count_sums st)) ->
  exists st', limit_step pins st = Ok st' /\ FInv loops st' /\ keeps_pins pins st' /\
    zsum (values (pf_count_sums st')) = zsum (values (pf_count_sums st)) - 1.
Proof.
  intros (Hnd & K1 & K2 & K3 & Hdim) Hdis Hkp HP0 HP Hlim Hbig.
  assert (Hne : pf_count_sums st <> []).
  { intros E. rewrite E in Hbig. cbn in Hbig. nia. }
  destruct (argmax_ok (pf_count_sums st) Hne) as (k & v & Ek & Eg & Hmax).
  { now rewrite K3. }
  assert (Hv : P + 2 <= v).
  { destruct (Z_le_gt_dec (P + 2) v) as [|Hv]; [assumption|]. exfalso.
    assert (Hle : zsum (values (pf_count_sums st))
                  <= (P + 1) * Z.of_nat (length (values (pf_count_sums st)))).
    { apply zsum_le_const. intros x Hx. unfold values in Hx. apply in_map_iff in Hx.
      destruct Hx as (kv & <- & Hx). apply Hmax in Hx. lia. }
    assert (El : length (values (pf_count_sums st)) = length loops).
    { unfold values. rewrite map_length, <- (map_length fst). fold (keys (pf_count_sums st)).
      rewrite K3. unfold keys. now rewrite map_length. }
    rewrite El in Hle. lia. }
  assert (Hin : In k (keys loops)).
  { rewrite <- K3. now apply dget_Some_key in Eg. }
  destruct (key_dget k loops Hin) as (n & En).
  assert (Hkn : In (k, n) loops) by now apply dget_In.
  destruct (Hdim k n Hkn) as (fs & cs & Gf & Gc & Gs & Hlen & H1 & H2 & Hs1 & Hw).
  rewrite Gs in Eg. injection Eg as <-.
  destruct (merge_pins pins k fs cs)
    as (ij & fs' & cs' & Efind & Emerge & Hlen' & H1' & H2' & Hsum' & Hw' & Hp'); auto.
  { apply (Hdis k). now apply dget_In. }
  { specialize (HP k Hin). lia. }
  unfold limit_step. rewrite Ek. cbn [rbind]. unfold dgetr. rewrite Gf, Gc, Gs.
  cbn [rbind of_option]. rewrite Efind. cbn [rbind].
  rewrite Emerge. cbn [rbind fst snd].
  eexists. split; [reflexivity|]. split; [|split].
  - repeat split; cbn [pfs pf_counts pf_count_sums]; auto.
    + rewrite keys_dset_in; [exact K1|now rewrite K1].
    + rewrite keys_dset_in; [exact K2|now rewrite K2].
    + rewrite keys_dset_in; [exact K3|now rewrite K3].
    + intros d m Hdm. destruct (eqb_spec d k) as [->|Hdk].
      * assert (m = n).
        { apply (In_dget k m loops Hnd) in Hdm. congruence. }
        subst m. exists fs', cs'. cbn [pfs pf_counts pf_count_sums].
        rewrite !dget_dset_eq. replace (zsum cs - 1) with (zsum cs') by lia.
        repeat split; auto; [lia|]. now rewrite Hw'.
      * destruct (Hdim d m Hdm) as (fs0 & cs0 & Hrest).
        exists fs0, cs0. cbn [pfs pf_counts pf_count_sums].
        now rewrite !dget_dset_neq by assumption.
  - intros d gs es f. cbn [pfs pf_counts]. destruct (eqb_spec d k) as [->|Hdk].
    + rewrite !dget_dset_eq. intros G1 G2. injection G1 as <-. injection G2 as <-.
      apply Hp'. exact (Hkp k fs cs f Gf Gc).
    + rewrite !dget_dset_neq by assumption. apply Hkp.
  - cbn [pf_count_sums]. rewrite (zsum_values_dset _ _ _ (zsum cs)) by exact Gs. lia.
Qed.

Lemma limit_iter_pins pins P loops lim : 0 <= P ->
  (forall d, In d (keys loops) -> loops_on pins d <= P) ->
  Z.of_nat (length loops) * (P + 1) <= lim -> forall k st,
  FInv loops st -> distinct_factors st -> keeps_pins pins st ->
  zsum (values (pf_count_sums st)) = lim + Z.of_nat k ->
  exists st', limit_iter pins k st = Ok st' /\ FInv loops st' /\ keeps_pins pins st' /\
    zsum (values (pf_count_sums st')) = lim.
Proof.
  intros HP0 HP Hlim. induction k as [|k IH]; intros st Hinv Hdis Hkp Hn; cbn [limit_iter].
  - exists st. split; [reflexivity|]. split; [exact Hinv|]. split; [exact Hkp|]. lia.
  - destruct (limit_step_pins pins P loops st lim Hinv Hdis Hkp HP0 HP Hlim)
      as (st1 & E1 & Hinv1 & Hkp1 & Hn1); [lia|].
    rewrite E1. cbn [rbind]. apply IH; auto; [|lia]. now apply (step_distinct pins st).
Qed.

(** * Pins of prime size change nothing by themselves *)

Lemma dset_same (d : dict string (list Z)) k v : dget k d = Some v -> dset k v d = d.
Proof.
  induction d as [|[k' v'] d IH]; cbn [dget dset]; [discriminate|].
  destruct (eqb k k'); intros H; [now injection H as ->|]. now rewrite IH.
Qed.

Lemma dset_same_z (d : dict string Z) k v : dget k d = Some v -> dset k v d = d.
Proof.
  induction d as [|[k' v'] d IH]; cbn [dget dset]; [discriminate|].
  destruct (eqb k k'); intros H; [now injection H as ->|]. now rewrite IH.
Qed.

Lemma in_index (x : Z) l : In x l -> exists k, index_of x l = Some k.
Proof.
  induction l as [|y l IH]; [intros []|]. cbn. intros Hi.
  destruct (Z.eqb_spec x y) as [->|Hne]; [now eexists|].
  destruct Hi as [->|Hi]; [congruence|]. destruct (IH Hi) as (k & ->). now eexists.
Qed.

Lemma reduce_prime d p st fs cs s : dget d (pfs st) = Some fs ->
  dget d (pf_counts st) = Some cs -> dget d (pf_count_sums st) = Some s ->
  length fs = length cs -> ge1 cs -> In p fs ->
  reduce_static_factor d p st (p, 1) = Ok st.
Proof.
  intros Gf Gc Gs Hlen H1 Hp. unfold reduce_static_factor, dgetr. rewrite Gf, Gc, Gs.
  cbn [of_option rbind]. destruct (in_index p fs Hp) as (k & Ek). rewrite Ek.
  cbn [of_option rbind]. pose proof (index_of_nth p fs k Ek) as Nk.
  destruct (nth_error cs k) as [c|] eqn:Nc.
  2:{ apply nth_error_None in Nc. assert (k < length fs)%nat by (apply nth_error_Some; congruence). lia. }
  cbn [of_option rbind]. assert (Hc : 1 <= c) by (apply H1; now apply nth_error_In in Nc).
  destruct (Z.leb_spec 1 c); [|lia].
  rewrite (proj2 (memb_In p fs) Hp). rewrite add_at_cancel.
  rewrite (dset_same _ _ _ Gc). replace (s - (1 - 1)) with s by lia.
  rewrite (dset_same_z _ _ _ Gs). now destruct st.
Qed.

(** * Multiplicities *)

Lemma prime_not_pow p q m : prime p -> prime q -> 0 <= m -> p <> q -> rel_prime p (q ^ m).
Proof.
  intros Hp Hq Hm Hne. apply prime_rel_prime; [exact Hp|]. intros Hd.
  apply Hne. now apply (prime_pow_divisor q p m).
Qed.

Lemma not_in_rel_prime p l : prime p -> (forall q m, In (q, m) l -> prime q /\ 1 <= m) ->
  ~ In p (map fst l) -> rel_prime p (zprod (map (fun pm => fst pm ^ snd pm) l)).
Proof.
  intros Hp. induction l as [|[q m] l IH]; intros Hl Hni.
  - cbn. apply rel_prime_sym, rel_prime_1.
  - cbn [map]. rewrite zprod_cons. cbn [fst snd].
    destruct (Hl q m (or_introl eq_refl)) as (Hq & Hm).
    apply rel_prime_mult.
    + apply prime_not_pow; auto; [lia|]. intros ->. apply Hni. now left.
    + apply IH; [intros q' m' H'; apply Hl; now right|]. intros Hi. apply Hni. now right.
Qed.

Lemma multiplicity_ge p k l : prime p -> 0 <= k ->
  (forall q m, In (q, m) l -> prime q /\ 1 <= m) -> NoDup (map fst l) ->
  (p ^ k | zprod (map (fun pm => fst pm ^ snd pm) l)) ->
  k <= cnt (map fst l) (map snd l) p.
Proof.
  intros Hp Hk. pose proof (prime_ge_2 p Hp) as Hp2.
  assert (Hrel : forall x, rel_prime p x -> rel_prime (p ^ k) x).
  { intros x Hx. apply rel_prime_sym, rel_prime_Zpower_r; [exact Hk|]. now apply rel_prime_sym. }
  assert (Hone : forall m, 0 <= m -> (p ^ k | p ^ m) -> k <= m).
  { intros m Hm Hd. apply Z.divide_pos_le in Hd; [|apply Z.pow_pos_nonneg; lia].
    apply (Z.pow_le_mono_r_iff p); lia. }
  induction l as [|[q m] l IH]; intros Hl Hnd Hd.
  - cbn in Hd. unfold cnt. cbn. apply (Hone 0); [lia|]. exact Hd.
  - cbn [map] in *. rewrite zprod_cons in Hd. cbn [fst snd] in *.
    inversion Hnd as [|q' l' Hni Hnd']; subst. rewrite cnt_cons.
    destruct (Hl q m (or_introl eq_refl)) as (Hq & Hm).
    assert (Hl' : forall q m, In (q, m) l -> prime q /\ 1 <= m)
      by (intros q' m' H'; apply Hl; now right).
    assert (H0 : 0 <= cnt (map fst l) (map snd l) p).
    { unfold cnt. rewrite combine_fst_snd. clear - Hl'.
      induction l as [|[g c] l IH]; [cbn; lia|]. cbn [map fst snd]. rewrite zsum_cons.
      assert (0 <= zsum (map (fun fc => if fst fc =? p then snd fc else 0) l)).
      { apply IH. intros q m H. apply Hl'. now right. }
      destruct (Hl' g c (or_introl eq_refl)). destruct (g =? p); lia. }
    destruct (Z.eqb_spec q p) as [->|Hne].
    + assert (k <= m); [|lia]. apply Hone; [lia|].
      apply (Gauss _ (zprod (map (fun pm => fst pm ^ snd pm) l))).
      * now rewrite Z.mul_comm.
      * apply Hrel, not_in_rel_prime; auto.
    + assert (k <= cnt (map fst l) (map snd l) p); [|lia]. apply IH; auto.
      apply (Gauss _ (q ^ m)); [exact Hd|]. apply Hrel, prime_not_pow; auto. lia.
Qed.

(** * Loops in the list *)

Lemma occurs_app l1 l2 d f : occurs (l1 ++ l2) d f = occurs l1 d f + occurs l2 d f.
Proof. unfold occurs. rewrite filter_app, app_length. lia. Qed.

Lemma occurs_expand d fs cs f : cnt fs cs f <= occurs (expand d fs cs) d f.
Proof.
  unfold cnt, expand. induction (combine fs cs) as [|[g c] l IH]; [cbn; lia|].
  cbn [map flat_map fst snd]. rewrite zsum_cons, occurs_app.
  assert ((if g =? f then c else 0) <= occurs (repeat (d, g) (Z.to_nat c)) d f); [|lia].
  destruct (Z.eqb_spec g f) as [->|]; [|unfold occurs; lia].
  assert (Hr : forall n, occurs (repeat (d, f) n) d f = Z.of_nat n).
  { induction n as [|n IHn]; [reflexivity|]. change (repeat (d, f) (S n)) with ([(d, f)] ++ repeat (d, f) n).
    rewrite occurs_app, IHn. unfold occurs. cbn [filter fst snd].
    rewrite String.eqb_refl, Z.eqb_refl. cbn [andb length]. lia. }
  rewrite Hr. lia.
Qed.

Lemma occurs_rebuild (counts : dict string (list Z)) d fs cs f : forall fsd ls,
  rmap (fun kv => rbind (dgetr (fst kv) counts)
                   (fun cs => Ok (expand (fst kv) (snd kv) cs))) fsd = Ok ls ->
  In (d, fs) fsd -> dget d counts = Some cs -> cnt fs cs f <= occurs (concat ls) d f.
Proof.
  induction fsd as [|[d' gs] fsd IH]; intros ls E Hin Gc; [destruct Hin|].
  cbn [rmap fst snd] in E. unfold dgetr at 1 in E.
  destruct (dget d' counts) as [es|] eqn:Ge; [|discriminate]. cbn [of_option rbind] in E.
  destruct (rmap _ fsd) as [ls'|] eqn:E'; [|discriminate]. cbn [rbind] in E.
  injection E as <-. cbn [concat]. rewrite occurs_app.
  destruct Hin as [Ein|Hin].
  - injection Ein as -> ->. assert (es = cs) by congruence. subst es.
    pose proof (occurs_expand d fs cs f). unfold occurs at 2. lia.
  - specialize (IH ls' eq_refl Hin Gc). unfold occurs at 1. lia.
Qed.

Lemma occurs_in l d f : 1 <= occurs l d f -> In (d, f) l.
Proof.
  unfold occurs. intros H.
  destruct (filter (fun p => String.eqb (fst p) d && (snd p =? f)) l) as [|[d' f'] r] eqn:E;
    [cbn in H; lia|].
  assert (Hi : In (d', f') (filter (fun p => String.eqb (fst p) d && (snd p =? f)) l))
    by (rewrite E; now left).
  apply filter_In in Hi. cbn [fst snd] in Hi. destruct Hi as (Hi & Hb).
  apply andb_prop in Hb. destruct Hb as (Hb1 & Hb2). apply String.eqb_eq in Hb1.
  apply Z.eqb_eq in Hb2. now subst.
Qed.

Lemma occurs_of_in l d f : In (d, f) l -> 1 <= occurs l d f.
Proof.
  intros Hi. unfold occurs.
  assert (Hf : In (d, f) (filter (fun p => String.eqb (fst p) d && (snd p =? f)) l)).
  { apply filter_In. split; [exact Hi|]. cbn [fst snd]. now rewrite String.eqb_refl, Z.eqb_refl. }
  destruct (filter _ l); [destruct Hf|]. cbn [length]. lia.
Qed.

(** * End to end *)

Lemma pins_with_limit factorint : factorint_ok factorint ->
  forall pins P layer_dims loops lim, NoDup (keys loops) ->
  (forall d n, In (d, n) loops -> 1 < n) -> loops <> [] ->
  (forall d s, In (d, s) pins ->
     prime s /\ (s ^ occurs pins d s | size_or_1 d loops)) ->
  (forall d, In d (keys loops) -> loops_on pins d <= P) ->
  (forall l, lim = Some l -> Z.of_nat (length loops) * (P + 1) <= l) ->
  exists st lpfs,
    get_prime_factors factorint (Some pins) lim layer_dims loops = Ok (st, lpfs) /\
    (forall d, loop_product d lpfs = size_or_1 d loops) /\
    Z.of_nat (length lpfs) =
      (let n := Z.of_nat (length (initial_lpfs factorint loops)) in
       match lim with Some l => Z.min l n | None => n end) /\
    (forall d s, occurs pins d s <= occurs lpfs d s).
Proof.
  intros Hfac pins P dims loops lim Hnd Hn Hne Hpins HP Hlim.
  assert (HP0 : 0 <= P).
  { destruct loops as [|[d n] loops]; [congruence|].
    specialize (HP d (or_introl eq_refl)). unfold loops_on in HP. lia. }
  set (st0 := initial_factors factorint loops).
  assert (Hinv0 : FInv loops st0) by now apply initial_inv.
  assert (Hdis0 : distinct_factors st0).
  { intros d fs Hin. unfold st0, initial_factors in Hin. cbn [pfs] in Hin.
    apply in_map_iff in Hin. destruct Hin as ([d' n] & E & Hin). injection E as <- <-.
    cbn [snd]. apply Hn in Hin. destruct (Hfac n ltac:(lia)) as (_ & Hd & _). exact Hd. }
  assert (Hget : forall d n, In (d, n) loops ->
    dget d (pfs st0) = Some (map fst (factorint n)) /\
    dget d (pf_counts st0) = Some (map snd (factorint n))).
  { intros d n Hin. unfold st0, initial_factors. cbn [pfs pf_counts].
    rewrite !(dget_map (fun kv => _)), !(find_key loops d n Hnd Hin). now split. }
  assert (Hmult : forall d n s, In (d, n) loops -> In (d, s) pins ->
    occurs pins d s <= cnt (map fst (factorint n)) (map snd (factorint n)) s).
  { intros d n s Hin Hs. destruct (Hpins d s Hs) as (Hp & Hd).
    unfold size_or_1 in Hd. rewrite (In_dget d n loops Hnd Hin) in Hd.
    pose proof (Hn d n Hin). destruct (Hfac n ltac:(lia)) as (F1 & F2 & F3).
    apply multiplicity_ge; auto; [unfold occurs; lia|]. now rewrite F3. }
  assert (Hdimin : forall d s, In (d, s) pins -> exists n, In (d, n) loops).
  { intros d s Hs. destruct (Hpins d s Hs) as (Hp & Hd). unfold size_or_1 in Hd.
    destruct (dget d loops) as [n|] eqn:En; [exists n; now apply dget_In|].
    exfalso. pose proof (prime_ge_2 s Hp). pose proof (occurs_of_in pins d s Hs).
    apply Z.divide_pos_le in Hd; [|lia].
    assert (s ^ 1 <= s ^ occurs pins d s) by (apply Z.pow_le_mono_r; lia).
    rewrite Z.pow_1_r in *. lia. }
  assert (Hkp0 : keeps_pins pins st0).
  { intros d fs cs f Gf Gc.
    assert (Hk : In d (keys loops)).
    { destruct Hinv0 as (_ & K1 & _). rewrite <- K1. now apply dget_Some_key in Gf. }
    destruct (key_dget d loops Hk) as (n & En). apply dget_In in En.
    destruct (Hget d n En) as (Gf' & Gc'). rewrite Gf in Gf'. rewrite Gc in Gc'.
    injection Gf' as ->. injection Gc' as ->.
    destruct (Z_le_gt_dec 1 (occurs pins d f)) as [Ho|Ho].
    - apply Hmult; [exact En|]. now apply occurs_in.
    - pose proof (Hn d n En). destruct (Hfac n ltac:(lia)) as (F1 & _ & _).
      assert (0 <= cnt (map fst (factorint n)) (map snd (factorint n)) f); [|lia].
      unfold cnt. rewrite combine_fst_snd. clear - F1.
      induction (factorint n) as [|[g c] l IH]; [cbn; lia|]. cbn [map fst snd].
      rewrite zsum_cons.
      assert (0 <= zsum (map (fun fc => if fst fc =? f then snd fc else 0) l)).
      { apply IH. intros q m H. apply F1. now right. }
      destruct (F1 g c (or_introl eq_refl)). destruct (g =? f); lia. }
  assert (Hred : reduce_static_fps factorint pins st0 = Ok st0).
  { assert (Hgen : forall ps, (forall x, In x ps -> In x pins) ->
      reduce_static_fps factorint ps st0 = Ok st0).
    { induction ps as [|[d s] ps IH]; intros Hps; [reflexivity|].
      unfold reduce_static_fps in *. cbn [rfold fst snd].
      assert (Hin : In (d, s) pins) by (apply Hps; now left).
      destruct (Hpins d s Hin) as (Hp & _). destruct (Hdimin d s Hin) as (n & Hn').
      pose proof (factorint_prime_power factorint s 1 Hfac Hp ltac:(lia)) as Ef.
      rewrite Z.pow_1_r in Ef. rewrite Ef. cbn [rfold].
      destruct (Hget d n Hn') as (Gf & Gc).
      destruct Hinv0 as (_ & _ & _ & _ & Hdim).
      destruct (Hdim d n Hn') as (fs & cs & Gf' & Gc' & Gs & Hlen & H1 & _).
      assert (Hs : In s fs).
      { rewrite Gf in Gf'. injection Gf' as <-. rewrite Gc in Gc'. injection Gc' as <-.
        pose proof (Hmult d n s Hn' Hin) as Hm. pose proof (occurs_of_in pins d s Hin) as Ho.
        destruct (in_dec Z.eq_dec s (map fst (factorint n))) as [|Hno]; [assumption|].
        exfalso. assert (cnt (map fst (factorint n)) (map snd (factorint n)) s = 0); [|lia].
        unfold cnt. rewrite combine_fst_snd. clear - Hno.
        induction (factorint n) as [|[g c] l IH]; [reflexivity|]. cbn [map fst snd] in *.
        rewrite zsum_cons, IH by (intros Hi; apply Hno; now right).
        destruct (Z.eqb_spec g s) as [->|]; [exfalso; apply Hno; now left|reflexivity]. }
      rewrite (reduce_prime d s st0 fs cs _ Gf' Gc' Gs Hlen H1 Hs). cbn [rbind].
      apply IH. intros x Hx. apply Hps. now right. }
    apply Hgen. auto. }
  assert (Hend : forall st, FInv loops st -> keeps_pins pins st ->
    exists l, rebuild_lpfs st = Ok l /\
      (forall d, loop_product d l = size_or_1 d loops) /\
      Z.of_nat (length l) = zsum (values (pf_count_sums st)) /\
      (forall d s, occurs pins d s <= occurs l d s)).
  { intros st Hi Hk. destruct (rebuild_ok loops st Hi) as (l & El & Hp & Hlen & _).
    exists l. split; [exact El|]. split; [exact Hp|]. split; [exact Hlen|].
    intros d s. destruct (Z_le_gt_dec 1 (occurs pins d s)) as [Ho|Ho]; [|unfold occurs in *; lia].
    destruct (Hdimin d s (occurs_in pins d s Ho)) as (n & Hin).
    destruct Hi as (_ & _ & _ & _ & Hdim).
    destruct (Hdim d n Hin) as (fs & cs & Gf & Gc & _).
    etransitivity; [exact (Hk d fs cs s Gf Gc)|].
    unfold rebuild_lpfs in El.
    destruct (rmap _ (pfs st)) as [ls|] eqn:Er; [|discriminate]. cbn [rbind] in El.
    injection El as <-. apply (occurs_rebuild (pf_counts st) d fs cs s (pfs st) ls Er); auto.
    now apply dget_In. }
  unfold get_prime_factors. rewrite with_dummy_some by assumption. fold st0.
  cbn [rbind fst snd]. unfold limit_lpfs. rewrite Hred. cbn [rbind].
  destruct (Hend st0 Hinv0 Hkp0) as (l0 & El0 & Hp0 & Hlen0 & Ho0).
  assert (El0' : l0 = initial_lpfs factorint loops).
  { pose proof (rebuild_initial factorint loops Hnd) as Er. fold st0 in Er. congruence. }
  rewrite El0. cbn [rbind].
  cbv zeta. destruct lim as [lim|]; [specialize (Hlim lim eq_refl)|].
  2:{ exists st0, l0. split; [reflexivity|]. split; [exact Hp0|]. split; [|exact Ho0].
      now rewrite El0'. }
  destruct (Z.leb_spec (zsum (values (pf_count_sums st0))) lim) as [Hle|Hgt].
  - exists st0, l0. split; [reflexivity|]. split; [exact Hp0|]. split; [|exact Ho0].
    rewrite <- El0'. lia.
  - destruct (limit_iter_pins pins P loops lim HP0 HP Hlim
                (Z.to_nat (zsum (values (pf_count_sums st0)) - lim)) st0 Hinv0 Hdis0 Hkp0)
      as (st' & E' & Hinv' & Hkp' & Hn'); [lia|].
    rewrite E'. cbn [rbind].
    destruct (Hend st' Hinv' Hkp') as (l' & El' & Hp' & Hlen' & Ho').
    rewrite El'. cbn [rbind]. exists st', l'. split; [reflexivity|].
    split; [exact Hp'|]. split; [|exact Ho']. rewrite <- El0'. lia.
Qed.

(** * Pinned loops can be put where they are pinned *)

Section Place.
  Context {A : Type}.

  Definition at_places (f : nat -> option A) (l : list nat) : list (nat * A) :=
    flat_map (fun i => match f i with Some x => [(i, x)] | None => [] end) l.

  Lemma at_places_shift (f : nat -> option A) l :
    map snd (at_places f (map S l)) = map snd (at_places (fun i => f (S i)) l).
  Proof.
    unfold at_places. induction l as [|i l IH]; [reflexivity|]. cbn [map flat_map].
    rewrite !map_app, IH. now destruct (f (S i)).
  Qed.

  Lemma place n : forall (f : nat -> option A) rest,
    (length (at_places f (seq 0 n)) + length rest = n)%nat ->
    exists p, length p = n /\
      (forall i x, (i < n)%nat -> f i = Some x -> nth_error p i = Some x) /\
      Permutation p (map snd (at_places f (seq 0 n)) ++ rest).
  Proof.
    induction n as [|n IH]; intros f rest Hlen.
    - exists []. destruct rest; [|cbn in Hlen; lia]. split; [reflexivity|].
      split; [intros; lia|reflexivity].
    - cbn [seq] in *. rewrite <- seq_shift in *.
      assert (Hl : length (at_places f (map S (seq 0 n)))
                   = length (at_places (fun i => f (S i)) (seq 0 n))).
      { rewrite <- (map_length snd (at_places f (map S (seq 0 n)))), at_places_shift. apply map_length. }
      unfold at_places at 1 in Hlen. cbn [flat_map] in Hlen. rewrite app_length in Hlen.
      fold (at_places f (map S (seq 0 n))) in Hlen. rewrite Hl in Hlen.
      destruct (f O) as [x|] eqn:E0; cbn [length] in Hlen.
      + destruct (IH (fun i => f (S i)) rest) as (p & Lp & Np & Pp); [lia|].
        exists (x :: p). split; [cbn; lia|]. split.
        * intros [|i] y Hi Hy; [cbn; congruence|]. cbn. apply Np; [lia|exact Hy].
        * unfold at_places at 1. cbn [flat_map]. rewrite E0.
          fold (at_places f (map S (seq 0 n))). cbn [app map snd]. rewrite at_places_shift.
          now constructor.
      + destruct rest as [|r rest].
        { exfalso. cbn in Hlen.
          assert (length (at_places (fun i => f (S i)) (seq 0 n)) <= n)%nat; [|lia].
          rewrite <- (seq_length n 0) at 2. unfold at_places. clear.
          induction (seq 0 n) as [|i l IH]; [reflexivity|]. cbn [flat_map]. rewrite app_length.
          destruct (f (S i)); cbn [length]; lia. }
        destruct (IH (fun i => f (S i)) rest) as (p & Lp & Np & Pp); [cbn in Hlen; lia|].
        exists (r :: p). split; [cbn; lia|]. split.
        * intros [|i] y Hi Hy; [cbn; congruence|]. cbn. apply Np; [lia|exact Hy].
        * unfold at_places at 1. cbn [flat_map]. rewrite E0.
          fold (at_places f (map S (seq 0 n))). cbn [app map snd]. rewrite at_places_shift.
          rewrite <- Permutation_middle. now constructor.
  Qed.
End Place.

Lemma split_off (pins l : list (string * Z)) :
  (forall d s, occurs pins d s <= occurs l d s) -> exists rest, Permutation l (pins ++ rest).
Proof.
  revert l. induction pins as [|[d s] pins IH]; intros l H; [now exists l|].
  assert (Hi : In (d, s) l).
  { apply occurs_in. specialize (H d s).
    assert (1 <= occurs ((d, s) :: pins) d s); [apply occurs_of_in; now left|lia]. }
  pose proof (take1_perm loop_dec (d, s) l Hi) as Hp.
  assert (Hocc : forall l1 l2 e f, Permutation l1 l2 -> occurs l1 e f = occurs l2 e f).
  { intros l1 l2 e f Hperm. unfold occurs. f_equal.
    induction Hperm as [|x a b _ IHp|x y a|a b c _ IH1 _ IH2]; cbn [filter].
    - reflexivity.
    - destruct (_ && _); cbn [length]; now rewrite IHp.
    - destruct (String.eqb (fst x) e && (snd x =? f));
        destruct (String.eqb (fst y) e && (snd y =? f)); reflexivity.
    - now rewrite IH1. }
  destruct (IH (take1 loop_dec (d, s) l)) as (rest & Hr).
  { intros e f. specialize (H e f). rewrite (Hocc _ _ e f Hp) in H.
    change ((d, s) :: pins) with ([(d, s)] ++ pins) in H.
    change ((d, s) :: take1 loop_dec (d, s) l) with ([(d, s)] ++ take1 loop_dec (d, s) l) in H.
    rewrite !occurs_app in H. lia. }
  exists rest. rewrite Hp. cbn [app]. now constructor.
Qed.

Lemma pins_placed (qs : dict Z (string * Z)) l :
  (forall d s, occurs (values qs) d s <= occurs l d s) ->
  (forall pos x, In (pos, x) qs -> position_in (length l) pos) ->
  NoDup (map (place_of (length l)) (keys qs)) ->
  exists p, Permutation p l /\
    (forall pos d s, In (pos, (d, s)) qs -> loop_at p pos d s).
Proof.
  intros Hocc Hpos Hnd. destruct (split_off _ _ Hocc) as (rest & Hrest).
  set (n := length l) in *.
  set (pl := map (fun q => (Z.to_nat (place_of n (fst q)), snd q)) qs).
  assert (Hrange : forall pos x, In (pos, x) qs -> 0 <= place_of n pos < Z.of_nat n).
  { intros pos x Hi. specialize (Hpos pos x Hi). unfold position_in in Hpos. unfold place_of.
    destruct (Z.leb_spec 0 pos); lia. }
  assert (Hkeys : NoDup (map fst pl)).
  { unfold pl. rewrite map_map. cbn [fst]. unfold keys in Hnd. rewrite map_map in Hnd.
    clear - Hnd Hrange. induction qs as [|[pos x] qs IH]; [constructor|].
    cbn [map fst] in *. inversion Hnd as [|a b Hni Hnd']; subst. constructor.
    - intros Hi. apply Hni. apply in_map_iff in Hi. destruct Hi as ([pos' x'] & E & Hi).
      apply in_map_iff. exists (pos', x'). split; [|exact Hi]. cbn [fst] in *.
      pose proof (Hrange pos x (or_introl eq_refl)).
      pose proof (Hrange pos' x' (or_intror Hi)). lia.
    - apply IH; auto. intros pos' x' Hi. apply (Hrange pos' x'). now right. }
  set (f := fun i : nat => option_map snd (find (fun q => Nat.eqb (fst q) i) pl)).
  assert (Hf : forall i x, f i = Some x <-> In (i, x) pl).
  { intros i x. unfold f. clear - Hkeys. induction pl as [|[j y] pl IH].
    - cbn. split; [discriminate|intros []].
    - cbn [find fst map] in *. inversion Hkeys as [|a b Hni Hnd']; subst.
      destruct (Nat.eqb_spec j i) as [->|Hne]; cbn [option_map snd].
      + split; [intros E; injection E as ->; now left|].
        intros [E|Hi]; [now injection E as ->|]. exfalso. apply Hni.
        change i with (fst (i, x)). now apply List.in_map.
      + rewrite (IH Hnd'). split; [now right|]. intros [E|Hi]; [congruence|exact Hi]. }
  assert (Hlt : forall i x, In (i, x) pl -> (i < n)%nat).
  { intros i x Hi. unfold pl in Hi. apply in_map_iff in Hi. destruct Hi as ([pos y] & E & Hi).
    injection E as <- <-. pose proof (Hrange pos y Hi). cbn [fst]. lia. }
  assert (Hperm : Permutation (at_places f (seq 0 n)) pl).
  { apply NoDup_Permutation.
    - unfold at_places. pose proof (seq_NoDup n 0) as Hs. induction Hs as [|i l' Hni _ IH]; [constructor|].
      cbn [flat_map]. destruct (f i) as [x|]; [|exact IH]. cbn [app]. constructor; [|exact IH].
      intros Hi. apply in_flat_map in Hi. destruct Hi as (j & Hj & Hi).
      destruct (f j) as [y|]; [|destruct Hi]. destruct Hi as [E|[]]. injection E as -> _. contradiction.
    - exact (NoDup_map_inv fst pl Hkeys).
    - intros [i x]. unfold at_places. rewrite in_flat_map, <- Hf. split.
      + intros (j & _ & Hi). destruct (f j) as [y|] eqn:E; [|destruct Hi].
        destruct Hi as [Ei|[]]. injection Ei as <- <-. exact E.
      + intros Hx. exists i. rewrite Hx. split; [|now left]. apply in_seq.
        apply Hf, Hlt in Hx. lia. }
  assert (Hvals : map snd pl = values qs).
  { unfold pl, values. rewrite map_map. reflexivity. }
  assert (Hn : (length (at_places f (seq 0 n)) + length rest = n)%nat).
  { rewrite (Permutation_length Hperm). unfold n. rewrite (Permutation_length Hrest), app_length.
    now rewrite <- Hvals, map_length. }
  destruct (place n f rest Hn) as (p & Lp & Np & Pp).
  exists p. split.
  - rewrite Pp, Hrest. apply Permutation_app_tail. rewrite <- Hvals. now apply Permutation_map.
  - intros pos d s Hi.
    assert (Hin : In (Z.to_nat (place_of n pos), (d, s)) pl).
    { unfold pl. apply in_map_iff. exists (pos, (d, s)). now split. }
    pose proof (Np _ _ (Hlt _ _ Hin) (proj2 (Hf _ _) Hin)) as Hnth.
    pose proof (Hpos pos (d, s) Hi) as Hp. unfold position_in in Hp.
    unfold loop_at, element_at. unfold place_of in Hnth. rewrite Lp.
    destruct (Z.leb_spec 0 pos); [exact Hnth|].
    destruct (Z.leb_spec (- pos) (Z.of_nat n)); [exact Hnth|lia].
Qed.

Lemma pins_met factorint : factorint_ok factorint ->
  forall (qs : dict Z (string * Z)) P layer_dims loops lim, NoDup (keys loops) ->
  (forall d n, In (d, n) loops -> 1 < n) -> loops <> [] ->
  (forall d s, In (d, s) (values qs) ->
     prime s /\ (s ^ occurs (values qs) d s | size_or_1 d loops)) ->
  (forall d, In d (keys loops) -> loops_on (values qs) d <= P) ->
  (forall l, lim = Some l -> Z.of_nat (length loops) * (P + 1) <= l) ->
  exists st lpfs,
    get_prime_factors factorint (Some (values qs)) lim layer_dims loops = Ok (st, lpfs) /\
    ((forall pos x, In (pos, x) qs -> position_in (length lpfs) pos) ->
     NoDup (map (place_of (length lpfs)) (keys qs)) ->
     exists V N, V <> [] /\
       (forall fuel, (N <= fuel)%nat ->
          constrained_permutations loop_ltb fuel lpfs
            [positions_valid []; positions_sizes_valid qs] = Ok V) /\
       (forall p, In p V <-> Permutation p lpfs /\
          forall pos d s, In (pos, (d, s)) qs -> loop_at p pos d s)).
Proof.
  intros Hfac qs P dims loops lim Hnd Hn Hne Hpins HP Hlim.
  destruct (pins_with_limit factorint Hfac (values qs) P dims loops lim Hnd Hn Hne Hpins HP Hlim)
    as (st & lpfs & E & Hprod & _ & Hocc).
  exists st, lpfs. split; [exact E|]. intros Hpos Hdis.
  destruct (pins_placed qs lpfs Hocc Hpos Hdis) as (p0 & Hp0 & Hat0).
  assert (Hlne : lpfs <> []).
  { intros ->. destruct loops as [|[d n] loops]; [congruence|]. specialize (Hprod d).
    assert (Hi : In (d, n) ((d, n) :: loops)) by now left.
    unfold size_or_1 in Hprod. rewrite (In_dget d n _ Hnd Hi) in Hprod.
    apply Hn in Hi. cbn in Hprod. lia. }
  destruct (constrained_ok lpfs [] qs Hlne) as (V & keep & _ & Hc & Hperm & Hkeep).
  { intros pos d []. }
  { intros pos d s Hi. exact (Hpos pos (d, s) Hi). }
  assert (Hiff : forall p, In p (filter keep V) <-> Permutation p lpfs /\
          forall pos d s, In (pos, (d, s)) qs -> loop_at p pos d s).
  { intros p. rewrite filter_In. split.
    - intros (Hi & Hk). split; [now apply Hperm|]. now apply (Hkeep p Hi).
    - intros (Hp & Hat). apply Hperm in Hp. split; [exact Hp|]. apply (Hkeep p Hp).
      split; [intros pos d []|exact Hat]. }
  exists (filter keep V), (length V). split; [|split; [exact Hc|exact Hiff]].
  intros Enil. assert (Hi : In p0 (filter keep V)) by (apply Hiff; now split).
  rewrite Enil in Hi. destruct Hi.
Qed.
