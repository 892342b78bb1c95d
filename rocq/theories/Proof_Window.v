(** Proofs about the union of updating windows (C36). *)
From Verif Require Import Base Model_DataMove Model_Mapping Model_Links Model_Cost Model_Latency Spec_Latency Proof_AllocSearch.

(** * Counting *)
Definition cnt (f : Z -> bool) (n : nat) : nat := length (filter f (map Z.of_nat (seq 0 n))).

Lemma cnt_S f n : cnt f (S n) = (cnt f n + if f (Z.of_nat n) then 1 else 0)%nat.
Proof.
  unfold cnt. rewrite seq_S, map_app, filter_app, app_length. cbn. destruct (f (Z.of_nat n)); reflexivity.
Qed.
Lemma cnt_ext f g n : (forall t, (0 <= t < Z.of_nat n)%Z -> f t = g t) -> cnt f n = cnt g n.
Proof.
  induction n as [|n IH]; intros H; [reflexivity|]. rewrite !cnt_S, IH, H by (intros; try apply H; lia). reflexivity.
Qed.
Lemma cnt_le f g n : (forall t, (0 <= t < Z.of_nat n)%Z -> f t = true -> g t = true) -> (cnt f n <= cnt g n)%nat.
Proof.
  induction n as [|n IH]; intros H; [cbn; lia|]. rewrite !cnt_S. specialize (IH ltac:(intros; apply H; [lia|assumption])).
  specialize (H (Z.of_nat n) ltac:(lia)). destruct (f _), (g _); try lia.
Qed.
Lemma cnt_bound f n : (cnt f n <= n)%nat.
Proof. induction n as [|n IH]; [cbn; lia|]. rewrite cnt_S. destruct (f _); lia. Qed.
Lemma cnt_neg f n : (cnt f n + cnt (fun t => negb (f t)) n = n)%nat.
Proof. induction n as [|n IH]; [reflexivity|]. rewrite !cnt_S. destruct (f _); cbn; lia. Qed.
Lemma cnt_or f g n : (cnt (fun t => f t || g t) n <= cnt f n + cnt g n)%nat.
Proof. induction n as [|n IH]; [cbn; lia|]. rewrite !cnt_S. destruct (f _), (g _); cbn; lia. Qed.
Lemma cnt_add f n m : cnt f (n + m) = (cnt f n + cnt (fun t => f (t + Z.of_nat n)%Z) m)%nat.
Proof.
  induction m as [|m IH]; [rewrite Nat.add_0_r; cbn; lia|]. rewrite Nat.add_succ_r, !cnt_S, IH.
  replace (Z.of_nat (n + m)) with (Z.of_nat m + Z.of_nat n)%Z by lia. lia.
Qed.
Lemma cnt_periodic f p c : (forall t, f (t + Z.of_nat p)%Z = f t) -> cnt f (c * p) = (c * cnt f p)%nat.
Proof.
  intros H. induction c as [|c IH]; [reflexivity|]. cbn [Nat.mul]. rewrite cnt_add, <- IH. f_equal. apply cnt_ext. intros; apply H.
Qed.
Lemma cnt_window a p : (0 <= a <= Z.of_nat p)%Z -> (0 < p)%nat -> cnt (fun t => t mod Z.of_nat p <? a)%Z p = Z.to_nat a.
Proof.
  intros H P. rewrite (cnt_ext _ (fun t => t <? a)%Z) by (intros t T; now rewrite Z.mod_small).
  assert (G : forall n, cnt (fun t => t <? a)%Z n = Nat.min n (Z.to_nat a)).
  { induction n as [|n IH]; [reflexivity|]. rewrite cnt_S, IH. destruct (Z.ltb_spec (Z.of_nat n) a); lia. }
  rewrite G. lia.
Qed.

Lemma open_cnt l total : open_steps l total = Z.of_nat (cnt (fun t => existsb (fun a => is_open a t) l) (Z.to_nat total)).
Proof. reflexivity. Qed.

Lemma mod_shift t p q : (p | q)%Z -> ((t + q) mod p = t mod p)%Z.
Proof. intros [c ->]. destruct (Z.eq_dec p 0) as [->|N]; [now rewrite !Zmod_0_r, Z.mul_0_r, Z.add_0_r|]. now rewrite Z.mod_add. Qed.

(** * The code *)

Definition as_window (a : activity) := (pa_served a, (pa_period a, pa_allowed a, pa_count a)).

Lemma dset_fresh {K V} `{EqB K} (k : K) (v : V) d : ~ In k (keys d) -> dset k v d = (d ++ [(k, v)])%list.
Proof.
  induction d as [|[k' v'] d IH]; intros N; [reflexivity|]. cbn [keys map fst dset app] in *. rewrite eqb_neq by (intros E; apply N; left; congruence).
  rewrite IH; [reflexivity|]. intros I. apply N. now right.
Qed.

Lemma collect_spec l : forall d, NoDup (keys d ++ map pa_served l) ->
  (exists a, In a l /\ pa_period a = pa_allowed a /\ collect_windows l d = inl (pa_period a * pa_count a)%Z) \/
  ((forall a, In a l -> pa_period a <> pa_allowed a) /\ collect_windows l d = inr (d ++ map as_window l)%list).
Proof.
  induction l as [|a l IH]; intros d N; cbn [collect_windows].
  - right. split; [intros a []|]. now rewrite app_nil_r.
  - destruct (Z.eqb_spec (pa_period a) (pa_allowed a)) as [E|E].
    + left. exists a. split; [now left|]. split; [assumption|reflexivity].
    + cbn [map] in N. assert (F : ~ In (pa_served a) (keys d)).
      { intros I. apply NoDup_remove_2 in N. apply N. apply in_or_app. now left. }
      rewrite dset_fresh by assumption.
      destruct (IH (d ++ [as_window a])%list) as [(b & I & Eb & C)|(O & C)].
      * unfold keys. rewrite map_app, <- app_assoc. exact N.
      * left. exists b. split; [now right|]. split; [assumption|]. exact C.
      * right. split; [intros b [<-|I]; [assumption|now apply O]|]. unfold as_window at 1 in C. rewrite C, <- app_assoc. reflexivity.
Qed.

(** the first entry with the longest period *)
Lemma longest_spec : forall (d : windows) best,
  let r := fold_left (fun (best : Z * option Z) kv => let '(p, _, c) := snd kv in if (fst best <? p)%Z then (p, Some c) else best) d best in
  (fst best <= fst r)%Z /\ (forall k p a c, In (k, (p, a, c)) d -> (p <= fst r)%Z) /\
  (r = best \/ exists k a c, In (k, (fst r, a, c)) d /\ snd r = Some c /\ (fst best < fst r)%Z).
Proof.
  induction d as [|[k [[p a] c]] d IH]; intros best; cbn [fold_left snd].
  - split; [lia|]. split; [intros ? ? ? ? []|now left].
  - set (b' := if (fst best <? p)%Z then (p, Some c) else best). destruct (IH b') as (L & M & O). cbn zeta in *.
    set (r := fold_left _ d b') in *.
    assert (B : (fst best <= fst b' /\ p <= fst b')%Z) by (unfold b'; destruct (Z.ltb_spec (fst best) p); cbn; lia).
    split; [lia|]. split.
    + intros k' p' a' c' [E|I]; [injection E as <- <- <- <-; lia|eauto].
    + destruct O as [O|(k' & a' & c' & I & S & Lt)].
      * unfold b' in O. destruct (Z.ltb_spec (fst best) p) as [G|G]; [|now left].
        right. exists k, a, c. rewrite O. cbn. split; [now left|]. split; [reflexivity|exact G].
      * right. exists k', a', c'. split; [now right|]. split; [assumption|]. lia.
Qed.

Lemma slice_stop_in a p : (0 <= a <= p)%Z -> slice_stop a p = a.
Proof. intros H. unfold slice_stop. destruct (Z.ltb_spec a 0); lia. Qed.

Lemma existsb_map {A B} (f : A -> B) g l : existsb g (map f l) = existsb (fun x => g (f x)) l.
Proof. induction l as [|x l IH]; [reflexivity|]. cbn. now rewrite IH. Qed.
Lemma existsb_ext_in {A} (f g : A -> bool) l : (forall x, In x l -> f x = g x) -> existsb f l = existsb g l.
Proof. induction l as [|x l IH]; intros H; [reflexivity|]. cbn [existsb]. rewrite (H x) by now left. rewrite IH by (intros; apply H; now right). reflexivity. Qed.
Lemma forallb_map {A B} (f : A -> B) g l : forallb g (map f l) = forallb (fun x => g (f x)) l.
Proof. induction l as [|x l IH]; [reflexivity|]. cbn. now rewrite IH. Qed.

Lemma union_open l total : periodic l total -> nested l -> window_union l = Ok (open_steps l total).
Proof.
  intros (N & T0 & P) (b & Ib & D). unfold window_union.
  destruct (collect_spec l [] N) as [(a & I & E & C)|(O & C)]; rewrite C.
  - destruct (P a I) as (P1 & P2 & P3). rewrite P3. f_equal. rewrite open_cnt.
    assert (T : cnt (fun t => existsb (fun a => is_open a t) l) (Z.to_nat total) = Z.to_nat total).
    { assert (K := cnt_neg (fun t => existsb (fun a => is_open a t) l) (Z.to_nat total)).
      rewrite (cnt_ext (fun t => negb _) (fun _ => false)) in K.
      - assert (Z0 : cnt (fun _ => false) (Z.to_nat total) = O) by (generalize (Z.to_nat total); induction n; [reflexivity|rewrite cnt_S; lia]). lia.
      - intros t _. apply negb_false_iff, existsb_exists. exists a. split; [assumption|]. unfold is_open. rewrite <- E.
        apply Z.ltb_lt. apply Z.mod_pos_bound. lia. }
    rewrite T. lia.
  - cbn [app]. unfold longest.
    destruct (longest_spec (map as_window l) (0%Z, None)) as (_ & M & R). cbn zeta in *. set (r := fold_left _ _ _) in *.
    destruct (P b Ib) as (Pb & _ & Tb).
    assert (Hmax : (pa_period b <= fst r)%Z).
    { apply (M (pa_served b) (pa_period b) (pa_allowed b) (pa_count b)). apply in_map_iff. now exists b. }
    destruct R as [R|(k & a & c & I & S & _)]; [rewrite R in Hmax; cbn in Hmax; lia|].
    apply in_map_iff in I. destruct I as (x & Ex & Ix). unfold as_window in Ex. injection Ex as _ Ep _ Ec.
    destruct (P x Ix) as (Px & _ & Tx).
    assert (Hr : fst r = pa_period b).
    { rewrite <- Ep in *. destruct (D x Ix) as [q Q]. assert (0 < q)%Z by nia. nia. }
    destruct r as [mp co]. cbn [fst snd] in *. subst mp co.
    assert (RS : forallb (fun kv : (string * nat * direction) * (Z * Z * Z) => let '(p, _, _) := snd kv in reshapable (pa_period b) p) (map as_window l) = true).
    { rewrite forallb_map. apply forallb_forall. intros y Iy. cbn. unfold reshapable. destruct (P y Iy) as (Py & _). destruct (D y Iy) as [q Q].
      rewrite Q, Z.mod_mul by lia. apply andb_true_intro. split; [now apply Z.ltb_lt|reflexivity]. }
    rewrite Hr, RS. cbn [of_option rbind]. f_equal.
    assert (WO : forall t, window_open (map as_window l) t = existsb (fun a => is_open a t) l).
    { intros t. unfold window_open. rewrite existsb_map. apply existsb_ext_in. intros y Iy. cbn.
      destruct (P y Iy) as (Py & Ay & _). now rewrite slice_stop_in. }
    change (length (filter (fun t => negb (window_open (map as_window l) t)) (map Z.of_nat (seq 0 (Z.to_nat (pa_period b))))))
      with (cnt (fun t => negb (window_open (map as_window l) t)) (Z.to_nat (pa_period b))).
    rewrite (cnt_ext _ (fun t => negb (existsb (fun a => is_open a t) l))) by (intros; now rewrite WO).
    assert (K := cnt_neg (fun t => existsb (fun a => is_open a t) l) (Z.to_nat (pa_period b))).
    rewrite open_cnt. 
    assert (Tt : total = (pa_period b * c)%Z) by (rewrite <- Tx, Hr, Ec; reflexivity).
    assert (Hc : (0 <= c)%Z) by nia.
    assert (Q : Z.to_nat total = (Z.to_nat c * Z.to_nat (pa_period b))%nat) by (rewrite Tt, Z2Nat.inj_mul by lia; lia).
    rewrite Q, cnt_periodic.
    + assert (F : (Z.of_nat (Z.to_nat (pa_period b)) = pa_period b)%Z) by lia. rewrite Nat2Z.inj_mul. nia.
    + intros t. apply existsb_ext_in. intros y Iy. unfold is_open. rewrite mod_shift; [reflexivity|].
      rewrite Z2Nat.id by lia. now apply D.
Qed.

Lemma single_open a total : (0 < pa_period a)%Z -> (0 <= pa_allowed a <= pa_period a)%Z -> (0 <= total)%Z ->
  (pa_period a * pa_count a = total)%Z ->
  Z.of_nat (cnt (is_open a) (Z.to_nat total)) = (pa_allowed a * pa_count a)%Z.
Proof.
  intros P A T E. assert (C : (0 <= pa_count a)%Z) by nia.
  assert (Q : Z.to_nat total = (Z.to_nat (pa_count a) * Z.to_nat (pa_period a))%nat) by (rewrite <- E, Z2Nat.inj_mul by lia; lia).
  rewrite Q, cnt_periodic.
  - assert (W := cnt_window (pa_allowed a) (Z.to_nat (pa_period a))). rewrite Z2Nat.id in W by lia. unfold is_open.
    rewrite W by lia. nia.
  - intros t. unfold is_open. rewrite mod_shift; [reflexivity|]. rewrite Z2Nat.id by lia. exists 1%Z. lia.
Qed.

Lemma open_le_total l total : (0 <= total)%Z -> (open_steps l total <= total)%Z.
Proof. intros T. rewrite open_cnt. assert (B := cnt_bound (fun t => existsb (fun a => is_open a t) l) (Z.to_nat total)). lia. Qed.

Lemma open_ge_single l total a : periodic l total -> In a l -> (pa_allowed a * pa_count a <= open_steps l total)%Z.
Proof.
  intros (N & T & P) I. destruct (P a I) as (P1 & P2 & P3). rewrite <- (single_open a total) by assumption.
  rewrite open_cnt. apply inj_le, cnt_le. intros t _ O. apply existsb_exists. now exists a.
Qed.

Lemma open_le_sum l total : periodic l total -> (open_steps l total <= zsum (map (fun a => pa_allowed a * pa_count a) l))%Z.
Proof.
  intros (_ & T & P). rewrite open_cnt. induction l as [|a l IH].
  - cbn [existsb]. assert (Z0 : cnt (fun _ => false) (Z.to_nat total) = O) by (generalize (Z.to_nat total); induction n; [reflexivity|rewrite cnt_S; lia]).
    rewrite Z0. reflexivity.
  - cbn [map]. rewrite zsum_cons. specialize (IH ltac:(intros; apply P; now right)).
    destruct (P a (or_introl eq_refl)) as (P1 & P2 & P3). rewrite <- (single_open a total) by assumption.
    assert (O := cnt_or (is_open a) (fun t => existsb (fun a => is_open a t) l) (Z.to_nat total)). cbn [existsb]. lia.
Qed.

Lemma union_bounds l total u : periodic l total -> nested l -> window_union l = Ok u ->
  u = open_steps l total /\ (u <= total)%Z /\ (u <= zsum (map (fun a => pa_allowed a * pa_count a) l))%Z /\
  forall a, In a l -> (pa_allowed a * pa_count a <= u)%Z.
Proof.
  intros P N E. rewrite (union_open l total P N) in E. injection E as <-. split; [reflexivity|].
  split; [apply open_le_total; apply P|]. split; [now apply open_le_sum|]. intros a. now apply open_ge_single.
Qed.

(** When the periods are not nested and no window takes its whole period, the code fails. *)
Lemma union_fails l total : l <> [] -> periodic l total -> ~ nested l ->
  (forall a, In a l -> pa_allowed a <> pa_period a) -> window_union l = Err ValueError.
Proof.
  intros Hne (N & T0 & P) D A. unfold window_union.
  destruct (collect_spec l [] N) as [(a & I & E & C)|(O & C)]; [elim (A a I); congruence|]. rewrite C. cbn [app]. unfold longest.
  destruct (longest_spec (map as_window l) (0%Z, None)) as (_ & M & R). cbn zeta in *. set (r := fold_left _ _ _) in *.
  destruct r as [mp co]. cbn [fst snd] in *.
  destruct (forallb _ (map as_window l)) eqn:F; [|reflexivity]. elim D. rewrite forallb_map, forallb_forall in F.
  destruct R as [R|(k & a & c & I & S & _)].
  - injection R as -> ->. destruct l as [|b l]; [congruence|]. exists b. split; [now left|]. intros a Ia.
    specialize (F b (or_introl eq_refl)). cbn in F. unfold reshapable in F.
    assert (Hb := M (pa_served b) (pa_period b) (pa_allowed b) (pa_count b) (or_introl eq_refl)).
    destruct (P b (or_introl eq_refl)). lia.
  - apply in_map_iff in I. destruct I as (x & Ex & Ix). unfold as_window in Ex. injection Ex as _ Ep _ Ec. exists x. split; [assumption|].
    intros y Iy. specialize (F y Iy). cbn in F. unfold reshapable in F. rewrite Ep. apply andb_true_iff in F. destruct F as [F1 F2].
    apply Z.mod_divide; lia.
Qed.
