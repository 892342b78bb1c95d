(** Proofs for the search over combinations (C10). *)
From Verif Require Import Base Model_Pr Model_Alloc.

Lemma rmap_Forall2 {A B} (f : A -> result B) l ys :
  rmap f l = Ok ys -> Forall2 (fun x y => f x = Ok y) l ys.
Proof.
  revert ys. induction l as [|x l IH]; intros ys E; cbn in E.
  - injection E as <-. constructor.
  - destruct (f x) eqn:Ef; [|discriminate]. destruct (rmap f l) eqn:Er; [|discriminate].
    injection E as <-. constructor; [assumption|now apply IH].
Qed.

Lemma rbind_Ok {A B} (r : result A) (f : A -> result B) b :
  rbind r f = Ok b -> exists a, r = Ok a /\ f a = Ok b.
Proof. destruct r as [a|e]; cbn; [|discriminate]. intros E. now exists a. Qed.

Lemma of_option_Ok {A} e (o : option A) a : of_option e o = Ok a -> o = Some a.
Proof. destruct o; cbn; congruence. Qed.

Lemma dgetr_Ok {K V} `{EqB K} (k : K) (d : dict K V) v : dgetr k d = Ok v -> dget k d = Some v.
Proof. apply of_option_Ok. Qed.

Lemma rfold_app {A B} (f : A -> B -> result A) l1 l2 a :
  rfold f a (l1 ++ l2) = rbind (rfold f a l1) (fun a' => rfold f a' l2).
Proof.
  revert a. induction l1 as [|x l1 IH]; intros a; cbn; [reflexivity|].
  destruct (f a x); [apply IH|reflexivity].
Qed.

Definition nprod (l : list nat) : nat := fold_right Nat.mul 1%nat l.

Lemma digits_range i maxs : (forall m, In m maxs -> (0 < m)%nat) ->
  Forall2 (fun d m => (d < m)%nat) (digits i maxs) maxs.
Proof.
  induction maxs as [|m ms IH]; intros Hp; cbn [digits]; constructor.
  - apply Nat.mod_upper_bound. specialize (Hp m (or_introl eq_refl)). lia.
  - apply IH. intros x Hx. apply Hp. now right.
Qed.

Lemma nprod_pos l : (forall m, In m l -> (0 < m)%nat) -> (0 < nprod l)%nat.
Proof.
  induction l as [|m ms IH]; intros Hp; cbn; [lia|].
  assert (0 < m)%nat by (apply Hp; now left).
  assert (0 < nprod ms)%nat by (apply IH; intros x Hx; apply Hp; now right).
  unfold nprod in *. nia.
Qed.

Lemma digits_add i k maxs : (forall m, In m maxs -> (0 < m)%nat) ->
  digits (i + k * nprod maxs) maxs = digits i maxs.
Proof.
  revert k. induction maxs as [|m ms IH]; intros k Hp; cbn [digits]; [reflexivity|].
  assert (Hm : (0 < m)%nat) by (apply Hp; now left).
  assert (Hps : forall x, In x ms -> (0 < x)%nat) by (intros x Hx; apply Hp; now right).
  assert (Hn := nprod_pos ms Hps).
  change (fold_right Nat.mul 1%nat ms) with (nprod ms).
  change (nprod (m :: ms)) with (m * nprod ms)%nat.
  replace (i + k * (m * nprod ms))%nat with (i + (k * m) * nprod ms)%nat by lia.
  f_equal.
  - rewrite Nat.div_add by lia. rewrite Nat.mod_add by lia. reflexivity.
  - apply IH. exact Hps.
Qed.

Lemma digits_complete ds maxs : Forall2 (fun d m => (d < m)%nat) ds maxs ->
  exists i, (i < nprod maxs)%nat /\ digits i maxs = ds.
Proof.
  induction 1 as [|d m ds ms Hd Hf (i & Hi & Hdig)].
  - exists 0%nat. cbn. split; [lia|reflexivity].
  - exists (i + d * nprod ms)%nat.
    assert (Hp : forall x, In x ms -> (0 < x)%nat).
    { clear - Hf. intros x Hx. induction Hf; [destruct Hx|]. destruct Hx as [->|Hx]; [lia|auto]. }
    assert (Hn := nprod_pos ms Hp).
    split.
    + change (nprod (m :: ms)) with (m * nprod ms)%nat. nia.
    + cbn [digits]. change (fold_right Nat.mul 1%nat ms) with (nprod ms). f_equal.
      * rewrite Nat.div_add by lia. rewrite Nat.div_small by lia. cbn.
        apply Nat.mod_small. lia.
      * rewrite digits_add by assumption. exact Hdig.
Qed.

Lemma digits_0 maxs : (forall m, In m maxs -> (0 < m)%nat) -> digits 0 maxs = map (fun _ => O) maxs.
Proof.
  induction maxs as [|m ms IH]; intros Hp; cbn [digits map]; [reflexivity|].
  assert (Hm : (0 < m)%nat) by (apply Hp; now left).
  assert (Hps : forall x, In x ms -> (0 < x)%nat) by (intros x Hx; apply Hp; now right).
  assert (Hn := nprod_pos ms Hps). f_equal; [|now apply IH].
  rewrite Nat.div_small; [apply Nat.mod_small; lia|exact Hn].
Qed.

Section Search.
  Variable valid : list nat -> bool.
  Variable cap : Z.
  Variable cs : list cand.

  Let maxs := map (fun c => length (c_sizes c)) cs.
  Definition fits (ds : list nat) : Prop := (comb_sum c_sizes cs ds <= inject_Z cap)%Q.
  Definition feasible (ds : list nat) : Prop := fits ds /\ valid (comb_idxs cs ds) = true.
  Definition acc (ds : list nat) : Q := comb_sum c_accesses cs ds.

  Definition best_inv (m : nat) (best : option Q * list nat) : Prop :=
    match best with
    | (None, idxs) => idxs = map (fun _ => O) cs /\ (forall i, (i < m)%nat -> ~ feasible (digits i maxs))
    | (Some q, idxs) => exists i, (i < m)%nat /\ feasible (digits i maxs) /\ q = acc (digits i maxs) /\
        idxs = comb_idxs cs (digits i maxs) /\
        forall j, (j < m)%nat -> feasible (digits j maxs) ->
          (q <= acc (digits j maxs))%Q /\ ((i < j)%nat -> ~ (acc (digits j maxs) == q)%Q)
    end.

  Lemma search_step_inv m best best' : best_inv m best ->
    search_step valid cap cs best m = Ok best' -> best_inv (S m) best' /\ (m = O -> fits (digits 0 maxs)).
  Proof.
    intros Hinv E. unfold search_step in E. fold maxs in E.
    assert (Hstep : forall j, (j < S m)%nat -> (j < m)%nat \/ j = m) by (intros; lia).
    destruct (Qle_bool (comb_sum c_sizes cs (digits m maxs)) (inject_Z cap)) eqn:Efit; cbn [negb] in E.
    2:{ destruct m as [|m']; [discriminate|]. injection E as <-. split; [|discriminate].
        assert (Hnf : ~ feasible (digits (S m') maxs)).
        { intros (Hf & _). apply Qle_bool_iff in Hf. congruence. }
        destruct best as ([q|] & idxs); cbn in Hinv |- *.
        - destruct Hinv as (i & Hi & Hfe & Hq & Hidx & Hmin). exists i.
          split; [lia|]. split; [assumption|]. split; [assumption|]. split; [assumption|].
          intros j Hj Hfj. destruct (Hstep j Hj) as [Hj'| ->]; [now apply Hmin|contradiction].
        - destruct Hinv as (Hidx & Hno). split; [assumption|].
          intros i Hi. destruct (Hstep i Hi) as [Hi'| ->]; [now apply Hno|assumption]. }
    assert (Hf : fits (digits m maxs)) by now apply Qle_bool_iff.
    split; [|intros ->; exact Hf].
    destruct (valid (comb_idxs cs (digits m maxs))) eqn:Ev.
    2:{ rewrite andb_false_r in E. injection E as <-.
        assert (Hnf : ~ feasible (digits m maxs)) by (intros (_ & Hv); congruence).
        destruct best as ([q|] & idxs); cbn in Hinv |- *.
        - destruct Hinv as (i & Hi & Hfe & Hq & Hidx & Hmin). exists i.
          split; [lia|]. split; [assumption|]. split; [assumption|]. split; [assumption|].
          intros j Hj Hfj. destruct (Hstep j Hj) as [Hj'| ->]; [now apply Hmin|contradiction].
        - destruct Hinv as (Hidx & Hno). split; [assumption|].
          intros i Hi. destruct (Hstep i Hi) as [Hi'| ->]; [now apply Hno|assumption]. }
    assert (Hfe : feasible (digits m maxs)) by now split.
    destruct best as ([q|] & idxs); cbn [fst] in E; cbn in Hinv.
    - destruct (Qle_bool (comb_sum c_accesses cs (digits m maxs)) q) eqn:Eq; cbn [andb] in E; injection E as <-; cbn.
      + exists m. split; [lia|]. split; [assumption|]. split; [reflexivity|]. split; [reflexivity|].
        apply Qle_bool_iff in Eq. intros j Hj Hfj. split; [|intros; lia].
        destruct (Hstep j Hj) as [Hj'| ->]; [|apply Qle_refl].
        destruct Hinv as (i & Hi & _ & Hq & _ & Hmin). specialize (Hmin j Hj' Hfj).
        eapply Qle_trans; [exact Eq|]. apply Hmin.
      + destruct Hinv as (i & Hi & Hfi & Hq & Hidx & Hmin). exists i.
        split; [lia|]. split; [assumption|]. split; [assumption|]. split; [assumption|].
        intros j Hj Hfj. destruct (Hstep j Hj) as [Hj'| ->]; [now apply Hmin|].
        assert (Hlt : ~ (comb_sum c_accesses cs (digits m maxs) <= q)%Q).
        { intros Hle. apply Qle_bool_iff in Hle. congruence. }
        apply Qnot_le_lt in Hlt. split; [now apply Qlt_le_weak|].
        intros _ He. unfold acc in He. rewrite He in Hlt. now apply Qlt_irrefl in Hlt.
    - cbn [andb] in E. injection E as <-. cbn. exists m.
      split; [lia|]. split; [assumption|]. split; [reflexivity|]. split; [reflexivity|].
      destruct Hinv as (_ & Hno). intros j Hj Hfj. split; [|intros; lia].
      destruct (Hstep j Hj) as [Hj'| ->]; [|apply Qle_refl]. exfalso. now apply (Hno j).
  Qed.

  Lemma search_loop n : forall m best best', best_inv m best ->
    rfold (search_step valid cap cs) best (seq m n) = Ok best' ->
    best_inv (m + n) best' /\ (m = O -> (0 < n)%nat -> fits (digits 0 maxs)).
  Proof.
    induction n as [|n IH]; intros m best best' Hinv E; cbn [seq rfold] in E.
    - injection E as <-. rewrite Nat.add_0_r. split; [assumption|]. intros; lia.
    - destruct (search_step valid cap cs best m) as [b1|] eqn:Es; [|discriminate].
      destruct (search_step_inv m best b1 Hinv Es) as (H1 & H0).
      destruct (IH (S m) b1 best' H1 E) as (H2 & _).
      rewrite Nat.add_succ_r. split; [exact H2|]. intros Hm _. now apply H0.
  Qed.

  (** The search returns a feasible combination of minimal accesses, or the default
      when none is feasible. *)
  Lemma search_ok idxs : (forall c, In c cs -> c_sizes c <> []) ->
    search valid cap cs = Ok idxs ->
    fits (digits 0 maxs) /\
    ((idxs = map (fun _ => O) cs /\ forall ds, Forall2 (fun d m => (d < m)%nat) ds maxs -> ~ feasible ds) \/
     exists ds, Forall2 (fun d m => (d < m)%nat) ds maxs /\ feasible ds /\ idxs = comb_idxs cs ds /\
       forall ds', Forall2 (fun d m => (d < m)%nat) ds' maxs -> feasible ds' -> (acc ds <= acc ds')%Q).
  Proof.
    intros Hne E. unfold search in E. apply rbind_Ok in E. destruct E as (best & E & Eb).
    injection Eb as <-.
    assert (Hp : forall m, In m maxs -> (0 < m)%nat).
    { intros m Hm. apply in_map_iff in Hm. destruct Hm as (c & <- & Hc).
      specialize (Hne c Hc). destruct (c_sizes c); [contradiction|cbn; lia]. }
    assert (Hn := nprod_pos maxs Hp).
    apply search_loop in E.
    2:{ cbn. split; [reflexivity|]. intros i Hi. lia. }
    destruct E as (Hinv & H0). split; [apply H0; [reflexivity|exact Hn]|].
    rewrite Nat.add_0_l in Hinv. change (fold_right Nat.mul 1%nat _) with (nprod maxs) in Hinv.
    destruct best as ([q|] & idxs); cbn in Hinv |- *.
    - right. destruct Hinv as (i & Hi & Hfe & -> & Hidx & Hmin). exists (digits i maxs).
      split; [now apply digits_range|]. split; [assumption|]. split; [assumption|].
      intros ds' Hr Hf'. destruct (digits_complete ds' maxs Hr) as (j & Hj & <-).
      now apply Hmin.
    - left. destruct Hinv as (Hidx & Hno). split; [assumption|]. intros ds Hr.
      destruct (digits_complete ds maxs Hr) as (j & Hj & <-). now apply Hno.
  Qed.
End Search.
