(** The successor function of the ordering generator visits every permutation of a
    multiset in one cycle. *)
From Verif Require Import Base.

Section Core.
  Context {A : Type} (ltb : A -> A -> bool).
  Hypothesis ltb_irr : forall x, ltb x x = false.
  Hypothesis ltb_trans : forall x y z, ltb x y = true -> ltb y z = true -> ltb x z = true.
  Hypothesis ltb_tot : forall x y, ltb x y = false -> ltb y x = false -> x = y.

  Lemma nlt_trans x y z : ltb x y = false -> ltb y z = false -> ltb x z = false.
  Proof.
    intros Hxy Hyz. destruct (ltb x z) eqn:E; [|reflexivity]. exfalso.
    destruct (ltb y x) eqn:E2.
    - rewrite (ltb_trans y x z) in Hyz by assumption. discriminate.
    - rewrite (ltb_tot x y) in E by assumption. congruence.
  Qed.

  Lemma lt_nlt x y : ltb x y = true -> ltb y x = false.
  Proof.
    intros E. destruct (ltb y x) eqn:E2; [|reflexivity].
    pose proof (ltb_trans x y x E E2). now rewrite ltb_irr in H.
  Qed.

  (** x <= y < z and x < y <= z give x < z *)
  Lemma nlt_lt_trans x y z : ltb y x = false -> ltb y z = true -> ltb x z = true.
  Proof.
    intros H1 H2. destruct (ltb x z) eqn:E; [reflexivity|]. exfalso.
    pose proof (nlt_trans y x z H1 E). congruence.
  Qed.
  Lemma lt_nlt_trans x y z : ltb x y = true -> ltb z y = false -> ltb x z = true.
  Proof.
    intros H1 H2. destruct (ltb x z) eqn:E; [reflexivity|]. exfalso.
    pose proof (nlt_trans x z y E H2). congruence.
  Qed.

  Lemma A_dec : forall x y : A, {x = y} + {x <> y}.
  Proof.
    intros x y. destruct (ltb x y) eqn:E1.
    - right. intros ->. rewrite ltb_irr in E1. discriminate.
    - destruct (ltb y x) eqn:E2.
      + right. intros ->. rewrite ltb_irr in E2. discriminate.
      + left. now apply ltb_tot.
  Defined.

  (** Non-increasing lists. *)
  Fixpoint nonincr (l : list A) : Prop :=
    match l with
    | [] => True
    | x :: l' => (forall y, In y l' -> ltb x y = false) /\ nonincr l'
    end.

  Lemma nonincr_app l1 l2 : nonincr (l1 ++ l2) <->
    nonincr l1 /\ nonincr l2 /\ (forall x y, In x l1 -> In y l2 -> ltb x y = false).
  Proof.
    induction l1 as [|a l1 IH]; cbn [app nonincr].
    - split; [intros H; repeat split; auto; intros x y []|tauto].
    - rewrite IH. split.
      + intros (H1 & H2 & H3 & H4). repeat split; auto.
        * intros y Hy. apply H1. apply in_app_iff. now left.
        * intros x y [<-|Hx] Hy; [apply H1, in_app_iff; now right|now apply H4].
      + intros ((H1 & H2) & H3 & H4). repeat split; auto.
        * intros y Hy. apply in_app_iff in Hy. destruct Hy; [now apply H1|].
          apply H4; [now left|assumption].
        * intros x y Hx Hy. apply H4; [now right|assumption].
  Qed.

  Lemma nonincr_unique l1 : forall l2, Permutation l1 l2 -> nonincr l1 -> nonincr l2 -> l1 = l2.
  Proof.
    induction l1 as [|x l1 IH]; intros l2 Hp H1 H2.
    - apply Permutation_nil in Hp. now subst.
    - destruct l2 as [|y l2]; [apply Permutation_sym, Permutation_nil in Hp; discriminate|].
      destruct H1 as [Hx H1], H2 as [Hy H2].
      assert (x = y).
      { assert (Hyx : In y (x :: l1)) by (apply (Permutation_in _ (Permutation_sym Hp)); now left).
        assert (Hxy : In x (y :: l2)) by (apply (Permutation_in _ Hp); now left).
        destruct Hyx as [->|Hyx]; [reflexivity|]. destruct Hxy as [->|Hxy]; [reflexivity|].
        apply ltb_tot; auto. }
      subst y. f_equal. apply IH; auto. now apply Permutation_cons_inv in Hp.
  Qed.

  (** Last element of a non-empty list given by its head and tail. *)
  Fixpoint lastx (x : A) (l : list A) : A :=
    match l with [] => x | y :: l' => lastx y l' end.

  Lemma lastx_app x l y l' : lastx x (l ++ y :: l') = lastx y l'.
  Proof. revert x; induction l as [|z l IH]; intros x; cbn; [reflexivity|apply IH]. Qed.

  Lemma lastx_In x l : In (lastx x l) (x :: l).
  Proof.
    revert x; induction l as [|y l IH]; intros x; cbn [lastx]; [now left|right; apply IH].
  Qed.

  Lemma lastx_split x l : exists l', x :: l = l' ++ [lastx x l].
  Proof.
    revert x; induction l as [|y l IH]; intros x; cbn [lastx].
    - now exists [].
    - destruct (IH y) as (l' & E). exists (x :: l'). cbn. now rewrite <- E.
  Qed.

  Lemma lastx_min x l : nonincr (x :: l) -> forall y, In y (x :: l) -> ltb y (lastx x l) = false.
  Proof.
    revert x; induction l as [|z l IH]; intros x H y Hy; cbn [lastx].
    - destruct Hy as [<-|[]]. apply ltb_irr.
    - destruct H as [H1 H2]. destruct Hy as [<-|Hy]; [apply H1, lastx_In|now apply IH].
  Qed.

  Lemma lastx_max x l : nonincr (x :: l) -> ltb x (lastx x l) = false.
  Proof. intros H. apply (lastx_min x l H). now left. Qed.

  (** Maximal non-increasing prefix of [x :: l] (without [x]) and the rest. *)
  Fixpoint split_ni (x : A) (l : list A) : list A * list A :=
    match l with
    | [] => ([], [])
    | y :: l' => if ltb x y then ([], l)
                 else let '(p, r) := split_ni y l' in (y :: p, r)
    end.

  Lemma split_ni_app x l : l = fst (split_ni x l) ++ snd (split_ni x l).
  Proof.
    revert x; induction l as [|y l IH]; intros x; cbn [split_ni]; [reflexivity|].
    destruct (ltb x y); [reflexivity|]. specialize (IH y).
    destruct (split_ni y l) as [p r]. cbn in *. now rewrite IH at 1.
  Qed.

  Lemma split_ni_char x p r : nonincr (x :: p) ->
    (match r with [] => True | b :: _ => ltb (lastx x p) b = true end) ->
    split_ni x (p ++ r) = (p, r).
  Proof.
    revert x; induction p as [|y p IH]; intros x H Hr; cbn [app lastx] in *.
    - destruct r as [|b r]; [reflexivity|]. cbn [split_ni]. now rewrite Hr.
    - destruct H as [H1 H2]. cbn [split_ni]. rewrite (H1 y) by now left.
      now rewrite IH.
  Qed.

  Lemma split_ni_spec x l : nonincr (x :: fst (split_ni x l)) /\
    (match snd (split_ni x l) with [] => True
     | b :: _ => ltb (lastx x (fst (split_ni x l))) b = true end).
  Proof.
    revert x; induction l as [|y l IH]; intros x; cbn [split_ni].
    - cbn. repeat split; intros y [].
    - destruct (ltb x y) eqn:E; [cbn; repeat split; auto; intros z []|].
      specialize (IH y). destruct (split_ni y l) as [p r]. cbn [fst snd] in *.
      destruct IH as [IH1 IH2]. split; [|exact IH2]. split; [|exact IH1].
      intros z [<-|Hz]; [exact E|]. apply (nlt_trans x y z E). now apply IH1.
  Qed.

  (** Successor: move the second element after the prefix to the front if it does
      not exceed the last of the prefix, otherwise the first; a non-increasing list
      moves its last element. *)
  Definition succ (l : list A) : list A :=
    match l with
    | [] => []
    | x :: l' =>
        match split_ni x l' with
        | (p, []) => lastx x p :: removelast (x :: p)
        | (p, [b]) => b :: x :: p
        | (p, b :: c :: r) =>
            if ltb (lastx x p) c then b :: x :: p ++ c :: r
            else c :: x :: p ++ b :: r
        end
    end.

  (** Predecessor. *)
  Definition pred (l : list A) : list A :=
    match l with
    | [] => []
    | [t] => [t]
    | t :: x :: l' =>
        match split_ni x l' with
        | (p, []) => x :: p ++ [t]
        | (p, c :: r) => if ltb (lastx x p) t then x :: p ++ t :: c :: r
                         else x :: p ++ c :: t :: r
        end
    end.

  Lemma removelast_snoc {B} (l : list B) x : removelast (l ++ [x]) = l.
  Proof. apply removelast_last. Qed.

  Lemma pred_succ l : pred (succ l) = l.
  Proof.
    destruct l as [|x l]; [reflexivity|]. unfold succ.
    pose proof (split_ni_app x l) as El. pose proof (split_ni_spec x l) as [Hs Hb].
    destruct (split_ni x l) as [p r]. cbn [fst snd] in *. subst l.
    destruct r as [|b [|c r]].
    - rewrite app_nil_r. destruct (lastx_split x p) as (l' & E). rewrite E at 1.
      rewrite removelast_last. rewrite E. destruct l' as [|z l'].
      + cbn. destruct p; [reflexivity|].
        apply (f_equal (@length A)) in E. cbn in E. lia.
      + cbn [app pred]. rewrite E in Hs. apply nonincr_app in Hs. destruct Hs as (Hs & _ & _).
        rewrite <- (app_nil_r l'), split_ni_char by auto. now rewrite app_nil_r.
    - cbn [pred]. rewrite <- (app_nil_r p), split_ni_char by auto.
      now rewrite app_nil_r.
    - destruct (ltb (lastx x p) c) eqn:Ec; cbn [pred].
      + rewrite split_ni_char by auto. now rewrite Hb.
      + rewrite split_ni_char by auto. now rewrite Ec.
  Qed.

  Lemma Permutation_move {B} (b : B) l1 l2 : Permutation (b :: l1 ++ l2) (l1 ++ b :: l2).
  Proof. apply Permutation_middle. Qed.

  Lemma succ_perm l : Permutation (succ l) l.
  Proof.
    destruct l as [|x l]; [constructor|]. unfold succ.
    pose proof (split_ni_app x l) as El.
    destruct (split_ni x l) as [p r]. cbn [fst snd] in *. subst l.
    destruct r as [|b [|c r]].
    - rewrite app_nil_r. destruct (lastx_split x p) as (l' & E). rewrite E at 1 2.
      rewrite removelast_last. apply Permutation_cons_append.
    - change (x :: p ++ [b]) with ((x :: p) ++ [b]). apply Permutation_cons_append.
    - destruct (ltb (lastx x p) c).
      + change (Permutation (b :: (x :: p) ++ c :: r) ((x :: p) ++ b :: c :: r)).
        apply Permutation_middle.
      + change (Permutation (c :: (x :: p) ++ b :: r) ((x :: p) ++ b :: c :: r)).
        replace ((x :: p) ++ b :: c :: r) with (((x :: p) ++ [b]) ++ c :: r)
          by (now rewrite <- app_assoc).
        replace ((x :: p) ++ b :: r) with (((x :: p) ++ [b]) ++ r)
          by (now rewrite <- app_assoc).
        apply Permutation_middle.
  Qed.

  (** * Every list reaches its non-increasing arrangement *)

  Fixpoint iter (n : nat) (l : list A) : list A :=
    match n with O => l | S n' => iter n' (succ l) end.

  Definition reach (l l' : list A) : Prop := exists n, iter n l = l'.

  Lemma reach_refl l : reach l l.
  Proof. now exists O. Qed.
  Lemma iter_add m : forall n l, iter (m + n) l = iter n (iter m l).
  Proof. induction m as [|m IH]; intros n l; cbn; auto. Qed.
  Lemma reach_trans l1 l2 l3 : reach l1 l2 -> reach l2 l3 -> reach l1 l3.
  Proof.
    intros [m <-] [n <-]. exists (m + n)%nat. apply iter_add.
  Qed.
  Lemma reach_step l l' : succ l = l' -> reach l l'.
  Proof. intros <-. now exists 1%nat. Qed.

  Fixpoint count_gt (x : A) (l : list A) : nat :=
    match l with [] => O | y :: l' => ((if ltb x y then 1 else 0) + count_gt x l')%nat end.

  Lemma count_gt_perm x l1 l2 : Permutation l1 l2 -> count_gt x l1 = count_gt x l2.
  Proof. induction 1; cbn; lia. Qed.

  Lemma count_gt_mono x x' l : ltb x x' = true -> (count_gt x' l <= count_gt x l)%nat.
  Proof.
    intros Hx. induction l as [|y l IH]; cbn; [lia|].
    destruct (ltb x' y) eqn:E; [rewrite (ltb_trans x x' y Hx E)|]; lia.
  Qed.
  Lemma count_gt_lt x x' l : ltb x x' = true -> In x' l -> (count_gt x' l < count_gt x l)%nat.
  Proof.
    intros Hx. induction l as [|y l IH]; cbn; [intros []|].
    intros [->|Hi].
    - rewrite ltb_irr, Hx. pose proof (count_gt_mono x x' l Hx). lia.
    - specialize (IH Hi). destruct (ltb x' y) eqn:E; [rewrite (ltb_trans x x' y Hx E)|]; lia.
  Qed.

  (** Sorting, as an existence statement. *)
  Fixpoint ins (x : A) (l : list A) : list A :=
    match l with [] => [x] | y :: l' => if ltb x y then y :: ins x l' else x :: l end.
  Lemma ins_perm x l : Permutation (ins x l) (x :: l).
  Proof.
    induction l as [|y l IH]; cbn; [reflexivity|]. destruct (ltb x y); [|reflexivity].
    rewrite IH. constructor.
  Qed.
  Lemma ins_nonincr x l : nonincr l -> nonincr (ins x l).
  Proof.
    induction l as [|y l IH]; cbn [ins nonincr].
    - intros _. split; [intros y []|exact I].
    - intros [H1 H2]. destruct (ltb x y) eqn:E.
      + split; [|now apply IH]. intros z Hz. apply (Permutation_in _ (ins_perm x l)) in Hz.
        destruct Hz as [<-|Hz]; [now apply lt_nlt|now apply H1].
      + split; [|split; assumption]. intros z [<-|Hz]; [exact E|].
        apply (nlt_trans x y z E). now apply H1.
  Qed.
  Lemma sort_exists l : exists d, Permutation l d /\ nonincr d.
  Proof.
    induction l as [|x l (d & Hp & Hd)]; [exists []; split; [constructor|exact I]|].
    exists (ins x d). split; [rewrite ins_perm; now constructor|now apply ins_nonincr].
  Qed.

  (** Longest common suffix. *)
  Lemma common_suffix (q d : list A) : length q = length d -> q = d \/
    exists q' x s d' y, q = q' ++ x :: s /\ d = d' ++ y :: s /\ x <> y.
  Proof.
    revert d. induction q as [|a q IH]; intros [|b d] Hlen; cbn in Hlen; try discriminate.
    - now left.
    - destruct (IH d) as [->|(q' & x & s & d' & y & -> & -> & Hne)]; [lia| |].
      + destruct (A_dec a b) as [->|Hne]; [now left|].
        right. exists [], a, d, [], b. repeat split; auto.
      + right. exists (a :: q'), x, s, (b :: d'), y. repeat split; auto.
  Qed.

  Definition above (q w : list A) : Prop :=
    match w with [] => True | v :: _ => exists y, In y q /\ ltb y v = true end.

  (** The elements above [x] and the others, in a non-increasing list. *)
  Lemma split_gt x D : nonincr D -> exists D1 D2, D = D1 ++ D2 /\
    (forall y, In y D1 -> ltb x y = true) /\ (forall y, In y D2 -> ltb x y = false).
  Proof.
    induction D as [|a D IH]; intros H; [exists [], []; repeat split; intros y []|].
    destruct H as [H1 H2]. destruct (IH H2) as (D1 & D2 & -> & G1 & G2).
    destruct (ltb x a) eqn:E.
    - exists (a :: D1), D2. repeat split; auto. intros y [<-|Hy]; auto.
    - exists [], (a :: D1 ++ D2). repeat split; [intros y []|].
      intros y [<-|Hy]; auto. apply (nlt_trans x a y E). now apply H1.
  Qed.

  Lemma reach_sorted_aux : forall n m q d w q' x s d' y,
    (length q < n)%nat -> (count_gt x q * S (length q) + length s < m)%nat ->
    Permutation q d -> nonincr d -> above q w ->
    q = q' ++ x :: s -> d = d' ++ y :: s -> x <> y ->
    reach (q ++ w) (d ++ w).
  Proof.
    induction n as [|n IHn]; [intros; lia|].
    (* the statement at smaller length, without a given decomposition *)
    assert (IH : forall q d w, (length q < n)%nat -> Permutation q d -> nonincr d ->
                 above q w -> reach (q ++ w) (d ++ w)).
    { intros q d w Hl Hp Hd Hw.
      destruct (common_suffix q d (Permutation_length Hp))
        as [->|(q' & x & s & d' & y & Eq & Ed & Hne)]; [apply reach_refl|].
      eapply (IHn (S (count_gt x q * S (length q) + length s)) q d w q' x s d' y);
        eauto; lia. }
    induction m as [|m IHm]; [intros; lia|].
    intros q d w q' x s d' y Hn Hm Hp Hd Hw Eq Ed Hne.
    (* y is smallest among q' x, and is in q' *)
    assert (Hp' : Permutation (x :: q') (y :: d')).
    { subst q d. rewrite <- !Permutation_middle in Hp.
      change (x :: q' ++ s) with ((x :: q') ++ s) in Hp.
      change (y :: d' ++ s) with ((y :: d') ++ s) in Hp.
      now apply Permutation_app_inv_r in Hp. }
    pose proof Hd as Hd0. rewrite Ed in Hd0. apply nonincr_app in Hd0.
    destruct Hd0 as (Hd1 & Hd2 & Hd3). cbn [nonincr] in Hd2. destruct Hd2 as [Hd2 Hd4].
    assert (Hmin : forall z, In z (x :: q') -> ltb z y = false).
    { intros z Hz. apply (Permutation_in _ Hp') in Hz.
      destruct Hz as [<-|Hz]; [apply ltb_irr|]. apply Hd3; [assumption|now left]. }
    assert (Hyq : In y q').
    { assert (Hy : In y (x :: q')) by (apply (Permutation_in _ (Permutation_sym Hp')); now left).
      destruct Hy as [Hy|Hy]; [contradiction|assumption]. }
    assert (Hyx : ltb y x = true).
    { destruct (ltb y x) eqn:E; [reflexivity|]. exfalso. apply Hne.
      apply ltb_tot; [apply Hmin; now left|assumption]. }
    (* first reach the sorted arrangement of q' *)
    destruct (sort_exists q') as (D & HpD & HD).
    destruct D as [|D0 D].
    { apply Permutation_sym, Permutation_nil in HpD. subst q'. destruct Hyq. }
    assert (Hlast : lastx D0 D = y).
    { apply ltb_tot.
      - destruct (ltb (lastx D0 D) y) eqn:E; [|reflexivity]. exfalso.
        rewrite Hmin in E; [discriminate|]. right.
        apply (Permutation_in _ (Permutation_sym HpD)). apply lastx_In.
      - apply lastx_min; [exact HD|]. now apply (Permutation_in _ HpD). }
    assert (R1 : reach (q ++ w) ((D0 :: D) ++ x :: s ++ w)).
    { subst q. rewrite <- app_assoc. cbn [app].
      apply (IH q' (D0 :: D) (x :: s ++ w)); auto.
      - rewrite app_length in Hn. cbn in Hn. lia.
      - cbn. now exists y. }
    apply (reach_trans _ _ _ R1). clear R1.
    assert (HpDq : Permutation q ((D0 :: D) ++ x :: s)).
    { subst q. now apply Permutation_app_tail. }
    destruct s as [|e s].
    - (* x goes to the front *)
      assert (Es : succ ((D0 :: D) ++ x :: w) = x :: (D0 :: D) ++ w).
      { cbn [app succ]. rewrite split_ni_char; [|exact HD|now rewrite Hlast].
        destruct w as [|v w]; [now rewrite app_nil_r|].
        destruct Hw as (z & Hz & Hzv). rewrite Hlast.
        assert (Hyz : ltb z y = false).
        { apply Hmin. subst q. apply in_app_iff in Hz. destruct Hz as [Hz|[<-|[]]]; cbn; tauto. }
        now rewrite (nlt_lt_trans y z v Hyz Hzv). }
      cbn [app] in Es |- *. apply (reach_trans _ _ _ (reach_step _ _ Es)).
      destruct (split_gt x (D0 :: D) HD) as (D1 & D2 & ED & G1 & G2).
      assert (HD12 := HD). rewrite ED in HD12. apply nonincr_app in HD12.
      destruct HD12 as (HD1 & HD2 & HD3).
      assert (Edd : d = D1 ++ x :: D2).
      { apply nonincr_unique; auto.
        - rewrite <- Hp, HpDq, ED, <- app_assoc. apply Permutation_app_head.
          rewrite <- Permutation_cons_append. reflexivity.
        - apply nonincr_app. repeat split; auto. intros a b Ha [<-|Hb].
          + apply lt_nlt. now apply G1.
          + now apply HD3. }
      change (x :: D0 :: D ++ w) with ((x :: D0 :: D) ++ w). rewrite ED.
      destruct D1 as [|c0 D1].
      + (* sorted *)
        rewrite Edd. apply reach_refl.
      + destruct (lastx_split c0 D1) as (D1' & EL). set (x' := lastx c0 D1) in *.
        assert (Hx' : ltb x x' = true) by (apply G1, lastx_In).
        apply (IHm _ d w (x :: D1') x' D2 (c0 :: D1) x).
        * rewrite <- ED. apply Permutation_length in HpDq. rewrite app_length in HpDq.
          cbn in *. lia.
        * assert (Hpp : Permutation (x :: (c0 :: D1) ++ D2) q).
          { rewrite <- ED, HpDq. rewrite <- Permutation_cons_append. reflexivity. }
          rewrite (count_gt_perm _ _ _ Hpp), (Permutation_length Hpp).
          assert (Hin : In x' q).
          { apply (Permutation_in _ Hpp). right. apply in_app_iff. left. apply lastx_In. }
          pose proof (count_gt_lt x x' q Hx' Hin).
          assert (length D2 < length q)%nat.
          { apply Permutation_length in Hpp. cbn in Hpp. rewrite app_length in Hpp. lia. }
          cbn [length] in Hm. nia.
        * rewrite <- Hp, HpDq, ED. rewrite <- Permutation_cons_append. reflexivity.
        * assumption.
        * destruct w as [|v w]; [exact I|]. destruct Hw as (z & Hz & Hzv). exists z.
          split; [|exact Hzv]. apply (Permutation_in (l:=q)); [|exact Hz].
          rewrite HpDq, ED. rewrite <- Permutation_cons_append. reflexivity.
        * rewrite EL. cbn [app]. now rewrite <- app_assoc.
        * exact Edd.
        * intros E. rewrite E, ltb_irr in Hx'. discriminate.
    - (* e goes to the front *)
      assert (Hey : ltb y e = false) by (apply Hd2; now left).
      assert (Es : succ ((D0 :: D) ++ x :: (e :: s) ++ w) = e :: (D0 :: D) ++ x :: s ++ w).
      { cbn [app succ]. rewrite split_ni_char; [|exact HD|now rewrite Hlast].
        now rewrite Hlast, Hey. }
      apply (reach_trans _ _ _ (reach_step _ _ Es)).
      replace (e :: (D0 :: D) ++ x :: s ++ w) with ((e :: (D0 :: D) ++ x :: s) ++ w)
        by (cbn; now rewrite <- app_assoc).
      assert (Hpp : Permutation q (e :: (D0 :: D) ++ x :: s)).
      { rewrite HpDq. replace ((D0 :: D) ++ x :: e :: s) with (((D0 :: D) ++ [x]) ++ e :: s)
          by (now rewrite <- app_assoc).
        rewrite <- Permutation_middle. constructor. now rewrite <- app_assoc. }
      apply (IHm _ d w (e :: D0 :: D) x s (d' ++ [y]) e).
      + now rewrite <- (Permutation_length Hpp).
      + rewrite <- (count_gt_perm _ _ _ Hpp), <- (Permutation_length Hpp).
        cbn [length] in Hm. lia.
      + now rewrite <- Hpp.
      + assumption.
      + destruct w as [|v w]; [exact I|]. destruct Hw as (z & Hz & Hzv). exists z.
        split; [|exact Hzv]. now apply (Permutation_in _ Hpp).
      + reflexivity.
      + rewrite Ed, <- app_assoc. reflexivity.
      + intros ->. congruence.
  Qed.

  Lemma reach_sorted q d : Permutation q d -> nonincr d -> reach q d.
  Proof.
    intros Hp Hd. destruct (common_suffix q d (Permutation_length Hp))
      as [->|(q' & x & s & d' & y & Eq & Ed & Hne)]; [apply reach_refl|].
    rewrite <- (app_nil_r q), <- (app_nil_r d).
    eapply (reach_sorted_aux (S (length q)) (S (count_gt x q * S (length q) + length s))
             q d [] q' x s d' y); eauto; try lia. exact I.
  Qed.

  (** * The cycle *)

  Fixpoint orbit (n : nat) (l : list A) : list (list A) :=
    match n with O => [] | S n' => l :: orbit n' (succ l) end.

  Lemma orbit_In n : forall l p, In p (orbit n l) <-> exists k, (k < n)%nat /\ iter k l = p.
  Proof.
    induction n as [|n IH]; intros l p; cbn [orbit In].
    - split; [intros []|intros (k & Hk & _); lia].
    - rewrite IH. split.
      + intros [<-|(k & Hk & E)]; [exists O; split; [lia|reflexivity]|].
        exists (S k). split; [lia|exact E].
      + intros ([|k] & Hk & E); [now left|]. right. exists k. split; [lia|exact E].
  Qed.

  Lemma iter_succ_comm n : forall l, iter n (succ l) = succ (iter n l).
  Proof. induction n as [|n IH]; intros l; cbn; auto. Qed.

  Fixpoint iterp (n : nat) (l : list A) : list A :=
    match n with O => l | S n' => iterp n' (pred l) end.

  Lemma iterp_iter n l : iterp n (iter n l) = l.
  Proof.
    revert l. induction n as [|n IH]; intros l; cbn; [reflexivity|].
    rewrite iter_succ_comm, pred_succ. apply IH.
  Qed.

  Lemma list_dec : forall l1 l2 : list A, {l1 = l2} + {l1 <> l2}.
  Proof. exact (list_eq_dec A_dec). Qed.

  (** The first return. *)
  Lemma first_return d : nonincr d -> exists N, (1 <= N)%nat /\ iter N d = d /\
    forall k, (1 <= k < N)%nat -> iter k d <> d.
  Proof.
    intros Hd. destruct (reach_sorted (succ d) d (succ_perm d) Hd) as (k & Hk).
    assert (H : exists M, (1 <= M)%nat /\ iter M d = d) by (exists (S k); split; [lia|exact Hk]).
    destruct H as (M & HM1 & HM). clear k Hk.
    induction M as [M IH] using (well_founded_induction lt_wf).
    assert (Hdec : (exists k, (1 <= k < M)%nat /\ iter k d = d) \/
                   (forall k, (1 <= k < M)%nat -> iter k d <> d)).
    { clear IH HM1 HM. induction M as [|M IHM]; [right; intros; lia|].
      destruct IHM as [(k & Hk & E)|Hno]; [left; exists k; split; [lia|exact E]|].
      destruct M as [|M]; [right; intros; lia|].
      destruct (list_dec (iter (S M) d) d) as [E|E].
      - left. exists (S M). split; [lia|exact E].
      - right. intros k Hk. destruct (Nat.eq_dec k (S M)) as [->|]; [exact E|apply Hno; lia]. }
    destruct Hdec as [(k & Hk & E)|Hno]; [apply (IH k); [lia|lia|exact E]|].
    exists M. auto.
  Qed.

  Theorem orbit_all d : nonincr d -> exists N, (1 <= N)%nat /\ iter N d = d /\
    (forall k, (1 <= k < N)%nat -> iter k d <> d) /\
    NoDup (orbit N d) /\ (forall p, In p (orbit N d) <-> Permutation p d).
  Proof.
    intros Hd. destruct (first_return d Hd) as (N & HN1 & HN & Hmin).
    exists N. repeat split; auto.
    - assert (G : forall n l, (forall i j, (i < j < n)%nat -> iter i l <> iter j l) ->
                   NoDup (orbit n l)).
      { induction n as [|n IH]; intros l H; cbn [orbit]; constructor.
        - rewrite orbit_In. intros (k & Hk & E). apply (H O (S k)); [lia|]. now cbn.
        - apply IH. intros i j Hij. apply (H (S i) (S j)). lia. }
      apply G. intros i j Hij E. apply (Hmin (j - i)%nat); [lia|].
      replace j with ((j - i) + i)%nat in E by lia. rewrite iter_add in E.
      apply (f_equal (iterp i)) in E. now rewrite !iterp_iter in E.
    - rewrite orbit_In. intros (k & _ & <-). clear. revert d. induction k as [|k IH]; intros d.
      + reflexivity.
      + cbn. now rewrite IH, succ_perm.
    - intros Hp. destruct (reach_sorted p d Hp Hd) as (m & Hm).
      apply orbit_In. assert (Ep : p = iterp m d) by (now rewrite <- Hm, iterp_iter).
      clear Hp Hm. subst p. assert (G : forall m k, (k < N)%nat ->
         exists k', (k' < N)%nat /\ iter k' d = iterp m (iter k d)).
      { clear m. induction m as [|m IH]; intros k Hk; [now exists k|].
        cbn. destruct k as [|k].
        - destruct (IH (N - 1)%nat) as (k' & Hk' & E); [lia|]. exists k'. split; [exact Hk'|].
          rewrite E. f_equal. replace N with (S (N - 1)) in HN by lia.
          cbn in HN. rewrite iter_succ_comm in HN. cbn. rewrite <- HN at 2.
          now rewrite pred_succ.
        - destruct (IH k) as (k' & Hk' & E); [lia|]. exists k'. split; [exact Hk'|].
          rewrite E. f_equal. cbn. now rewrite iter_succ_comm, pred_succ. }
      destruct (G m O) as (k' & Hk' & E); [lia|]. exists k'. split; [exact Hk'|exact E].
  Qed.
End Core.
