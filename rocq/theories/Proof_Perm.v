(** The pointer program refines the successor function of [Proof_PermCore]. *)
From Verif Require Import Base Model_Perm Proof_PermCore.
Open Scope result_scope.

Section Refine.
  Context {A : Type} (ltb : A -> A -> bool).
  Hypothesis ltb_irr : forall x, ltb x x = false.
  Hypothesis ltb_trans : forall x y z, ltb x y = true -> ltb y z = true -> ltb x z = true.
  Hypothesis ltb_tot : forall x y, ltb x y = false -> ltb y x = false -> x = y.

  Notation node := (@node A).
  Notation heap := (@heap A).
  Notation succ := (@succ A ltb).
  Notation nonincr := (@nonincr A ltb).

  (** The nodes [ids], starting at pointer [o], carry the values [l]. *)
  Fixpoint chain (hp : heap) (o : option nat) (ids : list nat) (l : list A) : Prop :=
    match ids, l with
    | [], [] => o = None
    | a :: ids', v :: l' =>
        o = Some a /\ exists nx, nth_error hp a = Some (mkNode v nx) /\ chain hp nx ids' l'
    | _, _ => False
    end.

  Lemma chain_length hp ids : forall o l, chain hp o ids l -> length ids = length l.
  Proof.
    induction ids as [|a ids IH]; intros o [|v l] H; cbn in *; try tauto.
    destruct H as (_ & nx & _ & H). f_equal. eauto.
  Qed.

  Lemma chain_head hp ids : forall o l, chain hp o ids l -> o = nth_error ids 0.
  Proof. destruct ids as [|a ids]; intros o [|v l] H; cbn in *; tauto. Qed.

  Lemma chain_nth hp ids : forall o l k a, chain hp o ids l -> nth_error ids k = Some a ->
    exists v, nth_error l k = Some v /\ nth_error hp a = Some (mkNode v (nth_error ids (S k))).
  Proof.
    induction ids as [|b ids IH]; intros o [|v l] k a H Hk; cbn in H; try tauto;
      [destruct k; discriminate|].
    destruct H as (-> & nx & Hb & H). destruct k as [|k]; cbn in Hk.
    - injection Hk as <-. exists v. split; [reflexivity|]. rewrite Hb.
      apply chain_head in H. subst nx. now cbn.
    - destruct (IH nx l k a H Hk) as (v' & H1 & H2). exists v'. split; [exact H1|].
      rewrite H2. reflexivity.
  Qed.

  Lemma chain_In hp ids : forall o l a, chain hp o ids l -> In a ids -> (a < length hp)%nat.
  Proof.
    intros o l a H Hin. apply In_nth_error in Hin. destruct Hin as (k & Hk).
    destruct (chain_nth hp ids o l k a H Hk) as (v & _ & E).
    apply nth_error_Some. congruence.
  Qed.

  Lemma visit_from_ok hp ids : forall fuel o l, chain hp o ids l -> (length ids <= fuel)%nat ->
    visit_from fuel hp o = Ok l.
  Proof.
    induction ids as [|a ids IH]; intros fuel o [|v l] H Hf; cbn in H; try tauto.
    - subst o. destruct fuel; reflexivity.
    - destruct H as (-> & nx & Ha & H). destruct fuel as [|fuel]; [cbn in Hf; lia|].
      cbn. rewrite Ha. cbn. rewrite (IH fuel nx l H); [reflexivity|cbn in Hf; lia].
  Qed.

  Lemma visit_ok hp h ids l : chain hp (Some h) ids l -> NoDup ids -> visit hp h = Ok l.
  Proof.
    intros H Hnd. apply (visit_from_ok hp ids); [exact H|].
    rewrite <- (seq_length (length hp) 0). apply le_S, NoDup_incl_length; [exact Hnd|].
    intros a Ha. apply in_seq. apply (chain_In hp ids (Some h) l) in Ha; [lia|exact H].
  Qed.

  Lemma nth_error_set_next (hp : heap) a q : forall b,
    nth_error (set_next hp a q) b =
    if Nat.eqb a b then option_map (fun n => mkNode (value n) q) (nth_error hp b)
    else nth_error hp b.
  Proof.
    revert a. induction hp as [|n hp IH]; intros [|a] [|b]; cbn; try reflexivity.
    - now destruct (a =? b)%nat.
    - apply IH.
  Qed.

  Lemma chain_set_other hp a q ids : forall o l, ~ In a ids -> chain hp o ids l ->
    chain (set_next hp a q) o ids l.
  Proof.
    induction ids as [|b ids IH]; intros o [|v l] Hn H; cbn in *; try tauto.
    destruct H as (-> & nx & Hb & H). split; [reflexivity|]. exists nx.
    rewrite nth_error_set_next. destruct (Nat.eqb_spec a b) as [->|Hne]; [tauto|].
    split; [exact Hb|]. apply IH; tauto.
  Qed.

  (** Re-pointing one node in the middle. *)
  Lemma chain_set_mid hp s t : forall ids1 l1 o ids2 vs vt l2 nx,
    length ids1 = length l1 -> NoDup (ids1 ++ s :: t :: ids2) ->
    chain hp o (ids1 ++ s :: t :: ids2) (l1 ++ vs :: vt :: l2) ->
    nth_error hp t = Some (mkNode vt nx) ->
    chain (set_next hp s nx) o (ids1 ++ s :: ids2) (l1 ++ vs :: l2).
  Proof.
    induction ids1 as [|a ids1 IH]; intros [|v l1] o ids2 vs vt l2 nx Hlen Hnd H Ht;
      cbn [length] in Hlen; try discriminate; cbn [app] in *.
    - cbn in H. destruct H as (-> & n1 & Hs & -> & n2 & Ht2 & H).
      rewrite Ht in Ht2. injection Ht2 as <-. cbn. split; [reflexivity|].
      exists nx. rewrite nth_error_set_next, Nat.eqb_refl, Hs. split; [reflexivity|].
      apply chain_set_other; [|exact H]. inversion Hnd as [|a l Hni _]; subst.
      intros Hin. apply Hni. now right.
    - cbn in H. destruct H as (-> & n1 & Ha & H). cbn. split; [reflexivity|]. exists n1.
      inversion Hnd as [|a' l Hni Hnd']; subst.
      rewrite nth_error_set_next. destruct (Nat.eqb_spec s a) as [->|Hne].
      + exfalso. apply Hni. apply in_app_iff. right. now left.
      + split; [exact Ha|]. apply (IH l1 n1 ids2 vs vt); auto.
  Qed.

  Lemma chain_move hp h s t ids1 l1 ids2 vs vt l2 nx :
    length ids1 = length l1 -> NoDup (ids1 ++ s :: t :: ids2) ->
    chain hp (Some h) (ids1 ++ s :: t :: ids2) (l1 ++ vs :: vt :: l2) ->
    nth_error hp t = Some (mkNode vt nx) ->
    chain (set_next (set_next hp s nx) t (Some h)) (Some t)
      (t :: ids1 ++ s :: ids2) (vt :: l1 ++ vs :: l2) /\ NoDup (t :: ids1 ++ s :: ids2).
  Proof.
    intros Hlen Hnd H Ht.
    assert (Hp : Permutation (ids1 ++ s :: t :: ids2) (t :: ids1 ++ s :: ids2)).
    { replace (ids1 ++ s :: t :: ids2) with ((ids1 ++ [s]) ++ t :: ids2)
        by (now rewrite <- app_assoc).
      rewrite <- Permutation_middle. constructor. now rewrite <- app_assoc. }
    assert (Hnd' : NoDup (t :: ids1 ++ s :: ids2)) by (apply (Permutation_NoDup Hp Hnd)).
    split; [|exact Hnd']. cbn [chain]. split; [reflexivity|]. exists (Some h).
    inversion Hnd' as [|a l Hni _]; subst.
    rewrite !nth_error_set_next, Nat.eqb_refl.
    destruct (Nat.eqb_spec s t) as [->|Hst].
    { exfalso. apply Hni, in_app_iff. right. now left. }
    rewrite Ht. split; [reflexivity|].
    apply chain_set_other; [exact Hni|]. now apply (chain_set_mid hp s t ids1 l1 (Some h) ids2 vs vt).
  Qed.

  (** Abstract state: the list and the position of [i]; [j] follows [i]. *)
  Definition Rel (st : pstate) (l : list A) (k : nat) : Prop :=
    exists hp h i j ids, st = (hp, h, i, j) /\ chain hp (Some h) ids l /\ NoDup ids /\
      nth_error ids k = Some i /\ j = nth_error ids (S k).

  Lemma split_at {B} (l : list B) k a : nth_error l k = Some a ->
    exists l1 l2, l = l1 ++ a :: l2 /\ length l1 = k.
  Proof. intros H. apply nth_error_split in H. exact H. Qed.

  Lemma nth_error_mid {B} (l1 : list B) x l2 : nth_error (l1 ++ x :: l2) (length l1) = Some x.
  Proof. rewrite nth_error_app2 by lia. now rewrite Nat.sub_diag. Qed.

  Lemma nth_error_mid1 {B} (l1 : list B) x y l2 :
    nth_error (l1 ++ x :: y :: l2) (S (length l1)) = Some y.
  Proof. rewrite nth_error_app2 by lia. now replace (S (length l1) - length l1)%nat with 1%nat by lia. Qed.

  Lemma nth_error_mid2 {B} (l1 : list B) x y l2 :
    nth_error (l1 ++ x :: y :: l2) (S (S (length l1))) = nth_error l2 0.
  Proof. rewrite nth_error_app2 by lia. now replace (S (S (length l1)) - length l1)%nat with 2%nat by lia. Qed.

  Lemma split_ids {B} (ids : list B) (xp : list A) (v b : A) (r : list A) :
    length ids = length (xp ++ v :: b :: r) ->
    exists pi i bi ri, ids = pi ++ i :: bi :: ri /\ length pi = length xp /\ length ri = length r.
  Proof.
    revert ids. induction xp as [|x xp IH]; intros ids H.
    - destruct ids as [|i [|bi ri]]; cbn in H; try discriminate.
      exists [], i, bi, ri. repeat split; cbn; lia.
    - destruct ids as [|a ids]; cbn [app length] in H; [discriminate|].
      destruct (IH ids) as (pi & i & bi & ri & -> & H1 & H2); [lia|].
      exists (a :: pi), i, bi, ri. repeat split; cbn; lia.
  Qed.

  Definition hv (xp : list A) (v : A) : A := match xp with [] => v | x :: _ => x end.

  Lemma continues_ok st xp v b r : Rel st (xp ++ v :: b :: r) (length xp) ->
    continues ltb st = Ok (match r with [] => ltb b (hv xp v) | _ => true end).
  Proof.
    intros (hp & h & i & j & ids & -> & Hc & Hnd & Hi & ->).
    destruct (split_ids ids xp v b r (chain_length _ _ _ _ Hc)) as (pi & i' & bi & ri & -> & L1 & L2).
    rewrite <- L1 in *. rewrite nth_error_mid in Hi. injection Hi as ->.
    rewrite nth_error_mid1. unfold continues.
    destruct (chain_nth _ _ _ _ (S (length pi)) bi Hc (nth_error_mid1 _ _ _ _)) as (v1 & E1 & E2).
    rewrite nth_error_mid2 in E2. rewrite L1, nth_error_mid1 in E1. injection E1 as <-.
    cbn [deref]. rewrite E2. cbn [of_option rbind].
    assert (Eh : nth_error (pi ++ i :: bi :: ri) 0 = Some h)
      by (symmetry; now apply chain_head in Hc).
    destruct (chain_nth _ _ _ _ 0%nat h Hc Eh) as (v2 & F1 & F2).
    rewrite F2. cbn [of_option rbind next_elem value].
    assert (v2 = hv xp v) by (destruct xp; cbn in F1 |- *; congruence). subst v2.
    destruct ri as [|ci ri], r as [|c r]; cbn in L2; try lia; reflexivity.
  Qed.

  (** What one body does to the list. *)
  Definition next_list (xp : list A) (v b : A) (r : list A) : list A :=
    match r with
    | c :: r' => if ltb v c then b :: xp ++ v :: r else c :: xp ++ v :: b :: r'
    | [] => b :: xp ++ [v]
    end.
  Definition moved (v b : A) (r : list A) : A :=
    match r with c :: _ => if ltb v c then b else c | [] => b end.

  Lemma body_finish hp h i s t ids1 l1 ids2 vs vt l2 nx k vh (cond : bool) :
    length ids1 = length l1 -> NoDup (ids1 ++ s :: t :: ids2) ->
    chain hp (Some h) (ids1 ++ s :: t :: ids2) (l1 ++ vs :: vt :: l2) ->
    nth_error hp t = Some (mkNode vt nx) ->
    nth_error (ids1 ++ s :: t :: ids2) k = Some i -> (k <= length ids1)%nat ->
    nth_error hp h = Some vh -> cond = ltb vt (value vh) ->
    exists st',
      (ni' <- deref (set_next (set_next hp s nx) t (Some h)) (Some (if cond then t else i)) ;;
       Ok (set_next (set_next hp s nx) t (Some h), t, (if cond then t else i), next_elem ni'))
      = Ok st' /\ Rel st' (vt :: l1 ++ vs :: l2) (if cond then O else S k).
  Proof.
    intros Hlen Hnd Hc Ht Hi Hk Hh Ec.
    destruct (chain_move hp h s t ids1 l1 ids2 vs vt l2 nx Hlen Hnd Hc Ht) as [Hc' Hnd'].
    set (hp2 := set_next (set_next hp s nx) t (Some h)) in *.
    set (ids' := t :: ids1 ++ s :: ids2) in *.
    set (k' := if cond then O else S k).
    assert (Hi' : nth_error ids' k' = Some (if cond then t else i)).
    { unfold k', ids'. destruct cond; [reflexivity|]. cbn [nth_error].
      destruct (Nat.eq_dec k (length ids1)) as [->|Hne].
      - rewrite nth_error_mid in Hi |- *. exact Hi.
      - rewrite nth_error_app1 in Hi |- * by lia. exact Hi. }
    destruct (chain_nth _ _ _ _ _ _ Hc' Hi') as (v1 & E1 & E2).
    cbn [deref]. rewrite E2. cbn [of_option rbind next_elem].
    eexists. split; [reflexivity|].
    exists hp2, t, (if cond then t else i), (nth_error ids' (S k')), ids'. auto.
  Qed.

  Lemma body_ok st xp v b r : Rel st (xp ++ v :: b :: r) (length xp) ->
    exists st', body ltb st = Ok st' /\
      Rel st' (next_list xp v b r)
        (if ltb (moved v b r) (hv xp v) then O else S (length xp)).
  Proof.
    intros (hp & h & i & j & ids & -> & Hc & Hnd & Hi & ->).
    destruct (split_ids ids xp v b r (chain_length _ _ _ _ Hc)) as (pi & i' & bi & ri & -> & L1 & L2).
    rewrite <- L1 in Hi. rewrite nth_error_mid in Hi. injection Hi as ->.
    rewrite <- L1, nth_error_mid1. unfold body.
    destruct (chain_nth _ _ _ _ (length pi) i Hc (nth_error_mid _ _ _)) as (v0 & D1 & D2).
    rewrite nth_error_mid1 in D2. rewrite L1, nth_error_mid in D1. injection D1 as <-.
    destruct (chain_nth _ _ _ _ (S (length pi)) bi Hc (nth_error_mid1 _ _ _ _)) as (v1 & E1 & E2).
    rewrite nth_error_mid2 in E2. rewrite L1, nth_error_mid1 in E1. injection E1 as <-.
    assert (Eh : nth_error (pi ++ i :: bi :: ri) 0 = Some h)
      by (symmetry; now apply chain_head in Hc).
    destruct (chain_nth _ _ _ _ 0%nat h Hc Eh) as (v2 & F1 & F2).
    assert (v2 = hv xp v) by (destruct xp; cbn in F1 |- *; congruence). subst v2.
    cbn [deref]. rewrite E2, D2. cbn [of_option rbind next_elem value].
    destruct ri as [|ci ri], r as [|c r]; cbn in L2; try lia.
    - cbn [nth_error]. cbn [rbind]. rewrite D2. cbn [of_option rbind next_elem].
      rewrite E2. cbn [of_option rbind next_elem value nth_error] in *. rewrite F2.
      cbn [of_option rbind next_elem value].
      eapply body_finish; eauto using nth_error_mid.
    - cbn [nth_error] in E2 |- *.
      assert (Ici : nth_error (pi ++ i :: bi :: ci :: ri) (S (S (length pi))) = Some ci)
        by (now rewrite nth_error_mid2).
      destruct (chain_nth _ _ _ _ _ _ Hc Ici) as (v3 & G1 & G2).
      assert (v3 = c).
      { rewrite L1, nth_error_mid2 in G1. cbn in G1. congruence. } subst v3.
      rewrite G2. cbn [of_option rbind value]. cbn [moved next_list].
      destruct (ltb v c) eqn:Ev; cbn [negb].
      + cbn [rbind]. rewrite D2. cbn [of_option rbind next_elem]. rewrite E2.
        cbn [of_option rbind next_elem value]. rewrite F2. cbn [of_option rbind value].
        eapply body_finish; eauto using nth_error_mid.
      + cbn [of_option rbind]. rewrite E2. cbn [of_option rbind next_elem].
        rewrite G2. cbn [of_option rbind next_elem value]. rewrite F2.
        cbn [of_option rbind value].
        replace (c :: xp ++ v :: b :: r) with (c :: (xp ++ [v]) ++ b :: r)
          by (now rewrite <- app_assoc).
        eapply (body_finish hp h i bi ci (pi ++ [i]) (xp ++ [v]) ri b c r).
        * rewrite !app_length. cbn. lia.
        * now rewrite <- app_assoc.
        * rewrite <- !app_assoc. exact Hc.
        * exact G2.
        * rewrite <- app_assoc. apply nth_error_mid.
        * rewrite app_length. cbn. lia.
        * exact F2.
        * reflexivity.
  Qed.

  (** * The list-level invariant *)
  Definition Inv (l : list A) (k : nat) : Prop :=
    exists xp v b r, l = xp ++ v :: b :: r /\ k = length xp /\ nonincr (xp ++ [v]) /\
      (ltb v b = true \/ (r = [] /\ ltb v b = false)).

  Lemma hv_split xp v : exists p, xp ++ [v] = hv xp v :: p /\ lastx (hv xp v) p = v.
  Proof.
    destruct xp as [|x xp]; cbn.
    - now exists [].
    - exists (xp ++ [v]). split; [reflexivity|]. now rewrite lastx_app.
  Qed.

  Lemma snoc_cons {B} (l : list B) x y l2 : l ++ x :: y :: l2 = (l ++ [x]) ++ y :: l2.
  Proof. now rewrite <- app_assoc. Qed.

  Lemma next_list_succ xp v b r : nonincr (xp ++ [v]) ->
    (ltb v b = true \/ (r = [] /\ ltb v b = false)) ->
    succ (xp ++ v :: b :: r) = next_list xp v b r.
  Proof.
    intros Hn Hb. rewrite snoc_cons. destruct (hv_split xp v) as (p & Ep & El).
    assert (Hx : forall y, b :: xp ++ v :: y = b :: (xp ++ [v]) ++ y)
      by (intros y; now rewrite <- app_assoc).
    unfold next_list. destruct Hb as [Hb|[-> Hb]].
    - rewrite Ep in *. cbn [app Proof_PermCore.succ].
      rewrite split_ni_char; [|exact Hn|now rewrite El].
      destruct r as [|c r]; [reflexivity|]. rewrite El.
      destruct (ltb v c).
      + rewrite snoc_cons, Ep. reflexivity.
      + rewrite snoc_cons, Ep. reflexivity.
    - rewrite Ep in *. cbn [app Proof_PermCore.succ].
      assert (Hn2 : nonincr (hv xp v :: p ++ [b])).
      { change (nonincr ((hv xp v :: p) ++ [b])). apply nonincr_app. split; [exact Hn|].
        split; [cbn; split; [intros y []|exact I]|].
        intros x y Hx' [<-|[]]. apply (nlt_trans ltb ltb_trans ltb_tot x v b); [|exact Hb].
        rewrite <- El. now apply lastx_min. }
      rewrite <- (app_nil_r (p ++ [b])), split_ni_char; [|exact Hn2|exact I].
      rewrite lastx_app. cbn [lastx]. f_equal.
      change (removelast ((hv xp v :: p) ++ [b]) = hv xp v :: p). apply removelast_last.
  Qed.

  Lemma inv_next xp v b r : nonincr (xp ++ [v]) ->
    (ltb v b = true \/ (r = [] /\ ltb v b = false)) ->
    (match r with [] => ltb b (hv xp v) | _ => true end) = true ->
    Inv (next_list xp v b r) (if ltb (moved v b r) (hv xp v) then O else S (length xp)).
  Proof.
    intros Hn Hb Hgo. destruct (hv_split xp v) as (p & Ep & El).
    assert (front : forall t y, ltb t (hv xp v) = true -> Inv (t :: xp ++ v :: y) 0).
    { intros t y Ht. replace (t :: xp ++ v :: y) with ([] ++ t :: hv xp v :: p ++ y).
      - exists [], t, (hv xp v), (p ++ y). repeat split.
        + intros z [].
        + now left.
      - cbn. f_equal. change (hv xp v :: p ++ y) with ((hv xp v :: p) ++ y).
        rewrite <- Ep. now rewrite <- app_assoc. }
    assert (keepp : forall t y c r', y = c :: r' -> ltb t (hv xp v) = false ->
              ltb v c = true -> Inv (t :: xp ++ v :: y) (S (length xp))).
    { intros t y c r' -> Ht Hc. exists (t :: xp), v, c, r'. repeat split.
      - intros z Hz. apply (nlt_trans ltb ltb_trans ltb_tot t (hv xp v) z Ht).
        rewrite Ep in Hn, Hz. destruct Hz as [<-|Hz]; [apply ltb_irr|]. now apply Hn.
      - exact Hn.
      - now left. }
    destruct r as [|c r]; cbn [next_list moved].
    - rewrite Hgo. now apply front.
    - assert (Hvb : ltb v b = true) by (destruct Hb as [Hb|[E _]]; [exact Hb|discriminate]).
      destruct (ltb v c) eqn:Ec.
      + destruct (ltb b (hv xp v)) eqn:Eb; [now apply front|].
        now apply (keepp b (c :: r) c r).
      + destruct (ltb c (hv xp v)) eqn:Eb; [now apply front|].
        now apply (keepp c (b :: r) b r).
  Qed.

  (** The loop goes on exactly when the successor is not the sorted list. *)
  Lemma go_iff xp v b r d : nonincr (xp ++ [v]) ->
    (ltb v b = true \/ (r = [] /\ ltb v b = false)) ->
    Permutation (xp ++ v :: b :: r) d -> nonincr d ->
    (match r with [] => ltb b (hv xp v) | _ => true end = true <->
     succ (xp ++ v :: b :: r) <> d).
  Proof.
    intros Hn Hb Hp Hd. rewrite next_list_succ by assumption.
    destruct (hv_split xp v) as (p & Ep & El).
    assert (Hadj : forall t y c r', y = c :: r' -> ltb v c = true -> t :: xp ++ v :: y <> d).
    { intros t y c r' -> Hc E. rewrite <- E in Hd. cbn in Hd. destruct Hd as [_ Hd].
      rewrite snoc_cons in Hd. apply nonincr_app in Hd. destruct Hd as (_ & _ & Hd).
      rewrite (Hd v c) in Hc; [discriminate| |now left]. apply in_app_iff. right. now left. }
    destruct r as [|c r]; cbn [next_list].
    - split.
      + intros Hlt E. rewrite <- E in Hd. cbn in Hd. destruct Hd as [Hd _].
        rewrite Hd in Hlt; [discriminate|]. rewrite Ep. now left.
      + intros Hne. destruct (ltb b (hv xp v)) eqn:E; [reflexivity|]. exfalso. apply Hne.
        apply (nonincr_unique ltb ltb_tot); [|cbn|exact Hd].
        * rewrite <- Hp. rewrite snoc_cons. apply Permutation_cons_append.
        * split; [|exact Hn]. intros y Hy.
          apply (nlt_trans ltb ltb_trans ltb_tot b (hv xp v) y E).
          rewrite Ep in Hn, Hy. destruct Hy as [<-|Hy]; [apply ltb_irr|]. now apply Hn.
    - split; [intros _|reflexivity].
      assert (Hvb : ltb v b = true) by (destruct Hb as [Hb|[E _]]; [exact Hb|discriminate]).
      destruct (ltb v c) eqn:Ec.
      + now apply (Hadj b (c :: r) c r).
      + now apply (Hadj c (b :: r) b r).
  Qed.

  (** * The loop *)
  Definition kept (keep : list A -> result bool) (p : list A) : bool :=
    match keep p with Ok b => b | Err _ => false end.

  Lemma loop_ok keep d : nonincr d ->
    (forall p, Permutation p d -> exists b, keep p = Ok b) ->
    forall n fuel st l k, (1 <= n <= fuel)%nat -> Rel st l k -> Inv l k ->
    Permutation l d -> iter ltb n l = d -> (forall m, (1 <= m < n)%nat -> iter ltb m l <> d) ->
    loop_from ltb keep fuel st = Ok (filter (kept keep) (orbit ltb n l)).
  Proof.
    intros Hd Hk. induction n as [|n IH]; intros fuel st l k Hf HR HI Hp Hret Hmin; [lia|].
    destruct fuel as [|fuel]; [lia|].
    destruct HI as (xp & v & b & r & -> & -> & Hn & Hb).
    pose proof (continues_ok _ _ _ _ _ HR) as Hco.
    pose proof (body_ok _ _ _ _ _ HR) as (st' & Hbo & HR').
    pose proof HR as (hp & h & i & j & ids & -> & Hc & Hnd & Hi & ->).
    cbn [loop_from orbit filter]. rewrite (visit_ok hp h ids _ Hc Hnd).
    cbn [rbind]. destruct (Hk _ Hp) as (kb & Ek).
    replace (kept keep (xp ++ v :: b :: r)) with kb by (unfold kept; now rewrite Ek).
    rewrite Ek. cbn [rbind].
    rewrite Hco. cbn [rbind].
    pose proof (go_iff xp v b r d Hn Hb Hp Hd) as Hgo.
    destruct (match r with [] => ltb b (hv xp v) | _ => true end) eqn:Eg.
    - assert (Hne : succ (xp ++ v :: b :: r) <> d) by (now apply Hgo).
      rewrite Hbo. cbn [rbind].
      rewrite <- next_list_succ in HR' by assumption.
      destruct n as [|n].
      { exfalso. apply Hne. exact Hret. }
      rewrite (IH fuel st' (succ (xp ++ v :: b :: r))
                 (if ltb (moved v b r) (hv xp v) then O else S (length xp))).
      + cbn [rbind]. reflexivity.
      + lia.
      + exact HR'.
      + rewrite next_list_succ by assumption. now apply inv_next.
      + now rewrite succ_perm.
      + exact Hret.
      + intros m Hm. apply (Hmin (S m)). lia.
    - cbn [rbind].
      assert (Hs : succ (xp ++ v :: b :: r) = d).
      { destruct (list_dec ltb ltb_irr ltb_tot (succ (xp ++ v :: b :: r)) d) as [E|E];
          [exact E|]. apply Hgo in E. discriminate. }
      destruct n as [|n]; [reflexivity|].
      exfalso. apply (Hmin 1%nat); [lia|exact Hs].
  Qed.

  (** * init *)
  Lemma insert_asc_perm x l : Permutation (insert_asc ltb x l) (x :: l).
  Proof.
    induction l as [|y l IH]; cbn; [reflexivity|]. destruct (ltb y x); [|reflexivity].
    rewrite IH. constructor.
  Qed.
  Lemma sort_asc_perm l : Permutation (sort_asc ltb l) l.
  Proof.
    induction l as [|x l IH]; cbn; [constructor|]. rewrite insert_asc_perm. now constructor.
  Qed.

  Fixpoint nondecr (l : list A) : Prop :=
    match l with
    | [] => True
    | x :: l' => (forall y, In y l' -> ltb y x = false) /\ nondecr l'
    end.
  Lemma insert_asc_sorted x l : nondecr l -> nondecr (insert_asc ltb x l).
  Proof.
    induction l as [|y l IH]; cbn [insert_asc nondecr].
    - intros _. split; [intros y []|exact I].
    - intros [H1 H2]. destruct (ltb y x) eqn:E.
      + split; [|now apply IH]. intros z Hz. apply (Permutation_in _ (insert_asc_perm x l)) in Hz.
        destruct Hz as [<-|Hz]; [now apply lt_nlt|now apply H1].
      + split; [|split; assumption]. intros z [<-|Hz]; [exact E|].
        apply (nlt_trans ltb ltb_trans ltb_tot z y x); [now apply H1|exact E].
  Qed.
  Lemma sort_asc_sorted l : nondecr (sort_asc ltb l).
  Proof. induction l as [|x l IH]; [exact I|]. now apply insert_asc_sorted. Qed.
  Lemma rev_nondecr l : nondecr l -> nonincr (rev l).
  Proof.
    induction l as [|x l IH]; [intros _; exact I|]. intros [H1 H2]. cbn [rev].
    apply nonincr_app. split; [now apply IH|]. split; [cbn; split; [intros y []|exact I]|].
    intros a b Ha [<-|[]]. apply H1. now apply in_rev.
  Qed.

  Lemma build_nth (l : list A) : forall k prev i v, nth_error l i = Some v ->
    nth_error (build k prev l) i =
    Some (mkNode v (match i with O => prev | S i' => Some (k + i')%nat end)).
  Proof.
    induction l as [|x l IH]; intros k prev [|i] v H; cbn in *; try discriminate.
    - now injection H as ->.
    - rewrite (IH (S k) (Some k) i v H). f_equal. f_equal.
      destruct i; f_equal; lia.
  Qed.

  Lemma firstn_snoc {B} (l : list B) n v : nth_error l n = Some v ->
    firstn (S n) l = firstn n l ++ [v].
  Proof.
    revert n; induction l as [|x l IH]; intros [|n] H; cbn in *; try discriminate.
    - now injection H as ->.
    - f_equal. now apply IH.
  Qed.

  Lemma build_chain (m : list A) : forall n, (n <= length m)%nat ->
    chain (build O None m) (match n with O => None | S n' => Some n' end)
      (rev (seq 0 n)) (rev (firstn n m)).
  Proof.
    induction n as [|n IH]; intros Hn; [reflexivity|].
    destruct (nth_error m n) as [v|] eqn:Ev.
    2:{ apply nth_error_None in Ev. lia. }
    rewrite seq_S, (firstn_snoc m n v Ev), !rev_app_distr. cbn [rev app chain].
    split; [reflexivity|]. eexists. split; [now apply build_nth|].
    destruct n as [|n]; apply IH; lia.
  Qed.

  Lemma nth_elem_ok hp ids : forall k h l a, chain hp (Some h) ids l ->
    nth_error ids k = Some a -> nth_elem hp h k = Ok a.
  Proof.
    induction ids as [|b ids IH]; intros k h [|v l] a H Hk; cbn in H; try tauto;
      [destruct k; discriminate|].
    destruct H as (E & nx & Hb & H). injection E as <-.
    destruct k as [|k]; cbn in Hk |- *; [now injection Hk as ->|].
    rewrite Hb. cbn. destruct nx as [b'|].
    - now apply (IH k b' l).
    - apply chain_head in H. destruct ids; [destruct k|]; discriminate.
  Qed.

  Lemma rev_seq_nth n k : (k < n)%nat -> nth_error (rev (seq 0 n)) k = Some (n - 1 - k)%nat.
  Proof.
    revert k; induction n as [|n IH]; intros k Hk; [lia|].
    rewrite seq_S, rev_app_distr. cbn [rev app]. destruct k as [|k]; cbn [nth_error].
    - f_equal. lia.
    - rewrite IH by lia. f_equal. lia.
  Qed.

  Lemma init_rel E : E <> [] -> exists hp h i j p,
    init ltb E = Ok (hp, h, i, j) /\ visit hp h = Ok p /\ Permutation p E.
  Proof.
    intros HE. set (m := sort_asc ltb E).
    assert (Hlen : length m = length E) by (apply Permutation_length, sort_asc_perm).
    assert (Hm0 : (1 <= length m)%nat).
    { rewrite Hlen. destruct E; [congruence|cbn; lia]. }
    assert (Hinit : init ltb E =
      (i <- nth_elem (build O None m) (length m - 1) (length m - 2) ;;
       j <- nth_elem (build O None m) (length m - 1) (length m - 1) ;;
       Ok (build O None m, (length m - 1)%nat, i, Some j))).
    { unfold init. change (sort_asc ltb E) with m. clear - Hm0. clearbody m.
      destruct m; [cbn in Hm0; lia|reflexivity]. }
    pose proof (build_chain m (length m) (le_n _)) as Hc. rewrite firstn_all in Hc.
    replace (match length m with O => None | S n' => Some n' end)
      with (Some (length m - 1)%nat) in Hc by (destruct (length m); [lia|f_equal; lia]).
    rewrite (nth_elem_ok _ _ _ _ _ _ Hc (rev_seq_nth (length m) (length m - 2) ltac:(lia))) in Hinit.
    rewrite (nth_elem_ok _ _ _ _ _ _ Hc (rev_seq_nth (length m) (length m - 1) ltac:(lia))) in Hinit.
    cbn [rbind] in Hinit. do 4 eexists. exists (rev m). split; [exact Hinit|]. split.
    - apply (visit_ok _ _ _ _ Hc). apply NoDup_rev, seq_NoDup.
    - rewrite <- Permutation_rev. apply sort_asc_perm.
  Qed.

  Theorem generator_ok E : E <> [] ->
    exists ps, NoDup ps /\ (forall p, In p ps <-> Permutation p E) /\
      forall keep, (forall p, Permutation p E -> exists b, keep p = Ok b) ->
      forall fuel, (length ps <= fuel)%nat ->
        (st <- init ltb E ;; loop_from ltb keep fuel st) = Ok (filter (kept keep) ps).
  Proof.
    intros HE. set (m := sort_asc ltb E). set (d := rev m).
    assert (Hpd : Permutation d E).
    { unfold d, m. rewrite <- Permutation_rev. apply sort_asc_perm. }
    assert (Hd : nonincr d) by (apply rev_nondecr, sort_asc_sorted).
    destruct (orbit_all ltb ltb_irr ltb_trans ltb_tot d Hd)
      as (N & HN & Hret & Hmin & Hnd & Hall).
    assert (Hlen : length m = length E) by (apply Permutation_length, sort_asc_perm).
    assert (Hm0 : (1 <= length m)%nat).
    { rewrite Hlen. destruct E; [congruence|cbn; lia]. }
    assert (Lorb : forall n l, length (orbit ltb n l) = n).
    { induction n; intros l; cbn; auto. }
    exists (orbit ltb N d). split; [exact Hnd|]. split.
    { intros p. rewrite Hall. split; intros H; [now rewrite H|now rewrite Hpd]. }
    intros keep Hk fuel Hf. rewrite Lorb in Hf.
    assert (Hk' : forall p, Permutation p d -> exists b, keep p = Ok b).
    { intros p Hp. apply Hk. now rewrite Hp. }
    assert (Hinit : init ltb E =
      (i <- nth_elem (build O None m) (length m - 1) (length m - 2) ;;
       j <- nth_elem (build O None m) (length m - 1) (length m - 1) ;;
       Ok (build O None m, (length m - 1)%nat, i, Some j))).
    { unfold init. change (sort_asc ltb E) with m. clear - Hm0. clearbody m.
      destruct m; [cbn in Hm0; lia|reflexivity]. }
    rewrite Hinit. clear Hinit.
    pose proof (build_chain m (length m) (le_n _)) as Hc.
    rewrite firstn_all in Hc. fold d in Hc.
    replace (match length m with O => None | S n' => Some n' end)
      with (Some (length m - 1)%nat) in Hc by (destruct (length m); [lia|f_equal; lia]).
    destruct (Nat.eq_dec (length m) 1) as [E1|E1].
    - (* one element *)
      clearbody m. subst d.
      destruct m as [|v [|w m]]; cbn in E1; try discriminate.
      cbn in Hret, Hmin, Hall, Hnd.
      destruct fuel as [|fuel]; [lia|]. cbn. rewrite ltb_irr.
      destruct N as [|[|N]]; [lia| |].
      + cbn. unfold kept. destruct (Hk' [v]) as (b & Eb); [reflexivity|].
        rewrite Eb. cbn. now destruct b.
      + exfalso. apply (Hmin 1%nat); [lia|reflexivity].
    - assert (Ei : nth_elem (build 0 None m) (length m - 1) (length m - 2) = Ok 1%nat).
      { apply (nth_elem_ok _ _ _ _ _ _ Hc). rewrite rev_seq_nth by lia. f_equal. lia. }
      assert (Ej : nth_elem (build 0 None m) (length m - 1) (length m - 1) = Ok 0%nat).
      { apply (nth_elem_ok _ _ _ _ _ _ Hc). rewrite rev_seq_nth by lia. f_equal. lia. }
      assert (goal : (st <- Ok (build 0 None m, (length m - 1)%nat, 1%nat, Some 0%nat) ;;
                loop_from ltb keep fuel st) = Ok (filter (kept keep) (orbit ltb N d))).
      { cbn [rbind]. apply (loop_ok keep d Hd Hk' N fuel _ d (length m - 2)).
        - lia.
        - exists (build 0 None m), (length m - 1)%nat, 1%nat, (Some 0%nat), (rev (seq 0 (length m))).
          split; [reflexivity|]. split; [exact Hc|]. split; [apply NoDup_rev, seq_NoDup|].
          split; [rewrite rev_seq_nth by lia; f_equal; lia|].
          rewrite rev_seq_nth by lia. f_equal. lia.
        - assert (Ld : length d = length m) by (unfold d; apply rev_length).
          assert (exists xp v b, d = xp ++ [v; b]) as (xp & v & b & Ed).
          { destruct d as [|a d0] using rev_ind; [cbn in Ld; lia|]. clear IHd0.
            destruct d0 as [|a' d0] using rev_ind; [cbn in Ld; lia|]. clear IHd0.
            exists d0, a', a. now rewrite <- app_assoc. }
          exists xp, v, b, []. split; [exact Ed|]. split.
          { rewrite <- Ld, Ed, app_length. cbn. lia. }
          pose proof Hd as Hd'. rewrite Ed, snoc_cons in Hd'. apply nonincr_app in Hd'.
          destruct Hd' as (G1 & _ & G3). split; [exact G1|]. right. split; [reflexivity|].
          apply G3; [|now left]. apply in_app_iff. right. now left.
        - reflexivity.
        - exact Hret.
        - exact Hmin. }
      rewrite Ei, Ej. exact goal.
  Qed.
End Refine.
