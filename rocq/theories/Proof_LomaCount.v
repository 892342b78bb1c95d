(** How many orderings there are, and which factors the limiter merges. *)
From Coq Require Import Lia Permutation Factorial Arith.
From Verif Require Import Base Model_Loma Model_Perm Spec_Loma Spec_LomaCount Proof_LomaLoops Proof_LomaFactors
  Proof_PermProps.
Open Scope Z_scope.

(** * The factors merged next *)

Lemma count_occurs pins d f :
  Z.of_nat (count f (map snd (filter (fun sl : string * Z => eqb (fst sl) d) pins)))
  = occurs pins d f.
Proof.
  unfold occurs. f_equal. induction pins as [|[d' s] pins IH]; [reflexivity|].
  cbn [filter fst snd]. change (eqb d' d) with (String.eqb d' d).
  destruct (String.eqb d' d); cbn [andb map count snd]; [|exact IH].
  change (eqb f s) with (Z.eqb f s). rewrite Z.eqb_sym.
  destruct (s =? f); cbn [length]; now rewrite IH.
Qed.

Lemma count_not_memb (f : Z) ss : memb f ss = false -> count f ss = O.
Proof.
  induction ss as [|s ss IH]; [reflexivity|]. cbn.
  destruct (f =? s); [discriminate|]. exact IH.
Qed.

Section Find.
  Variable ss : list Z.
  Let k (f : Z) : Z := Z.of_nat (count f ss).

  Lemma free_test f c : 1 <= c -> negb (memb f ss) || (k f <? c) = (k f <? c).
  Proof.
    intros Hc. destruct (memb f ss) eqn:E; [reflexivity|]. unfold k.
    rewrite (count_not_memb f ss E). cbn [negb orb]. symmetry. apply Z.ltb_lt. lia.
  Qed.

  Lemma find_second fs : forall cs i n small, length fs = length cs -> ge1 cs ->
    1 <= zsum (map (fun fc => Z.max 0 (snd fc - k (fst fc))) (combine fs cs)) ->
    exists j f c, find_smallest_from ss fs cs i n small true = Ok (small, (i + j)%nat) /\
      nth_error fs j = Some f /\ nth_error cs j = Some c /\ k f + 1 <= c /\
      (forall m g e, (m < j)%nat -> nth_error fs m = Some g -> nth_error cs m = Some e ->
        e <= k g).
  Proof.
    induction fs as [|f fs IH]; intros [|c cs] i n small Hlen Hge Hs; try discriminate.
    - cbn in Hs. lia.
    - assert (Hc : 1 <= c) by (apply Hge; now left).
      cbn [find_smallest_from]. fold (k f). rewrite (free_test f c Hc).
      destruct (Z.ltb_spec (k f) c) as [Hf|Hf].
      + exists O, f, c. rewrite Nat.add_0_r.
        split; [reflexivity|]. split; [reflexivity|]. split; [reflexivity|].
        split; [lia|]. intros m g e Hm. lia.
      + destruct (IH cs (S i) n small) as (j & g & e & E & Nf & Nc & Hk & Hall).
        { now injection Hlen. }
        { intros x Hx. apply Hge. now right. }
        { cbn [combine map fst snd] in Hs. rewrite zsum_cons in Hs. lia. }
        exists (S j), g, e. rewrite E. split; [do 2 f_equal; lia|].
        split; [exact Nf|]. split; [exact Nc|]. split; [exact Hk|].
        intros [|m] g' e' Hm G1 G2.
        * cbn in G1, G2. injection G1 as <-. injection G2 as <-. exact Hf.
        * cbn in G1, G2. apply (Hall m); auto. lia.
  Qed.

  Lemma find_first fs : forall cs i n small, length fs = length cs -> ge1 cs ->
    2 <= zsum (map (fun fc => Z.max 0 (snd fc - k (fst fc))) (combine fs cs)) ->
    exists a b fa fb ca cb,
      find_smallest_from ss fs cs i n small false = Ok ((i + a)%nat, (i + b)%nat) /\
      (a <= b)%nat /\
      nth_error fs a = Some fa /\ nth_error cs a = Some ca /\
      nth_error fs b = Some fb /\ nth_error cs b = Some cb /\
      k fa + 1 <= ca /\ k fb + 1 <= cb /\ (a = b <-> k fa + 2 <= ca) /\
      (forall m g e, (m < b)%nat -> m <> a -> nth_error fs m = Some g ->
        nth_error cs m = Some e -> e <= k g).
  Proof.
    induction fs as [|f fs IH]; intros [|c cs] i n small Hlen Hge Hs; try discriminate.
    - cbn in Hs. lia.
    - assert (Hc : 1 <= c) by (apply Hge; now left).
      assert (Hlen' : length fs = length cs) by now injection Hlen.
      assert (Hge' : ge1 cs) by (intros x Hx; apply Hge; now right).
      cbn [combine map fst snd] in Hs. rewrite zsum_cons in Hs.
      cbn [find_smallest_from]. fold (k f). rewrite (free_test f c Hc).
      destruct (Z.ltb_spec (k f) c) as [Hf|Hf].
      + destruct (Z.ltb_spec (k f + 1) c) as [Hf2|Hf2].
        * exists O, O, f, f, c, c. rewrite Nat.add_0_r.
          split; [reflexivity|]. split; [lia|].
          do 4 (split; [reflexivity|]). split; [lia|]. split; [lia|]. split; [lia|].
          intros m g e Hm. lia.
        * destruct (find_second fs cs (S i) n i Hlen' Hge')
            as (j & g & e & E & Nf & Nc & Hk & Hall); [lia|].
          exists O, (S j), f, g, c, e. rewrite E, Nat.add_0_r.
          split; [do 2 f_equal; lia|]. split; [lia|].
          split; [reflexivity|]. split; [reflexivity|]. split; [exact Nf|].
          split; [exact Nc|]. split; [lia|]. split; [lia|].
          split; [split; [discriminate|lia]|].
          intros [|m] g' e' Hm Hne G1 G2; [congruence|]. apply (Hall m); auto. lia.
      + destruct (IH cs (S i) n small Hlen' Hge')
          as (a & b & fa & fb & ca & cb & E & Hab & Na & Ca & Nb & Cb & Ka & Kb & Hd & Hall);
          [lia|].
        exists (S a), (S b), fa, fb, ca, cb. rewrite E.
        split; [do 2 f_equal; lia|]. split; [lia|].
        split; [exact Na|]. split; [exact Ca|]. split; [exact Nb|]. split; [exact Cb|].
        split; [exact Ka|]. split; [exact Kb|]. split; [lia|].
        intros [|m] g' e' Hm Hne G1 G2.
        * cbn in G1, G2. injection G1 as <-. injection G2 as <-. exact Hf.
        * apply (Hall m); auto; lia.
  Qed.
End Find.

Lemma merges_spare pins d fs cs :
  length fs = length cs -> (forall c, In c cs -> 1 <= c) ->
  2 <= zsum (map (fun fc => spare pins d (fst fc) (snd fc)) (combine fs cs)) ->
  exists a b fa fb ca cb,
    find_smallest_non_static_pf pins d fs cs = Ok (a, b) /\ (a <= b)%nat /\
    nth_error fs a = Some fa /\ nth_error cs a = Some ca /\
    nth_error fs b = Some fb /\ nth_error cs b = Some cb /\
    1 <= spare pins d fa ca /\ 1 <= spare pins d fb cb /\
    (a = b <-> 2 <= spare pins d fa ca) /\
    (forall m f c, (m < b)%nat -> m <> a -> nth_error fs m = Some f ->
       nth_error cs m = Some c -> spare pins d f c = 0).
Proof.
  intros Hlen Hge Hs. unfold find_smallest_non_static_pf.
  set (ss := map snd (filter (fun sl : string * Z => eqb (fst sl) d) pins)).
  assert (Hk : forall f, Z.of_nat (count f ss) = occurs pins d f)
    by (intros f; apply count_occurs).
  destruct (find_first ss fs cs O (length fs) O Hlen Hge)
    as (a & b & fa & fb & ca & cb & E & Hab & Na & Ca & Nb & Cb & Ka & Kb & Hd & Hall).
  { etransitivity; [exact Hs|]. apply Z.eq_le_incl. f_equal. apply map_ext.
    intros [f c]. unfold spare. cbn [fst snd]. now rewrite Hk. }
  exists a, b, fa, fb, ca, cb. rewrite !Hk in Ka, Kb, Hd. unfold spare.
  split; [exact E|]. split; [exact Hab|].
  split; [exact Na|]. split; [exact Ca|]. split; [exact Nb|]. split; [exact Cb|].
  split; [lia|]. split; [lia|]. split; [lia|].
  intros m f c Hm Hne G1 G2. specialize (Hall m f c Hm Hne G1 G2). rewrite Hk in Hall. lia.
Qed.

(** * Counting the orderings of a multiset *)

Section Count.
  Context {A : Type}.
  Variable dec : forall x y : A, {x = y} + {x <> y}.

  Fixpoint take1 (x : A) (l : list A) : list A :=
    match l with
    | [] => []
    | y :: ys => if dec x y then ys else y :: take1 x ys
    end.

  Lemma take1_perm x l : In x l -> Permutation l (x :: take1 x l).
  Proof.
    induction l as [|y l IH]; [intros []|]. intros Hin. cbn.
    destruct (dec x y) as [->|Hne]; [reflexivity|].
    destruct Hin as [->|Hin]; [congruence|].
    rewrite (IH Hin) at 1. apply perm_swap.
  Qed.

  Fixpoint enum (u : list A) (n : nat) (l : list A) : list (list A) :=
    match n with
    | O => [[]]
    | S n' => flat_map (fun x => if in_dec dec x l
                                 then map (cons x) (enum u n' (take1 x l)) else []) u
    end.

  Lemma enum_perm u : forall n l p, length l = n -> (forall x, In x l -> In x u) ->
    (In p (enum u n l) <-> Permutation p l).
  Proof.
    induction n as [|n IH]; intros l p Hlen Hu; cbn [enum].
    - destruct l; [|discriminate]. split.
      + intros [<-|[]]. reflexivity.
      + intros Hp. apply Permutation_sym, Permutation_nil in Hp. subst. now left.
    - rewrite in_flat_map.
      assert (Hstep : forall x, In x l -> length (take1 x l) = n /\
                (forall y, In y (take1 x l) -> In y u)).
      { intros x Hx. pose proof (take1_perm x l Hx) as Hp. split.
        - apply Permutation_length in Hp. cbn in Hp. lia.
        - intros y Hy. apply Hu. apply (Permutation_in y (Permutation_sym Hp)). now right. }
      split.
      + intros (x & Hx & Hin). destruct (in_dec dec x l) as [Hxl|]; [|destruct Hin].
        apply in_map_iff in Hin. destruct Hin as (q & <- & Hq).
        destruct (Hstep x Hxl) as (L & U). apply IH in Hq; auto.
        rewrite Hq. symmetry. now apply take1_perm.
      + intros Hp. destruct p as [|x q].
        { apply Permutation_nil in Hp. subst l. discriminate. }
        assert (Hxl : In x l) by (apply (Permutation_in x Hp); now left).
        exists x. split; [now apply Hu|]. destruct (in_dec dec x l); [|contradiction].
        apply List.in_map. destruct (Hstep x Hxl) as (L & U). apply IH; auto.
        apply (Permutation_cons_inv (a := x)). rewrite Hp. now apply take1_perm.
  Qed.

  Lemma nodup_map_cons (x : A) ll : NoDup ll -> NoDup (map (cons x) ll).
  Proof.
    induction 1 as [|p ll Hni Hnd IH]; cbn; constructor; auto.
    intros Hin. apply in_map_iff in Hin. destruct Hin as (q & E & Hq).
    injection E as ->. contradiction.
  Qed.

  Lemma enum_nodup u : NoDup u -> forall n l, NoDup (enum u n l).
  Proof.
    intros Hu. induction n as [|n IH]; intros l; cbn [enum].
    - constructor; [intros []|constructor].
    - assert (Hgen : forall v, NoDup v ->
        NoDup (flat_map (fun x => if in_dec dec x l
                                  then map (cons x) (enum u n (take1 x l)) else []) v)).
      { induction v as [|x v IHv]; intros Hv; [constructor|].
        inversion Hv as [|x' v' Hni Hnd]; subst. cbn [flat_map].
        assert (Happ : forall (l1 l2 : list (list A)), NoDup l1 -> NoDup l2 ->
          (forall p, In p l1 -> ~ In p l2) -> NoDup (l1 ++ l2)).
        { clear. induction l1 as [|p l1 IH1]; intros l2 H1 H2 Hd; [exact H2|].
          inversion H1; subst. cbn. constructor.
          - intros Hin. apply in_app_iff in Hin. destruct Hin as [Hin|Hin]; [contradiction|].
            apply (Hd p); [now left|exact Hin].
          - apply IH1; auto. intros q Hq. apply Hd. now right. }
        apply Happ.
        - destruct (in_dec dec x l); [apply nodup_map_cons, IH|constructor].
        - now apply IHv.
        - intros p Hp Hq. apply in_flat_map in Hq. destruct Hq as (y & Hy & Hq).
          destruct (in_dec dec x l); [|destruct Hp].
          destruct (in_dec dec y l); [|destruct Hq].
          apply in_map_iff in Hp. destruct Hp as (p1 & <- & _).
          apply in_map_iff in Hq. destruct Hq as (q1 & E & _).
          injection E as -> _. contradiction. }
      apply Hgen. exact Hu.
  Qed.

  Definition occ (x : A) (l : list A) : nat := count_occ dec l x.

  Lemma occ_take1 x y l : In x l ->
    occ y l = (if dec x y then S (occ y (take1 x l)) else occ y (take1 x l)).
  Proof.
    intros Hx. unfold occ.
    rewrite (proj1 (Permutation_count_occ dec _ _) (take1_perm x l Hx) y).
    cbn [count_occ]. destruct (dec x y); reflexivity.
  Qed.

  Fixpoint weight (u l : list A) : nat :=
    match u with [] => 1 | x :: u' => fact (occ x l) * weight u' l end.

  Lemma weight_take1_out x l u : In x l -> ~ In x u -> weight u l = weight u (take1 x l).
  Proof.
    intros Hx. induction u as [|y u IH]; intros Hni; [reflexivity|]. cbn [weight].
    rewrite (occ_take1 x y l Hx). destruct (dec x y) as [->|]; [exfalso; apply Hni; now left|].
    rewrite IH; [reflexivity|]. intros Hi. apply Hni. now right.
  Qed.

  Lemma weight_take1 x l u : NoDup u -> In x u -> In x l ->
    weight u l = (occ x l * weight u (take1 x l))%nat.
  Proof.
    intros Hu Hin Hx. induction u as [|y u IH]; [destruct Hin|].
    inversion Hu as [|y' u' Hni Hnd]; subst. cbn [weight].
    destruct (dec x y) as [->|Hne].
    - rewrite (weight_take1_out y l u Hx Hni). rewrite (occ_take1 y y l Hx).
      destruct (dec y y); [|congruence]. cbn [fact]. lia.
    - destruct Hin as [->|Hin]; [congruence|]. rewrite (IH Hnd Hin).
      rewrite (occ_take1 x y l Hx). destruct (dec x y); [congruence|]. lia.
  Qed.

  Fixpoint nsum (l : list nat) : nat := match l with [] => 0 | x :: l' => x + nsum l' end.

  Lemma nsum_occ u : NoDup u -> forall l, (forall x, In x l -> In x u) ->
    nsum (map (fun x => occ x l) u) = length l.
  Proof.
    intros Hu. induction l as [|y l IH]; intros Hin.
    - clear. induction u as [|x u IH]; [reflexivity|]. exact IH.
    - cbn [length]. rewrite <- IH by (intros x Hx; apply Hin; now right).
      assert (Hy : In y u) by (apply Hin; now left). clear Hin IH.
      induction u as [|x u IHu]; [destruct Hy|]. inversion Hu as [|x' u' Hni Hnd]; subst.
      cbn [map nsum]. unfold occ at 1 3. cbn [count_occ]. destruct (dec y x) as [->|Hne].
      + cbn [plus]. do 2 f_equal. f_equal. apply map_ext_in. intros z Hz. unfold occ. cbn [count_occ].
        destruct (dec x z) as [->|]; [contradiction|reflexivity].
      + destruct Hy as [->|Hy]; [congruence|]. fold (occ x l).
        rewrite (IHu Hnd Hy). lia.
  Qed.

  Lemma enum_count u : NoDup u -> forall n l, length l = n -> (forall x, In x l -> In x u) ->
    (length (enum u n l) * weight u l = fact n)%nat.
  Proof.
    intros Hu. induction n as [|n IH]; intros l Hlen Hin.
    - destruct l; [|discriminate]. cbn [enum length fact].
      clear. induction u as [|x u IHu]; [reflexivity|]. cbn [weight occ count_occ fact] in *.
      unfold occ. cbn [count_occ fact]. lia.
    - cbn [enum].
      assert (Hgen : forall v, (forall x, In x v -> In x u) ->
        (length (flat_map (fun x => if in_dec dec x l
                   then map (cons x) (enum u n (take1 x l)) else []) v) * weight u l
         = nsum (map (fun x => occ x l) v) * fact n)%nat).
      { induction v as [|x v IHv]; intros Hv; [reflexivity|]. cbn [flat_map map nsum].
        rewrite app_length, !Nat.mul_add_distr_r, IHv by (intros y Hy; apply Hv; now right).
        f_equal. destruct (in_dec dec x l) as [Hx|Hx].
        - rewrite map_length, (weight_take1 x l u Hu (Hv x (or_introl eq_refl)) Hx).
          pose proof (take1_perm x l Hx) as Hp.
          rewrite <- (IH (take1 x l)).
          + lia.
          + apply Permutation_length in Hp. cbn in Hp. lia.
          + intros y Hy. apply Hin, (Permutation_in y (Permutation_sym Hp)). now right.
        - unfold occ. rewrite (proj1 (count_occ_not_In dec l x) Hx). reflexivity. }
      rewrite Hgen by auto. rewrite nsum_occ by assumption. rewrite Hlen.
      cbn [fact]. lia.
  Qed.

  (** Any duplicate-free list of exactly the orderings of [l] is that long. *)
  Lemma orderings_count u l V : NoDup u -> (forall x, In x l -> In x u) ->
    NoDup V -> (forall p, In p V <-> Permutation p l) ->
    (length V * weight u l = fact (length l))%nat.
  Proof.
    intros Hu Hin HV Hall. rewrite <- (enum_count u Hu (length l) l eq_refl Hin).
    f_equal. apply Permutation_length. apply NoDup_Permutation; auto.
    - now apply enum_nodup.
    - intros p. rewrite Hall. symmetry. now apply enum_perm.
  Qed.

  (** The multiset given by distinct elements and their numbers. *)
  Definition spread (xs : list (A * Z)) : list A :=
    flat_map (fun xc => repeat (fst xc) (Z.to_nat (snd xc))) xs.

  Lemma occ_repeat x n : occ x (repeat x n) = n.
  Proof. unfold occ. now rewrite count_occ_repeat_eq. Qed.

  Lemma occ_spread_out x xs : ~ In x (map fst xs) -> occ x (spread xs) = O.
  Proof.
    intros Hni. apply count_occ_not_In. intros Hi. unfold spread in Hi.
    apply in_flat_map in Hi. destruct Hi as (xc & Hx & Hr). apply repeat_spec in Hr.
    subst x. apply Hni. now apply List.in_map.
  Qed.

  Lemma weight_ext u l l' : (forall x, In x u -> occ x l = occ x l') -> weight u l = weight u l'.
  Proof.
    induction u as [|x u IH]; intros H; [reflexivity|]. cbn [weight].
    rewrite (H x (or_introl eq_refl)), IH; [reflexivity|]. intros y Hy. apply H. now right.
  Qed.

  Lemma weight_spread xs : NoDup (map fst xs) ->
    weight (map fst xs) (spread xs)
    = fold_right (fun xc n => fact (Z.to_nat (snd xc)) * n)%nat 1%nat xs.
  Proof.
    induction xs as [|[x c] xs IH]; intros Hnd; [reflexivity|].
    inversion Hnd as [|x' l' Hni Hnd']; subst. cbn [map weight fold_right fst snd].
    assert (Happ : forall y, occ y (spread ((x, c) :: xs))
              = (occ y (repeat x (Z.to_nat c)) + occ y (spread xs))%nat).
    { intros y. unfold occ, spread. cbn [flat_map fst snd]. apply count_occ_app. }
    f_equal.
    - rewrite Happ, occ_repeat, (occ_spread_out x xs Hni). f_equal. lia.
    - rewrite <- (IH Hnd'). apply weight_ext. intros y Hy. rewrite Happ.
      replace (occ y (repeat x (Z.to_nat c))) with O; [reflexivity|].
      symmetry. apply count_occ_not_In. intros Hr. apply repeat_spec in Hr. subst y. contradiction.
  Qed.
End Count.

(** * The number announced by the engine *)

Definition loop_dec (x y : string * Z) : {x = y} + {x <> y}.
Proof. decide equality; [apply Z.eq_dec|apply string_dec]. Defined.

Lemma zfact_fact n : zfact n = Z.of_nat (fact n).
Proof.
  induction n as [|n IH]; [reflexivity|]. cbn [zfact]. rewrite IH.
  change (fact (S n)) with (S n * fact n)%nat. lia.
Qed.

Lemma divide_out {X} (xs : list (X * Z)) : forall N,
  fold_left (fun nb c => nb / zfact (Z.to_nat c)) (map snd xs)
    (N * Z.of_nat (fold_right (fun xc n => fact (Z.to_nat (snd xc)) * n)%nat 1%nat xs)) = N.
Proof.
  induction xs as [|[x c] xs IH]; intros N; cbn [map fold_left fold_right snd]; [lia|].
  rewrite zfact_fact, Nat2Z.inj_mul.
  replace (N * (Z.of_nat (fact (Z.to_nat c)) *
     Z.of_nat (fold_right (fun xc n => fact (Z.to_nat (snd xc)) * n)%nat 1%nat xs)))
    with (N * Z.of_nat (fold_right (fun xc n => fact (Z.to_nat (snd xc)) * n)%nat 1%nat xs)
          * Z.of_nat (fact (Z.to_nat c))) by ring.
  rewrite Z.div_mul; [apply IH|]. pose proof (lt_O_fact (Z.to_nat c)). lia.
Qed.

Lemma spread_app {X} (xs ys : list (X * Z)) : spread (xs ++ ys) = spread xs ++ spread ys.
Proof. unfold spread. apply flat_map_app. Qed.

Lemma expand_spread d fs cs :
  expand d fs cs = spread (map (fun fc => ((d, fst fc), snd fc)) (combine fs cs)).
Proof.
  unfold expand, spread. induction (combine fs cs) as [|fc l IH]; [reflexivity|].
  cbn [flat_map map fst snd]. now rewrite IH.
Qed.

Lemma pairs_ok (counts : dict string (list Z)) : forall fsd csd : dict string (list Z),
  keys fsd = keys csd -> NoDup (keys fsd) ->
  (forall d cs, In (d, cs) csd -> dget d counts = Some cs) ->
  (forall d fs cs, In (d, fs) fsd -> dget d counts = Some cs -> length fs = length cs) ->
  (forall d fs, In (d, fs) fsd -> NoDup fs) ->
  exists xs ls,
    rmap (fun kv => rbind (dgetr (fst kv) counts)
                     (fun cs => Ok (expand (fst kv) (snd kv) cs))) fsd = Ok ls /\
    concat ls = spread xs /\ NoDup (map fst xs) /\ map snd xs = concat (values csd) /\
    (forall x, In x (map fst xs) -> In (fst x) (keys fsd)).
Proof.
  induction fsd as [|[d fs] fsd IH]; intros [|[d' cs] csd] Hk Hnd Hc Hl Hf; try discriminate.
  - exists [], []. repeat split; auto. constructor.
  - cbn [keys map fst] in Hk. injection Hk as <- Hk.
    inversion Hnd as [|a b Hni Hnd']; subst.
    assert (Gc : dget d counts = Some cs) by (apply Hc; now left).
    destruct (IH csd Hk Hnd') as (xs & ls & E & Ec & Hx & Hs & Hin).
    { intros d1 cs1 H1. apply Hc. now right. }
    { intros d1 fs1 cs1 H1. apply Hl. now right. }
    { intros d1 fs1 H1. apply (Hf d1). now right. }
    assert (Hlen : length fs = length cs) by (apply (Hl d); [now left|exact Gc]).
    assert (Hfst : map fst (map (fun fc : Z * Z => ((d, fst fc), snd fc)) (combine fs cs))
                   = map (fun f => (d, f)) fs).
    { rewrite map_map. cbn [fst]. clear -Hlen. revert cs Hlen.
      induction fs as [|f fs IH]; intros [|c cs] H; try discriminate; [reflexivity|].
      cbn [combine map fst]. now rewrite IH by now injection H. }
    assert (Hsnd : map snd (map (fun fc : Z * Z => ((d, fst fc), snd fc)) (combine fs cs)) = cs).
    { rewrite map_map. cbn [snd]. clear -Hlen. revert cs Hlen.
      induction fs as [|f fs IH]; intros [|c cs] H; try discriminate; [reflexivity|].
      cbn [combine map snd]. now rewrite IH by now injection H. }
    exists (map (fun fc => ((d, fst fc), snd fc)) (combine fs cs) ++ xs), (expand d fs cs :: ls).
    cbn [rmap fst snd]. unfold dgetr at 1. rewrite Gc. cbn [of_option rbind]. rewrite E.
    cbn [rbind concat]. rewrite Ec, spread_app, <- expand_spread, !map_app.
    unfold loop in *. rewrite Hfst, Hsnd, Hs.
    split; [reflexivity|]. split; [reflexivity|]. split; [|split; [reflexivity|]].
    + assert (Hn : NoDup fs) by (apply (Hf d); now left).
      clear - Hn Hx Hni Hin. induction Hn as [|f fs Hnf Hn IH]; [exact Hx|].
      cbn [map app]. constructor; [|exact IH]. intros Hi. apply in_app_iff in Hi.
      destruct Hi as [Hi|Hi].
      * apply in_map_iff in Hi. destruct Hi as (f' & Ef & Hi). injection Ef as ->. contradiction.
      * apply Hni. exact (Hin _ Hi).
    + intros x Hi. apply in_app_iff in Hi. destruct Hi as [Hi|Hi].
      * left. apply in_map_iff in Hi. destruct Hi as (f' & <- & _). reflexivity.
      * right. exact (Hin x Hi).
Qed.

Definition distinct_factors (st : factors) : Prop :=
  forall d fs, In (d, fs) (pfs st) -> NoDup fs.

Lemma announced loops st l V : FInv loops st -> distinct_factors st ->
  rebuild_lpfs st = Ok l -> NoDup V -> (forall p, In p V <-> Permutation p l) ->
  compute_nb_permutations st = Z.of_nat (length V).
Proof.
  intros Hinv Hdis El HV Hall.
  destruct (rebuild_ok loops st Hinv) as (l' & El' & _ & Hlen & _).
  rewrite El in El'. injection El' as <-.
  destruct Hinv as (Hnd & K1 & K2 & K3 & Hdim).
  destruct (pairs_ok (pf_counts st) (pfs st) (pf_counts st))
    as (xs & ls & E & Ec & Hx & Hs & _).
  - congruence.
  - now rewrite K1.
  - intros d cs Hin. apply In_dget; [now rewrite K2|exact Hin].
  - intros d fs cs Hin Gc.
    assert (Hk : In d (keys loops)).
    { rewrite <- K1. change d with (fst (d, fs)). now apply List.in_map. }
    destruct (key_dget d loops Hk) as (n & En).
    destruct (Hdim d n) as (fs' & cs' & Gf & Gc' & _ & Hl & _); [now apply dget_In|].
    apply (In_dget d fs (pfs st)) in Hin; [congruence|now rewrite K1].
  - exact Hdis.
  - unfold rebuild_lpfs in El. rewrite E in El. cbn [rbind] in El. injection El as <-.
    unfold compute_nb_permutations. rewrite <- Hs, <- Hlen, Nat2Z.id, zfact_fact.
    unfold loop in *. rewrite Ec in *.
    rewrite <- (orderings_count loop_dec (map fst xs) (spread xs) V Hx); auto.
    + rewrite (weight_spread loop_dec xs Hx), Nat2Z.inj_mul. apply divide_out.
    + intros x Hi. unfold spread in Hi. apply in_flat_map in Hi.
      destruct Hi as (xc & Hi & Hr). apply repeat_spec in Hr. subst x. now apply List.in_map.
Qed.

(** ** Factors stay distinct *)

Lemma nodup_insert {X} (x : X) k l : NoDup l -> ~ In x l -> NoDup (insert_at k x l).
Proof.
  revert l. induction k as [|k IH]; intros [|y l] Hnd Hni; cbn [insert_at].
  - now constructor.
  - now constructor.
  - constructor; auto.
  - inversion Hnd; subst. constructor.
    + intros Hi. apply in_insert_at in Hi. destruct Hi as [->|Hi]; [apply Hni; now left|contradiction].
    + apply IH; auto. intros Hi. apply Hni. now right.
Qed.

Lemma index_of_none (x : Z) l : index_of x l = None -> ~ In x l.
Proof.
  induction l as [|y l IH]; cbn; [intros _ []|].
  destruct (Z.eqb_spec x y) as [->|Hne]; [discriminate|].
  destruct (index_of x l); cbn; [discriminate|].
  intros _ [->|Hi]; [congruence|now apply IH].
Qed.

Lemma nodup_filter_fst (fs : list Z) (p : Z * Z -> bool) : forall cs, NoDup fs ->
  NoDup (map fst (filter p (combine fs cs))) /\
  (forall f, In f (map fst (filter p (combine fs cs))) -> In f fs).
Proof.
  induction fs as [|f fs IH]; intros [|c cs] Hnd; cbn [combine filter map];
    try (split; [constructor|intros f' []]).
  inversion Hnd; subst. destruct (IH cs) as (N & I); auto.
  destruct (p (f, c)); cbn [map fst]; split.
  - constructor; auto.
  - intros f' [->|Hi]; [now left|right; auto].
  - exact N.
  - intros f' Hi. right. auto.
Qed.

Lemma merge_distinct fs cs i j fs' cs' : NoDup fs ->
  merge_factors fs cs i j = Ok (fs', cs') -> NoDup fs'.
Proof.
  intros Hnd. unfold merge_factors. destruct (nth_error fs i) as [fi|]; [|discriminate].
  destruct (nth_error fs j) as [fj|]; [|discriminate]. cbn [of_option rbind].
  destruct (index_of (fi * fj) fs) as [k|] eqn:E; intros H; injection H as <- _.
  - now apply nodup_filter_fst.
  - apply nodup_filter_fst. apply nodup_insert; [exact Hnd|now apply index_of_none].
Qed.

Lemma step_distinct static st st' : limit_step static st = Ok st' ->
  distinct_factors st -> distinct_factors st'.
Proof.
  unfold limit_step. intros H Hd.
  destruct (argmax (pf_count_sums st)) as [m|]; [|discriminate]. cbn [rbind] in H.
  unfold dgetr in H.
  destruct (dget m (pfs st)) as [fs|] eqn:Gf; [|discriminate]. cbn [of_option rbind] in H.
  destruct (dget m (pf_counts st)) as [cs|]; [|discriminate]. cbn [of_option rbind] in H.
  destruct (find_smallest_non_static_pf static m fs cs) as [ij|]; [|discriminate].
  cbn [rbind] in H.
  destruct (merge_factors fs cs (fst ij) (snd ij)) as [[fs' cs']|] eqn:Em; [|discriminate].
  cbn [rbind] in H. destruct (dget m (pf_count_sums st)); [|discriminate].
  cbn [of_option rbind fst snd] in H. injection H as <-.
  intros d gs Hin. cbn [pfs] in Hin. apply In_dset in Hin.
  destruct Hin as [[-> ->]|Hin]; [|exact (Hd d gs Hin)].
  apply (merge_distinct fs cs _ _ _ _ (Hd m fs (dget_In _ _ _ Gf)) Em).
Qed.

Lemma iter_distinct static k : forall st st', limit_iter static k st = Ok st' ->
  distinct_factors st -> distinct_factors st'.
Proof.
  induction k as [|k IH]; intros st st' H Hd; cbn [limit_iter] in H.
  - injection H as <-. exact Hd.
  - destruct (limit_step static st) as [st1|] eqn:E; [|discriminate]. cbn [rbind] in H.
    apply (IH st1 st' H). now apply (step_distinct static st).
Qed.

Lemma announced_number factorint : factorint_ok factorint ->
  forall d0 layer_dims loops lim, NoDup (keys loops) ->
  (forall d n, In (d, n) loops -> 1 < n) ->
  (forall l, lim = Some l -> 1 <= l /\ Z.of_nat (length loops) <= l) ->
  exists st lpfs V,
    get_prime_factors factorint None lim (d0 :: layer_dims) loops = Ok (st, lpfs) /\
    (forall fuel, (length V <= fuel)%nat -> permutations loop_ltb fuel lpfs = Ok V) /\
    compute_nb_permutations st = Z.of_nat (length V).
Proof.
  intros Hfac d0 dims loops lim Hnd Hn Hlim.
  destruct loops as [|kv loops0].
  { unfold get_prime_factors. rewrite with_dummy_none. cbn [rbind fst snd].
    set (st := mkFactors [(d0, [1])] [(d0, [1])] [(d0, 1)]).
    destruct (permutations_ok loop_ltb loop_ltb_irr loop_ltb_trans loop_ltb_tot [(d0, 1)])
      as (V & HV & Hall & Hrun); [discriminate|].
    exists st, [(d0, 1)], V. split; [|split; [exact Hrun|]].
    - unfold limit_lpfs. cbn [rbind]. destruct lim as [l|]; [|reflexivity].
      destruct (Hlim l eq_refl) as [Hl _]. subst st. cbn [pf_count_sums values map snd].
      replace (zsum [1] <=? l) with true; [reflexivity|]. symmetry. apply Z.leb_le. cbn. lia.
    - assert (HV1 : Permutation V [[(d0, 1)]]).
      { apply NoDup_Permutation; [exact HV|constructor; [intros []|constructor]|].
        intros p. rewrite Hall. split.
        - intros Hp. apply Permutation_sym, Permutation_length_1_inv in Hp. subst p. now left.
        - intros [<-|[]]. reflexivity. }
      apply Permutation_length in HV1. rewrite HV1. reflexivity. }
  remember (kv :: loops0) as loops eqn:El.
  assert (Hne : loops <> []) by (subst; discriminate). clear El.
  set (st0 := initial_factors factorint loops).
  assert (Hinv0 : FInv loops st0) by now apply initial_inv.
  assert (Hdis0 : distinct_factors st0).
  { intros d fs Hin. unfold st0, initial_factors in Hin. cbn [pfs] in Hin.
    apply in_map_iff in Hin. destruct Hin as ([d' n] & E & Hin). injection E as <- <-.
    cbn [snd]. apply Hn in Hin. destruct (Hfac n ltac:(lia)) as (_ & Hd & _). exact Hd. }
  assert (Hend : forall st l, FInv loops st -> distinct_factors st -> rebuild_lpfs st = Ok l ->
    exists V, (forall fuel, (length V <= fuel)%nat -> permutations loop_ltb fuel l = Ok V) /\
      compute_nb_permutations st = Z.of_nat (length V)).
  { intros st l Hi Hd Er.
    destruct (permutations_ok loop_ltb loop_ltb_irr loop_ltb_trans loop_ltb_tot l)
      as (V & HV & Hall & Hrun).
    - intros ->. destruct (rebuild_ok loops st Hi) as (l' & El' & _ & _ & _ & Hex).
      rewrite Er in El'. injection El' as <-. destruct loops as [|[d n] loops1]; [congruence|].
      destruct (Hex d) as (f & []). now left.
    - exists V. split; [exact Hrun|]. now apply (announced loops st l V). }
  unfold get_prime_factors. rewrite with_dummy_some by assumption. fold st0.
  cbn [rbind fst snd limit_lpfs].
  pose proof (rebuild_initial factorint loops Hnd) as Er0. fold st0 in Er0.
  destruct (Hend st0 _ Hinv0 Hdis0 Er0) as (V0 & Hrun0 & Hnb0).
  destruct lim as [lim|]; [|now exists st0, (initial_lpfs factorint loops), V0].
  destruct (Hlim lim eq_refl) as (_ & Hl).
  destruct (Z.leb_spec (zsum (values (pf_count_sums st0))) lim) as [Hle|Hgt];
    [now exists st0, (initial_lpfs factorint loops), V0|].
  destruct (limit_iter_ok loops lim
              (Z.to_nat (zsum (values (pf_count_sums st0)) - lim)) st0 Hinv0 Hl)
    as (st' & E' & Hinv' & _); [lia|].
  rewrite E'. cbn [rbind].
  destruct (rebuild_ok loops _ Hinv') as (l' & El' & _).
  rewrite El'. cbn [rbind].
  destruct (Hend st' l' Hinv' (iter_distinct [] _ st0 st' E' Hdis0) El') as (V & Hrun & Hnb).
  now exists st', l', V.
Qed.
