(** Proofs for C50: keeping data on chip between layers. *)
From Coq Require Import Lia Sorted.
From Verif Require Import Base Model_DataMove Model_Cost Model_Graph Model_Hierarchy Model_Locality Spec_Hierarchy Spec_Locality Spec_Graph Proof_AllocSearch Proof_Graph Proof_Hierarchy Proof_Bandwidth Proof_Ports.
Open Scope string_scope.
Open Scope list_scope.
Open Scope Z_scope.
Open Scope result_scope.

Lemma sum_two (f : string -> Z) a o (l : list string) : a <> o -> NoDup l -> (forall x, In x l -> x = a \/ x = o) ->
  zsum (map f l) = (if memb a l then f a else 0) + (if memb o l then f o else 0).
Proof.
  intros N. induction l as [|x l IH]; intros Nd H; [reflexivity|]. inversion_clear Nd as [|? ? Nx Nl].
  cbn [map]. rewrite zsum_cons. rewrite IH by (try assumption; intros y I; apply H; now right).
  assert (Hm : forall y, memb y (x :: l) = orb (eqb y x) (memb y l)) by reflexivity. rewrite !Hm.
  destruct (H x (or_introl eq_refl)) as [E|E]; subst x; rewrite eqb_refl.
  - rewrite (eqb_neq o a) by congruence. cbn [orb]. apply memb_not_In in Nx. rewrite Nx. lia.
  - rewrite (eqb_neq a o) by congruence. cbn [orb]. apply memb_not_In in Nx. rewrite Nx. lia.
Qed.

Lemma rmap_dget (d : dict string Z) (l : list string) r : rmap (fun op => dgetr op d) l = Ok r ->
  Forall2 (fun op n => dget op d = Some n) l r.
Proof. intros H. apply rmap_Forall2 in H. induction H as [|x y l r E F IH]; constructor; [now apply dgetr_Ok in E|exact IH]. Qed.

Lemma F2_map {A B} (f : A -> B) l r : Forall2 (fun x y => f x = y) l r -> r = map f l.
Proof. induction 1; cbn; congruence. Qed.

Lemma io_keys info l x n : dget x (io_sizes info l) = Some n -> x = lo_act (info l) \/ x = lo_out (info l).
Proof.
  intros H. apply dget_Some_key in H. unfold io_sizes in H. cbn zeta in H. apply In_keys_dset in H. destruct H as [H|H]; [now right|].
  apply In_keys_dset in H. destruct H as [H|[]]. now left.
Qed.

Lemma in_combine_seq {A} (l : list A) : forall s k m, In (k, m) (combine (seq s (length l)) l) <-> ((s <= k)%nat /\ nth_error l (k - s) = Some m).
Proof.
  induction l as [|x l IH]; intros s k m; cbn [length seq combine]; [split; [intros []|intros [_ E]; destruct (k - s)%nat; discriminate]|].
  cbn [In]. rewrite IH. split.
  - intros [E|[L E]]; [injection E as <- <-; rewrite Nat.sub_diag; split; [lia|reflexivity]|]. split; [lia|]. replace (k - s)%nat with (S (k - S s)) by lia. exact E.
  - intros [L E]. destruct (Nat.eq_dec k s) as [->|N]; [left; rewrite Nat.sub_diag in E; cbn in E; congruence|]. right. split; [lia|].
    replace (k - s)%nat with (S (k - S s)) in E by lia. exact E.
Qed.
Lemma in_enumerate {A} (l : list A) k m : In (k, m) (rev (enumerate l)) <-> nth_error l k = Some m.
Proof. rewrite <- in_rev. unfold enumerate. rewrite in_combine_seq, Nat.sub_0_r. split; [tauto|]. intros E. split; [lia|exact E]. Qed.

Lemma ss_snoc {A} (R : A -> A -> Prop) l x : StronglySorted R l -> (forall y, In y l -> R y x) -> StronglySorted R (l ++ [x]).
Proof.
  induction 1 as [|y l S IH F]; intros H; cbn; [repeat constructor|]. constructor; [apply IH; intros; apply H; now right|].
  apply Forall_app. split; [exact F|]. constructor; [apply H; now left|constructor].
Qed.
Lemma enumerate_sorted {A} (l : list A) : forall s, StronglySorted (fun x y => (fst y < fst x)%nat) (rev (combine (seq s (length l)) l)).
Proof.
  induction l as [|x l IH]; intros s; cbn [length seq combine rev]; [constructor|]. apply ss_snoc; [apply IH|].
  intros [k m] I. apply in_rev in I. apply in_combine_seq in I as [L _]. cbn [fst]. lia.
Qed.

Section Search.
  Variables (g : graph nat) (info : nat -> loc_layer) (levels : list level) (oa : dict string Z).
  Variables (weights : Z) (first final : nat).

  Lemma io_act l : three_operands (info l) -> dget (lo_act (info l)) (io_sizes info l) = Some (if is_adder info l then lo_input_bits (info l) else lo_act_bits (info l)).
  Proof. intros (N & _ & _). unfold io_sizes. cbn zeta. rewrite dget_dset_neq by congruence. now rewrite dget_dset_eq. Qed.
  Lemma io_out l : dget (lo_out (info l)) (io_sizes info l) = Some (lo_out_bits (info l)).
  Proof. unfold io_sizes. cbn zeta. now rewrite dget_dset_eq. Qed.

  Lemma filter_memb (w x : string) l : x <> w -> memb x (filter (fun op => negb (eqb op w)) l) = memb x l.
  Proof.
    intros N. destruct (memb x l) eqn:E.
    - apply memb_In. apply filter_In. split; [now apply memb_In|]. now rewrite eqb_neq.
    - apply memb_not_In. intros I. apply filter_In in I as [I _]. apply memb_not_In in E. tauto.
  Qed.

  (* The sum in the code is the space needed. *)
  Lemma required_spec l m sizes : three_operands (info l) -> NoDup (keys (lv_dict m)) -> is_adder info l = false ->
    rmap (fun op => dgetr op (io_sizes info l)) (filter (fun op => negb (eqb op (lo_weight (info l)))) (keys (lv_dict m))) = Ok sizes ->
    zsum sizes + (if memb (lo_weight (info l)) (keys (lv_dict m)) then weights else 0) = space_needed info weights l m.
  Proof.
    intros T Nd Na H. apply rmap_dget in H. set (fl := filter _ _) in H. assert (Nf : NoDup fl) by now apply NoDup_filter.
    set (f := fun x => match dget x (io_sizes info l) with Some n => n | None => 0 end).
    assert (Es : sizes = map f fl). { apply F2_map. clear -H. induction H as [|x y a b E F IH]; constructor; [unfold f; now rewrite E|exact IH]. }
    assert (Hk : forall x, In x fl -> x = lo_act (info l) \/ x = lo_out (info l)).
    { clear -H. induction H as [|x y a b E F IH]; intros z I; [destruct I|]. destruct I as [<-|I]; [now apply io_keys in E|now apply IH]. }
    destruct T as (N1 & N2 & N3). rewrite Es, (sum_two f (lo_act (info l)) (lo_out (info l))) by assumption.
    unfold fl. rewrite !filter_memb by congruence. unfold f. rewrite io_act by (repeat split; assumption). rewrite io_out, Na.
    unfold space_needed, if_held. cbn zeta. unfold is_adder in Na. rewrite Na. reflexivity.
  Qed.

  Lemma required_adder l m sizes : three_operands (info l) -> is_adder info l = true ->
    rmap (fun op => dgetr op (io_sizes info l)) (filter (fun op => negb (eqb op (lo_weight (info l)))) [lo_out (info l); lo_act (info l)]) = Ok sizes ->
    zsum sizes + (if memb (lo_weight (info l)) [lo_out (info l); lo_act (info l)] then weights else 0) = space_needed info weights l m.
  Proof.
    intros (N1 & N2 & N3) Na H. cbn [filter] in H. rewrite !eqb_neq in H by congruence. cbn [negb] in H.
    apply rmap_dget in H. inversion H as [|? a ? r E1 H']; subst. inversion H' as [|? b ? r' E2 H'']; subst. inversion H''; subst.
    rewrite io_out in E1. rewrite io_act in E2 by (repeat split; assumption). rewrite Na in E2. injection E1 as <-. injection E2 as <-.
    assert (Hm : memb (lo_weight (info l)) [lo_out (info l); lo_act (info l)] = false) by (apply memb_not_In; cbn; intuition congruence).
    rewrite Hm, !zsum_cons. unfold space_needed. cbn zeta. unfold is_adder in Na. rewrite Na. unfold zsum. cbn [fold_right]. lia.
  Qed.

  Definition keeps l m : Prop :=
    exists op, needed_as g info final l op /\ has op m /\ has (lo_out (info l)) m /\ space_needed info weights l m <= capacity oa m.

  Lemma next_spec l a : (if Nat.eqb l final then Ok (lo_act (info l)) else s <- next_of (successors g l) ;; Ok (lo_act (info s))) = Ok a ->
    forall op, needed_as g info final l op <-> op = a.
  Proof.
    intros H op. unfold needed_as. destruct (Nat.eqb_spec l final) as [E|N].
    - injection H as <-. split; [intros [(_ & ->)|(N & _)]; [reflexivity|contradiction]|intros ->; now left].
    - destruct (successors g l) as [|s r] eqn:E; [discriminate|]. cbn in H. injection H as <-. split.
      + intros [(? & _)|(_ & s' & r' & E' & ->)]; [contradiction|]. congruence.
      + intros ->. right. split; [exact N|]. now exists s, r.
  Qed.

  Lemma try_memory_spec l u wl k m u' wl' : three_operands (info l) -> NoDup (keys (lv_dict m)) ->
    try_memory g info oa weights (Nat.eqb l first) (Nat.eqb l final) l (u, wl) (k, m) = Ok (u', wl') ->
    ((keeps l m /\ exists u1, (if Nat.eqb l first then update_io l (lo_act (info l)) (Z.of_nat k) u else Ok u) = Ok u1 /\
       update_io l (lo_out (info l)) (Z.of_nat k) u1 = Ok u') \/
     (~ keeps l m /\ u' = u)) /\
    (wl' = wl \/ (wl' = Z.of_nat k /\ wl' < wl /\ length (lv_served m) = length oa /\ has (lo_weight (info l)) m /\
       (is_adder info l = false -> space_needed info weights l m <= capacity oa m))).
  Proof.
    intros T Nd H. unfold try_memory in H. cbn zeta in H.
    apply rbind_Ok in H as (a & Ha & H). assert (Hn := next_spec l a Ha). clear Ha.
    destruct (memb a (keys (lv_dict m)) && memb (lo_out (info l)) (keys (lv_dict m)))%bool eqn:Eb.
    - apply andb_prop in Eb as [E1 E2]. apply memb_In in E1. apply memb_In in E2. cbn [orb] in H.
      assert (Hk : keeps l m <-> space_needed info weights l m <= capacity oa m).
      { unfold keeps. split; [now intros (? & _ & _ & _ & ?)|]. intros C. exists a. rewrite Hn. now repeat split. }
      apply rbind_Ok in H as (sizes & Hs & H).
      assert (Er : zsum sizes + (if memb (lo_weight (info l)) (if is_adder info l && true then [lo_out (info l); lo_act (info l)] else keys (lv_dict m)) then weights else 0) = space_needed info weights l m).
      { destruct (is_adder info l) eqn:Ea; cbn [andb] in *; [now apply required_adder|now apply required_spec]. }
      rewrite Er in H. fold (capacity oa m) in H. destruct (Z.leb_spec (space_needed info weights l m) (capacity oa m)) as [C|C].
      + apply rbind_Ok in H as (u2 & Hu & H). apply rbind_Ok in Hu as (u1 & H1 & H2). injection H as <- <-. split.
        * left. split; [now apply Hk|]. now exists u1.
        * destruct (Z.ltb_spec (Z.of_nat k) wl) as [L|L]; [|now left]. unfold serves_all. destruct (Nat.eqb_spec (length (lv_served m)) (length oa)) as [S|S]; [|now left].
          cbn [andb]. destruct (memb (lo_weight (info l)) (keys (lv_dict m))) eqn:Ew; [|now left]. right. repeat split; try assumption. now apply memb_In. now intros.
      + injection H as <- <-. split; [right; split; [rewrite Hk; lia|reflexivity]|now left].
    - assert (Hk : ~ keeps l m).
      { intros (op & E & I1 & I2 & _). apply Hn in E. subst op. apply memb_In in I1. apply memb_In in I2. rewrite I1, I2 in Eb. discriminate. }
      cbn [orb] in H. rewrite Bool.andb_false_r in H. destruct (memb (lo_weight (info l)) (keys (lv_dict m))) eqn:Ew; [|injection H as <- <-; split; [now right|now left]].
      apply rbind_Ok in H as (sizes & Hs & H). cbn [andb] in H.
      match type of H with (if ?c then _ else _) = _ => destruct c eqn:C end; [|injection H as <- <-; split; [now right|now left]].
      cbn [rbind] in H. injection H as <- <-. split; [now right|].
      destruct (Z.ltb_spec (Z.of_nat k) wl) as [L|L]; [|now left]. unfold serves_all. destruct (Nat.eqb_spec (length (lv_served m)) (length oa)) as [S|S]; [|now left].
      right. cbn [andb]. repeat split; try assumption. now apply memb_In. intros Na.
      assert (Er := required_spec l m sizes T Nd Na Hs). rewrite Ew in Er. rewrite Er in C. now apply Z.leb_le in C.
  Qed.

  Definition entry (u : updates) l a o : Prop := dget l u = Some [(lo_act (info l), a); (lo_out (info l), o)].
  Definition others (l : nat) (u u' : updates) : Prop := (forall x, x <> l -> dget x u' = dget x u) /\ keys u' = keys u.

  Lemma others_refl l u : others l u u.
  Proof. now split. Qed.
  Lemma others_trans l u u1 u2 : others l u u1 -> others l u1 u2 -> others l u u2.
  Proof. intros [A B] [C D]. split; [intros x N; rewrite C, A by exact N; reflexivity|congruence]. Qed.

  Lemma update_act u l a o t u' : three_operands (info l) -> entry u l a o -> a = -1 \/ t < a -> update_io l (lo_act (info l)) t u = Ok u' ->
    entry u' l t o /\ others l u u'.
  Proof.
    intros (N & _) E C H. unfold update_io, dgetr in H. rewrite E in H. cbn [of_option rbind dget] in H. rewrite eqb_refl in H.
    destruct ((a =? -1) || (t <? a))%bool eqn:B; [|apply Bool.orb_false_iff in B as [B1 B2]; apply Z.eqb_neq in B1; apply Z.ltb_ge in B2; lia].
    cbn [dset] in H. rewrite eqb_refl in H. injection H as <-. split.
    - unfold entry. now rewrite dget_dset_eq.
    - split; [intros x Nx; now rewrite dget_dset_neq by congruence|]. apply keys_dset_in. now apply dget_Some_key in E.
  Qed.
  Lemma update_out u l a o t u' : three_operands (info l) -> entry u l a o -> o = -1 \/ t < o -> update_io l (lo_out (info l)) t u = Ok u' ->
    entry u' l a t /\ others l u u'.
  Proof.
    intros (N & _) E C H. unfold update_io, dgetr in H. rewrite E in H. cbn [of_option rbind dget] in H. rewrite (eqb_neq (lo_out (info l))) in H by congruence. rewrite eqb_refl in H.
    destruct ((o =? -1) || (t <? o))%bool eqn:B; [|apply Bool.orb_false_iff in B as [B1 B2]; apply Z.eqb_neq in B1; apply Z.ltb_ge in B2; lia].
    cbn [dset] in H. rewrite (eqb_neq (lo_out (info l)) (lo_act (info l))) in H by congruence. rewrite eqb_refl in H. injection H as <-. split.
    - unfold entry. now rewrite dget_dset_eq.
    - split; [intros x Nx; now rewrite dget_dset_neq by congruence|]. apply keys_dset_in. now apply dget_Some_key in E.
  Qed.

  Definition decreasing (todo : list (nat * level)) : Prop := StronglySorted (fun x y => (fst y < fst x)%nat) todo.
  Definition lowered l (ks : list (nat * level)) (wl wl' : Z) : Prop :=
    wl' = wl \/ exists k m, In (k, m) ks /\ wl' = Z.of_nat k /\ wl' < wl /\ length (lv_served m) = length oa /\ has (lo_weight (info l)) m /\
      (is_adder info l = false -> space_needed info weights l m <= capacity oa m).

  Lemma memories_spec l (T : three_operands (info l)) todo : forall u wl a o u' wl',
    (forall x, In x todo -> NoDup (keys (lv_dict (snd x)))) -> decreasing todo -> entry u l a o ->
    (o = -1 \/ forall x, In x todo -> Z.of_nat (fst x) < o) -> (l = first -> a = o) ->
    rfold (try_memory g info oa weights (Nat.eqb l first) (Nat.eqb l final) l) (u, wl) todo = Ok (u', wl') ->
    exists o', others l u u' /\ entry u' l (if Nat.eqb l first then o' else a) o' /\
      ((o' = o /\ forall x, In x todo -> ~ keeps l (snd x)) \/
       (exists k m, In (k, m) todo /\ o' = Z.of_nat k /\ keeps l m /\ forall k' m', In (k', m') todo -> keeps l m' -> (k <= k')%nat)) /\
      lowered l todo wl wl'.
  Proof.
    induction todo as [|[k m] todo IH]; intros u wl a o u' wl' Nd D En B F H.
    - injection H as <- <-. exists o. split; [apply others_refl|]. split.
      { destruct (Nat.eqb_spec l first) as [E|N]; [now rewrite <- (F E) at 1|exact En]. }
      split; [left; split; [reflexivity|intros x []]|now left].
    - cbn [rfold] in H. apply rbind_Ok in H as ([u1 wl1] & H1 & H). apply try_memory_spec in H1 as [H1 Hw]; [|exact T|now apply (Nd (k, m)); left].
      inversion D as [|? ? D' Lt]; subst. rewrite Forall_forall in Lt.
      assert (X : exists a1 o1, others l u u1 /\ entry u1 l a1 o1 /\ (l = first -> a1 = o1) /\ (l <> first -> a1 = a) /\
                  ((keeps l m /\ o1 = Z.of_nat k) \/ (~ keeps l m /\ o1 = o))).
      { destruct H1 as [(K & u2 & H2 & H3)|(K & ->)].
        - assert (C : o = -1 \/ Z.of_nat k < o) by (destruct B as [B|B]; [now left|right; apply (B (k, m)); now left]).
          destruct (Nat.eqb_spec l first) as [E|N].
          + rewrite (F E) in En. destruct (update_act u l o o (Z.of_nat k) u2 T En C H2) as [E2 O2].
            destruct (update_out u2 l (Z.of_nat k) o (Z.of_nat k) u1 T E2 C H3) as [E3 O3].
            exists (Z.of_nat k), (Z.of_nat k). split; [exact (others_trans _ _ _ _ O2 O3)|]. split; [exact E3|]. split; [reflexivity|]. split; [contradiction|now left].
          + injection H2 as <-. destruct (update_out u l a o (Z.of_nat k) u1 T En C H3) as [E3 O3].
            exists a, (Z.of_nat k). split; [exact O3|]. split; [exact E3|]. split; [contradiction|]. split; [reflexivity|now left].
        - exists a, o. split; [apply others_refl|]. split; [exact En|]. split; [exact F|]. split; [reflexivity|now right]. }
      destruct X as (a1 & o1 & O1 & En1 & F1 & F2 & K).
      assert (B1 : o1 = -1 \/ forall x, In x todo -> Z.of_nat (fst x) < o1).
      { destruct K as [(_ & ->)|(_ & ->)]; [right; intros x I; specialize (Lt x I); cbn [fst] in Lt; lia|].
        destruct B as [B|B]; [now left|right; intros x I; apply B; now right]. }
      apply (IH u1 wl1 a1 o1) in H; try assumption; [|intros x I; apply Nd; now right].
      destruct H as (o' & O' & En' & K' & W'). exists o'. split; [exact (others_trans _ _ _ _ O1 O')|]. split.
      { destruct (Nat.eqb_spec l first) as [E|N]; [exact En'|now rewrite (F2 N) in En']. }
      split.
      + destruct K' as [(-> & K')|(k' & m' & I & -> & K' & L)].
        * destruct K as [(K & ->)|(K & ->)].
          -- right. exists k, m. split; [now left|]. split; [reflexivity|]. split; [exact K|]. intros k2 m2 I2 K2.
             destruct I2 as [E|I2]; [injection E as <- _; lia|exfalso; exact (K' _ I2 K2)].
          -- left. split; [reflexivity|]. intros x [<-|I]; [exact K|now apply K'].
        * right. exists k', m'. split; [now right|]. split; [reflexivity|]. split; [exact K'|]. intros k2 m2 I2 K2.
          destruct I2 as [E|I2]; [injection E as <- _; specialize (Lt _ I); cbn [fst] in Lt; lia|now apply (L k2 m2)].
      + destruct W' as [->|(k' & m' & I & E1 & E2 & R)].
        * destruct Hw as [->|(E1 & E2 & R)]; [now left|]. right. exists k, m. split; [now left|]. now repeat split.
        * right. exists k', m'. split; [now right|]. split; [exact E1|]. split; [|exact R]. destruct Hw as [->|(_ & E3 & _)]; lia.
  Qed.

  Lemma branch_spec l b : is_branch g l = Ok b -> (b = true <-> branching g l).
  Proof.
    unfold is_branch, branching, out_degree, in_degree. destruct (Z.ltb_spec 1 (Z.of_nat (length (successors g l)))) as [L|L]; intros H.
    - injection H as <-. split; [intros _; left; lia|reflexivity].
    - destruct (Nat.eqb_spec (length (successors g l)) 1) as [E|N].
      + destruct (successors g l) as [|s [|]] eqn:Es; cbn in E; try lia. cbn [next_of rbind] in H. injection H as <-. rewrite Z.ltb_lt. split.
        * intros C. right. exists s. split; [reflexivity|lia].
        * intros [C|(s' & E' & C)]; [cbn in C; lia|]. injection E' as <-. lia.
      + injection H as <-. split; [discriminate|]. intros [C|(s & E & _)]; [lia|]. rewrite E in N. now cbn in N.
  Qed.

  Variables (top_act top_out : Z).
  Definition layer_char (um : updates) l a o : Prop :=
    (branching g l -> o = top_out) /\
    (~ branching g l -> ((o = -1 /\ forall k, ~ can_keep g info levels oa weights final l k) \/ exists k, o = Z.of_nat k /\ lowest (can_keep g info levels oa weights final l) k)) /\
    (l = first -> (branching g l -> a = top_act) /\ (~ branching g l -> a = o)) /\
    (l <> first -> exists prev rest, predecessors g l = prev :: rest /\ level_of um prev (lo_out (info prev)) a).
  Definition weights_lowered (ls : list nat) (wl wl' : Z) : Prop :=
    wl' = wl \/ exists l, In l ls /\ ~ branching g l /\ exists k m, nth_error levels k = Some m /\ wl' = Z.of_nat k /\ wl' < wl /\
      length (lv_served m) = length oa /\ has (lo_weight (info l)) m /\
      (is_adder info l = false -> space_needed info weights l m <= capacity oa m).

  Lemma keeps_iff l k : can_keep g info levels oa weights final l k <-> exists m, nth_error levels k = Some m /\ keeps l m.
  Proof. split; [intros (m & op & E & R)|intros (m & E & op & R)]; exists m. - split; [exact E|]. now exists op. - exists op. now split. Qed.

  Lemma layer_spec l u wl u' wl' : three_operands (info l) -> (forall m, In m levels -> NoDup (keys (lv_dict m))) -> entry u l (-1) (-1) ->
    try_layer g info levels oa weights top_act top_out first final (u, wl) l = Ok (u', wl') ->
    exists a o, others l u u' /\ entry u' l a o /\ layer_char u l a o /\ weights_lowered [l] wl wl'.
  Proof.
    intros T Nd En H. unfold try_layer in H. cbn zeta in H. cbn [fst snd] in H. apply rbind_Ok in H as (b & Hb & H). apply branch_spec in Hb.
    apply rbind_Ok in H as (u1 & H1 & H).
    assert (X : exists a1, others l u u1 /\ entry u1 l a1 (-1) /\ (l = first -> a1 = -1) /\
                (l <> first -> exists prev rest, predecessors g l = prev :: rest /\ level_of u prev (lo_out (info prev)) a1)).
    { destruct (Nat.eqb_spec l first) as [E|N].
      - injection H1 as <-. exists (-1). split; [apply others_refl|]. split; [exact En|]. split; [reflexivity|contradiction].
      - apply rbind_Ok in H1 as (prev & Hp & H1). apply rbind_Ok in H1 as (d & Hd & H1). apply rbind_Ok in H1 as (lv & Hl & H1).
        apply dgetr_Ok in Hd. apply dgetr_Ok in Hl. destruct (predecessors g l) as [|p rest]; [discriminate|]. injection Hp as ->.
        destruct (update_act u l (-1) (-1) lv u1 T En (or_introl eq_refl) H1) as [E1 O1]. exists lv. split; [exact O1|]. split; [exact E1|].
        split; [contradiction|]. intros _. exists prev, rest. split; [reflexivity|]. now exists d. }
    destruct X as (a1 & O1 & En1 & F1 & P1). destruct b.
    - assert (B : branching g l) by now apply Hb. apply rbind_Ok in H as (u2 & H2 & H). apply rbind_Ok in H as (u3 & H3 & H). injection H as <- <-.
      assert (X : exists a2, others l u1 u2 /\ entry u2 l a2 (-1) /\ (l = first -> a2 = top_act) /\ (l <> first -> a2 = a1)).
      { destruct (Nat.eqb_spec l first) as [E|N].
        - rewrite (F1 E) in En1. destruct (update_act u1 l (-1) (-1) top_act u2 T En1 (or_introl eq_refl) H2) as [E2 O2]. exists top_act. split; [exact O2|]. split; [exact E2|]. split; [reflexivity|contradiction].
        - injection H2 as <-. exists a1. split; [apply others_refl|]. split; [exact En1|]. split; [contradiction|reflexivity]. }
      destruct X as (a2 & O2 & En2 & F2 & G2). destruct (update_out u2 l a2 (-1) top_out u3 T En2 (or_introl eq_refl) H3) as [E3 O3].
      exists a2, top_out. split; [exact (others_trans _ _ _ _ O1 (others_trans _ _ _ _ O2 O3))|]. split; [exact E3|]. split; [|now left].
      split; [reflexivity|]. split; [contradiction|]. split.
      + intros E. split; [intros _; now apply F2|contradiction].
      + intros N. rewrite (G2 N). now apply P1.
    - assert (B : ~ branching g l) by (rewrite <- Hb; discriminate).
      assert (X := memories_spec l T (rev (enumerate levels)) u1 wl a1 (-1) u' wl').
      destruct X as (o' & O' & En' & K & W); try assumption.
      + intros [k m] I. apply in_enumerate in I. cbn [snd]. apply Nd. eapply nth_error_In. exact I.
      + apply enumerate_sorted.
      + now left.
      + exists (if Nat.eqb l first then o' else a1), o'. split; [exact (others_trans _ _ _ _ O1 O')|]. split; [exact En'|]. split.
        * split; [contradiction|]. split.
          { intros _. destruct K as [(-> & K)|(k & m & I & -> & K & L)]; [left; split; [reflexivity|]; intros k C; apply keeps_iff in C as (m & E & C); apply (K (k, m)); [now apply in_enumerate|exact C]|]. right. exists k. split; [reflexivity|]. split.
            - apply keeps_iff. exists m. split; [now apply in_enumerate|exact K].
            - intros j C. apply keeps_iff in C as (m' & E & C). apply (L j m'); [now apply in_enumerate|exact C]. }
          split; [intros E; split; [contradiction|]; intros _; rewrite E, Nat.eqb_refl; reflexivity|].
          intros N. apply Nat.eqb_neq in N as Ne. rewrite Ne. now apply P1.
        * destruct W as [->|(k & m & I & R)]; [now left|]. right. exists l. split; [now left|]. split; [exact B|]. exists k, m.
          split; [now apply in_enumerate|exact R].
  Qed.

  Lemma layers_spec todo : forall u wl u' wl', (forall l, In l todo -> three_operands (info l)) -> (forall m, In m levels -> NoDup (keys (lv_dict m))) ->
    NoDup todo -> (forall l, In l todo -> entry u l (-1) (-1)) ->
    rfold (try_layer g info levels oa weights top_act top_out first final) (u, wl) todo = Ok (u', wl') ->
    (forall x, ~ In x todo -> dget x u' = dget x u) /\ keys u' = keys u /\
    (forall t1 l t2, todo = t1 ++ l :: t2 -> exists um a o, (forall x, ~ In x (l :: t2) -> dget x u' = dget x um) /\ entry u' l a o /\ layer_char um l a o) /\
    weights_lowered todo wl wl'.
  Proof.
    induction todo as [|l todo IH]; intros u wl u' wl' T Nd N En H.
    - injection H as <- <-. split; [reflexivity|]. split; [reflexivity|]. split; [intros [|] ? ? E; discriminate|now left].
    - cbn [rfold] in H. apply rbind_Ok in H as ([u1 wl1] & H1 & H). inversion_clear N as [|? ? Nl N'].
      apply layer_spec in H1; [|apply T; now left|exact Nd|apply En; now left]. destruct H1 as (a & o & O1 & En1 & C1 & W1).
      apply IH in H; [|intros; apply T; now right|exact Nd|exact N'|].
      2:{ intros x I. unfold entry. rewrite (proj1 O1); [exact (En x (or_intror I))|]. intros ->. contradiction. }
      destruct H as (O & Ks & C & W). split; [|split; [|split]].
      + intros x Nx. rewrite O by (intros I; apply Nx; now right). apply O1. intros ->. apply Nx. now left.
      + rewrite Ks. apply O1.
      + intros [|y t1] x t2 E; injection E as E1 E2; subst.
        * exists u, a, o. split; [|split; [|exact C1]].
          -- intros y Ny. rewrite O by (intros I; apply Ny; now right). apply O1. intros ->. apply Ny. now left.
          -- unfold entry. now rewrite O.
        * now apply (C t1).
      + destruct W as [->|(l' & I & B & k & m & E1 & E2 & L & R)].
        * destruct W1 as [->|(l' & [<-|[]] & B & R)]; [now left|]. right. exists l. split; [now left|]. now split.
        * right. exists l'. split; [now right|]. split; [exact B|]. exists k, m. split; [exact E1|]. split; [exact E2|]. split; [|exact R].
          destruct W1 as [->|(_ & _ & _ & _ & _ & _ & _ & L1 & _)]; lia.
  Qed.

  (* Success *)
  Lemma update_keys (l : nat) op t (u u' : updates) : update_io l op t u = Ok u' -> keys u' = keys u.
  Proof.
    unfold update_io. intros H. apply rbind_Ok in H as (d & E & H). apply dgetr_Ok in E. destruct (dget op d) as [v|]; [|now injection H as <-].
    destruct ((v =? -1) || (t <? v))%bool; injection H as <-; [|reflexivity]. apply keys_dset_in. now apply dget_Some_key in E.
  Qed.
  Lemma update_total (l : nat) op t (u : updates) : In l (keys u) -> exists u', update_io l op t u = Ok u'.
  Proof.
    intros I. apply key_dget in I as (d & E). unfold update_io, dgetr. rewrite E. cbn [of_option rbind]. destruct (dget op d) as [v|]; [|now eexists].
    destruct ((v =? -1) || (t <? v))%bool; now eexists.
  Qed.

  Definition only_its_operands l m : Prop := forall op, has op m -> op = lo_act (info l) \/ op = lo_weight (info l) \/ op = lo_out (info l).

  Lemma sizes_total l (ops : list string) : three_operands (info l) -> (forall op, In op ops -> op = lo_act (info l) \/ op = lo_out (info l)) ->
    exists sizes, rmap (fun op => dgetr op (io_sizes info l)) ops = Ok sizes.
  Proof.
    intros T. induction ops as [|x ops IH]; intros H; [now exists []|]. destruct IH as (r & E); [intros; apply H; now right|].
    assert (exists n, dget x (io_sizes info l) = Some n) as (n & En).
    { destruct (H x (or_introl eq_refl)) as [->| ->]; [rewrite io_act by exact T|rewrite io_out]; now eexists. }
    exists (n :: r). cbn [rmap]. unfold dgetr at 1. rewrite En. cbn [of_option rbind]. rewrite E. reflexivity.
  Qed.

  Lemma try_memory_total l (u : updates) wl km : three_operands (info l) -> In l (keys u) -> only_its_operands l (snd km) -> (l <> final -> successors g l <> []) ->
    exists st, try_memory g info oa weights (Nat.eqb l first) (Nat.eqb l final) l (u, wl) km = Ok st /\ keys (fst st) = keys u.
  Proof.
    intros T I C S. destruct km as [k m]. unfold try_memory. cbn zeta. cbn [snd] in C.
    assert (exists a, (if Nat.eqb l final then Ok (lo_act (info l)) else s <- next_of (successors g l) ;; Ok (lo_act (info s))) = Ok a) as (a & ->).
    { destruct (Nat.eqb_spec l final) as [E|N]; [now eexists|]. specialize (S N). destruct (successors g l) as [|x r]; [contradiction|]. now eexists. }
    cbn [rbind]. set (io := (memb a (keys (lv_dict m)) && memb (lo_out (info l)) (keys (lv_dict m)))%bool).
    destruct (io || memb (lo_weight (info l)) (keys (lv_dict m)))%bool; [|now eexists].
    set (served := if is_adder info l && io then _ else _).
    assert (Hs : forall op, In op served -> op = lo_act (info l) \/ op = lo_weight (info l) \/ op = lo_out (info l)).
    { unfold served. destruct (is_adder info l && io)%bool; [|exact C]. cbn [In]. intros op [<-|[<-|[]]]; tauto. }
    destruct (sizes_total l (filter (fun op => negb (eqb op (lo_weight (info l)))) served)) as (sizes & ->); [exact T| |].
    { intros op J. apply filter_In in J as [J N]. destruct (Hs op J) as [E|[E|E]]; [tauto| |tauto]. subst op. now rewrite eqb_refl in N. }
    cbn [rbind]. match goal with |- context [if ?c then _ else Ok (u, wl)] => destruct c end; [|now eexists].
    destruct io; [|now eexists].
    assert (exists u1, (if Nat.eqb l first then update_io l (lo_act (info l)) (Z.of_nat k) u else Ok u) = Ok u1 /\ keys u1 = keys u) as (u1 & -> & K1).
    { destruct (Nat.eqb l first); [|now eexists]. destruct (update_total l (lo_act (info l)) (Z.of_nat k) u I) as (u1 & E). exists u1. split; [exact E|]. now apply update_keys in E. }
    cbn [rbind]. destruct (update_total l (lo_out (info l)) (Z.of_nat k) u1) as (u2 & E2); [now rewrite K1|]. rewrite E2. cbn [rbind]. eexists. split; [reflexivity|].
    cbn [fst]. apply update_keys in E2. congruence.
  Qed.

  Lemma memories_total l : three_operands (info l) -> (l <> final -> successors g l <> []) ->
    forall todo (u : updates) wl, In l (keys u) -> (forall x, In x todo -> only_its_operands l (snd x)) ->
    exists st, rfold (try_memory g info oa weights (Nat.eqb l first) (Nat.eqb l final) l) (u, wl) todo = Ok st.
  Proof.
    intros T S. induction todo as [|km todo IH]; intros u wl I C; [now eexists|]. cbn [rfold].
    destruct (try_memory_total l u wl km T I (C _ (or_introl eq_refl)) S) as ([u1 wl1] & -> & K). cbn [rbind fst] in *. apply IH; [now rewrite K|]. intros; apply C; now right.
  Qed.

  Lemma branch_total l : exists b, is_branch g l = Ok b.
  Proof.
    unfold is_branch, out_degree. destruct (1 <? _); [now eexists|]. destruct (Nat.eqb_spec (length (successors g l)) 1) as [E|N]; [|now eexists].
    destruct (successors g l); [discriminate|]. now eexists.
  Qed.

  Lemma layer_total l (u : updates) wl : three_operands (info l) -> In l (keys u) -> (forall m, In m levels -> only_its_operands l m) ->
    (l <> final -> successors g l <> []) -> (l <> first -> predecessors g l <> []) ->
    (forall p, In p (predecessors g l) -> exists a o, entry u p a o) -> (forall p, In p (predecessors g l) -> three_operands (info p)) ->
    exists st, try_layer g info levels oa weights top_act top_out first final (u, wl) l = Ok st.
  Proof.
    intros T I C S P En Tp. unfold try_layer. cbn zeta. cbn [fst snd]. destruct (branch_total l) as (b & ->). cbn [rbind].
    assert (exists u1, (if Nat.eqb l first then Ok u else prev <- next_of (predecessors g l) ;; d <- dgetr prev u ;; lv <- dgetr (lo_out (info prev)) d ;; update_io l (lo_act (info l)) lv u) = Ok u1 /\ keys u1 = keys u) as (u1 & -> & K).
    { destruct (Nat.eqb_spec l first) as [E|N]; [now eexists|]. specialize (P N). destruct (predecessors g l) as [|p r]; [contradiction|]. cbn [next_of rbind].
      destruct (En p (or_introl eq_refl)) as (a & o & E). unfold dgetr. rewrite E. cbn [of_option rbind dget].
      rewrite (eqb_neq (lo_out (info p))) by (destruct (Tp p (or_introl eq_refl)); congruence). rewrite eqb_refl. cbn [of_option rbind].
      destruct (update_total l (lo_act (info l)) o u I) as (u1 & E1). exists u1. split; [exact E1|]. now apply update_keys in E1. }
    cbn [rbind]. rewrite <- K in I. destruct b.
    - assert (exists u2, (if Nat.eqb l first then update_io l (lo_act (info l)) top_act u1 else Ok u1) = Ok u2 /\ keys u2 = keys u1) as (u2 & -> & K2).
      { destruct (Nat.eqb l first); [|now eexists]. destruct (update_total l (lo_act (info l)) top_act u1 I) as (u2 & E). exists u2. split; [exact E|]. now apply update_keys in E. }
      cbn [rbind]. destruct (update_total l (lo_out (info l)) top_out u2) as (u3 & E3); [now rewrite K2|]. rewrite E3. now eexists.
    - apply memories_total; try assumption. intros [k m] J. apply in_enumerate in J. cbn [snd]. apply C. eapply nth_error_In. exact J.
  Qed.
End Search.

(* The last memory with an operand *)
Lemma top_level_spec levels op : last_with levels op (top_level_for levels op).
Proof.
  unfold top_level_for.
  assert (G : forall ks top, let r := fold_left (fun top kl => if memb op (keys (lv_dict (snd kl))) then Z.max (Z.of_nat (fst kl)) top else top) ks top in
    top <= r /\ (r = top \/ exists k m, In (k, m) ks /\ has op m /\ r = Z.of_nat k) /\ forall k m, In (k, m) ks -> has op m -> Z.of_nat k <= r).
  { induction ks as [|[k m] ks IH]; intros top; cbn zeta; cbn [fold_left]; [split; [lia|]; split; [now left|intros ? ? []]|]. cbn [fst snd].
    destruct (memb op (keys (lv_dict m))) eqn:E.
    - destruct (IH (Z.max (Z.of_nat k) top)) as (A & B & C). cbn zeta in A, B, C. split; [lia|]. split.
      + destruct B as [B|(k' & m' & I & Hm & B)]; [|right; exists k', m'; split; [now right|now split]].
        destruct (Z.max_spec (Z.of_nat k) top) as [[L M]|[L M]]; [left; lia|]. right. exists k, m. split; [now left|]. split; [now apply memb_In|]. rewrite B, M. reflexivity.
      + intros k' m' [F|I] Hm; [injection F as <- <-; lia|now apply (C k' m')].
    - destruct (IH top) as (A & B & C). cbn zeta in A, B, C. split; [exact A|]. split.
      + destruct B as [B|(k' & m' & I & Hm & B)]; [now left|right; exists k', m'; split; [now right|now split]].
      + intros k' m' [F|I] Hm; [|now apply (C k' m')]. injection F as <- <-. apply memb_In in Hm. congruence. }
  destruct (G (rev (enumerate levels)) (-1)) as (A & B & C). cbn zeta in A, B, C. destruct B as [B|(k & m & I & Hm & B)].
  - left. split; [exact B|]. intros m J Hm. apply In_nth_error in J as (k & J). apply in_enumerate in J. specialize (C k m J Hm). rewrite B in C. lia.
  - right. exists k, m. split; [exact B|]. split; [now apply in_enumerate|]. split; [exact Hm|]. intros j m' E Hm'. apply in_enumerate in E. specialize (C j m' E Hm'). rewrite B in C. lia.
Qed.

Lemma weights_spec info order nodes : Permutation order nodes -> all_weights info order = workload_weights info nodes.
Proof.
  intros P. transitivity (workload_weights info order).
  - unfold all_weights, workload_weights. clear P. induction order as [|x l IH]; [reflexivity|]. cbn [map filter]. rewrite zsum_cons. unfold is_adder at 1.
    destruct (Nat.eqb (lo_constants (info x)) 0); cbn [negb]; [rewrite IH; lia|]. cbn [map]. rewrite zsum_cons, IH. lia.
  - unfold workload_weights. induction P; cbn [map]; rewrite ?zsum_cons; lia.
Qed.

Lemma start_entries info order : (forall l, In l order -> three_operands (info l)) -> NoDup order ->
  let u := fold_left (fun u l => dset l (no_levels info l) u) order [] in keys u = order /\ forall l, In l order -> entry info u l (-1) (-1).
Proof.
  intros T N. cbn zeta.
  assert (G : forall ls (u0 : updates), NoDup ls -> (forall l, In l ls -> ~ In l (keys u0)) -> (forall l, In l ls -> three_operands (info l)) ->
    let u := fold_left (fun u l => dset l (no_levels info l) u) ls u0 in
    keys u = keys u0 ++ ls /\ (forall l, In l ls -> entry info u l (-1) (-1)) /\ forall l, ~ In l ls -> dget l u = dget l u0).
  { clear. induction ls as [|x ls IH]; intros u0 N D T; cbn zeta; cbn [fold_left]; [rewrite app_nil_r; split; [reflexivity|]; split; [intros ? []|reflexivity]|].
    inversion_clear N as [|? ? Nx N'].
    assert (K0 : keys (dset x (no_levels info x) u0) = keys u0 ++ [x]) by (apply keys_dset_notin, D; now left).
    destruct (IH (dset x (no_levels info x) u0)) as (K & E & O); cbn zeta in *; [exact N'| |intros; apply T; now right|].
    { intros l I. rewrite K0, in_app_iff. cbn. intros [J|[->|[]]]; [|contradiction]. revert J. apply D. now right. }
    split; [rewrite K, K0, <- app_assoc; reflexivity|]. split.
    - intros l [<-|I]; [|now apply E]. unfold entry. rewrite O by exact Nx. rewrite dget_dset_eq. unfold no_levels.
      destruct (T x (or_introl eq_refl)) as (Na & _). cbn [dset]. rewrite eqb_neq by congruence. reflexivity.
    - intros l Nl. rewrite O by (intros I; apply Nl; now right). apply dget_dset_neq. intros ->. apply Nl. now left. }
  destruct (G order [] N) as (K & E & _); [intros l _ []|exact T|]. now split.
Qed.

Lemma in_preds (g : graph nat) p l : In p (predecessors g l) <-> In (p, l) (g_edges g).
Proof.
  unfold predecessors. rewrite in_map_iff. split.
  - intros ([a b] & <- & I). apply filter_In in I as [I E]. cbn [fst snd] in *. destruct (eqb_spec l b) as [->|]; [exact I|discriminate].
  - intros I. exists (p, l). split; [reflexivity|]. apply filter_In. split; [exact I|]. apply eqb_refl.
Qed.
Lemma in_succs (g : graph nat) l s : In s (successors g l) <-> In (l, s) (g_edges g).
Proof.
  unfold successors. rewrite in_map_iff. split.
  - intros ([a b] & <- & I). apply filter_In in I as [I E]. cbn [fst snd] in *. destruct (eqb_spec l a) as [->|]; [exact I|discriminate].
  - intros I. exists (l, s). split; [reflexivity|]. apply filter_In. split; [exact I|]. apply eqb_refl.
Qed.

Lemma order_first (g : graph nat) first tail : graph_ok g -> topological_order g (first :: tail) -> predecessors g first = [].
Proof.
  intros O [P B]. destruct (predecessors g first) as [|p r] eqn:E; [reflexivity|exfalso].
  assert (I : In (p, first) (g_edges g)) by (apply in_preds; rewrite E; now left).
  assert (N : NoDup (first :: tail)) by (eapply Permutation_NoDup; [symmetry; exact P|apply O]).
  destruct (B _ _ I) as (l1 & l2 & l3 & E'). inversion_clear N as [|? ? N1 _]. destruct l1 as [|x l1]; injection E' as E1 E2; subst; apply N1; [apply in_app_iff; right; now left|].
  rewrite in_app_iff. right. right. apply in_app_iff. right. now left.
Qed.
Lemma order_last (g : graph nat) final init : graph_ok g -> topological_order g (init ++ [final]) -> successors g final = [].
Proof.
  intros O [P B]. destruct (successors g final) as [|p r] eqn:E; [reflexivity|exfalso].
  assert (I : In (final, p) (g_edges g)) by (apply in_succs; rewrite E; now left).
  assert (N : NoDup (init ++ [final])) by (eapply Permutation_NoDup; [symmetry; exact P|apply O]).
  destruct (B _ _ I) as (l1 & l2 & l3 & E'). apply NoDup_remove in N as [_ N]. rewrite app_nil_r in N. apply N.
  assert (X : exists y l4, p :: l3 = l4 ++ [y]) by (destruct (@exists_last _ (p :: l3)) as (l4 & y & X); [discriminate|]; now exists y, l4).
  destruct X as (y & l4 & X). rewrite X in E'. rewrite app_comm_cons, !app_assoc in E'. apply app_inj_tail in E' as [E' ->].
  rewrite E', !in_app_iff. left. right. now left.
Qed.

Lemma before_split (order : list nat) p t1 l t2 : NoDup order -> order = t1 ++ l :: t2 -> before order p l -> ~ In p (l :: t2).
Proof.
  intros N E B I. apply (index_before order p l N) in B as (i & j & Ei & Ej & L). subst order.
  assert (G : forall (a b : list nat) x, ~ In x a -> index_of x (a ++ x :: b) = Some (length a)).
  { induction a as [|y a IH]; intros b x Nx; cbn [app index_of length]; [now rewrite eqb_refl|]. rewrite eqb_neq by (intros ->; apply Nx; now left). rewrite IH; [reflexivity|]. intros Q. apply Nx. now right. }
  assert (Nl : ~ In l t1). { intros J. apply NoDup_remove_2 in N. apply N. apply in_app_iff. now left. }
  rewrite G in Ej by exact Nl. injection Ej as <-.
  destruct I as [->|I]; [rewrite G in Ei by exact Nl; injection Ei as <-; lia|].
  apply in_split in I as (a & b & ->). rewrite app_comm_cons, app_assoc in Ei, N. rewrite G in Ei; [injection Ei as <-; rewrite app_length in L; lia|].
  apply NoDup_remove_2 in N. intros J. apply N. apply in_app_iff. now left.
Qed.

Section Whole.
  Variables (g : graph nat) (info : nat -> loc_layer) (levels : list level) (oa : dict string Z).
  Hypothesis O : graph_ok g.
  Hypothesis T : forall l, In l (g_nodes g) -> three_operands (info l).
  Hypothesis Nd : forall m, In m levels -> NoDup (keys (lv_dict m)).

  Lemma search_spec l0 rest u wl : g_nodes g = l0 :: rest -> search_levels g info levels oa = Ok (u, wl) ->
    exists order first tail init final, topological_order g order /\ order = first :: tail /\ order = init ++ [final] /\
      (forall l, In l (g_nodes g) -> levels_chosen g info levels oa first final l0 u l) /\ keys u = order /\
      weights_lowered g info levels oa (workload_weights info (g_nodes g)) (g_nodes g) (top_level_for levels (lo_weight (info l0))) wl.
  Proof.
    intros E0 H. unfold search_levels in H. rewrite E0 in H. cbn zeta in H. apply rbind_Ok in H as (order & Ho & H).
    assert (Ht := sort_sound g order O Ho). assert (P := proj1 Ht).
    assert (N : NoDup order) by (eapply Permutation_NoDup; [symmetry; exact P|apply O]).
    destruct order as [|first tail]; [apply Permutation_nil in P; rewrite P in E0; discriminate|].
    destruct (@exists_last _ (first :: tail)) as (init & final & El); [discriminate|].
    assert (Ef : last (first :: tail) 0%nat = final) by (rewrite El; apply last_last). rewrite Ef in H.
    assert (To : forall l, In l (first :: tail) -> three_operands (info l)) by (intros l I; apply T; eapply Permutation_in; [exact P|exact I]).
    destruct (start_entries info (first :: tail) To N) as (Ks & En). cbn zeta in Ks, En.
    set (u0 := fold_left (fun u l => dset l (no_levels info l) u) (first :: tail) []) in *. clearbody u0.
    apply rbind_Ok in H as ([u' wl'] & H & C). cbn [fst] in C. match type of C with (if ?c then _ else _) = _ => destruct c eqn:Cb end; [|discriminate]. injection C as -> ->.
    rewrite forallb_forall in Cb. rewrite (weights_spec info _ _ P) in H.
    apply layers_spec in H; [|exact To|exact Nd|exact N|exact En]. destruct H as (_ & K & L & W).
    exists (first :: tail), first, tail, init, final. split; [exact Ht|]. split; [reflexivity|]. split; [exact El|]. split; [|split].
    - intros l I. assert (I' : In l (first :: tail)) by (eapply Permutation_in; [symmetry; exact P|exact I]).
      apply in_split in I' as (t1 & t2 & Es). destruct (L t1 l t2 Es) as (um & a & o & Oth & E & (C1 & C2 & C3 & C4)).
      assert (Nn : 0 <= a /\ 0 <= o).
      { apply dget_In in E. specialize (Cb _ E). cbn [snd forallb] in Cb. apply andb_prop in Cb as [Ca Cb]. apply andb_prop in Cb as [Cb _]. now apply Z.leb_le in Ca, Cb. }
      assert (Nt := T l I). exists a, o.
      split; [eexists; split; [exact E|]; cbn [dget]; now rewrite eqb_refl|].
      split; [eexists; split; [exact E|]; cbn [dget]; rewrite eqb_neq by (destruct Nt; congruence); now rewrite eqb_refl|].
      split; [apply Nn|]. split; [apply Nn|]. split; [intros B; rewrite (C1 B); apply top_level_spec|]. split.
      { intros B. destruct (C2 B) as [(-> & _)|X]; [lia|exact X]. }
      split.
      { intros F. destruct (C3 F) as (A1 & A2). split; [intros B; rewrite (A1 B); apply top_level_spec|exact A2]. }
      intros F. destruct (C4 F) as (prev & r & Ep & (d & Ed & Ev)). exists prev, r. split; [exact Ep|]. exists d. split; [|exact Ev]. rewrite Oth; [exact Ed|].
      apply (before_split (first :: tail) prev t1 l t2 N Es). apply Ht. apply in_preds. rewrite Ep. now left.
    - congruence.
    - destruct W as [W|(l & I & R)]; [now left|]. right. exists l. split; [eapply Permutation_in; [exact P|exact I]|exact R].
  Qed.

  (* Success *)
  Hypothesis Ranked : ranked g.
  Hypothesis one_source : forall a b, In a (g_nodes g) -> In b (g_nodes g) -> predecessors g a = [] -> predecessors g b = [] -> a = b.
  Hypothesis one_sink : forall a b, In a (g_nodes g) -> In b (g_nodes g) -> successors g a = [] -> successors g b = [] -> a = b.
  Hypothesis Its : forall l m op, In l (g_nodes g) -> In m levels -> has op m -> op = lo_act (info l) \/ op = lo_weight (info l) \/ op = lo_out (info l).
  Variable big : level.
  Hypothesis Big : In big levels.
  Hypothesis Big_has : forall l, In l (g_nodes g) -> has (lo_act (info l)) big /\ has (lo_out (info l)) big /\ space_needed info (workload_weights info (g_nodes g)) l big <= capacity oa big.

  Lemma search_total l0 rest : g_nodes g = l0 :: rest -> exists st, search_levels g info levels oa = Ok st.
  Proof.
    intros E0. unfold search_levels. rewrite E0. cbn zeta. destruct (sort_ok g O Ranked) as (order & Ho & Ht). rewrite Ho. cbn [rbind].
    assert (P := proj1 Ht). assert (N : NoDup order) by (eapply Permutation_NoDup; [symmetry; exact P|apply O]).
    destruct order as [|first tail]; [apply Permutation_nil in P; rewrite P in E0; discriminate|].
    destruct (@exists_last _ (first :: tail)) as (init & final & El); [discriminate|].
    assert (Ef : last (first :: tail) 0%nat = final) by (rewrite El; apply last_last). rewrite Ef.
    assert (To : forall l, In l (first :: tail) -> three_operands (info l)) by (intros l I; apply T; eapply Permutation_in; [exact P|exact I]).
    destruct (start_entries info (first :: tail) To N) as (Ks & En). cbn zeta in Ks, En.
    set (u0 := fold_left (fun u l => dset l (no_levels info l) u) (first :: tail) []) in *. clearbody u0.
    rewrite (weights_spec info _ _ P). set (w := workload_weights info (g_nodes g)) in *.
    set (ta := top_level_for levels (lo_act (info l0))). set (tw := top_level_for levels (lo_weight (info l0))). set (to := top_level_for levels (lo_out (info l0))).
    assert (Nn : forall l, In l (first :: tail) <-> In l (g_nodes g)) by (intros l; split; apply Permutation_in; [exact P|symmetry; exact P]).
    assert (If : In first (g_nodes g)) by (apply Nn; now left).
    assert (Ifi : In final (g_nodes g)) by (apply Nn; rewrite El; apply in_app_iff; right; now left).
    assert (G : forall t1, (exists t2, first :: tail = t1 ++ t2) -> exists st, rfold (try_layer g info levels oa w ta to first final) (u0, tw) t1 = Ok st).
    { induction t1 as [|l t1 IH] using rev_ind; intros (t2 & Et); [now eexists|]. rewrite <- app_assoc in Et. cbn [app] in Et.
      destruct IH as ([u1 wl1] & E1); [now exists (l :: t2)|]. rewrite rfold_app, E1. cbn [rbind].
      assert (Il : In l (g_nodes g)) by (apply Nn; rewrite Et; apply in_app_iff; right; now left).
      assert (N1 : NoDup t1) by (rewrite Et in N; clear -N; induction t1 as [|x t1 IH]; [constructor|]; inversion_clear N as [|? ? A B]; constructor; [intros I; apply A; apply in_app_iff; now left|now apply IH]).
      assert (T1 : forall x, In x t1 -> In x (first :: tail)) by (intros x I; rewrite Et; apply in_app_iff; now left).
      assert (S := layers_spec g info levels oa w first final ta to t1 u0 tw u1 wl1 (fun x I => To x (T1 x I)) Nd N1 (fun x I => En x (T1 x I)) E1).
      destruct S as (Oth & K & L & _).
      assert (Ea : forall x, In x (g_nodes g) -> exists a o, entry info u1 x a o).
      { intros x I. destruct (in_dec Nat.eq_dec x t1) as [J|J].
        - apply in_split in J as (a1 & a2 & Ja). destruct (L a1 x a2 Ja) as (um & a & o & _ & E & _). now exists a, o.
        - exists (-1), (-1). unfold entry. rewrite Oth by exact J. apply En. now apply Nn. }
      destruct (layer_total g info levels oa w first final ta to l u1 wl1) as (st & Es).
      - now apply T.
      - rewrite K, Ks. now apply Nn.
      - intros m Im op Hm. now apply (Its l m op).
      - intros Nl Es. apply Nl. apply one_sink; try assumption. apply (order_last g final init O). rewrite <- El. exact Ht.
      - intros Nl Es. apply Nl. apply one_source; try assumption. apply (order_first g first tail O). exact Ht.
      - intros p Ip. apply Ea. apply in_preds in Ip. now apply O in Ip.
      - intros p Ip. apply T. apply in_preds in Ip. now apply O in Ip.
      - exists st. cbn [rfold]. rewrite Es. reflexivity. }
    destruct (G (first :: tail)) as ([u wl] & E); [exists []; now rewrite app_nil_r|]. rewrite E. cbn [rbind fst].
    apply layers_spec in E; [|exact To|exact Nd|exact N|exact En]. destruct E as (_ & K & L & _).
    assert (Bn : exists k, nth_error levels k = Some big) by now apply In_nth_error. destruct Bn as (kb & Bn).
    assert (Tp : forall op, has op big -> 0 <= top_level_for levels op).
    { intros op Hm. destruct (top_level_spec levels op) as [(_ & X)|(k & m & -> & _)]; [exfalso; exact (X big Big Hm)|lia]. }
    assert (I0 : In l0 (g_nodes g)) by (rewrite E0; now left).
    assert (Out : forall l, In l (first :: tail) -> exists a o, entry info u l a o /\ 0 <= o /\
                    (l = first -> 0 <= a) /\ (l <> first -> exists prev r, predecessors g l = prev :: r /\ level_of u prev (lo_out (info prev)) a)).
    { intros l I. assert (Il := proj1 (Nn l) I). apply in_split in I as (t1 & t2 & Es). destruct (L t1 l t2 Es) as (um & a & o & Oth & E & (C1 & C2 & C3 & C4)).
      exists a, o. split; [exact E|].
      assert (Br : branching g l \/ ~ branching g l) by (destruct (branch_total g l) as (b & Eb); assert (Eb' := branch_spec g info l b Eb); destruct b; [left; now apply Eb'|right; rewrite <- Eb'; discriminate]).
      assert (No : 0 <= o).
      { destruct Br as [B|B]; [rewrite (C1 B); apply Tp; now apply Big_has|]. destruct (C2 B) as [(_ & X)|(k & -> & _)]; [exfalso|lia].
        destruct (Big_has l Il) as (H1 & H2 & H3).
        assert (exists op, needed_as g info final l op /\ has op big) as (op & Hop & Hb).
        { destruct (Nat.eq_dec l final) as [F|F]; [exists (lo_act (info l)); split; [now left|exact H1]|].
          destruct (successors g l) as [|s r] eqn:Esu.
          - exfalso. apply F. apply one_sink; try assumption. apply (order_last g final init O). rewrite <- El. exact Ht.
          - exists (lo_act (info s)). split; [right; split; [exact F|]; now exists s, r|]. apply Big_has. assert (Is : In (l, s) (g_edges g)) by (apply in_succs; rewrite Esu; now left). now apply O in Is. }
        apply (X kb). exists big, op. now repeat split. }
      split; [exact No|]. split.
      - intros F. destruct (C3 F) as (A1 & A2). destruct Br as [B|B]; [rewrite (A1 B); apply Tp; now apply Big_has|rewrite (A2 B); exact No].
      - intros F. destruct (C4 F) as (prev & r & Ep & (d & Ed & Ev)). exists prev, r. split; [exact Ep|]. exists d. split; [|exact Ev]. rewrite Oth; [exact Ed|].
        apply (before_split (first :: tail) prev t1 l t2 N Es). apply Ht. apply in_preds. rewrite Ep. now left. }
    match goal with |- context [if ?c then _ else Err AssertionError] => assert (Cb : c = true); [|rewrite Cb; now eexists] end. apply forallb_forall. intros [l d] I.
    assert (Nk : NoDup (keys u)) by (rewrite K, Ks; exact N). assert (Il : In l (first :: tail)) by (rewrite <- Ks, <- K; exact (List.in_map fst _ _ I)).
    apply In_dget in I; [|exact Nk]. destruct (Out l Il) as (a & o & E & No & F1 & F2). assert (E2 := eq_trans (eq_sym I) E). injection E2 as ->.
    cbn [snd forallb]. assert (0 <= a).
    { destruct (Nat.eq_dec l first) as [F|F]; [now apply F1|]. destruct (F2 F) as (prev & r & Ep & (d & Ed & Ev)).
      assert (Ip : In prev (first :: tail)). { apply Nn. assert (Ie : In (prev, l) (g_edges g)) by (apply in_preds; rewrite Ep; now left). now apply O in Ie. }
      destruct (Out prev Ip) as (a' & o' & E' & No' & _). assert (E2 := eq_trans (eq_sym E') Ed). injection E2 as <-.
      cbn [dget] in Ev. rewrite eqb_neq in Ev by (destruct (To prev Ip); congruence). rewrite eqb_refl in Ev. injection Ev as <-. exact No'. }
    apply andb_true_intro. split; [now apply Z.leb_le|]. apply andb_true_intro. split; [now apply Z.leb_le|reflexivity].
  Qed.
End Whole.

Section Consequences.
  Variables (g : graph nat) (info : nat -> loc_layer) (levels : list level) (oa : dict string Z).
  Hypothesis O : graph_ok g.
  Hypothesis T : forall l, In l (g_nodes g) -> three_operands (info l).
  Hypothesis Nd : forall m, In m levels -> NoDup (keys (lv_dict m)).
  Variables (l0 : nat) (rest : list nat) (u : updates) (wl : Z).
  Hypothesis E0 : g_nodes g = l0 :: rest.
  Hypothesis E : search_levels g info levels oa = Ok (u, wl).

  Lemma level_unique l op a b : level_of u l op a -> level_of u l op b -> a = b.
  Proof. intros (d & A & B) (d' & A' & B'). rewrite A in A'. injection A' as <-. congruence. Qed.

  (* The input of the next layer is where the output was left. *)
  Lemma handed_on l s o : In l (g_nodes g) -> ~ branching g l -> successors g l = [s] -> level_of u l (lo_out (info l)) o -> level_of u s (lo_act (info s)) o.
  Proof.
    intros I B S Lo. destruct (search_spec g info levels oa O T Nd l0 rest u wl E0 E) as (order & first & tail & init & final & Ht & E1 & E2 & C & _).
    assert (Ie : In (l, s) (g_edges g)) by (apply in_succs; rewrite S; now left).
    assert (Is : In s (g_nodes g)) by now apply O in Ie.
    destruct (C s Is) as (a & o' & La & _ & _ & _ & _ & _ & _ & P).
    assert (Nf : s <> first). { intros ->. rewrite E1 in Ht. apply (order_first g first tail O) in Ht. apply in_preds in Ie. now rewrite Ht in Ie. }
    destruct (P Nf) as (prev & r & Ep & Lp).
    assert (prev = l /\ r = []) as [-> ->].
    { assert (Ip : In l (predecessors g s)) by now apply in_preds. rewrite Ep in Ip.
      destruct r as [|y r]; [destruct Ip as [->|[]]; now split|]. exfalso. apply B. right. exists s. split; [exact S|]. rewrite Ep. cbn. lia. }
    now rewrite (level_unique _ _ _ _ Lo Lp).
  Qed.

  (* It fits there if it is not larger than the output. *)
  Lemma input_fits l s o m : (forall x, In x (g_nodes g) -> 0 <= lo_act_bits (info x)) -> In l (g_nodes g) -> ~ branching g l -> successors g l = [s] ->
    lo_constants (info l) <> 0%nat -> lo_act_bits (info s) <= lo_out_bits (info l) -> level_of u l (lo_out (info l)) (Z.of_nat o) -> nth_error levels o = Some m ->
    has (lo_act (info s)) m /\ if_held (lo_act (info s)) m (lo_act_bits (info s)) + if_held (lo_weight (info l)) m (workload_weights info (g_nodes g)) <= capacity oa m.
  Proof.
    intros Nn I B S Nc Le Lo Em. destruct (search_spec g info levels oa O T Nd l0 rest u wl E0 E) as (order & first & tail & init & final & Ht & E1 & E2 & C & _).
    assert (Ie : In (l, s) (g_edges g)) by (apply in_succs; rewrite S; now left).
    destruct (C l I) as (a & o' & _ & Lo' & _ & _ & _ & K & _). assert (X := level_unique _ _ _ _ Lo Lo'). destruct (K B) as (k & Ek & (m' & op & Em' & Nx & H1 & H2 & Sp) & _).
    assert (k = o) by lia. subst k. rewrite Em in Em'. injection Em' as <-.
    assert (op = lo_act (info s)) as ->.
    { destruct Nx as [(-> & _)|(_ & s' & r & Es & ->)]; [|congruence]. exfalso. rewrite E2 in Ht. apply (order_last g final init O) in Ht. congruence. }
    split; [exact H1|]. unfold space_needed in Sp. cbn zeta in Sp. apply Nat.eqb_neq in Nc. rewrite Nc in Sp.
    unfold if_held in *. unfold has in H1, H2. apply memb_In in H1, H2. rewrite H1, H2 in *. assert (A := Nn l I). destruct (memb (lo_act (info l)) _); lia.
  Qed.

  (* Weights *)
  Lemma weights_fit : (forall l, In l (g_nodes g) -> lo_constants (info l) <> 0%nat) ->
    last_with levels (lo_weight (info l0)) wl \/ exists k, wl = Z.of_nat k /\ can_keep_weights g info levels oa (workload_weights info (g_nodes g)) k.
  Proof.
    intros Nc. destruct (search_spec g info levels oa O T Nd l0 rest u wl E0 E) as (_ & _ & _ & _ & _ & _ & _ & _ & _ & _ & W).
    destruct W as [->|(l & I & B & k & m & Em & -> & _ & S & Hw & Sp)]; [left; apply top_level_spec|]. right. exists k. split; [reflexivity|].
    exists m, l. split; [exact Em|]. split; [exact I|]. split; [exact B|]. split; [now apply Nc|]. split; [exact Hw|]. split; [exact S|]. apply Sp.
    unfold is_adder. apply Nat.eqb_neq. now apply Nc.
  Qed.

  Lemma last_with_unique op a b : last_with levels op a -> last_with levels op b -> a = b.
  Proof.
    intros [(-> & A)|(k & m & -> & Em & Hm & Hk)] [(-> & B)|(k' & m' & -> & Em' & Hm' & Hk')]; try reflexivity.
    - exfalso. apply nth_error_In in Em'. exact (A _ Em' Hm').
    - exfalso. apply nth_error_In in Em. exact (B _ Em Hm).
    - assert (A := Hk _ _ Em' Hm'). assert (B := Hk' _ _ Em Hm). lia.
  Qed.

  (* Asking for the first input and the last output to be in the top memory changes nothing. *)
  Lemma from_top_ignored : (forall l, In l (g_nodes g) -> lo_act (info l) = lo_act (info l0) /\ lo_out (info l) = lo_out (info l0)) ->
    search_stage g info levels oa true = Ok (u, wl).
  Proof.
    intros U. destruct (search_spec g info levels oa O T Nd l0 rest u wl E0 E) as (order & first & tail & init & final & Ht & E1 & E2 & C & _).
    unfold search_stage. rewrite E. cbn [rbind fst snd].
    assert (G : load_from_top g info levels u = Ok u); [|rewrite G; reflexivity].
    unfold load_from_top. rewrite E0. unfold search_levels in E. rewrite E0 in E. cbn zeta in E. apply rbind_Ok in E as (order' & Ho & _). rewrite Ho. cbn [rbind].
    assert (Ht' := sort_sound g order' O Ho).
    destruct order' as [|f' tl]; [reflexivity|].
    assert (Lo : forall op, last_with levels op (top_level_for levels op)) by (intros; apply top_level_spec).
    assert (Has : forall k m op, nth_error levels k = Some m -> has op m -> Z.of_nat k <= top_level_for levels op).
    { intros k m op Em Hm. destruct (Lo op) as [(_ & X)|(k' & m' & -> & _ & _ & X)]; [exfalso; apply nth_error_In in Em; exact (X m Em Hm)|]. specialize (X k m Em Hm). lia. }
    assert (Out : forall l a, In l (g_nodes g) -> level_of u l (lo_out (info l)) a -> 0 <= a <= top_level_for levels (lo_out (info l0))).
    { intros l a I La. destruct (C l I) as (x & o & _ & Lx & _ & No & B1 & B2 & _). rewrite (level_unique _ _ _ _ La Lx). split; [exact No|].
      destruct (branch_total g l) as (b & Eb). assert (Eb' := branch_spec g info l b Eb). destruct b.
      - rewrite (last_with_unique _ _ _ (B1 (proj1 Eb' eq_refl)) (Lo _)). lia.
      - assert (B : ~ branching g l) by (rewrite <- Eb'; discriminate). destruct (B2 B) as (k & -> & (m & op & Em & _ & _ & Ho' & _) & _). apply (Has k m); [exact Em|]. destruct (U l I) as [_ <-]. exact Ho'. }
    assert (Act : forall l a, In l (g_nodes g) -> predecessors g l = [] -> level_of u l (lo_act (info l)) a -> 0 <= a <= top_level_for levels (lo_act (info l0))).
    { intros l a I Pl La. destruct (C l I) as (x & o & Lx & _ & Na & _ & B1 & B2 & B3 & B4). rewrite (level_unique _ _ _ _ La Lx). split; [exact Na|].
      destruct (Nat.eq_dec l first) as [F|F]; [|destruct (B4 F) as (p & r & Ep & _); congruence]. destruct (B3 F) as (A1 & A2).
      destruct (branch_total g l) as (b & Eb). assert (Eb' := branch_spec g info l b Eb). destruct b.
      - rewrite (last_with_unique _ _ _ (A1 (proj1 Eb' eq_refl)) (Lo _)). lia.
      - assert (B : ~ branching g l) by (rewrite <- Eb'; discriminate). rewrite (A2 B). destruct (B2 B) as (k & -> & (m & op & Em & Nx & Ha & _) & _). apply (Has k m); [exact Em|].
        destruct Nx as [(_ & ->)|(_ & s & r & Es & ->)]; [destruct (U l I) as [<- _]; exact Ha|].
        assert (Is : In s (g_nodes g)) by (assert (Ie : In (l, s) (g_edges g)) by (apply in_succs; rewrite Es; now left); now apply O in Ie). destruct (U s Is) as [<- _]. exact Ha. }
    assert (Same : forall l op t a, level_of u l op a -> 0 <= a <= t -> update_io l op t u = Ok u).
    { intros l op t a (d & Ed & Ea) L. unfold update_io, dgetr. rewrite Ed. cbn [of_option rbind]. rewrite Ea.
      destruct (Z.eqb_spec a (-1)); [lia|]. destruct (Z.ltb_spec t a); [lia|]. reflexivity. }
    assert (Nn : forall l, In l (f' :: tl) -> In l (g_nodes g)) by (intros l; apply Permutation_in, Ht').
    assert (Gen : forall ls, (forall l, In l ls -> In l (f' :: tl)) ->
      rfold (fun u l => u <- (if Nat.eqb l f' then update_io l (lo_act (info l)) (top_level_for levels (lo_act (info l0))) u else Ok u) ;;
              if Nat.eqb l (last (f' :: tl) 0%nat) then update_io l (lo_out (info l)) (top_level_for levels (lo_out (info l0))) u else Ok u) u ls = Ok u).
    { induction ls as [|l ls IH]; intros Il; [reflexivity|]. cbn [rfold]. assert (I : In l (g_nodes g)) by (apply Nn, Il; now left).
      destruct (C l I) as (a & o & La & Lo' & _).
      assert (X : (if Nat.eqb l f' then update_io l (lo_act (info l)) (top_level_for levels (lo_act (info l0))) u else Ok u) = Ok u).
      { destruct (Nat.eqb_spec l f') as [F|F]; [|reflexivity]. apply (Same _ _ _ a La). apply (Act l); [exact I| |exact La]. subst l. exact (order_first g f' tl O Ht'). }
      rewrite X. cbn [rbind].
      assert (Y : (if Nat.eqb l (last (f' :: tl) 0%nat) then update_io l (lo_out (info l)) (top_level_for levels (lo_out (info l0))) u else Ok u) = Ok u).
      { destruct (Nat.eqb l (last (f' :: tl) 0%nat)); [|reflexivity]. apply (Same _ _ _ o Lo'). apply (Out l); [exact I|exact Lo']. }
      rewrite Y. apply IH. intros; apply Il; now right. }
    apply Gen. auto.
  Qed.
End Consequences.

(* Removing memories *)
Definition pruned (l : loc_layer) (ta tw to : Z) (j : nat) (m m' : memspec) : Prop :=
  m' = mkMemspec (ms_size m) (ms_r_cost m) (ms_w_cost m) (kept_operands l ta tw to j m)
         (map (fun p => mkPortspec (ps_name p) (ps_type p) (ps_bw_min p) (ps_bw_max p) (filter (fun a => memb (fst a) (kept_operands l ta tw to j m)) (ps_alloc p))) (ms_ports m))
         (ms_served m).
Lemma kept_iff l ta tw to j m op : In op (kept_operands l ta tw to j m) <-> In op (ms_operands m) /\ keeps_operand l ta tw to j op.
Proof.
  unfold kept_operands, keeps_operand. rewrite !in_app_iff.
  assert (G : forall x t, In op (if memb x (ms_operands m) && (Z.of_nat j <=? t) then [x] else []) <-> In op (ms_operands m) /\ op = x /\ Z.of_nat j <= t).
  { intros x t. destruct (memb x (ms_operands m)) eqn:E; cbn [andb].
    - apply memb_In in E. destruct (Z.leb_spec (Z.of_nat j) t); cbn; split; [intros [<-|[]]; now repeat split|intros (_ & -> & _); now left|intros []|intros (_ & _ & ?); lia].
    - split; [intros []|]. intros (I & -> & _). apply memb_not_In in E. contradiction. }
  rewrite !G. tauto.
Qed.

Lemma prune_spec l ta tw to ms : forall s, exists js,
  StronglySorted lt js /\ (forall j, In j js -> (s <= j)%nat) /\
  Forall2 (fun j m' => exists m, nth_error ms (j - s) = Some m /\ pruned l ta tw to j m m') js (flat_map (prune_memory l ta tw to) (combine (seq s (length ms)) ms)) /\
  forall j m op, (s <= j)%nat -> nth_error ms (j - s) = Some m -> In op (kept_operands l ta tw to j m) -> In j js.
Proof.
  induction ms as [|m ms IH]; intros s.
  - exists []. split; [constructor|]. split; [intros ? []|]. split; [constructor|]. intros j m op _ E _. destruct (j - s)%nat; discriminate.
  - destruct (IH (S s)) as (js & So & Ge & F & Cv).
    assert (F' : Forall2 (fun j m' => exists m0, nth_error (m :: ms) (j - s) = Some m0 /\ pruned l ta tw to j m0 m') js (flat_map (prune_memory l ta tw to) (combine (seq (S s) (length ms)) ms))).
    { clear -F Ge. induction F as [|j m' js ms' (m0 & E & P) F IH]; constructor; [|apply IH; intros; apply Ge; now right]. exists m0. split; [|exact P].
      specialize (Ge j (or_introl eq_refl)). replace (j - s)%nat with (S (j - S s)) by lia. exact E. }
    assert (Cv' : forall j m0 op, (s <= j)%nat -> j <> s -> nth_error (m :: ms) (j - s) = Some m0 -> In op (kept_operands l ta tw to j m0) -> In j js).
    { intros j m0 op L N E I. apply (Cv j m0 op); [lia| |exact I]. replace (j - s)%nat with (S (j - S s)) in E by lia. exact E. }
    cbn [length seq combine flat_map]. unfold prune_memory at 1. destruct (kept_operands l ta tw to s m) as [|x ops] eqn:K.
    + exists js. cbn [app]. split; [exact So|]. split; [intros j I; specialize (Ge j I); lia|]. split; [exact F'|]. intros j m0 op L E I.
      destruct (Nat.eq_dec j s) as [->|N]; [|now apply (Cv' j m0 op)]. rewrite Nat.sub_diag in E. cbn in E. injection E as <-. rewrite K in I. destruct I.
    + exists (s :: js). cbn [app]. split; [constructor; [exact So|]; apply Forall_forall; intros j I; specialize (Ge j I); lia|].
      split; [intros j [<-|I]; [lia|]; specialize (Ge j I); lia|]. split.
      * constructor; [|exact F']. exists m. rewrite Nat.sub_diag. split; [reflexivity|]. unfold pruned. now rewrite K.
      * intros j m0 op L E I. destruct (Nat.eq_dec j s) as [->|N]; [now left|]. right. now apply (Cv' j m0 op).
Qed.

Lemma pruned_allocated l ta tw to ms : (forall m, In m ms -> well_allocated m) -> forall m', In m' (prune l ta tw to ms) -> well_allocated m'.
Proof.
  intros W m' I. unfold prune, enumerate in I. destruct (prune_spec l ta tw to ms 0) as (js & _ & _ & F & _).
  destruct (Forall2_in_r _ _ _ _ F I) as (j & _ & m & E & P). apply nth_error_In in E. specialize (W m E). rewrite P. intros p op s Ip Ia.
  cbn [ms_ports ms_operands] in *. apply in_map_iff in Ip as (q & <- & Iq). cbn [ps_alloc ps_name] in *. apply filter_In in Ia as [Ia Ik]. cbn [fst] in Ik.
  destruct (W q op s Iq Ia) as (A & B & C). split; [now apply memb_In|]. now split.
Qed.

Lemma pruned_hierarchy k ms h id l u wl ta to : build k ms = Ok h -> (forall m, In m ms -> well_allocated m) ->
  level_of u id (lo_act l) ta -> level_of u id (lo_out l) to ->
  let tw := if Nat.eqb (lo_constants l) 0 then ta else wl in
  exists h' js, exploit_stage k ms id l u wl = Ok h' /\ StronglySorted lt js /\
    Forall2 (fun j l' => exists lv, nth_error (h_list h) j = Some lv /\ same_memory lv l' /\ forall op, stores op l' <-> stores op lv /\ keeps_operand l ta tw to j op) js (h_list h') /\
    forall j lv op, nth_error (h_list h) j = Some lv -> stores op lv -> keeps_operand l ta tw to j op -> In j js.
Proof.
  intros B W (d & Ed & Ea) (d' & Ed' & Eo) tw. rewrite Ed in Ed'. injection Ed' as <-.
  destruct (build_total k (prune l ta tw to ms) (pruned_allocated l ta tw to ms W)) as (h' & B').
  destruct (build_inv k ms h B) as (_ & F). destruct (build_inv k _ h' B') as (_ & F').
  destruct (prune_spec l ta tw to ms 0) as (js & So & _ & P & Cv). exists h', js. split.
  { unfold exploit_stage, dgetr. rewrite Ed. cbn [of_option rbind]. rewrite Ea. cbn [of_option rbind]. rewrite Eo. cbn [of_option rbind]. exact B'. }
  assert (Nth : forall j m, nth_error ms j = Some m -> exists lv, nth_error (h_list h) j = Some lv /\ described m lv).
  { clear -F. induction F as [|m lv ms ls D F IH]; intros j m0 Ej; [destruct j; discriminate|]. destruct j as [|j]; [injection Ej as <-; now exists lv|now apply IH]. }
  assert (Nth' : forall j lv, nth_error (h_list h) j = Some lv -> exists m, nth_error ms j = Some m /\ described m lv).
  { clear -F. induction F as [|m lv ms ls D F IH]; intros j m0 Ej; [destruct j; discriminate|]. destruct j as [|j]; [injection Ej as <-; now exists m|now apply IH]. }
  split; [exact So|]. split.
  - unfold prune, enumerate in F'. revert F'. generalize (h_list h'). clear -P Nth. induction P as [|j m' js ms' (m & Ej & Pm) P IH]; intros ls F'; inversion F' as [|? lv' ? ls' D F'']; subst; constructor; [|now apply IH].
    rewrite Nat.sub_0_r in Ej. destruct (Nth j m Ej) as (lv & El & (D1 & D2 & D3 & D4 & D5)). destruct D as (G1 & G2 & G3 & G4 & G5). rewrite Pm in *. cbn [ms_size ms_r_cost ms_w_cost ms_operands ms_served] in *.
    exists lv. split; [exact El|]. split; [repeat split; congruence|]. intros op. unfold stores. rewrite G1, D1. apply kept_iff.
  - intros j lv op El S K. destruct (Nth' j lv El) as (m & Em & D). apply (Cv j m op); [lia|now rewrite Nat.sub_0_r|]. apply kept_iff. split; [|exact K]. unfold stores in S. now rewrite (proj1 D) in S.
Qed.

(* Examples: a register for the outputs, an SRAM of 1000 bits and a DRAM, both for everything *)
Definition ex_all : list (string * string) := [("I1", "fh"); ("I1", "tl"); ("I2", "fh"); ("I2", "tl"); ("O", "fh"); ("O", "fl"); ("O", "th"); ("O", "tl")].
Definition ex_memories : list memspec :=
  [mkMemspec 16 1 1 ["O"] [mkPortspec "rw_port_1" PReadWrite 16 16 [("O", "fh"); ("O", "fl"); ("O", "th"); ("O", "tl")]] [];
   mkMemspec 1000 2 2 ["I1"; "I2"; "O"] [mkPortspec "rw_port_1" PReadWrite 64 64 ex_all] ["D1"; "D2"];
   mkMemspec 100000 9 9 ["I1"; "I2"; "O"] [mkPortspec "rw_port_1" PReadWrite 64 64 ex_all] ["D1"; "D2"]].
Definition ex_hierarchy : hierarchy := match build 0 ex_memories with Ok h => h | Err _ => no_hierarchy 0 end.
Definition ex_levels := h_list ex_hierarchy.
Definition ex_oa : dict string Z := [("D1", 4); ("D2", 4)].
(* a chain of three layers *)
Definition ex_chain : graph nat := mkGraph [0%nat; 1%nat; 2%nat] [(0%nat, 1%nat); (1%nat, 2%nat)].
Definition ex_layer (act weight out : Z) : loc_layer := mkLoc "I1" "I2" "O" 1 act weight out (act + weight).
Definition ex_info (l : nat) : loc_layer := match l with 0%nat => ex_layer 400 100 200 | 1%nat => ex_layer 200 200 600 | _ => ex_layer 600 100 100 end.
(* with a second layer whose output is not the third's input *)
Definition ex_grown (l : nat) : loc_layer := match l with 0%nat => ex_layer 400 100 200 | 1%nat => ex_layer 200 100 200 | _ => ex_layer 5000 100 100 end.
(* two branches that are added *)
Definition ex_split : graph nat := mkGraph [0%nat; 1%nat; 2%nat; 3%nat] [(0%nat, 1%nat); (0%nat, 2%nat); (1%nat, 2%nat); (2%nat, 3%nat)].
Definition ex_add (l : nat) : loc_layer :=
  match l with 2%nat => mkLoc "I1" "I2" "O" 0 200 200 200 400 | _ => ex_layer 200 2000 200 end.
