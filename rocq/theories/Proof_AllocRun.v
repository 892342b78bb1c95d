(** Proofs for the whole allocation (C08, C09, C10). *)
From Coq Require Import Lqa.
From Verif Require Import Base Model_Pr Model_Alloc Spec_Alloc Proof_AllocSearch Proof_AllocTile Proof_Alloc.

(** * Even splits *)

Lemma in_numbered l : forall s p t, In (p, t) (numbered s l) <-> (s <= p)%nat /\ nth_error l (p - s) = Some t.
Proof.
  unfold numbered. induction l as [|x l IH]; intros s p t; cbn [length seq combine In].
  - split; [tauto|]. intros (_ & E). destruct (p - s)%nat; discriminate.
  - rewrite IH. split.
    + intros [E|(H1 & H2)].
      * injection E as -> ->. split; [lia|]. now rewrite Nat.sub_diag.
      * split; [lia|]. replace (p - s)%nat with (S (p - S s)) by lia. exact H2.
    + intros (H1 & H2). destruct (Nat.eq_dec s p) as [->|Hne].
      * left. rewrite Nat.sub_diag in H2. cbn in H2. congruence.
      * right. split; [lia|]. replace (p - s)%nat with (S (p - S s)) in H2 by lia. exact H2.
Qed.

Lemma nth_error_firstn' {A} (l : list A) : forall i n, nth_error (firstn i l) n = if (n <? i)%nat then nth_error l n else None.
Proof.
  induction l as [|x l IH]; intros [|i] [|n]; cbn [firstn nth_error]; try reflexivity.
  - now destruct (S n <? S i)%nat.
  - rewrite IH. reflexivity.
Qed.

Lemma nth_error_skipn' {A} (l : list A) : forall s n, nth_error (skipn s l) n = nth_error l (s + n).
Proof.
  induction l as [|x l IH]; intros [|s] n; cbn [skipn nth_error plus]; try reflexivity.
  - now destruct n.
  - apply IH.
Qed.

Section Run.
  Variable ly : layer.
  Variable spatial : dict string (list (list (string * Q))).
  Variable mtype : mapping_type.
  Variable tops : dict string nat.
  Variable ordering : list tloop.

  Notation okop' := (okop spatial tops ordering).
  Notation inv' := (inv ly spatial tops ordering).

  Definition tracked (si : opstate * nat) : Prop :=
    (exists pre lm ls, okop' pre lm (fst si) ls) /\ (snd si <= length (o_unalloc (fst si)))%nat.

  Lemma in_taken si p t : tracked si ->
    In (p, t) (numbered (n_temporal (fst si)) (firstn (snd si) (o_unalloc (fst si)))) <->
    (cut (fst si) <= p < cut (fst si) + snd si)%nat /\ nth_error ordering p = Some t.
  Proof.
    intros ((pre & lm & ls & H) & Hle). rewrite in_numbered.
    rewrite (n_temporal_cut _ _ _ _ _ _ _ H), (unalloc_skipn _ _ _ _ _ _ _ H).
    rewrite nth_error_firstn', nth_error_skipn'.
    destruct (Nat.ltb_spec (p - cut (fst si)) (snd si)) as [Hlt|Hge].
    - split; intros (H1 & H2).
      + split; [lia|]. replace (cut (fst si) + (p - cut (fst si)))%nat with p in H2 by lia. exact H2.
      + split; [lia|]. replace (cut (fst si) + (p - cut (fst si)))%nat with p by lia. exact H2.
    - split; intros (H1 & H2); [discriminate|]. lia.
  Qed.

  Lemma in_left si p t : tracked si ->
    In (p, t) (numbered (n_temporal (fst si) + snd si) (skipn (snd si) (o_unalloc (fst si)))) <->
    (cut (fst si) + snd si <= p)%nat /\ nth_error ordering p = Some t.
  Proof.
    intros ((pre & lm & ls & H) & Hle). rewrite in_numbered.
    rewrite (n_temporal_cut _ _ _ _ _ _ _ H), (unalloc_skipn _ _ _ _ _ _ _ H).
    rewrite skipn_skipn', nth_error_skipn'.
    split; intros (H1 & H2); (split; [lia|]).
    - replace (snd si + cut (fst si) + (p - (cut (fst si) + snd si)))%nat with p in H2 by lia. exact H2.
    - replace (snd si + cut (fst si) + (p - (cut (fst si) + snd si)))%nat with p by lia. exact H2.
  Qed.

  Lemma eq_numbered_iff x y : eq_numbered x y = true <-> x = y.
  Proof.
    destruct x as (p & d & s), y as (p' & d' & s'). unfold eq_numbered. cbn [fst snd].
    rewrite !andb_true_iff, Nat.eqb_eq, Z.eqb_eq. split.
    - intros ((-> & Hd) & ->). destruct (eqb_spec d d') as [->|]; [reflexivity|discriminate].
    - intros E. injection E as -> -> ->. now rewrite eqb_refl.
  Qed.

  Lemma valid_even sts idxs : (forall si, In si (combine sts idxs) -> tracked si) ->
    (valid_idxs EVEN sts idxs = true <->
     forall x y, In x (combine sts idxs) -> In y (combine sts idxs) -> (0 < snd x)%nat ->
       (cut (fst x) + snd x <= cut (fst y) + snd y)%nat).
  Proof.
    intros Htr. unfold valid_idxs. rewrite negb_true_iff. split.
    - intros E x y Hx Hy Hpos.
      destruct (Nat.le_gt_cases (cut (fst x) + snd x) (cut (fst y) + snd y)) as [H|Hgt]; [exact H|exfalso].
      set (p := (cut (fst x) + snd x - 1)%nat).
      destruct (Htr x Hx) as ((pre & lm & ls & Hok) & Hle).
      assert (Hn := cut_le _ _ _ _ _ _ _ Hok).
      assert (Hp : (p < length ordering)%nat) by (unfold p; lia).
      apply nth_error_Some in Hp. destruct (nth_error ordering p) as [t|] eqn:Et; [|congruence].
      assert (Hb : forall b : bool, b = false -> b = true -> False) by congruence.
      apply (Hb _ E). apply existsb_exists. exists (p, t). split.
      + apply in_flat_map. exists x. split; [assumption|]. apply in_taken; [now apply Htr|].
        split; [unfold p; lia|assumption].
      + apply existsb_exists. exists (p, t). split; [|now apply eq_numbered_iff].
        apply in_flat_map. exists y. split; [assumption|]. apply in_left; [now apply Htr|].
        split; [unfold p; lia|assumption].
    - intros Hall. apply not_true_iff_false. intros E.
      apply existsb_exists in E. destruct E as ([p t] & Ha & E).
      apply existsb_exists in E. destruct E as (z & Hb & E). apply eq_numbered_iff in E. subst z.
      apply in_flat_map in Ha. destruct Ha as (x & Hx & Ha). apply in_taken in Ha; [|now apply Htr].
      apply in_flat_map in Hb. destruct Hb as (y & Hy & Hb). apply in_left in Hb; [|now apply Htr].
      assert (H := Hall x y Hx Hy ltac:(lia)). lia.
  Qed.

  (** * The invariant along the run *)

  Lemma inv_init st0 : NoDup (map snd (l_links ly)) -> init_state ly spatial ordering = Ok st0 -> inv' [] st0.
  Proof.
    intros Hnd E. unfold init_state in E. apply rmap_Forall2 in E.
    assert (Hk : keys st0 = map snd (l_links ly)).
    { clear Hnd. induction E as [|lm kv ls st Hf _ IH]; [reflexivity|]. cbn. f_equal; [|exact IH].
      unfold init_op in Hf. destruct lm as [l m]. apply rbind_Ok in Hf. destruct Hf as (s & _ & Hf).
      injection Hf as <-. reflexivity. }
    split; [exact Hk|]. intros [lop m] Hin.
    assert (Hx : exists kv, In kv st0 /\ init_op spatial ordering (lop, m) = Ok kv).
    { clear - E Hin. induction E as [|lm kv ls st Hf _ IH]; [destruct Hin|].
      destruct Hin as [->|Hin]; [exists kv; split; [now left|assumption]|].
      destruct (IH Hin) as (kv' & H1 & H2). exists kv'. split; [now right|assumption]. }
    destruct Hx as (kv & Hkv & Hf). unfold init_op in Hf. apply rbind_Ok in Hf.
    destruct Hf as (s0 & Es & Hf). injection Hf as <-.
    unfold get_unrolling in Es. apply rbind_Ok in Es. destruct Es as (ls & El & Es).
    apply dgetr_Ok in El. apply of_option_Ok in Es.
    exists (mkOp lop (map of_spatial s0) ordering [] 1), ls. split.
    - apply In_dget; [now rewrite Hk|exact Hkv].
    - destruct ls as [|x ls]; [discriminate|]. injection Es as ->.
      split; cbn; try reflexivity; try assumption; try lia.
      + now rewrite app_nil_r, app_nil_r.
      + intros (n & [] & _).
  Qed.

  Hypothesis Hnd_mem : NoDup (map snd (l_links ly)).
  Hypothesis Hnd_lay : NoDup (map fst (l_links ly)).

  Lemma same_link a b : In a (l_links ly) -> In b (l_links ly) -> snd a = snd b -> a = b.
  Proof.
    clear Hnd_lay. revert Hnd_mem. induction (l_links ly) as [|x l IH]; intros Hnd Ha Hb E; [destruct Ha|].
    cbn in Hnd. inversion Hnd as [|? ? Hni Hnd']; subst.
    destruct Ha as [->|Ha], Hb as [->|Hb]; [reflexivity| | |now apply IH].
    - exfalso. apply Hni. rewrite E. now apply in_map.
    - exfalso. apply Hni. rewrite <- E. now apply in_map.
  Qed.

  Lemma inv_step pre st node st' : NoDup (m_operands node) -> inv' pre st ->
    allocate_node ly spatial mtype tops st node = Ok st' ->
    inv' (pre ++ [node]) st' /\
    (forall lm o, In lm (l_links ly) -> dget (snd lm) st = Some o ->
       exists o' more, dget (snd lm) st' = Some o' /\ o_map o' = o_map o ++ more).
  Proof.
    intros Hnd Hinv E.
    destruct (node_choice ly spatial mtype tops ordering pre st node st' Hnd_mem Hnd Hinv E) as (rows & (Hops & Hrows & Hout & Hk) & _).
    destruct Hinv as (Hkeys & Hinv).
    assert (Hin : forall lm, In lm (l_links ly) -> In (snd lm) (m_operands node) -> exists r k, In (r, k) rows /\ r_op r = snd lm /\ r_link r = lm).
    { intros lm Hl Hm. assert (Hf : In (snd lm) (map (fun rk => r_op (fst rk)) rows)).
      { rewrite Hops. apply filter_In. split; [assumption|]. apply memb_In. now apply in_map. }
      apply in_map_iff in Hf. destruct Hf as ([r k] & Er & Hrk). cbn [fst] in Er.
      exists r, k. split; [assumption|]. split; [assumption|].
      destruct (Hrows _ _ Hrk) as (_ & Hl' & _). apply same_link; assumption. }
    split.
    - split; [congruence|]. intros lm Hl. destruct (memb (snd lm) (m_operands node)) eqn:Em.
      + apply memb_In in Em. destruct (Hin lm Hl Em) as (r & k & Hrk & Ero & Erl).
        destruct (Hrows _ _ Hrk) as ((ls & sp & Hok & Hsp & Hst') & _ & _ & _ & Htop).
        exists (committed (r_st r) k sp), ls. rewrite <- Ero. split; [assumption|].
        rewrite <- Erl. apply committed_ok; try assumption.
        cbn [r_link snd]. rewrite Ero. now apply memb_In.
      + destruct (Hinv lm Hl) as (o & ls & Ho & Hok). exists o, ls. split.
        * rewrite Hout; [assumption|]. now apply memb_not_In.
        * now apply not_stored_ok.
    - intros lm o Hl Ho. destruct (memb (snd lm) (m_operands node)) eqn:Em.
      + apply memb_In in Em. destruct (Hin lm Hl Em) as (r & k & Hrk & Ero & Erl).
        destruct (Hrows _ _ Hrk) as ((ls & sp & Hok & Hsp & Hst') & _ & Hst & _).
        rewrite Ero in Hst, Hst'. rewrite Ho in Hst. injection Hst as ->.
        eexists _, _. split; [exact Hst'|]. reflexivity.
      + exists o, []. rewrite app_nil_r. split; [|reflexivity]. rewrite Hout; [assumption|]. now apply memb_not_In.
  Qed.

  Lemma inv_run nodes : forall pre st st', (forall n, In n nodes -> NoDup (m_operands n)) -> inv' pre st ->
    rfold (allocate_node ly spatial mtype tops) st nodes = Ok st' ->
    inv' (pre ++ nodes) st' /\
    (forall lm o, In lm (l_links ly) -> dget (snd lm) st = Some o ->
       exists o' more, dget (snd lm) st' = Some o' /\ o_map o' = o_map o ++ more).
  Proof.
    induction nodes as [|n nodes IH]; intros pre st st' Hnd Hinv E; cbn [rfold] in E.
    - injection E as <-. rewrite app_nil_r. split; [assumption|]. intros lm o _ Ho. exists o, [].
      now rewrite app_nil_r.
    - destruct (allocate_node ly spatial mtype tops st n) as [st1|] eqn:E1; [|discriminate].
      destruct (inv_step pre st n st1 (Hnd n (or_introl eq_refl)) Hinv E1) as (Hi1 & Hm1).
      destruct (IH (pre ++ [n]) st1 st' (fun x Hx => Hnd x (or_intror Hx)) Hi1 E) as (Hi2 & Hm2).
      rewrite <- app_assoc in Hi2. split; [exact Hi2|]. intros lm o Hl Ho.
      destruct (Hm1 lm o Hl Ho) as (o1 & m1 & Ho1 & Em1). destruct (Hm2 lm o1 Hl Ho1) as (o2 & m2 & Ho2 & Em2).
      exists o2, (m1 ++ m2). split; [assumption|]. rewrite Em2, Em1. now rewrite app_assoc.
  Qed.

  Lemma result_get pre st lm o : inv' pre st -> In lm (l_links ly) -> dget (snd lm) st = Some o ->
    dget (fst lm) (map (fun kv => (o_layer_op (snd kv), o_map (snd kv))) st) = Some (o_map o).
  Proof.
    intros (Hk & Hinv) Hl Ho.
    assert (Hop : forall m o, In (m, o) st -> exists lop, In (lop, m) (l_links ly) /\ o_layer_op o = lop).
    { intros m o' Hin. assert (Hm : In m (map snd (l_links ly))) by (rewrite <- Hk; now apply (in_map fst) in Hin).
      destruct (in_map_link ly m Hm) as (lop & Hlm). exists lop. split; [assumption|].
      destruct (Hinv _ Hlm) as (o2 & ls & Ho2 & Hok). cbn in Ho2.
      assert (E : dget m st = Some o') by (apply In_dget; [rewrite Hk; assumption|assumption]).
      rewrite E in Ho2. injection Ho2 as <-. exact (ok_op _ _ _ _ _ _ _ Hok). }
    apply In_dget.
    - unfold keys. rewrite map_map. cbn [fst].
      assert (E : map (fun kv : string * opstate => o_layer_op (snd kv)) st = map fst (l_links ly)).
      { assert (Hnd := Hnd_mem). clear - Hk Hop Hnd. revert Hk Hop Hnd. generalize (l_links ly). induction st as [|[m o] st IH];
          intros [|[lop m'] links] Hk Hop Hnd; cbn in Hk |- *; try discriminate; [reflexivity|].
        injection Hk as <- Hk. cbn in Hnd. inversion Hnd as [|? ? Hni Hnd']; subst. f_equal.
        - destruct (Hop m o (or_introl eq_refl)) as (lop' & Hin & Eo). rewrite Eo.
          destruct Hin as [E|Hin]; [congruence|]. exfalso. apply Hni. now apply (in_map snd) in Hin.
        - apply IH; [assumption| |assumption]. intros m2 o2 Hin2.
          destruct (Hop m2 o2 (or_intror Hin2)) as (lop2 & Hin & Eo). exists lop2. split; [|assumption].
          destruct Hin as [E|Hin]; [|assumption]. exfalso. injection E as _ E. apply Hni.
          rewrite E, <- Hk. now apply (in_map fst) in Hin2. }
      rewrite E. exact Hnd_lay.
    - destruct (Hinv _ Hl) as (o2 & ls & Ho2 & Hok). rewrite Ho in Ho2. injection Ho2 as <-.
      apply in_map_iff. exists (snd lm, o). cbn [snd]. split; [|now apply dget_In].
      now rewrite (ok_op _ _ _ _ _ _ _ Hok).
  Qed.

  (** C08 *)
  Lemma run_keeps_loops nodes tm : (forall n, In n nodes -> NoDup (m_operands n)) ->
    allocator_run ly spatial mtype tops ordering nodes = Ok tm ->
    forall lop mop, In (lop, mop) (l_links ly) ->
    (exists n, In n nodes /\ In mop (m_operands n) /\ dget mop tops = Some (m_id n)) ->
    exists levels, dget lop tm = Some levels /\ concat levels = ordering /\ length levels = storing mop nodes.
  Proof.
    intros Hnd E lop mop Hl Htop. unfold allocator_run in E.
    apply rbind_Ok in E. destruct E as (st0 & E0 & E). apply rbind_Ok in E. destruct E as (st & Est & E).
    injection E as <-. assert (Hi0 := inv_init st0 Hnd_mem E0).
    destruct (inv_run nodes [] st0 st Hnd Hi0 Est) as (Hi & _). cbn [app] in Hi.
    assert (Hi' := Hi). destruct Hi' as (_ & Hinv). destruct (Hinv _ Hl) as (o & ls & Ho & Hok).
    exists (o_map o). split; [exact (result_get nodes st (lop, mop) o Hi Hl Ho)|].
    split; [|exact (ok_len _ _ _ _ _ _ _ Hok)].
    assert (Hun := ok_top _ _ _ _ _ _ _ Hok Htop).
    assert (Hlo := ok_loops _ _ _ _ _ _ _ Hok). rewrite Hun, app_nil_r in Hlo. exact Hlo.
  Qed.

  (** * The view from the resulting mapping *)

  Lemma firstn_exact {A} (l1 l2 : list A) : firstn (length l1) (l1 ++ l2) = l1.
  Proof. rewrite firstn_app, Nat.sub_diag, firstn_all. cbn. apply app_nil_r. Qed.

  Lemma tile_view pre node post st0 stp stq st lm o o' :
    (forall n, In n (pre ++ node :: post) -> NoDup (m_operands n)) ->
    inv' [] st0 ->
    rfold (allocate_node ly spatial mtype tops) st0 pre = Ok stp ->
    allocate_node ly spatial mtype tops stp node = Ok stq ->
    rfold (allocate_node ly spatial mtype tops) stq post = Ok st ->
    In lm (l_links ly) -> In (snd lm) (m_operands node) ->
    dget (snd lm) stp = Some o -> dget (snd lm) stq = Some o' ->
    let tm := map (fun kv => (o_layer_op (snd kv), o_map (snd kv))) st in
    storing (snd lm) pre = length (o_map o) /\
    tile_start ly tm pre (fst lm) = cut o /\ tile_stop ly tm pre (fst lm) = cut o'.
  Proof.
    intros Hnd Hi0 Ep En Eq Hl Hm Ho Ho' tm.
    assert (Hndp : forall n, In n pre -> NoDup (m_operands n)) by (intros n Hn; apply Hnd, in_or_app; now left).
    assert (Hndn : NoDup (m_operands node)) by (apply Hnd, in_or_app; right; now left).
    assert (Hndq : forall n, In n post -> NoDup (m_operands n)) by (intros n Hn; apply Hnd, in_or_app; right; now right).
    destruct (inv_run pre [] st0 stp Hndp Hi0 Ep) as (Hip & _). cbn [app] in Hip.
    destruct (inv_step pre stp node stq Hndn Hip En) as (Hiq & Hmapq).
    destruct (inv_run post (pre ++ [node]) stq st Hndq Hiq Eq) as (Hi & Hmap).
    destruct Hip as (_ & Hinvp). destruct (Hinvp lm Hl) as (op & lsp & Hop & Hokp).
    rewrite Ho in Hop. injection Hop as <-.
    assert (Hiq' := Hiq). destruct Hiq' as (_ & Hinvq). destruct (Hinvq lm Hl) as (oq & lsq & Hoq & Hokq).
    rewrite Ho' in Hoq. injection Hoq as <-.
    destruct (Hmapq lm o Hl Ho) as (o1 & more1 & Ho1 & Em1). rewrite Ho' in Ho1. injection Ho1 as <-.
    destruct (Hmap lm o' Hl Ho') as (o2 & more2 & Ho2 & Em2).
    assert (Hget := result_get _ st lm o2 Hi Hl Ho2). fold tm in Hget.
    assert (Hlink : dget (fst lm) (l_links ly) = Some (snd lm)).
    { apply In_dget; [exact Hnd_lay|]. now destruct lm. }
    assert (Hlen := ok_len _ _ _ _ _ _ _ Hokp). assert (Hlenq := ok_len _ _ _ _ _ _ _ Hokq).
    rewrite storing_snoc in Hlenq. apply memb_In in Hm. rewrite Hm in Hlenq.
    split; [congruence|]. unfold tile_start, tile_stop, levels_of, loops_below. rewrite Hlink, Hget, <- Hlen.
    unfold cut. split.
    - rewrite Em2, Em1, <- app_assoc, firstn_exact. reflexivity.
    - rewrite Em2. replace (S (length (o_map o))) with (length (o_map o')) by lia. now rewrite firstn_exact.
  Qed.

  Lemma rows_links pre node st st' rows : NoDup (m_operands node) ->
    choice_ok ly spatial tops ordering pre node st st' rows ->
    Permutation (map (fun rk => r_link (fst rk)) rows) (stored_links ly node).
  Proof.
    intros Hnd (Hops & Hrows & _). apply NoDup_Permutation.
    - apply (NoDup_map_inv snd). rewrite map_map. cbn [r_link snd].
      rewrite Hops. now apply NoDup_filter.
    - unfold stored_links. apply NoDup_filter. now apply (NoDup_map_inv snd).
    - intros lm. unfold stored_links. rewrite filter_In, memb_In, in_map_iff. split.
      + intros ([r k] & <- & Hin). cbn [fst]. destruct (Hrows _ _ Hin) as (_ & Hl & _).
        split; [assumption|]. cbn [r_link snd].
        assert (Hf : In (r_op r) (map (fun rk => r_op (fst rk)) rows)).
        { apply in_map_iff. now exists (r, k). }
        rewrite Hops in Hf. now apply filter_In in Hf.
      + intros (Hl & Hm). assert (Hf : In (snd lm) (map (fun rk => r_op (fst rk)) rows)).
        { rewrite Hops. apply filter_In. split; [assumption|]. apply memb_In. now apply in_map. }
        apply in_map_iff in Hf. destruct Hf as ([r k] & Er & Hrk). cbn [fst] in Er.
        exists (r, k). split; [|assumption]. cbn [fst].
        destruct (Hrows _ _ Hrk) as (_ & Hl' & _). apply same_link; assumption.
  Qed.

  Lemma qsum_map_eq {A} (f g : A -> Q) l : (forall x, In x l -> (f x == g x)%Q) -> (qsum (map f l) == qsum (map g l))%Q.
  Proof.
    induction l as [|x l IH]; intros H; cbn [map]; [reflexivity|]. rewrite !qsum_cons.
    rewrite (H x (or_introl eq_refl)), IH; [reflexivity|]. intros y Hy. apply H. now right.
  Qed.

  Lemma qsum_map_nonneg_le {A} (f : A -> Q) l x c : (forall y, In y l -> (0 <= f y)%Q) -> In x l ->
    (qsum (map f l) <= c)%Q -> (f x <= c)%Q.
  Proof.
    induction l as [|y l IH]; intros Hp Hin Hs; [destruct Hin|]. cbn [map] in Hs. rewrite qsum_cons in Hs.
    assert (Hy := Hp y (or_introl eq_refl)).
    assert (Hrest : (0 <= qsum (map f l))%Q).
    { apply qsum_nonneg. intros q Hq. apply in_map_iff in Hq. destruct Hq as (z & <- & Hz). apply Hp. now right. }
    destruct Hin as [->|Hin]; [lra|]. apply IH; [intros z Hz; apply Hp; now right|assumption|lra].
  Qed.

  (** The decomposition of a successful run around one memory. *)
  Lemma run_at pre node post tm :
    (forall n, In n (pre ++ node :: post) -> NoDup (m_operands n)) ->
    allocator_run ly spatial mtype tops ordering (pre ++ node :: post) = Ok tm ->
    exists stp stq rows,
      inv' pre stp /\ choice_ok ly spatial tops ordering pre node stp stq rows /\
      valid_idxs mtype (map (fun rk => r_st (fst rk)) rows) (map snd rows) = true /\
      (qsum (map (fun rk => tile ly spatial ordering (r_link (fst rk)) (r_st (fst rk)) (r_cut (fst rk) + snd rk)) rows)
       <= inject_Z (m_size node))%Q /\
      (forall g : _ -> nat,
         (forall r k, In (r, k) rows ->
            (g r <= length (o_unalloc (r_st r)))%nat /\
            (is_top_node tops (r_op r) node -> g r = length (o_unalloc (r_st r))) /\
            (forall j, (j <= g r)%nat -> (tile ly spatial ordering (r_link r) (r_st r) (r_cut r + j) <= inject_Z (m_size node))%Q)) ->
         (qsum (map (fun rk => tile ly spatial ordering (r_link (fst rk)) (r_st (fst rk)) (r_cut (fst rk) + g (fst rk))) rows)
          <= inject_Z (m_size node))%Q ->
         valid_idxs mtype (map (fun rk => r_st (fst rk)) rows) (map (fun rk => g (fst rk)) rows) = true ->
         (qsum (map (fun rk => acc_of ly spatial tops ordering node (fst rk) (snd rk)) rows)
          <= qsum (map (fun rk => acc_of ly spatial tops ordering node (fst rk) (g (fst rk))) rows))%Q) /\
      (forall r k, In (r, k) rows ->
         storing (r_op r) pre = length (o_map (r_st r)) /\
         tile_start ly tm pre (o_layer_op (r_st r)) = r_cut r /\
         tile_stop ly tm pre (o_layer_op (r_st r)) = (r_cut r + k)%nat).
  Proof.
    intros Hnd E. unfold allocator_run in E.
    apply rbind_Ok in E. destruct E as (st0 & E0 & E). apply rbind_Ok in E. destruct E as (st & Est & E).
    injection E as <-. assert (Hi0 := inv_init st0 Hnd_mem E0).
    rewrite rfold_app in Est. apply rbind_Ok in Est. destruct Est as (stp & Ep & Est). cbn [rfold] in Est.
    destruct (allocate_node ly spatial mtype tops stp node) as [stq|] eqn:En; [|discriminate].
    assert (Hndp : forall n, In n pre -> NoDup (m_operands n)) by (intros n Hn; apply Hnd, in_or_app; now left).
    assert (Hndn : NoDup (m_operands node)) by (apply Hnd, in_or_app; right; now left).
    destruct (inv_run pre [] st0 stp Hndp Hi0 Ep) as (Hip & _). cbn [app] in Hip.
    destruct (node_choice ly spatial mtype tops ordering pre stp node stq Hnd_mem Hndn Hip En)
      as (rows & Hch & Hval & Hfit & Hmin).
    exists stp, stq, rows. split; [assumption|]. split; [assumption|]. split; [assumption|].
    split; [assumption|]. split; [assumption|].
    intros r k Hrk. destruct Hch as (Hops & Hrows & _).
    destruct (Hrows _ _ Hrk) as ((ls & sp & Hok & Hsp & Hst') & Hl & Hst & Hle & Htop).
    assert (Hm : In (r_op r) (m_operands node)).
    { assert (Hf : In (r_op r) (map (fun rk => r_op (fst rk)) rows)) by (apply in_map_iff; now exists (r, k)).
      rewrite Hops in Hf. now apply filter_In in Hf. }
    destruct (tile_view pre node post st0 stp stq st (r_link r) _ _ Hnd Hi0 Ep En Est Hl Hm Hst Hst') as (H1 & H2 & H3).
    cbn [r_link fst snd] in H1, H2, H3. split; [exact H1|]. split; [exact H2|].
    rewrite H3. unfold r_cut, cut, committed. cbn [o_map]. rewrite concat_snoc, app_length, firstn_length. lia.
  Qed.

  Lemma tile_of_row pre r ls stop : okop' pre (r_link r) (r_st r) ls ->
    tile ly spatial ordering (r_link r) (r_st r) stop =
    tile_bits ly spatial ordering (r_link r) (storing (r_op r) pre) (r_cut r) stop.
  Proof. intros H. unfold tile. now rewrite (ok_len _ _ _ _ _ _ _ H). Qed.

  Lemma total_bits_rows pre node stp stq rows start stop : NoDup (m_operands node) ->
    choice_ok ly spatial tops ordering pre node stp stq rows ->
    (forall r k, In (r, k) rows -> start (o_layer_op (r_st r)) = r_cut r) ->
    (total_bits ly spatial ordering pre node start stop ==
     qsum (map (fun rk => tile ly spatial ordering (r_link (fst rk)) (r_st (fst rk)) (stop (o_layer_op (r_st (fst rk))))) rows))%Q.
  Proof.
    intros Hnd Hch Hs. unfold total_bits.
    rewrite <- (qsum_perm _ _ (Permutation_map _ (rows_links _ _ _ _ _ Hnd Hch))), map_map.
    destruct Hch as (_ & Hrows & _).
    apply qsum_map_eq. intros [r k] Hin. cbn [fst]. destruct (Hrows _ _ Hin) as ((ls & sp & Hok & _) & _).
    rewrite (tile_of_row _ _ _ _ Hok). cbn [r_link fst snd]. rewrite (Hs _ _ Hin). reflexivity.
  Qed.

  Lemma total_accesses_rows pre node stp stq rows start stop (g : _ -> nat) : NoDup (m_operands node) ->
    choice_ok ly spatial tops ordering pre node stp stq rows ->
    (forall r k, In (r, k) rows -> start (o_layer_op (r_st r)) = r_cut r /\
       stop (o_layer_op (r_st r)) = (r_cut r + g (r, k))%nat) ->
    (total_accesses ly spatial ordering tops pre node start stop ==
     qsum (map (fun rk => acc_of ly spatial tops ordering node (fst rk) (g rk)) rows))%Q.
  Proof.
    intros Hnd Hch Hs. unfold total_accesses.
    rewrite <- (qsum_perm _ _ (Permutation_map _ (rows_links _ _ _ _ _ Hnd Hch))), map_map.
    destruct Hch as (_ & Hrows & _).
    apply qsum_map_eq. intros [r k] Hin. cbn [fst]. destruct (Hrows _ _ Hin) as ((ls & sp & Hok & _) & _).
    destruct (Hs _ _ Hin) as (E1 & E2).
    assert (El := ok_len _ _ _ _ _ _ _ Hok). cbn [r_link snd] in El.
    unfold acc_of. cbn [r_link fst snd]. rewrite E1, E2, <- El. reflexivity.
  Qed.

  (** C09 *)
  Lemma run_fits pre node post tm :
    (forall n, In n (pre ++ node :: post) -> NoDup (m_operands n)) ->
    allocator_run ly spatial mtype tops ordering (pre ++ node :: post) = Ok tm ->
    (total_bits ly spatial ordering pre node (tile_start ly tm pre) (tile_stop ly tm pre) <= inject_Z (m_size node))%Q.
  Proof.
    intros Hnd E. destruct (run_at _ _ _ _ Hnd E) as (stp & stq & rows & Hi & Hch & Hval & Hfit & _ & Hview).
    assert (Hndn : NoDup (m_operands node)) by (apply Hnd, in_or_app; right; now left).
    rewrite (total_bits_rows pre node stp stq rows _ _ Hndn Hch) by (intros r k Hin; now apply (Hview r k)).
    eapply Qle_trans; [|exact Hfit]. apply Qle_lteq. right. apply qsum_map_eq.
    intros [r k] Hin. cbn [fst snd]. destruct (Hview _ _ Hin) as (_ & _ & ->). reflexivity.
  Qed.

  (** Even mappings split evenly. *)
  Lemma combine_rows {A B C} (f : A -> B) (g : A -> C) l : combine (map f l) (map g l) = map (fun x => (f x, g x)) l.
  Proof. induction l as [|x l IH]; cbn; [reflexivity|]. now rewrite IH. Qed.

  Lemma even_rows pre node stp stq rows (g : _ -> nat) : NoDup (m_operands node) ->
    choice_ok ly spatial tops ordering pre node stp stq rows ->
    (forall r k, In (r, k) rows -> (g (r, k) <= length (o_unalloc (r_st r)))%nat) ->
    forall start stop,
    (forall r k, In (r, k) rows -> start (o_layer_op (r_st r)) = r_cut r /\
       stop (o_layer_op (r_st r)) = (r_cut r + g (r, k))%nat) ->
    (valid_idxs EVEN (map (fun rk => r_st (fst rk)) rows) (map g rows) = true <->
     even_choice (stored_links ly node) start stop).
  Proof.
    intros Hnd Hch Hg start stop Hs. assert (Hperm := rows_links _ _ _ _ _ Hnd Hch).
    destruct Hch as (_ & Hrows & _). rewrite valid_even.
    2:{ intros si Hsi. rewrite combine_rows in Hsi. apply in_map_iff in Hsi. destruct Hsi as ([r k] & <- & Hin).
        cbn [fst snd]. destruct (Hrows _ _ Hin) as ((ls & sp & Hok & _) & _).
        split; [now exists pre, (r_link r), ls|]. cbn [fst snd]. now apply Hg. }
    rewrite combine_rows. unfold even_choice. split.
    - intros H x y Hx Hy Hlt.
      apply (Permutation_in _ (Permutation_sym Hperm)) in Hx, Hy.
      apply in_map_iff in Hx, Hy. destruct Hx as ([r k] & <- & Hin), Hy as ([r' k'] & <- & Hin').
      cbn [fst r_link] in Hlt |- *. destruct (Hs _ _ Hin) as (E1 & E2), (Hs _ _ Hin') as (E1' & E2').
      rewrite E1, E2 in Hlt. rewrite E2, E2'.
      apply (H (r_st r, g (r, k)) (r_st r', g (r', k'))).
      + apply in_map_iff. now exists (r, k).
      + apply in_map_iff. now exists (r', k').
      + cbn [snd]. lia.
    - intros H x y Hx Hy Hpos. apply in_map_iff in Hx, Hy.
      destruct Hx as ([r k] & <- & Hin), Hy as ([r' k'] & <- & Hin'). cbn [fst snd] in Hpos |- *.
      destruct (Hs _ _ Hin) as (E1 & E2), (Hs _ _ Hin') as (E1' & E2').
      assert (HH := H (r_link r) (r_link r')). cbn [r_link fst] in HH. rewrite E1, E2, E2' in HH.
      apply HH; [| |lia].
      + apply (Permutation_in _ Hperm). apply in_map_iff. now exists (r, k).
      + apply (Permutation_in _ Hperm). apply in_map_iff. now exists (r', k').
  Qed.

  Lemma run_even pre node post tm : mtype = EVEN ->
    (forall n, In n (pre ++ node :: post) -> NoDup (m_operands n)) ->
    allocator_run ly spatial mtype tops ordering (pre ++ node :: post) = Ok tm ->
    even_choice (stored_links ly node) (tile_start ly tm pre) (tile_stop ly tm pre).
  Proof.
    intros Hev Hnd E. destruct (run_at _ _ _ _ Hnd E) as (stp & stq & rows & Hi & Hch & Hval & Hfit & _ & Hview).
    assert (Hndn : NoDup (m_operands node)) by (apply Hnd, in_or_app; right; now left).
    rewrite Hev in Hval. revert Hval. apply (even_rows pre node stp stq rows snd Hndn Hch).
    - intros r k Hin. destruct Hch as (_ & Hrows & _). now destruct (Hrows _ _ Hin) as (_ & _ & _ & H & _).
    - intros r k Hin. now destruct (Hview _ _ Hin) as (_ & H1 & H2).
  Qed.

  (** C10 *)
  Hypothesis Hnum : layer_numbers_ok ly.
  Hypothesis Hord : forall d s, In (d, s) ordering -> (1 <= s)%Z /\ dget d (l_pr_loop ly) = None.
  Hypothesis Hspat : forall lop lvls lvl l, dget lop spatial = Some lvls -> In lvl lvls -> In l lvl -> loop_ok ly l.
  Hypothesis Hprec : (0 <= l_final_precision ly)%Z /\ forall lop p, dget lop (l_precision ly) = Some p -> (0 <= p)%Z.

  Lemma inside_ok lop ls k p : dget lop spatial = Some ls ->
    forall l, In l (loops_inside ls ordering k p) -> loop_ok ly l.
  Proof.
    intros Hls l Hin. unfold loops_inside in Hin. apply in_app_or in Hin. destruct Hin as [Hin|Hin].
    - apply in_concat in Hin. destruct Hin as (lvl & Hlvl & Hl).
      apply (Hspat lop ls lvl l Hls); [|assumption].
      rewrite <- (firstn_skipn (S k) ls). apply in_or_app. now left.
    - apply in_map_iff in Hin. destruct Hin as ([d s] & <- & Ht).
      destruct (Hord d s) as (H1 & H2).
      { rewrite <- (firstn_skipn p ordering). apply in_or_app. now left. }
      split; cbn [fst snd]; [|assumption]. change 1%Q with (inject_Z 1). rewrite <- Zle_Qle. exact H1.
  Qed.

  Lemma bits_nonneg ls lm k start : (0 <= bits_per_element ly ls ordering lm k start)%Z.
  Proof.
    unfold bits_per_element. destruct Hprec as (H1 & H2).
    destruct (eqb (snd lm) output_mem_op && _); [exact H1|].
    destruct (dget (fst lm) (l_precision ly)) as [p|] eqn:E; [now apply (H2 _ _ E)|lia].
  Qed.

  Lemma tile_bits_mono lm ls k start p q : dget (fst lm) spatial = Some ls -> (p <= q)%nat ->
    (0 <= tile_bits ly spatial ordering lm k start p <= tile_bits ly spatial ordering lm k start q)%Q.
  Proof.
    intros Hls Hpq. unfold tile_bits. rewrite Hls.
    assert (Hb := bits_nonneg ls lm k start). rewrite Zle_Qle in Hb. change (inject_Z 0) with 0%Q in Hb.
    assert (Es : exists extra, loops_inside ls ordering k q = loops_inside ls ordering k p ++ extra).
    { unfold loops_inside. exists (map (fun t : tloop => (fst t, inject_Z (snd t))) (firstn (q - p) (skipn p ordering))).
      rewrite <- app_assoc, <- map_app. do 2 f_equal.
      rewrite <- (firstn_skipn p ordering) at 1. rewrite firstn_app.
      destruct (Nat.le_gt_cases p (length ordering)) as [Hle|Hgt].
      - rewrite firstn_length_le by assumption.
        f_equal. rewrite firstn_all2; [reflexivity|]. rewrite firstn_length. lia.
      - rewrite skipn_all2 by lia. rewrite !firstn_nil, !app_nil_r.
        rewrite firstn_all2 by (rewrite firstn_length; lia). reflexivity. }
    destruct Es as (extra & Es).
    destruct (tile_elements_mono ly (fst lm) (loops_inside ls ordering k p) extra Hnum) as (H1 & H2).
    { rewrite <- Es. now apply (inside_ok (fst lm)). }
    rewrite <- Es in H2. split; [apply Qmult_nonneg; [lra|assumption]|].
    apply Qmult_le_compat_r; assumption.
  Qed.

  Lemma run_fewest pre node post tm :
    (forall n, In n (pre ++ node :: post) -> NoDup (m_operands n)) ->
    allocator_run ly spatial mtype tops ordering (pre ++ node :: post) = Ok tm ->
    forall stop : string -> nat,
    (forall lop mop, In (lop, mop) (stored_links ly node) ->
       (tile_start ly tm pre lop <= stop lop <= length ordering)%nat /\
       (is_top_of tops node mop = true -> stop lop = length ordering)) ->
    (total_bits ly spatial ordering pre node (tile_start ly tm pre) stop <= inject_Z (m_size node))%Q ->
    (mtype = EVEN -> even_choice (stored_links ly node) (tile_start ly tm pre) stop) ->
    (total_accesses ly spatial ordering tops pre node (tile_start ly tm pre) (tile_stop ly tm pre)
     <= total_accesses ly spatial ordering tops pre node (tile_start ly tm pre) stop)%Q.
  Proof.
    intros Hnd E stop Hstop Hbits Heven.
    destruct (run_at _ _ _ _ Hnd E) as (stp & stq & rows & Hi & Hch & Hval & Hfit & Hmin & Hview).
    assert (Hndn : NoDup (m_operands node)) by (apply Hnd, in_or_app; right; now left).
    assert (Hperm := rows_links _ _ _ _ _ Hndn Hch).
    assert (Hrows := proj1 (proj2 Hch)).
    assert (Hlink : forall r k, In (r, k) rows -> In (r_link r) (stored_links ly node)).
    { intros r k Hin. apply (Permutation_in _ Hperm). apply in_map_iff. now exists (r, k). }
    set (g := fun r : string * opstate * list Q * cand => (stop (o_layer_op (r_st r)) - r_cut r)%nat).
    assert (Hg : forall r k, In (r, k) rows ->
       stop (o_layer_op (r_st r)) = (r_cut r + g r)%nat /\ (g r <= length (o_unalloc (r_st r)))%nat /\
       (is_top_node tops (r_op r) node -> g r = length (o_unalloc (r_st r)))).
    { intros r k Hin. destruct (Hview _ _ Hin) as (_ & Es & _). assert (Hl := Hlink _ _ Hin).
      destruct (Hstop _ _ Hl) as ((S1 & S2) & S3). rewrite Es in S1.
      destruct (Hrows _ _ Hin) as ((ls & sp & Hok & _) & _). assert (Hc := cut_le _ _ _ _ _ _ _ Hok).
      unfold g, r_cut in *. split; [lia|]. split; [lia|]. intros Ht.
      rewrite S3; [lia|]. unfold is_top_of. unfold is_top_node in Ht. now rewrite Ht, Nat.eqb_refl. }
    assert (Hbits' := Hbits).
    rewrite (total_bits_rows pre node stp stq rows _ _ Hndn Hch) in Hbits' by (intros r k Hin; now apply (Hview r k)).
    assert (Hone : forall r k, In (r, k) rows -> forall j, (j <= g r)%nat ->
       (tile ly spatial ordering (r_link r) (r_st r) (r_cut r + j) <= inject_Z (m_size node))%Q).
    { intros r k Hin j Hj. destruct (Hrows _ _ Hin) as ((ls & sp & Hok & _) & _).
      destruct (Hg _ _ Hin) as (Es & _).
      apply Qle_trans with (tile ly spatial ordering (r_link r) (r_st r) (stop (o_layer_op (r_st r)))).
      - unfold tile. apply (tile_bits_mono _ ls); [exact (ok_sp _ _ _ _ _ _ _ Hok)|lia].
      - apply (qsum_map_nonneg_le (fun rk => tile ly spatial ordering (r_link (fst rk)) (r_st (fst rk))
                  (stop (o_layer_op (r_st (fst rk))))) rows (r, k)); [|assumption|assumption].
        intros [r' k'] Hin'. cbn [fst]. destruct (Hrows _ _ Hin') as ((ls' & sp' & Hok' & _) & _).
        unfold tile. apply (tile_bits_mono _ ls' _ _ _ (stop (o_layer_op (r_st r'))) (ok_sp _ _ _ _ _ _ _ Hok')). lia. }
    rewrite (total_accesses_rows pre node stp stq rows _ _ snd Hndn Hch)
      by (intros r k Hin; now destruct (Hview _ _ Hin) as (_ & H1 & H2)).
    rewrite (total_accesses_rows pre node stp stq rows _ _ (fun rk => g (fst rk)) Hndn Hch)
      by (intros r k Hin; destruct (Hview _ _ Hin) as (_ & H1 & _); destruct (Hg _ _ Hin) as (H2 & _); now split).
    apply Hmin.
    - intros r k Hin. destruct (Hg _ _ Hin) as (_ & G1 & G2). split; [assumption|]. split; [assumption|].
      now apply (Hone r k).
    - eapply Qle_trans; [|exact Hbits']. apply Qle_lteq. right. apply qsum_map_eq.
      intros [r k] Hin. cbn [fst]. destruct (Hg _ _ Hin) as (-> & _). reflexivity.
    - destruct mtype; [reflexivity|].
      apply (even_rows pre node stp stq rows (fun rk => g (fst rk)) Hndn Hch) with (start := tile_start ly tm pre) (stop := stop).
      + intros r k Hin. now destruct (Hg _ _ Hin) as (_ & G1 & _).
      + intros r k Hin. destruct (Hview _ _ Hin) as (_ & H1 & _); destruct (Hg _ _ Hin) as (H2 & _); now split.
      + now apply Heven.
  Qed.
End Run.
