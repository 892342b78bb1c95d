(** Proofs for the memory allocator (C08, C09, C10). *)
From Coq Require Import Lqa.
From Verif Require Import Base Model_Pr Model_Alloc Spec_Alloc Proof_AllocSearch Proof_AllocTile.

(** * List lemmas *)

Lemma rmap_combine {A B} (f : A -> result B) l ys : rmap f l = Ok ys ->
  map fst (combine l ys) = l /\ map snd (combine l ys) = ys /\
  (forall r, In r (combine l ys) -> f (fst r) = Ok (snd r)).
Proof.
  intros E. apply rmap_Forall2 in E. induction E as [|x y l ys Hxy _ (H1 & H2 & H3)]; cbn.
  - split; [reflexivity|]. split; [reflexivity|]. tauto.
  - rewrite H1, H2. split; [reflexivity|]. split; [reflexivity|].
    intros r [<-|Hr]; [exact Hxy|now apply H3].
Qed.

Lemma firstn_app_length {A} (l1 l2 : list A) n : firstn (length l1 + n) (l1 ++ l2) = l1 ++ firstn n l2.
Proof. apply firstn_app_2. Qed.

Lemma skipn_app_length {A} (l1 l2 : list A) n : skipn (length l1 + n) (l1 ++ l2) = skipn n l2.
Proof.
  rewrite skipn_app, skipn_all2 by lia. cbn. f_equal. lia.
Qed.

Lemma skipn_skipn' {A} (l : list A) : forall a b, skipn a (skipn b l) = skipn (a + b) l.
Proof.
  induction l as [|x l IH]; intros a b; [now rewrite !skipn_nil|].
  destruct b as [|b]; [now rewrite Nat.add_0_r|]. rewrite Nat.add_succ_r. cbn [skipn]. apply IH.
Qed.

Lemma concat_snoc {A} (ls : list (list A)) l : concat (ls ++ [l]) = concat ls ++ l.
Proof. rewrite concat_app. cbn. now rewrite app_nil_r. Qed.

Lemma firstn_S_nth {A} (l : list A) n x : nth_error l n = Some x -> firstn (S n) l = firstn n l ++ [x].
Proof.
  revert n. induction l as [|y l IH]; intros [|n] E; cbn in E |- *; try discriminate.
  - injection E as ->. reflexivity.
  - f_equal. now apply IH.
Qed.

Lemma storing_snoc m pre n :
  storing m (pre ++ [n]) = (storing m pre + if memb m (m_operands n) then 1 else 0)%nat.
Proof.
  unfold storing. rewrite filter_app, app_length. cbn. destruct (memb m (m_operands n)); reflexivity.
Qed.

(** * Slices *)

Lemma slices_ok ly alloc op p cap : forall rest pre ss,
  slices ly alloc op p cap pre rest = Ok ss ->
  (pre = [] -> ss <> []) /\
  (length ss <= S (length rest))%nat /\
  (forall k, (k < length ss)%nat ->
     calc_loops_size ly (alloc ++ map of_tloop (pre ++ firstn k rest)) op p = Ok (nthq ss k) /\
     (nthq ss k <= inject_Z cap)%Q) /\
  ((length ss <= length rest)%nat ->
     exists q, calc_loops_size ly (alloc ++ map of_tloop (pre ++ firstn (length ss) rest)) op p = Ok q /\
       ~ (q <= inject_Z cap)%Q).
Proof.
  induction rest as [|t rest IH]; intros pre ss E; cbn [slices] in E;
    apply rbind_Ok in E; destruct E as (size & Es & E);
    destruct (Qle_bool size (inject_Z cap)) eqn:Ef.
  - injection E as <-. split; [discriminate|]. split; [cbn; lia|]. split.
    + intros k Hk. cbn in Hk. assert (k = O) by lia. subst k. cbn. rewrite app_nil_r.
      split; [exact Es|now apply Qle_bool_iff].
    + cbn. lia.
  - destruct pre as [|t0 pre']; [discriminate|]. injection E as <-. split; [discriminate|]. split; [cbn; lia|].
    split; [cbn; lia|]. intros _. cbn [length firstn]. rewrite app_nil_r. exists size.
    split; [exact Es|]. intros H. apply Qle_bool_iff in H. congruence.
  - apply rbind_Ok in E. destruct E as (ss' & E' & E). injection E as <-.
    destruct (IH _ _ E') as (_ & H2 & H3 & H4). split; [discriminate|]. split; [cbn; lia|]. split.
    + intros [|k] Hk.
      * cbn. rewrite app_nil_r. split; [exact Es|now apply Qle_bool_iff].
      * cbn [firstn nthq nth]. specialize (H3 k). cbn in Hk. destruct (H3 ltac:(lia)) as (Ha & Hb).
        rewrite <- app_assoc in Ha. now split.
    + cbn [length firstn]. intros Hl. destruct (H4 ltac:(lia)) as (q & Ha & Hb).
      rewrite <- app_assoc in Ha. now exists q.
  - destruct pre as [|t0 pre']; [discriminate|]. injection E as <-. split; [discriminate|]. split; [cbn; lia|].
    split; [cbn; lia|]. intros _. cbn [length firstn]. rewrite app_nil_r. exists size.
    split; [exact Es|]. intros H. apply Qle_bool_iff in H. congruence.
Qed.

Section Alloc.
  Variable ly : layer.
  Variable spatial : dict string (list (list (string * Q))).
  Variable mtype : mapping_type.
  Variable tops : dict string nat.
  Variable ordering : list tloop.

  Definition is_top_node (m : string) (n : memlevel) : Prop := dget m tops = Some (m_id n).

  (** State of the operand [lm] after the memories [pre]. *)
  Record okop (pre : list memlevel) (lm : string * string) (o : opstate) (ls : list (list (string * Q))) : Prop := {
    ok_op : o_layer_op o = fst lm;
    ok_loops : concat (o_map o) ++ o_unalloc o = ordering;
    ok_len : length (o_map o) = storing (snd lm) pre;
    ok_level : o_level o = S (length (o_map o));
    ok_sp : dget (fst lm) spatial = Some ls;
    ok_lvl : (o_level o <= length ls)%nat;
    ok_alloc : Permutation (o_alloc o)
                 (map of_spatial (concat (firstn (o_level o) ls)) ++ map of_tloop (concat (o_map o)));
    ok_top : (exists n, In n pre /\ In (snd lm) (m_operands n) /\ is_top_node (snd lm) n) -> o_unalloc o = [] }.

  Definition inv (pre : list memlevel) (st : dict string opstate) : Prop :=
    keys st = map snd (l_links ly) /\
    forall lm, In lm (l_links ly) -> exists o ls, dget (snd lm) st = Some o /\ okop pre lm o ls.

  Definition cut (o : opstate) : nat := length (concat (o_map o)).

  Lemma unalloc_skipn pre lm o ls : okop pre lm o ls -> o_unalloc o = skipn (cut o) ordering.
  Proof.
    intros H. rewrite <- (ok_loops _ _ _ _ H). unfold cut.
    replace (length (concat (o_map o))) with (length (concat (o_map o)) + 0)%nat by lia.
    now rewrite skipn_app_length.
  Qed.

  Lemma cut_le pre lm o ls : okop pre lm o ls -> (cut o + length (o_unalloc o) = length ordering)%nat.
  Proof. intros H. rewrite <- (ok_loops _ _ _ _ H), app_length. reflexivity. Qed.

  Lemma n_temporal_cut pre lm o ls : okop pre lm o ls -> n_temporal o = cut o.
  Proof.
    intros H. unfold n_temporal, cut.
    assert (Hp := ok_alloc _ _ _ _ H).
    assert (Hf : forall (l l' : list aloop), Permutation l l' -> length (filter a_temporal l) = length (filter a_temporal l')).
    { induction 1 as [|x l l' _ IH|x y l|l1 l2 l3 _ IH1 _ IH2]; cbn.
      - reflexivity.
      - destruct (a_temporal x); cbn; congruence.
      - destruct (a_temporal x), (a_temporal y); reflexivity.
      - congruence. }
    rewrite (Hf _ _ Hp), filter_app, app_length.
    assert (H1 : forall l, filter a_temporal (map of_spatial l) = []).
    { induction l as [|x l IH]; cbn; [reflexivity|exact IH]. }
    assert (H2 : forall l, length (filter a_temporal (map of_tloop l)) = length l).
    { induction l as [|x l IH]; cbn; [reflexivity|now rewrite IH]. }
    rewrite H1, H2. reflexivity.
  Qed.

  (** The slices of an operand are the tiles of the specification. *)
  Lemma precision_ok pre lm o ls p : okop pre lm o ls ->
    get_precision ly spatial (snd lm) o = Ok p ->
    p = bits_per_element ly ls ordering lm (length (o_map o)) (cut o).
  Proof.
    intros H E. unfold get_precision in E. unfold bits_per_element.
    rewrite (ok_op _ _ _ _ H) in E. rewrite (ok_level _ _ _ _ H) in E.
    destruct (eqb (snd lm) output_mem_op); cbn [andb].
    - apply rbind_Ok in E. destruct E as (ir & Eir & E). apply dgetr_Ok in Eir. rewrite Eir.
      apply rbind_Ok in E. destruct E as (sp & Esp & E). unfold get_unrolling_all, dgetr in Esp.
      rewrite (ok_sp _ _ _ _ H) in Esp. cbn [of_option rbind] in Esp. injection Esp as <-.
      rewrite (unalloc_skipn _ _ _ _ H) in E.
      destruct (existsb _ _); cbn [negb].
      + apply dgetr_Ok in E. now rewrite E.
      + now injection E as <-.
    - apply dgetr_Ok in E. now rewrite E.
  Qed.

  Definition tile (lm : string * string) (o : opstate) (stop : nat) : Q :=
    tile_bits ly spatial ordering lm (length (o_map o)) (cut o) stop.

  Lemma loops_size_tile pre lm o ls p k q : okop pre lm o ls ->
    get_precision ly spatial (snd lm) o = Ok p -> (k <= length (o_unalloc o))%nat ->
    calc_loops_size ly (o_alloc o ++ map of_tloop (firstn k (o_unalloc o))) (o_layer_op o) p = Ok q ->
    (q == tile lm o (cut o + k))%Q.
  Proof.
    intros H Ep Hk Es. apply calc_loops_size_ok in Es. rewrite Es.
    unfold tile, tile_bits. rewrite (ok_sp _ _ _ _ H), (ok_op _ _ _ _ H).
    rewrite (precision_ok _ _ _ _ _ H Ep). apply Qmult_comp; [|reflexivity].
    apply tile_elements_perm. unfold loops_inside.
    rewrite <- (ok_level _ _ _ _ H). rewrite <- (ok_loops _ _ _ _ H). unfold cut.
    rewrite firstn_app_length, !map_app.
    rewrite (Permutation_map dim_size (ok_alloc _ _ _ _ H)), map_app, !map_map.
    rewrite <- app_assoc. apply Permutation_app; [|apply Permutation_app].
    - rewrite (map_ext _ (fun x => x)), map_id by (intros []; reflexivity). reflexivity.
    - rewrite (map_ext (fun x => dim_size (of_tloop x)) (fun t => (fst t, inject_Z (snd t)))) by reflexivity.
      reflexivity.
    - rewrite (map_ext (fun x => dim_size (of_tloop x)) (fun t => (fst t, inject_Z (snd t)))) by reflexivity.
      reflexivity.
  Qed.

  Lemma size_slices_ok pre lm o ls cap ss : okop pre lm o ls ->
    calc_size_slices ly spatial (snd lm) o cap = Ok ss ->
    ss <> [] /\ (length ss <= S (length (o_unalloc o)))%nat /\
    (forall k, (k < length ss)%nat -> (nthq ss k == tile lm o (cut o + k))%Q) /\
    ((length ss <= length (o_unalloc o))%nat -> ~ (tile lm o (cut o + length ss) <= inject_Z cap)%Q).
  Proof.
    intros H E. unfold calc_size_slices in E. apply rbind_Ok in E. destruct E as (p & Ep & E).
    apply slices_ok in E. destruct E as (H1 & H2 & H3 & H4). split; [now apply H1|].
    split; [exact H2|]. split.
    - intros k Hk. destruct (H3 k Hk) as (Ha & _). cbn [app] in Ha.
      eapply loops_size_tile; eauto. lia.
    - intros Hl. destruct (H4 Hl) as (q & Ha & Hb). cbn [app] in Ha.
      apply (loops_size_tile _ _ _ _ _ _ _ H Ep Hl) in Ha. now rewrite <- Ha.
  Qed.

  (** * Committing the choice *)

  Definition committed (o : opstate) (k : nat) (sp : list (string * Q)) : opstate :=
    mkOp (o_layer_op o)
         (o_alloc o ++ map of_tloop (firstn k (o_unalloc o)) ++ map of_spatial sp)
         (skipn k (o_unalloc o)) (o_map o ++ [firstn k (o_unalloc o)]) (S (o_level o)).

  Lemma commit_fold node : forall l st st', NoDup (map fst l) ->
    rfold (commit spatial tops node) st l = Ok st' ->
    (forall m, ~ In m (map fst l) -> dget m st' = dget m st) /\
    (forall m, In m (map fst l) -> In m (keys st)) /\
    keys st' = keys st /\
    (forall m k, In (m, k) l -> exists o sp, dget m st = Some o /\
       get_unrolling spatial (o_layer_op o) (o_level o) = Ok sp /\
       (exists t, dget m tops = Some t) /\
       (is_top_node m node -> skipn k (o_unalloc o) = []) /\
       dget m st' = Some (committed o k sp)).
  Proof.
    induction l as [|[m k] l IH]; intros st st' Hnd E; cbn [rfold] in E.
    - injection E as <-. cbn. split; [reflexivity|]. split; [tauto|]. split; [reflexivity|]. tauto.
    - cbn [map fst] in Hnd. inversion Hnd as [|? ? Hni Hnd']; subst.
      destruct (commit spatial tops node st (m, k)) as [st1|] eqn:Ec; [|discriminate].
      unfold commit in Ec. apply rbind_Ok in Ec. destruct Ec as (o & Eo & Ec). apply dgetr_Ok in Eo.
      apply rbind_Ok in Ec. destruct Ec as (sp & Esp & Ec).
      apply rbind_Ok in Ec. destruct Ec as (top & Et & Ec).
      unfold is_top in Et. apply rbind_Ok in Et. destruct Et as (t & Et & Etop). apply dgetr_Ok in Et.
      injection Etop as <-.
      destruct (Nat.eqb (m_id node) t && negb (match skipn k (o_unalloc o) with [] => true | _ => false end)) eqn:Eb;
        [discriminate|].
      injection Ec as <-. fold (committed o k sp) in E.
      assert (Hk : In m (keys st)) by now apply dget_Some_key in Eo.
      destruct (IH _ _ Hnd' E) as (H1 & H2 & H3 & H4).
      rewrite keys_dset_in in H3 by assumption. rewrite keys_dset_in in H2 by assumption.
      split; [|split; [|split]].
      + intros m' Hm'. cbn [map fst In] in Hm'. rewrite H1 by tauto. rewrite dget_dset_neq; [reflexivity|].
        intros ->. tauto.
      + cbn [map fst In]. intros m' [<-|Hm']; auto.
      + exact H3.
      + intros m' k' [Ein|Hin].
        * injection Ein as <- <-. exists o, sp. split; [assumption|]. split; [assumption|].
          split; [now exists t|]. split.
          -- intros Htop. unfold is_top_node in Htop. rewrite Et in Htop. injection Htop as ->.
             rewrite Nat.eqb_refl in Eb. cbn [andb] in Eb. destruct (skipn k (o_unalloc o)); [reflexivity|discriminate].
          -- rewrite H1 by assumption. apply dget_dset_eq.
        * destruct (H4 m' k' Hin) as (o' & sp' & Ha & Hb & Hc & Hd & He).
          exists o', sp'. split; [|tauto].
          rewrite dget_dset_neq in Ha; [assumption|].
          intros ->. apply Hni. apply in_map_iff. now exists (m, k').
  Qed.

  Lemma committed_ok pre lm o ls k sp node : okop pre lm o ls ->
    memb (snd lm) (m_operands node) = true ->
    get_unrolling spatial (o_layer_op o) (o_level o) = Ok sp ->
    (is_top_node (snd lm) node -> skipn k (o_unalloc o) = []) ->
    okop (pre ++ [node]) lm (committed o k sp) ls.
  Proof.
    intros H Hm Esp Htop. unfold get_unrolling in Esp. rewrite (ok_op _ _ _ _ H) in Esp.
    unfold dgetr in Esp. rewrite (ok_sp _ _ _ _ H) in Esp. cbn [of_option rbind] in Esp.
    apply of_option_Ok in Esp.
    assert (Hlt : (o_level o < length ls)%nat) by (apply nth_error_Some; congruence).
    split; cbn [committed o_layer_op o_alloc o_unalloc o_map o_level].
    - exact (ok_op _ _ _ _ H).
    - rewrite concat_snoc, <- app_assoc, firstn_skipn. exact (ok_loops _ _ _ _ H).
    - rewrite app_length, storing_snoc, Hm, (ok_len _ _ _ _ H). reflexivity.
    - rewrite app_length, (ok_level _ _ _ _ H). cbn. lia.
    - exact (ok_sp _ _ _ _ H).
    - lia.
    - rewrite (firstn_S_nth _ _ _ Esp), concat_snoc, concat_snoc, !map_app.
      rewrite (ok_alloc _ _ _ _ H).
      rewrite <- !app_assoc. apply Permutation_app_head. rewrite !app_assoc.
      rewrite (Permutation_app_comm _ (map of_spatial sp)). now rewrite <- app_assoc.
    - intros (n & Hin & Hop & Ht). apply in_app_or in Hin. destruct Hin as [Hin|[<-|[]]].
      + rewrite (ok_top _ _ _ _ H) by (now exists n). apply skipn_nil.
      + now apply Htop.
  Qed.

  Lemma not_stored_ok pre lm o ls node : okop pre lm o ls ->
    memb (snd lm) (m_operands node) = false -> okop (pre ++ [node]) lm o ls.
  Proof.
    intros H Hm. destruct H. split; try assumption.
    - rewrite storing_snoc, Hm. lia.
    - intros (n & Hin & Hop & Ht). apply in_app_or in Hin. destruct Hin as [Hin|[<-|[]]].
      + apply ok_top0. now exists n.
      + apply memb_not_In in Hm. contradiction.
  Qed.

  (** * One memory *)

  Notation row := (((string * opstate) * list Q) * cand)%type.
  Definition r_op (r : row) : string := fst (fst (fst r)).
  Definition r_st (r : row) : opstate := snd (fst (fst r)).
  Definition r_sizes (r : row) : list Q := snd (fst r).
  Definition r_link (r : row) : string * string := (o_layer_op (r_st r), r_op r).
  Definition r_cut (r : row) : nat := cut (r_st r).

  Lemma candidates_ok node m o ss c : ss <> [] -> candidates tops node m o ss = Ok c ->
    (exists t, dget m tops = Some t) /\
    ((is_top_node m node /\ c_offset c = (length ss - 1)%nat /\ c_sizes c = [nthq ss (length ss - 1)] /\
      c_accesses c = [0%Q]) \/
     (~ is_top_node m node /\ c_offset c = O /\ c_sizes c = ss /\
      forall k, (k < length ss)%nat ->
        nthq (c_accesses c) k = (inject_Z (zprod (map snd (skipn k (o_unalloc o)))) * nthq ss k)%Q)).
  Proof.
    intros Hne E. unfold candidates in E. apply rbind_Ok in E. destruct E as (top & Et & E).
    unfold is_top in Et. apply rbind_Ok in Et. destruct Et as (t & Et & Etop). apply dgetr_Ok in Et.
    injection Etop as <-. split; [now exists t|].
    destruct (Nat.eqb_spec (m_id node) t) as [Heq|Hneq].
    - apply rbind_Ok in E. destruct E as (s & Es & E). apply of_option_Ok in Es. injection E as <-.
      left. split; [unfold is_top_node; congruence|]. cbn. split; [reflexivity|]. split; [|reflexivity].
      unfold nthq. now rewrite (nth_error_nth _ _ 0%Q Es).
    - injection E as <-. right. split; [unfold is_top_node; congruence|]. cbn.
      split; [reflexivity|]. split; [reflexivity|]. intros k Hk. unfold nthq.
      set (f := fun is : nat * Q => (inject_Z (zprod (map snd (skipn (fst is) (o_unalloc o)))) * snd is)%Q).
      assert (Hn : nth_error (combine (seq 0 (length ss)) ss) k = Some (k, nth k ss 0%Q)).
      { assert (Hs : nth_error ss k = Some (nth k ss 0%Q)) by now apply nth_error_nth'.
        clear - Hs Hk.
        assert (Hgen : forall (l : list Q) s k x, nth_error l k = Some x ->
                  nth_error (combine (seq s (length l)) l) k = Some ((s + k)%nat, x)).
        { induction l as [|y l IH]; intros s [|k0] x Hx; cbn in Hx |- *; try discriminate.
          - injection Hx as ->. now rewrite Nat.add_0_r.
          - rewrite (IH (S s) k0 x Hx). do 2 f_equal. lia. }
        now rewrite (Hgen ss 0%nat k _ Hs). }
      apply (map_nth_error f) in Hn. now rewrite (nth_error_nth _ _ 0%Q Hn).
  Qed.

  Lemma comb_sum_combine f (rows : list row) : forall ds,
    comb_sum f (map snd rows) ds = qsum (map (fun rd => nthq (f (snd (fst rd))) (snd rd)) (combine rows ds)).
  Proof.
    induction rows as [|r rows IH]; intros [|d ds]; cbn [map comb_sum combine]; try reflexivity.
    rewrite qsum_cons. cbn [fst snd]. now rewrite IH.
  Qed.

  Lemma comb_idxs_combine (rows : list row) : forall ds,
    comb_idxs (map snd rows) ds = map (fun rd => (snd rd + c_offset (snd (fst rd)))%nat) (combine rows ds).
  Proof.
    induction rows as [|r rows IH]; intros [|d ds]; cbn [map comb_idxs combine]; try reflexivity.
    cbn [fst snd]. now rewrite IH.
  Qed.

  Lemma combine_map_l {A B C} (f : A -> B) (l : list A) : forall (l' : list C),
    combine (map f l) l' = map (fun x => (f (fst x), snd x)) (combine l l').
  Proof. induction l as [|x l IH]; intros [|y l']; cbn; try reflexivity. now rewrite IH. Qed.

  Lemma combine_map_same {A B} (h : A -> B) (l : list A) : combine l (map h l) = map (fun x => (x, h x)) l.
  Proof. induction l as [|x l IH]; cbn; [reflexivity|]. now rewrite IH. Qed.

  Lemma combine_map_combine {A B C} (h : A * B -> C) : forall (l : list A) (l' : list B), length l = length l' ->
    combine l (map h (combine l l')) = map (fun x => (fst x, h x)) (combine l l').
  Proof.
    induction l as [|x l IH]; intros [|y l'] Hl; cbn in Hl |- *; try reflexivity; try discriminate.
    now rewrite IH by lia.
  Qed.

  Lemma map_fst_combine {A B} : forall (l : list A) (l' : list B), length l = length l' -> map fst (combine l l') = l.
  Proof.
    induction l as [|x l IH]; intros [|y l'] Hl; cbn in Hl |- *; try reflexivity; try discriminate.
    now rewrite IH by lia.
  Qed.

  Lemma valid_zero sts : valid_idxs mtype sts (map (fun _ => O) sts) = true.
  Proof.
    unfold valid_idxs. destruct mtype; [reflexivity|].
    assert (E : forall f : opstate * nat -> nat, flat_map (fun si : opstate * nat => numbered (f si)
                (firstn (snd si) (o_unalloc (fst si)))) (combine sts (map (fun _ => O) sts)) = []).
    { intros f. rewrite combine_map_same. induction sts as [|s sts IH]; [reflexivity|]. cbn. exact IH. }
    rewrite (E (fun si => n_temporal (fst si))). reflexivity.
  Qed.

  (** The choice made for a memory: rows of the operands stored there, each with the
      number of loops taken. *)
  Definition choice_ok (pre : list memlevel) (node : memlevel) (st st' : dict string opstate)
      (rows : list (row * nat)) : Prop :=
    map (fun rk => r_op (fst rk)) rows = filter (fun op => memb op (map snd (l_links ly))) (m_operands node) /\
    (forall r k, In (r, k) rows ->
       (exists ls sp, okop pre (r_link r) (r_st r) ls /\
          get_unrolling spatial (o_layer_op (r_st r)) (o_level (r_st r)) = Ok sp /\
          dget (r_op r) st' = Some (committed (r_st r) k sp)) /\
       In (r_link r) (l_links ly) /\
       dget (r_op r) st = Some (r_st r) /\
       (k <= length (o_unalloc (r_st r)))%nat /\
       (is_top_node (r_op r) node -> skipn k (o_unalloc (r_st r)) = [])) /\
    (forall m, ~ In m (m_operands node) -> dget m st' = dget m st) /\
    keys st' = keys st.

  Lemma In_combine_exists {A B} (l : list A) : forall (l' : list B) x, length l = length l' -> In x l ->
    exists y, In (x, y) (combine l l').
  Proof.
    induction l as [|a l IH]; intros l' x Hl Hin; [destruct Hin|].
    destruct l' as [|b l']; [discriminate|]. cbn in Hl |- *. destruct Hin as [->|Hin].
    - exists b. now left.
    - destruct (IH l' x ltac:(lia) Hin) as (y & Hy). exists y. now right.
  Qed.

  Lemma in_map_link m : In m (map snd (l_links ly)) -> exists lop, In (lop, m) (l_links ly).
  Proof. intros H. apply in_map_iff in H. destruct H as ([lop m'] & E & Hin). cbn in E. subst m'. now exists lop. Qed.

  Lemma Forall2_length' {A B} (P : A -> B -> Prop) l l' : Forall2 P l l' -> length l = length l'.
  Proof. induction 1; cbn; congruence. Qed.

  Lemma Forall2_combine {A B} (P : A -> B -> Prop) l l' : Forall2 P l l' -> forall x y, In (x, y) (combine l l') -> P x y.
  Proof.
    induction 1 as [|a b l l' Hab _ IH]; intros x y Hin; [destruct Hin|].
    destruct Hin as [E|Hin]; [injection E as <- <-; assumption|now apply IH].
  Qed.

  Definition acc_of (node : memlevel) (r : row) (k : nat) : Q :=
    accesses_above ly spatial ordering
      (match dget (r_op r) tops with Some t => Nat.eqb (m_id node) t | None => false end)
      (r_link r) (length (o_map (r_st r))) (r_cut r) (r_cut r + k).

  (** Everything about one memory, in terms of rows. *)
  Lemma node_choice pre st node st' :
    NoDup (map snd (l_links ly)) -> NoDup (m_operands node) ->
    inv pre st -> allocate_node ly spatial mtype tops st node = Ok st' ->
    exists rows, choice_ok pre node st st' rows /\
      valid_idxs mtype (map (fun rk => r_st (fst rk)) rows) (map snd rows) = true /\
      (qsum (map (fun rk => tile (r_link (fst rk)) (r_st (fst rk)) (r_cut (fst rk) + snd rk)) rows)
       <= inject_Z (m_size node))%Q /\
      (forall g : row -> nat,
         (forall r k, In (r, k) rows ->
            (g r <= length (o_unalloc (r_st r)))%nat /\
            (is_top_node (r_op r) node -> g r = length (o_unalloc (r_st r))) /\
            (forall j, (j <= g r)%nat -> (tile (r_link r) (r_st r) (r_cut r + j) <= inject_Z (m_size node))%Q)) ->
         (qsum (map (fun rk => tile (r_link (fst rk)) (r_st (fst rk)) (r_cut (fst rk) + g (fst rk))) rows)
          <= inject_Z (m_size node))%Q ->
         valid_idxs mtype (map (fun rk => r_st (fst rk)) rows) (map (fun rk => g (fst rk)) rows) = true ->
         (qsum (map (fun rk => acc_of node (fst rk) (snd rk)) rows)
          <= qsum (map (fun rk => acc_of node (fst rk) (g (fst rk))) rows))%Q).
  Proof.
    intros Hndl Hndo (Hkeys & Hinv) E. unfold allocate_node in E.
    set (ops := filter (fun op => memb op (map snd (l_links ly))) (m_operands node)) in *.
    apply rbind_Ok in E. destruct E as (sts & Ests & E).
    apply rbind_Ok in E. destruct E as (sizes & Esizes & E).
    apply rbind_Ok in E. destruct E as (cs & Ecs & E).
    apply rbind_Ok in E. destruct E as (idxs & Eidx & E).
    destruct (rmap_combine _ _ _ Ests) as (S1 & S2 & S3).
    destruct (rmap_combine _ _ _ Esizes) as (Z1 & Z2 & Z3).
    destruct (rmap_combine _ _ _ Ecs) as (C1 & C2 & C3).
    set (R := combine (combine (combine ops sts) sizes) cs) in *.
    assert (Eops : map r_op R = ops).
    { transitivity (map fst (map fst (map fst R))); [now rewrite !map_map|]. now rewrite C1, Z1. }
    assert (Ests' : map r_st R = sts).
    { transitivity (map snd (map fst (map fst R))); [now rewrite !map_map|]. now rewrite C1, Z1. }
    assert (Hops : NoDup ops) by now apply NoDup_filter.
    (* facts about each row *)
    assert (Hrow : forall r, In r R ->
      (exists ls, okop pre (r_link r) (r_st r) ls) /\ In (r_link r) (l_links ly) /\
      dget (r_op r) st = Some (r_st r) /\
      calc_size_slices ly spatial (r_op r) (r_st r) (m_size node) = Ok (r_sizes r) /\
      candidates tops node (r_op r) (r_st r) (r_sizes r) = Ok (snd r)).
    { intros r Hr. assert (Hr1 : In (fst r) (combine (combine ops sts) sizes)).
      { rewrite <- C1. now apply in_map. }
      assert (Hr2 : In (fst (fst r)) (combine ops sts)) by (rewrite <- Z1; now apply in_map).
      assert (Hr3 : In (r_op r) ops) by (rewrite <- Eops; now apply in_map).
      apply filter_In in Hr3. destruct Hr3 as (_ & Hm). apply memb_In in Hm.
      destruct (in_map_link _ Hm) as (lop & Hl).
      destruct (Hinv _ Hl) as (o & ls & Ho & Hok). cbn [snd] in Ho.
      specialize (S3 _ Hr2). apply dgetr_Ok in S3. specialize (Z3 _ Hr1). specialize (C3 _ Hr).
      change (fst (fst (fst r))) with (r_op r) in S3. change (snd (fst (fst r))) with (r_st r) in S3.
      rewrite Ho in S3. injection S3 as ->.
      assert (Elm : (lop, r_op r) = r_link r).
      { unfold r_link. now rewrite (ok_op _ _ _ _ Hok). }
      rewrite Elm in *. split; [now exists ls|]. split; [assumption|]. split; [assumption|].
      split; [exact Z3|exact C3]. }
    (* the slices of each row *)
    assert (Hsl : forall r, In r R ->
      r_sizes r <> [] /\ (length (r_sizes r) <= S (length (o_unalloc (r_st r))))%nat /\
      (forall k, (k < length (r_sizes r))%nat -> (nthq (r_sizes r) k == tile (r_link r) (r_st r) (r_cut r + k))%Q) /\
      ((length (r_sizes r) <= length (o_unalloc (r_st r)))%nat ->
         ~ (tile (r_link r) (r_st r) (r_cut r + length (r_sizes r)) <= inject_Z (m_size node))%Q)).
    { intros r Hr. destruct (Hrow r Hr) as ((ls & Hok) & _ & _ & Hs & _).
      now apply (size_slices_ok pre (r_link r) (r_st r) ls). }
    assert (Hcand : forall r, In r R ->
      ((is_top_node (r_op r) node /\ c_offset (snd r) = (length (r_sizes r) - 1)%nat /\
        c_sizes (snd r) = [nthq (r_sizes r) (length (r_sizes r) - 1)] /\ c_accesses (snd r) = [0%Q]) \/
       (~ is_top_node (r_op r) node /\ c_offset (snd r) = O /\ c_sizes (snd r) = r_sizes r /\
        forall k, (k < length (r_sizes r))%nat -> nthq (c_accesses (snd r)) k =
          (inject_Z (zprod (map snd (skipn k (o_unalloc (r_st r))))) * nthq (r_sizes r) k)%Q))).
    { intros r Hr. destruct (Hrow r Hr) as (_ & _ & _ & _ & Hc). destruct (Hsl r Hr) as (Hne & _).
      now apply (candidates_ok node (r_op r) (r_st r) (r_sizes r) (snd r) Hne). }
    (* digits to loop counts *)
    assert (Hdig : forall r d, In r R -> (d < length (c_sizes (snd r)))%nat ->
      (d + c_offset (snd r) < length (r_sizes r))%nat /\
      (nthq (c_sizes (snd r)) d == tile (r_link r) (r_st r) (r_cut r + (d + c_offset (snd r))))%Q /\
      (nthq (c_accesses (snd r)) d == acc_of node r (d + c_offset (snd r)))%Q).
    { intros r d Hr Hd. destruct (Hsl r Hr) as (Hne & Hlen & Hnth & _).
      assert (Hpos : (0 < length (r_sizes r))%nat) by (destruct (r_sizes r); [contradiction|cbn; lia]).
      unfold acc_of, accesses_above, is_top_node in *.
      destruct (Hcand r Hr) as [(Ht & Ho & Hs & Ha)|(Ht & Ho & Hs & Ha)]; unfold is_top_node in Ht.
      - rewrite Hs in Hd |- *. cbn in Hd. assert (d = O) by lia. subst d. rewrite Ho, Ha, Ht, Nat.eqb_refl. cbn [nthq nth].
        split; [lia|]. split; [apply Hnth; lia|reflexivity].
      - rewrite Hs in Hd |- *. rewrite Ho, Nat.add_0_r. split; [assumption|]. split; [now apply Hnth|].
        rewrite (Ha d Hd), (Hnth d Hd).
        assert (Ef : (match dget (r_op r) tops with Some t => Nat.eqb (m_id node) t | None => false end) = false).
        { destruct (dget (r_op r) tops) as [t|]; [|reflexivity]. apply Nat.eqb_neq. congruence. }
        rewrite Ef. destruct (Hrow r Hr) as ((ls & Hok) & _).
        rewrite (unalloc_skipn _ _ _ _ Hok). rewrite skipn_skipn'.
        replace (d + cut (r_st r))%nat with (r_cut r + d)%nat by (unfold r_cut; lia).
        reflexivity. }
    (* the search *)
    assert (Hcs : forall c, In c cs -> c_sizes c <> []).
    { intros c Hc. rewrite <- C2 in Hc. apply in_map_iff in Hc. destruct Hc as (r & <- & Hr).
      destruct (Hsl r Hr) as (Hne & _).
      destruct (Hcand r Hr) as [(_ & _ & -> & _)|(_ & _ & -> & _)]; [discriminate|assumption]. }
    destruct (search_ok _ _ _ _ Hcs Eidx) as (H0 & Hres).
    (* committing *)
    assert (Hlen : length idxs = length R).
    { destruct Hres as [(-> & _)|(ds & Hr & _ & -> & _)].
      - rewrite map_length, <- C2, map_length. reflexivity.
      - rewrite <- C2. rewrite comb_idxs_combine, map_length, combine_length.
        apply Forall2_length' in Hr. rewrite map_length, <- C2, map_length in Hr. lia. }
    rewrite <- Eops in E. rewrite combine_map_l in E.
    set (K := combine R idxs) in *.
    assert (HKR : map fst K = R) by (apply map_fst_combine; lia).
    assert (HKo : map (fun rk => r_op (fst rk)) K = ops).
    { rewrite <- (map_map fst r_op), HKR. exact Eops. }
    assert (HKf : map fst (map (fun x : row * nat => (r_op (fst x), snd x)) K) = ops).
    { rewrite map_map. cbn. exact HKo. }
    destruct (commit_fold node _ _ _ ltac:(rewrite HKf; exact Hops) E) as (M1 & M2 & M3 & M4).
    rewrite HKf in M1, M2.
    assert (HinR : forall r k, In (r, k) K -> In r R).
    { intros r k H. rewrite <- HKR. now apply (in_map fst) in H. }
    assert (M5 : forall r k, In (r, k) K ->
      (exists sp, get_unrolling spatial (o_layer_op (r_st r)) (o_level (r_st r)) = Ok sp /\
          dget (r_op r) st' = Some (committed (r_st r) k sp)) /\
      (is_top_node (r_op r) node -> skipn k (o_unalloc (r_st r)) = [])).
    { intros r k Hk. destruct (M4 (r_op r) k) as (o & sp & Ha & Hb & _ & Hc & Hd).
      - apply in_map_iff. now exists (r, k).
      - destruct (Hrow r (HinR _ _ Hk)) as (_ & _ & Ho & _). rewrite Ho in Ha. injection Ha as <-.
        split; [now exists sp|assumption]. }
    (* the default choice never survives the commit *)
    assert (Hbest : exists ds, Forall2 (fun d m => (d < m)%nat) ds (map (fun c => length (c_sizes c)) cs) /\
        feasible (valid_idxs mtype sts) (m_size node) cs ds /\ idxs = comb_idxs cs ds /\
        forall ds', Forall2 (fun d m => (d < m)%nat) ds' (map (fun c => length (c_sizes c)) cs) ->
          feasible (valid_idxs mtype sts) (m_size node) cs ds' -> (acc cs ds <= acc cs ds')%Q).
    { destruct Hres as [(Hz & Hno)|H]; [|exact H]. exfalso.
      assert (Hp : forall m, In m (map (fun c => length (c_sizes c)) cs) -> (0 < m)%nat).
      { intros m Hm. apply in_map_iff in Hm. destruct Hm as (c & <- & Hc).
        specialize (Hcs c Hc). destruct (c_sizes c); [contradiction|cbn; lia]. }
      apply (Hno (digits 0 (map (fun c => length (c_sizes c)) cs))); [now apply digits_range|].
      split; [exact H0|]. rewrite digits_0 by assumption.
      assert (Hoff : comb_idxs cs (map (fun _ => O) (map (fun c => length (c_sizes c)) cs)) = map (fun _ => O) sts).
      { rewrite <- C2, <- Ests'. rewrite !map_map, comb_idxs_combine.
        rewrite (combine_map_same (fun _ : row => O) R), map_map. cbn [fst snd].
        apply map_ext_in. intros r Hr. cbn.
        destruct (Hcand r Hr) as [(Ht & Ho & _)|(_ & Ho & _)]; [|exact Ho].
        destruct (In_combine_exists R idxs r ltac:(lia) Hr) as (k & Hk).
        assert (Ek : k = O).
        { apply in_combine_r in Hk. rewrite Hz in Hk. apply in_map_iff in Hk. destruct Hk as (? & <- & _). reflexivity. }
        subst k. destruct (M5 _ _ Hk) as (_ & Htop). specialize (Htop Ht). cbn in Htop.
        destruct (Hsl r Hr) as (_ & Hl & _). rewrite Htop in Hl. cbn in Hl. rewrite Ho. lia. }
      rewrite Hoff. apply valid_zero. }
    clear Hres. destruct Hbest as (ds & Hr & (Hfit & Hval) & Hidx & Hmin).
    assert (Hlds : length ds = length R).
    { apply Forall2_length' in Hr. rewrite map_length, <- C2, map_length in Hr. exact Hr. }
    set (off := fun rd : row * nat => (snd rd + c_offset (snd (fst rd)))%nat) in *.
    assert (HK : K = map (fun rd => (fst rd, off rd)) (combine R ds)).
    { unfold K. rewrite Hidx, <- C2, comb_idxs_combine. fold off. apply combine_map_combine. lia. }
    assert (Hdlt : forall r d, In (r, d) (combine R ds) -> In r R /\ (d < length (c_sizes (snd r)))%nat).
    { intros r d Hin. split; [now apply in_combine_l in Hin|].
      assert (Hr' : Forall2 (fun d m => (d < m)%nat) ds (map (fun r0 : row => length (c_sizes (snd r0))) R)).
      { rewrite <- C2, map_map in Hr. exact Hr. }
      clear - Hr' Hin. revert ds Hr' Hin. induction R as [|r0 R0 IH]; intros ds Hr' Hin; [destruct Hin|].
      inversion Hr' as [|d0 m0 ds0 ms0 Hd Hf]; subst. destruct Hin as [Ei|Hin].
      - injection Ei as -> ->. exact Hd.
      - now apply (IH ds0). }
    exists K. split; [|split; [|split]].
    - split; [exact HKo|]. split; [|split].
      + intros r k Hk. destruct (Hrow r (HinR _ _ Hk)) as ((ls & Hok) & Hl & Ho & _).
        destruct (M5 _ _ Hk) as ((sp & Hsp & Hst') & Htop).
        split; [exists ls, sp; tauto|]. split; [assumption|]. split; [assumption|]. split; [|assumption].
        rewrite HK in Hk. apply in_map_iff in Hk. destruct Hk as ([r' d] & Ek & Hin).
        injection Ek as -> <-. destruct (Hdlt _ _ Hin) as (HrR & Hd).
        destruct (Hdig r d HrR Hd) as (Hlt & _). destruct (Hsl r HrR) as (_ & Hl2 & _).
        unfold off. cbn [fst snd]. lia.
      + intros m Hm. apply M1. intros Hin. apply Hm. now apply filter_In in Hin.
      + exact M3.
    - rewrite <- (map_map fst r_st), HKR, Ests'.
      assert (Esnd : map snd K = idxs).
      { unfold K. clear - Hlen. revert Hlen. generalize idxs. induction R as [|r R0 IH]; intros [|i is] Hl; cbn in Hl |- *;
          try reflexivity; try discriminate. now rewrite IH by lia. }
      rewrite Esnd, Hidx. exact Hval.
    - unfold fits in Hfit. rewrite <- C2, comb_sum_combine in Hfit.
      eapply Qle_trans; [|exact Hfit]. apply Qle_lteq. right.
      rewrite HK, map_map. apply qsum_Forall2.
      assert (Hd := Hdlt). clear - Hdig Hd. induction (combine R ds) as [|[r d] L IH]; cbn [map]; constructor.
      + cbn [fst snd]. destruct (Hd r d (or_introl eq_refl)) as (Hr & Hlt).
        destruct (Hdig r d Hr Hlt) as (_ & Ht & _). unfold off. cbn [fst snd]. now rewrite Ht.
      + apply IH. intros r' d' Hin. apply Hd. now right.
    - intros g Hg Hgfit Hgval.
      set (h := fun r : row => (g r - c_offset (snd r))%nat).
      assert (HgR : forall r, In r R -> (g r <= length (o_unalloc (r_st r)))%nat /\
            (is_top_node (r_op r) node -> g r = length (o_unalloc (r_st r))) /\
            (forall j, (j <= g r)%nat -> (tile (r_link r) (r_st r) (r_cut r + j) <= inject_Z (m_size node))%Q)).
      { intros r HrR. destruct (In_combine_exists R idxs r ltac:(lia) HrR) as (k & Hk). now apply (Hg r k). }
      assert (Hh : forall r, In r R -> (h r < length (c_sizes (snd r)))%nat /\ (h r + c_offset (snd r) = g r)%nat).
      { intros r HrR. destruct (HgR r HrR) as (G1 & G2 & G3). destruct (Hsl r HrR) as (Hne & Hl & _ & Hover).
        assert (Hlong : (g r < length (r_sizes r))%nat).
        { destruct (Nat.lt_ge_cases (g r) (length (r_sizes r))) as [H|H]; [exact H|exfalso].
          apply Hover; [lia|]. now apply G3. }
        unfold h. destruct (Hcand r HrR) as [(Ht & Ho & Hs & _)|(_ & Ho & Hs & _)]; rewrite Ho, Hs.
        - specialize (G2 Ht). cbn. lia.
        - lia. }
      specialize (Hmin (map h R)).
      assert (Hrange : Forall2 (fun d m => (d < m)%nat) (map h R) (map (fun c => length (c_sizes c)) cs)).
      { rewrite <- C2, map_map. assert (Hh' := Hh). clear - Hh'. induction R as [|r R0 IH]; cbn [map]; constructor.
        - apply (Hh' r). now left.
        - apply IH. intros r' Hr'. apply Hh'. now right. }
      assert (Hsum : forall (f : cand -> list Q) (F : row -> nat -> Q),
        (forall r d, In r R -> (d < length (c_sizes (snd r)))%nat -> (nthq (f (snd r)) d == F r (d + c_offset (snd r))%nat)%Q) ->
        (comb_sum f cs (map h R) == qsum (map (fun rk => F (fst rk) (g (fst rk))) K))%Q).
      { intros f F HF. rewrite <- C2, comb_sum_combine, (combine_map_same h R), map_map.
        rewrite <- (map_map fst (fun r => F r (g r))), HKR. apply qsum_Forall2.
        clear - HF Hh. induction R as [|r R0 IH]; cbn [map]; constructor.
        - cbn [fst snd]. destruct (Hh r (or_introl eq_refl)) as (H1 & H2).
          rewrite (HF r (h r) (or_introl eq_refl) H1), H2. reflexivity.
        - apply IH; [intros r' Hr'; apply Hh; now right|intros r' d Hr'; apply HF; now right]. }
      assert (Hfeas : feasible (valid_idxs mtype sts) (m_size node) cs (map h R)).
      { split.
        - unfold fits. rewrite (Hsum c_sizes (fun r k => tile (r_link r) (r_st r) (r_cut r + k))); [exact Hgfit|].
          intros r d HrR Hd. now destruct (Hdig r d HrR Hd) as (_ & H & _).
        - rewrite <- C2, comb_idxs_combine, (combine_map_same h R), map_map. cbn [fst snd].
          rewrite <- (map_map fst r_st), HKR, Ests' in Hgval.
          rewrite <- (map_map fst g), HKR in Hgval.
          rewrite (map_ext_in _ g); [exact Hgval|]. intros r HrR. now destruct (Hh r HrR). }
      specialize (Hmin Hrange Hfeas). unfold acc in Hmin.
      rewrite (Hsum c_accesses (acc_of node)) in Hmin by (intros r d HrR Hd; now destruct (Hdig r d HrR Hd) as (_ & _ & H)).
      eapply Qle_trans; [|exact Hmin]. apply Qle_lteq. right.
      rewrite <- C2, comb_sum_combine, HK, map_map. apply qsum_Forall2.
      assert (Hd := Hdlt). clear - Hdig Hd. induction (combine R ds) as [|[r d] L IH]; cbn [map]; constructor.
      + cbn [fst snd]. destruct (Hd r d (or_introl eq_refl)) as (Hr & Hlt).
        destruct (Hdig r d Hr Hlt) as (_ & _ & Ht). unfold off. cbn [fst snd]. now rewrite Ht.
      + apply IH. intros r' d' Hin. apply Hd. now right.
  Qed.
End Alloc.
