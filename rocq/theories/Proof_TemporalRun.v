(** Proofs for C12 and C13: cycle counts, and mappings made by the allocator. *)
From Verif Require Import Base Model_Alloc Model_Temporal Spec_Alloc Spec_Temporal
  Proof_AllocSearch Proof_Alloc Proof_AllocRun Proof_Temporal.
From Coq Require Import Lia.
Local Open Scope result_scope.

Lemma W_le ls : forall k, (W k ls <= (k + length ls) * length (concat ls))%nat.
Proof.
  induction ls as [|l ls IH]; intros k; cbn [W length concat]; [lia|].
  specialize (IH (S k)). rewrite app_length. nia.
Qed.
Lemma weight_bound m fuel : (passes_bound m <= fuel)%nat -> (weight m < fuel)%nat.
Proof.
  unfold passes_bound, weight. intros H. apply Nat.lt_le_trans with (2 := H).
  apply Nat.lt_succ_r. clear H. induction m as [|kv m IH]; [easy|]. cbn [fold_right].
  pose proof (W_le (snd kv) 0). lia.
Qed.

Lemma iter_prefix n ls : zprod (firstn n (iterations ls)) = cycles (below n ls).
Proof.
  unfold iterations, cycles, below. rewrite firstn_map. generalize (firstn n ls). intros m. induction m as [|l m IH]; [reflexivity|].
  cbn [map concat]. now rewrite zprod_cons, map_app, zprod_app, IH.
Qed.

Lemma cabl_length ls : length (cycles_cabl ls) = length ls.
Proof. unfold cycles_cabl. now rewrite map_length, seq_length. Qed.

Lemma cabl_nth ls k : (k < length ls)%nat -> nth_error (cycles_cabl ls) k = Some (cycles (below (S k) ls)).
Proof.
  intros H. unfold cycles_cabl.
  assert (E : nth_error (seq 0 (length ls)) k = Some k)
    by (rewrite (nth_error_nth' _ 0%nat) by (now rewrite seq_length); now rewrite seq_nth).
  rewrite (map_nth_error _ _ _ E). now rewrite iter_prefix.
Qed.

Lemma cycles_app l1 l2 : cycles (l1 ++ l2) = cycles l1 * cycles l2.
Proof. unfold cycles. now rewrite map_app, zprod_app. Qed.
Lemma cycles_pos l : (forall d s, In (d, s) l -> 1 <= s) -> 1 <= cycles l.
Proof.
  intros H. assert (0 < cycles l); [|lia]. apply zprod_pos. intros x Hx.
  apply in_map_iff in Hx as ([d s] & <- & Hx). specialize (H _ _ Hx). cbn. lia.
Qed.

Lemma below_S k ls : (k < length ls)%nat -> below (S k) ls = below k ls ++ nth k ls [].
Proof.
  unfold below. revert k. induction ls as [|l ls IH]; intros k H; cbn in H; [lia|].
  destruct k; cbn [firstn concat nth]; [now rewrite app_nil_r|].
  rewrite <- app_assoc. f_equal. apply IH. lia.
Qed.

Lemma cabl_counts ls : cycle_counts ls (cycles_cabl ls).
Proof.
  assert (Hn : forall k c, nth_error (cycles_cabl ls) k = Some c -> c = cycles (below (S k) ls) /\ (k < length ls)%nat).
  { intros k c E. assert (Hk : (k < length ls)%nat)
      by (rewrite <- cabl_length; apply nth_error_Some; congruence).
    rewrite cabl_nth in E by easy. split; congruence. }
  split; [apply cabl_length|]. split; [intros k c E; now apply Hn|].
  intros k c c' E E'. apply Hn in E as [-> Hk], E' as [-> Hk'].
  rewrite (below_S (S k)) by easy. rewrite cycles_app. split; [apply Z.divide_factor_l|].
  intros Hs. assert (Hsub : forall n d s, In (d, s) (below n ls) -> 1 <= s).
  { intros n d s Hi. apply (Hs d). unfold below in Hi. rewrite <- (firstn_skipn n ls), concat_app.
    apply in_or_app. now left. }
  assert (1 <= cycles (below (S k) ls)) by (apply cycles_pos; apply Hsub).
  assert (1 <= cycles (nth (S k) ls [])).
  { apply cycles_pos. intros d s Hi. apply (Hsub (S (S k)) d). rewrite below_S by easy.
    apply in_or_app. now right. }
  nia.
Qed.

Lemma cabl_last ls : ls <> [] ->
  nth_error (cycles_cabl ls) (length (cycles_cabl ls) - 1) = Some (cycles (concat ls)).
Proof.
  intros H. rewrite cabl_length. assert (0 < length ls)%nat by (destruct ls; [easy|cbn; lia]).
  rewrite cabl_nth by lia. unfold below. replace (S (length ls - 1)) with (length ls) by lia.
  now rewrite firstn_all.
Qed.

Definition cabl_of (kv : string * tmlevels) := (fst kv, cycles_cabl (snd kv)).

Lemma calc_cycles_run st : Forall (fun kv => snd kv <> []) st ->
  calc_cycles st =
    match map (fun kv => cycles (concat (snd kv))) st with
    | [] => Err IndexError
    | t :: ts => if forallb (fun x => x =? t)%Z (t :: ts) then Ok (map cabl_of st, t) else Err AssertionError
    end.
Proof.
  intros H. unfold calc_cycles. fold cabl_of.
  assert (E : rmap (fun kv => of_option IndexError (nth_error (snd kv) (length (snd kv) - 1))) (map cabl_of st)
    = Ok (map (fun kv => cycles (concat (snd kv))) st)).
  { induction H as [|kv st Hk _ IH]; [easy|]. cbn [map rmap]. unfold cabl_of at 1 2. cbn [snd].
    rewrite cabl_last by easy. cbn [of_option rbind]. rewrite IH. reflexivity. }
  change (map (fun kv : string * tmlevels => (fst kv, cycles_cabl (snd kv))) st) with (map cabl_of st).
  rewrite E. cbn [rbind].
  destruct (map (fun kv => cycles (concat (snd kv))) st); reflexivity.
Qed.

Section Build.
  Variable ir_dims : dict string (list string).

  Theorem build_accepts m fuel T : (passes_bound m <= fuel)%nat -> m <> [] ->
    (forall op, In op (keys m) -> In op (keys ir_dims)) ->
    (forall op ls, In (op, ls) m -> ls <> [] /\ cycles (concat ls) = T) ->
    exists st mac cabl, build_temporal_mapping ir_dims fuel m = Ok (st, mac, cabl, T).
  Proof.
    intros Hf Hne Hk Hm. destruct (merge_down_spec ir_dims m fuel (weight_bound _ _ Hf) Hk)
      as (st & mac & E & _ & F & _).
    assert (Hst : Forall (fun kv => snd kv <> []) st /\ map (fun kv => cycles (concat (snd kv))) st = map (fun _ => T) m).
    { clear - F Hm. induction F as [|kv kv' m st (E & L & C & _) F IH]; [split; [constructor|reflexivity]|].
      destruct IH as [I1 I2]; [intros ? ? Hi; apply (Hm _ _ (or_intror Hi))|].
      destruct (Hm (fst kv) (snd kv)) as [N T']; [left; now destruct kv|].
      split; [constructor; [|easy]|cbn [map]; f_equal; [congruence|easy]].
      intros E'. apply N. destruct (snd kv); [easy|]. now rewrite E' in L. }
    destruct Hst as [H1 H2]. exists st, mac, (map cabl_of st). unfold build_temporal_mapping. rewrite E. cbn [rbind fst snd].
    rewrite calc_cycles_run, H2 by easy. destruct m as [|kv m]; [easy|]. cbn [map].
    replace (forallb _ _) with true; [reflexivity|]. symmetry. apply forallb_forall.
    intros x Hx. apply Z.eqb_eq. destruct Hx as [<-|Hx]; [easy|].
    apply in_map_iff in Hx as (? & <- & _). reflexivity.
  Qed.

  Theorem build_rejects m fuel : (passes_bound m <= fuel)%nat ->
    (forall op, In op (keys m) -> In op (keys ir_dims)) ->
    (forall op ls, In (op, ls) m -> ls <> []) ->
    (exists op ls op' ls', In (op, ls) m /\ In (op', ls') m /\ cycles (concat ls) <> cycles (concat ls')) ->
    build_temporal_mapping ir_dims fuel m = Err AssertionError.
  Proof.
    intros Hf Hk Hm (op & ls & op' & ls' & Hi & Hi' & Hne).
    destruct (merge_down_spec ir_dims m fuel (weight_bound _ _ Hf) Hk) as (st & mac & E & _ & F & _).
    assert (Hst : Forall (fun kv => snd kv <> []) st /\
      map (fun kv => cycles (concat (snd kv))) st = map (fun kv => cycles (concat (snd kv))) m).
    { clear - F Hm. induction F as [|kv kv' m st (E & L & C & _) F IH]; [split; [constructor|reflexivity]|].
      destruct IH as [I1 I2]; [intros ? ? Hi; apply (Hm _ _ (or_intror Hi))|].
      specialize (Hm (fst kv) (snd kv)). 
      split; [constructor; [|easy]|cbn [map]; f_equal; [congruence|easy]].
      intros E'. apply Hm; [left; now destruct kv|]. destruct (snd kv); [easy|]. now rewrite E' in L. }
    destruct Hst as [H1 H2]. unfold build_temporal_mapping. rewrite E. cbn [rbind fst snd].
    rewrite calc_cycles_run, H2 by easy.
    apply (in_map (fun kv => cycles (concat (snd kv)))) in Hi, Hi'. cbn [snd] in Hi, Hi'.
    destruct (map _ m) as [|t ts] eqn:Et; [easy|].
    destruct (forallb _ _) eqn:Ef; [|reflexivity]. exfalso. rewrite forallb_forall in Ef.
    apply Ef in Hi, Hi'. apply Z.eqb_eq in Hi, Hi'. congruence.
  Qed.

  Theorem build_counts m fuel st mac cabl T : (passes_bound m <= fuel)%nat ->
    (forall op, In op (keys m) -> In op (keys ir_dims)) ->
    build_temporal_mapping ir_dims fuel m = Ok (st, mac, cabl, T) ->
    keys mac = keys m /\
    Forall2 (fun kv kv' => fst kv' = fst kv /\ merged_down (reuse_dims ir_dims (fst kv)) (snd kv) (snd kv')) m st /\
    Forall2 (fun kv kv' => fst kv' = fst kv /\ leading_product (reuse_dims ir_dims (fst kv)) (concat (snd kv)) (snd kv')) m mac /\
    Forall2 (fun kv kc => fst kc = fst kv /\ cycle_counts (snd kv) (snd kc) /\
       nth_error (snd kc) (length (snd kc) - 1) = Some T) st cabl /\
    forall op ls, In (op, ls) m -> cycles (concat ls) = T.
  Proof.
    intros Hf Hk E. destruct (merge_down_spec ir_dims m fuel (weight_bound _ _ Hf) Hk)
      as (st' & mac' & Em & Hkm & F & G).
    unfold build_temporal_mapping in E. rewrite Em in E. cbn [rbind fst snd] in E.
    apply rbind_Ok in E as ([cb t] & Ec & E). cbn [fst snd] in E. injection E as -> -> -> ->.
    split; [easy|]. split; [easy|]. split; [easy|].
    unfold calc_cycles in Ec. apply rbind_Ok in Ec as (totals & Et & Ec).
    destruct totals as [|t0 ts]; [discriminate|].
    destruct (forallb _ _) eqn:Ef; [|discriminate]. injection Ec as Ecb ->.
    rewrite forallb_forall in Ef. apply rmap_Forall2 in Et.
    assert (Hc : Forall2 (fun kv kc => fst kc = fst kv /\ cycle_counts (snd kv) (snd kc) /\
       nth_error (snd kc) (length (snd kc) - 1) = Some T) st cabl).
    { subst cabl. revert Ef Et. generalize (T :: ts). clear.
      induction st as [|kv st IH]; intros tt Ef Et; cbn [map] in *; [constructor|].
      inversion Et as [|? t1 ? ts1 E1 Er]; subst. constructor.
      - cbn [fst snd]. split; [easy|]. split; [apply cabl_counts|].
        cbn [snd] in E1. apply of_option_Ok in E1. rewrite E1. f_equal. apply Z.eqb_eq. apply Ef. now left.
      - apply (IH ts1); [intros; apply Ef; now right|easy]. }
    split; [exact Hc|]. intros op ls Hi. clear Ecb Et Ef.
    assert (Hx : exists ls', In (op, ls') st /\ concat ls' = concat ls /\ length ls' = length ls).
    { clear - F Hi. induction F as [|kv kv' m st (E & L & C & _) F IH]; [easy|]. destruct Hi as [->|Hi].
      - cbn [fst snd] in *. exists (snd kv'). split; [left; destruct kv'; cbn in *; congruence|now split].
      - destruct (IH Hi) as (ls' & ? & ?). exists ls'. split; [now right|easy]. }
    destruct Hx as (ls' & Hi' & C & L). rewrite <- C. clear - Hc Hi'.
    induction Hc as [|kv kc st cabl (E1 & (L & N & _) & E3) Hc IH]; [easy|].
    destruct Hi' as [->|Hi']; [|now apply IH]. cbn [snd] in *.
    apply N in E3. rewrite E3. f_equal. unfold below. rewrite firstn_all2; [reflexivity|lia].
  Qed.
End Build.

Section Run.
  Variable ly : layer.
  Variable spatial : dict string (list (list (string * Q))).
  Variable mtype : mapping_type.
  Variable tops : dict string nat.
  Variable ordering : list tloop.
  Hypothesis Hnd_mem : NoDup (map snd (l_links ly)).
  Hypothesis Hnd_lay : NoDup (map fst (l_links ly)).

  Lemma run_keys nodes tm : (forall n, In n nodes -> NoDup (m_operands n)) ->
    allocator_run ly spatial mtype tops ordering nodes = Ok tm -> keys tm = map fst (l_links ly).
  Proof.
    intros Hnd E. unfold allocator_run in E.
    apply rbind_Ok in E. destruct E as (st0 & E0 & E). apply rbind_Ok in E. destruct E as (st & Est & E).
    injection E as <-. assert (Hi0 := inv_init ly spatial tops ordering st0 Hnd_mem E0).
    destruct (inv_run ly spatial mtype tops ordering Hnd_mem nodes [] st0 st Hnd Hi0 Est) as (Hi & _).
    destruct Hi as (Hk & Hinv). unfold keys. rewrite map_map. cbn [fst].
    assert (Hop : forall m o lop, In (m, o) st -> In (lop, m) (l_links ly) -> o_layer_op o = lop).
    { intros m o lop Hin Hl. destruct (Hinv _ Hl) as (o2 & ls & Ho2 & Hok). cbn in Ho2.
      assert (E : dget m st = Some o) by (apply In_dget; [rewrite Hk; assumption|assumption]).
      rewrite E in Ho2. injection Ho2 as <-. exact (ok_op _ _ _ _ _ _ _ Hok). }
    clear - Hk Hop. revert Hk Hop. generalize (l_links ly).
    induction st as [|[m o] st IH]; intros [|[lop m'] links] Hk Hop; cbn in Hk |- *; try discriminate; [reflexivity|].
    injection Hk as <- Hk. f_equal.
    - apply (Hop m); now left.
    - apply IH; [easy|]. intros m2 o2 l2 H1 H2. apply (Hop m2); now right.
  Qed.

  Theorem run_builds nodes tm : (forall n, In n nodes -> NoDup (m_operands n)) -> l_links ly <> [] ->
    (forall lop mop, In (lop, mop) (l_links ly) -> In lop (keys (l_ir ly)) /\
       exists n, In n nodes /\ In mop (m_operands n) /\ dget mop tops = Some (m_id n)) ->
    allocator_run ly spatial mtype tops ordering nodes = Ok tm ->
    forall fuel, (passes_bound tm <= fuel)%nat ->
    exists st mac cabl, build_temporal_mapping (l_ir ly) fuel tm = Ok (st, mac, cabl, cycles ordering).
  Proof.
    intros Hnd Hne Hall E fuel Hf. assert (Hk := run_keys nodes tm Hnd E).
    apply build_accepts; [easy| | |].
    - intros ->. cbn in Hk. destruct (l_links ly); [easy|discriminate].
    - intros op Hin. rewrite Hk in Hin. apply in_map_iff in Hin as ([l m] & <- & Hin). now apply (Hall l m).
    - intros op ls Hin. assert (Ho : In op (map fst (l_links ly))) by (rewrite <- Hk; now apply (in_map fst) in Hin).
      apply in_map_iff in Ho as ([l m] & <- & Hl). cbn [fst] in *.
      destruct (Hall _ _ Hl) as (_ & n & Hn & Hm & Ht).
      destruct (run_keeps_loops ly spatial mtype tops ordering Hnd_mem Hnd_lay nodes tm Hnd E l m Hl) as (ls' & Eg & C & L).
      { exists n. now repeat split. }
      assert (ls' = ls). { apply In_dget in Hin; [congruence|]. now rewrite Hk. }
      subst ls'. split; [|now rewrite C].
      intros ->. cbn in L. symmetry in L. unfold storing in L. apply length_zero_iff_nil in L.
      assert (Hc : In n (filter (fun n => memb m (m_operands n)) nodes)) by (apply filter_In; split; [easy|now apply memb_In]).
      rewrite L in Hc. destruct Hc.
  Qed.
End Run.

Lemma top_run_pre dims l : top_run dims l = cycles (pre dims l).
Proof.
  induction l as [|x l IH]; cbn [top_run pre]; [reflexivity|].
  destruct (memb (fst x) dims); [|reflexivity]. rewrite IH. unfold cycles. cbn [map].
  now rewrite zprod_cons.
Qed.

Lemma cycles_rev l : cycles (rev l) = cycles l.
Proof. unfold cycles. apply zprod_perm. apply Permutation_map. symmetry. apply Permutation_rev. Qed.

Theorem top_sizes_runs dims ls : exists tops, top_sizes dims ls = 1 :: tops /\
  Forall2 (outer_run dims) ls tops.
Proof.
  exists (map (fun l => top_run dims (rev l)) ls). split; [reflexivity|].
  induction ls as [|l ls IH]; constructor; [|exact IH].
  exists (rev (post dims (rev l))), (rev (pre dims (rev l))). split.
  { rewrite <- rev_app_distr, pre_post. now rewrite rev_involutive. }
  split; [now rewrite cycles_rev, top_run_pre|]. split.
  - apply Forall_rev. apply pre_over.
  - intros x rest E H. apply (f_equal (@rev _)) in E. rewrite rev_involutive, rev_app_distr in E. cbn in E.
    revert E H. generalize (rev l), (rev rest). clear. intros l r. induction l as [|y l IH]; cbn [post]; [easy|].
    destruct (memb (fst y) dims) eqn:E; [easy|]. intros [= <- _] H. apply memb_In in H. congruence.
Qed.

Theorem merge_down_total ir_dims m fuel : (passes_bound m <= fuel)%nat ->
  (forall op, In op (keys m) -> In op (keys ir_dims)) ->
  exists st mac, merge_down ir_dims fuel m = Ok (st, mac) /\ keys mac = keys m /\
    Forall2 (fun kv kv' => fst kv' = fst kv /\
       merged_down (reuse_dims ir_dims (fst kv)) (snd kv) (snd kv')) m st /\
    Forall2 (fun kv kv' => fst kv' = fst kv /\
       leading_product (reuse_dims ir_dims (fst kv)) (concat (snd kv)) (snd kv')) m mac.
Proof. intros Hf. apply merge_down_spec. now apply weight_bound. Qed.
