(** Proofs for C15. *)
From Coq Require Import Lia Lqa QArith Qround String.
From Verif Require Import Base Model_Alloc Model_Decouple Model_SpatialInt Spec_Alloc Spec_Decouple
  Spec_SpatialInt Proof_AllocSearch Proof_AllocTile Proof_Decouple Proof_DecoupleTotals.
Local Open Scope result_scope.
Local Open Scope list_scope.
Local Open Scope Q_scope.

Lemma py_round_nearest q : nearest q (py_round q).
Proof.
  unfold nearest, py_round. destruct (Qfloor_bounds q) as [Hl Hu].
  set (f := Qfloor q) in *. clearbody f.
  assert (Hi : inject_Z (f + 1) == inject_Z f + 1) by (rewrite inject_Z_plus; reflexivity).
  destruct (Qcompare_spec (q - inject_Z f) (1 # 2)) as [E|E|E].
  - destruct (Z.even f) eqn:Ev.
    + split; [split; lra|]. intros _. exact Ev.
    + split; [rewrite Hi; split; lra|]. intros _. rewrite Z.even_add, Ev. reflexivity.
  - split; [split; lra|]. intros [H|H]; lra.
  - split; [rewrite Hi; split; lra|]. rewrite Hi. intros [H|H]; lra.
Qed.

Lemma nearest_Z n m q : q == inject_Z n -> nearest q m -> m = n.
Proof.
  intros E [[H1 H2] _]. assert (A : inject_Z m <= inject_Z n + (1#2)) by lra.
  assert (B : inject_Z n - (1#2) <= inject_Z m) by lra.
  assert (A' : inject_Z m < inject_Z (n + 1)) by (rewrite inject_Z_plus; change (inject_Z 1) with 1; lra).
  assert (B' : inject_Z n < inject_Z (m + 1)) by (rewrite inject_Z_plus; change (inject_Z 1) with 1; lra).
  apply (proj1 (inject_Z_lt_iff _ _)) in A'. apply (proj1 (inject_Z_lt_iff _ _)) in B'. lia.
Qed.

Lemma py_round_Z n q : q == inject_Z n -> py_round q = n.
Proof. intros E. apply (nearest_Z n _ q E). apply py_round_nearest. Qed.

Lemma py_round3_Z n q : q == inject_Z n -> py_round (py_round3 q) = n.
Proof.
  intros E. apply py_round_Z. unfold py_round3. rewrite (py_round_Z (n * 1000)).
  - rewrite inject_Z_mult. change (inject_Z 1000) with 1000. field.
  - rewrite E, inject_Z_mult. reflexivity.
Qed.

Lemma py_round_comp q q' : q == q' -> py_round q = py_round q'.
Proof.
  intros E. unfold py_round. rewrite (Qfloor_comp _ _ E).
  replace (q - inject_Z (Qfloor q') ?= 1 # 2) with (q' - inject_Z (Qfloor q') ?= 1 # 2); [reflexivity|].
  apply Qcompare_comp; [now rewrite E|reflexivity].
Qed.
Lemma py_round3_comp q q' : q == q' -> py_round (py_round3 q) = py_round (py_round3 q').
Proof.
  intros E. apply py_round_comp. unfold py_round3. rewrite (py_round_comp (q * 1000) (q' * 1000)); [reflexivity|].
  now rewrite E.
Qed.

(** * products *)

Lemma qprod_filter_split {A} (g : A -> Q) (f : A -> bool) l :
  qprod (map g (filter f l)) * qprod (map g (filter (fun x => negb (f x)) l)) == qprod (map g l).
Proof.
  induction l as [|x l IH]; cbn [filter map]; [reflexivity|]. rewrite qprod_cons, <- IH.
  destruct (f x); cbn [negb map]; rewrite qprod_cons; ring.
Qed.

Lemma prods_length s : length (prods_from s) = length s.
Proof. unfold prods_from. now rewrite map_length, seq_length. Qed.
Lemma prods_nth s lv : (lv < length s)%nat -> nth_error (prods_from s) lv = Some (qprod (skipn lv s)).
Proof.
  intros H. unfold prods_from.
  assert (E : nth_error (seq 0 (length s)) lv = Some lv)
    by (rewrite (nth_error_nth' _ 0%nat) by (now rewrite seq_length); now rewrite seq_nth).
  now rewrite (map_nth_error _ _ _ E).
Qed.

Lemma filter_concat {A} (f : A -> bool) ls : filter f (concat ls) = concat (map (filter f) ls).
Proof. induction ls; cbn; [reflexivity|]. now rewrite filter_app, IHls. Qed.

Lemma qprod_concat ls : qprod (map (fun l : list qloop => qprod (map snd l)) ls) == iterations_of (concat ls).
Proof.
  unfold iterations_of. induction ls as [|l ls IH]; [reflexivity|]. cbn [map concat].
  now rewrite qprod_cons, map_app, qprod_app, IH.
Qed.

Lemma suffix_filter f (ls : list (list qloop)) lv :
  qprod (skipn lv (map (fun l => qprod (map snd (filter f l))) ls)) == iterations_of (filter f (concat (skipn lv ls))).
Proof.
  rewrite skipn_map, filter_concat, <- qprod_concat, map_map. reflexivity.
Qed.
Lemma suffix_total (ls : list (list qloop)) lv :
  qprod (skipn lv (unroll_size_total ls)) == unrolled_from lv ls.
Proof. unfold unroll_size_total, unrolled_from. rewrite skipn_map. apply qprod_concat. Qed.

Lemma ratios_next_ok qs : (forall q, In q qs -> ~ q == 0) ->
  exists rs, ratios_next qs = Ok rs /\ length rs = pred (length qs) /\
    forall k r, nth_error rs k = Some r -> exists a b,
      nth_error qs k = Some a /\ nth_error qs (S k) = Some b /\ r = a / b.
Proof.
  induction qs as [|q [|q' qs] IH]; intros H.
  - exists []. repeat split. intros [|k] r E; discriminate.
  - exists []. repeat split. intros [|k] r E; discriminate.
  - destruct IH as (rs & E & L & N); [intros; apply H; now right|].
    exists (q / q' :: rs). change (ratios_next (q :: q' :: qs)) with
      (x <- pdiv q q' ;; xs <- ratios_next (q' :: qs) ;; Ok (x :: xs)).
    rewrite pdiv_ok by (apply H; right; now left). cbn [rbind]. rewrite E. cbn [rbind].
    split; [reflexivity|]. split; [cbn in *; congruence|].
    intros [|k] r Er; cbn [nth_error] in Er; [|now apply N].
    injection Er as <-. exists q, q'. now repeat split.
Qed.

Lemma skipn_nth_cons {A} (l : list A) lv : (lv < length l)%nat -> exists x, nth_error l lv = Some x /\ skipn lv l = x :: skipn (S lv) l.
Proof.
  revert lv. induction l as [|y l IH]; intros lv H; cbn in H; [lia|].
  destruct lv; [exists y; now split|]. destruct (IH lv ltac:(lia)) as (x & E & S). exists x. now split.
Qed.

(** a count record is right for the decoupled levels [ls'] *)
Definition counts_ok (ly : layer) (r : list string) (ls' : list (list qloop)) (c : opcounts) : Prop :=
  (forall lv n, nth_error (unit_count c) lv = Some n -> n = py_round (py_round3 (unrolled_from lv ls'))) /\
  (forall lv q, nth_error (unit_unique c) lv = Some q -> q == iterations_of (data_loops ly r (concat (skipn lv ls')))) /\
  (forall lv q, nth_error (unit_duplicate c) lv = Some q -> q == iterations_of (copy_loops ly r (concat (skipn lv ls')))) /\
  (forall lv q, nth_error (data_serve_scope c) lv = Some q -> exists l, nth_error ls' lv = Some l /\ q == iterations_of (copy_loops ly r l)) /\
  (forall lv n, nth_error (mem_bw_boost c) lv = Some n -> exists l, nth_error ls' lv = Some l /\
     n = py_round (iterations_of (data_loops ly r l))) /\
  length (unit_count c) = length ls' /\ length (unit_unique c) = length ls' /\ length (unit_duplicate c) = length ls' /\
  length (data_serve_scope c) = pred (length ls') /\ length (mem_bw_boost c) = pred (length ls').

Lemma iterations_nz l : (forall x, In x l -> ~ snd x == 0) -> ~ iterations_of l == 0.
Proof.
  unfold iterations_of. induction l as [|x l IH]; intros H; cbn [map]; [intros E; discriminate E|].
  rewrite qprod_cons. intros E. apply Qmult_integral in E. destruct E as [E|E]; [now apply (H x (or_introl eq_refl))|].
  revert E. apply IH. intros y Hy. apply H. now right.
Qed.

Lemma counts_of_ok ly r ls' : (forall x, In x (concat ls') -> ~ snd x == 0) ->
  exists c, counts_of (r ++ map r_version (keys (l_pr_loop ly))) ls' = Ok c /\ counts_ok ly r ls' c.
Proof.
  intros Hnz. unfold counts_of. set (rd := r ++ map r_version (keys (l_pr_loop ly))).
  assert (Hin : forall lv x, In x (concat (skipn lv ls')) -> In x (concat ls')).
  { intros lv x Hx. rewrite <- (firstn_skipn lv ls'), concat_app. apply in_or_app. now right. }
  assert (G : forall f, (forall q, In q (prods_from (map (fun l => qprod (map snd (filter f l))) ls')) -> ~ q == 0)).
  { intros f q Hq. apply In_nth_error in Hq as (lv & Hq).
    assert (Hlt : (lv < length ls')%nat).
    { assert (nth_error (prods_from (map (fun l : list qloop => qprod (map snd (filter f l))) ls')) lv <> None) by congruence.
      apply nth_error_Some in H. now rewrite prods_length, map_length in H. }
    rewrite prods_nth in Hq by now rewrite map_length. injection Hq as <-. rewrite suffix_filter.
    apply iterations_nz. intros x Hx. apply filter_In in Hx as [Hx _]. apply Hnz. now apply (Hin lv). }
  destruct (ratios_next_ok (prods_from (unroll_size_ir rd ls')) (G _)) as (sc & E1 & L1 & N1).
  destruct (ratios_next_ok (prods_from (unroll_size_r rd ls')) (G _)) as (bo & E2 & L2 & N2).
  rewrite E1. cbn [rbind]. rewrite E2. cbn [rbind]. eexists. split; [reflexivity|].
  assert (Hget : forall f lv q, nth_error (prods_from (map (fun l => qprod (map snd (filter f l))) ls')) lv = Some q ->
    (lv < length ls')%nat /\ q == iterations_of (filter f (concat (skipn lv ls'))) /\ ~ q == 0).
  { intros f lv q Hq. assert (Hlt : (lv < length ls')%nat).
    { assert (nth_error (prods_from (map (fun l : list qloop => qprod (map snd (filter f l))) ls')) lv <> None) by congruence.
      apply nth_error_Some in H. now rewrite prods_length, map_length in H. }
    split; [exact Hlt|]. split; [|apply (G f), (nth_error_In _ _ Hq)].
    rewrite prods_nth in Hq by now rewrite map_length. injection Hq as <-. apply suffix_filter. }
  assert (Hratio : forall f lv a b, nth_error (prods_from (map (fun l => qprod (map snd (filter f l))) ls')) lv = Some a ->
    nth_error (prods_from (map (fun l => qprod (map snd (filter f l))) ls')) (S lv) = Some b ->
    exists l, nth_error ls' lv = Some l /\ a / b == iterations_of (filter f l)).
  { intros f lv a b Ha Hb. destruct (Hget f _ _ Ha) as (Hlt & Ea & _). destruct (Hget f _ _ Hb) as (_ & Eb & Hb0).
    destruct (skipn_nth_cons ls' lv Hlt) as (l & El & Es). exists l. split; [exact El|].
    rewrite Es in Ea. cbn [concat] in Ea. rewrite filter_app in Ea.
    assert (Ea' : a == iterations_of (filter f l) * b).
    { rewrite Ea, Eb. unfold iterations_of. now rewrite map_app, qprod_app. }
    rewrite Ea'. field. exact Hb0. }
  unfold counts_ok. cbn [unit_count unit_unique unit_duplicate data_serve_scope mem_bw_boost].
  split; [|split; [|split; [|split; [|split]]]].
  - intros lv n Hn. rewrite nth_error_map in Hn.
    destruct (nth_error (prods_from (unroll_size_total ls')) lv) as [q|] eqn:Eq; [|discriminate].
    cbn [option_map] in Hn. injection Hn as <-. apply py_round3_comp.
    assert (Hlt : (lv < length (unroll_size_total ls'))%nat).
    { assert (nth_error (prods_from (unroll_size_total ls')) lv <> None) by congruence.
      apply nth_error_Some in H. now rewrite prods_length in H. }
    rewrite prods_nth in Eq by exact Hlt. injection Eq as <-. apply suffix_total.
  - intros lv q Hq. now apply (Hget (fun x => memb (fst x) rd)).
  - intros lv q Hq. now apply (Hget (fun x => negb (memb (fst x) rd))).
  - intros lv q Hq. destruct (N1 lv q Hq) as (a & b & Ha & Hb & ->).
    exact (Hratio (fun x => negb (memb (fst x) rd)) lv a b Ha Hb).
  - intros lv n Hn. rewrite nth_error_map in Hn. destruct (nth_error bo lv) as [q|] eqn:Eq; [|discriminate].
    cbn [option_map] in Hn. injection Hn as <-. destruct (N2 lv q Eq) as (a & b & Ha & Hb & ->).
    destruct (Hratio (fun x => memb (fst x) rd) lv a b Ha Hb) as (l & El & E). exists l. split; [exact El|].
    now apply py_round_comp.
  - unfold unroll_size_r, unroll_size_ir, unroll_size_total in *.
    rewrite !map_length, !prods_length, L1, L2, !prods_length, !map_length. now repeat split.
Qed.

(** distinct data *)
Lemma filter_memb_prod (L : list qloop) ds : NoDup ds ->
  qprod (map snd (filter (fun x => memb (fst x) ds) L)) == qprod (map (extent L) ds).
Proof.
  induction ds as [|d ds IH]; intros Hnd.
  - cbn [map]. replace (filter (fun x : qloop => memb (fst x) []) L) with (@nil qloop); [reflexivity|].
    clear. induction L as [|x L IH]; [reflexivity|exact IH].
  - inversion Hnd as [|? ? Hni Hnd']; subst. cbn [map]. rewrite qprod_cons, <- IH by assumption.
    clear IH Hnd Hnd'. unfold extent. induction L as [|x L IHL]; [reflexivity|].
    cbn [filter]. replace (memb (fst x) (d :: ds)) with (eqb (fst x) d || memb (fst x) ds)%bool by reflexivity.
    destruct (eqb_spec (fst x) d) as [E|Hne]; cbn [orb].
    + replace (memb (fst x) ds) with false; [|symmetry; apply memb_not_In; now rewrite E].
      cbn [map]. rewrite !qprod_cons, IHL. ring.
    + destruct (memb (fst x) ds); cbn [map]; rewrite ?qprod_cons, IHL; ring.
Qed.

Lemma dec_extent_other ly before l o d : decoupled ly before l o ->
  (forall p x, In x l -> runs_over ly p x -> fst x <> d) ->
  (forall p, In p (keys (l_pr_loop ly)) -> d <> (p ++ "_R")%string /\ d <> (p ++ "_IR")%string) ->
  extent o d == extent l d.
Proof.
  intros Hd Hr Ht. induction Hd as [|before x l out Hno Hd IH|before x p a b l out Hrun _ _ Hd IH]; [reflexivity|..].
  - rewrite !extent_cons, IH; [reflexivity|]. intros p y Hy. apply Hr. now right.
  - rewrite !extent_cons, IH by (intros q y Hy; apply Hr; now right). cbn [fst snd].
    assert (Hp : In p (keys (l_pr_loop ly))).
    { destruct Hrun as (da & db & Hi & _). apply (in_map fst) in Hi. exact Hi. }
    destruct (Ht p Hp) as [T1 T2].
    rewrite (eqb_neq (p ++ "_R")%string d) by congruence. rewrite (eqb_neq (p ++ "_IR")%string d) by congruence.
    rewrite (eqb_neq (fst x) d) by (apply (Hr p); [now left|exact Hrun]). ring.
Qed.
Lemma decs_extent_other ly before ls os d : decoupled_levels ly before ls os ->
  (forall p x, In x (concat ls) -> runs_over ly p x -> fst x <> d) ->
  (forall p, In p (keys (l_pr_loop ly)) -> d <> (p ++ "_R")%string /\ d <> (p ++ "_IR")%string) ->
  extent (concat os) d == extent (concat ls) d.
Proof.
  intros Hd Hr Ht. induction Hd as [|before l ls o os Hd1 Hd2 IH]; [reflexivity|].
  cbn [concat] in *. rewrite !extent_app'. rewrite IH by (intros p x Hx; apply Hr, in_or_app; now right).
  rewrite (dec_extent_other ly before l o d Hd1); [reflexivity| |exact Ht].
  intros p x Hx. apply Hr, in_or_app. now left.
Qed.

Lemma elements_plain ly L d : ~ In d (keys (l_pr_loop ly)) -> elements_along ly L d == extent L d.
Proof.
  intros H. unfold elements_along. destruct (existsb (fun l => eqb (fst l) d) L) eqn:E; [reflexivity|].
  assert (Hg : dget d (l_pr_loop ly) = None).
  { destruct (dget d (l_pr_loop ly)) eqn:Eg; [|reflexivity]. apply dget_Some_key in Eg. contradiction. }
  rewrite Hg. unfold extent. replace (filter (fun l => eqb (fst l) d) L) with (@nil qloop); [reflexivity|].
  symmetry. induction L as [|x L IH]; [reflexivity|]. cbn [existsb filter] in *.
  apply orb_false_iff in E as [E1 E2]. rewrite E1. now apply IH.
Qed.

Theorem unique_elements ly rir r op ls ls' pr_ops : derived_ok ly -> NoDup r ->
  (forall d, In d r -> ~ In d (keys (l_pr_loop ly)) /\
     (forall p, In p (keys (l_pr_loop ly)) -> d <> (p ++ "_R")%string /\ d <> (p ++ "_IR")%string)) ->
  (In op pr_ops -> forall d x p, In d r -> runs_over ly p x -> fst x <> d) ->
  dget op (l_r_or_pr ly) = Some (r ++ (if in_dec string_dec op pr_ops then keys (l_pr_loop ly) else [])) ->
  (In op pr_ops -> operand_ok ly rir (concat ls)) -> no_tags ly (concat ls) ->
  decoupled_for ly pr_ops op ls ls' ->
  iterations_of (data_loops ly r (concat ls')) == tile_elements ly op (concat ls).
Proof.
  intros Hly Hnd Hr Hrel Ho HL Htag Hd. unfold data_loops, iterations_of.
  change (fun p => (p ++ "_R")%string) with r_version.
  assert (Hnd2 : NoDup (r ++ map r_version (keys (l_pr_loop ly)))).
  { apply NoDup_app_intro; [exact Hnd| |].
    - apply FinFun.Injective_map_NoDup; [|apply Hly]. intros a b. apply app_tail_inj.
    - intros d Hin Hi. apply in_map_iff in Hi as (p & E & Hp). destruct (Hr d Hin) as [_ Ht].
      destruct (Ht p Hp) as [T _]. apply T. now symmetry. }
  rewrite filter_memb_prod by exact Hnd2. unfold tile_elements. rewrite Ho. rewrite !map_app, !qprod_app.
  assert (P : forall (f g : string -> Q) ds, (forall d, In d ds -> f d == g d) -> qprod (map f ds) == qprod (map g ds)).
  { intros f g ds. induction ds as [|d ds IH]; intros H; [reflexivity|]. cbn [map]. rewrite !qprod_cons, (H d) by now left.
    rewrite IH; [reflexivity|]. intros; apply H; now right. }
  destruct Hd as [[Hin Hd]|[Hni ->]].
  - destruct (in_dec string_dec op pr_ops) as [_|]; [|contradiction]. apply Qmult_comp.
    + apply P. intros d Hdr. destruct (Hr d Hdr) as [Hk Ht].
      rewrite (decs_extent_other ly [] ls ls' d Hd); [|intros p x _ Hx; now apply (Hrel Hin d x p)|exact Ht].
      symmetry. now apply elements_plain.
    + rewrite map_map. apply P. intros p Hp.
      destruct (decoupled_totals ly Hly rir ls ls' (HL Hin) Htag Hd) as (_ & _ & T).
      specialize (T p (length ls) Hp). rewrite firstn_all in T.
      rewrite <- (decs_length ly [] ls ls' Hd) in T. rewrite firstn_all in T. exact T.
  - destruct (in_dec string_dec op pr_ops) as [|_]; [contradiction|]. cbn [map]. apply Qmult_comp.
    + apply P. intros d Hdr. symmetry. apply elements_plain. now apply Hr.
    + rewrite map_map. transitivity (qprod (map (fun _ : string => 1) (keys (l_pr_loop ly)))).
      * apply P. intros p Hp. unfold extent.
        replace (filter _ (concat ls)) with (@nil qloop); [reflexivity|]. symmetry.
        assert (Ht : forall x, In x (concat ls) -> fst x <> r_version p) by (intros x Hx; now apply (Htag x p)).
        revert Ht. generalize (concat ls). clear. intros L Ht. induction L as [|x L IH]; [reflexivity|]. cbn [filter].
        rewrite eqb_neq by (apply Ht; now left). apply IH. intros; apply Ht; now right.
      * generalize (keys (l_pr_loop ly)). intros ks. induction ks as [|k ks IH]; [reflexivity|]. cbn [map].
        rewrite qprod_cons, IH. reflexivity.
Qed.

(** * The constructor *)

Lemma dec_nonzero ly before l o : decoupled ly before l o -> (forall x, In x l -> ~ snd x == 0) ->
  forall x, In x o -> ~ snd x == 0.
Proof.
  induction 1 as [|before x l out Hno Hd IH|before x p a b l out Hrun _ Hb Hd IH]; intros Hl y Hy; [destruct Hy|..].
  - destruct Hy as [<-|Hy]; [apply Hl; now left|]. apply IH; [intros; apply Hl; now right|exact Hy].
  - assert (Hx := Hl x (or_introl eq_refl)). rewrite <- Hb in Hx.
    destruct Hy as [<-|[<-|Hy]]; cbn [snd].
    + intros E. apply Hx. rewrite E. ring.
    + intros E. apply Hx. rewrite E. ring.
    + apply IH; [intros; apply Hl; now right|exact Hy].
Qed.
Lemma decs_nonzero ly before ls os : decoupled_levels ly before ls os -> (forall x, In x (concat ls) -> ~ snd x == 0) ->
  forall x, In x (concat os) -> ~ snd x == 0.
Proof.
  induction 1 as [|before l ls o os Hd1 Hd2 IH]; intros Hl y Hy; [destruct Hy|]. cbn [concat] in *.
  apply in_app_or in Hy as [Hy|Hy].
  - apply (dec_nonzero ly before l o Hd1); [|exact Hy]. intros; apply Hl, in_or_app; now left.
  - apply IH; [|exact Hy]. intros; apply Hl, in_or_app; now right.
Qed.
Lemma decs_unrolled ly before ls os : decoupled_levels ly before ls os -> forall lv,
  unrolled_from lv os == unrolled_from lv ls.
Proof.
  induction 1 as [|before l ls o os Hd1 Hd2 IH]; intros lv; [reflexivity|].
  destruct lv as [|lv]; [|apply IH]. unfold unrolled_from. cbn [skipn].
  exact (proj2 (decs_iterations ly before (l :: ls) (o :: os) ltac:(constructor; eassumption))).
Qed.

Section Build.
  Variable ly : layer.
  Variables (r_dims ir_dims : dict string (list string)) (pr_ops layer_operands : list string).
  Variable mapping : dict string (list (list qloop)).
  Hypothesis Hin : spatial_inputs ly r_dims ir_dims pr_ops layer_operands mapping.

  Lemma rir_get op r : dget op r_dims = Some r ->
    dget op (rir_dims r_dims ir_dims) = Some (r ++ match dget op ir_dims with Some l => l | None => [] end).
  Proof.
    clear Hin. unfold rir_dims. induction r_dims as [|[k v] d IH]; cbn [dget map fst snd]; [discriminate|].
    destruct (eqb_spec op k) as [->|]; [now intros [= ->]|exact IH].
  Qed.

  Lemma reform_ok : exists reform, decouple_pr_loop ly (rir_dims r_dims ir_dims) pr_ops mapping = Ok reform /\
    forall op ls, dget op mapping = Some ls -> exists ls', dget op reform = Some ls' /\ decoupled_for ly pr_ops op ls ls'.
  Proof.
    destruct Hin as (Hly & Hsub & Hops).
    destruct (decouple_ok ly Hly (rir_dims r_dims ir_dims) pr_ops mapping) as (out & E & _ & H1 & H2).
    - intros op Hop. destruct (Hops op (Hsub op Hop)) as (ls & r & Em & _ & Er & _ & Hok).
      eexists _, ls. split; [apply rir_get; exact Er|]. split; [exact Em|]. now apply Hok.
    - exists out. split; [exact E|]. intros op ls Hg.
      destruct (in_dec string_dec op pr_ops) as [Hi|Hn].
      + destruct (H2 op ls Hg Hi) as (ls' & Eg & Hd). exists ls'. split; [exact Eg|]. left. now split.
      + exists ls. split; [now apply H1|]. right. now split.
  Qed.

  Lemma build_shape : exists rows, map fst rows = layer_operands /\
    (forall op rd ls', In (op, (rd, ls')) rows -> exists ls r, dget op mapping = Some ls /\ dget op r_dims = Some r /\
       rd = r ++ map r_version (keys (l_pr_loop ly)) /\ decoupled_for ly pr_ops op ls ls' /\
       ls' <> [] /\ (forall x, In x (concat ls') -> ~ snd x == 0) /\ length ls' = length ls /\
       forall lv, unrolled_from lv ls' == unrolled_from lv ls) /\
    exists cs, rmap (fun x => c <- counts_of (fst (snd x)) (snd (snd x)) ;; Ok (fst x, c)) rows = Ok cs /\
      Forall2 (fun row kc => fst kc = fst row /\ forall r, fst (snd row) = r ++ map r_version (keys (l_pr_loop ly)) ->
        counts_ok ly r (snd (snd row)) (snd kc)) rows cs /\
    build_spatial ly r_dims ir_dims pr_ops layer_operands mapping =
      let bottom := map (fun x => py_round (py_round3 (unrolled_from 0 (snd (snd x))))) rows in
      match bottom with
      | b0 :: _ => if forallb (fun b => b =? b0)%Z bottom then Ok cs else Err AssertionError
      | [] => Ok cs
      end.
  Proof.
    destruct reform_ok as (reform & Er & Hre). unfold build_spatial. rewrite Er. cbn [rbind].
    destruct Hin as (Hly & Hsub & Hops). clear Er Hin Hsub.
    assert (Hrows : exists rows, rmap (fun op => ls <- dgetr op reform ;; rd <- decoupled_r_dims ly r_dims op ;; Ok (op, (rd, ls))) layer_operands = Ok rows /\
      map fst rows = layer_operands /\
      (forall op rd ls', In (op, (rd, ls')) rows -> exists ls r, dget op mapping = Some ls /\ dget op r_dims = Some r /\
       rd = r ++ map r_version (keys (l_pr_loop ly)) /\ decoupled_for ly pr_ops op ls ls' /\
       ls' <> [] /\ (forall x, In x (concat ls') -> ~ snd x == 0) /\ length ls' = length ls /\
       forall lv, unrolled_from lv ls' == unrolled_from lv ls)).
    { induction layer_operands as [|op ops IH].
      - exists []. split; [reflexivity|]. split; [reflexivity|]. intros ? ? ? [].
      - destruct IH as (rows & E & Ek & Hr); [intros; apply Hops; now right|].
        destruct (Hops op (or_introl eq_refl)) as (ls & r & Em & Hne & Erd & Hsz & Hok).
        destruct (Hre op ls Em) as (ls' & El & Hd). cbn [rmap]. unfold dgetr at 1. rewrite El. cbn [of_option rbind].
        unfold decoupled_r_dims at 1, dgetr at 1. rewrite Erd. cbn [of_option rbind]. rewrite E. cbn [rbind].
        eexists. split; [reflexivity|]. split; [cbn [map fst]; now f_equal|].
        intros op0 rd0 ls0 [[= <- <- <-]|Hi]; [|now apply Hr].
        exists ls, r. split; [exact Em|]. split; [exact Erd|]. split; [reflexivity|]. split; [exact Hd|].
        assert (Hnz : forall x, In x (concat ls) -> ~ snd x == 0) by (intros x Hx E0; specialize (Hsz x Hx); lra).
        destruct Hd as [[Hi Hd]|[Hn ->]].
        + assert (Hl := decs_length ly [] ls ls' Hd). split; [intros ->; now destruct ls|].
          split; [now apply (decs_nonzero ly [] ls)|]. split; [exact Hl|]. now apply (decs_unrolled ly []).
        + split; [exact Hne|]. split; [exact Hnz|]. split; [reflexivity|]. intros; reflexivity. }
    destruct Hrows as (rows & Erows & Ek & Hr). rewrite Erows. cbn [rbind].
    exists rows. split; [exact Ek|]. split; [exact Hr|].
    assert (Hbot : rmap (fun x => of_option IndexError
                 (nth_error (map (fun q => py_round (py_round3 q))
                               (prods_from (unroll_size_total (snd (snd x))))) 0)) rows
       = Ok (map (fun x => py_round (py_round3 (unrolled_from 0 (snd (snd x))))) rows)).
    { clear Erows Ek. induction rows as [|[op [rd ls']] rows IH]; [reflexivity|]. cbn [rmap map snd].
      destruct (Hr op rd ls' (or_introl eq_refl)) as (ls & r & _ & _ & _ & _ & Hne & _).
      rewrite nth_error_map, prods_nth by (unfold unroll_size_total; rewrite map_length; destruct ls'; [easy|cbn; lia]).
      cbn [option_map of_option rbind]. rewrite IH by (intros; eapply Hr; right; eassumption). cbn [rbind].
      do 2 f_equal. apply py_round3_comp. apply suffix_total. }
    rewrite Hbot. cbn [rbind].
    assert (Hcs : exists cs, rmap (fun x => c <- counts_of (fst (snd x)) (snd (snd x)) ;; Ok (fst x, c)) rows = Ok cs /\
      Forall2 (fun row kc => fst kc = fst row /\ forall r, fst (snd row) = r ++ map r_version (keys (l_pr_loop ly)) ->
        counts_ok ly r (snd (snd row)) (snd kc)) rows cs).
    { clear Erows Ek Hbot. induction rows as [|[op [rd ls']] rows IH]; [exists []; split; [reflexivity|constructor]|].
      destruct IH as (cs & E & F); [intros; eapply Hr; right; eassumption|].
      destruct (Hr op rd ls' (or_introl eq_refl)) as (ls & r & _ & _ & -> & _ & _ & Hnz & _).
      destruct (counts_of_ok ly r ls' Hnz) as (c & Ec & Hc). cbn [rmap fst snd]. rewrite Ec. cbn [rbind]. rewrite E. cbn [rbind].
      eexists. split; [reflexivity|]. constructor; [|exact F]. cbn [fst snd]. split; [reflexivity|].
      intros r0 E0. apply app_inv_tail in E0. now subst r0. }
    destruct Hcs as (cs & Ecs & F). exists cs. split; [exact Ecs|]. split; [exact F|].
    cbv zeta. destruct (map (fun x => py_round (py_round3 (unrolled_from 0 (snd (snd x))))) rows) as [|b0 bs]; cbn [rbind]; [exact Ecs|].
    destruct (forallb (fun b => b =? b0)%Z (b0 :: bs)); cbn [rbind]; [exact Ecs|reflexivity].
  Qed.

  Lemma counts_right op r ls ls' c : dget op r_dims = Some r -> decoupled_for ly pr_ops op ls ls' ->
    length ls' = length ls -> (forall lv, unrolled_from lv ls' == unrolled_from lv ls) ->
    counts_ok ly r ls' c -> right_counts ly r ls ls' c.
  Proof.
    intros Er Hd Hl Hu (C1 & C2 & C3 & C4 & C5 & L1 & L2 & L3 & L4 & L5).
    split.
    - rewrite <- Hl. now repeat split.
    - intros lv n Hn. apply C1 in Hn. subst n. split.
      + exists (py_round (unrolled_from lv ls' * 1000)). split; [|apply py_round_nearest].
        destruct (py_round_nearest (unrolled_from lv ls' * 1000)) as [H1 H2]. split.
        * rewrite <- Hu. exact H1.
        * rewrite <- Hu. exact H2.
      + intros m Hm. apply py_round3_Z. now rewrite Hu.
    - intros lv u d Hu' Hd'. apply C2 in Hu'. apply C3 in Hd'. rewrite Hu', Hd', <- Hu.
      apply qprod_filter_split.
    - exact C2.
    - exact C3.
    - intros lv q Hq. destruct (C4 lv q Hq) as (l & E & H). exists l. split; [exact E|]. split; [exact H|].
      intros a b Ha Hb. apply C3 in Ha, Hb. 
      assert (Hlt : (lv < length ls')%nat) by (apply nth_error_Some; congruence).
      destruct (skipn_nth_cons ls' lv Hlt) as (l0 & El & Es). assert (l0 = l) by congruence. subst l0.
      rewrite Ha, Hb, H, Es. cbn [concat]. unfold copy_loops, iterations_of. now rewrite filter_app, map_app, qprod_app.
    - intros lv n Hn. destruct (C5 lv n Hn) as (l & E & ->). exists l. split; [exact E|]. split; [apply py_round_nearest|].
      intros a b Ha Hb. apply C2 in Ha, Hb.
      assert (Hlt : (lv < length ls')%nat) by (apply nth_error_Some; congruence).
      destruct (skipn_nth_cons ls' lv Hlt) as (l0 & El & Es). assert (l0 = l) by congruence. subst l0.
      rewrite Ha, Hb, Es. cbn [concat]. unfold data_loops, iterations_of. now rewrite filter_app, map_app, qprod_app.
  Qed.

  Theorem build_spatial_sound cs : build_spatial ly r_dims ir_dims pr_ops layer_operands mapping = Ok cs ->
    Forall2 (fun op kc => fst kc = op /\ exists ls ls' r, dget op mapping = Some ls /\ dget op r_dims = Some r /\
      decoupled_for ly pr_ops op ls ls' /\ right_counts ly r ls ls' (snd kc)) layer_operands cs.
  Proof.
    destruct build_shape as (rows & Ek & Hr & cs' & _ & F & E). rewrite E. cbv zeta. intros H.
    assert (cs' = cs). { clear E. destruct (map (fun x => py_round _) rows) as [|b bs]; [now injection H|]. destruct (forallb _ _); [now injection H|discriminate H]. }
    subst cs'. rewrite <- Ek. clear E H Ek. induction F as [|[op [rd ls']] kc rows cs (E1 & E2) F IH]; [constructor|].
    cbn [map fst snd] in *. constructor; [|apply IH; intros; eapply Hr; right; eassumption].
    split; [exact E1|]. destruct (Hr op rd ls' (or_introl eq_refl)) as (ls & r & Em & Er & -> & Hd & _ & _ & Hl & Hu).
    exists ls, ls', r. split; [exact Em|]. split; [exact Er|]. split; [exact Hd|].
    apply (counts_right op); try assumption. now apply E2.
  Qed.

  Theorem build_spatial_accepts :
    (forall op op' ls ls', In op layer_operands -> In op' layer_operands ->
       dget op mapping = Some ls -> dget op' mapping = Some ls' -> unrolled_from 0 ls == unrolled_from 0 ls') ->
    exists cs, build_spatial ly r_dims ir_dims pr_ops layer_operands mapping = Ok cs.
  Proof.
    intros Heq. destruct build_shape as (rows & Ek & Hr & cs & _ & _ & E). exists cs. rewrite E. cbv zeta.
    assert (Hall : forall x y, In x rows -> In y rows ->
      py_round (py_round3 (unrolled_from 0 (snd (snd x)))) = py_round (py_round3 (unrolled_from 0 (snd (snd y))))).
    { intros [o1 [r1 l1]] [o2 [r2 l2]] H1 H2. cbn [snd]. apply py_round3_comp.
      destruct (Hr _ _ _ H1) as (ls1 & ? & E1 & _ & _ & _ & _ & _ & _ & U1).
      destruct (Hr _ _ _ H2) as (ls2 & ? & E2 & _ & _ & _ & _ & _ & _ & U2).
      rewrite U1, U2. apply (Heq o1 o2); try assumption; rewrite <- Ek.
      - apply (in_map fst) in H1. exact H1.
      - apply (in_map fst) in H2. exact H2. }
    destruct rows as [|x rows]; [reflexivity|]. cbn [map].
    replace (forallb _ _) with true; [reflexivity|]. symmetry. apply forallb_forall. intros b Hb. apply Z.eqb_eq.
    destruct Hb as [<-|Hb]; [reflexivity|]. apply in_map_iff in Hb as (y & <- & Hy).
    apply Hall; [now right|now left].
  Qed.

  Theorem build_spatial_rejects op op' ls ls' n m : In op layer_operands -> In op' layer_operands ->
    dget op mapping = Some ls -> dget op' mapping = Some ls' ->
    unrolled_from 0 ls == inject_Z n -> unrolled_from 0 ls' == inject_Z m -> n <> m ->
    build_spatial ly r_dims ir_dims pr_ops layer_operands mapping = Err AssertionError.
  Proof.
    intros H1 H2 E1 E2 U1 U2 Hne. destruct build_shape as (rows & Ek & Hr & cs & _ & _ & E). rewrite E. cbv zeta.
    assert (Hb : forall o l k, In o layer_operands -> dget o mapping = Some l -> unrolled_from 0 l == inject_Z k ->
      In k (map (fun x => py_round (py_round3 (unrolled_from 0 (snd (snd x))))) rows)).
    { intros o l k Ho El Uk. rewrite <- Ek in Ho. apply in_map_iff in Ho as ([o' [rd l']] & Eo & Hi). cbn in Eo. subst o'.
      destruct (Hr _ _ _ Hi) as (l0 & ? & E0 & _ & _ & _ & _ & _ & _ & U). assert (l0 = l) by congruence. subst l0.
      apply in_map_iff. exists (o, (rd, l')). split; [|exact Hi]. cbn [snd]. apply py_round3_Z. now rewrite U. }
    assert (B1 := Hb op ls n H1 E1 U1). assert (B2 := Hb op' ls' m H2 E2 U2).
    clear E. destruct (map (fun x => py_round _) rows) as [|b bs]; [destruct B1|].
    destruct (forallb _ _) eqn:Ef; [|reflexivity]. exfalso. rewrite forallb_forall in Ef.
    apply Ef in B1, B2. apply Z.eqb_eq in B1, B2. congruence.
  Qed.
End Build.
