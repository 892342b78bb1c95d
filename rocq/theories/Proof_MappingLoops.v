(** Combined and decoupled levels of an operand: products of relevant and irrelevant
    loops in terms of tiles. *)
From Coq Require Import QArith Lqa Permutation.
From Verif Require Import Base Model_Alloc Model_Temporal Model_Decouple Model_SpatialInt Model_DataMove
  Model_Mapping Spec_Alloc Spec_Decouple Spec_SpatialInt Spec_Mapping
  Proof_AllocSearch Proof_AllocTile Proof_AllocRun Proof_Decouple Proof_DecoupleTotals Proof_SpatialInt Proof_Alloc.
Local Open Scope Q_scope.

(** * combining *)

Lemma combine_levels_ok su : forall seed, length seed = S (length su) ->
  exists one two, combine_levels su seed = Ok (one, two) /\ length one = length su /\ length two = length su /\
    forall i s, nth_error su i = Some s -> exists cur above,
      nth_error seed i = Some cur /\ nth_error seed (S i) = Some above /\
      nth_error one i = Some (cur ++ s)%list /\ nth_error two i = Some (above ++ s)%list.
Proof.
  induction su as [|s su IH]; intros seed Hl.
  - exists [], []. repeat split. intros [|i] x; discriminate.
  - destruct seed as [|cur [|above seed]]; cbn in Hl; try lia.
    destruct (IH (above :: seed)) as (one & two & E & L1 & L2 & H); [cbn; lia|].
    exists ((cur ++ s)%list :: one), ((above ++ s)%list :: two). cbn [combine_levels]. rewrite E. cbn.
    rewrite L1, L2. repeat split. intros [|i] x Hx.
    + injection Hx as ->. exists cur, above. repeat split.
    + apply H in Hx. exact Hx.
Qed.

Lemma q_levels_length tm : length (q_levels tm) = length tm.
Proof. unfold q_levels. now rewrite map_length. Qed.

Lemma seed_nth (tm : qlevels) i : nth_error ([[]] ++ tm ++ [[]])%list (S i) =
  if (i <? length tm)%nat then nth_error tm i else if (i =? length tm)%nat then Some [] else None.
Proof.
  cbn [app nth_error]. destruct (Nat.ltb_spec i (length tm)).
  - now rewrite nth_error_app1.
  - rewrite nth_error_app2 by lia. destruct (Nat.eqb_spec i (length tm)) as [->|Hn].
    + now rewrite Nat.sub_diag.
    + apply nth_error_None. cbn. lia.
Qed.

Lemma Permutation_swap3 {A} (a b c d : list A) : Permutation ((a ++ b) ++ (c ++ d)) ((a ++ c) ++ (b ++ d)).
Proof.
  rewrite <- !app_assoc. apply Permutation_app_head. rewrite !app_assoc. apply Permutation_app_tail, Permutation_app_comm.
Qed.

Lemma firstn_S_none {A} (l : list A) n : nth_error l n = None -> firstn (S n) l = firstn n l.
Proof. intros H. apply nth_error_None in H. rewrite !firstn_all2; [reflexivity|lia|lia]. Qed.

Lemma combined_ok su tm : length su = S (length tm) ->
  exists one two, combined su tm = Ok (one, two) /\ length one = length su /\ length two = S (length su) /\
    (forall i, (i < length su)%nat -> Permutation (concat (firstn (S i) one)) (within su tm i (S i))) /\
    (forall i, (i <= length su)%nat -> Permutation (concat (firstn (S i) two)) (within su tm i i)).
Proof.
  intros Hl. unfold combined.
  destruct (combine_levels_ok su ([[]] ++ q_levels tm ++ [[]])) as (one & two & E & L1 & L2 & H).
  { rewrite !app_length, q_levels_length. cbn. lia. }
  rewrite E. cbn [fst snd]. exists one, ([] :: two). split; [reflexivity|]. split; [exact L1|]. split; [cbn; lia|].
  assert (Hs : forall i, (i < length su)%nat -> exists s, nth_error su i = Some s).
  { intros i Hi. destruct (nth_error su i) eqn:En; [eauto|]. apply nth_error_None in En. lia. }
  split.
  - induction i as [|i IH]; intros Hi.
    + destruct (Hs 0%nat Hi) as (s & En). destruct (H _ _ En) as (cur & above & E1 & _ & E3 & _).
      cbn in E1. injection E1 as <-. rewrite (firstn_S_nth _ _ _ E3). unfold within.
      rewrite (firstn_S_nth _ _ _ En). cbn. reflexivity.
    + destruct (Hs (S i) Hi) as (s & En). destruct (H _ _ En) as (cur & above & E1 & _ & E3 & _).
      rewrite (firstn_S_nth _ _ _ E3), concat_app. rewrite IH by lia. cbn [concat]. rewrite app_nil_r.
      unfold within. rewrite (firstn_S_nth _ _ _ En). fold (q_levels tm).
      rewrite seed_nth in E1. destruct (Nat.ltb_spec i (length (q_levels tm))) as [Hlt|Hge];
        [|rewrite q_levels_length in Hge; lia].
      rewrite (firstn_S_nth _ _ _ E1), !concat_app. cbn [concat]. rewrite !app_nil_r. apply Permutation_swap3.
  - induction i as [|i IH]; intros Hi; [reflexivity|].
    destruct (Hs i ltac:(lia)) as (s & En). destruct (H _ _ En) as (cur & above & _ & E2 & _ & E4).
    assert (E4' : nth_error ([] :: two) (S i) = Some (above ++ s)%list) by exact E4.
    rewrite (firstn_S_nth _ _ _ E4'), concat_app. rewrite IH by lia. cbn [concat]. rewrite app_nil_r.
    unfold within. rewrite (firstn_S_nth _ _ _ En). fold (q_levels tm).
    rewrite seed_nth in E2. destruct (Nat.ltb_spec i (length (q_levels tm))) as [Hlt|Hge].
    + rewrite (firstn_S_nth _ _ _ E2), !concat_app. cbn [concat]. rewrite !app_nil_r. apply Permutation_swap3.
    + assert (above = []) as ->.
      { destruct (Nat.eqb i (length (q_levels tm))); [now injection E2 as <-|discriminate]. }
      rewrite firstn_S_none by (apply nth_error_None; lia). rewrite concat_app. cbn [concat]. rewrite app_nil_r.
      cbn [app]. now rewrite app_assoc.
Qed.

Lemma within_in_nest su tm i j x : In x (within su tm i j) -> In x (whole_nest su tm).
Proof.
  unfold whole_nest, within. rewrite !in_app_iff, !in_concat.
  assert (F : forall {A} (l : list A) n y, In y (firstn n l) -> In y l).
  { intros A l n y Hy. rewrite <- (firstn_skipn n l). apply in_or_app. now left. }
  rewrite !firstn_all, <- (map_length (map (fun y : string * Z => (fst y, inject_Z (snd y)))) tm), firstn_all.
  intros [(l & Hl & Hx)|(l & Hl & Hx)]; [left|right]; exists l; split; try exact Hx; eapply F; exact Hl.
Qed.

(** * decoupled prefixes *)

Lemma decs_firstn ly ls os before k : decoupled_levels ly before ls os ->
  decoupled_levels ly before (firstn k ls) (firstn k os).
Proof.
  intros H. revert k. induction H as [|before l ls o os Hd _ IH]; intros [|k]; cbn [firstn]; try constructor; auto.
Qed.
Lemma for_firstn ly pr_ops op ls ls' k : decoupled_for ly pr_ops op ls ls' ->
  decoupled_for ly pr_ops op (firstn k ls) (firstn k ls').
Proof. intros [[H Hd]|[H ->]]; [left|right]; split; auto. now apply decs_firstn. Qed.

Lemma dec_members ly before l o : decoupled ly before l o -> forall y, In y o ->
  (In y l /\ forall p, ~ runs_over ly p y) \/
  (exists p, In p (keys (l_pr_loop ly)) /\ (fst y = r_version p \/ fst y = ir_version p)).
Proof.
  induction 1 as [|before x l out Hno Hd IH|before x p a b l out Hrun _ _ Hd IH]; intros y Hy; [destruct Hy|..].
  - destruct Hy as [<-|Hy]; [left; split; [now left|exact Hno]|].
    destruct (IH y Hy) as [[Hi Hn]|Hp]; [left; split; [now right|exact Hn]|now right].
  - assert (Hp : In p (keys (l_pr_loop ly))).
    { destruct Hrun as (da & db & Hi & _). now apply (in_map fst) in Hi. }
    destruct Hy as [<-|[<-|Hy]].
    + right. exists p. split; [exact Hp|now left].
    + right. exists p. split; [exact Hp|now right].
    + destruct (IH y Hy) as [[Hi Hn]|Hq]; [left; split; [now right|exact Hn]|now right].
Qed.
Lemma decs_members ly before ls os : decoupled_levels ly before ls os -> forall y, In y (concat os) ->
  (In y (concat ls) /\ forall p, ~ runs_over ly p y) \/
  (exists p, In p (keys (l_pr_loop ly)) /\ (fst y = r_version p \/ fst y = ir_version p)).
Proof.
  induction 1 as [|before l ls o os Hd _ IH]; intros y Hy; [destruct Hy|]. cbn [concat] in *.
  apply in_app_or in Hy as [Hy|Hy].
  - destruct (dec_members _ _ _ _ Hd y Hy) as [[Hi Hn]|Hp]; [left; split; [apply in_or_app; now left|exact Hn]|now right].
  - destruct (IH y Hy) as [[Hi Hn]|Hp]; [left; split; [apply in_or_app; now right|exact Hn]|now right].
Qed.

Lemma two_filters (f g : qloop -> bool) l :
  (forall x, In x l -> (f x = true /\ g x = false) \/ (f x = false /\ g x = true) \/
     (f x = false /\ g x = false /\ snd x == 1)) ->
  iterations_of (filter f l) * iterations_of (filter g l) == iterations_of l.
Proof.
  unfold iterations_of. induction l as [|x l IH]; intros H; [reflexivity|]. cbn [filter map]. rewrite qprod_cons.
  rewrite <- IH by (intros y Hy; apply H; now right).
  destruct (H x (or_introl eq_refl)) as [[-> ->]|[[-> ->]|(-> & -> & E)]]; cbn [map]; rewrite ?qprod_cons; try ring.
  rewrite E. ring.
Qed.

Lemma cabl_length s : length (cabl s) = length s.
Proof. unfold cabl. now rewrite map_length, seq_length. Qed.
Lemma cabl_nth s lv : (lv < length s)%nat -> nth_error (cabl s) lv = Some (qprod (firstn (S lv) s)).
Proof.
  intros H. unfold cabl.
  assert (E : nth_error (seq 0 (length s)) lv = Some lv)
    by (rewrite (nth_error_nth' _ 0%nat) by (now rewrite seq_length); now rewrite seq_nth).
  now rewrite (map_nth_error _ _ _ E).
Qed.
Lemma sizes_in_length dims ls : length (sizes_in dims ls) = length ls.
Proof. unfold sizes_in. now rewrite map_length. Qed.
Lemma prefix_filter dims (ls : qlevels) k :
  qprod (firstn k (sizes_in dims ls)) == iterations_of (filter (fun x => memb (fst x) dims) (concat (firstn k ls))).
Proof. unfold sizes_in. rewrite firstn_map, filter_concat, <- qprod_concat, map_map. reflexivity. Qed.
Lemma suffix_filter_in dims (ls : qlevels) k :
  qprod (skipn k (sizes_in dims ls)) == iterations_of (filter (fun x => memb (fst x) dims) (concat (skipn k ls))).
Proof. unfold sizes_in. rewrite skipn_map, filter_concat, <- qprod_concat, map_map. reflexivity. Qed.

Lemma iterations_perm l1 l2 : Permutation l1 l2 -> iterations_of l1 == iterations_of l2.
Proof. intros H. unfold iterations_of. apply qprod_perm, Permutation_map, H. Qed.
Lemma iterations_app l1 l2 : iterations_of (l1 ++ l2) == iterations_of l1 * iterations_of l2.
Proof. unfold iterations_of. now rewrite map_app, qprod_app. Qed.
Lemma iterations_ge_1 l : (forall x, In x l -> 1 <= snd x) -> 1 <= iterations_of l.
Proof. intros H. apply qprod_ge_1. intros q Hq. apply in_map_iff in Hq as (x & <- & Hx). auto. Qed.

(** * one operand *)
Section Operand.
  Variable ly : layer.
  Hypothesis Hly : derived_ok ly.
  Variables (r_dims ir_dims : dict string (list string)) (pr_ops : list string).
  Variables (op : string) (oi : opinput).
  Hypothesis Hgood : good_operand ly r_dims ir_dims pr_ops op oi.
  Let nest := whole_nest (oi_spatial oi) (oi_temporal oi).

  Lemma good_operand_ok r ir L : dget op r_dims = Some r -> dget op ir_dims = Some ir ->
    (forall x, In x L -> In x nest) -> In op pr_ops -> operand_ok ly (r ++ ir) L.
  Proof.
    intros Er Ei HL Hp x Hx. apply HL in Hx. destruct (go_sizes _ _ _ _ _ _ Hgood x Hx) as [Hs Hk].
    split; [exact Hs|split; [exact Hk|]]. intros p Hrun Hin.
    destruct (go_relevancy _ _ _ _ _ _ Hgood) as (r' & ir' & Er' & Ei' & _ & _ & _ & _ & Hno & _).
    rewrite Er in Er'. injection Er' as <-. rewrite Ei in Ei'. injection Ei' as <-.
    now apply (Hno Hp (fst x) x p).
  Qed.

  Lemma good_rir : NoDup (keys r_dims) -> forall r ir, dget op r_dims = Some r -> dget op ir_dims = Some ir ->
    dget op (rir_dims r_dims ir_dims) = Some (r ++ ir)%list.
  Proof.
    intros Hnd r ir Er Ei. apply In_dget.
    - unfold rir_dims, keys. rewrite map_map. exact Hnd.
    - unfold rir_dims. apply in_map_iff. exists (op, r). cbn [fst snd]. rewrite Ei. split; [reflexivity|now apply dget_In].
  Qed.

  (** relevant and irrelevant products of the levels inside *)
  Lemma prefix_products r ir rd ird ls ls' k :
    dget op r_dims = Some r -> dget op ir_dims = Some ir ->
    rd = (r ++ map r_version (keys (l_pr_loop ly)))%list -> ird = (ir ++ map ir_version (keys (l_pr_loop ly)))%list ->
    (forall x, In x (concat ls) -> In x nest) -> decoupled_for ly pr_ops op ls ls' ->
    let L := concat (firstn k ls) in
    let L' := concat (firstn k ls') in
    iterations_of (filter (fun x => memb (fst x) rd) L') == tile_elements ly op L /\
    iterations_of (filter (fun x => memb (fst x) ird) L') * tile_elements ly op L == iterations_of L /\
    (forall x, In x L' -> ~ snd x == 0).
  Proof.
    intros Er Ei -> -> HL Hd L L'. pose proof Hgood as G.
    destruct (go_relevancy _ _ _ _ _ _ G) as (r' & ir' & Er' & Ei' & Hnd & Hpr & Hdis & Htag & Hno & Hcls).
    rewrite Er in Er'. injection Er' as <-. rewrite Ei in Ei'. injection Ei' as <-.
    assert (HLk : forall x, In x L -> In x nest).
    { intros x Hx. apply HL. rewrite <- (firstn_skipn k ls), concat_app. apply in_or_app. now left. }
    apply (for_firstn _ _ _ _ _ k) in Hd.
    assert (HT : no_tags ly L).
    { intros x p Hx Hp. apply (go_tags _ _ _ _ _ _ G); [now apply HLk|exact Hp]. }
    assert (Hel : iterations_of (data_loops ly r L') == tile_elements ly op L).
    { apply (unique_elements ly (r ++ ir) r op (firstn k ls) (firstn k ls') pr_ops); auto.
      - intros d Hd0. apply Htag. apply in_or_app. now left.
      - intros Hp d x p Hd0 Hrun. apply (Hno Hp d x p); [apply in_or_app; now left|exact Hrun].
      - intros Hp. now apply good_operand_ok. }
    assert (Hnz : forall x, In x L -> ~ snd x == 0).
    { intros x Hx. destruct (go_sizes _ _ _ _ _ _ G x (HLk x Hx)) as [H _]. lra. }
    split; [exact Hel|]. split.
    - rewrite <- Hel. unfold data_loops. rewrite Qmult_comm.
      rewrite (two_filters (fun x => memb (fst x) (r ++ map (fun p => (p ++ "_R")%string) (keys (l_pr_loop ly))))
                 (fun x => memb (fst x) (ir ++ map ir_version (keys (l_pr_loop ly)))) L').
      + destruct Hd as [[_ Hd]|[_ E]].
        * now apply (decs_iterations ly [] _ _ Hd).
        * unfold L', L. now rewrite E.
      + intros x Hx.
        assert (Hcase : (In (fst x) r \/ In (fst x) ir \/
                  (snd x == 1 /\ (forall p, In p (keys (l_pr_loop ly)) -> fst x <> r_version p /\ fst x <> ir_version p))) \/
                (exists p, In p (keys (l_pr_loop ly)) /\ (fst x = r_version p \/ fst x = ir_version p))).
        { destruct Hd as [[Hp Hd]|[Hp E]].
          - destruct (decs_members _ _ _ _ Hd x Hx) as [[Hi Hn]|Hq]; [left|now right].
            destruct (Hcls x (HLk x Hi)) as [H1|[H1|[H1|(_ & p & H1)]]]; auto.
            + right. right. split; [exact H1|]. intros p Hk. now apply HT.
            + now apply Hn in H1.
          - left. unfold L' in Hx. rewrite E in Hx. fold L in Hx.
            destruct (Hcls x (HLk x Hx)) as [H1|[H1|[H1|(Hp' & _)]]]; auto; [|contradiction].
            right. right. split; [exact H1|]. intros p Hk. now apply HT. }
        clear Hcls Hd. change (fun p => (p ++ "_R")%string) with r_version.
        destruct Hcase as [[H1|[H1|[H1 H2]]]|(p & Hp & [Ex|Ex])].
        * left. split; [apply memb_In, in_or_app; now left|]. apply memb_not_In. rewrite in_app_iff. intros [H|H].
          -- now apply (Hdis (fst x)).
          -- apply in_map_iff in H as (p & E & Hp). destruct (proj2 (Htag (fst x) ltac:(apply in_or_app; now left)) p Hp) as [_ T].
             now apply T.
        * right. left. split; [|apply memb_In, in_or_app; now left]. apply memb_not_In. rewrite in_app_iff. intros [H|H].
          -- now apply (Hdis (fst x)).
          -- apply in_map_iff in H as (p & E & Hp). destruct (proj2 (Htag (fst x) ltac:(apply in_or_app; now right)) p Hp) as [T _].
             now apply T.
        * destruct (in_dec string_dec (fst x) r) as [Hr|Hr]; [|destruct (in_dec string_dec (fst x) ir) as [Hi|Hi]].
          -- left. split; [apply memb_In, in_or_app; now left|]. apply memb_not_In. rewrite in_app_iff. intros [H|H].
             ++ now apply (Hdis (fst x)).
             ++ apply in_map_iff in H as (p & E & Hp). destruct (H2 p Hp); congruence.
          -- right. left. split; [|apply memb_In, in_or_app; now left]. apply memb_not_In. rewrite in_app_iff. intros [H|H]; [contradiction|].
             apply in_map_iff in H as (p & E & Hp). destruct (H2 p Hp); congruence.
          -- right. right. split; [|split; [|exact H1]]; apply memb_not_In; rewrite in_app_iff; intros [H|H]; try contradiction;
               apply in_map_iff in H as (p & E & Hp); destruct (H2 p Hp); congruence.
        * left. split; [apply memb_In, in_or_app; right; rewrite Ex; now apply in_map|].
          apply memb_not_In. rewrite in_app_iff. intros [H|H].
          -- destruct (proj2 (Htag (fst x) ltac:(apply in_or_app; now right)) p Hp) as [T _]. now apply T.
          -- apply in_map_iff in H as (q & E & Hq). rewrite Ex in E. symmetry in E. now apply r_ir_differ in E.
        * right. left. split; [|apply memb_In, in_or_app; right; rewrite Ex; now apply in_map].
          apply memb_not_In. rewrite in_app_iff. intros [H|H].
          -- destruct (proj2 (Htag (fst x) ltac:(apply in_or_app; now left)) p Hp) as [_ T]. now apply T.
          -- apply in_map_iff in H as (q & E & Hq). rewrite Ex in E. now apply r_ir_differ in E.
    - destruct Hd as [[Hp Hd]|[Hp E]]; [now apply (decs_nonzero ly [] _ _ Hd)|].
      intros x Hx. apply Hnz. unfold L' in Hx. now rewrite E in Hx.
  Qed.
End Operand.
