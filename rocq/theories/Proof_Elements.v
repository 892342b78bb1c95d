(** Counting the elements an operand touches (C66). *)
From Coq Require Import Ascii.
From Verif Require Import Base Model_Pr Model_Text Model_Alloc Model_Layer Spec_Pr Spec_Loma Spec_Layer
  Proof_Pr Proof_Graph Proof_Relevancy.
Open Scope string_scope.
Open Scope list_scope.
Open Scope Z_scope.

Lemma in_zrange n v : In v (zrange n) <-> 0 <= v < n.
Proof.
  unfold zrange. rewrite in_map_iff. split.
  - intros (k & <- & Hk). apply in_seq in Hk. lia.
  - intros H. exists (Z.to_nat v). split; [lia|]. apply in_seq. lia.
Qed.

Lemma nodup_zrange n : NoDup (zrange n).
Proof.
  unfold zrange. apply FinFun.Injective_map_NoDup; [|apply seq_NoDup]. intros a b E. lia.
Qed.

(** * Points *)

Definition in_box (loops : list (string * Z)) (v : string -> Z) : Prop :=
  forall d n, In (d, n) loops -> 0 <= v d < n.

Lemma points_sound loops : NoDup (map fst loops) -> forall x, In x (points loops) -> in_box loops x.
Proof.
  induction loops as [|[d n] l IH]; intros Nd x Hx; cbn [points] in Hx; [intros d n []|].
  inversion Nd as [|? ? N1 N2]; subst. apply in_flat_map in Hx. destruct Hx as (i & Hi & Hx).
  apply in_map_iff in Hx. destruct Hx as (y & <- & Hy). apply in_zrange in Hi.
  intros d' n' [E|H].
  - injection E as <- <-. rewrite eqb_refl. exact Hi.
  - rewrite eqb_neq; [now apply (IH N2 y Hy)|]. intros ->. apply N1. change d with (fst (d, n')). now apply List.in_map.
Qed.

Lemma points_complete loops : NoDup (map fst loops) -> forall v, in_box loops v ->
  exists x, In x (points loops) /\ forall d, In d (map fst loops) -> x d = v d.
Proof.
  induction loops as [|[d n] l IH]; intros Nd v Hv; cbn [points].
  - exists (fun _ => 0). split; [now left|intros d []].
  - inversion Nd as [|? ? N1 N2]; subst.
    destruct (IH N2 v) as (y & Hy & Ey); [intros d' n' H; apply Hv; now right|].
    exists (fun d' => if eqb d' d then v d else y d'). split.
    + apply in_flat_map. exists (v d). split; [apply in_zrange, Hv; now left|].
      apply in_map_iff. exists y. split; [reflexivity|exact Hy].
    + intros d' Hd'. destruct (eqb_spec d' d) as [->|N]; [reflexivity|].
      apply Ey. destruct Hd' as [E|H]; [cbn in E; congruence|exact H].
Qed.

(** * Products of sets *)

Fixpoint cart (ls : list (list Z)) : list (list Z) :=
  match ls with
  | [] => [[]]
  | l :: ls' => flat_map (fun v => map (cons v) (cart ls')) l
  end.

Lemma in_cart ls : forall t, In t (cart ls) <-> Forall2 (fun v l => In v l) t ls.
Proof.
  induction ls as [|l ls IH]; intros t; cbn [cart].
  - split; [intros [<-|[]]; constructor|]. intros H. inversion H. now left.
  - rewrite in_flat_map. split.
    + intros (v & Hv & Ht). apply in_map_iff in Ht. destruct Ht as (t' & <- & Ht'). constructor; [exact Hv|now apply IH].
    + intros H. inversion H as [|v l' t' ls' Hv Ht]; subst. exists v. split; [exact Hv|].
      apply in_map_iff. exists t'. split; [reflexivity|now apply IH].
Qed.

Lemma nodup_cart ls : (forall l, In l ls -> NoDup l) -> NoDup (cart ls).
Proof.
  induction ls as [|l ls IH]; intros H; cbn [cart]; [repeat constructor; intros []|].
  assert (Nl : NoDup l) by (apply H; now left).
  assert (Nc : NoDup (cart ls)) by (apply IH; intros x Hx; apply H; now right).
  clear IH H. induction l as [|v l IH]; cbn [flat_map]; [constructor|].
  inversion Nl as [|? ? N1 N2]; subst. apply NoDup_app_intro.
  - apply FinFun.Injective_map_NoDup; [|exact Nc]. intros a b E. now injection E.
  - now apply IH.
  - intros t H1 H2. apply in_map_iff in H1. destruct H1 as (t1 & <- & _).
    apply in_flat_map in H2. destruct H2 as (w & Hw & H2). apply in_map_iff in H2. destruct H2 as (t2 & E & _).
    injection E as -> _. contradiction.
Qed.

Lemma length_cart ls : Z.of_nat (length (cart ls)) = zprod (map (fun l => Z.of_nat (length l)) ls).
Proof.
  induction ls as [|l ls IH]; [reflexivity|]. cbn [cart map].
  assert (E : length (flat_map (fun v => map (cons v) (cart ls)) l) = (length l * length (cart ls))%nat).
  { clear. induction l as [|v l IHl]; cbn [flat_map length]; [reflexivity|].
    rewrite app_length, map_length, IHl. lia. }
  rewrite E, Nat2Z.inj_mul, IH. reflexivity.
Qed.

Lemma same_length {A} (dec : forall x y : A, {x = y} + {x <> y}) (l m : list A) : NoDup m ->
  (forall x, In x l <-> In x m) -> length (nodup dec l) = length m.
Proof.
  intros Nm H. apply Nat.le_antisymm; apply NoDup_incl_length; try assumption; try apply NoDup_nodup.
  - intros x Hx. apply nodup_In in Hx. now apply H.
  - intros x Hx. apply nodup_In. now apply H.
Qed.

(** * The elements of an operand *)

Section Elements.
  Variables (rels : list relation) (loops : list (string * Z)).
  Hypothesis loops_once : NoDup (map fst loops).
  Variable inside : string -> Z -> bool.

  Definition size_in (d : string) : Z := size_or_1 d loops.

  (** All values of a subscript. *)
  Definition values_of (s : string) : list Z :=
    match find (fun r => eqb (rel_1 r) s) rels with
    | Some r => all_indices (rel_coef_2 r) (size_in (rel_2 r)) (rel_coef_3 r) (size_in (rel_3 r))
    | None => zrange (size_in s)
    end.

  Lemma in_all_indices sa a sb b v : In v (all_indices sa a sb b) <->
    exists x y, 0 <= x < a /\ 0 <= y < b /\ v = sa * x + sb * y.
  Proof.
    unfold all_indices. rewrite in_flat_map. split.
    - intros (x & Hx & H). apply in_map_iff in H. destruct H as (y & <- & Hy).
      apply in_zrange in Hx, Hy. eauto 6.
    - intros (x & y & Hx & Hy & ->). exists x. split; [now apply in_zrange|].
      apply in_map_iff. exists y. split; [reflexivity|now apply in_zrange].
  Qed.

  Lemma size_of_loop d n : In (d, n) loops -> size_in d = n.
  Proof. intros H. unfold size_in, size_or_1. now rewrite (In_dget d n loops loops_once H). Qed.

  Lemma index_local x y s : (forall d, In d (loops_of rels s) -> x d = y d) -> index_at rels x s = index_at rels y s.
  Proof.
    unfold index_at, loops_of. destruct (find _ rels) as [r|]; intros H.
    - rewrite !H; [reflexivity|right; now left|now left].
    - apply H. now left.
  Qed.

  Lemma in_loops d : In d (map fst loops) -> In (d, size_in d) loops.
  Proof.
    intros H. apply key_dget in H. destruct H as (n & Hn). unfold size_in, size_or_1. rewrite Hn. now apply dget_In.
  Qed.

  (** In the box, a subscript takes exactly its values, independently of the others. *)
  Lemma tuples_spec : forall subs, separate rels subs loops ->
    forall v0, in_box loops v0 -> forall t,
    (exists v, in_box loops v /\ t = map (index_at rels v) subs) <-> Forall2 (fun x s => In x (values_of s)) t subs.
  Proof.
    intros subs [Nd Hl] v0 B0. induction subs as [|s subs IH]; intros t.
    - split; [intros (v & _ & ->); constructor|]. intros H. inversion H. exists v0. auto.
    - cbn [flat_map] in Nd, Hl.
      assert (Nd' : NoDup (flat_map (loops_of rels) subs)) by (apply (NoDup_app_r' (loops_of rels s)); exact Nd).
      specialize (IH Nd' (fun d Hd => Hl d (in_or_app _ _ _ (or_intror Hd)))).
      split.
      + intros (v & Bv & ->). cbn [map]. constructor.
        * unfold index_at, values_of. unfold loops_of in Hl.
          destruct (find (fun r => eqb (rel_1 r) s) rels) as [r|].
          -- apply in_all_indices. exists (v (rel_2 r)), (v (rel_3 r)). split; [|split; [|reflexivity]];
             (eapply Bv; apply in_loops, Hl; cbn; tauto).
          -- apply in_zrange. eapply Bv. apply in_loops, Hl. now left.
        * apply IH. eauto.
      + intros H. inversion H as [|x s' t' subs' Hx Ht]; subst. apply IH in Ht. destruct Ht as (v & Bv & ->).
        (* change [v] on the loops of [s] *)
        assert (W : exists w, (forall d, In d (loops_of rels s) -> 0 <= w d < size_in d) /\ index_at rels w s = x).
        { unfold values_of in Hx. unfold loops_of, index_at. unfold loops_of in Nd.
          destruct (find (fun r => eqb (rel_1 r) s) rels) as [r|].
          - apply in_all_indices in Hx. destruct Hx as (a & b & Ha & Hb & ->).
            exists (fun d => if eqb d (rel_2 r) then a else b).
            assert (Nab : rel_3 r <> rel_2 r).
            { cbn in Nd. inversion Nd as [|? ? N1 _]; subst. intros E. apply N1. left. exact E. }
            split.
            + intros d [<-|[<-|[]]]; [now rewrite eqb_refl|]. now rewrite (eqb_neq _ _ Nab).
            + rewrite eqb_refl, (eqb_neq _ _ Nab). reflexivity.
          - apply in_zrange in Hx. exists (fun _ => x). split; [intros d [<-|[]]; exact Hx|reflexivity]. }
        destruct W as (w & Bw & Ew).
        exists (fun d => if memb d (loops_of rels s) then w d else v d). split.
        * intros d n Hd. destruct (memb d (loops_of rels s)) eqn:M; [|now apply Bv].
          apply memb_In in M. rewrite <- (size_of_loop d n Hd). now apply Bw.
        * cbn [map]. f_equal.
          -- rewrite <- Ew. apply index_local. intros d Hd. apply memb_In in Hd. now rewrite Hd.
          -- apply map_ext_in. intros s' Hs'. apply index_local. intros d Hd.
             assert (M : memb d (loops_of rels s) = false); [|now rewrite M].
             apply memb_not_In. intros Hd'. assert (In d (flat_map (loops_of rels) subs)) by (apply in_flat_map; eauto).
             revert Nd Hd' H0. clear. generalize (loops_of rels s), (flat_map (loops_of rels) subs). intros a b N A B.
             induction a as [|y a IH]; [destruct A|]. cbn in N. inversion N as [|? ? N1 N2]; subst.
             destruct A as [->|A]; [apply N1, in_or_app; now right|now apply IH].
  Qed.

  Lemma elements_product subs : separate rels subs loops -> (exists v, in_box loops v) ->
    elements_inside inside rels subs loops
    = zprod (map (fun s => distinct (filter (inside s) (values_of s))) subs).
  Proof.
    intros Hs (v0 & B0). unfold elements_inside.
    rewrite (same_length _ _ (cart (map (fun s => nodup Z.eq_dec (filter (inside s) (values_of s))) subs))).
    - rewrite length_cart, map_map. reflexivity.
    - apply nodup_cart. intros l Hl. apply in_map_iff in Hl. destruct Hl as (s & <- & _). apply NoDup_nodup.
    - intros t. rewrite filter_In, in_cart.
      assert (T : In t (map (fun x => map (index_at rels x) subs) (points loops)) <->
                  exists v, in_box loops v /\ t = map (index_at rels v) subs).
      { rewrite in_map_iff. split.
        - intros (x & <- & Hx). exists x. split; [now apply points_sound|reflexivity].
        - intros (v & Bv & ->). destruct (points_complete loops loops_once v Bv) as (x & Hx & Ex).
          exists x. split; [|exact Hx]. apply map_ext_in. intros s Hss. apply index_local. intros d Hd.
          apply Ex, Hs, in_flat_map. eauto. }
      rewrite T, (tuples_spec subs Hs v0 B0). clear. revert t.
      induction subs as [|s subs IH]; intros t.
      + cbn [map combine forallb]. split.
        * intros [H _]. inversion H. constructor.
        * intros H. inversion H. split; [constructor|reflexivity].
      + cbn [map]. split.
        * intros [H F]. inversion H as [|x s' t' subs' Hx Ht]; subst. cbn [combine forallb fst snd] in F.
          apply andb_true_iff in F. destruct F as [F1 F2]. constructor.
          -- apply nodup_In, filter_In. auto.
          -- apply IH. auto.
        * intros H. inversion H as [|x l t' ls Hx Ht]; subst. apply nodup_In, filter_In in Hx. destruct Hx as [Hx Hi].
          apply IH in Ht. destruct Ht as [Ht F]. split; [now constructor|]. cbn [combine forallb fst snd]. now rewrite Hi, F.
  Qed.
End Elements.

Lemma elements_all rels subs loops : elements_inside (fun _ _ => true) rels subs loops = elements_touched rels subs loops.
Proof.
  unfold elements_inside, elements_touched. do 2 f_equal. f_equal.
  assert (F : forall (l : list (list Z)) , filter (fun t => forallb (fun _ : string * Z => true) (combine subs t)) l = l).
  { intros l. induction l as [|t l IH]; cbn; [reflexivity|].
    assert (E : forall m : list (string * Z), forallb (fun _ => true) m = true) by (induction m; cbn; auto).
    now rewrite E, IH. }
  apply F.
Qed.

Lemma distinct_zrange n : 0 <= n -> distinct (zrange n) = n.
Proof.
  intros H. unfold distinct. rewrite nodup_fixed_point by apply nodup_zrange.
  unfold zrange. rewrite map_length, seq_length. lia.
Qed.

(** * The size stored with a layer *)

Lemma dict_of_rels {V} (f : relation -> V) (rels : list relation) : NoDup (map rel_1 rels) ->
  dict_of (map (fun r => (rel_1 r, f r)) rels) = map (fun r => (rel_1 r, f r)) rels.
Proof.
  intros H. apply dict_of_nodup. rewrite map_map. exact H.
Qed.

Lemma dget_rels {V} (f : relation -> V) (rels : list relation) : NoDup (map rel_1 rels) -> forall r, In r rels ->
  dget (rel_1 r) (map (fun r => (rel_1 r, f r)) rels) = Some (f r).
Proof.
  intros Nd r Hr. apply In_dget.
  - unfold keys. rewrite map_map. exact Nd.
  - apply in_map_iff. eauto.
Qed.

Lemma dget_rels_none {V} (f : relation -> V) (rels : list relation) d : ~ In d (map rel_1 rels) ->
  dget d (map (fun r => (rel_1 r, f r)) rels) = None.
Proof. intros H. apply dget_None. unfold keys. rewrite map_map. exact H. Qed.

Lemma find_rel rels : NoDup (map rel_1 rels) -> forall r, In r rels ->
  find (fun r' => eqb (rel_1 r') (rel_1 r)) rels = Some r.
Proof.
  induction rels as [|x l IH]; intros Nd r Hr; [destruct Hr|]. cbn [map] in Nd. inversion Nd as [|? ? N1 N2]; subst.
  cbn [find]. destruct Hr as [->|Hr]; [now rewrite eqb_refl|]. rewrite eqb_neq; [now apply IH|].
  intros E. apply N1. rewrite E. now apply List.in_map.
Qed.

Lemma find_rel_none rels s : ~ In s (map rel_1 rels) -> find (fun r' => eqb (rel_1 r') s) rels = None.
Proof.
  intros H. destruct (find _ rels) as [r|] eqn:F; [|reflexivity]. apply find_some in F. destruct F as [F1 F2].
  destruct (eqb_spec (rel_1 r) s); [|discriminate]. exfalso. apply H. subst s. now apply List.in_map.
Qed.

Lemma zprod_split {A} (p : A -> bool) (f : A -> Z) l :
  zprod (map f l) = zprod (map f (filter (fun x => negb (p x)) l)) * zprod (map f (filter p l)).
Proof.
  induction l as [|x l IH]; [reflexivity|]. cbn [map filter]. rewrite zprod_cons, IH.
  destruct (p x); cbn [negb map]; rewrite zprod_cons; lia.
Qed.

Lemma zprod_big sizes l : zprod (map (fun d => size_or_1 d sizes) (filter (fun d => negb (size_or_1 d sizes =? 1)) l))
  = zprod (map (fun d => size_or_1 d sizes) l).
Proof.
  induction l as [|x l IH]; [reflexivity|]. cbn [map filter]. rewrite zprod_cons.
  destruct (Z.eqb_spec (size_or_1 x sizes) 1) as [E|N]; cbn [negb map].
  - rewrite IH, E. lia.
  - rewrite zprod_cons, IH. reflexivity.
Qed.

Lemma rmap_get sizes l : (forall d, In d l -> In d (keys sizes)) ->
  rmap (fun d => dgetr d sizes) l = Ok (map (fun d => size_or_1 d sizes) l).
Proof.
  induction l as [|x l IH]; intros H; [reflexivity|]. cbn [rmap map].
  assert (K : In x (keys sizes)) by (apply H; now left). apply key_dget in K. destruct K as (n & Hn).
  unfold dgetr at 1, size_or_1 at 1. rewrite Hn. cbn [of_option rbind]. rewrite IH; [reflexivity|].
  intros d Hd. apply H. now right.
Qed.

Lemma rmap_total {A B} (f : A -> result B) (g : A -> B) l : (forall x, In x l -> f x = Ok (g x)) -> rmap f l = Ok (map g l).
Proof.
  induction l as [|x l IH]; intros H; [reflexivity|]. cbn [rmap map]. rewrite (H x (or_introl eq_refl)). cbn [rbind].
  rewrite IH; [reflexivity|]. intros y Hy. apply H. now right.
Qed.

Section Size.
  Variables (order : list string -> list string) (tokens : list string) (sizes : dict string Z)
            (rels : list relation) (pr_sizes : dict string Z).
  Hypothesis order_perm : forall l, Permutation (order l) l.
  Hypothesis sizes_once : NoDup (keys sizes).
  Hypothesis sizes_pos : forall d n, In (d, n) sizes -> 0 < n.
  Hypothesis rels_once : NoDup (map rel_1 rels).
  Hypothesis rels_derived : forall r, In r rels -> ~ In (rel_1 r) (keys sizes).

  (** The size the code gives to a derived subscript. *)
  Definition derived_size (s : string) : Z :=
    match find (fun r => eqb (rel_1 r) s) rels with
    | Some r => Z.min (size_or_1 s pr_sizes)
        (calc_pr_dimension_size (rel_coef_2 r) (size_or_1 (rel_2 r) sizes) (rel_coef_3 r) (size_or_1 (rel_3 r) sizes))
    | None => size_or_1 s sizes
    end.

  Lemma separate_nodup subs : separate rels subs sizes -> NoDup subs.
  Proof.
    intros [H _]. revert H. induction subs as [|s l IH]; intros H; [constructor|]. cbn [flat_map] in H. constructor.
    - intros Hs. assert (exists d, In d (loops_of rels s)) as (d & Hd).
      { unfold loops_of. destruct (find _ rels); eexists; now left. }
      assert (H' : In d (flat_map (loops_of rels) l)) by (apply in_flat_map; eauto).
      revert H Hd H'. clear. generalize (loops_of rels s), (flat_map (loops_of rels) l). intros a b N A B.
      induction a as [|y a IH]; [destruct A|]. cbn in N. inversion N as [|? ? N1 N2]; subst.
      destruct A as [->|A]; [apply N1, in_or_app; now right|now apply IH].
    - apply IH. apply (NoDup_app_r' (loops_of rels s)). exact H.
  Qed.

  Lemma size_product op rv subs :
    relevancy_of order tokens sizes (pr_loop_of rels) (pr_loop_list_of rels) op = Ok rv ->
    get_r_layer_dims tokens op = Ok subs ->
    ((forall r, In r rels -> In (rel_1 r) subs) \/ (forall r, In r rels -> ~ In (rel_1 r) subs)) ->
    separate rels subs sizes ->
    (forall r, In r rels -> In (rel_1 r) subs -> In (rel_1 r) (keys pr_sizes)) ->
    operand_size_elem sizes (pr_loop_of rels) (pr_scaling_of rels) pr_sizes rv = Ok (zprod (map derived_size subs)).
  Proof.
    intros H Es All Sep Hm. assert (Nsub := separate_nodup subs Sep).
    apply (relevancy_shape order tokens sizes rels) in H.
    destruct H as (subs' & Es' & H).
    rewrite Es in Es'. injection Es' as <-. cbn zeta in H.
    assert (Plain : forall s, In s subs -> ~ In s (map rel_1 rels) -> In s (keys sizes)).
    { intros s Hs Hp. apply Sep. apply in_flat_map. exists s. split; [exact Hs|]. unfold loops_of.
      rewrite find_rel_none by exact Hp. now left. }
    destruct H as [[X ->]|[X [-> K]]].
    - (* with derived subscripts: all of them *)
      destruct All as [All|None].
      2: { exfalso. destruct X as (d & D1 & D2). apply in_map_iff in D2. destruct D2 as (r & <- & Hr). now apply (None r). }
      assert (Fil : filter (fun d => negb (memb d (pr_loop_list_of rels))) subs
                    = filter (fun d => negb (memb d (map rel_1 rels))) subs).
      { apply filter_ext_in. intros s Hs. f_equal.
        destruct (memb s (map rel_1 rels)) eqn:M.
        - apply memb_In in M. apply memb_In, pr_list_spec. apply in_map_iff in M. destruct M as (r & <- & Hr). eauto.
        - apply memb_not_In in M. apply memb_not_In. rewrite pr_list_spec. intros (r & Hr & E).
          destruct E as [E|E]; [apply M; rewrite E; now apply List.in_map|].
          assert (In1 : In s (loops_of rels s)) by (unfold loops_of; rewrite find_rel_none by exact M; now left).
          assert (In2 : In s (loops_of rels (rel_1 r))).
          { unfold loops_of. rewrite find_rel by assumption. destruct E as [->| ->]; cbn; tauto. }
          destruct Sep as [Nd _].
          assert (Nsr : s <> rel_1 r) by (intros E'; apply M; rewrite E'; now apply List.in_map).
          specialize (All r Hr). clear -Nd Hs All In1 In2 Nsr.
          induction subs as [|y l IH]; [destruct Hs|]. cbn [flat_map] in Nd.
          assert (Disj : forall d, In d (loops_of rels y) -> In d (flat_map (loops_of rels) l) -> False).
          { intros d. revert Nd. generalize (loops_of rels y), (flat_map (loops_of rels) l). intros a b N A B.
            induction a as [|z a IHa]; [destruct A|]. cbn in N. inversion N as [|? ? N1 N2]; subst.
            destruct A as [->|A]; [apply N1, in_or_app; now right|now apply IHa]. }
          destruct Hs as [->|Hs], All as [A|A].
          + congruence.
          + apply (Disj s In1). apply in_flat_map. eauto.
          + subst y. apply (Disj s In2). apply in_flat_map. eauto.
          + apply IH; auto. apply (NoDup_app_r' (loops_of rels y)). exact Nd. }
      unfold operand_size_elem. cbn [rv_r rv_pr]. rewrite Fil.
      set (plain := filter (fun d => negb (memb d (map rel_1 rels))) subs).
      assert (Pl : forall d, In d plain -> In d (keys sizes)).
      { intros d Hd. apply filter_In in Hd. destruct Hd as [Hd Nd]. apply Plain; [exact Hd|].
        apply memb_not_In. now apply negb_true_iff. }
      rewrite rmap_get by exact Pl. cbn [rbind].
      assert (Ek : keys (pr_loop_of rels) = map rel_1 rels).
      { unfold pr_loop_of. rewrite (dict_of_rels (fun r => (rel_2 r, rel_3 r))) by exact rels_once. unfold keys. now rewrite map_map. }
      rewrite Ek.
      assert (Full : rmap (fun d => n <- full_tensor_dim sizes (pr_loop_of rels) (pr_scaling_of rels) pr_sizes d ;; Ok (d, n))
                       (plain ++ map rel_1 rels) = Ok (map (fun d => (d, derived_size d)) (plain ++ map rel_1 rels))).
      { apply rmap_total. intros d Hd. apply in_app_or in Hd. unfold full_tensor_dim. destruct Hd as [Hd|Hd].
        - assert (Kd := Pl d Hd). apply key_dget in Kd. destruct Kd as (n & Hn). rewrite Hn. cbn [rbind].
          unfold derived_size. rewrite find_rel_none; [now unfold size_or_1; rewrite Hn|].
          apply filter_In in Hd. apply memb_not_In. now apply negb_true_iff.
        - apply in_map_iff in Hd. destruct Hd as (r & <- & Hr).
          assert (Nk : dget (rel_1 r) sizes = None) by (apply dget_None; now apply rels_derived).
          rewrite Nk. unfold pr_loop_of, pr_scaling_of.
          rewrite (dict_of_rels (fun r => (rel_2 r, rel_3 r))), (dget_rels (fun r => (rel_2 r, rel_3 r))) by assumption.
          assert (L : forall d, In d [rel_2 r; rel_3 r] -> exists n, dget d sizes = Some n).
          { intros d Hd. apply key_dget, Sep. apply in_flat_map. exists (rel_1 r). split; [now apply All|].
            unfold loops_of. now rewrite find_rel. }
          destruct (L (rel_2 r)) as (a & Ha); [now left|]. destruct (L (rel_3 r)) as (b & Hb); [right; now left|].
          unfold dgetr. rewrite Ha, Hb. cbn [of_option rbind].
          rewrite (dict_of_rels (fun r => (rel_coef_2 r, rel_coef_3 r))), (dget_rels (fun r => (rel_coef_2 r, rel_coef_3 r))) by assumption.
          cbn [of_option rbind fst snd].
          assert (Km := Hm r Hr (All r Hr)). apply key_dget in Km. destruct Km as (m & Hm'). rewrite Hm'. cbn [of_option rbind].
          unfold derived_size. rewrite find_rel by assumption. unfold size_or_1. now rewrite Hm', Ha, Hb. }
      assert (Npl : NoDup (plain ++ map rel_1 rels)).
      { apply NoDup_app_intro; [now apply NoDup_filter|exact rels_once|]. intros d Hd. apply filter_In in Hd.
        apply memb_not_In. now apply negb_true_iff. }
      rewrite (rmap_total _ derived_size).
      2: { intros p Hp. cbn zeta. rewrite Full. cbn [rbind]. rewrite dict_of_nodup by (rewrite map_map, map_id; exact Npl).
           unfold dgetr. rewrite (In_dget p (derived_size p)); [reflexivity| |].
           - unfold keys. rewrite map_map, map_id. exact Npl.
           - apply in_map_iff. exists p. split; [reflexivity|]. apply in_or_app. now right. }
      cbn [rbind]. f_equal. rewrite (zprod_split (fun d => memb d (map rel_1 rels)) derived_size subs). fold plain. f_equal.
      + f_equal. apply map_ext_in. intros d Hd. apply filter_In in Hd. unfold derived_size.
        rewrite find_rel_none; [reflexivity|]. apply memb_not_In. now apply negb_true_iff.
      + apply zprod_perm, Permutation_map, NoDup_Permutation; [exact rels_once|now apply NoDup_filter|].
        intros d. rewrite filter_In, memb_In. split; [|tauto]. intros Hd. split; [|exact Hd].
        apply in_map_iff in Hd. destruct Hd as (r & <- & Hr). now apply All.
    - unfold operand_size_elem. cbn [rv_r rv_pr keys map rmap]. rewrite rmap_get.
      2: { intros d Hd. apply filter_In in Hd. now apply K. }
      cbn [rbind]. f_equal. rewrite zprod_big. cbn. rewrite Z.mul_1_r. f_equal. apply map_ext_in. intros d Hd.
      unfold derived_size. rewrite find_rel_none by now apply X. reflexivity.
  Qed.
End Size.

(** * What a built layer stores for each operand *)

Lemma rfold_dset {V} (f : string -> result V) : forall ops D0 D,
  rfold (fun d op => v <- f op ;; Ok (dset op v d)) D0 ops = Ok D ->
  (forall op, In op ops -> exists v, f op = Ok v /\ dget op D = Some v) /\
  (forall op, ~ In op ops -> dget op D = dget op D0) /\
  (NoDup (keys D0) -> NoDup (keys D)).
Proof.
  induction ops as [|o ops IH]; intros D0 D H; cbn [rfold] in H.
  - injection H as <-. split; [intros op []|]. split; auto.
  - destruct (f o) as [v|] eqn:F; [|discriminate]. cbn [rbind] in H. apply IH in H. destruct H as (H1 & H2 & H3).
    split; [|split].
    + intros op [<-|Hop]; [|now apply H1]. destruct (in_dec string_dec o ops) as [Hi|Hn]; [now apply H1|].
      exists v. split; [exact F|]. rewrite H2 by exact Hn. now rewrite dget_dset_eq.
    + intros op Hn. rewrite H2 by (intros X; apply Hn; now right). apply dget_dset_neq. intros E. apply Hn. left. congruence.
    + intros N. apply H3. now apply NoDup_dset.
Qed.

Lemma dget_map_val {V W} (f : V -> W) (d : dict string V) k : dget k (map (fun kv => (fst kv, f (snd kv))) d) = option_map f (dget k d).
Proof.
  induction d as [|[k' v] d IH]; [reflexivity|]. cbn [map dget fst snd]. destruct (eqb k k'); [reflexivity|exact IH].
Qed.

Lemma rmap_dict {V W} (g : string * V -> result (string * W)) : forall (d : dict string V) d',
  (forall kv kw, g kv = Ok kw -> fst kw = fst kv) ->
  rmap g d = Ok d' -> forall k v, dget k d = Some v -> exists w, dget k d' = Some w /\ g (k, v) = Ok (k, w).
Proof.
  intros d d' Hg. revert d'. induction d as [|[k' v'] d IH]; intros d' H k v Hk; [discriminate|].
  cbn [rmap] in H. destruct (g (k', v')) as [[k2 w]|] eqn:G; [|discriminate]. cbn [rbind] in H.
  destruct (rmap g d) as [d2|] eqn:R; [|discriminate]. cbn [rbind] in H. injection H as <-.
  assert (E := Hg _ _ G). cbn in E. subst k2. cbn [dget] in Hk |- *. destruct (eqb_spec k k') as [->|N].
  - injection Hk as ->. eauto.
  - now apply (IH d2 eq_refl).
Qed.

Section Node.
  Variables (order : list string -> list string) (links : list (string * string)) (nd : node_data) (ln : layer_node).
  Hypothesis built : layer_node_of order links nd = Ok ln.

  Definition node_tokens : list string := disassembly (create_equation (nd_equation nd)).

  Lemma node_shape : exists rels pr_sizes padding,
    rmap create_relation (nd_relations nd) = Ok rels /\
    create_padding nd = Ok padding /\
    ln_sizes ln = create_layer_dim_sizes nd /\
    contained_operands node_tokens = Ok (ln_operands ln) /\
    l_pr_loop (ln_layer ln) = pr_loop_of rels /\ l_pr_scaling (ln_layer ln) = pr_scaling_of rels /\
    l_pr_sizes (ln_layer ln) = pr_sizes /\
    match create_pr_layer_dim_sizes nd with
    | Some (x :: l) => Ok (x :: l)
    | _ => rmap (fun d => n <- total_pr_size (create_layer_dim_sizes nd) (pr_loop_of rels) (pr_scaling_of rels) padding d ;; Ok (d, n))
                (keys (pr_loop_of rels))
    end = Ok pr_sizes /\
    ln_macs ln = zprod (values (ln_sizes ln)) /\
    forall op, In op (ln_operands ln) -> exists rv n p,
      relevancy_of order node_tokens (ln_sizes ln) (pr_loop_of rels) (pr_loop_list_of rels) op = Ok rv /\
      dget op (ln_relevancy ln) = Some rv /\
      operand_size_elem (ln_sizes ln) (pr_loop_of rels) (pr_scaling_of rels) pr_sizes rv = Ok n /\
      dget op (ln_size_elem ln) = Some n /\
      dget op (nd_precision nd) = Some p /\ dget op (ln_size_bit ln) = Some (n * p) /\ n <> 0 /\
      dget op (ln_reuse ln) = Some (inject_Z (ln_macs ln) / inject_Z n)%Q /\
      dget op (l_r_or_pr (ln_layer ln)) = Some (rv_r rv ++ keys (rv_pr rv)) /\
      dget op (l_ir (ln_layer ln)) = Some (rv_ir rv).
  Proof.
    pose proof built as H. unfold layer_node_of in H. fold node_tokens in H.
    destruct (rmap create_relation (nd_relations nd)) as [rels|] eqn:Er; [|discriminate]. cbn [rbind] in H.
    destruct (create_padding nd) as [padding|] eqn:Ep; [|discriminate]. cbn [rbind] in H.
    destruct (contained_operands node_tokens) as [ops|] eqn:Eo; [|discriminate]. cbn [rbind] in H. cbn zeta in H.
    match type of H with rbind ?m _ = _ => destruct m as [pr_sizes|] eqn:Es; [|discriminate] end. cbn [rbind] in H.
    destruct (extract_relevancy_info _ _ _ _ _) as [rel|] eqn:Ex; [|discriminate]. cbn [rbind] in H.
    match type of H with rbind ?m _ = _ => destruct m as [elems|] eqn:Ee; [|discriminate] end. cbn [rbind] in H.
    match type of H with rbind ?m _ = _ => destruct m as [bits|] eqn:Eb; [|discriminate] end. cbn [rbind] in H.
    match type of H with rbind ?m _ = _ => destruct m as [reuse|] eqn:Eu; [|discriminate] end. cbn [rbind] in H.
    destruct (final_output_precision _) as [final|]; [|discriminate]. cbn [rbind] in H. injection H as <-.
    exists rels, pr_sizes, padding. cbn [ln_sizes ln_operands ln_relevancy ln_size_elem ln_size_bit ln_macs ln_reuse ln_layer l_pr_loop l_pr_scaling l_pr_sizes l_r_or_pr l_ir].
    do 9 (split; [reflexivity || assumption|]).
    intros op Hop. unfold extract_relevancy_info in Ex. rewrite Eo in Ex. cbn [rbind] in Ex.
    apply (rfold_dset (relevancy_of order node_tokens (create_layer_dim_sizes nd) (pr_loop_of rels) (pr_loop_list_of rels))) in Ex.
    destruct Ex as (X1 & _ & _). destruct (X1 op Hop) as (rv & Hrv & Grv).
    assert (Ee' : rfold (fun d op => v <- (rv <- dgetr op rel ;; operand_size_elem (create_layer_dim_sizes nd) (pr_loop_of rels) (pr_scaling_of rels) pr_sizes rv) ;; Ok (dset op v d)) [] ops = Ok elems).
    { rewrite <- Ee. clear. generalize (@nil (string * Z)). induction ops as [|o l IH]; intros D; [reflexivity|]. cbn [rfold].
      destruct (dgetr o rel) as [rv|]; cbn [rbind]; [|reflexivity].
      destruct (operand_size_elem _ _ _ _ rv); cbn [rbind]; [apply IH|reflexivity]. }
    apply (rfold_dset (fun op => rv <- dgetr op rel ;; operand_size_elem (create_layer_dim_sizes nd) (pr_loop_of rels) (pr_scaling_of rels) pr_sizes rv)) in Ee'.
    destruct Ee' as (Y1 & _ & _). destruct (Y1 op Hop) as (n & Hn & Gn). unfold dgetr in Hn at 1. rewrite Grv in Hn. cbn [of_option rbind] in Hn.
    destruct (rmap_dict (fun on => p <- dgetr (fst on) (nd_precision nd) ;; Ok (fst on, snd on * p)) elems bits) with (k := op) (v := n) as (w & Gw & Hw).
    { intros kv kw E. destruct (dgetr (fst kv) (nd_precision nd)); [|discriminate]. cbn in E. now injection E as <-. }
    { exact Eb. } { exact Gn. }
    cbn [fst snd] in Hw. unfold dgetr in Hw. destruct (dget op (nd_precision nd)) as [p|] eqn:Gp; [|discriminate].
    cbn [of_option rbind] in Hw. injection Hw as <-.
    destruct (rmap_dict (fun on => if snd on =? 0 then Err ZeroDivisionError
                           else Ok (fst on, (inject_Z (zprod (values (create_layer_dim_sizes nd))) / inject_Z (snd on))%Q)) elems reuse) with (k := op) (v := n) as (u & Gu & Hu).
    { intros kv kw E. destruct (snd kv =? 0); [discriminate|]. now injection E as <-. }
    { exact Eu. } { exact Gn. }
    cbn [fst snd] in Hu. destruct (Z.eqb_spec n 0) as [|Nn]; [discriminate|]. injection Hu as <-.
    exists rv, n, p. rewrite (dget_map_val (fun rv => rv_r rv ++ keys (rv_pr rv)) rel op), (dget_map_val rv_ir rel op), Grv. auto 12.
  Qed.
End Node.

(** * Operand sizes are numbers of elements *)

Definition pad_of (padding : dict string (Z * Z)) (d : string) : Z * Z :=
  match dget d padding with Some p => p | None => (0, 0) end.

Lemma size_of_eq loops d : size_of loops d = size_or_1 d loops.
Proof. reflexivity. Qed.

Lemma filter_true {A} (l : list A) : filter (fun _ => true) l = l.
Proof. induction l as [|x l IH]; cbn; congruence. Qed.

Lemma filter_all_true {A} (f : A -> bool) l : (forall x, In x l -> f x = true) -> filter f l = l.
Proof.
  intros H. rewrite (filter_ext_in f (fun _ => true)); [apply filter_true|exact H].
Qed.

Section Final.
  Variables (order : list string -> list string) (links : list (string * string)) (nd : node_data) (ln : layer_node)
            (rels : list relation) (op : string) (subs : list string).
  Hypothesis order_perm : forall l, Permutation (order l) l.
  Hypothesis built : layer_node_of order links nd = Ok ln.
  Hypothesis relations : rmap create_relation (nd_relations nd) = Ok rels.
  Hypothesis operand : In op (ln_operands ln).
  Hypothesis subscripts : get_r_layer_dims (node_tokens nd) op = Ok subs.

  Lemma sizes_nodup : NoDup (keys (ln_sizes ln)).
  Proof.
    destruct (node_shape order links nd ln built) as (r & p & pd & _ & _ & E & _). rewrite E. apply NoDup_dict_of.
  Qed.

  Lemma node_relevancy : NoDup (map rel_1 rels) -> exists rv, dget op (ln_relevancy ln) = Some rv /\
    (forall d n, dget d (ln_sizes ln) = Some n -> n <> 1 ->
       one_of (In d (rv_r rv)) (In d (rv_ir rv)) (part_of (rv_pr rv) d)) /\
    ((forall d, In d subs -> ~ In d (map rel_1 rels)) -> rv_pr rv = []) /\
    ((exists d, In d subs /\ In d (map rel_1 rels)) -> rv_pr rv = pr_loop_of rels) /\
    (forall d, In d (rv_r rv) -> In d subs) /\ (forall d, In d (rv_ir rv) -> ~ In d subs).
  Proof.
    intros Nd. destruct (node_shape order links nd ln built) as (r & p & pd & Er & Ep & Es & Eo & _ & _ & _ & _ & _ & H).
    rewrite relations in Er. injection Er as <-. destruct (H op operand) as (rv & n & b & Hrv & Grv & _).
    exists rv. split; [exact Grv|]. destruct (relevancy_partition order order_perm (node_tokens nd) (ln_sizes ln) rels Nd op rv Hrv) as (A & s & Hs & B).
    rewrite subscripts in Hs. injection Hs as <-. split; [exact A|exact B].
  Qed.

  Lemma node_semantic : sensible rels (keys (ln_sizes ln)) -> all_or_none rels subs -> exists rv,
    dget op (ln_relevancy ln) = Some rv /\
    forall d n, dget d (ln_sizes ln) = Some n -> n <> 1 -> (In d (rv_ir rv) <-> independent rels subs d).
  Proof.
    intros [Nd Hs] All. destruct (node_shape order links nd ln built) as (r & p & pd & Er & Ep & Es & Eo & _ & _ & _ & _ & _ & H).
    rewrite relations in Er. injection Er as <-. destruct (H op operand) as (rv & n & b & Hrv & Grv & _).
    exists rv. split; [exact Grv|].
    exact (relevancy_semantic order order_perm (node_tokens nd) (ln_sizes ln) rels Nd Hs op rv subs Hrv subscripts All).
  Qed.

  Hypothesis sizes_pos : forall d n, In (d, n) (ln_sizes ln) -> 0 < n.
  Hypothesis good : sensible rels (keys (ln_sizes ln)).
  Hypothesis all_derived : all_or_none rels subs.
  Hypothesis apart : separate rels subs (ln_sizes ln).

  Lemma box_inhabited : exists v, in_box (ln_sizes ln) v.
  Proof. exists (fun _ => 0). intros d n H. specialize (sizes_pos d n H). lia. Qed.

  Lemma size_pos d : 0 < size_or_1 d (ln_sizes ln).
  Proof.
    unfold size_or_1. destruct (dget d (ln_sizes ln)) as [n|] eqn:E; [|lia]. apply (sizes_pos d). now apply dget_In.
  Qed.

  Lemma node_size : exists n, dget op (ln_size_elem ln) = Some n /\
    ((forall r, In r rels -> In (rel_1 r) subs -> In (rel_1 r) (keys (l_pr_sizes (ln_layer ln)))) ->
     n = zprod (map (derived_size (ln_sizes ln) rels (l_pr_sizes (ln_layer ln))) subs)).
  Proof.
    destruct good as [Nd Hs]. destruct (node_shape order links nd ln built) as (r & p & pd & Er & Ep & Es & Eo & _ & _ & Epr & _ & _ & H).
    rewrite relations in Er. injection Er as <-. destruct (H op operand) as (rv & n & b & Hrv & Grv & Hn & Gn & _).
    exists n. split; [exact Gn|]. intros Hm. rewrite Epr in *.
    assert (E := size_product order (node_tokens nd) (ln_sizes ln) rels p Nd (fun r Hr => proj1 (proj2 (proj2 (Hs r Hr)))) op rv subs Hrv subscripts all_derived apart Hm).
    rewrite Hn in E. now injection E.
  Qed.

  Lemma derived_counts (inside : string -> Z -> bool) :
    (forall s v, ~ In s (map rel_1 rels) -> inside s v = true) ->
    (forall r, In r rels -> derived_size (ln_sizes ln) rels (l_pr_sizes (ln_layer ln)) (rel_1 r) =
       distinct (filter (inside (rel_1 r)) (all_indices (rel_coef_2 r) (size_or_1 (rel_2 r) (ln_sizes ln)) (rel_coef_3 r) (size_or_1 (rel_3 r) (ln_sizes ln))))) ->
    zprod (map (derived_size (ln_sizes ln) rels (l_pr_sizes (ln_layer ln))) subs) = elements_inside inside rels subs (ln_sizes ln).
  Proof.
    intros Hin Hd. destruct good as [Nd _]. rewrite elements_product; [|exact sizes_nodup|exact apart|exact box_inhabited].
    f_equal. apply map_ext. intros s. unfold values_of.
    destruct (find (fun r => eqb (rel_1 r) s) rels) as [r|] eqn:F.
    - apply find_some in F. destruct F as [F1 F2]. destruct (eqb_spec (rel_1 r) s) as [E|]; [|discriminate]. subst s.
      rewrite (Hd r F1). reflexivity.
    - assert (Ns : ~ In s (map rel_1 rels)).
      { intros Hs. apply in_map_iff in Hs. destruct Hs as (r & <- & Hr). rewrite find_rel in F by assumption. discriminate. }
      unfold derived_size, size_in. rewrite F.
      rewrite (filter_ext_in (inside s) (fun _ => true)) by (intros v _; now apply Hin).
      rewrite filter_true, distinct_zrange; [reflexivity|]. generalize (size_pos s). lia.
  Qed.

  Lemma total_size padding r n : In r rels ->
    total_pr_size (ln_sizes ln) (pr_loop_of rels) (pr_scaling_of rels) padding (rel_1 r) = Ok n ->
    n = calc_pr_dimension_size (rel_coef_2 r) (size_or_1 (rel_2 r) (ln_sizes ln)) (rel_coef_3 r) (size_or_1 (rel_3 r) (ln_sizes ln))
        - (fst (pad_of padding (rel_1 r)) + snd (pad_of padding (rel_1 r))).
  Proof.
    intros Hr. destruct good as [Nd _]. unfold total_pr_size, pr_loop_of, pr_scaling_of, dgetr.
    rewrite (dict_of_rels (fun r => (rel_2 r, rel_3 r))), (dget_rels (fun r => (rel_2 r, rel_3 r))) by assumption.
    rewrite (dict_of_rels (fun r => (rel_coef_2 r, rel_coef_3 r))), (dget_rels (fun r => (rel_coef_2 r, rel_coef_3 r))) by assumption.
    unfold size_or_1. cbn [of_option rbind fst snd].
    destruct (dget (rel_2 r) (ln_sizes ln)); [|discriminate]. cbn [of_option rbind].
    destruct (dget (rel_3 r) (ln_sizes ln)); [|discriminate]. cbn [of_option rbind].
    intros E. injection E as <-. reflexivity.
  Qed.

  (** Sizes of derived dimensions when the user gives none. *)
  Lemma default_sizes padding : create_padding nd = Ok padding -> create_pr_layer_dim_sizes nd = None ->
    forall r, In r rels -> dget (rel_1 r) (l_pr_sizes (ln_layer ln)) =
      Some (calc_pr_dimension_size (rel_coef_2 r) (size_or_1 (rel_2 r) (ln_sizes ln)) (rel_coef_3 r) (size_or_1 (rel_3 r) (ln_sizes ln))
        - (fst (pad_of padding (rel_1 r)) + snd (pad_of padding (rel_1 r)))).
  Proof.
    intros Hp Hn r Hr. destruct good as [Nd _].
    destruct (node_shape order links nd ln built) as (rs & p & pd & Er & Ep & Es & Eo & _ & _ & Epr & Em & _ & _).
    rewrite relations in Er. injection Er as <-. rewrite Hp in Ep. injection Ep as <-. rewrite Hn in Em. rewrite Epr. clear Epr.
    rewrite <- Es in Em.
    assert (Ek : keys (pr_loop_of rels) = map rel_1 rels).
    { unfold pr_loop_of. rewrite (dict_of_rels (fun r => (rel_2 r, rel_3 r))) by exact Nd. unfold keys. now rewrite map_map. }
    rewrite Ek in Em.
    assert (G : forall ds p, rmap (fun d => n <- total_pr_size (ln_sizes ln) (pr_loop_of rels) (pr_scaling_of rels) padding d ;; Ok (d, n)) ds = Ok p ->
      forall d, In d ds -> exists n, dget d p = Some n /\ total_pr_size (ln_sizes ln) (pr_loop_of rels) (pr_scaling_of rels) padding d = Ok n).
    { clear. induction ds as [|x ds IH]; intros p H d Hd; [destruct Hd|]. cbn [rmap] in H.
      destruct (total_pr_size _ _ _ _ x) as [n|] eqn:T; [|discriminate]. cbn [rbind] in H.
      destruct (rmap _ ds) as [q|] eqn:Q; [|discriminate]. cbn [rbind] in H. injection H as <-. cbn [dget].
      destruct (eqb_spec d x) as [E|N]; [subst; eauto|]. destruct Hd as [E|Hd]; [congruence|]. now apply IH. }
    destruct (G _ _ Em (rel_1 r) (in_map rel_1 rels r Hr)) as (n & Gn & Hn'). rewrite Gn. f_equal. now apply total_size.
  Qed.

  Theorem node_elements padding : create_padding nd = Ok padding -> create_pr_layer_dim_sizes nd = None ->
    (forall r, In r rels -> padding_ok (ln_sizes ln) (pad_of padding) r) ->
    dget op (ln_size_elem ln) =
      Some (elements_inside (in_tensor rels (ln_sizes ln) (pad_of padding)) rels subs (ln_sizes ln)).
  Proof.
    intros Hp Hn Ok'. destruct node_size as (n & Gn & En). rewrite Gn. f_equal.
    assert (Ds := default_sizes padding Hp Hn). destruct good as [Nd Hs].
    rewrite En by (intros r Hr _; eapply dget_Some_key, Ds, Hr).
    apply derived_counts.
    - intros s v Hv. unfold in_tensor. now rewrite find_rel_none.
    - intros r Hr. unfold derived_size. rewrite find_rel by assumption.
      unfold size_or_1 at 1. rewrite (Ds r Hr).
      destruct (Hs r Hr) as (P2 & P3 & _).
      assert (Pa := size_pos (rel_2 r)). assert (Pb := size_pos (rel_3 r)).
      specialize (Ok' r Hr). unfold padding_ok, exact_count, extent in Ok'. rewrite !size_of_eq in Ok'.
      unfold in_tensor. rewrite find_rel by assumption. unfold extent. rewrite !size_of_eq.
      set (a := size_or_1 (rel_2 r) (ln_sizes ln)) in *. set (b := size_or_1 (rel_3 r) (ln_sizes ln)) in *.
      destruct Ok' as [[P0 Ex]|(U & W & L & R & LR)].
      + rewrite P0. cbn [fst snd]. rewrite Z.sub_0_r, Z.min_id.
        rewrite filter_all_true.
        * apply pr_size_iff; auto.
        * intros v Hv. apply in_all_indices in Hv. destruct Hv as (x & y & Hx & Hy & ->).
          apply andb_true_iff. rewrite Z.leb_le, Z.ltb_lt. nia.
      + rewrite U in *.
        assert (T := pr_total_unpadded (rel_coef_2 r) a b (fst (pad_of padding (rel_1 r))) (snd (pad_of padding (rel_1 r))) P2 Pa W L R).
        unfold calc_pr_dimension_size_total, unpadded in T. cbn [fst snd] in T. rewrite Z.min_l by lia.
        rewrite T by lia. f_equal. apply filter_ext. intros v. f_equal. f_equal. lia.
  Qed.

  (** Sizes given by the user that are not below the numbers of indices. *)
  Theorem node_elements_given given : create_pr_layer_dim_sizes nd = Some given ->
    (forall r, In r rels -> exact_count (ln_sizes ln) r /\ exists m, dget (rel_1 r) given = Some m /\
       distinct (all_indices (rel_coef_2 r) (size_of (ln_sizes ln) (rel_2 r)) (rel_coef_3 r) (size_of (ln_sizes ln) (rel_3 r))) <= m) ->
    dget op (ln_size_elem ln) = Some (elements_touched rels subs (ln_sizes ln)).
  Proof.
    intros Hg Ex. destruct node_size as (n & Gn & En). rewrite Gn. f_equal. destruct good as [Nd Hs].
    assert (Gs : forall r, In r rels -> exists m, dget (rel_1 r) (l_pr_sizes (ln_layer ln)) = Some m /\
       distinct (all_indices (rel_coef_2 r) (size_of (ln_sizes ln) (rel_2 r)) (rel_coef_3 r) (size_of (ln_sizes ln) (rel_3 r))) <= m).
    { intros r Hr. destruct (Ex r Hr) as (_ & m & Gm & Lm). exists m. split; [|exact Lm].
      destruct (node_shape order links nd ln built) as (rs & p & pd & Er & Ep & Es & Eo & _ & _ & Epr & Em & _ & _).
      rewrite Hg in Em. rewrite Epr. destruct given as [|x l]; [discriminate|]. injection Em as <-. exact Gm. }
    rewrite En by (intros r Hr _; destruct (Gs r Hr) as (m & Gm & _); eapply dget_Some_key, Gm).
    rewrite <- elements_all. apply derived_counts; [reflexivity|].
    intros r Hr. unfold derived_size. rewrite find_rel by assumption. destruct (Gs r Hr) as (m & Gm & Lm).
    unfold size_or_1 at 1. rewrite Gm. rewrite !size_of_eq in Lm. rewrite filter_true.
    destruct (Hs r Hr) as (P2 & P3 & _).
    assert (Pa := size_pos (rel_2 r)). assert (Pb := size_pos (rel_3 r)).
    destruct (Ex r Hr) as (E & _). unfold exact_count in E. rewrite !size_of_eq in E.
    apply pr_size_iff in E; auto. lia.
  Qed.

  (** Without padding the size never understates the elements touched. *)
  Theorem node_elements_over : create_pr_layer_dim_sizes nd = None -> nd_padding nd = None ->
    exists n, dget op (ln_size_elem ln) = Some n /\ elements_touched rels subs (ln_sizes ln) <= n.
  Proof.
    intros Hn Hp. destruct node_size as (n & Gn & En). exists n. split; [exact Gn|].
    assert (Cp : create_padding nd = Ok []) by (unfold create_padding; rewrite Hp; now destruct (nd_pr_loop_dims nd)).
    assert (Ds := default_sizes [] Cp Hn). destruct good as [Nd Hs].
    rewrite En by (intros r Hr _; eapply dget_Some_key, Ds, Hr).
    rewrite <- elements_all, elements_product; [|exact sizes_nodup|exact apart|exact box_inhabited].
    assert (M : forall (f g : string -> Z) l, (forall s, In s l -> 0 <= f s <= g s) -> 0 <= zprod (map f l) <= zprod (map g l)).
    { clear. intros f g. induction l as [|x l IH]; intros H; [cbn; lia|]. cbn [map]. rewrite !zprod_cons.
      specialize (IH (fun s Hs => H s (or_intror Hs))). specialize (H x (or_introl eq_refl)). nia. }
    apply M. intros s Hss. split; [unfold distinct; lia|]. rewrite filter_true. unfold values_of, derived_size.
    destruct (find (fun r => eqb (rel_1 r) s) rels) as [r|] eqn:F.
    - apply find_some in F. destruct F as [F1 F2]. destruct (eqb_spec (rel_1 r) s) as [E|]; [|discriminate]. subst s.
      unfold size_or_1 at 1. rewrite (Ds r F1). cbn [pad_of dget fst snd]. rewrite Z.sub_0_r, Z.min_id.
      destruct (Hs r F1) as (P2 & P3 & _). apply pr_size_over; auto using size_pos.
    - rewrite distinct_zrange; [unfold size_in; lia|]. unfold size_in. generalize (size_pos s). lia.
  Qed.
End Final.

(** * Examples *)

(** A strided convolution over 8x8 outputs with padding on the left. *)
Definition conv_equation : written_equation :=
  mkWE (mkWritten "O" ["b"; "k"; "oy"; "ox"]) "" "+=" "" (mkWritten "W" ["k"; "c"; "fy"; "fx"])
       [mkFactor "" "*" "" (mkWritten "I" ["b"; "c"; "iy"; "ix"])] "".
Definition conv_node : node_data :=
  mkNode (equation_text conv_equation) ["B"; "K"; "C"; "OY"; "OX"; "FY"; "FX"] [1; 16; 4; 8; 8; 3; 3]
    [("O", 16); ("W", 8); ("I", 8); ("O_final", 8)] ["ix=2*ox+1*fx"; "iy=2*oy+1*fy"]
    (Some ["IX"; "IY"]) None (Some [(1, 0); (1, 0)]).

(** A layer where one input has only one of the two derived dimensions. *)
Definition mixed_node : node_data :=
  mkNode "O[oy][ox]+=I[iy][ix]*W[ix]" ["OY"; "OX"; "FY"; "FX"] [8; 8; 3; 3]
    [("O", 16); ("W", 8); ("I", 8)] ["ix=1*ox+1*fx"; "iy=1*oy+1*fy"] None None None.

(** Large second stride and few outputs: the formula counts too much. *)
Definition sparse_node : node_data :=
  mkNode "O[ox]+=I[ix]*W[fx]" ["OX"; "FX"] [2; 4]
    [("O", 16); ("W", 8); ("I", 8)] ["ix=1*ox+3*fx"] None None None.

Definition same_order (l : list string) : list string := l.

Lemma node_bits order links nd ln op : layer_node_of order links nd = Ok ln -> In op (ln_operands ln) ->
  exists n p, dget op (ln_size_elem ln) = Some n /\ dget op (nd_precision nd) = Some p /\
    dget op (ln_size_bit ln) = Some (n * p) /\ n <> 0 /\
    ln_macs ln = zprod (values (create_layer_dim_sizes nd)) /\
    dget op (ln_reuse ln) = Some (inject_Z (ln_macs ln) / inject_Z n)%Q.
Proof.
  intros B I. destruct (node_shape order links nd ln B) as (rs & p & pd & Er & Ep & Es & Eo & _ & _ & Epr & Em & M & H).
  destruct (H op I) as (rv & n & b & _ & _ & _ & Gn & Gp & Gb & Nn & Gr & _). exists n, b. rewrite <- Es. auto 8.
Qed.

Ltac no_dup := repeat (constructor; [cbn; intuition discriminate|]); try constructor.

Lemma mixed_example :
  exists order links nd ln rels subs rv,
  (forall l, Permutation (order l) l) /\ layer_node_of order links nd = Ok ln /\
  rmap create_relation (nd_relations nd) = Ok rels /\ sensible rels (keys (ln_sizes ln)) /\
  In "W" (ln_operands ln) /\ get_r_layer_dims (node_tokens nd) "W" = Ok subs /\
  dget "W" (ln_relevancy ln) = Some rv /\ dget "OY" (ln_sizes ln) = Some 8 /\
  independent rels subs "OY" /\ ~ In "OY" (rv_ir rv) /\
  dget "W" (ln_size_elem ln) = Some 100 /\ elements_touched rels subs (ln_sizes ln) = 10.
Proof.
  exists same_order, [], mixed_node. eexists. exists [mkRel "IX" 1 "OX" 1 "FX"; mkRel "IY" 1 "OY" 1 "FY"], ["IX"]. eexists.
  split; [intros l; apply Permutation_refl|]. split; [vm_compute; reflexivity|]. split; [vm_compute; reflexivity|].
  split.
  { split; [cbn [map rel_1]; no_dup|]. intros r [<-|[<-|[]]]; cbn [rel_1 rel_2 rel_3 rel_coef_2 rel_coef_3];
      (split; [lia|]; split; [lia|]; cbn; intuition discriminate). }
  split; [cbn; tauto|]. split; [vm_compute; reflexivity|]. split; [reflexivity|]. split; [reflexivity|].
  split.
  { intros x y H. cbn. rewrite !H by discriminate. reflexivity. }
  split; [cbn; intuition discriminate|]. split; vm_compute; reflexivity.
Qed.

Lemma sparse_example :
  exists order links nd ln rels, layer_node_of order links nd = Ok ln /\
  rmap create_relation (nd_relations nd) = Ok rels /\
  dget "I" (ln_size_elem ln) = Some 11 /\ elements_touched rels ["IX"] (ln_sizes ln) = 8.
Proof.
  exists same_order, [], sparse_node. do 2 eexists. split; [vm_compute; reflexivity|]. split; [vm_compute; reflexivity|].
  split; vm_compute; reflexivity.
Qed.

Lemma conv_sizes_example : exists ln, layer_node_of same_order [] conv_node = Ok ln /\
  sensible [mkRel "IX" 2 "OX" 1 "FX"; mkRel "IY" 2 "OY" 1 "FY"] (keys (ln_sizes ln)) /\
  all_or_none [mkRel "IX" 2 "OX" 1 "FX"; mkRel "IY" 2 "OY" 1 "FY"] ["B"; "C"; "IY"; "IX"] /\
  separate [mkRel "IX" 2 "OX" 1 "FX"; mkRel "IY" 2 "OY" 1 "FY"] ["B"; "C"; "IY"; "IX"] (ln_sizes ln) /\
  rmap create_relation (nd_relations conv_node) = Ok [mkRel "IX" 2 "OX" 1 "FX"; mkRel "IY" 2 "OY" 1 "FY"] /\
  create_padding conv_node = Ok [("IX", (1, 0)); ("IY", (1, 0))] /\
  create_pr_layer_dim_sizes conv_node = None /\
  dget "I" (ln_size_elem ln) = Some (4 * (16 * 16)).
Proof.
  eexists. split; [vm_compute; reflexivity|].
  split.
  { split; [cbn [map rel_1]; no_dup|]. intros r [<-|[<-|[]]]; cbn [rel_1 rel_2 rel_3 rel_coef_2 rel_coef_3];
      (split; [lia|]; split; [lia|]; cbn; intuition discriminate). }
  split; [left; intros r [<-|[<-|[]]]; cbn; tauto|].
  split; [split; [vm_compute; no_dup|intros d Hd; vm_compute in Hd; cbn; intuition (subst; tauto)]|].
  repeat split; vm_compute; reflexivity.
Qed.

Lemma wildcard_example :
  exists dims (o : ordering) p,
    get_constraints (remove_invalid_layer_dims dims o) = ([(0, "K")], []) /\
    get_constraints o = ([(-1, "K")], []) /\
    meets o p /\ ~ meets (remove_invalid_layer_dims dims o) p.
Proof.
  exists ["K"; "C"], [("*", None); ("K", None)], [("C", 3); ("K", 2)].
  split; [vm_compute; reflexivity|]. split; [vm_compute; reflexivity|]. split.
  - intros [|[|[]]] e H N; cbn in H; try discriminate; injection H as <-.
    + exfalso. apply N. reflexivity.
    + exists ("K", 2). split; [split; [reflexivity|discriminate]|]. split.
      * intros B. exfalso. apply (B 0%nat ("*", None)); [lia|reflexivity|reflexivity].
      * reflexivity.
  - intros M. assert (E : remove_invalid_layer_dims ["K"; "C"] [("*", None); ("K", None)] = [("K", None)]) by reflexivity.
    rewrite E in M. destruct (M 0%nat ("K", None)) as (x & F & B & _); [reflexivity|discriminate|].
    assert (B' : nth_error [("C", 3); ("K", 2)] 0 = Some x).
    { apply B. intros [|j] e Hj He; [|lia]. cbn in He. injection He as <-. discriminate. }
    cbn in B'. injection B' as <-. destruct F as [F _]. discriminate.
Qed.

Ltac letters := intros ? ?H; vm_compute in H; repeat (destruct H as [<-|H]; [vm_compute; tauto|]); destruct H.

Lemma conv_example : plain_equation conv_equation /\ accepted conv_equation /\
  equation_text conv_equation = "O[b][k][oy][ox]+=W[k][c][fy][fx]*I[b][c][iy][ix]" /\
  create_relation "ix = 2*ox + fx" = Ok (mkRel "IX" 2 "OX" 1 "FX").
Proof.
  split; [|split; [|split; vm_compute; reflexivity]].
  - split.
    + intros w Hw. cbn in Hw. destruct Hw as [<-|[<-|[<-|[]]]]; (split; [letters|split; [discriminate|]]);
        intros s Hs; cbn in Hs; repeat (destruct Hs as [<-|Hs]; [letters|]); destruct Hs.
    + do 3 (split; [letters|]). split; [now right|]. intros f [<-|[]]. split; [letters|]. split; [letters|]. now left.
  - split; [reflexivity|]. split; [discriminate|].
    split; [intros s Hs; cbn in Hs; repeat (destruct Hs as [<-|Hs]; [split; [letters|discriminate]|]); destruct Hs|].
    do 3 (split; [letters|]).
    split; [right; exists ""; split; [letters|reflexivity]|].
    split; [exists "W"%char; split; [reflexivity|letters]|]. split; [discriminate|].
    split; [intros s Hs; cbn in Hs; repeat (destruct Hs as [<-|Hs]; [split; [letters|discriminate]|]); destruct Hs|].
    eexists. split; [reflexivity|]. split; [letters|]. split; [letters|]. split; [now left|].
    split; [exists "I"%char; split; [reflexivity|letters]|]. split; [discriminate|].
    intros s Hs; cbn in Hs; repeat (destruct Hs as [<-|Hs]; [letters|]); destruct Hs.
Qed.

Lemma gap_example : exists e, accepted e /\ equation_text e = "O[k] + = W[k]*I[k]" /\
  contained_operands (disassembly (create_equation (equation_text e))) = Ok ["O"; "="; "W"; "I"].
Proof.
  exists (mkWE (mkWritten "O" ["k"]) " " "+ =" " " (mkWritten "W" ["k"]) [mkFactor "" "*" "" (mkWritten "I" ["k"])] "").
  split; [|split; vm_compute; reflexivity].
  split; [reflexivity|]. split; [discriminate|].
  split; [intros s Hs; cbn in Hs; repeat (destruct Hs as [<-|Hs]; [split; [letters|discriminate]|]); destruct Hs|].
  do 3 (split; [letters|]).
  split; [right; exists " "; split; [letters|reflexivity]|].
  split; [exists "W"%char; split; [reflexivity|letters]|]. split; [discriminate|].
  split; [intros s Hs; cbn in Hs; repeat (destruct Hs as [<-|Hs]; [split; [letters|discriminate]|]); destruct Hs|].
  eexists. split; [reflexivity|]. split; [letters|]. split; [letters|]. split; [now left|].
  split; [exists "I"%char; split; [reflexivity|letters]|]. split; [discriminate|].
  intros s Hs; cbn in Hs; repeat (destruct Hs as [<-|Hs]; [letters|]); destruct Hs.
Qed.

Lemma underscore_example : exists e, accepted e /\ equation_text e = "O[k_1]+=W[k_1]*I[k]" /\
  get_r_layer_dims (disassembly (create_equation (equation_text e))) "W" = Ok ["K"; "1"].
Proof.
  exists (mkWE (mkWritten "O" ["k_1"]) "" "+=" "" (mkWritten "W" ["k_1"]) [mkFactor "" "*" "" (mkWritten "I" ["k"])] "").
  split; [|split; vm_compute; reflexivity].
  split; [reflexivity|]. split; [discriminate|].
  split; [intros s Hs; cbn in Hs; repeat (destruct Hs as [<-|Hs]; [split; [letters|discriminate]|]); destruct Hs|].
  do 3 (split; [letters|]).
  split; [right; exists ""; split; [letters|reflexivity]|].
  split; [exists "W"%char; split; [reflexivity|letters]|]. split; [discriminate|].
  split; [intros s Hs; cbn in Hs; repeat (destruct Hs as [<-|Hs]; [split; [letters|discriminate]|]); destruct Hs|].
  eexists. split; [reflexivity|]. split; [letters|]. split; [letters|]. split; [now left|].
  split; [exists "I"%char; split; [reflexivity|letters]|]. split; [discriminate|].
  intros s Hs; cbn in Hs; repeat (destruct Hs as [<-|Hs]; [letters|]); destruct Hs.
Qed.
