(** Proofs about loop relevancy (C32). *)
From Verif Require Import Base Model_Pr Model_Text Model_Alloc Model_Layer Spec_Pr Spec_Loma Spec_Layer
  Proof_AllocSearch Proof_Window Proof_Generation.
Open Scope string_scope.
Open Scope list_scope.
Open Scope Z_scope.

(** * Dictionaries from pairs *)

Lemma dict_of_nodup {V} (l : list (string * V)) : NoDup (map fst l) -> dict_of l = l.
Proof.
  unfold dict_of. intros H.
  assert (G : forall l acc, NoDup (keys acc ++ map fst l) ->
    fold_left (fun d (kv : string * V) => dset (fst kv) (snd kv) d) l acc = acc ++ l).
  { clear. induction l as [|[k v] l IH]; intros acc H; cbn [fold_left]; [now rewrite app_nil_r|].
    cbn [fst snd]. cbn [map fst] in H. rewrite dset_fresh.
    - rewrite IH; [now rewrite <- app_assoc|]. unfold keys. rewrite map_app, <- app_assoc. exact H.
    - apply NoDup_remove_2 in H. intros Hi. apply H, in_or_app. now left. }
  rewrite G; [reflexivity|exact H].
Qed.

Lemma In_dict_of {V} (l : list (string * V)) k : In k (keys (dict_of l)) <-> In k (map fst l).
Proof.
  unfold dict_of.
  assert (G : forall l acc, In k (keys (fold_left (fun d (kv : string * V) => dset (fst kv) (snd kv) d) l acc))
     <-> In k (keys acc) \/ In k (map fst l)).
  { clear. induction l as [|[a v] l IH]; intros acc; cbn [fold_left map fst snd]; [cbn; tauto|].
    rewrite IH, In_keys_dset. cbn. intuition congruence. }
  rewrite G. cbn. tauto.
Qed.

Lemma NoDup_dict_of {V} (l : list (string * V)) : NoDup (keys (dict_of l)).
Proof.
  unfold dict_of. assert (G : forall l acc, NoDup (keys acc) ->
    NoDup (keys (fold_left (fun d (kv : string * V) => dset (fst kv) (snd kv) d) l acc))).
  { clear. induction l as [|[a v] l IH]; intros acc H; cbn [fold_left]; [exact H|]. apply IH. now apply NoDup_dset. }
  apply G. constructor.
Qed.

(** * Dimensions of more than one iteration *)

Lemma not_one_spec sizes : forall ds l, not_one sizes ds = Ok l ->
  l = filter (fun d => negb (size_or_1 d sizes =? 1)) ds /\ (forall d, In d ds -> In d (keys sizes)).
Proof.
  induction ds as [|d ds IH]; intros l H; cbn [not_one] in H; [injection H as <-; split; [reflexivity|intros d []]|].
  destruct (dgetr d sizes) as [n|] eqn:E; [|discriminate]. cbn [rbind] in H.
  destruct (not_one sizes ds) as [rest|] eqn:Er; [|discriminate]. cbn [rbind] in H. injection H as <-.
  destruct (IH rest eq_refl) as [-> K]. unfold dgetr in E. destruct (dget d sizes) as [m|] eqn:Em; [|discriminate].
  cbn in E. injection E as ->. split.
  - cbn [filter]. assert (Es : size_or_1 d sizes = n) by (unfold size_or_1; now rewrite Em). rewrite Es. now destruct (n =? 1).
  - intros x [<-|Hx]; [eapply dget_Some_key; eassumption|now apply K].
Qed.

Lemma not_one_ok sizes ds : (forall d, In d ds -> In d (keys sizes)) ->
  not_one sizes ds = Ok (filter (fun d => negb (size_or_1 d sizes =? 1)) ds).
Proof.
  induction ds as [|d ds IH]; intros H; [reflexivity|]. cbn [not_one filter].
  destruct (key_dget d sizes) as (n & En); [apply H; now left|].
  unfold dgetr. rewrite En. cbn [of_option rbind]. rewrite IH by (intros x Hx; apply H; now right).
  cbn [rbind]. assert (Es : size_or_1 d sizes = n) by (unfold size_or_1; now rewrite En). rewrite Es. now destruct (n =? 1).
Qed.

Lemma pr_list_spec rels d : In d (pr_loop_list_of rels) <-> exists r, In r rels /\ (d = rel_1 r \/ d = rel_2 r \/ d = rel_3 r).
Proof.
  unfold pr_loop_list_of. rewrite in_flat_map. split.
  - intros (r & Hr & [E|[E|[E|[]]]]); exists r; subst; auto.
  - intros (r & Hr & H). exists r. split; [exact Hr|]. cbn. intuition auto.
Qed.

Lemma pr_loop_keys rels d : dmem d (pr_loop_of rels) = true <-> In d (map rel_1 rels).
Proof.
  unfold dmem, pr_loop_of.
  assert (K : In d (keys (dict_of (map (fun r => (rel_1 r, (rel_2 r, rel_3 r))) rels))) <-> In d (map rel_1 rels))
    by (rewrite In_dict_of, map_map; reflexivity).
  rewrite <- K. destruct (dget d _) eqn:E.
  - split; [intros _; eapply dget_Some_key; eassumption|reflexivity].
  - apply dget_None in E. split; [discriminate|tauto].
Qed.

Lemma part_of_list rels d : NoDup (map rel_1 rels) -> (part_of (pr_loop_of rels) d <-> In d (pr_loop_list_of rels)).
Proof.
  intros Nd. unfold part_of, pr_loop_of. rewrite dict_of_nodup by (rewrite map_map; exact Nd). rewrite pr_list_spec. split.
  - intros (p & a & b & H & E). apply in_map_iff in H. destruct H as (r & Er & Hr). injection Er as <- <- <-. eauto.
  - intros (r & Hr & E). exists (rel_1 r), (rel_2 r), (rel_3 r). split; [|exact E]. apply in_map_iff. eauto.
Qed.

Section Relevance.
  Variable order : list string -> list string.
  Hypothesis order_perm : forall l, Permutation (order l) l.
  Variables (tokens : list string) (sizes : dict string Z) (rels : list relation).
  Hypothesis rels_once : NoDup (map rel_1 rels).

  Lemma relevancy_shape op rv : relevancy_of order tokens sizes (pr_loop_of rels) (pr_loop_list_of rels) op = Ok rv ->
    exists subs, get_r_layer_dims tokens op = Ok subs /\
    let ir0 := order (filter (fun d => negb (memb d subs)) (keys sizes)) in
    let big := filter (fun d => negb (size_or_1 d sizes =? 1)) in
    ((exists d, In d subs /\ In d (map rel_1 rels)) /\
     rv = mkRelevancy (filter (fun d => negb (memb d (pr_loop_list_of rels))) subs)
            (big (filter (fun d => negb (memb d (pr_loop_list_of rels))) ir0)) (pr_loop_of rels) \/
     (forall d, In d subs -> ~ In d (map rel_1 rels)) /\
     rv = mkRelevancy (big subs) (big ir0) [] /\ (forall d, In d subs -> In d (keys sizes))).
  Proof.
    unfold relevancy_of. intros H. destruct (get_r_layer_dims tokens op) as [subs|] eqn:Es; [|discriminate].
    cbn [rbind] in H. exists subs. split; [reflexivity|]. cbn zeta in *.
    destruct (existsb (fun d => dmem d (pr_loop_of rels)) subs) eqn:Ex.
    - left. apply existsb_exists in Ex. destruct Ex as (d & Hd & Ed). apply pr_loop_keys in Ed.
      split; [now exists d|].
      destruct (not_one sizes _) as [ir|] eqn:Ei in H; [|discriminate]. cbn [rbind] in H. injection H as <-.
      apply not_one_spec in Ei. destruct Ei as [-> _]. reflexivity.
    - right. destruct (not_one sizes subs) as [r|] eqn:Er in H; [|discriminate]. cbn [rbind] in H.
      destruct (not_one sizes (order _)) as [ir|] eqn:Ei in H; [|discriminate]. cbn [rbind] in H. injection H as <-.
      apply not_one_spec in Er, Ei. destruct Er as [-> K]. destruct Ei as [-> _]. split; [|split; [reflexivity|exact K]].
      intros d Hd Hi. apply pr_loop_keys in Hi.
      assert (existsb (fun d => dmem d (pr_loop_of rels)) subs = true) by (apply existsb_exists; eauto). congruence.
  Qed.

  Lemma in_ir0 subs d : In d (order (filter (fun d => negb (memb d subs)) (keys sizes))) <-> In d (keys sizes) /\ ~ In d subs.
  Proof.
    assert (E : In d (order (filter (fun d => negb (memb d subs)) (keys sizes))) <-> In d (filter (fun d => negb (memb d subs)) (keys sizes))).
    { split; apply Permutation_in; [apply order_perm|apply Permutation_sym, order_perm]. }
    rewrite E, filter_In, negb_true_iff, memb_not_In. reflexivity.
  Qed.

  Lemma relevancy_partition op rv : relevancy_of order tokens sizes (pr_loop_of rels) (pr_loop_list_of rels) op = Ok rv ->
    (forall d n, dget d sizes = Some n -> n <> 1 ->
       one_of (In d (rv_r rv)) (In d (rv_ir rv)) (part_of (rv_pr rv) d)) /\
    exists subs, get_r_layer_dims tokens op = Ok subs /\
      ((forall d, In d subs -> ~ In d (map rel_1 rels)) -> rv_pr rv = []) /\
      ((exists d, In d subs /\ In d (map rel_1 rels)) -> rv_pr rv = pr_loop_of rels) /\
      (forall d, In d (rv_r rv) -> In d subs) /\ (forall d, In d (rv_ir rv) -> ~ In d subs).
  Proof.
    intros H. apply relevancy_shape in H. destruct H as (subs & Es & H). cbn zeta in H. split.
    - intros d n Hd Nn.
      assert (Kd : In d (keys sizes)) by (eapply dget_Some_key; eassumption).
      assert (Sd : negb (size_or_1 d sizes =? 1) = true).
      { unfold size_or_1. rewrite Hd. destruct (Z.eqb_spec n 1); [congruence|reflexivity]. }
      destruct H as [[_ ->]|[_ [-> _]]]; cbn [rv_r rv_ir rv_pr]; unfold one_of.
      + rewrite !filter_In, in_ir0, !negb_true_iff, !memb_not_In, (part_of_list _ _ rels_once).
        rewrite negb_true_iff in Sd.
        destruct (in_dec string_dec d (pr_loop_list_of rels)), (in_dec string_dec d subs); tauto.
      + rewrite !filter_In, in_ir0. assert (P : ~ part_of [] d) by (intros (p & a & b & [] & _)).
        destruct (in_dec string_dec d subs); tauto.
    - exists subs. split; [exact Es|]. destruct H as [[X ->]|[X [-> _]]]; cbn [rv_r rv_ir rv_pr].
      + split; [intros Y; destruct X as (d & A & B); exfalso; now apply (Y d)|]. split; [reflexivity|].
        split; intros d Hd; apply filter_In in Hd; destruct Hd as [Hd _]; [exact Hd|].
        apply filter_In in Hd. destruct Hd as [Hd _]. now apply in_ir0 in Hd.
      + split; [reflexivity|]. split; [intros (d & A & B); exfalso; now apply (X d)|].
        split; intros d Hd; apply filter_In in Hd; destruct Hd as [Hd _]; [exact Hd|]. now apply in_ir0 in Hd.
  Qed.

  (** Irrelevant loops are those on which the accessed element does not depend. *)
  Lemma index_find x s r : In r rels -> rel_1 r = s -> index_at rels x s = rel_coef_2 r * x (rel_2 r) + rel_coef_3 r * x (rel_3 r).
  Proof.
    intros Hr E. unfold index_at. destruct (find (fun r => eqb (rel_1 r) s) rels) as [r'|] eqn:F.
    - apply find_some in F. destruct F as [F1 F2]. destruct (eqb_spec (rel_1 r') s); [|discriminate].
      assert (r' = r); [|now subst]. clear -rels_once Hr F1 e E. subst s. revert rels_once Hr F1. induction rels as [|y l IH]; [intros _ []|].
      cbn [map]. intros N [A|A] [B|B]; try congruence; inversion N as [|? ? N1 N2]; subst.
      + exfalso. apply N1. rewrite <- e. now apply List.in_map.
      + exfalso. apply N1. rewrite e. now apply List.in_map.
      + now apply IH.
    - exfalso. eapply find_none in F; [|exact Hr]. cbv beta in F. rewrite E, eqb_refl in F. discriminate.
  Qed.

  Lemma index_plain x s : ~ In s (map rel_1 rels) -> index_at rels x s = x s.
  Proof.
    intros H. unfold index_at. destruct (find _ rels) as [r|] eqn:F; [|reflexivity].
    apply find_some in F. destruct F as [F1 F2]. destruct (eqb_spec (rel_1 r) s); [|discriminate].
    exfalso. apply H. subst s. now apply List.in_map.
  Qed.

  (** Relations over loops, with positive coefficients. *)
  Hypothesis rels_good : forall r, In r rels -> 0 < rel_coef_2 r /\ 0 < rel_coef_3 r /\
    ~ In (rel_1 r) (keys sizes) /\ In (rel_2 r) (keys sizes) /\ In (rel_3 r) (keys sizes).

  Lemma relevancy_semantic op rv subs :
    relevancy_of order tokens sizes (pr_loop_of rels) (pr_loop_list_of rels) op = Ok rv ->
    get_r_layer_dims tokens op = Ok subs ->
    ((forall r, In r rels -> In (rel_1 r) subs) \/ (forall r, In r rels -> ~ In (rel_1 r) subs)) ->
    forall d n, dget d sizes = Some n -> n <> 1 ->
      (In d (rv_ir rv) <-> independent rels subs d).
  Proof.
    intros H Es All d n Hd Nn. apply relevancy_shape in H. destruct H as (subs' & Es' & H).
    rewrite Es in Es'. injection Es' as <-. cbn zeta in H.
    assert (Kd : In d (keys sizes)) by (eapply dget_Some_key; eassumption).
    assert (Sd : negb (size_or_1 d sizes =? 1) = true).
    { unfold size_or_1. rewrite Hd. destruct (Z.eqb_spec n 1); [congruence|reflexivity]. }
    (* a subscript equal to [d] makes the element depend on [d] *)
    assert (Dep : In d subs -> ~ independent rels subs d).
    { intros Hi In'. specialize (In' (fun _ => 0) (fun x => if eqb x d then 1 else 0)).
      assert (X : map (index_at rels (fun _ => 0)) subs = map (index_at rels (fun x => if eqb x d then 1 else 0)) subs).
      { apply In'. intros d' N. now rewrite eqb_neq. }
      rewrite map_ext_in_iff in X. specialize (X d Hi).
      rewrite !index_plain in X.
      - rewrite eqb_refl in X. discriminate.
      - intros Hr. apply in_map_iff in Hr. destruct Hr as (r & <- & Hr). now apply (rels_good r Hr).
      - intros Hr. apply in_map_iff in Hr. destruct Hr as (r & <- & Hr). now apply (rels_good r Hr). }
    destruct H as [[X ->]|[X [-> _]]]; cbn [rv_ir].
    - assert (A : forall r, In r rels -> In (rel_1 r) subs).
      { destruct All as [A|A]; [exact A|]. destruct X as (p & P1 & P2). apply in_map_iff in P2.
        destruct P2 as (r & <- & Hr). exfalso. now apply (A r Hr). }
      rewrite !filter_In, in_ir0, negb_true_iff, memb_not_In. split.
      + intros [[[_ Ns] Np] _] x y Hxy. apply map_ext_in. intros s Hs.
        destruct (in_dec string_dec s (map rel_1 rels)) as [Hi|Hi].
        * apply in_map_iff in Hi. destruct Hi as (r & <- & Hr). rewrite !(index_find _ _ r Hr eq_refl).
          rewrite !Hxy; [reflexivity| |]; intros Ed; apply Np; apply pr_list_spec; exists r; auto.
        * rewrite !index_plain by exact Hi. apply Hxy. intros Ed. apply Ns. now rewrite <- Ed.
      + intros Ind. split; [|exact Sd]. split.
        * split; [exact Kd|]. intros Hi. now apply Dep.
        * intros Hp. apply pr_list_spec in Hp. destruct Hp as (r & Hr & Ed).
          destruct (rels_good r Hr) as (C2 & C3 & N1 & _).
          destruct Ed as [->|Ed]; [now apply N1|].
          specialize (Ind (fun _ => 0) (fun x => if eqb x d then 1 else 0)).
          assert (Y : map (index_at rels (fun _ => 0)) subs = map (index_at rels (fun x => if eqb x d then 1 else 0)) subs).
          { apply Ind. intros d' N. now rewrite eqb_neq. }
          rewrite map_ext_in_iff in Y. specialize (Y (rel_1 r) (A r Hr)).
          rewrite !(index_find _ _ r Hr eq_refl) in Y.
          destruct (eqb_spec (rel_2 r) d), (eqb_spec (rel_3 r) d); subst; try lia. destruct Ed; congruence.
    - rewrite filter_In, in_ir0. split.
      + intros [[_ Ns] _] x y Hxy. apply map_ext_in. intros s Hs. rewrite !index_plain by (now apply X).
        apply Hxy. intros Ed. apply Ns. now rewrite <- Ed.
      + intros Ind. split; [|exact Sd]. split; [exact Kd|]. intros Hi. now apply Dep.
  Qed.
End Relevance.
