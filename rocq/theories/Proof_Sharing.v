(** Proofs about memories shared between operands. *)
From Coq Require Import QArith.
From Verif Require Import Base Model_DataMove Model_Cost Model_Graph Model_Hierarchy Spec_Graph Spec_Hierarchy.
From Verif Require Import Proof_AllocSearch Proof_Graph Proof_Latency Proof_Generation Proof_Bandwidth Proof_Hierarchy.
Local Open Scope list_scope.
Local Open Scope nat_scope.

Lemma hd_ok k ms h : build k ms = Ok h -> exists hd, mem_hierarchy_dict h = Ok hd /\ keys hd = keys (h_nb h) /\
  forall op ls, In (op, ls) hd -> get_memory_levels h op = Ok ls.
Proof.
  intros E. unfold mem_hierarchy_dict.
  destruct (rmap_ok' (fun op => ls <- get_memory_levels h op ;; Ok (op, ls))%result (keys (h_nb h))) as (hd & Ehd).
  { intros op _. destruct (levels_perm k ms h E) as (L & _ & _ & Q). destruct (Q op) as (ls & -> & _). cbn. eauto. }
  exists hd. split; [exact Ehd|]. apply rmap_Forall2 in Ehd. split.
  - unfold keys at 1. induction Ehd as [|op x ops hd Q F IH]; [reflexivity|]. cbn [map]. apply rbind_Ok in Q. destruct Q as (ls & _ & Q). injection Q as <-. cbn [fst]. now f_equal.
  - intros op ls Q. destruct (Forall2_in_r _ _ _ _ Ehd Q) as (op' & _ & Q'). apply rbind_Ok in Q'. destruct Q' as (ls' & Q1 & Q2). now injection Q2 as -> ->.
Qed.

Definition shared (ls : list level) (g : dict string nat) : Prop := exists l, In l ls /\ g = lv_dict l /\ 1 < length (lv_dict l).

Lemma eqb_same h l l' : hinv h -> In l (h_list h) -> In l' (h_list h) -> 1 < length (lv_dict l) -> dict_eqb (lv_dict l) (lv_dict l') = true -> l = l'.
Proof.
  intros I Il Il' L Q. unfold dict_eqb in Q. apply andb_true_iff in Q. destruct Q as (_ & Q). destruct (lv_dict l) as [|[op n] d] eqn:E; [cbn in L; lia|].
  cbn [forallb fst snd] in Q. apply andb_true_iff in Q. destruct Q as (Q & _). destruct (dget op (lv_dict l')) as [n'|] eqn:E'; [|discriminate]. apply Nat.eqb_eq in Q. subst n'.
  apply In_nth_error in Il, Il'. destruct Il as (i & Ei), Il' as (j & Ej). assert (i = j); [|subst; congruence].
  apply (number_unique h i j l l' op n I Ei Ej); [|exact E']. rewrite E. cbn [dget]. now rewrite eqb_refl.
Qed.
Lemma eqb_refl_dict (d : dict string nat) : NoDup (keys d) -> dict_eqb d d = true.
Proof.
  intros N. unfold dict_eqb. rewrite Nat.eqb_refl. cbn [andb]. apply forallb_forall. intros [op n] I. cbn [fst snd]. rewrite (In_dget _ _ _ N I). apply Nat.eqb_refl.
Qed.

Lemma share_step h acc l done : hinv h -> (forall x, In x done -> In x (h_list h)) -> In l (h_list h) ->
  NoDup acc -> (forall g, In g acc <-> shared done g) -> NoDup (share acc l) /\ forall g, In g (share acc l) <-> shared (done ++ [l]) g.
Proof.
  intros I Id Il N A. unfold share. destruct (Nat.ltb_spec 1 (length (lv_dict l))) as [L|L]; cbn [andb].
  - destruct (existsb (dict_eqb (lv_dict l)) acc) eqn:X; cbn [negb].
    + split; [exact N|]. apply existsb_exists in X. destruct X as (g' & Ig' & Q). assert (A' := proj1 (A g') Ig'). destruct A' as (l' & Il' & -> & L').
      assert (l = l') by (apply (eqb_same h l l' I Il (Id l' Il') L Q)). subst l'. intros g. rewrite A. split.
      * intros (x & Ix & Ex). exists x. split; [apply in_or_app; now left|exact Ex].
      * intros (x & Ix & Ex). apply in_app_or in Ix. destruct Ix as [Ix|[<-|[]]]; [now exists x|now exists l].
    + split.
      * apply NoDup_snoc'; [exact N|]. intros Q. rewrite (proj2 (existsb_exists _ _)) in X; [discriminate|]. exists (lv_dict l). split; [exact Q|]. apply eqb_refl_dict. now apply (hi_keys h I).
      * intros g. rewrite in_app_iff, A. cbn. split.
        -- intros [(x & Ix & Ex)|[<-|[]]]; [exists x; split; [apply in_or_app; now left|exact Ex]|]. exists l. split; [apply in_or_app; right; now left|]. now split.
        -- intros (x & Ix & Ex & Lx). apply in_app_or in Ix. destruct Ix as [Ix|[<-|[]]]; [left; now exists x|right; left; now symmetry].
  - split; [exact N|]. intros g. rewrite A. split.
    + intros (x & Ix & Ex). exists x. split; [apply in_or_app; now left|exact Ex].
    + intros (x & Ix & Ex & Lx). apply in_app_or in Ix. destruct Ix as [Ix|[<-|[]]]; [now exists x|lia].
Qed.
Lemma share_all h ls : forall acc done, hinv h -> (forall x, In x done -> In x (h_list h)) -> (forall x, In x ls -> In x (h_list h)) ->
  NoDup acc -> (forall g, In g acc <-> shared done g) -> NoDup (fold_left share ls acc) /\ forall g, In g (fold_left share ls acc) <-> shared (done ++ ls) g.
Proof.
  induction ls as [|l ls IH]; intros acc done I Id Il N A; [now rewrite app_nil_r|]. cbn [fold_left].
  destruct (share_step h acc l done I Id (Il l (or_introl eq_refl)) N A) as (N' & A'). specialize (IH (share acc l) (done ++ [l]) I).
  rewrite <- app_assoc in IH. cbn [app] in IH. apply IH; [|intros; apply Il; now right|exact N'|exact A']. intros x Ix. apply in_app_or in Ix. destruct Ix as [Ix|[<-|[]]]; [now apply Id|apply Il; now left].
Qed.
Lemma share_groups h (hd : dict string (list level)) : forall acc done, hinv h -> (forall x, In x done -> In x (h_list h)) -> (forall op ls x, In (op, ls) hd -> In x ls -> In x (h_list h)) ->
  NoDup acc -> (forall g, In g acc <-> shared done g) ->
  NoDup (fold_left (fun acc x => fold_left share (snd x) acc) hd acc) /\
  forall g, In g (fold_left (fun acc x => fold_left share (snd x) acc) hd acc) <-> shared (done ++ concat (map snd hd)) g.
Proof.
  induction hd as [|[op ls] hd IH]; intros acc done I Id Il N A; [cbn; now rewrite app_nil_r|]. cbn [fold_left snd map concat].
  assert (Il' : forall x, In x ls -> In x (h_list h)) by (intros x; apply (Il op ls); now left).
  destruct (share_all h ls acc done I Id Il' N A) as (N' & A'). specialize (IH (fold_left share ls acc) (done ++ ls) I). rewrite <- app_assoc in IH.
  apply IH; [|intros op' ls' x Q; apply (Il op' ls'); now right|exact N'|exact A']. intros x Ix. apply in_app_or in Ix. destruct Ix; [now apply Id|now apply Il'].
Qed.

Lemma sharing_spec k ms h : build k ms = Ok h -> exists hd, mem_hierarchy_dict h = Ok hd /\ NoDup (mem_sharing_list hd) /\
  (forall g, In g (mem_sharing_list hd) <-> exists l, In l (h_list h) /\ g = lv_dict l /\ 1 < length (lv_dict l)).
Proof.
  intros E. destruct (build_inv k ms h E) as (I & _). destruct (hd_ok k ms h E) as (hd & Ehd & Kd & Ld). exists hd. split; [exact Ehd|].
  destruct (levels_perm k ms h E) as (L & _ & _ & Q).
  assert (Il : forall op ls x, In (op, ls) hd -> In x ls <-> In x (h_list h) /\ stores op x).
  { intros op ls x Ih. apply Ld in Ih. destruct (Q op) as (ls' & E' & _ & P). rewrite Ih in E'. injection E' as <-. split.
    - intros Ix. apply (Permutation_in _ P) in Ix. apply filter_In in Ix. destruct Ix as (Ix & S). split; [exact Ix|now apply memb_In].
    - intros (Ix & S). apply (Permutation_in _ (Permutation_sym P)). apply filter_In. split; [exact Ix|now apply memb_In]. }
  destruct (share_groups h hd [] [] I) as (N & A).
  - intros x [].
  - intros op ls x Ih Ix. now apply (Il op ls).
  - apply NoDup_nil.
  - intros g. split; [intros []|]. intros (l & [] & _).
  - split; [exact N|]. intros g. unfold mem_sharing_list. rewrite A. cbn [app]. split.
    + intros (l & Ic & Q'). exists l. split; [|exact Q']. apply in_concat in Ic. destruct Ic as (ls & Ils & Ix). apply in_map_iff in Ils. destruct Ils as ((op, ls') & <- & Ih). now apply (Il op ls' l Ih).
    + intros (l & Ix & Eg & Lg). exists l. split; [|split; [exact Eg|exact Lg]]. destruct (lv_dict l) as [|[op n] d] eqn:Ed; [cbn in Lg; lia|].
      assert (S : holds op l = true).
      { apply In_nth_error in Ix. destruct Ix as (i & Ei). assert (D := hi_dict h I i l op Ei). rewrite Ed in D. cbn [dget] in D. rewrite eqb_refl in D.
        unfold holds. now destruct (memb op (lv_operands l)). }
      assert (Ko : In op (keys hd)) by (rewrite Kd; apply (hi_nbkeys h I); now exists l). apply in_map_iff in Ko. destruct Ko as ((op', ls) & Eo & Ih). cbn [fst] in Eo. subst op'.
      apply in_concat. exists ls. split; [apply in_map_iff; exists (op, ls); now split|]. apply (Il op ls l Ih). split; [exact Ix|now apply holds_stores].
Qed.

Lemma groups_disjoint k ms h hd : build k ms = Ok h -> mem_hierarchy_dict h = Ok hd ->
  (forall g, In g (mem_sharing_list hd) -> NoDup g) /\
  (forall g g' x, In g (mem_sharing_list hd) -> In g' (mem_sharing_list hd) -> In x g -> In x g' -> g = g').
Proof.
  intros E Eh. destruct (build_inv k ms h E) as (I & _). destruct (sharing_spec k ms h E) as (hd' & E' & _ & A). rewrite Eh in E'. injection E' as <-. split.
  - intros g Ig. apply A in Ig. destruct Ig as (l & Il & -> & _). apply (NoDup_map_inv fst). now apply (hi_keys h I).
  - intros g g' [op n] Ig Ig' Ix Ix'. apply A in Ig, Ig'. destruct Ig as (l & Il & -> & _), Ig' as (l' & Il' & -> & _).
    apply In_dget in Ix; [|now apply (hi_keys h I)]. apply In_dget in Ix'; [|now apply (hi_keys h I)].
    apply In_nth_error in Il, Il'. destruct Il as (i & Ei), Il' as (j & Ej). assert (i = j) by (now apply (number_unique h i j l l' op n I Ei Ej)). congruence.
Qed.
