(** Proofs about graphs. *)
From Verif Require Import Base Model_Graph Spec_Graph Proof_AllocSearch.
Local Open Scope nat_scope.

Section Graph.
  Context {A : Type} `{EqB A}.
  Implicit Types (g : graph A) (l : list A).

  Lemma edge_eqb_spec (e e' : A * A) : edge_eqb e e' = true <-> e = e'.
  Proof.
    destruct e as [a b], e' as [a' b']. unfold edge_eqb. cbn [fst snd]. rewrite andb_true_iff.
    destruct (eqb_spec a a'), (eqb_spec b b'); split; intros Q; try easy; try (destruct Q; discriminate); congruence.
  Qed.

  (** * Building *)

  Lemma nodes_add_node x g : g_nodes (add_node x g) = if memb x (g_nodes g) then g_nodes g else g_nodes g ++ [x].
  Proof. unfold add_node. now destruct (memb x (g_nodes g)). Qed.
  Lemma edges_add_node x g : g_edges (add_node x g) = g_edges g.
  Proof. unfold add_node. now destruct (memb x (g_nodes g)). Qed.
  Lemma In_add_node y x g : In y (g_nodes (add_node x g)) <-> In y (g_nodes g) \/ y = x.
  Proof.
    rewrite nodes_add_node. destruct (memb x (g_nodes g)) eqn:M.
    - apply memb_In in M. split; [tauto|]. intros [Q|Q]; [exact Q|now subst].
    - rewrite in_app_iff. cbn. intuition congruence.
  Qed.
  Lemma ok_add_node x g : graph_ok g -> graph_ok (add_node x g).
  Proof.
    intros (N & E & I). split; [|split].
    - rewrite nodes_add_node. destruct (memb x (g_nodes g)) eqn:M; [exact N|]. apply memb_not_In in M. now apply NoDup_snoc'.
    - now rewrite edges_add_node.
    - intros u v Q. rewrite edges_add_node in Q. rewrite !In_add_node. destruct (I u v Q). auto.
  Qed.
  Lemma In_edges_add_edge e u v g : In e (g_edges (add_edge u v g)) <-> In e (g_edges g) \/ e = (u, v).
  Proof.
    unfold add_edge. cbv zeta. destruct (existsb (edge_eqb (u, v)) (g_edges (add_node v (add_node u g)))) eqn:X.
    - rewrite !edges_add_node in *. apply existsb_exists in X. destruct X as (e' & I & Q). apply edge_eqb_spec in Q. subst e'.
      split; [tauto|]. intros [Q|Q]; [exact Q|now subst].
    - cbn [g_edges]. rewrite !edges_add_node, in_app_iff. cbn. intuition congruence.
  Qed.
  Lemma In_nodes_add_edge x u v g : In x (g_nodes (add_edge u v g)) <-> In x (g_nodes g) \/ x = u \/ x = v.
  Proof.
    unfold add_edge. cbv zeta. destruct (existsb _ _); cbn [g_nodes]; rewrite !In_add_node; tauto.
  Qed.
  Lemma ok_add_edge u v g : graph_ok g -> graph_ok (add_edge u v g).
  Proof.
    intros O. assert (O' := ok_add_node v _ (ok_add_node u _ O)). unfold add_edge. cbv zeta.
    destruct (existsb (edge_eqb (u, v)) (g_edges (add_node v (add_node u g)))) eqn:X; [exact O'|].
    destruct O' as (N & E & I). split; [exact N|]. split; cbn [g_edges g_nodes].
    - apply NoDup_snoc'; [exact E|]. intros Q. rewrite (proj2 (existsb_exists _ _)) in X; [discriminate|].
      exists (u, v). split; [exact Q|]. now apply edge_eqb_spec.
    - intros a b Q. apply in_app_or in Q. destruct Q as [Q|[Q|[]]]; [now apply I|]. injection Q as <- <-.
      rewrite !In_add_node. tauto.
  Qed.
  Lemma nodes_add_edge_in u v g : In u (g_nodes g) -> In v (g_nodes g) -> g_nodes (add_edge u v g) = g_nodes g.
  Proof.
    intros Iu Iv. unfold add_edge. cbv zeta. assert (Eu : add_node u g = g) by (unfold add_node; now rewrite (proj2 (memb_In _ _) Iu)).
    assert (Ev : add_node v g = g) by (unfold add_node; now rewrite (proj2 (memb_In _ _) Iv)). rewrite Eu, Ev. now destruct (existsb _ _).
  Qed.
  Lemma edges_from_spec es : forall g, graph_ok g -> graph_ok (add_edges_from es g) /\
    (forall e, In e (g_edges (add_edges_from es g)) <-> In e (g_edges g) \/ In e es) /\
    (forall x, In x (g_nodes (add_edges_from es g)) <-> In x (g_nodes g) \/ exists e, In e es /\ (x = fst e \/ x = snd e)) /\
    ((forall e, In e es -> In (fst e) (g_nodes g) /\ In (snd e) (g_nodes g)) -> g_nodes (add_edges_from es g) = g_nodes g).
  Proof.
    induction es as [|[u v] es IH]; intros g O.
    - cbn. split; [exact O|]. split; [tauto|]. split; [|reflexivity]. intros x. split; [tauto|]. intros [Q|(e & [] & _)]; exact Q.
    - unfold add_edges_from. cbn [fold_left fst snd]. destruct (IH (add_edge u v g) (ok_add_edge u v g O)) as (A1 & A2 & A3 & A4).
      split; [exact A1|]. split; [|split].
      + intros e. rewrite A2, In_edges_add_edge. cbn. intuition congruence.
      + intros x. rewrite A3, In_nodes_add_edge. cbn. split.
        * intros [[Q|Q]|(e & Ie & Q)]; [now left| |right; exists e; tauto]. right. exists (u, v). cbn. tauto.
        * intros [Q|(e & [<-|Ie] & Q)]; [tauto|cbn in Q; tauto|]. right. now exists e.
      + intros Q. transitivity (g_nodes (add_edge u v g)).
        * apply A4. intros e Ie. rewrite !In_nodes_add_edge. destruct (Q e (or_intror Ie)). tauto.
        * destruct (Q (u, v) (or_introl eq_refl)). now apply nodes_add_edge_in.
  Qed.

  Lemma successors_spec g u v : In v (successors g u) <-> In (u, v) (g_edges g).
  Proof.
    unfold successors. rewrite in_map_iff. split.
    - intros ([a b] & <- & Q). apply filter_In in Q. cbn [fst snd] in *. destruct Q as (Q & E). destruct (eqb_spec u a); [now subst|discriminate].
    - intros Q. exists (u, v). split; [reflexivity|]. apply filter_In. split; [exact Q|]. apply eqb_refl.
  Qed.
  Lemma predecessors_spec g u v : In u (predecessors g v) <-> In (u, v) (g_edges g).
  Proof.
    unfold predecessors. rewrite in_map_iff. split.
    - intros ([a b] & <- & Q). apply filter_In in Q. cbn [fst snd] in *. destruct Q as (Q & E). destruct (eqb_spec v b); [now subst|discriminate].
    - intros Q. exists (u, v). split; [reflexivity|]. apply filter_In. split; [exact Q|]. apply eqb_refl.
  Qed.
  Lemma successors_NoDup g u : NoDup (g_edges g) -> NoDup (successors g u).
  Proof.
    unfold successors. intros N. induction N as [|[a b] es Ni N IH]; cbn [filter map]; [apply NoDup_nil|]. cbn [fst].
    destruct (eqb_spec u a) as [E|E]; [|exact IH]. subst a. cbn [map snd]. apply NoDup_cons; [|exact IH].
    intros Q. apply in_map_iff in Q. destruct Q as ([a' b'] & <- & Q). apply filter_In in Q. cbn [fst snd] in *. destruct Q as (Q & E).
    destruct (eqb_spec u a'); [|discriminate]. now subst.
  Qed.
  Lemma in_degree_0 g v : in_degree g v = 0 <-> forall u, ~ In (u, v) (g_edges g).
  Proof.
    unfold in_degree. split.
    - intros E u Q. apply predecessors_spec in Q. destruct (predecessors g v); [destruct Q|discriminate].
    - intros Q. destruct (predecessors g v) as [|u l] eqn:E; [reflexivity|]. exfalso. apply (Q u). apply predecessors_spec. rewrite E. now left.
  Qed.
  Lemma out_degree_0 g u : out_degree g u = 0 <-> forall v, ~ In (u, v) (g_edges g).
  Proof.
    unfold out_degree. split.
    - intros E v Q. apply successors_spec in Q. destruct (successors g u); [destruct Q|discriminate].
    - intros Q. destruct (successors g u) as [|v l] eqn:E; [reflexivity|]. exfalso. apply (Q v). apply successors_spec. rewrite E. now left.
  Qed.

  (** * Topological sorting *)

  Lemma visit_spec cs : forall ind rd, NoDup cs -> NoDup (keys ind) -> (forall c, In c cs -> exists d, dget c ind = Some d) ->
    exists ind' new, visit cs ind rd = Ok (ind', rd ++ new) /\ NoDup (keys ind') /\ Permutation (keys ind) (new ++ keys ind') /\
      (forall x, dget x ind' = if memb x cs then match dget x ind with Some d => if d <=? 1 then None else Some (d - 1) | None => None end else dget x ind) /\
      (forall x, In x new <-> In x cs /\ exists d, dget x ind = Some d /\ d <= 1).
  Proof.
    induction cs as [|c cs IH]; intros ind rd N Nk Hc; cbn [visit].
    - exists ind, []. rewrite app_nil_r. split; [reflexivity|]. split; [exact Nk|]. split; [apply Permutation_refl|]. split; [reflexivity|]. cbn. tauto.
    - apply NoDup_cons_iff in N. destruct N as [Nc N]. destruct (Hc c (or_introl eq_refl)) as (d & Hd). rewrite Hd.
      destruct (Nat.leb_spec d 1) as [L|L].
      + destruct (IH (ddel c ind) (rd ++ [c]) N (NoDup_ddel _ _ Nk)) as (ind' & new & E & N' & P & G & W).
        { intros x Ix. destruct (Hc x (or_intror Ix)) as (d' & Hd'). exists d'. rewrite dget_ddel_neq; [exact Hd'|]. intros ->. contradiction. }
        exists ind', (c :: new). rewrite E, <- app_assoc. split; [reflexivity|]. split; [exact N'|]. split; [|split].
        * cbn [app]. rewrite <- P. clear -Hd Nk. induction ind as [|[k v] ind IH]; [discriminate|]. cbn [keys map fst] in *. apply NoDup_cons_iff in Nk. destruct Nk as [Nk Nk'].
          cbn [ddel dget] in *. destruct (eqb_spec c k) as [Q|Q]; [subst; apply Permutation_refl|]. cbn [keys map fst]. rewrite perm_swap. apply perm_skip. now apply IH.
        * intros x. rewrite G. cbn [memb existsb]. fold (memb x cs). destruct (eqb_spec x c) as [Q|Q]; cbn [orb].
          -- subst x. rewrite (proj2 (memb_not_In _ _) Nc), Hd, dget_ddel_eq by assumption. rewrite (proj2 (Nat.leb_le _ _) L). reflexivity.
          -- rewrite dget_ddel_neq by assumption. reflexivity.
        * intros x. cbn [In]. rewrite W. split.
          -- intros [<-|(Ix & d' & Hd' & L')]; [split; [now left|]; now exists d|]. split; [now right|]. exists d'. split; [|exact L'].
             rewrite dget_ddel_neq in Hd'; [exact Hd'|]. intros ->. contradiction.
          -- intros ([<-|Ix] & d' & Hd' & L'); [now left|]. right. split; [exact Ix|]. exists d'. split; [|exact L'].
             rewrite dget_ddel_neq; [exact Hd'|]. intros ->. contradiction.
      + assert (Kc : In c (keys ind)) by (eapply dget_Some_key; exact Hd).
        destruct (IH (dset c (d - 1) ind) rd N (NoDup_dset _ _ _ Nk)) as (ind' & new & E & N' & P & G & W).
        { intros x Ix. destruct (Hc x (or_intror Ix)) as (d' & Hd'). exists d'. rewrite dget_dset_neq; [exact Hd'|]. intros ->. contradiction. }
        exists ind', new. rewrite E. split; [reflexivity|]. split; [exact N'|]. split; [|split].
        * rewrite <- P. now rewrite keys_dset_in.
        * intros x. rewrite G. cbn [memb existsb]. fold (memb x cs). destruct (eqb_spec x c) as [Q|Q]; cbn [orb].
          -- subst x. rewrite (proj2 (memb_not_In _ _) Nc), Hd, dget_dset_eq. destruct (Nat.leb_spec d 1); [lia|reflexivity].
          -- rewrite dget_dset_neq by assumption. reflexivity.
        * intros x. rewrite W. cbn [In]. split.
          -- intros (Ix & d' & Hd' & L'). split; [now right|]. exists d'. split; [|exact L']. rewrite dget_dset_neq in Hd'; [exact Hd'|]. intros ->. contradiction.
          -- intros ([<-|Ix] & d' & Hd' & L'); [rewrite Hd in Hd'; injection Hd' as <-; lia|]. split; [exact Ix|]. exists d'. split; [|exact L'].
             rewrite dget_dset_neq; [exact Hd'|]. intros ->. contradiction.
  Qed.

  Lemma NoDup_app_r' (l l' : list A) : NoDup (l ++ l') -> NoDup l'.
  Proof. induction l as [|x l IH]; [auto|]. cbn. intros N. apply NoDup_cons_iff in N. now apply IH. Qed.

  (** Edges into [v] whose source is not yet out *)
  Definition waiting g (out : list A) (v : A) : nat := length (filter (fun e => eqb v (snd e) && negb (memb (fst e) out)) (g_edges g)).

  Lemma waiting_0 g out v : waiting g out v = 0 <-> forall u, In (u, v) (g_edges g) -> In u out.
  Proof.
    unfold waiting. split.
    - intros E u Q. destruct (memb u out) eqn:M; [now apply memb_In|]. exfalso.
      assert (I : In (u, v) (filter (fun e => eqb v (snd e) && negb (memb (fst e) out)) (g_edges g))).
      { apply filter_In. split; [exact Q|]. cbn [fst snd]. now rewrite eqb_refl, M. }
      destruct (filter _ (g_edges g)); [destruct I|discriminate].
    - intros Q. destruct (filter _ (g_edges g)) as [|[u w] es] eqn:E; [reflexivity|]. exfalso.
      assert (I : In (u, w) (filter (fun e => eqb v (snd e) && negb (memb (fst e) out)) (g_edges g))) by (rewrite E; now left).
      apply filter_In in I. destruct I as (I & X). cbn [fst snd] in X. apply andb_true_iff in X. destruct X as (X1 & X2).
      destruct (eqb_spec v w) as [Y|Y]; [subst w|discriminate]. apply Q in I. apply memb_In in I. rewrite I in X2. discriminate.
  Qed.

  Lemma waiting_step g out u v : NoDup (g_edges g) -> ~ In u out ->
    waiting g out v = waiting g (out ++ [u]) v + (if memb v (successors g u) then 1 else 0).
  Proof.
    intros N Nu. unfold waiting, successors. induction N as [|[a b] es Ni N IH]; [reflexivity|]. cbn [filter fst snd].
    assert (M : memb a (out ++ [u]) = memb a out || eqb a u).
    { unfold memb. rewrite existsb_app. cbn. now rewrite orb_false_r. }
    rewrite M. destruct (eqb_spec v b) as [Ev|Ev]; cbn [andb].
    - subst b. destruct (eqb_spec u a) as [Eu|Eu].
      + subst a. rewrite (proj2 (memb_not_In _ _) Nu), eqb_refl. cbn [negb orb map snd memb existsb]. rewrite eqb_refl. cbn [orb length].
        fold (memb v (map snd (filter (fun e => eqb u (fst e)) es))). rewrite IH.
        replace (memb v (map snd (filter (fun e => eqb u (fst e)) es))) with false; [lia|]. symmetry. apply memb_not_In. intros Q.
        apply in_map_iff in Q. destruct Q as ([a' b'] & <- & Q). apply filter_In in Q. cbn [fst snd] in *. destruct Q as (Q & E).
        destruct (eqb_spec u a'); [subst|discriminate]. contradiction.
      + rewrite (eqb_neq a u) by congruence. rewrite orb_false_r. destruct (memb a out); cbn [negb length]; lia.
    - destruct (eqb_spec u a) as [Eu|Eu]; [|exact IH]. subst a. cbn [map snd memb existsb]. rewrite (eqb_neq v b) by assumption. exact IH.
  Qed.

  Lemma before_app l l' u v : before l u v -> before (l ++ l') u v.
  Proof. intros (l1 & l2 & l3 & ->). exists l1, l2, (l3 ++ l'). rewrite <- !app_assoc. cbn. now rewrite <- app_assoc. Qed.
  Lemma before_last l u v : In u l -> before (l ++ [v]) u v.
  Proof. intros I. apply in_split in I. destruct I as (l1 & l2 & ->). exists l1, l2, []. now rewrite <- app_assoc. Qed.
  Lemma before_In l u v : before l u v -> In u l /\ In v l.
  Proof. intros (l1 & l2 & l3 & ->). split; apply in_or_app; right; [now left|right; apply in_or_app; right; now left]. Qed.

  Record kinv g (rd : list A) (ind : dict A nat) (out : list A) : Prop := {
    ki_perm : Permutation (out ++ rd ++ keys ind) (g_nodes g);
    ki_ind : forall v d, dget v ind = Some d -> d = waiting g out v /\ 0 < d;
    ki_ready : forall v, In v rd -> waiting g out v = 0;
    ki_out : forall u v, In (u, v) (g_edges g) -> In v out -> before out u v }.

  Lemma kinv_keys g rd ind out : graph_ok g -> kinv g rd ind out -> NoDup (out ++ rd ++ keys ind).
  Proof. intros (N & _) K. apply (Permutation_NoDup (Permutation_sym (ki_perm _ _ _ _ K)) N). Qed.

  Lemma kahn_step g u q ind out : graph_ok g -> kinv g (u :: q) ind out ->
    exists ind' new, visit (successors g u) ind [] = Ok (ind', new) /\ kinv g (q ++ new) ind' (out ++ [u]).
  Proof.
    intros O K. assert (ND := kinv_keys _ _ _ _ O K). destruct O as (N & NE & I). destruct K as [P D R Ou].
    assert (Nu : ~ In u out). { intros Q. apply in_split in Q. destruct Q as (a & b & ->).
      rewrite <- app_assoc in ND. cbn in ND. apply NoDup_remove_2 in ND. apply ND. apply in_or_app. right. apply in_or_app. right. now left. }
    assert (Nk : NoDup (keys ind)). { apply NoDup_app_r' in ND. now apply NoDup_app_r' in ND. }
    destruct (visit_spec (successors g u) ind [] (successors_NoDup g u NE) Nk) as (ind' & new & E & N' & P' & G & W).
    { intros c Ic. apply successors_spec in Ic. destruct (I _ _ Ic) as (_ & Inc). apply (Permutation_in _ (Permutation_sym P)) in Inc.
      apply in_app_or in Inc. destruct Inc as [Inc|Inc]; [exfalso; apply Nu; now destruct (before_In _ _ _ (Ou u c Ic Inc))|].
      apply in_app_or in Inc. destruct Inc as [Inc|Inc]; [|now apply key_dget]. exfalso. apply Nu. exact (proj1 (waiting_0 g out c) (R c Inc) u Ic). }
    exists ind', new. split; [exact E|]. constructor.
    - rewrite <- P. rewrite <- !app_assoc. apply Permutation_app_head. cbn [app]. apply perm_skip. apply Permutation_app_head. now symmetry.
    - intros v d Hv. rewrite G in Hv. assert (S := waiting_step g out u v NE Nu).
      destruct (memb v (successors g u)).
      + destruct (dget v ind) as [d0|] eqn:E0; [|discriminate]. destruct (D v d0 E0) as (-> & Q). destruct (Nat.leb_spec (waiting g out v) 1); [discriminate|].
        injection Hv as <-. lia.
      + destruct (D v d Hv) as (-> & Q). lia.
    - intros v Iv. assert (S := waiting_step g out u v NE Nu). apply in_app_or in Iv. destruct Iv as [Iv|Iv].
      + rewrite (R v (or_intror Iv)) in S. lia.
      + apply W in Iv. destruct Iv as (Is & d & Hd & L). destruct (D v d Hd) as (-> & Q). rewrite (proj2 (memb_In _ _) Is) in S. lia.
    - intros w v Ie Iv. apply in_app_or in Iv. destruct Iv as [Iv|[<-|[]]]; [apply before_app; now apply Ou|].
      apply before_last. exact (proj1 (waiting_0 g out u) (R u (or_introl eq_refl)) w Ie).
  Qed.

  Lemma kahn_ok g : graph_ok g -> ranked g -> forall fuel rd ind out, kinv g rd ind out -> length (g_nodes g) <= fuel + length out ->
    exists l, kahn g fuel rd ind out = Ok l /\ topological_order g l.
  Proof.
    intros O (r & Hr). induction fuel as [|fuel IH]; intros rd ind out K L.
    - destruct rd as [|u q].
      + destruct ind as [|kv ind]; [|exfalso].
        * cbn. exists out. split; [reflexivity|]. destruct K as [P _ _ Ou]. cbn in P. rewrite app_nil_r in P. split; [exact P|].
          intros u v Ie. apply Ou; [exact Ie|]. apply (Permutation_in _ (Permutation_sym P)). now apply (proj2 (proj2 O) u v).
        * assert (Pl := Permutation_length (ki_perm _ _ _ _ K)). rewrite !app_length in Pl. cbn in Pl. lia.
      + exfalso. assert (Pl := Permutation_length (ki_perm _ _ _ _ K)). rewrite !app_length in Pl. cbn in Pl. lia.
    - destruct rd as [|u q].
      + destruct ind as [|kv ind].
        * cbn. exists out. split; [reflexivity|]. destruct K as [P _ _ Ou]. cbn in P. rewrite app_nil_r in P. split; [exact P|].
          intros u v Ie. apply Ou; [exact Ie|]. apply (Permutation_in _ (Permutation_sym P)). now apply (proj2 (proj2 O) u v).
        * exfalso. remember (kv :: ind) as ind0 eqn:E0.
          assert (Kk : forall n v, r v < n -> In v (keys ind0) -> False).
          { induction n as [|n IHn]; intros v Hn Iv; [lia|]. destruct (key_dget _ _ Iv) as (d & Hd). destruct (ki_ind _ _ _ _ K v d Hd) as (Ed & Pd).
            destruct (in_dec eq_dec_of v (g_nodes g)) as [Inv|Ninv].
            - assert (X : exists w, In (w, v) (g_edges g) /\ ~ In w out).
              { destruct (waiting g out v) eqn:Ew; [lia|]. unfold waiting in Ew.
                destruct (filter (fun e => eqb v (snd e) && negb (memb (fst e) out)) (g_edges g)) as [|[w v'] es] eqn:Ef; [discriminate|].
                assert (I : In (w, v') (filter (fun e => eqb v (snd e) && negb (memb (fst e) out)) (g_edges g))) by (rewrite Ef; now left).
                apply filter_In in I. destruct I as (I & X). cbn [fst snd] in X. apply andb_true_iff in X. destruct X as (X1 & X2).
                destruct (eqb_spec v v') as [Y|Y]; [subst v'|discriminate]. exists w. split; [exact I|]. apply negb_true_iff in X2. now apply memb_not_In. }
              destruct X as (w & Ie & Nw). apply (IHn w); [specialize (Hr w v Ie); lia|].
              destruct (proj2 (proj2 O) w v Ie) as (Iw & _). apply (Permutation_in _ (Permutation_sym (ki_perm _ _ _ _ K))) in Iw.
              apply in_app_or in Iw. destruct Iw as [Iw|Iw]; [contradiction|exact Iw].
            - apply Ninv. apply (Permutation_in _ (ki_perm _ _ _ _ K)). apply in_or_app. now right. }
          apply (Kk (S (r (fst kv))) (fst kv)); [lia|]. rewrite E0. now left.
      + cbn [kahn]. destruct (kahn_step g u q ind out O K) as (ind' & new & E & K'). rewrite E. cbn [rbind].
        apply IH; [exact K'|]. rewrite app_length. cbn. lia.
  Qed.

  Lemma kahn_sound g : graph_ok g -> forall fuel rd ind out l, kinv g rd ind out -> kahn g fuel rd ind out = Ok l -> topological_order g l.
  Proof.
    intros O. induction fuel as [|fuel IH]; intros rd ind out l K E.
    - destruct rd as [|u q]; cbn in E; [|discriminate]. destruct ind; [|discriminate]. injection E as <-.
      destruct K as [P _ _ Ou]. cbn in P. rewrite app_nil_r in P. split; [exact P|].
      intros u v Ie. apply Ou; [exact Ie|]. apply (Permutation_in _ (Permutation_sym P)). now apply (proj2 (proj2 O) u v).
    - destruct rd as [|u q].
      + cbn in E. destruct ind; [|discriminate]. injection E as <-.
        destruct K as [P _ _ Ou]. cbn in P. rewrite app_nil_r in P. split; [exact P|].
        intros u v Ie. apply Ou; [exact Ie|]. apply (Permutation_in _ (Permutation_sym P)). now apply (proj2 (proj2 O) u v).
      + cbn [kahn] in E. destruct (kahn_step g u q ind out O K) as (ind' & new & Ev & K'). rewrite Ev in E. cbn [rbind] in E. now apply (IH _ _ _ _ K').
  Qed.

  Lemma filter_split {B} (f : B -> bool) (l : list B) : Permutation (filter f l ++ filter (fun x => negb (f x)) l) l.
  Proof.
    induction l as [|x l IH]; [apply Permutation_refl|]. cbn [filter]. destruct (f x); cbn [negb app].
    - now apply perm_skip.
    - rewrite <- Permutation_middle. now apply perm_skip.
  Qed.

  Lemma start_inv g : graph_ok g ->
    kinv g (map fst (filter (fun x => Nat.eqb (snd x) 0) (map (fun v => (v, in_degree g v)) (g_nodes g))))
      (filter (fun x => Nat.ltb 0 (snd x)) (map (fun v => (v, in_degree g v)) (g_nodes g))) [].
  Proof.
    intros (N & NE & I). set (dg := map (fun v => (v, in_degree g v)) (g_nodes g)).
    assert (Kd : map fst dg = g_nodes g) by (unfold dg; rewrite map_map; cbn; apply map_id).
    assert (Ed : forall v d, In (v, d) dg -> d = in_degree g v).
    { intros v d Q. apply in_map_iff in Q. destruct Q as (x & E & _). now injection E as <- <-. }
    assert (Wd : forall v, waiting g [] v = in_degree g v).
    { intros v. unfold waiting, in_degree, predecessors. rewrite map_length. f_equal. apply filter_ext. intros e. cbn. now rewrite andb_true_r. }
    constructor.
    - cbn [app]. unfold keys. rewrite <- map_app. rewrite <- Kd. apply Permutation_map.
      replace (filter (fun x => Nat.ltb 0 (snd x)) dg) with (filter (fun x => negb (Nat.eqb (snd x) 0)) dg); [apply filter_split|].
      apply filter_ext. intros [v d]. cbn. now destruct d.
    - intros v d Q. apply dget_In in Q. apply filter_In in Q. destruct Q as (Q & L). cbn [snd] in L. apply Nat.ltb_lt in L. rewrite Wd. split; [now apply Ed|exact L].
    - intros v Q. apply in_map_iff in Q. destruct Q as ([v' d] & <- & Q). apply filter_In in Q. cbn [fst snd] in *. destruct Q as (Q & E). apply Nat.eqb_eq in E.
      rewrite Wd, <- (Ed _ _ Q). exact E.
    - intros u v _ [].
  Qed.

  Lemma sort_sound g l : graph_ok g -> topological_sort g = Ok l -> topological_order g l.
  Proof. intros O. unfold topological_sort. cbv zeta. apply kahn_sound; [exact O|]. now apply start_inv. Qed.

  Lemma sort_ok g : graph_ok g -> ranked g -> exists l, topological_sort g = Ok l /\ topological_order g l.
  Proof. intros O R. unfold topological_sort. cbv zeta. apply kahn_ok; [exact O|exact R|now apply start_inv|cbn; lia]. Qed.

  (** A topological order ranks the nodes. *)
  Lemma index_before l u v : NoDup l -> before l u v -> exists i j, index_of u l = Some i /\ index_of v l = Some j /\ i < j.
  Proof.
    intros N (l1 & l2 & l3 & ->). exists (length l1), (length l1 + S (length l2)).
    assert (G : forall a b (x : A), ~ In x a -> index_of x (a ++ x :: b) = Some (length a)).
    { induction a as [|y a IH]; intros b x Nx; cbn; [now rewrite eqb_refl|]. rewrite eqb_neq by (intros ->; apply Nx; now left). rewrite IH; [reflexivity|]. intros Q. apply Nx. now right. }
    split; [|split].
    - apply G. apply NoDup_remove_2 in N. intros Q. apply N. apply in_or_app. now left.
    - replace (l1 ++ u :: l2 ++ v :: l3) with ((l1 ++ u :: l2) ++ v :: l3) in * by (rewrite <- app_assoc; reflexivity).
      rewrite G; [now rewrite app_length|]. apply NoDup_remove_2 in N. intros Q. apply N. apply in_or_app. now left.
    - lia.
  Qed.
  Lemma order_ranked g l : graph_ok g -> topological_order g l -> ranked g.
  Proof.
    intros (N & _) (P & B). exists (fun x => match index_of x l with Some i => i | None => 0 end). intros u v Ie.
    destruct (index_before l u v) as (i & j & -> & -> & L); [|now apply B|exact L]. now apply (Permutation_NoDup (Permutation_sym P)).
  Qed.

  Lemma ranked_acyclic g : ranked g -> acyclic g.
  Proof.
    intros (r & Hr) u Q. assert (G : forall a b, path g a b -> r a < r b).
    { intros a b X. induction X as [a b X|a b c X _ IH]; [now apply Hr|]. specialize (Hr a b X). lia. }
    specialize (G u u Q). lia.
  Qed.

  Lemma sort_iff g : graph_ok g -> ((exists l, topological_sort g = Ok l) <-> ranked g).
  Proof.
    intros O. split.
    - intros (l & E). exact (order_ranked g l O (sort_sound g l O E)).
    - intros R. destruct (sort_ok g O R) as (l & E & _). now exists l.
  Qed.
End Graph.
