(** Proofs about building memory hierarchies: levels, edges and orders. *)
From Coq Require Import QArith Sorting.Sorted.
From Verif Require Import Base Model_DataMove Model_Cost Model_Graph Model_Hierarchy Spec_Graph Spec_Hierarchy.
From Verif Require Import Proof_AllocSearch Proof_Graph Proof_Latency Proof_Generation Proof_Bandwidth.
Local Open Scope list_scope.
Local Open Scope nat_scope.

(** * Dictionaries filled in a loop *)

Lemma fold_dset_get {K V} `{EqB K} (f : K -> V) ops : forall (d : dict K V) x,
  dget x (fold_left (fun d op => dset op (f op) d) ops d) = if memb x ops then Some (f x) else dget x d.
Proof.
  induction ops as [|o ops IH]; intros d x; [reflexivity|]. cbn [fold_left]. rewrite IH. unfold memb. cbn [existsb]. fold (memb x ops).
  destruct (memb x ops); [now rewrite orb_true_r|]. rewrite orb_false_r. destruct (eqb_spec x o) as [E|E]; [subst; apply dget_dset_eq|now apply dget_dset_neq].
Qed.
Lemma fold_dset_NoDup {K V} `{EqB K} (f : K -> V) ops : forall (d : dict K V), NoDup (keys d) -> NoDup (keys (fold_left (fun d op => dset op (f op) d) ops d)).
Proof. induction ops as [|o ops IH]; intros d N; [exact N|]. cbn [fold_left]. apply IH. now apply NoDup_dset. Qed.

Definition bump (nb : dict string nat) (op : string) : dict string nat := dset op (match dget op nb with None => 1 | Some n => S n end) nb.
Lemma bump_get ops : NoDup ops -> forall nb x,
  dget x (fold_left bump ops nb) = if memb x ops then Some (match dget x nb with None => 1 | Some n => S n end) else dget x nb.
Proof.
  induction 1 as [|o ops No N IH]; intros nb x; [reflexivity|]. cbn [fold_left]. rewrite IH. unfold memb. cbn [existsb]. fold (memb x ops). unfold bump.
  destruct (eqb_spec x o) as [E|E]; cbn [orb].
  - subst. rewrite (proj2 (memb_not_In _ _) No). apply dget_dset_eq.
  - rewrite dget_dset_neq by assumption. reflexivity.
Qed.
Lemma bump_NoDup ops : forall nb, NoDup (keys nb) -> NoDup (keys (fold_left bump ops nb)).
Proof. induction ops as [|o ops IH]; intros nb N; [exact N|]. cbn [fold_left]. apply IH. now apply NoDup_dset. Qed.
Lemma bump_keys ops : forall nb x, In x (keys (fold_left bump ops nb)) <-> In x ops \/ In x (keys nb).
Proof.
  induction ops as [|o ops IH]; intros nb x; [cbn; tauto|]. cbn [fold_left]. rewrite IH. unfold bump. rewrite In_keys_dset. cbn. intuition congruence.
Qed.

(** * Picking *)

Lemma pick_app {A} (l : list A) a b : pick l (a ++ b) = pick l a ++ pick l b.
Proof. apply flat_map_app. Qed.
Lemma pick_seq {A} (l : list A) : pick l (seq 0 (length l)) = l.
Proof.
  assert (G : forall (l2 l1 : list A), pick (l1 ++ l2) (seq (length l1) (length l2)) = l2).
  { induction l2 as [|x l2 IH]; intros l1; [reflexivity|]. cbn [length seq pick flat_map]. fold (pick (l1 ++ x :: l2) (seq (S (length l1)) (length l2))).
    rewrite nth_error_app2, Nat.sub_diag by lia. cbn [nth_error app]. f_equal.
    specialize (IH (l1 ++ [x])). rewrite app_length, <- app_assoc in IH. cbn [length app] in IH. now rewrite Nat.add_1_r in IH. }
  exact (G l []).
Qed.
Lemma In_pick {A} (l : list A) is x : In x (pick l is) <-> exists i, In i is /\ nth_error l i = Some x.
Proof.
  unfold pick. rewrite in_flat_map. split.
  - intros (i & I & Q). destruct (nth_error l i) as [y|] eqn:E; [|destruct Q]. destruct Q as [<-|[]]. eauto.
  - intros (i & I & E). exists i. split; [exact I|]. rewrite E. now left.
Qed.
Lemma pick_perm {A} (l : list A) is js : Permutation is js -> Permutation (pick l is) (pick l js).
Proof. apply Permutation_flat_map. Qed.

(** * Maxima *)

Lemma max_of_spec l : l <> [] -> max_of l = Ok (list_max l).
Proof.
  destruct l as [|x l]; [easy|]. intros _. cbn [max_of]. f_equal. revert x. induction l as [|y l IH]; intros x; cbn [fold_left list_max fold_right]; [lia|].
  rewrite IH. cbn [list_max fold_right]. unfold list_max. lia.
Qed.

(** * The state *)

Definition before_count (ls : list level) (i : nat) (op : string) : nat := length (filter (holds op) (firstn i ls)).

Record hinv (h : hierarchy) : Prop := {
  hi_nodes : g_nodes (h_graph h) = seq 0 (length (h_list h));
  hi_ids : forall i l, nth_error (h_list h) i = Some l -> lv_id l = i;
  hi_keys : forall l, In l (h_list h) -> NoDup (keys (lv_dict l));
  hi_dict : forall i l op, nth_error (h_list h) i = Some l ->
    dget op (lv_dict l) = if memb op (lv_operands l) then Some (before_count (h_list h) i op) else None;
  hi_nbkeys : NoDup (keys (h_nb h)) /\ forall op, In op (keys (h_nb h)) <-> exists l, In l (h_list h) /\ holds op l = true;
  hi_graph : graph_ok (h_graph h);
  hi_edges : forall u v, In (u, v) (g_edges (h_graph h)) <->
    exists lu lv op, nth_error (h_list h) u = Some lu /\ nth_error (h_list h) v = Some lv /\ u < v /\
      stores op lu /\ stores op lv /\
      forall w lw, w < v -> nth_error (h_list h) w = Some lw -> stores op lw -> height lw <= height lu }.

Lemma holds_stores op l : holds op l = true <-> stores op l.
Proof. unfold holds, stores, lv_operands. apply memb_In. Qed.

Lemma node_list_all h : hinv h -> node_list h = h_list h.
Proof. intros I. unfold node_list. rewrite (hi_nodes h I). apply pick_seq. Qed.

Lemma holder_top h l op : hinv h -> In l (h_list h) -> holds op l = true -> top_number l = Ok (height l).
Proof.
  intros I Il Ho. apply In_nth_error in Il. destruct Il as (i & Ei). apply max_of_spec. intros E. assert (D := hi_dict h I i l op Ei).
  unfold holds in Ho. rewrite Ho in D. apply map_eq_nil in E. rewrite E in D. discriminate.
Qed.

Lemma rmap_pairs {A B} (f : A -> result B) (g : A -> B) l : (forall x, In x l -> f x = Ok (g x)) ->
  rmap (fun x => n <- f x ;; Ok (x, n))%result l = Ok (map (fun x => (x, g x)) l).
Proof.
  induction l as [|x l IH]; intros Q; [reflexivity|]. cbn [rmap map]. rewrite (Q x (or_introl eq_refl)). cbn [rbind]. rewrite IH by (intros; apply Q; now right). reflexivity.
Qed.

Lemma operator_top h op : hinv h -> exists ls, get_operator_top_level h op = Ok ls /\
  forall l, In l ls <-> In l (h_list h) /\ stores op l /\ forall l', In l' (h_list h) -> stores op l' -> height l' <= height l.
Proof.
  intros I. unfold get_operator_top_level. rewrite (node_list_all h I). rewrite (rmap_pairs _ height).
  2:{ intros l Il. apply filter_In in Il. destruct Il. eapply holder_top; eassumption. }
  cbn [rbind]. remember (filter (holds op) (h_list h)) as hs eqn:Eh.
  assert (Ih : forall l, In l hs <-> In l (h_list h) /\ stores op l).
  { intros l. rewrite Eh, filter_In. now rewrite holds_stores. }
  clear Eh. destruct hs as [|l0 hs0].
  - exists []. split; [reflexivity|]. intros l. split; [intros []|]. intros (Il & S & _). now apply Ih.
  - remember (l0 :: hs0) as hs eqn:Eh. assert (NE : map height hs <> []) by (rewrite Eh; discriminate).
    replace (match map (fun x => (x, height x)) hs with [] => Ok [] | _ :: _ => rbind (max_of (map snd (map (fun x => (x, height x)) hs)))
        (fun top => Ok (map fst (filter (fun x => Nat.eqb (snd x) top) (map (fun x => (x, height x)) hs)))) end)
      with (rbind (max_of (map height hs)) (fun top => Ok (map fst (filter (fun x => Nat.eqb (snd x) top) (map (fun x => (x, height x)) hs)))))
      by (rewrite map_map; cbn [snd]; now rewrite Eh).
    rewrite max_of_spec by exact NE. cbn [rbind].
    assert (T : forall l, In l hs -> height l <= list_max (map height hs)).
    { intros l Il. assert (F := proj1 (list_max_le (map height hs) _) (Nat.le_refl _)). rewrite Forall_forall in F. apply F. now apply List.in_map. }
    assert (T' : exists l, In l hs /\ height l = list_max (map height hs)).
    { clear -NE. induction hs as [|l hs IH]; [easy|]. cbn [map list_max fold_right]. destruct hs as [|l' hs].
      - exists l. split; [now left|]. cbn. lia.
      - destruct IH as (y & Iy & Ey); [discriminate|]. fold (list_max (map height (l' :: hs))). destruct (Nat.max_spec (height l) (list_max (map height (l' :: hs)))) as [[_ ->]|[_ ->]].
        + exists y. split; [now right|exact Ey].
        + exists l. split; [now left|reflexivity]. }
    eexists. split; [reflexivity|]. intros l. rewrite in_map_iff. split.
    + intros ((l1, n) & <- & Q). apply filter_In in Q. cbn [fst snd] in *. destruct Q as (Q & En). apply in_map_iff in Q. destruct Q as (l2 & E2 & I2). injection E2 as -> <-.
      apply Nat.eqb_eq in En. destruct (proj1 (Ih l1) I2) as (I1 & S1). split; [exact I1|]. split; [exact S1|].
      intros l' Il' S. rewrite En. apply T. now apply Ih.
    + intros (Il & S & M). exists (l, height l). split; [reflexivity|]. apply filter_In. cbn [snd].
      assert (Il2 : In l hs) by (now apply Ih). split; [apply in_map_iff; now exists l|]. apply Nat.eqb_eq.
      apply Nat.le_antisymm; [now apply T|]. destruct T' as (l' & Il' & <-). apply Ih in Il'. now apply M.
Qed.

Lemma nth_snoc {A} (l : list A) x i y : nth_error (l ++ [x]) i = Some y <-> nth_error l i = Some y \/ (i = length l /\ y = x).
Proof.
  destruct (Nat.lt_trichotomy i (length l)) as [L|[L|L]].
  - rewrite nth_error_app1 by exact L. split; [tauto|]. intros [Q|[Q _]]; [exact Q|lia].
  - subst i. rewrite nth_error_app2, Nat.sub_diag by lia. cbn. split; [intros E; injection E as <-; tauto|]. intros [Q|[_ Q]]; [|now subst].
    assert (X : length l < length l) by (apply nth_error_Some; congruence). lia.
  - assert (E : nth_error (l ++ [x]) i = None) by (apply nth_error_None; rewrite app_length; cbn; lia). rewrite E.
    split; [discriminate|]. intros [Q|[Q _]]; [|lia]. assert (X : i < length l) by (apply nth_error_Some; congruence). lia.
Qed.

Lemma tops_all h ops tops : hinv h -> rmap (get_operator_top_level h) ops = Ok tops ->
  forall l, In l (concat tops) <-> exists op, In op ops /\ In l (h_list h) /\ stores op l /\ forall l', In l' (h_list h) -> stores op l' -> height l' <= height l.
Proof.
  intros I. revert tops. induction ops as [|op ops IH]; intros tops E l; cbn [rmap] in E.
  - injection E as <-. cbn. split; [tauto|]. intros (op & [] & _).
  - destruct (operator_top h op I) as (ls & El & S). rewrite El in E. cbn [rbind] in E. destruct (rmap (get_operator_top_level h) ops) as [ts|] eqn:Et; [|discriminate].
    cbn [rbind] in E. injection E as <-. cbn [concat]. rewrite in_app_iff, S, (IH ts eq_refl). cbn. split.
    + intros [Q|(op' & Io & Q)]; [exists op; tauto|exists op'; tauto].
    + intros (op' & [<-|Io] & Q); [now left|right; now exists op'].
Qed.
Lemma tops_ok h ops : hinv h -> exists tops, rmap (get_operator_top_level h) ops = Ok tops.
Proof. intros I. apply rmap_ok'. intros op _. destruct (operator_top h op I) as (ls & El & _). now exists ls. Qed.

Lemma step_inv h m h' : hinv h -> add_memory h m = Ok h' -> hinv h' /\ h_nb h' = fold_left bump (ms_operands m) (h_nb h) /\
  exists l, h_list h' = h_list h ++ [l] /\ described m l.
Proof.
  intros I E. unfold add_memory in E. apply rbind_Ok in E. destruct E as (al & Ea & E). cbv zeta in E.
  apply rbind_Ok in E. destruct E as ([[ports bmin] bmax] & Ep & E). apply rbind_Ok in E. destruct E as (tops & Et & E).
  assert (Ts := tops_all h _ tops I Et). rewrite (node_list_all h I) in *.
  set (levels := fold_left (fun d op => dset op (length (filter (holds op) (h_list h))) d) (ms_operands m) []) in *.
  set (id := length (h_list h)) in *.
  set (l := mkLevel id levels (mkMemlvl (ms_operands m) (ms_size m) (ms_r_cost m) (ms_w_cost m) bmin bmax ports) (ms_served m)) in *.
  injection E as <-. split; [|split; [reflexivity|exists l; split; [reflexivity|repeat split]]].
  assert (Gn : graph_ok (add_node id (h_graph h))) by (apply ok_add_node; apply I).
  assert (Nn : g_nodes (add_node id (h_graph h)) = seq 0 (S id)).
  { rewrite nodes_add_node, (hi_nodes h I). destruct (memb id (seq 0 (length (h_list h)))) eqn:M; [apply memb_In in M; apply in_seq in M; unfold id in M; lia|].
    rewrite seq_S. reflexivity. }
  assert (From : forall u, In u (map lv_id (concat tops)) -> u < id).
  { intros u Q. apply in_map_iff in Q. destruct Q as (lu & <- & Q). apply Ts in Q. destruct Q as (op & _ & Q & _). apply In_nth_error in Q. destruct Q as (i & Ei).
    rewrite (hi_ids h I i lu Ei). apply nth_error_Some. congruence. }
  destruct (edges_from_spec (map (fun u => (u, id)) (map lv_id (concat tops))) _ Gn) as (G1 & G2 & _ & G4).
  assert (Kd : forall i l', nth_error (h_list h ++ [l]) i = Some l' -> forall op, before_count (h_list h ++ [l]) i op = before_count (h_list h) i op).
  { intros i l' Q op. unfold before_count. rewrite firstn_app. assert (L : i < length (h_list h ++ [l])) by (apply nth_error_Some; congruence).
    rewrite app_length in L. cbn in L. replace (i - length (h_list h)) with 0 by lia. cbn [firstn]. now rewrite app_nil_r. }
  constructor; cbn [h_list h_graph h_nb].
  - rewrite G4; [rewrite Nn, app_length; cbn; now rewrite Nat.add_1_r|]. intros e Q. apply in_map_iff in Q. destruct Q as (u & <- & Q). cbn [fst snd].
    apply From in Q. rewrite Nn. split; apply in_seq; lia.
  - intros i l' Q. apply nth_snoc in Q. destruct Q as [Q|(-> & ->)]; [now apply I|reflexivity].
  - intros l' Q. apply in_app_or in Q. destruct Q as [Q|[<-|[]]]; [now apply I|]. cbn [lv_dict l]. apply fold_dset_NoDup. apply NoDup_nil.
  - intros i l' op Q. rewrite (Kd i l' Q). apply nth_snoc in Q. destruct Q as [Q|(-> & ->)]; [now apply I|].
    cbn [lv_dict l]. unfold levels. rewrite fold_dset_get. unfold lv_operands, before_count. cbn [lv_mem l ml_operands]. rewrite firstn_all. reflexivity.
  - destruct (hi_nbkeys h I) as (Nk & Kk). split; [now apply bump_NoDup|]. intros op. change (fun d op0 => dset op0 match dget op0 d with Some n => S n | None => 1 end d) with bump.
    rewrite bump_keys, Kk. split.
    + intros [Q|(l' & Il & Ho)]; [exists l; split; [apply in_or_app; right; now left|]; now apply holds_stores|]. exists l'. split; [apply in_or_app; now left|exact Ho].
    + intros (l' & Il & Ho). apply in_app_or in Il. destruct Il as [Il|[<-|[]]]; [right; now exists l'|]. left. now apply holds_stores in Ho.
  - exact G1.
  - intros u v. rewrite G2, edges_add_node, (hi_edges h I). split.
    + intros [(lu & lv & op & Q1 & Q2 & Q3 & Q4 & Q5 & Q6)|Q].
      * exists lu, lv, op. assert (L : v < id) by (apply nth_error_Some; congruence). rewrite !nth_snoc. split; [now left|]. split; [now left|]. repeat split; try assumption.
        intros w lw Lw Ew. apply nth_snoc in Ew. destruct Ew as [Ew|(-> & _)]; [now apply (Q6 w)|]. unfold id in *. lia.
      * apply in_map_iff in Q. destruct Q as (u' & Eu & Q). injection Eu as -> <-. assert (Lu := From u Q). apply in_map_iff in Q. destruct Q as (lu & El & Q).
        apply Ts in Q. destruct Q as (op & Io & Il & S & M). exists lu, l, op. apply In_nth_error in Il. destruct Il as (i & Ei). assert (i = u) by (rewrite <- El; symmetry; now apply (hi_ids h I)).
        subst i. rewrite !nth_snoc. split; [now left|]. split; [right; split; reflexivity|]. split; [exact Lu|]. split; [exact S|]. split; [exact Io|].
        intros w lw Lw Ew Sw. apply nth_snoc in Ew. destruct Ew as [Ew|(-> & _)]; [|unfold id in *; lia]. apply M; [|exact Sw]. eapply nth_error_In; exact Ew.
    + intros (lu & lv & op & Q1 & Q2 & Q3 & Q4 & Q5 & Q6). apply nth_snoc in Q2. destruct Q2 as [Q2|(-> & ->)].
      * left. assert (L : v < id) by (apply nth_error_Some; congruence). apply nth_snoc in Q1. destruct Q1 as [Q1|(-> & _)]; [|unfold id in *; lia].
        exists lu, lv, op. repeat split; try assumption. intros w lw Lw Ew. apply (Q6 w lw Lw). apply nth_snoc. now left.
      * right. apply in_map_iff. exists u. split; [reflexivity|]. apply nth_snoc in Q1. destruct Q1 as [Q1|(-> & _)]; [|lia].
        apply in_map_iff. exists lu. split; [now apply (hi_ids h I)|]. apply Ts. exists op. split; [exact Q5|]. split; [eapply nth_error_In; exact Q1|]. split; [exact Q4|].
        intros l' Il Sl. apply In_nth_error in Il. destruct Il as (w & Ew). apply (Q6 w l'); [|apply nth_snoc; now left|exact Sl]. apply nth_error_Some. congruence.
Qed.

Lemma no_inv k : hinv (no_hierarchy k).
Proof.
  constructor; cbn.
  - reflexivity.
  - intros i l. now destruct i.
  - intros l [].
  - intros i l op. now destruct i.
  - split; [apply NoDup_nil|]. intros op. split; [intros []|]. intros (l & [] & _).
  - split; [apply NoDup_nil|]. split; [apply NoDup_nil|]. intros u v [].
  - intros u v. split; [intros []|]. intros (lu & lv & op & Q & _). now destruct u.
Qed.

Lemma build_snoc k ms m : build k (ms ++ [m]) = rbind (build k ms) (fun h => add_memory h m).
Proof. unfold build. rewrite rfold_app. destruct (rfold add_memory (no_hierarchy k) ms) as [h|]; cbn [rbind rfold]; [|reflexivity]. now destruct (add_memory h m). Qed.

Lemma build_inv k ms : forall h, build k ms = Ok h -> hinv h /\ Forall2 described ms (h_list h).
Proof.
  induction ms as [|m ms IH] using rev_ind; intros h E.
  - injection E as <-. split; [apply no_inv|constructor].
  - rewrite build_snoc in E. apply rbind_Ok in E. destruct E as (h0 & E0 & E). destruct (IH h0 E0) as (I & F). destruct (step_inv h0 m h I E) as (I' & _ & l & El & D).
    split; [exact I'|]. rewrite El. apply Forall2_app; [exact F|]. constructor; [exact D|constructor].
Qed.

(** * Level numbers *)

Lemma filter_firstn_levels op (ls : list level) (num : level -> option nat) :
  (forall i l, nth_error ls i = Some l -> holds op l = true -> num l = Some (before_count ls i op)) ->
  map num (filter (holds op) ls) = map Some (seq 0 (length (filter (holds op) ls))).
Proof.
  induction ls as [|l ls IH] using rev_ind; intros Q; [reflexivity|]. rewrite filter_app, map_app, app_length, seq_app, map_app. f_equal.
  - apply IH. intros i l' E Ho. rewrite (Q i l'); [|apply nth_snoc; now left|exact Ho]. unfold before_count. rewrite firstn_app.
    assert (L : i < length ls) by (apply nth_error_Some; congruence). replace (i - length ls) with 0 by lia. cbn [firstn]. now rewrite app_nil_r.
  - cbn [filter]. destruct (holds op l) eqn:Ho; [|reflexivity]. cbn [map seq length]. f_equal. rewrite (Q (length ls) l); [|apply nth_snoc; now right|exact Ho].
    unfold before_count. rewrite firstn_app, Nat.sub_diag, firstn_all. cbn [firstn]. now rewrite app_nil_r.
Qed.

Lemma levels_in_order k ms h op : build k ms = Ok h ->
  map (fun l => dget op (lv_dict l)) (holders h op) = map Some (seq 0 (length (holders h op))).
Proof.
  intros E. destruct (build_inv k ms h E) as (I & _). apply filter_firstn_levels. intros i l Ei Ho. rewrite (hi_dict h I i l op Ei). unfold holds in Ho. now rewrite Ho.
Qed.

Lemma nb_counts k ms : operands_once ms -> forall h op, build k ms = Ok h ->
  dget op (h_nb h) = if Nat.eqb (length (holders h op)) 0 then None else Some (length (holders h op)).
Proof.
  induction ms as [|m ms IH] using rev_ind; intros O h op E.
  - injection E as <-. reflexivity.
  - rewrite build_snoc in E. apply rbind_Ok in E. destruct E as (h0 & E0 & E). destruct (build_inv k ms h0 E0) as (I & _). destruct (step_inv h0 m h I E) as (_ & En & l & El & D).
    rewrite En, bump_get by (apply O; apply in_or_app; right; now left). unfold holders. rewrite El, filter_app, app_length. cbn [filter].
    assert (IH' := IH (fun m' Im => O m' (in_or_app _ _ _ (or_introl Im))) h0 op E0). fold (holders h0 op). destruct D as (D & _). rewrite D.
    destruct (memb op (ms_operands m)); cbn [length].
    + rewrite IH'. destruct (length (holders h0 op)) as [|n]; cbn; [reflexivity|]. f_equal. lia.
    + rewrite Nat.add_0_r. exact IH'.
Qed.

(** the number identifies the memory *)
Lemma number_unique h i j li lj op n : hinv h -> nth_error (h_list h) i = Some li -> nth_error (h_list h) j = Some lj ->
  dget op (lv_dict li) = Some n -> dget op (lv_dict lj) = Some n -> i = j.
Proof.
  intros I Ei Ej Di Dj. rewrite (hi_dict h I i li op Ei) in Di. rewrite (hi_dict h I j lj op Ej) in Dj.
  destruct (memb op (lv_operands li)) eqn:Mi; [|discriminate]. destruct (memb op (lv_operands lj)) eqn:Mj; [|discriminate].
  injection Di as Di. injection Dj as Dj. unfold before_count in *.
  assert (G : forall a b la, a < b -> nth_error (h_list h) a = Some la -> holds op la = true ->
    length (filter (holds op) (firstn a (h_list h))) < length (filter (holds op) (firstn b (h_list h)))).
  { intros a b la L E Ho. apply nth_error_split in E. destruct E as (l1 & l2 & E & La). rewrite E, !firstn_app, La, Nat.sub_diag. cbn [firstn]. rewrite app_nil_r.
    rewrite (firstn_all2 l1) by lia. rewrite (firstn_all2 l1) by lia. destruct (b - a) as [|c] eqn:Eb; [lia|]. cbn [firstn]. rewrite filter_app, app_length. cbn [filter]. rewrite Ho. cbn [length]. lia. }
  destruct (Nat.lt_trichotomy i j) as [L|[L|L]]; [|exact L|].
  - specialize (G i j li L Ei Mi). lia.
  - specialize (G j i lj L Ej Mj). lia.
Qed.

(** * The graph *)

Lemma edges_forward h u v : hinv h -> In (u, v) (g_edges (h_graph h)) -> u < v < length (h_list h).
Proof. intros I Q. apply (hi_edges h I) in Q. destruct Q as (lu & lv & op & _ & E & L & _). split; [exact L|]. apply nth_error_Some. congruence. Qed.
Lemma hierarchy_ranked h : hinv h -> ranked (h_graph h).
Proof. intros I. exists (fun i => i). intros u v Q. now apply (edges_forward h u v I) in Q. Qed.

(** * The top memory *)

Lemma last_exists {A} (f : A -> bool) l : filter f l <> [] -> exists l1 x l2, l = l1 ++ x :: l2 /\ f x = true /\ filter f l2 = [].
Proof.
  induction l as [|x l IH]; intros NE; [easy|]. cbn [filter] in NE. destruct (filter f l) as [|y ys] eqn:E.
  - exists [], x, l. destruct (f x); [repeat split; assumption|easy].
  - destruct IH as (l1 & x' & l2 & -> & F & N); [discriminate|]. exists (x :: l1), x', l2. repeat split; assumption.
Qed.
Lemma filter_nil {A} (f : A -> bool) l : filter f l = [] -> forall x, In x l -> f x = false.
Proof. intros E x I. destruct (f x) eqn:F; [|reflexivity]. assert (X : In x (filter f l)) by (now apply filter_In). now rewrite E in X. Qed.
Lemma find_skip {A} (f : A -> bool) l1 x l2 : (forall y, In y l1 -> f y = false) -> f x = true -> find f (l1 ++ x :: l2) = Some x.
Proof. induction l1 as [|y l1 IH]; intros N F; cbn; [now rewrite F|]. rewrite (N y (or_introl eq_refl)). apply IH; [intros; apply N; now right|exact F]. Qed.

Lemma top_is_last k ms h op : operands_once ms -> build k ms = Ok h -> (exists l, In l (h_list h) /\ stores op l) ->
  exists l, get_operand_top_level h op = Ok l /\ last_such (stores op) (h_list h) l.
Proof.
  intros O E (l0 & I0 & S0). destruct (build_inv k ms h E) as (I & _). assert (NE : filter (holds op) (h_list h) <> []).
  { intros Q. apply holds_stores in S0. now rewrite (filter_nil _ _ Q l0 I0) in S0. }
  destruct (last_exists _ _ NE) as (l1 & l & l2 & El & Ho & Nl). exists l. assert (Nb := nb_counts k ms O h op E).
  assert (Lh : length (holders h op) = S (length (filter (holds op) l1))).
  { unfold holders. change (fun l => memb op (ml_operands (lv_mem l))) with (holds op). rewrite El, filter_app. cbn [filter]. rewrite Ho, Nl, app_length. cbn. lia. }
  rewrite Lh in Nb. cbn [Nat.eqb] in Nb. split.
  - unfold get_operand_top_level, dgetr. rewrite Nb. cbn [of_option rbind]. rewrite El, rev_app_distr. cbn [rev]. rewrite <- app_assoc. cbn [app]. rewrite find_skip; [reflexivity| |].
    + intros y Iy. apply in_rev in Iy. assert (Fy := filter_nil _ _ Nl y Iy). apply In_nth_error in Iy. destruct Iy as (j & Ej).
      assert (En : nth_error (h_list h) (length l1 + S j) = Some y) by (rewrite El, nth_error_app2 by lia; replace (length l1 + S j - length l1) with (S j) by lia; exact Ej).
      rewrite (hi_dict h I _ y op En). unfold holds in Fy. now rewrite Fy.
    + assert (En : nth_error (h_list h) (length l1) = Some l) by (rewrite El, nth_error_app2, Nat.sub_diag by lia; reflexivity).
      rewrite (hi_dict h I _ l op En). unfold holds in Ho. rewrite Ho. apply Z.eqb_eq. unfold before_count. rewrite El, firstn_app, firstn_all, Nat.sub_diag. cbn [firstn]. rewrite app_nil_r. lia.
  - exists l1, l2. split; [exact El|]. split; [now apply holds_stores|]. intros y Iy S. apply holds_stores in S. now rewrite (filter_nil _ _ Nl y Iy) in S.
Qed.
Lemma top_absent k ms h op : operands_once ms -> build k ms = Ok h -> (forall l, In l (h_list h) -> ~ stores op l) -> get_operand_top_level h op = Err KeyError.
Proof.
  intros O E N. unfold get_operand_top_level, dgetr. rewrite (nb_counts k ms O h op E). replace (holders h op) with (@nil level); [reflexivity|]. symmetry. unfold holders.
  destruct (filter _ (h_list h)) as [|l ls] eqn:Ef; [reflexivity|]. exfalso. assert (X : In l (filter (fun l => memb op (ml_operands (lv_mem l))) (h_list h))) by (rewrite Ef; now left).
  apply filter_In in X. destruct X as (X & Y). apply (N l X). now apply holds_stores.
Qed.

(** * Inner memories *)

Lemma argmax {A} (f : A -> nat) l : l <> [] -> exists x, In x l /\ forall y, In y l -> f y <= f x.
Proof.
  induction l as [|a l IH]; [easy|]. intros _. destruct l as [|b l].
  - exists a. split; [now left|]. intros y [<-|[]]. lia.
  - destruct IH as (x & Ix & M); [discriminate|]. destruct (Nat.le_gt_cases (f a) (f x)) as [L|L].
    + exists x. split; [now right|]. intros y [<-|Iy]; [exact L|now apply M].
    + exists a. split; [now left|]. intros y [<-|Iy]; [lia|]. specialize (M y Iy). lia.
Qed.
Lemma In_firstn {A} (l : list A) i x : In x (firstn i l) <-> exists u, u < i /\ nth_error l u = Some x.
Proof.
  revert l. induction i as [|i IH]; intros l; cbn [firstn].
  - split; [intros []|]. intros (u & L & _). lia.
  - destruct l as [|y l]; cbn [firstn In].
    + split; [intros []|]. intros (u & _ & E). now destruct u.
    + rewrite IH. split.
      * intros [<-|(u & L & E)]; [exists 0; split; [lia|reflexivity]|exists (S u); split; [lia|exact E]].
      * intros (u & L & E). destruct u as [|u]; [left; now injection E|right; exists u; split; [lia|exact E]].
Qed.

Lemma inner_spec k ms h : build k ms = Ok h -> forall l, In l (get_inner_memories h) <-> In l (h_list h) /\ forall op n, dget op (lv_dict l) = Some n -> n = 0.
Proof.
  intros E l. destruct (build_inv k ms h E) as (I & _). unfold get_inner_memories. rewrite In_pick. split.
  - intros (i & Ii & Ei). apply filter_In in Ii. destruct Ii as (_ & D). apply Nat.eqb_eq in D. rewrite in_degree_0 in D. split; [eapply nth_error_In; exact Ei|].
    intros op n Hn. rewrite (hi_dict h I i l op Ei) in Hn. destruct (memb op (lv_operands l)) eqn:Mo; [|discriminate]. injection Hn as <-.
    unfold before_count. destruct (filter (holds op) (firstn i (h_list h))) as [|l1 ls] eqn:Ef; [reflexivity|]. exfalso.
    destruct (argmax height (filter (holds op) (firstn i (h_list h)))) as (lu & Iu & M); [rewrite Ef; discriminate|].
    apply filter_In in Iu. destruct Iu as (Iu & Hu). apply In_firstn in Iu. destruct Iu as (u & Lu & Eu). apply (D u). apply (hi_edges h I).
    exists lu, l, op. split; [exact Eu|]. split; [exact Ei|]. split; [exact Lu|]. split; [now apply holds_stores|]. split; [now apply holds_stores|].
    intros w lw Lw Ew Sw. apply M. apply filter_In. split; [apply In_firstn; now exists w|now apply holds_stores].
  - intros (Il & N). apply In_nth_error in Il. destruct Il as (i & Ei). exists i. split; [|exact Ei]. apply filter_In. split.
    + rewrite (hi_nodes h I). apply in_seq. assert (i < length (h_list h)) by (apply nth_error_Some; congruence). lia.
    + apply Nat.eqb_eq. apply in_degree_0. intros u Q. apply (hi_edges h I) in Q. destruct Q as (lu & lv & op & Eu & Ev & L & Su & Sv & _).
      rewrite Ei in Ev. injection Ev as <-. assert (D := hi_dict h I i l op Ei). apply holds_stores in Sv. unfold holds in Sv. rewrite Sv in D. apply N in D.
      unfold before_count in D. apply length_zero_iff_nil in D. apply holds_stores in Su. rewrite (filter_nil _ _ D lu) in Su; [discriminate|]. apply In_firstn. now exists u.
Qed.

(** * Orders *)

Lemma before_sorted {A} (R : A -> A -> Prop) l : (forall u v, before l u v -> R u v) -> StronglySorted R l.
Proof.
  induction l as [|a l IH]; intros Q; [constructor|]. constructor.
  - apply IH. intros u v (l1 & l2 & l3 & ->). apply Q. now exists (a :: l1), l2, l3.
  - apply Forall_forall. intros b Ib. apply in_split in Ib. destruct Ib as (l2 & l3 & ->). apply Q. now exists [], l2, l3.
Qed.
Lemma sorted_filter {A} (R : A -> A -> Prop) (f : A -> bool) l : StronglySorted (fun u v => f u = true -> f v = true -> R u v) l -> StronglySorted R (filter f l).
Proof.
  induction 1 as [|a l S IH F]; [constructor|]. cbn [filter]. destruct (f a) eqn:Fa; [|exact IH]. constructor; [exact IH|]. rewrite Forall_forall in *.
  intros b Ib. apply filter_In in Ib. destruct Ib. now apply F.
Qed.
Lemma sorted_perm (l l' : list nat) : StronglySorted lt l -> StronglySorted lt l' -> Permutation l l' -> l = l'.
Proof.
  intros S. revert l'. induction S as [|a l S IH F]; intros l' S' P; [now apply Permutation_nil in P|].
  destruct S' as [|b l' S' F']; [symmetry in P; now apply Permutation_nil in P|]. rewrite Forall_forall in *.
  assert (E : a = b). { assert (Ia : In a (b :: l')) by (apply (Permutation_in _ P); now left). assert (Ib : In b (a :: l)) by (apply (Permutation_in _ (Permutation_sym P)); now left).
    destruct Ia as [->|Ia]; [reflexivity|]. destruct Ib as [->|Ib]; [reflexivity|]. specialize (F b Ib). specialize (F' a Ia). lia. }
  subst b. f_equal. apply IH; [exact S'|]. now apply Permutation_cons_inv in P.
Qed.
Lemma seq_sorted a n : StronglySorted lt (seq a n).
Proof. revert a. induction n as [|n IH]; intros a; constructor; [apply IH|]. apply Forall_forall. intros b Q. apply in_seq in Q. lia. Qed.
Lemma filter_perm {A} (f : A -> bool) l l' : Permutation l l' -> Permutation (filter f l) (filter f l').
Proof.
  induction 1 as [|x l l' P IH|x y l|l l' l'' P IH P' IH']; cbn [filter]; [constructor| | |now transitivity (filter f l')].
  - destruct (f x); [now apply perm_skip|exact IH].
  - destruct (f x), (f y); try apply Permutation_refl. apply perm_swap.
Qed.
Lemma pick_filter {A} (f : A -> bool) (l : list A) is :
  filter f (pick l is) = pick l (filter (fun i => match nth_error l i with Some x => f x | None => false end) is).
Proof.
  induction is as [|i is IH]; [reflexivity|]. cbn [pick flat_map filter]. fold (pick l is). destruct (nth_error l i) as [x|] eqn:E; cbn [app].
  - cbn [filter]. destruct (f x); [cbn [pick flat_map]; rewrite E; fold (pick l (filter (fun i => match nth_error l i with Some x => f x | None => false end) is)); cbn [app]; now rewrite <- IH|exact IH].
  - exact IH.
Qed.

Lemma grown_order h L op : hinv h -> heights_grow h -> topological_order (h_graph h) L ->
  filter (holds op) (pick (h_list h) L) = filter (holds op) (h_list h).
Proof.
  intros I G (P & B). set (P' := fun i => match nth_error (h_list h) i with Some x => holds op x | None => false end).
  assert (Nd : NoDup L) by (apply (Permutation_NoDup (Permutation_sym P)); apply I). rewrite (hi_nodes h I) in P.
  assert (St : forall i l, nth_error (h_list h) i = Some l -> P' i = true -> stores op l) by (intros i l Ei Q; unfold P' in Q; rewrite Ei in Q; now apply holds_stores).
  assert (Sp : forall i, P' i = true -> exists l, nth_error (h_list h) i = Some l /\ stores op l).
  { intros i Q. destruct (nth_error (h_list h) i) as [l|] eqn:Ei; [exists l; split; [reflexivity|now apply (St i)]|]. unfold P' in Q. rewrite Ei in Q. discriminate. }
  set (r := fun x => match index_of x L with Some i => i | None => 0 end).
  assert (Br : forall u v, before L u v -> r u < r v).
  { intros u v Q. destruct (index_before L u v Nd Q) as (i & j & Ei & Ej & Lt). unfold r. now rewrite Ei, Ej. }
  assert (Up : forall v u, u < v -> P' u = true -> P' v = true -> r u < r v).
  { induction v as [v IH] using (well_founded_induction lt_wf). intros u L' Pu Pv.
    assert (X : exists w, u <= w /\ w < v /\ P' w = true /\ forall w', w < w' -> w' < v -> P' w' = false).
    { clear -L' Pu. induction v as [|v IHv]; [lia|]. destruct (P' v) eqn:Pv; [exists v; repeat split; [lia|lia|exact Pv|intros; lia]|].
      destruct (Nat.eq_dec u v) as [->|N]; [congruence|]. destruct IHv as (w & A1 & A2 & A3 & A4); [lia|]. exists w. repeat split; [lia|lia|exact A3|].
      intros w' L1 L2. destruct (Nat.eq_dec w' v) as [->|N']; [exact Pv|]. apply A4; lia. }
    destruct X as (w & Lw & Lv & Pw & Last). destruct (Sp w Pw) as (lw & Ew & Sw). destruct (Sp v Pv) as (lv & Ev & Sv).
    assert (Ed : r w < r v).
    { apply Br, B. apply (hi_edges h I). exists lw, lv, op. repeat split; try assumption. intros w' lw' Lw' Ew' Sw'.
      destruct (Nat.lt_trichotomy w' w) as [Q|[->|Q]]; [now apply (G op w' w)|rewrite Ew in Ew'; injection Ew' as <-; lia|].
      specialize (Last w' Q Lw'). unfold P' in Last. rewrite Ew' in Last. apply holds_stores in Sw'. congruence. }
    destruct (Nat.eq_dec u w) as [->|N]; [exact Ed|]. assert (r u < r w); [|lia]. apply IH; [lia|lia|exact Pu|exact Pw]. }
  rewrite pick_filter. fold P'. rewrite <- (pick_seq (h_list h)) at 2. rewrite pick_filter. fold P'. f_equal. apply sorted_perm.
  - apply sorted_filter, before_sorted. intros u v Q Pu Pv. destruct (Nat.lt_trichotomy u v) as [Q'|[->|Q']]; [exact Q'| |].
    + apply Br in Q. lia.
    + apply Br in Q. specialize (Up u v Q' Pv Pu). lia.
  - apply sorted_filter. assert (S := seq_sorted 0 (length (h_list h))). clear -S. induction S as [|a l S IH F]; constructor; [exact IH|]. rewrite Forall_forall in *. intros b Ib _ _. now apply F.
  - now apply filter_perm.
Qed.

Lemma levels_perm k ms h : build k ms = Ok h -> exists L, topological_sort (h_graph h) = Ok L /\ topological_order (h_graph h) L /\
  forall op, exists ls, get_memory_levels h op = Ok ls /\ ls = filter (holds op) (pick (h_list h) L) /\ Permutation ls (holders h op).
Proof.
  intros E. destruct (build_inv k ms h E) as (I & _). destruct (sort_ok (h_graph h) (hi_graph h I) (hierarchy_ranked h I)) as (L & El & T). exists L. split; [exact El|]. split; [exact T|].
  intros op. unfold get_memory_levels. rewrite El. cbn [rbind]. eexists. split; [reflexivity|]. split; [reflexivity|]. unfold holders. change (fun l => memb op (ml_operands (lv_mem l))) with (holds op).
  apply filter_perm. destruct T as (P & _). rewrite (hi_nodes h I) in P. rewrite <- (pick_seq (h_list h)) at 2. now apply pick_perm.
Qed.

Lemma dict_height op n l : dget op (lv_dict l) = Some n -> n <= height l.
Proof.
  intros Q. apply dget_In in Q. unfold height. assert (F := proj1 (list_max_le (map snd (lv_dict l)) _) (Nat.le_refl _)). rewrite Forall_forall in F. apply F.
  change n with (snd (op, n)). now apply List.in_map.
Qed.
Lemma height_dict l op0 n0 : dget op0 (lv_dict l) = Some n0 -> exists op n, In (op, n) (lv_dict l) /\ height l = n.
Proof.
  intros Q. apply dget_In in Q. destruct (argmax snd (lv_dict l)) as ((op, n) & I & M); [intros E; now rewrite E in Q|]. exists op, n. split; [exact I|]. cbn [snd] in M.
  unfold height. apply Nat.le_antisymm.
  - apply list_max_le. apply Forall_forall. intros x Ix. apply in_map_iff in Ix. destruct Ix as (y & <- & Iy). now apply M.
  - assert (F := proj1 (list_max_le (map snd (lv_dict l)) _) (Nat.le_refl _)). rewrite Forall_forall in F. apply F. change n with (snd (op, n)). now apply List.in_map.
Qed.
Lemma count_mono op (ls : list level) i j : i <= j -> before_count ls i op <= before_count ls j op.
Proof.
  intros L. unfold before_count. replace (firstn j ls) with (firstn i ls ++ firstn (j - i) (skipn i ls)); [rewrite filter_app, app_length; lia|].
  rewrite firstn_skipn_comm. replace (i + (j - i)) with j by lia. rewrite <- (firstn_skipn i (firstn j ls)) at 2. rewrite firstn_firstn. now rewrite Nat.min_l by lia.
Qed.
Lemma stay_grow h : hinv h ->
  (forall op i j li lj, i < j -> nth_error (h_list h) i = Some li -> nth_error (h_list h) j = Some lj -> stores op li -> stores op lj ->
     forall op', stores op' li -> stores op' lj) -> heights_grow h.
Proof.
  intros I Q op i j li lj L Ei Ej Si Sj. assert (D := hi_dict h I i li op Ei). assert (Si' := Si). apply holds_stores in Si'. unfold holds in Si'. rewrite Si' in D.
  destruct (height_dict li _ _ D) as (op' & n & In' & ->). apply In_dget in In'; [|apply (hi_keys h I); eapply nth_error_In; exact Ei].
  rewrite (hi_dict h I i li op' Ei) in In'. destruct (memb op' (lv_operands li)) eqn:M; [|discriminate]. injection In' as <-.
  assert (S' : stores op' lj) by (apply (Q op i j li lj L Ei Ej Si Sj); now apply holds_stores). apply holds_stores in S'. unfold holds in S'.
  assert (Dj := hi_dict h I j lj op' Ej). rewrite S' in Dj. apply dict_height in Dj. assert (C := count_mono op' (h_list h) i j). lia.
Qed.
