(** An evaluation with complete inputs goes through (C74). *)
From Coq Require Import QArith Qround Lqa Lia.
From Verif Require Import Base Model_Decouple Model_SpatialInt Model_DataMove Model_Mapping Model_Links Model_Cost Model_Latency
  Spec_DataMove Spec_Mapping Spec_Cost Spec_Latency Spec_Evaluate
  Proof_AllocSearch Proof_Bandwidth Proof_Mapping Proof_Links Proof_Energy Proof_Loading Proof_Balance Proof_Window Proof_Latency.
Local Open Scope result_scope.

Lemma dgetr_ok {K V} `{EqB K} (k : K) (d : dict K V) v : dget k d = Some v -> dgetr k d = Ok v.
Proof. unfold dgetr. now intros ->. Qed.
Lemma lt_nth {A} (l : list A) i x : nth_error l i = Some x -> (i < length l)%nat.
Proof. intros E. apply nth_error_Some. congruence. Qed.

Lemma keys_rmap {A B} (f : A -> result (A * B)) l r : (forall x y, In x l -> f x = Ok y -> fst y = x) -> rmap f l = Ok r -> keys r = l.
Proof.
  intros H E. apply rmap_Forall2 in E. revert H. unfold keys. induction E as [|x y l r Hx F IH]; intros H; [reflexivity|]. cbn [map]. f_equal; [apply H; [now left|exact Hx]|].
  apply IH. intros a b I. apply H. now right.
Qed.
Lemma dget_map2 {A B C} `{EqB A} (f : B -> C) (k : A) (d : dict A (list B)) l : dget k d = Some l -> dget k (map (fun kv => (fst kv, map f (snd kv))) d) = Some (map f l).
Proof.
  induction d as [|[a b] d IH]; cbn [map dget fst snd]; [discriminate|]. destruct (eqb k a); [|exact IH]. intros E. now injection E as ->.
Qed.
Lemma dset_nonempty {K V} `{EqB K} (k : K) (v : V) (d : dict K V) : dset k v d <> [].
Proof. destruct d as [|[a b] d]; cbn [dset]; [discriminate|]. destruct (eqb k a); discriminate. Qed.
Lemma four_total {A} (zero : A) (F : direction -> result A) : (forall k, exists x, F k = Ok x) ->
  exists f, (d <- rmap (fun k => x <- F k ;; Ok (k, x)) directions ;; four_way zero (Some d)) = Ok f /\ forall k, exists x, dget k f = Some x.
Proof.
  intros H. destruct (H RdLow) as (a & Ha), (H WrLow) as (b & Hb), (H RdHigh) as (c & Hc), (H WrHigh) as (d & Hd).
  unfold directions. cbn [rmap rbind]. rewrite Ha. cbn [rbind]. rewrite Hb. cbn [rbind]. rewrite Hc. cbn [rbind]. rewrite Hd. cbn [rbind].
  eexists. split; [reflexivity|]. intros []; cbn; eauto.
Qed.
Lemma four_total' {A} (zero : A) (F : direction -> result (direction * A)) : (forall k, exists x, F k = Ok (k, x)) ->
  exists f, (d <- rmap F directions ;; four_way zero (Some d)) = Ok f /\ forall k, exists x, dget k f = Some x.
Proof.
  intros H. destruct (H RdLow) as (a & Ha), (H WrLow) as (b & Hb), (H RdHigh) as (c & Hc), (H WrHigh) as (d & Hd).
  unfold directions. cbn [rmap rbind]. rewrite Ha. cbn [rbind]. rewrite Hb. cbn [rbind]. rewrite Hc. cbn [rbind]. rewrite Hd. cbn [rbind].
  eexists. split; [reflexivity|]. intros []; cbn; eauto.
Qed.

Lemma attr_entry p a k x : entry p a k = Some x -> attr_of p a k = Ok x.
Proof.
  unfold entry, attr_of, get_attribute, four_get, dgetr. destruct (dget a p) as [f|]; [|discriminate]. cbn [of_option rbind]. now intros ->.
Qed.
Lemma width_bandwidth d m k b : width d m k b -> bandwidth d m k = Ok b.
Proof. intros (f & F & G). unfold bandwidth. rewrite (dgetr_ok _ _ _ F). cbn [rbind]. now apply dgetr_ok. Qed.

(** * Utilizations *)
Section Total.
  Variable ci : inputs.
  Hypothesis C : complete_inputs ci.

  Lemma link_known op : In op (in_ops ci) -> exists m, dget op (lk_data (in_links ci)) = Some m.
  Proof. intros I. apply key_dget. now apply (co_operands ci C). Qed.
  Lemma link_back op m : dget op (lk_data (in_links ci)) = Some m -> mem_to_layer_op (in_links ci) m = Ok op.
  Proof.
    intros H. destruct (co_links ci C) as (data & K & E). apply (links_inverse data (in_links ci) K E). unfold layer_to_mem_op. now apply dgetr_ok.
  Qed.
  Lemma link_in op m : dget op (lk_data (in_links ci)) = Some m -> In op (in_ops ci).
  Proof. intros H. apply (co_operands ci C). now apply dget_Some_key in H. Qed.
  Lemma link_contains op m : dget op (lk_data (in_links ci)) = Some m -> contains_mem_op (in_links ci) m = true.
  Proof. intros H. unfold contains_mem_op. apply memb_In. apply dget_In in H. unfold values. apply in_map_iff. now exists (op, m). Qed.
  Lemma contains_link m : contains_mem_op (in_links ci) m = true -> exists op, dget op (lk_data (in_links ci)) = Some m.
  Proof.
    unfold contains_mem_op. intros H. apply memb_In in H. unfold values in H. apply in_map_iff in H. destruct H as ([op m'] & E & I). cbn in E. subst m'.
    destruct (co_links ci C) as (data & K & E). exists op. apply In_dget; [|exact I].
    unfold make_links in E. destruct (Nat.eqb _ _); [|discriminate]. injection E as <-. exact K.
  Qed.
  Lemma op_levels op m : dget op (lk_data (in_links ci)) = Some m -> exists n od ps od' ps' ms uc,
    dget op (in_map ci) = Some (od, ps) /\ dget op (in_map_int ci) = Some (od', ps') /\ dget m (in_hier ci) = Some ms /\ dget op (in_unit_count ci) = Some uc /\
    length ps = n /\ length ps' = n /\ length ms = n /\ (0 < n)%nat /\ (n < length uc)%nat /\
    (n < length (od_bit_unrolled od))%nat /\ (n < length (od_effective_bit od))%nat /\ (n < length (od_bit_unrolled od'))%nat.
  Proof.
    intros H. destruct (og_memories ci op m (co_given ci C op m H)) as (ms & od & ps & od' & ps' & uc & A & B & D & E & F & G & G1 & G2 & G3 & G4 & G5).
    exists (length ps), od, ps, od', ps', ms, uc. repeat split; try assumption. destruct ps; [congruence|cbn; lia].
  Qed.

  Definition shaped (d : dict string (list Q)) : Prop := forall op od ps, In op (in_ops ci) -> dget op (in_map ci) = Some (od, ps) ->
    exists l, dget op d = Some l /\ length l = length ps.

  Lemma individual_total (bits : opdata -> list Z) :
    (forall op od ps, In op (in_ops ci) -> dget op (in_map ci) = Some (od, ps) -> (length ps < length (bits od))%nat) ->
    exists ind, individual ci bits = Ok ind /\ shaped ind.
  Proof.
    intros Hb. unfold individual.
    assert (G : forall op, In op (in_ops ci) -> exists u od ps, utilization ci bits op = Ok u /\ dget op (in_map ci) = Some (od, ps) /\ length u = length ps).
    { intros op I. destruct (link_known op I) as (m & Hm). destruct (op_levels op m Hm) as (n & od & ps & od' & ps' & ms & uc & A & B & D & _ & L & _ & L3 & _).
      unfold utilization, layer_to_mem_op, levels_of. rewrite (dgetr_ok _ _ _ Hm). cbn [rbind]. rewrite (dgetr_ok _ _ _ A). cbn [rbind snd].
      match goal with |- context [rmap ?f _] => destruct (rmap_seq f (length ps) 0) as (ys & E & Ly & _) end.
      { intros i Hi. cbn [Nat.add]. destruct (nth_lt (bits od) (S i)) as (b & Eb); [pose proof (Hb op od ps I A); lia|].
        destruct (nth_lt ms i) as (mm & Em); [lia|]. cbn [fst]. rewrite (at_ok _ _ _ Eb). cbn [rbind]. rewrite (dgetr_ok _ _ _ D). cbn [rbind]. rewrite (at_ok _ _ _ Em). cbn [rbind].
        eexists. apply pdiv_ok, inject_nz. assert (P := og_sizes ci op m (co_given ci C op m Hm) ms mm D (nth_error_In _ _ Em)). lia. }
      rewrite E. eauto 8. }
    match goal with |- context [rmap ?f (in_ops ci)] => destruct (rmap_ok' f (in_ops ci)) as (ind & E) end.
    { intros op I. destruct (G op I) as (u & _ & _ & -> & _). cbn [rbind]. eauto. }
    exists ind. split; [exact E|]. intros op od ps I A. apply rmap_Forall2 in E. destruct (Forall2_in_l _ _ _ _ E I) as ([op' u] & Ii & Eu).
    destruct (G op I) as (u' & od' & ps' & Eu' & A' & L). rewrite Eu' in Eu. cbn [rbind] in Eu. injection Eu as <- <-. rewrite A in A'. injection A' as <- <-.
    exists u'. split; [|exact L]. apply In_dget; [|exact Ii].
    assert (K : keys ind = in_ops ci).
    { clear - E. unfold keys. induction E as [|x y l l' Hx F IH]; [reflexivity|]. apply rbind_Ok in Hx. destruct Hx as (v & _ & Hx). injection Hx as <-. cbn. now f_equal. }
    rewrite K. exact (co_once ci C).
  Qed.

  Definition in_shape (x : string * nat) : Prop := exists od ps, In (fst x) (in_ops ci) /\ dget (fst x) (in_map ci) = Some (od, ps) /\ (snd x < length ps)%nat.
  Lemma get2_total d x : shaped d -> in_shape x -> exists v, get2 d x = Ok v.
  Proof.
    intros S (od & ps & I & M & L). destruct (S _ _ _ I M) as (l & D & Ll). unfold get2. rewrite (dgetr_ok _ _ _ D). cbn [rbind].
    destruct (nth_lt l (snd x)) as (v & E); [lia|]. rewrite (at_ok _ _ _ E). eauto.
  Qed.
  Lemma set_at_total {A} i (v : A) : forall l, (i < length l)%nat -> exists l', set_at i v l = Ok l' /\ length l' = length l.
  Proof.
    induction i as [|i IH]; intros [|y l] H; cbn in H; try lia; cbn; [eauto|]. destruct (IH l) as (l' & -> & L); [lia|]. cbn. eexists. split; [reflexivity|]. cbn. lia.
  Qed.
  Lemma set2_total d x v : shaped d -> in_shape x -> exists d', set2 d x v = Ok d' /\ shaped d'.
  Proof.
    intros S (od & ps & I & M & L). destruct (S _ _ _ I M) as (l & D & Ll). unfold set2. rewrite (dgetr_ok _ _ _ D). cbn [rbind].
    destruct (set_at_total (snd x) v l) as (l' & -> & L'); [lia|]. cbn [rbind]. eexists. split; [reflexivity|].
    intros op od' ps' I' M'. destruct (eqb_spec op (fst x)) as [E|E].
    - rewrite E in *. rewrite M in M'. injection M' as <- <-. exists l'. rewrite dget_dset_eq. split; [reflexivity|lia].
    - rewrite dget_dset_neq by assumption. exact (S op od' ps' I' M').
  Qed.
  Lemma members_total g : In g (in_sharing ci) -> exists ms, used_members ci g = Ok ms /\ forall x, In x ms -> in_shape x.
  Proof.
    intros Ig. unfold used_members. match goal with |- context [rmap ?f ?l] => destruct (rmap_ok' f l) as (ms & E) end.
    { intros x Ix. apply filter_In in Ix. destruct Ix as [_ Cx]. destruct (contains_link _ Cx) as (op & Ho). rewrite (link_back op _ Ho). cbn [rbind]. eauto. }
    exists ms. split; [exact E|]. intros y Iy. apply rmap_Forall2 in E. destruct (Forall2_in_r _ _ _ _ E Iy) as (x & Ix & Ex).
    apply filter_In in Ix. destruct Ix as [Ix Cx]. destruct (contains_link _ Cx) as (op & Ho). rewrite (link_back op _ Ho) in Ex. cbn [rbind] in Ex. injection Ex as <-.
    destruct x as [mo lv]. cbn [fst snd] in *. destruct (co_sharing ci C g op mo lv Ig Ix Ho) as (od & ps & A & L). exists od, ps. cbn [fst snd]. repeat split; try assumption. now apply link_in in Ho.
  Qed.
  Lemma shared_total ind : shaped ind -> exists sh, shared ci ind = Ok sh /\ shaped sh.
  Proof.
    intros Hi. unfold shared. apply (rfold_ok _ shaped); [|exact Hi]. intros d g Ig Hd.
    destruct (members_total g Ig) as (ms & -> & Hm). cbn [rbind].
    destruct (rmap_ok' (get2 ind) ms) as (us & ->). { intros x Ix. apply get2_total; auto. } cbn [rbind].
    apply (rfold_ok _ shaped); [|exact Hd]. intros a x Ix Ha. apply set2_total; auto.
  Qed.

  (** * Word accesses and energy *)
  Lemma word_total op m ms od ps lv mm p k : dget op (lk_data (in_links ci)) = Some m -> dget m (in_hier ci) = Some ms -> dget op (in_map ci) = Some (od, ps) ->
    nth_error ms lv = Some mm -> nth_error ps lv = Some p -> exists n, word_access ci op m lv mm p k = Ok n.
  Proof.
    intros Ho Hh Hm Em Ep. assert (G := co_given ci C op m Ho). unfold word_access.
    destruct (og_attributes ci op m G od ps p (or_introl Hm) (nth_error_In _ _ Ep) AmountPerPeriod k) as (am & Ea). rewrite (attr_entry _ _ _ _ Ea). cbn [rbind].
    destruct (og_attributes ci op m G od ps p (or_introl Hm) (nth_error_In _ _ Ep) Precision k) as (pr & Epr). rewrite (attr_entry _ _ _ _ Epr). cbn [rbind].
    destruct (og_attributes ci op m G od ps p (or_introl Hm) (nth_error_In _ _ Ep) PeriodCount k) as (ct & Ec). rewrite (attr_entry _ _ _ _ Ec). cbn [rbind].
    destruct (og_widths ci op m G ms od ps lv mm p k Hh Hm Em Ep) as [(W1 & W2 & A0)|(mx & mn & W1 & W2 & P1 & P2)].
    - rewrite (width_bandwidth _ _ _ _ W1). cbn [rbind]. rewrite (width_bandwidth _ _ _ _ W2). cbn [rbind]. rewrite Ea in A0. injection A0 as ->. exists 0%Z. reflexivity.
    - rewrite (width_bandwidth _ _ _ _ W1). cbn [rbind]. rewrite (width_bandwidth _ _ _ _ W2). cbn [rbind].
      destruct (Z.eqb_spec mx 0); [lia|]. destruct (Z.eqb_spec mn 0); [lia|]. cbn [orb]. unfold calc_memory_access. destruct ((am =? 0) || (pr =? 0))%Z; [eauto|].
      rewrite pdiv_ok by (apply inject_nz; lia). cbn [rbind]. rewrite pdiv_ok by (apply inject_nz; lia). cbn [rbind].
      destruct (op_levels op m Ho) as (n' & od0 & ps0 & od' & ps' & ms0 & uc & A & B & D & U & L & _ & _ & _ & LU & _). rewrite A in Hm. injection Hm as -> ->.
      rewrite (dgetr_ok _ _ _ U). cbn [rbind]. destruct (nth_lt uc (S lv)) as (u & Eu); [apply lt_nth in Ep; lia|]. rewrite (at_ok _ _ _ Eu). cbn [rbind]. eauto.
  Qed.

  Definition counted (op : string) (fs : list (four Z)) : Prop :=
    In op (in_ops ci) /\ exists od ps, dget op (in_map ci) = Some (od, ps) /\ length fs = length ps /\ forall f, In f fs -> forall k, exists x, dget k f = Some x.
  Lemma accesses_total : exists acc, calc_memory_word_access ci = Ok acc /\ forall op fs, In (op, fs) acc -> counted op fs.
  Proof.
    unfold calc_memory_word_access.
    assert (G : forall op, In op (in_ops ci) -> exists fs, word_accesses_of ci op = Ok fs /\ counted op fs).
    { intros op I. destruct (link_known op I) as (m & Hm). destruct (op_levels op m Hm) as (n & od & ps & od' & ps' & ms & uc & A & B & D & _ & L & _ & L3 & _).
      unfold word_accesses_of, layer_to_mem_op, levels_of. rewrite (dgetr_ok _ _ _ Hm). cbn [rbind]. rewrite (dgetr_ok _ _ _ A). cbn [rbind snd].
      match goal with |- context [rmap ?f (seq _ _)] => set (F := f) end.
      assert (Q : forall i, (i < length ps)%nat -> exists f, F i = Ok f /\ forall k, exists x, dget k f = Some x).
      { intros i Hi. unfold F. destruct (nth_lt ms i) as (mm & Em); [lia|]. destruct (nth_lt ps i Hi) as (p & Ep).
        unfold get_memory_level, unit_mem. rewrite (dgetr_ok _ _ _ D). cbn [rbind]. rewrite (at_ok _ _ _ Em). cbn [rbind]. rewrite (dgetr_ok _ _ _ A). cbn [rbind snd]. rewrite (at_ok _ _ _ Ep). cbn [rbind].
        apply four_total. intros k. exact (word_total op m ms od ps i mm p k Hm D A Em Ep). }
      destruct (rmap_seq F (length ps) 0) as (ys & E & Ly & Hy). { intros i Hi. destruct (Q i Hi) as (f & Ef & _). eauto. }
      exists ys. split; [exact E|]. split; [exact I|]. exists od, ps. split; [exact A|]. split; [exact Ly|]. intros f If. apply In_nth_error in If. destruct If as (i & Ei).
      assert (Hi : (i < length ps)%nat) by (rewrite <- Ly; now apply lt_nth in Ei). destruct (Hy i Hi) as (f' & Ef' & EF). rewrite Ei in Ef'. injection Ef' as <-. cbn [Nat.add] in EF.
      destruct (Q i Hi) as (f' & EF' & H). rewrite EF in EF'. injection EF' as <-. exact H. }
    match goal with |- context [rmap ?f (in_ops ci)] => destruct (rmap_ok' f (in_ops ci)) as (al & E) end.
    { intros op I. destruct (G op I) as (u & -> & _). cbn [rbind]. eauto. }
    rewrite E. cbn [rbind]. eexists. split; [reflexivity|]. intros op fs I. apply filter_In in I. destruct I as [I _].
    apply rmap_Forall2 in E. destruct (Forall2_in_r _ _ _ _ E I) as (op' & I' & Eo). destruct (G op' I') as (u & Eu & Hc). rewrite Eu in Eo. cbn [rbind] in Eo. injection Eo as <- <-. exact Hc.
  Qed.
  Lemma energy_total acc : (forall op fs, In (op, fs) acc -> counted op fs) -> exists en, calc_memory_energy_cost ci acc = Ok en.
  Proof.
    intros H. unfold calc_memory_energy_cost. match goal with |- context [rmap ?f acc] => destruct (rmap_ok' f acc) as (es & ->) end; [|cbn [rbind]; eauto].
    intros [op fs] I. cbn [fst snd]. destruct (H op fs I) as (Io & od & ps & A & L & Hf). destruct (link_known op Io) as (m & Hm).
    destruct (op_levels op m Hm) as (n & od0 & ps0 & od' & ps' & ms & uc & _ & B & D & _). unfold operand_energy, layer_to_mem_op. rewrite (dgetr_ok _ _ _ Hm). cbn [rbind]. rewrite (dgetr_ok _ _ _ D). cbn [rbind].
    match goal with |- context [rmap ?f (combine fs ms)] => destruct (rmap_ok' f (combine fs ms)) as (l & ->) end; [|cbn [rbind]; eauto].
    intros [f mm] If. apply in_combine_l in If. cbn [fst snd]. unfold level_energy, four_get.
    destruct (Hf f If RdHigh) as (a & Ea), (Hf f If WrHigh) as (b & Eb), (Hf f If RdLow) as (c & Ec), (Hf f If WrLow) as (d & Ed).
    rewrite (dgetr_ok _ _ _ Ea). cbn [rbind]. rewrite (dgetr_ok _ _ _ Eb). cbn [rbind]. rewrite (dgetr_ok _ _ _ Ec). cbn [rbind]. rewrite (dgetr_ok _ _ _ Ed). cbn [rbind].
    cbn zeta. match goal with |- context [four_way ?z ?s] => destruct (four_way z s) as [w|] eqn:E; [|vm_compute in E; discriminate] end. cbn [rbind]. eauto.
  Qed.

  (** * Double buffering *)
  Lemma find_in {A} (f : A -> bool) l x : find f l = Some x -> In x l.
  Proof. induction l as [|a l IH]; cbn; [discriminate|]. destruct (f a); [intros E; injection E as ->; now left|]. intros E. right. now apply IH. Qed.
  Lemma buffer_step_total ind op m lv sh : shaped ind -> shaped sh -> in_shape (op, lv) ->
    exists x, double_buffer_step ci ind op m lv sh = Ok x /\ shaped (snd x).
  Proof.
    intros Hi Hs Sh. unfold double_buffer_step. destruct (get2_total sh (op, lv) Hs Sh) as (s & ->). cbn [rbind].
    destruct (Qle_bool s (1 # 2)); [eexists; split; [reflexivity|exact Hs]|]. destruct (get2_total ind (op, lv) Hi Sh) as (i & ->). cbn [rbind].
    destruct (Qle_bool i (1 - s)); [|eexists; split; [reflexivity|exact Hs]]. destruct (shared_mem_list ci m lv) as [g|] eqn:Eg; [|eexists; split; [reflexivity|exact Hs]].
    apply find_in in Eg. destruct (members_total g Eg) as (ms & -> & Hm). cbn [rbind].
    match goal with |- context [rfold ?f sh ms] => destruct (rfold_ok f shaped ms) with (a := sh) as (sh' & -> & Hs') end; [|exact Hs|].
    - intros a x Ix Ha. destruct (get2_total a x Ha (Hm x Ix)) as (v & ->). cbn [rbind]. apply set2_total; auto.
    - cbn [rbind]. eexists. split; [reflexivity|]. exact Hs'.
  Qed.
  Definition flagged (fl : dict string (list bool)) (op : string) : Prop := exists m od ps fs,
    dget op (lk_data (in_links ci)) = Some m /\ dget op (in_map_int ci) = Some (od, ps) /\ dget op fl = Some fs /\ length fs = S (length ps).
  Lemma buffer_op_total ind op sh : shaped ind -> shaped sh -> In op (in_ops ci) -> exists fs sh' m od ps,
    double_buffer_op ci ind op sh = Ok (fs, sh') /\ shaped sh' /\ dget op (lk_data (in_links ci)) = Some m /\ dget op (in_map_int ci) = Some (od, ps) /\ length fs = S (length ps).
  Proof.
    intros Hi Hs Io. destruct (link_known op Io) as (m & Hm). destruct (op_levels op m Hm) as (n & od & ps & od' & ps' & ms & uc & A & B & D & _ & L & L2 & L3 & _).
    unfold double_buffer_op, layer_to_mem_op, levels_of. rewrite (dgetr_ok _ _ _ Hm). cbn [rbind]. rewrite (dgetr_ok _ _ _ B). cbn [rbind snd].
    match goal with |- context [rfold ?f _ (seq 0 _)] => set (F := f) end.
    assert (G : forall k s st, (s + k <= length ps')%nat -> shaped (snd st) -> exists st', rfold F st (seq s k) = Ok st' /\ shaped (snd st') /\ length (fst st') = (length (fst st) + k)%nat).
    { induction k as [|k IH]; intros s st Hk Hst; [exists st; cbn; repeat split; [exact Hst|lia]|]. cbn [seq rfold]. unfold F at 1.
      destruct (buffer_step_total ind op m s (snd st) Hi Hst) as (x & -> & Hx). { exists od, ps. cbn [fst snd]. repeat split; try assumption. lia. } cbn [rbind].
      destruct (IH (S s) (fst st ++ [fst x], snd x)%list) as (st' & -> & H1 & H2); [lia|exact Hx|]. exists st'. split; [reflexivity|]. split; [exact H1|]. rewrite H2. cbn [fst]. rewrite app_length. cbn. lia. }
    destruct (G (length ps') 0%nat ([false], sh)) as ([fs sh'] & E & H1 & H2); [lia|exact Hs|]. exists fs, sh', m, od', ps'. split; [exact E|]. split; [exact H1|]. split; [exact Hm|]. split; [exact B|]. cbn in H2. lia.
  Qed.
  Lemma buffer_total ind sh : shaped ind -> shaped sh -> exists fl sh', calc_double_buffer_flag ci ind sh = Ok (fl, sh') /\ forall op, In op (in_ops ci) -> flagged fl op.
  Proof.
    intros Hi Hs. unfold calc_double_buffer_flag. match goal with |- context [rfold ?f _ _] => set (F := f) end.
    assert (G : forall ops st, (forall op, In op ops -> In op (in_ops ci)) -> shaped (snd st) -> exists st', rfold F st ops = Ok st' /\
      forall op, In op (in_ops ci) -> In op ops \/ flagged (fst st) op -> flagged (fst st') op).
    { induction ops as [|op ops IH]; intros st Ho Hst; [exists st; split; [reflexivity|intros op _ [[]|H]; exact H]|]. cbn [rfold]. unfold F at 1.
      destruct (buffer_op_total ind op (snd st) Hi Hst (Ho op (or_introl eq_refl))) as (fs & sh1 & m & od & ps & -> & H1 & H2 & H3 & H4). cbn [rbind fst snd].
      destruct (IH (dset op fs (fst st), sh1)) as (st' & -> & H); [intros o I; apply Ho; now right|exact H1|]. exists st'. split; [reflexivity|]. intros o Io Q. apply H; [exact Io|].
      destruct (eqb_spec o op) as [E|E].
      - right. rewrite E. exists m, od, ps, fs. cbn [fst]. rewrite dget_dset_eq. auto.
      - destruct Q as [[Q|Q]|(m' & od' & ps' & fs' & Q1 & Q2 & Q3 & Q4)]; [congruence|now left|]. right. exists m', od', ps', fs'. cbn [fst]. rewrite dget_dset_neq by assumption. auto. }
    destruct (G (in_ops ci) ([], sh)) as ([fl sh'] & E & H); [auto|exact Hs|]. exists fl, sh'. split; [exact E|]. intros op I. apply H; auto.
  Qed.

  (** * Transfer cycles *)
  Definition timed (d : dict string (list (four Z))) : Prop := forall op od ps lv, In op (in_ops ci) -> dget op (in_map_int ci) = Some (od, ps) -> (lv < length ps)%nat ->
    forall k, exists c, cycles_at d op lv k = Ok c.
  Lemma transfer_total fl : (forall op, In op (in_ops ci) -> flagged fl op) -> exists allowed real, transfer_cycles ci fl = Ok (allowed, real) /\ timed allowed /\ timed real.
  Proof.
    intros Hf. unfold transfer_cycles. match goal with |- context [rmap ?f (in_ops ci)] => set (F := f) end.
    assert (G : forall op, In op (in_ops ci) -> exists od ps l, F op = Ok (op, l) /\ dget op (in_map_int ci) = Some (od, ps) /\ length l = length ps /\
       forall x, In x l -> (forall k, exists c, dget k (fst x) = Some c) /\ (forall k, exists c, dget k (snd x) = Some c)).
    { intros op I. destruct (Hf op I) as (m & od' & ps' & fs & Hm & B & Ef & Lf). destruct (op_levels op m Hm) as (n & od & ps & od0 & ps0 & ms & uc & A & B0 & D & _ & L & L2 & L3 & _).
      rewrite B in B0. injection B0 as <- <-. assert (G := co_given ci C op m Hm).
      unfold F, layer_to_mem_op, levels_of. rewrite (dgetr_ok _ _ _ Hm). cbn [rbind]. rewrite (dgetr_ok _ _ _ B). cbn [rbind snd].
      match goal with |- context [rmap ?f (seq _ _)] => set (H := f) end.
      assert (Q : forall i, (i < length ps')%nat -> exists a r, H i = Ok (a, r) /\ (forall k, exists c, dget k a = Some c) /\ (forall k, exists c, dget k r = Some c)).
      { intros i Hi. unfold H. destruct (nth_lt ps' i Hi) as (p & Ep). destruct (nth_lt ms i) as (mm & Em); [lia|].
        destruct (nth_lt fs i) as (f1 & E1); [lia|]. destruct (nth_lt fs (S i)) as (f2 & E2); [lia|]. destruct (nth_lt ps i) as (p0 & Ep0); [lia|].
        assert (P : forall a k, exists x, attr_of p a k = Ok x). { intros a k. destruct (og_attributes ci op m G od' ps' p (or_intror B) (nth_error_In _ _ Ep) a k) as (x & Ex). exists x. now apply attr_entry. }
        unfold allowed_cycles, unit_mem. rewrite (dgetr_ok _ _ _ B). cbn [rbind snd]. rewrite (at_ok _ _ _ Ep). cbn [rbind]. rewrite (dgetr_ok _ _ _ Ef). cbn [rbind]. rewrite (at_ok _ _ _ E1). cbn [rbind]. rewrite (at_ok _ _ _ E2). cbn [rbind]. cbn zeta.
        match goal with |- context [d <- rmap ?f directions ;; four_way ?z (Some d)] => destruct (four_total' z f) as (a & -> & Ha) end.
        { intros k. match goal with |- context [attr_of p ?b k] => destruct (P b k) as (x & ->) end. cbn [rbind]. eauto. } cbn [rbind].
        unfold real_cycles, get_memory_level, unit_mem. rewrite (dgetr_ok _ _ _ D). cbn [rbind]. rewrite (at_ok _ _ _ Em). cbn [rbind]. rewrite (dgetr_ok _ _ _ B). cbn [rbind snd]. rewrite (at_ok _ _ _ Ep). cbn [rbind].
        match goal with |- context [d <- rmap ?f directions ;; four_way ?z (Some d)] => destruct (four_total' z f) as (r & -> & Hr) end.
        { intros k. destruct (P Precision k) as (x & ->). cbn [rbind]. destruct (P AmountPerPeriod k) as (y & ->). cbn [rbind].
          destruct (og_widths ci op m G ms od ps i mm p0 k D A Em Ep0) as [(W1 & _)|(mx & mn & W1 & _)]; rewrite (width_bandwidth _ _ _ _ W1); cbn [rbind]; [eauto|]. destruct mx; eauto. }
        cbn [rbind]. eexists _, _. split; [reflexivity|]. auto. }
      destruct (rmap_seq H (length ps') 0) as (ys & E & Ly & Hy). { intros i Hi. destruct (Q i Hi) as (a & r & Ea & _). eauto. }
      rewrite E. cbn [rbind]. exists od', ps', ys. split; [reflexivity|]. split; [exact B|]. split; [exact Ly|]. intros x Ix. apply In_nth_error in Ix. destruct Ix as (i & Ei).
      assert (Hi : (i < length ps')%nat) by (rewrite <- Ly; now apply lt_nth in Ei). destruct (Hy i Hi) as (x' & Ex' & EF). rewrite Ei in Ex'. injection Ex' as <-. cbn [Nat.add] in EF.
      destruct (Q i Hi) as (a & r & EF' & H1 & H2). rewrite EF in EF'. injection EF' as ->. auto. }
    destruct (rmap_ok' F (in_ops ci)) as (r & E). { intros op I. destruct (G op I) as (od & ps & l & -> & _). eauto. }
    rewrite E. cbn [rbind]. eexists _, _. split; [reflexivity|].
    assert (K : keys r = in_ops ci).
    { apply (keys_rmap F); [|exact E]. intros op y I Ey. destruct (G op I) as (_ & _ & l & E' & _). rewrite E' in Ey. now injection Ey as <-. }
    assert (T : forall op od ps lv, In op (in_ops ci) -> dget op (in_map_int ci) = Some (od, ps) -> (lv < length ps)%nat -> exists l x, dget op r = Some l /\ nth_error l lv = Some x /\
        (forall k, exists c, dget k (fst x) = Some c) /\ (forall k, exists c, dget k (snd x) = Some c)).
    { intros op od ps lv I M L. destruct (G op I) as (od' & ps' & l & El & M' & Ll & Hl). rewrite M in M'. injection M' as <- <-.
      destruct (nth_lt l lv) as (x & Ex); [lia|]. exists l, x. split; [|split; [exact Ex|apply Hl; now apply nth_error_In in Ex]].
      apply In_dget; [rewrite K; exact (co_once ci C)|]. assert (F2 := rmap_Forall2 _ _ _ E). destruct (Forall2_in_l _ _ _ _ F2 I) as (y & Iy & Ey). rewrite El in Ey. now injection Ey as <-. }
    split; intros op od ps lv I M L k; destruct (T op od ps lv I M L) as (l & x & D & Ex & Ha & Hr); unfold cycles_at, four_get;
      (rewrite (dgetr_ok _ _ _ (dget_map2 _ op r l D)); cbn [rbind]; rewrite (at_ok _ _ _ (map_nth_error _ _ _ Ex)); cbn [rbind]).
    - destruct (Ha k) as (c & Hc). rewrite (dgetr_ok _ _ _ Hc). eauto.
    - destruct (Hr k) as (c & Hc). rewrite (dgetr_ok _ _ _ Hc). eauto.
  Qed.

  (** * Stalls *)
  Lemma collect_from l : forall (d0 d : windows), collect_windows l d0 = inr d ->
    (forall k p a c, In (k, (p, a, c)) d -> In (k, (p, a, c)) d0 \/ exists x, In x l /\ pa_period x = p) /\ (l <> [] \/ d0 <> [] -> d <> []).
  Proof.
    induction l as [|x l IH]; intros d0 d H; cbn [collect_windows] in H; [injection H as <-; split; [auto|intros [N|N]; congruence]|].
    destruct (pa_period x =? pa_allowed x)%Z; [discriminate|]. destruct (IH _ _ H) as (A & B). split.
    - intros k p a c I. destruct (A k p a c I) as [I'|(y & I' & E)].
      + apply In_dset in I'. destruct I' as [I'|E]; [now left|]. right. injection E as _ -> _ _. exists x. split; [now left|reflexivity].
      + right. exists y. split; [now right|exact E].
    - intros _. apply B. right. apply dset_nonempty.
  Qed.
  Lemma union_total l : l <> [] -> (forall a b, In a l -> In b l -> (0 < pa_period a)%Z /\ ((pa_period a | pa_period b) \/ (pa_period b | pa_period a))%Z) ->
    exists u, window_union l = Ok u.
  Proof.
    intros Hne H. unfold window_union. destruct (collect_windows l []) as [x|d] eqn:E; [eauto|]. destruct (collect_from l [] d E) as (A & B).
    unfold longest. destruct (longest_spec d (0%Z, None)) as (_ & M & R). cbn zeta in *. set (r := fold_left _ _ _) in *.
    assert (P : forall k p a c, In (k, (p, a, c)) d -> exists x, In x l /\ pa_period x = p). { intros k p a c I. destruct (A k p a c I) as [[]|X]; exact X. }
    assert (T : exists c, snd r = Some c).
    { destruct R as [R|(k & a & c & _ & E' & _)]; [|eauto]. exfalso. destruct d as [|[k [[p a] c]] d']; [now apply B; [left|]|].
      destruct (P k p a c (or_introl eq_refl)) as (x & Ix & Ex). destruct (H x x Ix Ix) as (Px & _). assert (Q := M k p a c (or_introl eq_refl)). rewrite R in Q. cbn in Q. lia. }
    destruct T as (c & Ec). rewrite (surjective_pairing r). rewrite Ec.
    destruct (forallb _ d) eqn:F; [cbn [of_option rbind]; eauto|]. exfalso. apply not_true_iff_false in F. apply F. apply forallb_forall. intros [k [[p a] c']] I. cbn [snd].
    destruct (P k p a c' I) as (x & Ix & Ex). unfold reshapable. destruct (H x x Ix Ix) as (Px & _). rewrite Ex in Px. apply andb_true_iff. split; [now apply Z.ltb_lt|]. apply Z.eqb_eq, Z.mod_divide; [lia|].
    destruct R as [R|(k2 & a2 & c2 & I2 & _ & _)]; [rewrite R in Ec; discriminate|]. destruct (P _ _ _ _ I2) as (y & Iy & Ey).
    assert (Q := M k p a c' I). destruct (H x y Ix Iy) as (_ & [D|D]); rewrite Ex, Ey in D; [exact D|].
    destruct (H y y Iy Iy) as (Py & _). rewrite Ey in Py. assert (Q2 := Z.divide_pos_le _ _ Px D). replace (fst r) with p by lia. apply Z.divide_refl.
  Qed.

  Lemma served_at m pt s : In m (in_levels ci) -> In pt (ml_ports m) -> In s (pt_served pt) -> exists op od ps p,
    dget op (lk_data (in_links ci)) = Some (fst (fst s)) /\ In op (in_ops ci) /\ dget op (in_map_int ci) = Some (od, ps) /\ (snd (fst s) < length ps)%nat /\ nth_error ps (snd (fst s)) = Some p /\
    (forall a k, exists x, attr_of p a k = Ok x /\ entry p a k = Some x).
  Proof.
    intros Im Ip Is. destruct s as [[mo lv] k]. cbn [fst snd]. destruct (co_served ci C mo lv k) as (op & od & ps & Ho & M & L); [now exists m, pt|].
    destruct (nth_lt ps lv L) as (p & Ep). exists op, od, ps, p. repeat split; try assumption; [now apply link_in in Ho|].
    intros a k'. destruct (og_attributes ci op mo (co_given ci C op mo Ho) od ps p (or_intror M) (nth_error_In _ _ Ep) a k') as (x & Ex). exists x. split; [now apply attr_entry|exact Ex].
  Qed.
  Lemma unit_at op od ps lv p : dget op (in_map_int ci) = Some (od, ps) -> nth_error ps lv = Some p -> unit_mem (in_map_int ci) op lv = Ok p.
  Proof. intros M E. unfold unit_mem. rewrite (dgetr_ok _ _ _ M). cbn [rbind snd]. now apply at_ok. Qed.

  Definition real_activity (a : activity) : Prop := exists op od ps p k t,
    dget op (in_map_int ci) = Some (od, ps) /\ In p ps /\ happens p k /\ entry p Period k = Some t /\ pa_period a = Qceiling (inject_Z t * in_cpo ci).
  Lemma whole_period : exists z, (0 < z)%Z /\ forall t, Qceiling (inject_Z t * in_cpo ci) = (t * z)%Z.
  Proof.
    destruct (co_cycles ci C) as (z & E & P). exists z. split; [exact P|]. intros t'. rewrite E. rewrite <- inject_Z_mult. apply Qceiling_Z.
  Qed.
  Lemma periods_nested a b : real_activity a -> real_activity b -> (0 < pa_period a)%Z /\ ((pa_period a | pa_period b) \/ (pa_period b | pa_period a))%Z.
  Proof.
    intros (op & od & ps & p & k & t & M & I & H & E & Q) (op' & od' & ps' & p' & k' & t' & M' & I' & H' & E' & Q').
    destruct (co_periods ci C op od ps p k t op' od' ps' p' k' t' M I H E M' I' H' E') as (T & T' & D). destruct whole_period as (z & Pz & W). rewrite Q, Q', !W.
    split; [nia|]. destruct D as [D|D]; [left|right]; now apply Z.mul_divide_mono_r.
  Qed.
  Lemma activities_total allowed real m pt : timed allowed -> timed real -> In m (in_levels ci) -> In pt (ml_ports m) ->
    exists l, port_activities ci allowed real pt = Ok l /\ forall a, In a l -> real_activity a.
  Proof.
    intros Ta Tr Im Ip. unfold port_activities. match goal with |- context [rmap ?f _] => set (F := f) end.
    assert (G : forall s, In s (pt_served pt) -> exists l, F s = Ok l /\ forall a, In a l -> real_activity a).
    { intros [[mo lv] k] Is. destruct (served_at m pt _ Im Ip Is) as (op & od & ps & p & Ho & Io & M & L & Ep & Hp). cbn [fst snd] in *. unfold F.
      rewrite (link_contains op mo Ho), (link_back op mo Ho). cbn [rbind]. rewrite (unit_at op od ps lv p M Ep). cbn [rbind].
      destruct (Hp PeriodCount k) as (c & -> & Ec). cbn [rbind]. destruct (Z.eqb_spec c 0) as [E0|E0]; [exists []; split; [reflexivity|intros a []]|].
      destruct (Hp Period k) as (t & -> & Et). cbn [rbind]. destruct (Tr op od ps lv Io M L k) as (r & ->). cbn [rbind]. destruct (Ta op od ps lv Io M L k) as (a & ->). cbn [rbind].
      eexists. split; [reflexivity|]. intros x [<-|[]]. exists op, od, ps, p, k, t. cbn [pa_period]. split; [exact M|]. split; [now apply nth_error_In in Ep|]. split; [now exists c|]. split; [exact Et|reflexivity]. }
    destruct (rmap_ok' F (pt_served pt)) as (r & E). { intros s Is. destruct (G s Is) as (l & -> & _). eauto. }
    rewrite E. cbn [rbind]. eexists. split; [reflexivity|]. intros a Ia. apply in_concat in Ia. destruct Ia as (l & Il & Ia).
    apply rmap_Forall2 in E. destruct (Forall2_in_r _ _ _ _ E Il) as (s & Is & Es). destruct (G s Is) as (l' & El & H). rewrite El in Es. injection Es as <-. now apply H.
  Qed.
  Lemma stall_total allowed real : timed allowed -> timed real -> exists s, stall_slack_comb ci allowed real = Ok s /\ (0 <= s)%Z.
  Proof.
    intros Ta Tr. unfold stall_slack_comb.
    assert (G : forall m, In m (in_levels ci) -> exists d, memory_activities ci allowed real m = Ok d /\ forall kv, In kv d -> forall a, In a (snd kv) -> real_activity a).
    { intros m Im. unfold memory_activities. apply (rfold_ok _ (fun d : dict string (list activity) => forall kv, In kv d -> forall a, In a (snd kv) -> real_activity a)); [|intros kv []].
      intros d pt Ip Hd. destruct (activities_total allowed real m pt Ta Tr Im Ip) as (l & -> & Hl). cbn [rbind]. eexists. split; [reflexivity|].
      intros kv I. apply In_dset in I. destruct I as [I|E]; [now apply Hd|]. rewrite E. exact Hl. }
    destruct (rmap_ok' (memory_activities ci allowed real) (in_levels ci)) as (ms & E). { intros m Im. destruct (G m Im) as (d & -> & _). eauto. }
    rewrite E. cbn [rbind]. match goal with |- context [rmap ?f ms] => destruct (rmap_ok' f ms) as (ss & ->) end.
    - intros d Id. apply rmap_ok'. intros kv Ikv. apply rmap_Forall2 in E. destruct (Forall2_in_r _ _ _ _ E Id) as (m & Im & Em). destruct (G m Im) as (d' & Ed & H). rewrite Ed in Em. injection Em as ->.
      specialize (H kv Ikv). unfold port_stall. destruct (snd kv) as [|a [|b l]] eqn:El; [eauto|eauto|]. destruct (union_total (a :: b :: l)) as (u & ->); [discriminate| |cbn [rbind]; eauto].
      intros x y Ix Iy. apply periods_nested; now apply H.
    - cbn [rbind]. eexists. split; [reflexivity|]. exact (proj1 (zmax_spec _)).
  Qed.

  (** * Loading *)
  Definition opened (st : loading) : Prop := (forall op, In op (in_inputs ci) -> exists d, dget op (lo_on st) = Some d) /\ exists d, dget (in_out ci) (lo_off st) = Some d.
  Definition noted (st : loading) (op : string) (lv : nat) (k : direction) : Prop :=
    (In op (in_inputs ci) -> exists d e, dget op (lo_on st) = Some d /\ dget (lv, k) d = Some e) /\
    (op = in_out ci -> exists d e, dget op (lo_off st) = Some d /\ dget (lv, k) d = Some e).
  Definition grows (st st' : loading) : Prop := opened st' /\ forall op lv k, noted st op lv k -> noted st' op lv k.
  Lemma grows_trans a b c : grows a b -> grows b c -> grows a c.
  Proof. intros (_ & H) (O & H'). split; [exact O|]. auto. Qed.
  Lemma same_tables st st' : lo_on st = lo_on st' -> lo_off st = lo_off st' -> opened st -> grows st st' /\ forall op lv k, noted st op lv k -> noted st' op lv k.
  Proof. intros A B O. unfold grows, opened, noted in *. rewrite <- A, <- B. auto. Qed.

  Lemma input_not_out op : In op (in_inputs ci) -> op <> in_out ci.
  Proof.
    intros I ->. destruct (proj2 (co_inputs ci C) _ I) as (m & E & M). destruct (co_output ci C) as (m' & E' & N1 & N2). rewrite E in E'. injection E' as <-. destruct M; auto.
  Qed.
  Lemma kind_of op mo : dget op (lk_data (in_links ci)) = Some mo -> memb mo ["I1"; "I2"]%string = true /\ In op (in_inputs ci) /\ op <> in_out ci \/
    memb mo ["I1"; "I2"]%string = false /\ op = in_out ci /\ ~ In op (in_inputs ci).
  Proof.
    intros Ho. assert (Io := link_in op mo Ho). apply (proj1 (co_operands ci C op)) in Io. destruct Io as [->|Io].
    - right. destruct (co_output ci C) as (m & E & N1 & N2). rewrite Ho in E. injection E as <-. split; [|split; [reflexivity|intros I; now apply (input_not_out _ I)]].
      apply memb_not_In. intros [H|[H|[]]]; congruence.
    - left. split; [|split; [exact Io|now apply input_not_out]]. destruct (proj2 (co_inputs ci C) _ Io) as (m & E & M). rewrite Ho in E. injection E as <-. apply memb_In. destruct M as [->| ->]; [now left|right; now left].
  Qed.
  Lemma record_total st pt mo op lv k c : opened st -> dget op (lk_data (in_links ci)) = Some mo ->
    exists st', record_cycles st pt mo op lv k c = Ok st' /\ grows st st' /\ noted st' op lv k.
  Proof.
    intros (O1 & O2) Ho. unfold record_cycles. destruct (kind_of op mo Ho) as [(-> & I & N)|(-> & E & N)].
    - destruct (O1 op I) as (d & D). rewrite (dgetr_ok _ _ _ D). cbn [rbind]. eexists. split; [reflexivity|]. unfold grows, opened, noted. cbn [lo_on lo_off].
      split; [split; [split; [|exact O2]|]|].
      + intros o Io. destruct (eqb_spec o op) as [E|E]; [rewrite E, dget_dset_eq; eauto|rewrite dget_dset_neq by assumption; now apply O1].
      + intros o lv' k' (H1 & H2). split; [|exact H2]. intros Io. destruct (H1 Io) as (d' & e & D' & E'). destruct (eqb_spec o op) as [E|E].
        * rewrite E in *. rewrite dget_dset_eq. rewrite D in D'. injection D' as <-. destruct (eqb_spec (lv', k') (lv, k)) as [Ek|Ek]; [rewrite Ek|].
          -- eexists _, _. split; [reflexivity|]. now rewrite dget_dset_eq.
          -- eexists _, _. split; [reflexivity|]. rewrite dget_dset_neq by assumption. exact E'.
        * rewrite dget_dset_neq by assumption. eauto.
      + split; [|intros ->; congruence]. intros _. rewrite dget_dset_eq. eexists _, _. split; [reflexivity|]. now rewrite dget_dset_eq.
    - destruct O2 as (d & D). rewrite E in *. rewrite (dgetr_ok _ _ _ D). cbn [rbind]. eexists. split; [reflexivity|]. unfold grows, opened, noted. cbn [lo_on lo_off].
      split; [split; [split; [exact O1|]|]|].
      + rewrite dget_dset_eq. eauto.
      + intros o lv' k' (H1 & H2). split; [exact H1|]. intros Eo. destruct (H2 Eo) as (d' & e & D' & E'). rewrite Eo in *. rewrite dget_dset_eq. rewrite D in D'. injection D' as <-.
        destruct (eqb_spec (lv', k') (lv, k)) as [Ek|Ek]; [rewrite Ek|].
        * eexists _, _. split; [reflexivity|]. now rewrite dget_dset_eq.
        * eexists _, _. split; [reflexivity|]. rewrite dget_dset_neq by assumption. exact E'.
      + split; [intros; contradiction|]. intros _. rewrite dget_dset_eq. eexists _, _. split; [reflexivity|]. now rewrite dget_dset_eq.
  Qed.
  Lemma grows_refl st : opened st -> grows st st.
  Proof. intros O. split; auto. Qed.

  (** Going through a list: the step goes through, keeps what is noted and notes its own. *)
  Lemma fold_notes {B} (f : loading -> B -> result loading) (N : loading -> B -> Prop) l :
    (forall st st' b, grows st st' -> N st b -> N st' b) ->
    (forall st b, In b l -> opened st -> exists st', f st b = Ok st' /\ grows st st' /\ N st' b) ->
    forall st, opened st -> exists st', rfold f st l = Ok st' /\ grows st st' /\ forall b, In b l -> N st' b.
  Proof.
    intros Mono. induction l as [|b l IH]; intros H st O; [exists st; split; [reflexivity|split; [now apply grows_refl|intros b []]]|].
    cbn [rfold]. destruct (H st b (or_introl eq_refl) O) as (st1 & -> & G1 & N1). cbn [rbind]. destruct (IH (fun s x I => H s x (or_intror I)) st1 (proj1 G1)) as (st2 & -> & G2 & N2).
    exists st2. split; [reflexivity|]. split; [eapply grows_trans; eassumption|]. intros x [<-|I]; [eapply Mono; eassumption|now apply N2].
  Qed.

  Section Port.
    Variables (real : dict string (list (four Z))) (stall : Z) (m : memlvl) (pt : port).
    Hypotheses (Tr : timed real) (S0 : (0 <= stall)%Z) (Im : In m (in_levels ci)) (Ip : In pt (ml_ports m)).
    Let comp : Q := inject_Z (Qceiling (inject_Z (in_total ci) * in_cpo ci) + stall).
    Lemma comp_pos : ~ (comp == 0)%Q.
    Proof.
      unfold comp. destruct whole_period as (z & P & W). rewrite W. apply inject_nz. assert (T := co_total ci C). nia.
    Qed.
    Definition noted_s (st : loading) (s : string * nat * direction) : Prop := forall op, dget op (lk_data (in_links ci)) = Some (fst (fst s)) -> noted st op (snd (fst s)) (snd s).
    Lemma noted_mono st st' s : grows st st' -> noted_s st s -> noted_s st' s.
    Proof. intros (_ & G) N op H. now apply G, N. Qed.
    Lemma one_name op op' mo : dget op (lk_data (in_links ci)) = Some mo -> dget op' (lk_data (in_links ci)) = Some mo -> op' = op.
    Proof. intros H H'. apply link_back in H, H'. congruence. Qed.
    Lemma single_step st x : In (fst x) (pt_served pt) -> opened st -> exists st', record_single ci pt comp st x = Ok st' /\ grows st st' /\ noted_s st' (fst x).
    Proof.
      intros Is O. destruct x as [[[mo lv] k] [rem red]]. cbn [fst snd] in *. destruct (served_at m pt _ Im Ip Is) as (op & od & ps & p & Ho & _). cbn [fst snd] in Ho.
      unfold record_single. rewrite (link_back op mo Ho). cbn [rbind]. destruct (record_total st pt mo op lv k rem O Ho) as (st1 & -> & G & N). cbn [rbind].
      rewrite pdiv_ok by exact comp_pos. cbn [rbind]. eexists. split; [reflexivity|]. split.
      - exact G.
      - intros op' H'. cbn [fst snd] in *. rewrite (one_name op op' mo Ho H'). exact N.
    Qed.
    Lemma single_total combs bw st : (forall s, In s combs -> In s (pt_served pt)) -> opened st ->
      exists st', loading_single ci real stall pt combs bw st = Ok st' /\ grows st st' /\ forall s, In s combs -> noted_s st' s.
    Proof.
      intros Hc O. assert (B := co_ports ci C m pt Im Ip). unfold loading_single.
      match goal with |- context [rmap ?f combs] => set (F := f) end.
      destruct (rmap_ok' F combs) as (cm & Ecm).
      { intros [[mo lv] k] Is. destruct (served_at m pt _ Im Ip (Hc _ Is)) as (op & od & ps & p & Ho & Io & M & L & Ep & Hp). cbn [fst snd] in *. unfold F. rewrite (link_back op mo Ho). cbn [rbind].
        rewrite (dgetr_ok _ _ _ M). cbn [rbind fst]. destruct (op_levels op mo Ho) as (n & od0 & ps0 & od' & ps' & ms & uc & _ & M' & _ & _ & _ & L2 & _ & N0 & _ & _ & _ & L3). rewrite M in M'. injection M' as <- <-.
        destruct (nth_lt (od_bit_unrolled od) 1) as (b & Eb); [lia|]. rewrite (at_ok _ _ _ Eb). cbn [rbind]. rewrite pdiv_ok by (apply inject_nz; lia). cbn [rbind].
        destruct (Tr op od ps lv Io M L k) as (r & ->). cbn [rbind]. eauto. }
      rewrite Ecm. cbn [rbind]. assert (Lcm : length cm = length combs) by (symmetry; apply (F2_len _ _ _ (rmap_Forall2 _ _ _ Ecm))).
      fold comp. rewrite pdiv_ok by (apply inject_nz; lia). cbn [rbind].
      match goal with |- context [reduce_balanced ?a ?b ?c] => destruct (reduce_ok a b c) as (rs & ds & -> & L1 & L2 & _); [rewrite !map_length; lia|] end. cbn [rbind fst snd]. rewrite map_length in L1, L2.
      destruct (fold_notes (record_single ci pt comp) (fun st x => noted_s st (fst x)) (combine combs (combine rs ds))) with (st := st) as (st' & -> & G & N).
      { intros a b x. apply noted_mono. } { intros a x Ix Oa. apply single_step; [|exact Oa]. apply Hc. destruct x as [s y]. now apply in_combine_l in Ix. } { exact O. }
      cbn [rbind]. eexists. split; [reflexivity|]. split.
      - exact G.
      - intros s Is. apply In_nth_error in Is. destruct Is as (i & Ei). assert (Hi := lt_nth _ _ _ Ei).
        destruct (nth_lt (combine rs ds) i) as (y & Ey); [rewrite combine_length; lia|]. assert (X : In (s, y) (combine combs (combine rs ds))).
        { apply (nth_error_In _ i). clear - Ei Ey. revert combs Ei Ey. generalize (combine rs ds) as l2. intros l2. revert i. induction l2 as [|b l2 IH]; intros [|i] [|a l1] E1 E2; try discriminate; cbn in *; [congruence|now apply IH]. }
        exact (N _ X).
    Qed.
    Definition counts (s : string * nat * direction) (n : Z) : Prop := exists op od ps p, dget op (lk_data (in_links ci)) = Some (fst (fst s)) /\ dget op (in_map_int ci) = Some (od, ps) /\
      nth_error ps (snd (fst s)) = Some p /\ entry p PeriodCount (snd s) = Some n.
    Lemma multi_total combs st : (forall s, In s combs -> In s (pt_served pt)) -> opened st ->
      exists st', loading_multi ci real pt combs st = Ok st' /\ grows st st' /\ forall s, In s combs -> (forall n, counts s n -> n <> 0%Z) -> noted_s st' s.
    Proof.
      intros Hc O. unfold loading_multi. match goal with |- context [rfold ?f st combs] => set (F := f) end.
      apply (fold_notes F (fun st s => (forall n, counts s n -> n <> 0%Z) -> noted_s st s)); [| |exact O].
      - intros a b s G N H. apply (noted_mono a); [exact G|now apply N].
      - intros a [[mo lv] k] Is Oa. destruct (served_at m pt _ Im Ip (Hc _ Is)) as (op & od & ps & p & Ho & Io & M & L & Ep & Hp). cbn [fst snd] in *. unfold F. rewrite (link_back op mo Ho). cbn [rbind].
        rewrite (unit_at op od ps lv p M Ep). cbn [rbind]. destruct (Hp PeriodCount k) as (n & -> & En). cbn [rbind]. destruct (Z.eqb_spec n 0) as [E0|E0].
        + exists a. split; [reflexivity|]. split; [now apply grows_refl|]. intros H. exfalso. apply (H n); [|exact E0]. exists op, od, ps, p. cbn [fst snd]. auto.
        + destruct (Tr op od ps lv Io M L k) as (r & ->). cbn [rbind]. destruct (record_total a pt mo op lv k (inject_Z r) Oa Ho) as (a' & -> & G & N). exists a'. split; [reflexivity|]. split; [exact G|].
          intros _ op' H'. cbn [fst snd] in *. rewrite (one_name op op' mo Ho H'). exact N.
    Qed.
    Lemma port_total st : opened st -> exists st', loading_port ci real stall st pt = Ok st' /\ grows st st' /\
      forall s, In s (pt_served pt) -> (forall n, counts s n -> n <> 0%Z) -> ~ (dget (in_out ci) (lk_data (in_links ci)) = Some (fst (fst s)) /\ (snd s = RdLow \/ snd s = WrHigh)) -> noted_s st' s.
    Proof.
      intros O. unfold loading_port. destruct (co_output ci C) as (om & Eo & _). unfold layer_to_mem_op. rewrite (dgetr_ok _ _ _ Eo). cbn [rbind].
      match goal with |- context [rmap ?f (pt_served pt)] => set (F := f) end.
      assert (G : forall s, In s (pt_served pt) -> exists n, F s = Ok (s, n) /\ (counts s n \/ n = 0%Z /\ fst (fst s) = om /\ (snd s = RdLow \/ snd s = WrHigh))).
      { intros [[mo lv] k] Is. unfold F. cbn [fst snd]. destruct (eqb mo om && match k with RdLow | WrHigh => true | _ => false end) eqn:B.
        - exists 0%Z. split; [reflexivity|]. right. apply andb_true_iff in B. destruct B as [B1 B2]. split; [reflexivity|]. split; [now destruct (eqb_spec mo om)|]. destruct k; try discriminate; auto.
        - destruct (served_at m pt _ Im Ip Is) as (op & od & ps & p & Ho & Io & M & L & Ep & Hp). cbn [fst snd] in *. rewrite (link_back op mo Ho). cbn [rbind].
          rewrite (unit_at op od ps lv p M Ep). cbn [rbind]. destruct (Hp PeriodCount k) as (n & -> & En). cbn [rbind]. exists n. split; [reflexivity|]. left. exists op, od, ps, p. cbn [fst snd]. auto. }
      destruct (rmap_ok' F (pt_served pt)) as (cls & E). { intros s Is. destruct (G s Is) as (n & -> & _). eauto. }
      rewrite E. cbn [rbind].
      assert (Cl : forall s n, In (s, n) cls -> In s (pt_served pt) /\ F s = Ok (s, n)).
      { intros s n I. apply rmap_Forall2 in E. destruct (Forall2_in_r _ _ _ _ E I) as (s' & Is & Es). destruct (G s' Is) as (n' & E' & _). rewrite E' in Es. injection Es as -> ->. auto. }
      assert (Sub : forall g s, In s (map fst (filter g cls)) -> In s (pt_served pt)).
      { intros g s I. apply in_map_iff in I. destruct I as ([s' n] & E' & I). cbn in E'. subst s'. apply filter_In in I. now apply (Cl s n). }
      match goal with |- context [bws <- rmap ?f ?l ;; _] => destruct (rmap_ok' f l) as (bws & ->) end.
      { intros [[mo lv] k] Is. apply Sub in Is. destruct (served_at m pt _ Im Ip Is) as (op & od & ps & p & Ho & Io & M & L & Ep & Hp). cbn [fst snd] in *. rewrite (link_back op mo Ho). cbn [rbind].
        rewrite (unit_at op od ps lv p M Ep). cbn [rbind]. destruct (Hp BwAver k) as (n & -> & _). cbn [rbind]. rewrite pdiv_ok; [cbn [rbind]; eauto|].
        destruct (co_cycles ci C) as (z & Ez & Pz). rewrite Ez. apply inject_nz. lia. }
      cbn [rbind]. match goal with |- context [loading_single ci real stall pt ?c ?b st] => destruct (single_total c b st (Sub _) O) as (st1 & -> & G1 & N1) end. cbn [rbind].
      match goal with |- context [loading_multi ci real pt ?c st1] => destruct (multi_total c st1 (Sub _) (proj1 G1)) as (st2 & -> & G2 & N2) end.
      exists st2. split; [reflexivity|]. split; [eapply grows_trans; eassumption|]. intros s Is H NO.
      destruct (G s Is) as (n & En & [Cn|(_ & Em & Ek)]); [|exfalso; apply NO; rewrite Em; auto].
      assert (Ic : In (s, n) cls). { assert (F2 := rmap_Forall2 _ _ _ E). destruct (Forall2_in_l _ _ _ _ F2 Is) as (y & Iy & Ey). rewrite En in Ey. injection Ey as <-. exact Iy. }
      assert (N0 := H n Cn). destruct (Z.eqb_spec n 1) as [E1|E1].
      - apply (noted_mono st1); [exact G2|]. apply N1. apply in_map_iff. exists (s, n). split; [reflexivity|]. apply filter_In. split; [exact Ic|]. cbn [snd]. now apply Z.eqb_eq.
      - apply N2; [|exact H]. apply in_map_iff. exists (s, n). split; [reflexivity|]. apply filter_In. split; [exact Ic|]. cbn [snd]. destruct (Z.eqb_spec n 0); [contradiction|]. now destruct (Z.eqb_spec n 1).
    Qed.
  End Port.

  Definition due (s : string * nat * direction) : Prop :=
    (forall n, counts s n -> n <> 0%Z) /\ ~ (dget (in_out ci) (lk_data (in_links ci)) = Some (fst (fst s)) /\ (snd s = RdLow \/ snd s = WrHigh)).
  Lemma loading_total real stall : timed real -> (0 <= stall)%Z -> exists st, loading_all ci real stall = Ok st /\ opened st /\
    forall mo lv k, served ci mo lv k -> due (mo, lv, k) -> noted_s st (mo, lv, k).
  Proof.
    intros Tr S0. unfold loading_all. match goal with |- context [rfold ?f ?a (in_levels ci)] => set (F := f); set (init := a) end.
    assert (O : opened init).
    { split; cbn [init lo_on lo_off].
      - intros op I. clear - I. induction (in_inputs ci) as [|x l IH]; [destruct I|]. cbn [map dget fst snd]. destruct (eqb_spec op x) as [E|E]; [eauto|]. apply IH. destruct I; congruence.
      - cbn [dget]. rewrite eqb_refl. eauto. }
    destruct (fold_notes F (fun st m => forall pt s, In pt (ml_ports m) -> In s (pt_served pt) -> due s -> noted_s st s) (in_levels ci)) with (st := init) as (st & E & G & N).
    - intros a b m G N pt s Ip Is D. apply (noted_mono a); [exact G|]. eapply N; eassumption.
    - intros a m Im Oa. unfold F. destruct (fold_notes (loading_port ci real stall) (fun st pt => forall s, In s (pt_served pt) -> due s -> noted_s st s) (ml_ports m)) with (st := a) as (a' & E & G & N).
      + intros x y pt G N s Is D. apply (noted_mono x); [exact G|]. now apply N.
      + intros x pt Ip Ox. destruct (port_total real stall m pt Tr S0 Im Ip x Ox) as (x' & Ex & Gx & Nx). exists x'. split; [exact Ex|]. split; [exact Gx|]. intros s Is (D1 & D2). now apply Nx.
      + exact Oa.
      + exists a'. split; [exact E|]. split; [exact G|]. intros pt s Ip. now apply N.
    - exact O.
    - exists st. split; [exact E|]. split; [apply G|]. intros mo lv k (m & pt & Im & Ip & Is) D. eapply N; eassumption.
  Qed.

  Lemma happens_due op mo od ps lv p k : dget op (lk_data (in_links ci)) = Some mo -> dget op (in_map_int ci) = Some (od, ps) -> nth_error ps lv = Some p -> happens p k ->
    (op = in_out ci -> k <> RdLow /\ k <> WrHigh) -> due (mo, lv, k).
  Proof.
    intros Ho M Ep (n & En & N0) Hk. split; cbn [fst snd].
    - intros n' (op' & od' & ps' & p' & Ho' & M' & Ep' & En'). cbn [fst snd] in *. rewrite (one_name op op' mo Ho Ho') in M'. rewrite M in M'. injection M' as <- <-. rewrite Ep in Ep'. injection Ep' as <-. congruence.
    - intros (Ho' & K). destruct (Hk (eq_sym (one_name op (in_out ci) mo Ho Ho'))) as (A & B). destruct K; contradiction.
  Qed.
  Lemma parts_total real stall st op : loading_all ci real stall = Ok st -> opened st -> (forall mo lv k, served ci mo lv k -> due (mo, lv, k) -> noted_s st (mo, lv, k)) -> In op (in_inputs ci) ->
    exists x, loading_parts ci st op = Ok x.
  Proof.
    intros _ O N I. destruct (proj2 (co_inputs ci C) op I) as (mo & Ho & _). destruct (op_levels op mo Ho) as (n & od & ps & od' & ps' & ms & uc & A & B & D & _ & L & L2 & _).
    unfold loading_parts, levels_of. rewrite (dgetr_ok _ _ _ A). cbn [rbind snd].
    match goal with |- context [rfold ?f ?z (seq 0 ?n)] => destruct (rfold_ok f (fun _ => True) (seq 0 n)) with (a := z) as (x & E & _) end; [|exact Logic.I|eauto].
    intros [[i h] s] lv Il _. apply in_seq in Il. destruct (nth_lt ps' lv) as (p & Ep); [lia|]. destruct (nth_lt ps' (S lv)) as (q & Eq); [lia|].
    destruct (co_in ci C op mo od' ps' lv p q I Ho B Ep Eq) as (S1 & H1 & S2 & H2).
    assert (K : op = in_out ci -> False) by (intros E; now apply (input_not_out op I)).
    destruct (proj1 (N mo lv WrHigh S1 (happens_due op mo od' ps' lv p WrHigh Ho B Ep H1 ltac:(intros E; now exfalso; apply K)) op Ho) I) as (d & e1 & D1 & E1).
    destruct (proj1 (N mo (S lv) RdLow S2 (happens_due op mo od' ps' (S lv) q RdLow Ho B Eq H2 ltac:(intros E; now exfalso; apply K)) op Ho) I) as (d2 & e2 & D2 & E2).
    cbn [fst snd] in *. rewrite D1 in D2. injection D2 as <-. rewrite (dgetr_ok _ _ _ D1). cbn [rbind]. rewrite (dgetr_ok _ _ _ E1). cbn [rbind]. rewrite (dgetr_ok _ _ _ E2). cbn [rbind]. cbn zeta.
    destruct (negb (snd e1) && negb (snd e2)); [eauto|]. destruct (snd e1 && snd e2); eauto.
  Qed.
  Lemma onloading_total real stall st : loading_all ci real stall = Ok st -> opened st -> (forall mo lv k, served ci mo lv k -> due (mo, lv, k) -> noted_s st (mo, lv, k)) -> exists on, onloading ci st = Ok on.
  Proof.
    intros E O N. unfold onloading. destruct (rmap_ok' (loading_parts ci st) (in_inputs ci)) as (parts & Ep). { intros op I. eapply parts_total; eassumption. }
    rewrite Ep. cbn [rbind]. assert (L := F2_len _ _ _ (rmap_Forall2 _ _ _ Ep)). destruct parts as [|[[i h] s] [|[[i2 h2] s2] parts]]; [|eauto|eauto].
    destruct (proj1 (co_inputs ci C)). destruct (in_inputs ci); [reflexivity|discriminate].
  Qed.
  Lemma offloading_total st : opened st -> (forall mo lv k, served ci mo lv k -> due (mo, lv, k) -> noted_s st (mo, lv, k)) -> exists off, offloading ci st = Ok off.
  Proof.
    intros O N. unfold offloading. destruct (co_output ci C) as (mo & Ho & _). destruct (op_levels _ mo Ho) as (n & od & ps & od' & ps' & ms & uc & A & B & D & _ & L & L2 & _).
    unfold levels_of. rewrite (dgetr_ok _ _ _ A). cbn [rbind snd]. match goal with |- context [rmap ?f ?l] => destruct (rmap_ok' f l) as (x & ->) end; [|cbn [rbind]; eauto].
    intros lv Il. apply in_seq in Il. destruct (nth_lt ps' lv) as (p & Ep); [lia|]. destruct (nth_lt ps' (S lv)) as (q & Eq); [lia|].
    destruct (co_out ci C mo od' ps' lv p q Ho B Ep Eq) as (S1 & H1 & S2 & H2).
    destruct (proj2 (N mo lv RdHigh S1 (happens_due _ mo od' ps' lv p RdHigh Ho B Ep H1 ltac:(split; discriminate)) _ Ho) eq_refl) as (d & e1 & D1 & E1).
    destruct (proj2 (N mo (S lv) WrLow S2 (happens_due _ mo od' ps' (S lv) q WrLow Ho B Eq H2 ltac:(split; discriminate)) _ Ho) eq_refl) as (d2 & e2 & D2 & E2).
    cbn [fst snd] in *. rewrite D1 in D2. injection D2 as <-. rewrite (dgetr_ok _ _ _ D1). cbn [rbind]. rewrite (dgetr_ok _ _ _ E1). cbn [rbind]. rewrite (dgetr_ok _ _ _ E2). cbn [rbind]. eauto.
  Qed.
End Total.

(** * The evaluation *)
Lemma div_zero_or x y : (exists z, pdiv x y = Ok z) \/ (pdiv x y = Err ZeroDivisionError /\ (y == 0)%Q).
Proof. destruct (Qeq_dec y 0) as [E|E]; [right; split; [|exact E]; unfold pdiv, qis0; rewrite (proj2 (Qeq_bool_iff y 0) E); reflexivity|left; eexists; now apply pdiv_ok]. Qed.

Lemma evaluate_total ci : complete_inputs ci -> exists stall on off flags allowed real st,
  transfer_cycles ci flags = Ok (allowed, real) /\ loading_all ci real stall = Ok st /\ onloading ci st = Ok on /\ offloading ci st = Ok off /\ (0 <= stall)%Z /\
  let computing := (inject_Z (in_total ci) * in_cpo ci + inject_Z stall)%Q in
  (0 < computing)%Q /\
  ((exists r, evaluate ci = Ok r /\ (la_total2 (snd r) == computing + on + off)%Q) \/
   (evaluate ci = Err ZeroDivisionError /\ ((computing + on == 0)%Q \/ (computing + on + off == 0)%Q))).
Proof.
  intros C.
  destruct (individual_total ci C od_bit_unrolled) as (ind & Ei & Hi).
  { intros op od ps I M. destruct (link_known ci C op I) as (m & Hm). destruct (op_levels ci C op m Hm) as (n & od0 & ps0 & od' & ps' & ms & uc & A & _ & _ & _ & L & _ & _ & _ & _ & B & _). rewrite M in A. injection A as <- <-. lia. }
  destruct (shared_total ci C ind Hi) as (sh & Es & _). destruct (accesses_total ci C) as (acc & Ea & Ha). destruct (energy_total ci C acc Ha) as (en & Een).
  destruct (individual_total ci C od_effective_bit) as (ind2 & Ei2 & Hi2).
  { intros op od ps I M. destruct (link_known ci C op I) as (m & Hm). destruct (op_levels ci C op m Hm) as (n & od0 & ps0 & od' & ps' & ms & uc & A & _ & _ & _ & L & _ & _ & _ & _ & _ & B & _). rewrite M in A. injection A as <- <-. lia. }
  destruct (shared_total ci C ind2 Hi2) as (sh2 & Es2 & Hs2). destruct (buffer_total ci C ind2 sh2 Hi2 Hs2) as (fl & sh3 & Ef & Hf).
  destruct (transfer_total ci C fl Hf) as (allowed & real & Et & Ta & Tr). destruct (stall_total ci C allowed real Ta Tr) as (stall & Est & S0).
  destruct (loading_total ci C real stall Tr S0) as (st & El & O & N). destruct (onloading_total ci C real stall st El O N) as (on & Eon). destruct (offloading_total ci C st O N) as (off & Eoff).
  exists stall, on, off, fl, allowed, real, st. repeat (split; [assumption|]). cbn zeta.
  assert (T0 : (0 < inject_Z (in_total ci) * in_cpo ci)%Q).
  { destruct (co_cycles ci C) as (z & Ez & Pz). rewrite Ez, <- inject_Z_mult. assert (T := co_total ci C). change 0%Q with (inject_Z 0). rewrite <- Zlt_Qlt. nia. }
  assert (Sq : (0 <= inject_Z stall)%Q) by (change 0%Q with (inject_Z 0); now rewrite <- Zle_Qle).
  split; [lra|].
  assert (E : evaluate ci = (la <- overall_latency ci stall on off ;; Ok (snd en, la))).
  { unfold evaluate, calc_latency. rewrite Ei. cbn [rbind]. rewrite Es. cbn [rbind]. rewrite Ea. cbn [rbind]. rewrite Een. cbn [rbind]. rewrite Ei2. cbn [rbind]. rewrite Es2. cbn [rbind]. rewrite Ef. cbn [rbind fst]. rewrite Et. cbn [rbind].
    rewrite Est. cbn [rbind]. rewrite El. cbn [rbind]. rewrite Eon. cbn [rbind]. rewrite Eoff. reflexivity. }
  rewrite E. unfold overall_latency. rewrite pdiv_ok by (apply inject_nz; assert (U := co_units ci C); lia). cbn [rbind]. cbn zeta.
  rewrite pdiv_ok by lra. cbn [rbind]. rewrite pdiv_ok by lra. cbn [rbind].
  match goal with |- context [u1 <- pdiv ?x ?y ;; _] => destruct (div_zero_or x y) as [(u1 & ->)|(-> & H)] end; [|cbn [rbind]; right; split; [reflexivity|left; exact H]]. cbn [rbind].
  match goal with |- context [u2 <- pdiv ?x ?y ;; _] => destruct (div_zero_or x y) as [(u2 & ->)|(-> & H)] end; [|cbn [rbind]; right; split; [reflexivity|right; exact H]]. cbn [rbind].
  left. eexists. split; [reflexivity|]. cbn [snd la_total2]. reflexivity.
Qed.
Lemma evaluate_ok ci : complete_inputs ci -> sound_timing ci -> few_single ci ->
  exists r, evaluate ci = Ok r /\ (inject_Z (in_total ci) * in_cpo ci <= la_total2 (snd r))%Q.
Proof.
  intros C ST FS. destruct (evaluate_total ci C) as (stall & on & off & fl & allowed & real & st & Et & El & Eon & Eoff & S0 & P & H).
  assert (NN := loading_all_nonneg ci fl allowed real stall st (co_links ci C) ST FS Et El). assert (N1 := onloading_nonneg ci st on NN Eon). assert (N2 := offloading_nonneg ci st off NN Eoff).
  destruct H as [(r & E & T)|(_ & [H|H])]; [|exfalso; lra|exfalso; lra].
  exists r. split; [exact E|]. rewrite T. rewrite Zle_Qle in S0. change (inject_Z 0) with 0%Q in S0. lra.
Qed.
