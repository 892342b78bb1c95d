(** Proofs about energy and word accesses (C24, C40). *)
From Coq Require Import QArith Lqa Qround.
From Verif Require Import Base Model_Alloc Model_Decouple Model_SpatialInt Model_DataMove Model_Mapping Model_Links
  Model_Cost Spec_DataMove Spec_Mapping Spec_Cost Proof_AllocSearch Proof_Bandwidth Proof_DataMove Proof_Mapping Proof_MappingProps.

Lemma F2_len {A B} (R : A -> B -> Prop) l l' : Forall2 R l l' -> length l = length l'.
Proof. induction 1; cbn; congruence. Qed.
Lemma F2_nth {A B} (R : A -> B -> Prop) l l' i x y :
  Forall2 R l l' -> nth_error l i = Some x -> nth_error l' i = Some y -> R x y.
Proof.
  intros F. revert i. induction F as [|a b l l' H F IH]; intros [|i] Hx Hy; cbn in Hx, Hy; try discriminate; [congruence|eauto].
Qed.
Lemma seq_nth' n i : (i < n)%nat -> nth_error (seq 0 n) i = Some i.
Proof.
  intros H. rewrite (nth_error_nth' _ O) by (rewrite seq_length; exact H). now rewrite seq_nth.
Qed.

Lemma count_ok f k : complete f -> dget k f = Some (count_in f k).
Proof. intros H. destruct (H k) as [x E]. unfold count_in. now rewrite E. Qed.

Lemma level_ok m f : complete f ->
  exists e g, level_energy f m = Ok (e, g) /\ (e == spent m f)%Q /\ forall k, exists x, dget k g = Some x /\ (x == dir_energy m f k)%Q.
Proof.
  intros H. unfold level_energy, four_get, dgetr. rewrite !(count_ok f) by assumption.
  cbn -[inject_Z count_in Qplus Qmult]. do 2 eexists. split; [reflexivity|]. split.
  - unfold spent, dir_energy. cbn [access_cost]. ring.
  - intros []; eexists; (split; [reflexivity|]); unfold dir_energy; cbn [access_cost]; reflexivity.
Qed.

Lemma links_mem ci op mem_op : dget op (lk_data (in_links ci)) = Some mem_op -> layer_to_mem_op (in_links ci) op = Ok mem_op.
Proof. unfold layer_to_mem_op, dgetr. now intros ->. Qed.

Definition dir_entry (m : memlvl) (f : dict direction Z) (g : dict direction Q) : Prop :=
  forall k, exists x, dget k g = Some x /\ (x == dir_energy m f k)%Q.

Lemma levels_energy ms : forall fs, (length fs <= length ms)%nat -> (forall f, In f fs -> complete f) ->
  exists es, rmap (fun am => level_energy (fst am) (snd am)) (combine fs ms) = Ok es /\
    entries (fun m f e => (e == spent m f)%Q) ms fs (map fst es) /\
    entries dir_entry ms fs (map snd es) /\ (qsum (map fst es) == spent_all ms fs)%Q.
Proof.
  induction ms as [|m ms IH]; intros fs L C.
  - destruct fs; [|cbn in L; lia]. exists []. split; [reflexivity|].
    repeat split; try reflexivity; intros [|lv] ? ? ? E; discriminate.
  - destruct fs as [|f fs].
    + exists []. split; [reflexivity|]. repeat split; try reflexivity; intros [|lv] ? ? ? ? E; discriminate.
    + cbn in L. destruct (IH fs) as (es & E & (L1 & H1) & (L2 & H2) & S); [lia|intros; apply C; now right|].
      destruct (level_ok m f) as (e & g & El & He & Hg); [apply C; now left|].
      exists ((e, g) :: es). cbn [combine rmap fst snd map]. rewrite El, E. split; [reflexivity|].
      split; [|split].
      * split; [cbn; congruence|]. intros [|lv] m' f' e' A B D; cbn in A, B, D; [congruence|eauto].
      * split; [cbn; congruence|]. intros [|lv] m' f' e' A B D; cbn in A, B, D; [|eauto].
        injection A as <-. injection B as <-. injection D as <-. exact Hg.
      * rewrite qsum_cons, S, He. reflexivity.
Qed.

Lemma fold_Qplus l : forall a, (fold_left Qplus l a == a + qsum l)%Q.
Proof.
  induction l as [|x l IH]; intros a; cbn [fold_left].
  - cbn. ring.
  - rewrite IH, qsum_cons. ring.
Qed.
Lemma qsum_concat l : (qsum (concat l) == qsum (map qsum l))%Q.
Proof. induction l as [|x l IH]; [reflexivity|]. cbn [concat map]. now rewrite qsum_app, qsum_cons, IH. Qed.
Lemma qsum_ext l l' : Forall2 Qeq l l' -> (qsum l == qsum l')%Q.
Proof. induction 1; [reflexivity|]. rewrite !qsum_cons. now rewrite H, IHForall2. Qed.

(** The report for good accesses. *)
Definition good_report (ci : inputs) (acc : dict string (list (dict direction Z)))
    (bd : dict string (list Q)) (further : dict string (list (dict direction Q))) (mem total : Q) : Prop :=
  (total == in_mac_cost ci * inject_Z (in_macs ci) + mem)%Q /\
  (mem == qsum (map (fun x => qsum (snd x)) bd))%Q /\
  Forall2 (fun a e => fst a = fst e /\ exists ms, memories_of ci (fst a) ms /\
             entries (fun m f x => (x == spent m f)%Q) ms (snd a) (snd e)) acc bd /\
  Forall2 (fun a e => fst a = fst e /\ exists ms, memories_of ci (fst a) ms /\
             entries (fun m f g => forall k, exists x, dget k g = Some x /\ (x == dir_energy m f k)%Q) ms (snd a) (snd e)) acc further.

Lemma operands_energy ci acc : good_accesses ci acc ->
  exists es, rmap (fun kv => e <- operand_energy ci (fst kv) (snd kv) ;; Ok (fst kv, e))%result acc = Ok es /\
   Forall2 (fun a e => fst a = fst e /\ exists ms, memories_of ci (fst a) ms /\
     entries (fun m f x => (x == spent m f)%Q) ms (snd a) (map fst (snd e)) /\
     entries dir_entry ms (snd a) (map snd (snd e)) /\ (qsum (map fst (snd e)) == spent_all ms (snd a))%Q) acc es.
Proof.
  induction acc as [|[op fs] acc IH]; intros G; [exists []; split; [reflexivity|constructor]|].
  destruct IH as (es & E & F); [intros o a H; apply G; now right|].
  destruct (G op fs (or_introl eq_refl)) as ((ms & (mem_op & Hl & Hh) & L) & C).
  destruct (levels_energy ms fs L C) as (es0 & E0 & H1 & H2 & S).
  assert (EO : operand_energy ci op fs = Ok es0).
  { unfold operand_energy. rewrite (links_mem _ _ _ Hl). cbn [rbind]. unfold dgetr. rewrite Hh. exact E0. }
  exists ((op, es0) :: es). cbn [rmap fst snd]. rewrite EO. cbn [rbind]. rewrite E. split; [reflexivity|]. constructor; [|exact F].
  split; [reflexivity|]. exists ms. split; [now exists mem_op|]. repeat split; try apply H1; try apply H2; assumption.
Qed.

Lemma F2_map_r {A B C} (R : A -> C -> Prop) (f : B -> C) l l' :
  Forall2 (fun a b => R a (f b)) l l' -> Forall2 R l (map f l').
Proof. induction 1; constructor; assumption. Qed.

Lemma energy_ok ci acc : good_accesses ci acc ->
  exists bd further mem total, calc_memory_energy_cost ci acc = Ok (bd, further, mem, total) /\
    good_report ci acc bd further mem total.
Proof.
  intros G. destruct (operands_energy ci acc G) as (es & E & F).
  unfold calc_memory_energy_cost. rewrite E. cbn [rbind]. do 4 eexists. split; [reflexivity|].
  split; [unfold mac_energy; ring|]. split; [|split].
  - rewrite fold_Qplus, qsum_concat, Qplus_0_l, !map_map. reflexivity.
  - apply F2_map_r. eapply F2_impl; [|exact F]. cbn. intros a e (Hk & ms & Hm & H1 & _). split; [assumption|]. now exists ms.
  - apply F2_map_r. eapply F2_impl; [|exact F]. cbn. intros a e (Hk & ms & Hm & _ & H2 & _). split; [assumption|]. now exists ms.
Qed.

(** Sum over all operands *)
Definition spends (ci : inputs) (acc : dict string (list (dict direction Z))) (s : Q) : Prop :=
  exists qs, Forall2 (fun a q => exists ms, memories_of ci (fst a) ms /\ (q == spent_all ms (snd a))%Q) acc qs /\ (s == qsum qs)%Q.

Lemma energy_spends ci acc bd further mem total : good_accesses ci acc ->
  calc_memory_energy_cost ci acc = Ok (bd, further, mem, total) -> spends ci acc mem.
Proof.
  intros G. destruct (operands_energy ci acc G) as (es & E & F).
  unfold calc_memory_energy_cost. rewrite E. cbn [rbind]. intros H. injection H as <- <- <- <-.
  exists (map (fun e => qsum (map fst (snd e))) es). split.
  - apply F2_map_r. eapply F2_impl; [|exact F]. cbn. intros a e (_ & ms & Hm & _ & _ & S). now exists ms.
  - rewrite fold_Qplus, qsum_concat, Qplus_0_l, !map_map. reflexivity.
Qed.

Lemma energy_total ci acc bd further mem total :
  calc_memory_energy_cost ci acc = Ok (bd, further, mem, total) -> (total == in_mac_cost ci * inject_Z (in_macs ci) + mem)%Q.
Proof.
  unfold calc_memory_energy_cost. intros H. apply rbind_Ok in H. destruct H as (es & _ & H). injection H as <- <- <- <-.
  unfold mac_energy. ring.
Qed.

Lemma spent_nonneg m f : (0 <= ml_read_energy m)%Q -> (0 <= ml_write_energy m)%Q -> (forall k, (0 <= count_in f k)%Z) ->
  (0 <= spent m f)%Q /\ forall k, (0 <= dir_energy m f k)%Q.
Proof.
  intros R W C. assert (D : forall k, (0 <= dir_energy m f k)%Q).
  { intros k. unfold dir_energy. apply Qmult_le_0_compat.
    - change 0%Q with (inject_Z 0). rewrite <- Zle_Qle. apply C.
    - destruct k; assumption. }
  split; [|exact D]. unfold spent. assert (A := D RdLow). assert (B := D WrLow). assert (C' := D RdHigh). assert (D' := D WrHigh). lra.
Qed.

Lemma entries_in {A} (P : memlvl -> dict direction Z -> A -> Prop) ms fs es e :
  (length fs <= length ms)%nat -> entries P ms fs es -> In e es -> exists m f, In m ms /\ In f fs /\ P m f e.
Proof.
  intros L (Le & H) I. apply In_nth_error in I. destruct I as [lv I].
  assert (lv < length es)%nat by (apply nth_error_Some; congruence).
  destruct (nth_lt ms lv ltac:(lia)) as (m & Em). destruct (nth_lt fs lv ltac:(lia)) as (f & Ef).
  exists m, f. split; [now apply nth_error_In in Em|]. split; [now apply nth_error_In in Ef|]. eauto.
Qed.

Lemma energy_nonneg ci acc bd further mem total : good_accesses ci acc ->
  (0 <= in_mac_cost ci)%Q -> (0 <= in_macs ci)%Z ->
  (forall op fs f k, In (op, fs) acc -> In f fs -> (0 <= count_in f k)%Z) ->
  (forall op ms m, memories_of ci op ms -> In m ms -> (0 <= ml_read_energy m /\ 0 <= ml_write_energy m)%Q) ->
  calc_memory_energy_cost ci acc = Ok (bd, further, mem, total) ->
  (0 <= mem)%Q /\ (mem <= total)%Q /\ (forall op l e, In (op, l) bd -> In e l -> (0 <= e)%Q) /\
  (forall op l g k x, In (op, l) further -> In g l -> dget k g = Some x -> (0 <= x)%Q).
Proof.
  intros G Hm Hc Ha He E. destruct (energy_ok ci acc G) as (bd' & fu' & mem' & tot' & E' & (T & S & B & F)).
  rewrite E in E'. injection E' as <- <- <- <-.
  assert (NB : forall op l e, In (op, l) bd -> In e l -> (0 <= e)%Q).
  { intros op l e I Ie. destruct (Forall2_in_r _ _ _ _ B I) as ((op' & fs) & Ia & Hk & ms & Hms & H). cbn [fst snd] in *. subst op'.
    destruct (G op fs Ia) as ((ms' & Hms' & L) & _).
    assert (ms' = ms) by (destruct Hms as (? & ? & ?), Hms' as (? & ? & ?); congruence). subst ms'.
    destruct (entries_in _ _ _ _ _ L H Ie) as (m & f & Im & If & Q). rewrite Q.
    destruct (He _ _ _ Hms Im). eapply spent_nonneg; eauto. }
  assert (M : (0 <= mem)%Q).
  { rewrite S. apply qsum_nonneg. intros x Hx. apply in_map_iff in Hx. destruct Hx as ((op & l) & <- & I). cbn [snd].
    apply qsum_nonneg. intros e. now apply (NB op l). }
  split; [exact M|]. split; [|split; [exact NB|]].
  - rewrite T. assert (0 <= in_mac_cost ci * inject_Z (in_macs ci))%Q.
    { apply Qmult_le_0_compat; [assumption|]. change 0%Q with (inject_Z 0). now rewrite <- Zle_Qle. }
    lra.
  - intros op l g k x I Ig Hx. destruct (Forall2_in_r _ _ _ _ F I) as ((op' & fs) & Ia & Hk & ms & Hms & H). cbn [fst snd] in *. subst op'.
    destruct (G op fs Ia) as ((ms' & Hms' & L) & _).
    assert (ms' = ms) by (destruct Hms as (? & ? & ?), Hms' as (? & ? & ?); congruence). subst ms'.
    destruct (entries_in _ _ _ _ _ L H Ig) as (m & f & Im & If & Q). destruct (Q k) as (x' & Ex & Qx).
    rewrite Hx in Ex. injection Ex as <-. rewrite Qx. destruct (He _ _ _ Hms Im). eapply spent_nonneg; eauto.
Qed.

Lemma spent_all_add ms : forall x y z,
  Forall3 (fun f g h => forall k, count_in h k = count_in f k + count_in g k)%Z x y z ->
  (spent_all ms z == spent_all ms x + spent_all ms y)%Q.
Proof.
  induction ms as [|m ms IH]; intros x y z F; [cbn; ring|]. destruct F as [|f g h x y z H F]; [cbn; ring|].
  cbn [spent_all]. rewrite (IH _ _ _ F). unfold spent, dir_energy. rewrite !H, !inject_Z_plus. ring.
Qed.

Lemma spends_add ci x y z : sum_accesses x y z -> forall a b c, spends ci x a -> spends ci y b -> spends ci z c -> (c == a + b)%Q.
Proof.
  intros S. induction S as [|f g h x y z (H1 & H2 & H) S IH]; intros a b c (qa & Fa & Sa) (qb & Fb & Sb) (qc & Fc & Sc).
  - inversion Fa; subst. inversion Fb; subst. inversion Fc; subst. rewrite Sa, Sb, Sc. cbn. ring.
  - inversion Fa as [|? a' ? qa' (m1 & M1 & E1) Fa']; subst. inversion Fb as [|? b' ? qb' (m2 & M2 & E2) Fb']; subst.
    inversion Fc as [|? c' ? qc' (m3 & M3 & E3) Fc']; subst.
    rewrite <- H1 in M2. rewrite <- H2 in M3.
    assert (m2 = m1) by (destruct M1 as (? & ? & ?), M2 as (? & ? & ?); congruence).
    assert (m3 = m1) by (destruct M1 as (? & ? & ?), M3 as (? & ? & ?); congruence). subst m2 m3.
    assert (X := IH (qsum qa') (qsum qb') (qsum qc')).
    rewrite Sa, Sb, Sc, !qsum_cons, E1, E2, E3, (spent_all_add _ _ _ _ H).
    rewrite X; [ring|eexists; split; [eassumption|reflexivity]..].
Qed.

Lemma energy_additive ci x y z bx fx mx tx by_ fy my ty bz fz mz tz :
  good_accesses ci x -> good_accesses ci y -> good_accesses ci z -> sum_accesses x y z ->
  calc_memory_energy_cost ci x = Ok (bx, fx, mx, tx) -> calc_memory_energy_cost ci y = Ok (by_, fy, my, ty) ->
  calc_memory_energy_cost ci z = Ok (bz, fz, mz, tz) -> (mz == mx + my)%Q.
Proof.
  intros Gx Gy Gz S Ex Ey Ez. eapply spends_add; [exact S|eapply energy_spends; eassumption..].
Qed.

(** * Word accesses *)

Lemma words_exact bits mn mx reps : (0 <= bits)%Z -> (0 < mn)%Z -> (0 < mx)%Z -> (0 <= reps)%Z ->
  words bits mn mx reps (Qfloor (inject_Z (Qceiling (inject_Z bits / inject_Z mn)) * (inject_Z mn / inject_Z mx) * inject_Z reps)).
Proof.
  intros Hb Hn Hx Hr. set (w := Qceiling (inject_Z bits / inject_Z mn)). exists w.
  assert (Pn : (0 < inject_Z mn)%Q) by (change 0%Q with (inject_Z 0); now rewrite <- Zlt_Qlt).
  assert (Px : (0 < inject_Z mx)%Q) by (change 0%Q with (inject_Z 0); now rewrite <- Zlt_Qlt).
  split.
  - assert (B := Qceiling_bounds (inject_Z bits / inject_Z mn)). fold w in B. destruct B as [B1 B2].
    replace (w - 1)%Z with (w + -1)%Z by lia. rewrite Zlt_Qlt, Zle_Qle, !inject_Z_mult, inject_Z_plus. change (inject_Z (-1)) with (- (1))%Q. split.
    + setoid_replace (inject_Z bits) with (inject_Z bits / inject_Z mn * inject_Z mn)%Q by (field; lra).
      apply Qmult_lt_compat_r; [assumption|]. lra.
    + setoid_replace (inject_Z bits) with (inject_Z bits / inject_Z mn * inject_Z mn)%Q by (field; lra).
      apply Qmult_le_compat_r; lra.
  - assert (B := Qfloor_bounds (inject_Z w * (inject_Z mn / inject_Z mx) * inject_Z reps)). destruct B as [B1 B2].
    set (n := Qfloor _) in *. rewrite Zlt_Qlt, Zle_Qle, !inject_Z_mult, inject_Z_plus. change (inject_Z 1) with 1%Q.
    setoid_replace (inject_Z w * inject_Z mn * inject_Z reps)%Q with (inject_Z w * (inject_Z mn / inject_Z mx) * inject_Z reps * inject_Z mx)%Q by (field; lra).
    split; [apply Qmult_le_compat_r; lra|apply Qmult_lt_compat_r; lra].
Qed.

Lemma access_words ci amount prec c mx mn op lv uc u :
  (0 <= amount)%Z -> (0 <= prec)%Z -> (0 <= c)%Z -> (0 < mx)%Z -> (0 < mn)%Z -> (0 <= u)%Z ->
  dget op (in_unit_count ci) = Some uc -> nth_error uc (S lv) = Some u ->
  exists n, calc_memory_access ci amount prec c mx mn op lv = Ok n /\ words (amount * prec) mn mx (c * u) n.
Proof.
  intros Ha Hp Hc Hx Hn Hu Eu En. unfold calc_memory_access.
  destruct ((amount =? 0) || (prec =? 0))%Z eqn:Z0.
  - exists 0%Z. split; [reflexivity|]. assert (amount * prec = 0)%Z by nia. exists 0%Z. rewrite H. nia.
  - rewrite pdiv_ok by (apply inject_nz; lia). cbn [rbind]. rewrite pdiv_ok by (apply inject_nz; lia). cbn [rbind].
    unfold dgetr. rewrite Eu. cbn [of_option rbind]. rewrite (at_ok _ _ _ En). cbn [rbind]. eexists. split; [reflexivity|].
    assert (Pn : (0 < inject_Z mn)%Q) by (change 0%Q with (inject_Z 0); now rewrite <- Zlt_Qlt).
    assert (Px : (0 < inject_Z mx)%Q) by (change 0%Q with (inject_Z 0); now rewrite <- Zlt_Qlt).
    rewrite py_int_floor.
    + assert (W := words_exact (amount * prec) mn mx (c * u) ltac:(nia) Hn Hx ltac:(nia)).
      match goal with |- words _ _ _ _ (Qfloor ?x) => match type of W with words _ _ _ _ (Qfloor ?y) =>
        assert (E : Qfloor x = Qfloor y) by (apply Qfloor_comp; rewrite !inject_Z_mult; ring) end end.
      now rewrite E.
    + assert (W : (0 <= Qceiling (inject_Z (amount * prec) / inject_Z mn))%Z).
      { change 0%Z with (Qceiling 0). apply Qceiling_resp_le. apply Qle_shift_div_l; [assumption|].
        rewrite Qmult_0_l. change 0%Q with (inject_Z 0). rewrite <- Zle_Qle. nia. }
      apply Qmult_le_0_compat; [apply Qmult_le_0_compat; [apply Qmult_le_0_compat|]|]; try (change 0%Q with (inject_Z 0); rewrite <- Zle_Qle; assumption).
      apply Qle_shift_div_l; [assumption|]. rewrite Qmult_0_l. lra.
Qed.

(** Result of reading an entry of a pattern *)
Lemma attr_of_entry p a k x : attr_of p a k = Ok x -> entry p a k = Some x.
Proof.
  unfold attr_of, get_attribute, four_get, entry, dgetr. destruct (dget a p) as [f|]; cbn; [|discriminate].
  destruct (dget k f); cbn; congruence.
Qed.
Lemma entry_attr_of p a k x : entry p a k = Some x -> attr_of p a k = Ok x.
Proof.
  unfold attr_of, get_attribute, four_get, entry, dgetr. destruct (dget a p) as [f|]; cbn; [|discriminate].
  destruct (dget k f); cbn; congruence.
Qed.
Lemma bandwidth_width d mem_op k b : bandwidth d mem_op k = Ok b <-> width d mem_op k b.
Proof.
  unfold bandwidth, width, dgetr. destruct (dget mem_op d) as [f|]; cbn.
  - destruct (dget k f) eqn:E; cbn; split.
    + intros H. injection H as ->. now exists f.
    + intros (f' & H & H'). congruence.
    + discriminate.
    + intros (f' & H & H'). congruence.
  - split; [discriminate|]. intros (f' & H & _). discriminate.
Qed.
Lemma at_Ok {A} (l : list A) i x : at_ l i = Ok x -> nth_error l i = Some x.
Proof. unfold at_. destruct (nth_error l i); cbn; congruence. Qed.

Lemma word_access_right ci op mem_op lv ms m od ps p k n : sound_inputs ci ->
  dget op (lk_data (in_links ci)) = Some mem_op -> dget mem_op (in_hier ci) = Some ms ->
  nth_error ms lv = Some m -> dget op (in_map ci) = Some (od, ps) -> nth_error ps lv = Some p ->
  word_access ci op mem_op lv m p k = Ok n -> right_words ci op lv k n.
Proof.
  intros SI El Eh Em Eo Ep H. unfold word_access in H.
  apply rbind_Ok in H. destruct H as (a & Ha & H). apply attr_of_entry in Ha.
  apply rbind_Ok in H. destruct H as (prec & Hp & H). apply attr_of_entry in Hp.
  apply rbind_Ok in H. destruct H as (c & Hc & H). apply attr_of_entry in Hc.
  apply rbind_Ok in H. destruct H as (bx & Hx & H). apply bandwidth_width in Hx.
  apply rbind_Ok in H. destruct H as (bn & Hn & H). apply bandwidth_width in Hn.
  exists mem_op, ms, m, od, ps, p, a, prec, c. repeat (split; [assumption|]).
  assert (SP : sound_pattern p) by (eapply (si_patterns ci SI); [eapply dget_In; eassumption|eapply nth_error_In; eassumption]).
  assert (SW := fun b => si_widths ci SI mem_op ms m mem_op k b (dget_In _ _ _ Eh) (nth_error_In _ _ Em)).
  destruct bx as [mx|], bn as [mn|]; try discriminate.
  - destruct ((mx =? 0) || (mn =? 0))%Z; [discriminate|].
    assert (Pa := SP _ _ _ Ha). assert (Pp := SP _ _ _ Hp). assert (Pc := SP _ _ _ Hc).
    assert (Px := SW mx (or_introl Hx)). assert (Pn := SW mn (or_intror Hn)).
    assert (H' := H). unfold calc_memory_access in H. destruct ((a =? 0) || (prec =? 0))%Z eqn:Z0.
    + left. injection H as <-. split; [nia|reflexivity].
    + right. rewrite pdiv_ok in H by (apply inject_nz; lia). cbn [rbind] in H.
      rewrite pdiv_ok in H by (apply inject_nz; lia). cbn [rbind] in H.
      apply rbind_Ok in H. destruct H as (uc & Eu & H). apply dgetr_Ok in Eu.
      apply rbind_Ok in H. destruct H as (u & En & _). apply at_Ok in En.
      exists mx, mn, uc, u. repeat (split; [assumption|]).
      assert (Pu := si_units ci SI op uc u (dget_In _ _ _ Eu) (nth_error_In _ _ En)).
      destruct (access_words ci a prec c mx mn op lv uc u) as (n' & E' & W); try assumption.
      rewrite E' in H'. injection H' as <-. exact W.
  - left. destruct (a =? 0)%Z eqn:Z0; [|discriminate]. injection H as <-. split; [nia|reflexivity].
Qed.

Lemma four_of_list {A} (zero : A) (g : direction -> result A) f :
  (d <- rmap (fun k => x <- g k ;; Ok (k, x)) directions ;; four_way zero (Some d))%result = Ok f ->
  complete f /\ forall k x, dget k f = Some x -> g k = Ok x.
Proof.
  unfold directions. cbn [rmap].
  destruct (g RdLow) as [a|] eqn:Ea, (g WrLow) as [b|] eqn:Eb, (g RdHigh) as [c|] eqn:Ec, (g WrHigh) as [d|] eqn:Ed; cbn; try discriminate.
  intros H. injection H as <-. split; [intros []; eexists; reflexivity|]. intros [] x Hx; cbn in Hx; congruence.
Qed.

Lemma words_all ci acc : sound_inputs ci -> calc_memory_word_access ci = Ok acc ->
  (forall op fs, In (op, fs) acc -> In op (in_ops ci) /\
     exists od ps, dget op (in_map ci) = Some (od, ps) /\ length fs = length ps) /\
  (forall op od ps, In op (in_ops ci) -> dget op (in_map ci) = Some (od, ps) -> ps <> [] -> In op (keys acc)) /\
  (forall op fs lv f, In (op, fs) acc -> nth_error fs lv = Some f ->
     complete f /\ forall k n, dget k f = Some n -> right_words ci op lv k n).
Proof.
  intros SI H. unfold calc_memory_word_access in H. apply rbind_Ok in H. destruct H as (all & E & H). injection H as <-.
  apply rmap_Forall2 in E.
  assert (D : forall op fs, word_accesses_of ci op = Ok fs -> exists mem_op od ps,
     dget op (lk_data (in_links ci)) = Some mem_op /\ dget op (in_map ci) = Some (od, ps) /\ length fs = length ps /\
     forall lv f, nth_error fs lv = Some f -> exists m p ms, dget mem_op (in_hier ci) = Some ms /\ nth_error ms lv = Some m /\ nth_error ps lv = Some p /\
       complete f /\ forall k n, dget k f = Some n -> word_access ci op mem_op lv m p k = Ok n).
  { intros op fs W. unfold word_accesses_of in W. apply rbind_Ok in W. destruct W as (mem_op & El & W). apply dgetr_Ok in El.
    apply rbind_Ok in W. destruct W as (n & En & W). unfold levels_of in En. apply rbind_Ok in En. destruct En as ((od & ps) & Eo & En).
    apply dgetr_Ok in Eo. injection En as <-. cbn [snd] in W. apply rmap_Forall2 in W. assert (L := F2_len _ _ _ W).
    rewrite seq_length in L. exists mem_op, od, ps. repeat (split; [congruence || assumption|]).
    intros lv f Ef. assert (Ls : (lv < length fs)%nat) by (apply nth_error_Some; congruence).
    assert (Es : nth_error (seq 0 (length ps)) lv = Some lv).
    { apply seq_nth'. lia. }
    assert (X := F2_nth _ _ _ _ _ _ W Es Ef). cbn beta in X.
    apply rbind_Ok in X. destruct X as (m & Em & X). unfold get_memory_level in Em. apply rbind_Ok in Em. destruct Em as (ms & Eh & Em).
    apply dgetr_Ok in Eh. apply at_Ok in Em.
    apply rbind_Ok in X. destruct X as (p & Ep & X). unfold unit_mem in Ep. apply rbind_Ok in Ep. destruct Ep as (x & Ex & Ep).
    apply dgetr_Ok in Ex. rewrite Eo in Ex. injection Ex as <-. apply at_Ok in Ep. cbn [snd] in Ep.
    apply four_of_list in X. exists m, p, ms. tauto. }
  assert (A : forall op fs, In (op, fs) (filter (fun kv : string * list (four Z) => match snd kv with [] => false | _ => true end) all) ->
     In op (in_ops ci) /\ word_accesses_of ci op = Ok fs).
  { intros op fs I. apply filter_In in I. destruct I as [I _]. destruct (Forall2_in_r _ _ _ _ E I) as (op' & Io & Eo).
    apply rbind_Ok in Eo. destruct Eo as (a & Ea & Eo). injection Eo as <- <-. tauto. }
  split; [|split].
  - intros op fs I. destruct (A _ _ I) as [Io W]. split; [assumption|].
    destruct (D _ _ W) as (mem_op & od & ps & _ & Eo & L & _). eauto.
  - intros op od ps Io Eo Hne. destruct (Forall2_in_l _ _ _ _ E Io) as (x & Ix & Ex).
    apply rbind_Ok in Ex. destruct Ex as (fs & W & Ex). injection Ex as <-.
    apply in_map_iff. exists (op, fs). split; [reflexivity|]. apply filter_In. split; [assumption|]. cbn [snd].
    destruct (D _ _ W) as (mem_op & od' & ps' & _ & Eo' & L & _). rewrite Eo in Eo'. injection Eo' as <- <-.
    destruct fs; [|reflexivity]. destruct ps; [congruence|discriminate].
  - intros op fs lv f I Ef. destruct (A _ _ I) as [Io W].
    destruct (D _ _ W) as (mem_op & od & ps & El & Eo & L & N). destruct (N _ _ Ef) as (m & p & ms & Eh & Em & Ep & C & K).
    split; [assumption|]. intros k n Hk. eapply word_access_right; eauto.
Qed.

(** The computed word accesses are good. *)
Lemma words_good ci acc : calc_memory_word_access ci = Ok acc -> good_accesses ci acc.
Proof.
  intros H. unfold calc_memory_word_access in H. apply rbind_Ok in H. destruct H as (all & E & H). injection H as <-.
  apply rmap_Forall2 in E. intros op fs I. apply filter_In in I. destruct I as [I NE]. cbn [snd] in NE. destruct (Forall2_in_r _ _ _ _ E I) as (op' & Io & Eo).
  apply rbind_Ok in Eo. destruct Eo as (a & W & Eo). injection Eo as <- <-. unfold word_accesses_of in W. apply rbind_Ok in W. destruct W as (mem_op & El & W). apply dgetr_Ok in El.
  apply rbind_Ok in W. destruct W as (n & En & W). apply rmap_Forall2 in W. assert (L := F2_len _ _ _ W). rewrite seq_length in L. subst n.
  assert (X : forall lv f, nth_error a lv = Some f -> complete f /\ exists ms, dget mem_op (in_hier ci) = Some ms /\ (lv < length ms)%nat).
  { intros lv f Hf. assert (Ls : (lv < length a)%nat) by (apply nth_error_Some; congruence).
    assert (X := F2_nth _ _ _ _ _ _ W (seq_nth' _ _ Ls) Hf). cbn beta in X.
    apply rbind_Ok in X. destruct X as (m & Em & X). unfold get_memory_level in Em. apply rbind_Ok in Em. destruct Em as (ms & Eh & Em).
    apply dgetr_Ok in Eh. apply at_Ok in Em. apply rbind_Ok in X. destruct X as (p & _ & X). apply four_of_list in X. split; [tauto|].
    exists ms. split; [assumption|]. apply nth_error_Some. congruence. }
  split.
  - destruct a as [|f0 a0]; [discriminate|]. destruct (nth_lt (f0 :: a0) (length a0) ltac:(cbn; lia)) as (f & Hf).
    destruct (X _ _ Hf) as (_ & ms & Hms & Lm). exists ms. split; [exists mem_op; tauto|]. cbn. lia.
  - intros f Hf. apply In_nth_error in Hf. destruct Hf as (lv & Hf). now apply (X lv).
Qed.

Lemma words_bounds bits mn mx reps n : (0 < mn)%Z -> (0 < mx)%Z -> (0 < reps)%Z -> words bits mn mx reps n ->
  (bits * reps < (n + 1) * mx /\ n * mx < (bits + mn) * reps /\ ((mx | mn) -> bits * reps <= n * mx))%Z.
Proof.
  intros Hn Hx Hr (w & (B1 & B2) & C1 & C2).
  assert (E1 : (bits * reps <= w * mn * reps)%Z) by (apply Z.mul_le_mono_nonneg_r; lia).
  assert (E2 : (w * mn * reps < (bits + mn) * reps)%Z) by (apply Z.mul_lt_mono_pos_r; lia).
  split; [lia|]. split; [lia|]. intros (q & Q). subst mn.
  assert (n + 1 > w * q * reps)%Z by nia. assert (w * q * reps <= n)%Z by lia. nia.
Qed.
