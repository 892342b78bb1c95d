(** Utilizations and double buffering in bits (C38). *)
From Coq Require Import QArith Lqa.
From Verif Require Import Base Model_DataMove Model_Mapping Model_Links Model_Cost Model_Latency Spec_Cost Spec_Latency
  Proof_AllocSearch Proof_Bandwidth Proof_Links Proof_Energy Proof_Latency Proof_Buffer.

Lemma individual_spec ci bits ind : NoDup (in_ops ci) -> individual ci bits = Ok ind ->
  keys ind = in_ops ci /\
  forall op, In op (in_ops ci) -> exists od ps us, dget op (in_map ci) = Some (od, ps) /\ dget op ind = Some us /\ length us = length ps /\
    forall lv, (lv < length ps)%nat -> exists b s, tile_bits ci bits (op, lv) b /\ memory_size ci (op, lv) s /\ s <> 0%Z /\
      util ind (op, lv) = (inject_Z b / inject_Z s)%Q.
Proof.
  intros N H. unfold individual in H. apply rmap_Forall2 in H.
  assert (K : keys ind = in_ops ci).
  { clear N. induction H as [|op e l r H F IH]; [reflexivity|]. apply rbind_Ok in H. destruct H as (u & _ & H). injection H as <-. cbn. now f_equal. }
  split; [exact K|]. intros op Io. destruct (Forall2_in_l _ _ _ _ H Io) as (e & Ie & He).
  apply rbind_Ok in He. destruct He as (us & Hu & He). injection He as <-.
  assert (Di : dget op ind = Some us) by (apply In_dget; [now rewrite K|exact Ie]).
  unfold utilization in Hu. apply rbind_Ok in Hu. destruct Hu as (mem & Hm & Hu). apply rbind_Ok in Hu. destruct Hu as (n & Hn & Hu).
  unfold levels_of in Hn. apply rbind_Ok in Hn. destruct Hn as ((od & ps) & Hx & Hn). injection Hn as <-. apply dgetr_Ok in Hx. cbn [snd] in *.
  unfold layer_to_mem_op in Hm. apply dgetr_Ok in Hm.
  apply rmap_Forall2 in Hu. assert (L := F2_len _ _ _ Hu). rewrite seq_length in L.
  exists od, ps, us. split; [exact Hx|]. split; [exact Di|]. split; [congruence|]. intros lv Hlv.
  assert (E : nth_error (seq 0 (length ps)) lv = Some lv) by (now apply seq_nth').
  destruct (nth_error us lv) as [u|] eqn:Eu; [|apply nth_error_None in Eu; lia].
  assert (Q := F2_nth _ _ _ _ _ _ Hu E Eu). cbn beta in Q.
  apply rbind_Ok in Q. destruct Q as (x & Hx' & Q). apply dgetr_Ok in Hx'. rewrite Hx in Hx'. injection Hx' as <-. cbn [fst] in Q.
  apply rbind_Ok in Q. destruct Q as (b & Hb & Q). apply at_Ok in Hb.
  apply rbind_Ok in Q. destruct Q as (ms & Hms & Q). apply dgetr_Ok in Hms.
  apply rbind_Ok in Q. destruct Q as (m & Hmm & Q). apply at_Ok in Hmm.
  apply pdiv_val in Q. destruct Q as (Q & Nz).
  exists b, (ml_size m). split; [exists od, ps; cbn [fst snd]; auto|]. split; [exists ms, m; cbn [fst snd]; split; [exists mem; auto|auto]|].
  split; [intros Z; apply Nz; now rewrite Z|]. unfold util. cbn [fst snd]. rewrite Di. rewrite (nth_error_nth _ _ _ Eu). exact Q.
Qed.

Lemma tile_bits_fun ci bits x b b' : tile_bits ci bits x b -> tile_bits ci bits x b' -> b = b'.
Proof. intros (od & ps & A & _ & B) (od' & ps' & A' & _ & B'). rewrite A in A'. injection A' as <- <-. congruence. Qed.
Lemma memory_size_fun ci x b b' : memory_size ci x b -> memory_size ci x b' -> b = b'.
Proof. intros (ms & m & (o & A1 & A2) & B & C) (ms' & m' & (o' & A1' & A2') & B' & C'). rewrite A1 in A1'. injection A1' as <-. rewrite A2 in A2'. injection A2' as <-. congruence. Qed.

Lemma utilization_bits ci bits ind op lv b s : NoDup (in_ops ci) -> individual ci bits = Ok ind -> In op (in_ops ci) ->
  tile_bits ci bits (op, lv) b -> memory_size ci (op, lv) s -> s <> 0%Z /\ (util ind (op, lv) * inject_Z s == inject_Z b)%Q.
Proof.
  intros N H Io Hb Hs. destruct (individual_spec _ _ _ N H) as (_ & P). destruct (P op Io) as (od & ps & us & Hm & _ & _ & Q).
  assert (Hlv : (lv < length ps)%nat). { destruct Hb as (od' & ps' & A & B & _). cbn [fst snd] in *. congruence. }
  destruct (Q lv Hlv) as (b' & s' & B' & S' & Nz & E). assert (b' = b) by (eapply tile_bits_fun; eassumption). assert (s' = s) by (eapply memory_size_fun; eassumption). subst.
  split; [exact Nz|]. rewrite E. field. intros Hz. apply Nz. unfold Qeq in Hz. cbn in Hz. lia.
Qed.

Lemma util_nonneg' ci bits ind : NoDup (in_ops ci) -> individual ci bits = Ok ind ->
  (forall x b, tile_bits ci bits x b -> (0 <= b)%Z) -> (forall x s, memory_size ci x s -> (0 <= s)%Z) -> forall x, (0 <= util ind x)%Q.
Proof.
  intros N H Pb Ps (op & lv). destruct (individual_spec _ _ _ N H) as (K & P).
  destruct (dget op ind) as [us|] eqn:D; [|unfold util; cbn [fst]; rewrite D; lra].
  assert (Io : In op (in_ops ci)) by (rewrite <- K; eapply dget_Some_key; exact D).
  destruct (P op Io) as (od & ps & us' & Hm & D' & L & Q). rewrite D in D'. injection D' as <-.
  destruct (Nat.lt_ge_cases lv (length ps)) as [Hlv|Hlv].
  - destruct (Q lv Hlv) as (b & s & B & S & Nz & ->). apply Pb in B. apply Ps in S. unfold Qdiv; apply Qmult_le_0_compat; [now apply inject_nonneg|apply Qinv_le_0_compat; now apply inject_nonneg].
  - unfold util. cbn [fst snd]. rewrite D, nth_overflow by lia. lra.
Qed.

(** A list of tiles with their bits *)
Lemma group_bits ci bits ind s l bs : NoDup (in_ops ci) -> individual ci bits = Ok ind ->
  (forall x, In x l -> In (fst x) (in_ops ci) /\ memory_size ci x s) -> Forall2 (tile_bits ci bits) l bs ->
  (qsum (map (util ind) l) * inject_Z s == inject_Z (zsum bs))%Q.
Proof.
  intros N H Hl F. induction F as [|x b l bs Hb F IH]; [reflexivity|]. cbn [map]. rewrite qsum_cons, zsum_cons, inject_Z_plus.
  destruct x as [op lv]. destruct (Hl (op, lv) (or_introl eq_refl)) as (Io & Hs). destruct (utilization_bits _ _ _ _ _ _ _ N H Io Hb Hs) as (_ & E).
  assert (E' := IH (fun y Hy => Hl y (or_intror Hy))). rewrite Qmult_plus_distr_l, E, E'. reflexivity.
Qed.

Lemma buffer_bits ci bits ind sh flags sh' g s bs gs : sharing_ok ci -> individual ci bits = Ok ind ->
  shared ci ind = Ok sh -> calc_double_buffer_flag ci ind sh = Ok (flags, sh') -> In g (in_sharing ci) ->
  (forall x b, tile_bits ci bits x b -> (0 <= b)%Z) -> (forall x s, memory_size ci x s -> (0 <= s)%Z) ->
  (forall x, In x (members ci g) -> In (fst x) (in_ops ci) /\ memory_size ci x s) ->
  Forall2 (tile_bits ci bits) (members ci g) bs -> Forall2 (tile_bits ci bits) (filter (granted flags) (members ci g)) gs -> gs <> [] ->
  (zsum bs + zsum gs <= s)%Z.
Proof.
  intros SO H Hs Hd Ig Pb Ps Hm Fb Fg Ne. assert (N := so_ops ci SO).
  destruct (buffer_group ci ind sh flags sh' g SO (util_nonneg' _ _ _ N H Pb Ps) Ig Hs Hd) as (A & _).
  assert (E : exists x, In x (filter (granted flags) (members ci g))).
  { destruct Fg as [|x y ? ? ? ?]; [congruence|]. exists x. now left. }
  destruct E as (x & Ix). assert (Ix' := proj1 (filter_In _ _ _) Ix). destruct Ix' as (Ix1 & Ix2).
  assert (A' := A (ex_intro _ x (conj Ix1 Ix2))).
  destruct (Hm x Ix1) as (_ & Sx). assert (S0 := Ps _ _ Sx).
  assert (B := group_bits _ _ _ s _ _ N H Hm Fb).
  assert (C := group_bits _ _ _ s _ _ N H (fun y Hy => Hm y (proj1 (proj1 (filter_In _ _ _) Hy))) Fg).
  assert (Q0 : (0 <= inject_Z s)%Q) by now apply inject_nonneg.
  assert (T : ((qsum (map (util ind) (members ci g)) + qsum (map (util ind) (filter (granted flags) (members ci g)))) * inject_Z s <= 1 * inject_Z s)%Q) by (apply Qmult_le_compat_r; assumption).
  rewrite Qmult_plus_distr_l, B, C, Qmult_1_l, <- inject_Z_plus in T. now rewrite <- Zle_Qle in T.
Qed.
