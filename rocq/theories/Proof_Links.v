(** Proofs about the operand links (C33). *)
From Verif Require Import Base Model_Links.

(** Two entries of a table use the same memory operand. *)
Lemma reverse_keys d : forall m, In m (keys (reverse_dict d)) <-> In m (values d).
Proof.
  unfold reverse_dict. intros m.
  assert (G : forall l (a : dict string string),
    In m (keys (fold_left (fun d kv => dset (snd kv) (fst kv) d) l a)) <-> In m (keys a) \/ In m (values l)).
  { induction l as [|[k v] l IH]; intros a; cbn [fold_left fst snd].
    - cbn. tauto.
    - rewrite IH, In_keys_dset. cbn. intuition congruence. }
  rewrite G. cbn. tauto.
Qed.

Lemma reverse_snoc d k v : reverse_dict (d ++ [(k, v)])%list = dset v k (reverse_dict d).
Proof. unfold reverse_dict. rewrite fold_left_app. reflexivity. Qed.

Lemma reverse_len d : (length (reverse_dict d) <= length d)%nat.
Proof.
  induction d as [|[k v] d IH] using rev_ind; [reflexivity|]. rewrite reverse_snoc, app_length. cbn [length].
  assert (L : forall (x : dict string string), (length (dset v k x) <= S (length x))%nat).
  { intros x. rewrite <- !(map_length fst). fold (keys (dset v k x)). fold (keys x).
    destruct (in_dec string_dec v (keys x)) as [H|H].
    - rewrite keys_dset_in by assumption. lia.
    - rewrite keys_dset_notin by assumption. rewrite app_length. cbn. lia. }
  specialize (L (reverse_dict d)). lia.
Qed.

Lemma reverse_nodup d : NoDup (values d) -> reverse_dict d = map (fun kv => (snd kv, fst kv)) d.
Proof.
  induction d as [|[k v] d IH] using rev_ind; [reflexivity|]. intros N. rewrite reverse_snoc, map_app.
  unfold values in N. rewrite map_app in N. cbn in N.
  assert (N1 := NoDup_remove_1 _ _ _ N). assert (N2 := NoDup_remove_2 _ _ _ N). rewrite app_nil_r in N1, N2.
  rewrite IH by assumption. clear - N2. induction d as [|[k' v'] d IH]; [reflexivity|]. cbn [map fst snd app dset].
  cbn in N2. destruct (eqb_spec v v') as [E|E]; [exfalso; apply N2; left; now subst|]. rewrite IH; [reflexivity|tauto].
Qed.

Lemma reverse_length_nodup d : length (reverse_dict d) = length d -> NoDup (values d).
Proof.
  induction d as [|[k v] d IH] using rev_ind; [constructor|]. rewrite reverse_snoc, app_length. cbn [length]. intros H.
  assert (L := reverse_len d).
  assert (K : length (dset v k (reverse_dict d)) = length (keys (dset v k (reverse_dict d)))) by (unfold keys; now rewrite map_length).
  destruct (in_dec string_dec v (keys (reverse_dict d))) as [I|I].
  - rewrite keys_dset_in in K by assumption. unfold keys in K. rewrite map_length in K. lia.
  - rewrite keys_dset_notin in K by assumption. unfold keys in K. rewrite app_length, map_length in K. cbn in K.
    unfold values. rewrite map_app. apply NoDup_app_intro; [apply IH; lia|repeat constructor; intros []|].
    intros x Hx [E|[]]. subst x. apply I. now apply reverse_keys.
Qed.

Lemma dget_swap (d : dict string string) : NoDup (keys d) -> NoDup (values d) ->
  forall m op, dget m (map (fun kv => (snd kv, fst kv)) d) = Some op <-> dget op d = Some m.
Proof.
  induction d as [|[k v] d IH]; intros N1 N2 m op; [cbn; split; discriminate|].
  cbn in N1, N2. apply NoDup_cons_iff in N1, N2. destruct N1 as [K1 N1], N2 as [K2 N2].
  cbn [map fst snd dget]. destruct (eqb_spec m v) as [E|E]; destruct (eqb_spec op k) as [E'|E'].
  - subst. split; reflexivity.
  - subst m. split; [intros H; congruence|]. intros H. exfalso. apply K2. change (In v (values d)).
    apply dget_In in H. unfold values. apply in_map_iff. now exists (op, v).
  - subst op. split; [|intros H; congruence]. intros H. apply (IH N1 N2) in H. apply dget_Some_key in H. now elim K1.
  - now apply IH.
Qed.

Lemma links_ok data : NoDup (keys data) ->
  (exists l, make_links data = Ok l) <-> NoDup (values data).
Proof.
  intros _. unfold make_links. destruct (Nat.eqb_spec (length (reverse_dict data)) (length data)) as [E|E].
  - split; [intros _; now apply reverse_length_nodup|eexists; reflexivity].
  - split; [intros [l H]; discriminate|]. intros N. elim E. rewrite reverse_nodup by assumption. now rewrite map_length.
Qed.

Lemma links_fail data : NoDup (keys data) ->
  make_links data = Err AssertionError <->
  exists op1 op2 m, op1 <> op2 /\ dget op1 data = Some m /\ dget op2 data = Some m.
Proof.
  intros K. transitivity (~ NoDup (values data)).
  - rewrite <- (links_ok _ K). unfold make_links. destruct (Nat.eqb _ _).
    + split; [discriminate|intros H; elim H; eexists; reflexivity].
    + split; [intros _ [l H]; discriminate|reflexivity].
  - split.
    + intros N. clear - N K. induction data as [|[k v] d IH]; [elim N; constructor|].
      cbn in K. apply NoDup_cons_iff in K. destruct K as [K1 K].
      destruct (in_dec string_dec v (values d)) as [I|I].
      * unfold values in I. apply in_map_iff in I. destruct I as [[k' v'] [Hv I]]. cbn in Hv. subst v'.
        exists k, k', v. assert (D : k <> k').
        { intros E. subst k'. apply K1. apply in_map_iff. now exists (k, v). }
        split; [assumption|]. cbn [dget]. rewrite eqb_refl. split; [reflexivity|].
        rewrite (eqb_neq _ _ (not_eq_sym D)). now apply In_dget.
      * destruct IH as (o1 & o2 & m & D & H1 & H2); [assumption|intros N'; apply N; now constructor|].
        exists o1, o2, m. split; [assumption|]. cbn [dget].
        assert (F : forall o, dget o d = Some m -> eqb o k = false).
        { intros o H. apply eqb_neq. intros ->. apply K1. now apply dget_Some_key in H. }
        now rewrite (F _ H1), (F _ H2).
    + intros (o1 & o2 & m & D & H1 & H2) N. apply D.
      apply (dget_swap _ K N) in H1, H2. congruence.
Qed.

Lemma links_inverse data l : NoDup (keys data) -> make_links data = Ok l ->
  forall op m, layer_to_mem_op l op = Ok m <-> mem_to_layer_op l m = Ok op.
Proof.
  intros K H op m. assert (N : NoDup (values data)) by (apply links_ok; eauto).
  unfold make_links in H. destruct (Nat.eqb _ _); [|discriminate]. injection H as <-.
  unfold layer_to_mem_op, mem_to_layer_op, dgetr. cbn [lk_data lk_reverse].
  rewrite reverse_nodup by assumption. assert (S := dget_swap _ K N m op).
  destruct (dget m _) as [x|], (dget op data) as [y|]; cbn; split; intros E;
    try discriminate; injection E as ->; destruct S as [S1 S2];
    try (specialize (S1 eq_refl); congruence); specialize (S2 eq_refl); congruence.
Qed.

Lemma links_table data l : make_links data = Ok l -> forall op m, layer_to_mem_op l op = Ok m <-> dget op data = Some m.
Proof.
  unfold make_links. destruct (Nat.eqb _ _); [|discriminate]. intros E. injection E as <-. intros op m.
  unfold layer_to_mem_op, dgetr. cbn. destruct (dget op data); cbn; split; congruence.
Qed.

Lemma links_contains data l : NoDup (keys data) -> make_links data = Ok l ->
  (forall op, contains_layer_op l op = true <-> exists m, layer_to_mem_op l op = Ok m) /\
  (forall m, contains_mem_op l m = true <-> exists op, mem_to_layer_op l m = Ok op).
Proof.
  intros K H. assert (T := links_table _ _ H). assert (I := links_inverse _ _ K H).
  assert (D : lk_data l = data) by (unfold make_links in H; destruct (Nat.eqb _ _); [injection H as <-; reflexivity|discriminate]).
  split.
  - intros op. unfold contains_layer_op. rewrite D, memb_In. split.
    + intros X. apply key_dget in X. destruct X as [m X]. exists m. now apply T.
    + intros [m X]. apply T in X. now apply dget_Some_key in X.
  - intros m. unfold contains_mem_op. rewrite D, memb_In. split.
    + intros X. unfold values in X. apply in_map_iff in X. destruct X as [[op m'] [Em X]]. cbn in Em. subst m'.
      exists op. apply I, T. now apply In_dget.
    + intros [op X]. apply I, T in X. apply dget_In in X. unfold values. apply in_map_iff. now exists (op, m).
Qed.
