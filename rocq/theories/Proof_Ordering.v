(** Proofs about the temporal orderings that a user gives (C34, C35). *)
From Verif Require Import Base Model_Perm Model_Layer Spec_Loma Spec_Perm Spec_Layer Proof_PermProps Proof_Window.
Open Scope string_scope.
Open Scope list_scope.
Open Scope Z_scope.

(** * C34 *)

Definition multiply (acc : dict string Z) (l : string * Z) : dict string Z :=
  dset (fst l) (size_or_1 (fst l) acc * snd l) acc.

Lemma all_loops_given loops : forall acc,
  all_loops (map (fun l => (fst l, Some (snd l))) loops) acc = Some (fold_left multiply loops acc).
Proof. induction loops as [|[d n] l IH]; intros acc; cbn [map all_loops fold_left fst snd]; [reflexivity|]. apply IH. Qed.

Lemma all_loops_open o : (exists d, In (d, None) o) -> forall acc, all_loops o acc = None.
Proof.
  intros (d & Hd). induction o as [|[d' [n|]] o IH]; intros acc; [destruct Hd| |reflexivity].
  cbn. apply IH. destruct Hd as [E|Hd]; [discriminate|exact Hd].
Qed.

Lemma size_multiply k acc l :
  size_or_1 k (multiply acc l) = size_or_1 k acc * (if eqb (fst l) k then snd l else 1).
Proof.
  unfold multiply. destruct (eqb_spec (fst l) k) as [E|N].
  - subst k. unfold size_or_1 at 1. rewrite dget_dset_eq. reflexivity.
  - unfold size_or_1 at 1. rewrite dget_dset_neq by congruence. fold (size_or_1 k acc). lia.
Qed.

Lemma size_fold k loops : forall acc,
  size_or_1 k (fold_left multiply loops acc) = size_or_1 k acc * loop_product k loops.
Proof.
  induction loops as [|l loops IH]; intros acc; cbn [fold_left].
  - unfold loop_product. cbn. lia.
  - rewrite IH, size_multiply. unfold loop_product. cbn [filter].
    destruct (eqb (fst l) k); cbn [map zprod]; [|lia].
    unfold zprod. cbn. fold (zprod (map snd (filter (fun x => eqb (fst x) k) loops))). lia.
Qed.

Lemma keys_fold k loops : forall acc,
  In k (keys (fold_left multiply loops acc)) <-> In k (keys acc) \/ In k (map fst loops).
Proof.
  induction loops as [|l loops IH]; intros acc; cbn [fold_left map]; [cbn; tauto|].
  rewrite IH. unfold multiply. rewrite In_keys_dset. cbn. intuition congruence.
Qed.

Lemma nodup_fold loops : forall acc, NoDup (keys acc) -> NoDup (keys (fold_left multiply loops acc)).
Proof.
  induction loops as [|l loops IH]; intros acc H; cbn [fold_left]; [exact H|].
  apply IH. unfold multiply. now apply NoDup_dset.
Qed.

Lemma dict_eqb_spec a b : NoDup (keys a) -> NoDup (keys b) ->
  (dict_eqb a b = true <-> forall k, dget k a = dget k b).
Proof.
  intros Na Nb. unfold dict_eqb. rewrite andb_true_iff, Nat.eqb_eq, forallb_forall. split.
  - intros [L F] k.
    assert (Inc : incl (keys a) (keys b)).
    { intros x Hx. apply in_map_iff in Hx. destruct Hx as ([x' v] & E & Hx). cbn in E. subst x'.
      specialize (F _ Hx). cbn [fst snd] in F. destruct (dget x b) eqn:E; [|discriminate]. eapply dget_Some_key; eassumption. }
    assert (Inc' : incl (keys b) (keys a)).
    { apply NoDup_length_incl; [exact Na| |exact Inc]. unfold keys. rewrite !map_length. lia. }
    destruct (dget k a) as [v|] eqn:Ea.
    + apply dget_In in Ea. specialize (F _ Ea). cbn [fst snd] in F. destruct (dget k b) as [w|]; [|discriminate].
      f_equal. lia.
    + symmetry. apply dget_None. intros Hk. apply dget_None in Ea. apply Ea, Inc', Hk.
  - intros H. split.
    + assert (P : forall x, In x (keys a) <-> In x (keys b)).
      { intros x. split; intros Hx; apply key_dget in Hx; destruct Hx as (v & Ev); eapply dget_Some_key;
        [rewrite <- H|rewrite H]; exact Ev. }
      assert (L : length (keys a) = length (keys b)).
      { apply Nat.le_antisymm; apply NoDup_incl_length; try assumption; intros x Hx; now apply P. }
      unfold keys in L. now rewrite !map_length in L.
    + intros [k v] Hk. cbn [fst snd]. rewrite <- H, (In_dget k v a Na Hk). apply Z.eqb_refl.
Qed.

Lemma complete_spec o required : NoDup (keys required) -> (forall d n, In (d, n) required -> n <> 1) ->
  ((exists d, In (d, None) o) -> is_complete o required = Ok false) /\
  (forall loops, all_given o loops ->
     ((exists d, In d (map fst loops) /\ loop_product d loops = 1) ->
        is_complete o required = Err RuntimeError) /\
     ((forall d, In d (map fst loops) -> loop_product d loops <> 1) ->
        exists b, is_complete o required = Ok b /\
          (b = true <-> forall d, loop_product d loops = size_or_1 d required))).
Proof.
  intros Nr N1. split.
  - intros H. unfold is_complete. now rewrite all_loops_open.
  - intros loops E. unfold is_complete. unfold all_given in E. subst o. rewrite all_loops_given.
    set (t := fold_left multiply loops []).
    assert (Nt : NoDup (keys t)) by (apply nodup_fold; constructor).
    assert (St : forall k, size_or_1 k t = loop_product k loops).
    { intros k. unfold t. rewrite size_fold. change (size_or_1 k []) with 1. lia. }
    assert (Kt : forall k, In k (keys t) <-> In k (map fst loops)).
    { intros k. unfold t. rewrite keys_fold. cbn. tauto. }
    assert (Vt : forall k v, In (k, v) t -> v = loop_product k loops).
    { intros k v H. rewrite <- St. unfold size_or_1. now rewrite (In_dget k v t Nt H). }
    split.
    + intros (d & Hd & E). replace (existsb (fun kv => snd kv =? 1) t) with true; [reflexivity|].
      symmetry. apply existsb_exists. apply Kt, key_dget in Hd. destruct Hd as (v & Hv). apply dget_In in Hv.
      exists (d, v). split; [exact Hv|]. cbn. rewrite (Vt d v Hv), E. reflexivity.
    + intros H.
      assert (X : existsb (fun kv => snd kv =? 1) t = false).
      { apply not_true_is_false. intros X. apply existsb_exists in X. destruct X as ([k v] & Hk & Ev). cbn in Ev.
        apply (H k); [apply Kt; change k with (fst (k, v)); now apply List.in_map|].
        rewrite <- (Vt k v Hk). lia. }
      rewrite X. eexists. split; [reflexivity|]. rewrite dict_eqb_spec by assumption. split.
      * intros G d. rewrite <- St. unfold size_or_1. now rewrite G.
      * intros G k. specialize (G k). rewrite <- St in G. unfold size_or_1 in G.
        destruct (dget k t) as [v|] eqn:Ev, (dget k required) as [w|] eqn:Ew; [congruence| | |reflexivity].
        -- exfalso. apply (H k); [apply Kt; eapply dget_Some_key; eassumption|].
           rewrite <- St. unfold size_or_1. rewrite Ev. exact G.
        -- exfalso. apply dget_In in Ew. apply (N1 k w Ew). congruence.
Qed.

(** * C35 *)

Lemma combine_seq_snoc' {A} (l : list A) x k :
  combine (seq k (length (l ++ [x]))) (l ++ [x]) = combine (seq k (length l)) l ++ [((k + length l)%nat, x)].
Proof.
  revert k. induction l as [|y l IH]; intros k; cbn; [now rewrite Nat.add_0_r|].
  rewrite IH. now rewrite Nat.add_succ_r.
Qed.

Definition is_wildb (e : string * option Z) : bool :=
  match snd e with None => eqb (fst e) wildcard | Some _ => false end.
Lemma is_wildb_spec e : is_wildb e = true <-> is_wild e.
Proof.
  destruct e as [d [n|]]; unfold is_wildb, is_wild; cbn [fst snd]; split; intros H; try discriminate.
  - destruct (eqb_spec d wildcard); [subst; reflexivity|discriminate].
  - injection H as ->. reflexivity.
Qed.

(** Position of entry [i] of an ordering of [len] entries. *)
Definition posn (len : Z) (o : ordering) (i : nat) : Z :=
  if existsb is_wildb (firstn i o) then Z.of_nat i - len else Z.of_nat i.

Lemma constraints_inv len : forall o, Z.of_nat (length o) <= len ->
  let st := fold_left (constraints_step len) (combine (seq 0 (length o)) o) (false, [], []) in
  fst (fst st) = existsb is_wildb o /\
  (forall pos d, In (pos, d) (snd (fst st)) <->
     exists i, nth_error o i = Some (d, None) /\ d <> wildcard /\ pos = posn len o i) /\
  (forall pos d n, In (pos, (d, n)) (snd st) <->
     exists i, nth_error o i = Some (d, Some n) /\ pos = posn len o i).
Proof.
  intros o. induction o as [|[d f] o IH] using rev_ind; intros L.
  - cbn. repeat split; try tauto; intros [[|i] H]; cbn in H; intuition discriminate.
  - cbn zeta. rewrite combine_seq_snoc', fold_left_app. cbn [fold_left].
    rewrite app_length in L. cbn [length] in L.
    specialize (IH ltac:(lia)). cbn zeta in IH.
    destruct (fold_left (constraints_step len) (combine (seq 0 (length o)) o) (false, [], [])) as [[b ps] qs].
    cbn [fst snd] in IH. destruct IH as (Hb & Hp & Hq).
    unfold constraints_step. cbn [Nat.add].
    set (pos0 := if b then Z.of_nat (length o) - len else Z.of_nat (length o)).
    assert (P0 : pos0 = posn len (o ++ [(d, f)]) (length o)).
    { unfold posn, pos0. rewrite firstn_app, firstn_all, Nat.sub_diag, firstn_O, app_nil_r, Hb. reflexivity. }
    assert (Pi : forall i, (i < length o)%nat -> posn len (o ++ [(d, f)]) i = posn len o i).
    { intros i Hi. unfold posn. rewrite firstn_app. replace (i - length o)%nat with O by lia.
      now rewrite firstn_O, app_nil_r. }
    assert (Fresh : forall i, (i < length o)%nat -> posn len o i <> pos0).
    { intros i Hi. unfold posn, pos0. rewrite Hb.
      destruct (existsb is_wildb (firstn i o)) eqn:E1.
      - replace (existsb is_wildb o) with true; [lia|]. symmetry.
        rewrite <- (firstn_skipn i o), existsb_app, E1. reflexivity.
      - destruct (existsb is_wildb o); lia. }
    assert (Lt : forall i e, nth_error o i = Some e -> (i < length o)%nat).
    { intros i e He. apply nth_error_Some. congruence. }
    assert (Fp : ~ In pos0 (keys ps)).
    { intros H. apply in_map_iff in H. destruct H as ([p x] & E & H). cbn in E. subst p.
      apply Hp in H. destruct H as (i & Hi & _ & E). apply (Fresh i); [eapply Lt; eassumption|now symmetry]. }
    assert (Fq : ~ In pos0 (keys qs)).
    { intros H. apply in_map_iff in H. destruct H as ([p [x n]] & E & H). cbn in E. subst p.
      apply Hq in H. destruct H as (i & Hi & E). apply (Fresh i); [eapply Lt; eassumption|now symmetry]. }
    assert (Nth : forall i e, nth_error (o ++ [(d, f)]) i = Some e <->
       nth_error o i = Some e \/ (i = length o /\ e = (d, f))).
    { intros i e. destruct (Nat.lt_ge_cases i (length o)) as [Hi|Hi].
      - rewrite nth_error_app1 by exact Hi. intuition lia.
      - rewrite nth_error_app2 by exact Hi.
        assert (N : nth_error o i = None) by (now apply nth_error_None).
        rewrite N. destruct (i - length o)%nat as [|k] eqn:K; cbn.
        + split; [intros E; right; split; [lia|congruence]|intros [E|[_ E]]; [discriminate|now rewrite E]].
        + split; [intros E; destruct k; discriminate|intros [E|[E _]]; [discriminate|lia]]. }
    rewrite existsb_app. cbn [existsb]. rewrite orb_false_r.
    assert (Dp : forall pos x, In (pos, x) (dset pos0 d ps) <-> In (pos, x) ps \/ (pos = pos0 /\ x = d)).
    { intros pos x. rewrite dset_fresh by exact Fp. rewrite in_app_iff. cbn. intuition congruence. }
    assert (Dq : forall pos x n, In (pos, x) (dset pos0 (d, n) qs) <-> In (pos, x) qs \/ (pos = pos0 /\ x = (d, n))).
    { intros pos x n. rewrite dset_fresh by exact Fq. rewrite in_app_iff. cbn. intuition congruence. }
    assert (Op : forall pos x, (exists i, nth_error o i = Some (x, None) /\ x <> wildcard /\ pos = posn len o i) <->
        (exists i, nth_error o i = Some (x, None) /\ x <> wildcard /\ pos = posn len (o ++ [(d, f)]) i)).
    { intros pos x. split; intros (i & A & B & C); exists i; rewrite Pi in * by (eapply Lt; eassumption); auto. }
    assert (Oq : forall pos x n, (exists i, nth_error o i = Some (x, Some n) /\ pos = posn len o i) <->
        (exists i, nth_error o i = Some (x, Some n) /\ pos = posn len (o ++ [(d, f)]) i)).
    { intros pos x n. split; intros (i & A & C); exists i; rewrite Pi in * by (eapply Lt; eassumption); auto. }
    destruct f as [n|].
    + cbn [fst snd]. split; [|split].
      * rewrite Hb. unfold is_wildb at 3. cbn. now rewrite orb_false_r.
      * intros pos x. rewrite Hp, Op. split; intros (i & A & B & C); exists i.
        -- split; [apply Nth; now left|auto].
        -- apply Nth in A. destruct A as [A|[_ A]]; [auto|discriminate].
      * intros pos x m. rewrite Dq, Hq, Oq. split.
        -- intros [(i & A & C)|[E1 E2]].
           ++ exists i. split; [apply Nth; now left|exact C].
           ++ injection E2 as <- <-. exists (length o). split; [apply Nth; now right|congruence].
        -- intros (i & A & C). apply Nth in A. destruct A as [A|[A1 A2]].
           ++ left. now exists i.
           ++ right. injection A2 as <- <-. split; [congruence|reflexivity].
    + unfold is_wildb at 2. cbn [snd fst]. destruct (eqb_spec d wildcard) as [Ew|Nw].
      * cbn [fst snd]. split; [|split].
        -- now rewrite orb_true_r.
        -- intros pos x. rewrite Hp, Op. split; intros (i & A & B & C); exists i.
           ++ split; [apply Nth; now left|auto].
           ++ apply Nth in A. destruct A as [A|[_ A]]; [auto|]. injection A as ->. congruence.
        -- intros pos x m. rewrite Hq, Oq. split; intros (i & A & C); exists i.
           ++ split; [apply Nth; now left|auto].
           ++ apply Nth in A. destruct A as [A|[_ A]]; [auto|discriminate].
      * cbn [fst snd]. split; [|split].
        -- now rewrite orb_false_r.
        -- intros pos x. rewrite Dp, Hp, Op. split.
           ++ intros [(i & A & B & C)|[E1 E2]].
              ** exists i. split; [apply Nth; now left|auto].
              ** subst x. exists (length o). split; [apply Nth; now right|split; [exact Nw|congruence]].
           ++ intros (i & A & B & C). apply Nth in A. destruct A as [A|[A1 A2]].
              ** left. now exists i.
              ** right. injection A2 as <-. split; [congruence|reflexivity].
        -- intros pos x m. rewrite Hq, Oq. split; intros (i & A & C); exists i.
           ++ split; [apply Nth; now left|auto].
           ++ apply Nth in A. destruct A as [A|[_ A]]; [auto|discriminate].
Qed.

Lemma before_wild_spec o i e : nth_error o i = Some e -> ~ is_wild e ->
  (before_wild o i <-> existsb is_wildb (firstn i o) = false).
Proof.
  intros He Ne. split.
  - intros H. apply not_true_is_false. intros X. apply existsb_exists in X. destruct X as (y & Hy & W).
    apply is_wildb_spec in W. apply In_nth_error in Hy. destruct Hy as (j & Hj).
    assert (Lj : (j < i)%nat).
    { assert (j < length (firstn i o))%nat by (apply nth_error_Some; congruence). rewrite firstn_length in H0. lia. }
    apply (H j y); [lia| |exact W].
    rewrite <- (firstn_skipn i o), nth_error_app1; [exact Hj|]. apply nth_error_Some. congruence.
  - intros X j y Lj Hj W. destruct (Nat.eq_dec j i) as [->|Nj]; [congruence|].
    apply is_wildb_spec in W.
    assert (existsb is_wildb (firstn i o) = true); [|congruence].
    apply existsb_exists. exists y. split; [|exact W].
    apply (nth_error_In _ j). assert (Li : (i < length o)%nat) by (apply nth_error_Some; congruence).
    rewrite <- (firstn_skipn i o), nth_error_app1 in Hj; [exact Hj|]. rewrite firstn_length. lia.
Qed.

(** The element at the position of entry [i], from the inside or from the outside. *)
Lemma at_position (o : ordering) (p : list (string * Z)) i e : nth_error o i = Some e -> ~ is_wild e ->
  (length o <= length p)%nat -> forall x,
  (element_at p (posn (Z.of_nat (length o)) o i) = Some x <->
   (before_wild o i -> nth_error p i = Some x) /\
   (~ before_wild o i -> nth_error (rev p) (length o - 1 - i) = Some x)).
Proof.
  intros He Ne L x. pose proof (before_wild_spec o i e He Ne) as B.
  assert (Li : (i < length o)%nat) by (apply nth_error_Some; congruence).
  unfold posn. destruct (existsb is_wildb (firstn i o)) eqn:X.
  - assert (NB : ~ before_wild o i) by (rewrite B; discriminate).
    assert (R : nth_error (rev p) (length o - 1 - i) = element_at p (Z.of_nat i - Z.of_nat (length o))).
    { unfold element_at. destruct (Z.leb_spec 0 (Z.of_nat i - Z.of_nat (length o))); [lia|].
      destruct (Z.leb_spec (- (Z.of_nat i - Z.of_nat (length o))) (Z.of_nat (length p))); [|lia].
      replace (Z.to_nat (Z.of_nat (length p) + (Z.of_nat i - Z.of_nat (length o))))
        with (length p - S (length o - 1 - i))%nat by lia.
      assert (Lj : (length o - 1 - i < length p)%nat) by lia. revert Lj.
      generalize (length o - 1 - i)%nat. intros j Lj. clear -Lj.
      destruct (nth_error p (length p - S j)) as [y|] eqn:E.
      - rewrite (nth_error_nth' (rev p) y) by (now rewrite rev_length).
        f_equal. rewrite rev_nth by exact Lj. now apply nth_error_nth.
      - apply nth_error_None in E. lia. }
    rewrite R. tauto.
  - assert (BW : before_wild o i) by (now apply B).
    unfold element_at. destruct (Z.leb_spec 0 (Z.of_nat i)); [|lia]. rewrite Nat2Z.id. tauto.
Qed.

Lemma posn_in (o : ordering) n i : (i < length o)%nat -> (length o <= n)%nat ->
  position_in n (posn (Z.of_nat (length o)) o i).
Proof. intros A B. unfold posn, position_in. destruct (existsb is_wildb (firstn i o)); lia. Qed.

Lemma constraints_spec o : let '(ps, qs) := get_constraints o in
  (forall pos d, In (pos, d) ps <->
     exists i, nth_error o i = Some (d, None) /\ d <> wildcard /\ pos = posn (Z.of_nat (length o)) o i) /\
  (forall pos d n, In (pos, (d, n)) qs <->
     exists i, nth_error o i = Some (d, Some n) /\ pos = posn (Z.of_nat (length o)) o i).
Proof.
  unfold get_constraints. pose proof (constraints_inv (Z.of_nat (length o)) o (Z.le_refl _)) as H.
  cbn zeta in H. destruct (fold_left _ _ _) as [[b ps] qs]. cbn in H. tauto.
Qed.

Lemma pins_meet o p : (length o <= length p)%nat ->
  let '(ps, qs) := get_constraints o in
  ((forall pos d, In (pos, d) ps -> dim_at p pos d) /\
   (forall pos d s, In (pos, (d, s)) qs -> loop_at p pos d s)) <-> meets o p.
Proof.
  intros L. pose proof (constraints_spec o) as C. destruct (get_constraints o) as [ps qs].
  destruct C as [Cp Cq]. split.
  - intros [A B] i [d [n|]] Hi Ne.
    + exists (d, n). split; [split; [reflexivity|intros m E; cbn in *; congruence]|].
      apply (at_position o p i _ Hi Ne L). apply B. apply Cq. exists i. auto.
    + assert (Nd : d <> wildcard) by (intros ->; apply Ne; reflexivity).
      destruct (A (posn (Z.of_nat (length o)) o i) d) as (s & Es); [apply Cp; exists i; auto|].
      exists (d, s). split; [split; [reflexivity|intros m E; discriminate]|].
      now apply (at_position o p i _ Hi Ne L).
  - intros M. split.
    + intros pos d H. apply Cp in H. destruct H as (i & Hi & Nd & ->).
      assert (Ne : ~ is_wild (d, None)) by (unfold is_wild; intros E; injection E as E; now apply Nd).
      destruct (M i _ Hi Ne) as (x & [F1 _] & F2).
      apply (at_position o p i _ Hi Ne L) in F2. exists (snd x). rewrite F2. destruct x. cbn in *. congruence.
    + intros pos d s H. apply Cq in H. destruct H as (i & Hi & ->).
      assert (Ne : ~ is_wild (d, Some s)) by (unfold is_wild; discriminate).
      destruct (M i _ Hi Ne) as (x & [F1 F3] & F2).
      apply (at_position o p i _ Hi Ne L) in F2. unfold loop_at. rewrite F2. destruct x. cbn in *.
      rewrite (F3 s eq_refl). congruence.
Qed.

Lemma constraints_generate (o : ordering) (E : list (string * Z)) : E <> [] ->
  (length o <= length E)%nat ->
  let '(ps, qs) := get_constraints o in
  exists V keep,
    (forall fuel, (length V <= fuel)%nat ->
       constrained_permutations loop_ltb fuel E [positions_valid ps; positions_sizes_valid qs]
       = Ok (filter keep V)) /\
    (forall p, In p V <-> Permutation p E) /\
    (forall p, In p V -> (keep p = true <-> meets o p)).
Proof.
  intros HE L. pose proof (constraints_spec o) as C.
  pose proof (fun p => pins_meet o p) as M.
  destruct (get_constraints o) as [ps qs]. destruct C as [Cp Cq].
  destruct (constrained_ok E ps qs HE) as (V & keep & _ & H2 & H3 & H4).
  - intros pos d H. apply Cp in H. destruct H as (i & Hi & _ & ->). apply posn_in; [apply nth_error_Some; congruence|exact L].
  - intros pos d s H. apply Cq in H. destruct H as (i & Hi & ->). apply posn_in; [apply nth_error_Some; congruence|exact L].
  - exists V, keep. split; [exact H2|split; [exact H3|]]. intros p Hp. rewrite H4 by exact Hp.
    apply M. apply H3, Permutation_length in Hp. lia.
Qed.

(** Removing invalid dimensions. *)
Lemma remove_at_app {A} (a : list A) x b : remove_at (length a) (a ++ x :: b) = a ++ b.
Proof. induction a; cbn; [reflexivity|]. now rewrite IHa. Qed.

Lemma remove_invalid_spec dims o :
  remove_invalid_layer_dims dims o = filter (fun e => memb (fst e) dims) o.
Proof.
  unfold remove_invalid_layer_dims.
  assert (G : forall (l t : ordering), fold_left (fun data (ie : nat * (string * option Z)) => if memb (fst (snd ie)) dims then data else remove_at (fst ie) data)
     (rev (combine (seq 0 (length l)) l)) (l ++ t) = filter (fun e => memb (fst e) dims) l ++ t).
  { intros l. induction l as [|e l IH] using rev_ind; intros t; [reflexivity|].
    rewrite combine_seq_snoc', rev_app_distr. cbn [rev app fold_left fst snd Nat.add].
    rewrite filter_app. cbn [filter]. destruct (memb (fst e) dims).
    - rewrite <- app_assoc, IH, <- app_assoc. reflexivity.
    - rewrite <- app_assoc. cbn [app]. rewrite remove_at_app, IH, app_nil_r. reflexivity. }
  specialize (G o []). rewrite !app_nil_r in G. exact G.
Qed.
