(** Gathering results of worker processes (C45). *)
From Verif Require Import Base Model_Gather Spec_Gather.

Section Proof.
  Context {X : Type}.
  Variables (jobs : nat) (outcome : nat -> result (list X)).
  Notation gstate := (gstate X).
  Notation step := (gstep jobs outcome).
  Notation run := (grun jobs outcome).

  Definition held (got qd : list nat) (s : gstate) : list nat := got ++ qd ++ gs_running s.

  Record ginv (got qd : list nat) (s : gstate) : Prop := {
    gi_yielded : results outcome got (gs_yielded s);
    gi_received : length got = gs_received s;
    gi_queue : Forall2 (fun j rs => outcome j = Ok rs) qd (gs_queue s);
    gi_nodup : NoDup (held got qd s);
    gi_below : forall j, In j (held got qd s) -> (j < gs_spawned s)%nat;
    gi_spawned : (gs_spawned s <= jobs)%nat;
    gi_full : gs_phase s <> Spawning -> gs_spawned s = jobs;
    gi_spawning : gs_phase s = Spawning -> gs_received s = 0%nat;
    gi_few : gs_phase s = Gathering -> (jobs / 10 = 0)%nat -> gs_received s = 0%nat;
    gi_failed : forall e, gs_phase s = Failed e -> e = ZeroDivisionError /\ (jobs / 10 = 0)%nat /\ gs_received s = 1%nat;
    gi_done : gs_phase s = Done -> gs_received s = jobs /\ ((1 <= jobs)%nat -> (jobs / 10 <> 0)%nat);
    gi_all : (forall j, (j < jobs)%nat -> exists rs, outcome j = Ok rs) -> forall j, (j < gs_spawned s)%nat -> In j (held got qd s) }.

  Lemma results_snoc js ys j rs : results outcome js ys -> outcome j = Ok rs -> results outcome (js ++ [j]) (ys ++ rs).
  Proof.
    intros R E. induction R as [|j' js rs' ys E' R IH]; cbn [app].
    - rewrite <- (app_nil_r rs). now apply results_cons; [|constructor].
    - rewrite <- app_assoc. now apply results_cons.
  Qed.

  Lemma start_inv : ginv [] [] start.
  Proof.
    constructor; cbn; try congruence; try lia.
    - constructor. - constructor. - constructor.
  Qed.

  Lemma nodup_filter_out (l : list nat) j : In j l -> NoDup l -> Permutation l (j :: filter (fun i => negb (eqb i j)) l).
  Proof.
    intros I N. apply NoDup_Permutation; [exact N| |].
    - constructor; [|now apply NoDup_filter]. intros Q. apply filter_In in Q. rewrite eqb_refl in Q. now destruct Q.
    - intros i. cbn [In]. rewrite filter_In. destruct (eqb_spec i j) as [E|E].
      + subst. split; [now left|trivial].
      + cbn [negb]. split; [auto|]. intros [Q|[Q _]]; [congruence|exact Q].
  Qed.

  Lemma held_finish got qd s j : memb j (gs_running s) = true -> NoDup (held got qd s) ->
    forall ph sp q rc y, Permutation (held got qd s) (held got (qd ++ [j]) (mkGstate X ph sp (filter (fun i => negb (eqb i j)) (gs_running s)) q rc y)).
  Proof.
    intros M N ph sp q rc y. apply memb_In in M. unfold held in *. cbn [gs_running]. rewrite <- (app_assoc qd). cbn [app].
    apply Permutation_app_head, Permutation_app_head. apply nodup_filter_out; [exact M|].
    clear -N. induction got as [|a l IH]; cbn in N; [|inversion N; auto]. induction qd as [|a l IH]; cbn in N; [exact N|inversion N; auto].
  Qed.

  Lemma step_inv got qd s ev s' : ginv got qd s -> step ev s = Some s' -> exists got' qd', ginv got' qd' s'.
  Proof.
    intros [Y Rc Qu Nd Be Sp Fu Sg Fe Fa Dn Al]. destruct ev as [|j|]; cbn [gstep].
    - destruct (gs_phase s) eqn:Ph; try discriminate. destruct (Nat.ltb_spec (gs_spawned s) jobs) as [L|L]; intros E; injection E as <-; exists got, qd.
      + assert (P : Permutation (gs_spawned s :: held got qd s) (got ++ qd ++ gs_running s ++ [gs_spawned s])).
        { unfold held. rewrite !app_assoc. rewrite <- Permutation_cons_append. reflexivity. }
        constructor; cbn; try congruence; try assumption; unfold held; cbn [gs_running].
        * eapply Permutation_NoDup; [exact P|]. constructor; [|exact Nd]. intros I. apply Be in I. lia.
        * intros i I. apply (Permutation_in _ (Permutation_sym P)) in I. destruct I as [<-|I]; [lia|]. apply Be in I. lia.
        * lia.
        * intros A i Li. apply (Permutation_in _ P). destruct (Nat.eq_dec i (gs_spawned s)) as [->|N]; [now left|right]. apply Al; [exact A|lia].
      + constructor; cbn; try congruence; try assumption. all: auto; lia.
    - destruct (memb j (gs_running s)) eqn:M; [|discriminate]. destruct (outcome j) as [rs|e] eqn:O; intros E; injection E as <-.
      + exists got, (qd ++ [j]).
        assert (P := held_finish got qd s j M Nd (gs_phase s) (gs_spawned s) (gs_queue s ++ [rs]) (gs_received s) (gs_yielded s)).
        constructor; cbn; try assumption.
        * apply Forall2_app; [exact Qu|]. now constructor.
        * eapply Permutation_NoDup; [exact P|exact Nd].
        * intros i I. apply Be. eapply Permutation_in; [apply Permutation_sym, P|exact I].
        * intros A i Li. eapply Permutation_in; [exact P|]. now apply Al.
      + exists got, qd. assert (Sub : forall i, In i (got ++ qd ++ []) -> In i (held got qd s)).
        { intros i I. unfold held. rewrite app_nil_r in I. rewrite app_assoc. apply in_or_app. now left. }
        constructor; cbn; try assumption; unfold held; cbn [gs_running].
        * unfold held in Nd. rewrite app_nil_r. rewrite app_assoc in Nd. clear -Nd. induction (got ++ qd) as [|a l IH]; [constructor|]. cbn in Nd. inversion Nd; subst.
          constructor; [|auto]. intros I. apply H1. apply in_or_app. now left.
        * intros i I. apply Be, Sub, I.
        * intros A i Li. exfalso. assert (Lj : (j < jobs)%nat).
          { apply memb_In in M. assert (j < gs_spawned s)%nat; [|lia]. apply Be. unfold held. rewrite app_assoc. apply in_or_app. now right. }
          destruct (A j Lj). congruence.
    - destruct (gs_phase s) eqn:Ph; try discriminate. destruct (Nat.ltb_spec (gs_received s) (gs_spawned s)) as [L|L].
      + destruct (gs_queue s) as [|rs q] eqn:Eq; [discriminate|]. assert (Ed : (gs_spawned s / 10 = jobs / 10)%nat) by (rewrite Fu by congruence; reflexivity).
        generalize dependent (gs_spawned s / 10)%nat. intros d Ed E. injection E as <-.
        inversion Qu as [|j rs' qd' q' O Qu' E1 E2]; subst qd rs' q'. exists (got ++ [j]), qd'.
        assert (H : held (got ++ [j]) qd' s = held got (j :: qd') s) by (unfold held; rewrite <- app_assoc; reflexivity).
        assert (Sj : gs_spawned s = jobs) by (apply Fu; congruence).
        constructor; cbn [gs_phase gs_yielded gs_received gs_queue gs_spawned]; try assumption.
        * now apply results_snoc.
        * rewrite app_length. cbn. lia.
        * unfold held in *. cbn [gs_running] in *. now rewrite H.
        * intros i I. apply Be. unfold held in *. cbn [gs_running] in *. now rewrite <- H.
        * intros _. exact Sj.
        * destruct (Nat.eqb _ _); discriminate.
        * destruct (Nat.eqb_spec d 0); [discriminate|]. intros _ Q. congruence.
        * intros e. destruct (Nat.eqb_spec d 0) as [Z|Z]; [|discriminate]. rewrite Ed in Z. intros Q. injection Q as <-. split; [reflexivity|]. split; [exact Z|].
          rewrite (Fe eq_refl Z). reflexivity.
        * destruct (Nat.eqb _ _); discriminate.
        * intros A i Li. unfold held in *. cbn [gs_running]. rewrite H. now apply Al.
      + intros E. injection E as <-. exists got, qd.
        assert (Sj : gs_spawned s = jobs) by (apply Fu; congruence).
        assert (Le : (length got <= jobs)%nat).
        { rewrite <- (seq_length jobs 0). apply NoDup_incl_length.
          - unfold held in Nd. clear -Nd. induction got as [|a l IH]; [constructor|]. cbn in Nd. inversion Nd; subst. constructor; [|auto]. intros I. apply H1. apply in_or_app. now left.
          - intros i I. apply in_seq. assert (i < gs_spawned s)%nat; [|lia]. apply Be. unfold held. apply in_or_app. now left. }
        constructor; cbn; try congruence; try assumption.
        intros _. split; [lia|]. intros J Z. rewrite (Fe eq_refl Z) in *. lia.
  Qed.

  Lemma reach_inv s : reachable jobs outcome s -> exists got qd, ginv got qd s.
  Proof.
    intros (evs & R). assert (G : forall evs s0 got qd, ginv got qd s0 -> run evs s0 = Some s -> exists got qd, ginv got qd s).
    { clear evs R. induction evs as [|ev evs IH]; intros s0 got qd I R; cbn [grun] in R; [injection R as <-; eauto|].
      destruct (step ev s0) as [s1|] eqn:E; [|discriminate]. destruct (step_inv _ _ _ _ _ I E) as (g' & q' & I'). eauto. }
    exact (G evs start [] [] start_inv R).
  Qed.

  (** What is yielded is always the results of different jobs. *)
  Lemma never_twice s : reachable jobs outcome s -> exists js, NoDup js /\ (forall j, In j js -> (j < jobs)%nat) /\ results outcome js (gs_yielded s).
  Proof.
    intros R. destruct (reach_inv s R) as (got & qd & [Y _ _ Nd Be Sp _ _ _ _ _ _]). exists got. split; [|split; [|exact Y]].
    - unfold held in Nd. clear -Nd. induction got as [|a l IH]; [constructor|]. cbn in Nd. inversion Nd; subst. constructor; [|auto]. intros I. apply H1. apply in_or_app. now left.
    - intros j I. assert (j < gs_spawned s)%nat; [|lia]. apply Be. unfold held. apply in_or_app. now left.
  Qed.

  Lemma stuck_shape s : stuck jobs outcome s -> gs_phase s <> Spawning /\ gs_running s = [] /\ (gs_phase s = Gathering -> gs_queue s = [] /\ (gs_received s < gs_spawned s)%nat).
  Proof.
    intros St. split; [|split].
    - intros P. specialize (St Spawn). cbn [gstep] in St. rewrite P in St. destruct (Nat.ltb _ _); discriminate.
    - destruct (gs_running s) as [|j l] eqn:E; [reflexivity|]. specialize (St (Finish j)). cbn [gstep] in St. rewrite E in St.
      assert (M : memb j (j :: l) = true) by (apply memb_In; now left). rewrite M in St. destruct (outcome j); discriminate.
    - intros P. specialize (St Receive). cbn [gstep] in St. rewrite P in St. destruct (Nat.ltb_spec (gs_received s) (gs_spawned s)); [|discriminate].
      destruct (gs_queue s); [auto|discriminate].
  Qed.

  (** Every run ends. *)
  Definition weight (p : phase) : nat := match p with Spawning => 2 | Gathering => 1 | _ => 0 end.
  Definition measure (s : gstate) : nat := (3 * (jobs - gs_spawned s) + 2 * length (gs_running s) + length (gs_queue s) + weight (gs_phase s))%nat.
  Lemma filter_out_length (l : list nat) j : In j l -> (length (filter (fun i => negb (eqb i j)) l) < length l)%nat.
  Proof.
    assert (G : forall l : list nat, (length (filter (fun i => negb (eqb i j)) l) <= length l)%nat).
    { induction l0 as [|i l0 IH]; cbn [filter length]; [lia|]. destruct (negb (eqb i j)); cbn [length]; lia. }
    induction l as [|i l IH]; [intros []|]. intros [->|I]; cbn [filter].
    - rewrite eqb_refl. cbn [negb length]. specialize (G l). lia.
    - specialize (IH I). destruct (negb (eqb i j)); cbn [length]; lia.
  Qed.
  Lemma step_measure ev s s' : step ev s = Some s' -> (measure s' < measure s)%nat.
  Proof.
    unfold measure. destruct ev as [|j|]; cbn [gstep].
    - destruct (gs_phase s) eqn:P; try discriminate. destruct (Nat.ltb_spec (gs_spawned s) jobs); intros E; injection E as <-; cbn [gs_phase gs_spawned gs_running gs_queue weight];
        rewrite ?app_length; cbn [length]; lia.
    - destruct (memb j (gs_running s)) eqn:M; [|discriminate]. apply memb_In in M. assert (F := filter_out_length _ _ M). cbn [eqb EqB_nat] in F.
      destruct (outcome j); intros E; injection E as <-; cbn [gs_phase gs_spawned gs_running gs_queue]; rewrite ?app_length; cbn [length]; lia.
    - destruct (gs_phase s) eqn:P; try discriminate. destruct (Nat.ltb _ _).
      + destruct (gs_queue s) eqn:Q; [discriminate|]. intros E. injection E as <-. cbn [gs_phase gs_spawned gs_running gs_queue length].
        destruct (Nat.eqb _ _); cbn [weight]; lia.
      + intros E. injection E as <-. cbn [gs_phase gs_spawned gs_running gs_queue weight]. lia.
  Qed.
  Lemma run_ends evs s : run evs start = Some s -> (length evs <= 3 * jobs + 2)%nat.
  Proof.
    assert (G : forall evs s0, run evs s0 = Some s -> (length evs + measure s <= measure s0)%nat).
    { clear evs. induction evs as [|ev evs IH]; intros s0 R; cbn [grun] in R; [injection R as <-; cbn; lia|].
      destruct (step ev s0) as [s1|] eqn:E; [|discriminate]. apply step_measure in E. specialize (IH _ R). cbn [length]. lia. }
    intros R. specialize (G _ _ R). unfold measure in G at 2. cbn in G. lia.
  Qed.

  (** Ten jobs or more, or none, none of which fails *)
  Lemma gathers s : (forall j, (j < jobs)%nat -> exists rs, outcome j = Ok rs) -> (jobs = 0 \/ 10 <= jobs)%nat -> reachable jobs outcome s -> stuck jobs outcome s ->
    gs_phase s = Done /\ exists js, Permutation js (seq 0 jobs) /\ results outcome js (gs_yielded s).
  Proof.
    intros A N R St. destruct (reach_inv s R) as (got & qd & [Y Rc Qu Nd Be Sp Fu Sg Fe Fa Dn Al]). destruct (stuck_shape s St) as (P & Ru & Ga).
    specialize (Fu P). assert (Al' := Al A).
    assert (Pm : Permutation (got ++ qd) (seq 0 jobs)).
    { unfold held in *. rewrite Ru, app_nil_r in *. apply NoDup_Permutation; [exact Nd|apply seq_NoDup|]. intros i. rewrite in_seq. split; intros I; [apply Be in I; lia|apply Al'; lia]. }
    assert (L : (length got + length qd = jobs)%nat) by (rewrite <- app_length, (Permutation_length Pm); apply seq_length).
    destruct (gs_phase s) eqn:Ph.
    - congruence.
    - destruct (Ga eq_refl) as (Q & Lt). rewrite Q in Qu. inversion Qu; subst. cbn in L. lia.
    - split; [reflexivity|]. destruct (Dn eq_refl) as (D & _). exists got. split; [|exact Y]. destruct qd; [now rewrite app_nil_r in Pm|cbn in L; lia].
    - destruct (Fa e eq_refl) as (-> & Z & O). destruct N as [->|N].
      + rewrite O in Rc. lia.
      + assert (1 <= jobs / 10)%nat by (apply Nat.div_le_lower_bound; lia). lia.
  Qed.

  (** Fewer than ten *)
  Lemma few s : (1 <= jobs < 10)%nat -> reachable jobs outcome s ->
    gs_phase s <> Done /\
    (stuck jobs outcome s -> (forall j, (j < jobs)%nat -> exists rs, outcome j = Ok rs) ->
       gs_phase s = Failed ZeroDivisionError /\ exists j, (j < jobs)%nat /\ outcome j = Ok (gs_yielded s)).
  Proof.
    intros N R. assert (Z : (jobs / 10 = 0)%nat) by (apply Nat.div_small; lia).
    destruct (reach_inv s R) as (got & qd & [Y Rc Qu Nd Be Sp Fu Sg Fe Fa Dn Al]). split.
    - intros D. destruct (Dn D) as (_ & F). apply F; [lia|exact Z].
    - intros St A. destruct (stuck_shape s St) as (P & Ru & Ga). specialize (Fu P). assert (Al' := Al A).
      destruct (gs_phase s) eqn:Ph.
      + congruence.
      + exfalso. destruct (Ga eq_refl) as (Q & Lt). rewrite Q in Qu. inversion Qu; subst.
        assert (I := Al' 0%nat). unfold held in I. rewrite Ru in I. destruct got; [|cbn in Rc; rewrite (Fe eq_refl Z) in Rc; discriminate]. apply I. lia.
      + exfalso. destruct (Dn eq_refl) as (_ & F). apply F; [lia|exact Z].
      + destruct (Fa e eq_refl) as (-> & _ & O). split; [reflexivity|]. rewrite O in Rc. destruct got as [|j [|]]; try discriminate.
        inversion Y as [|j' js rs ys E R' ]; subst. inversion R'; subst. exists j. rewrite app_nil_r. split; [|exact E].
        assert (j < gs_spawned s)%nat; [|lia]. apply Be. now left.
  Qed.

  (** A job that fails *)
  Lemma hangs s j e : (j < jobs)%nat -> outcome j = Err e -> (10 <= jobs)%nat -> reachable jobs outcome s ->
    gs_phase s <> Done /\ (stuck jobs outcome s -> gs_phase s = Gathering /\ gs_queue s = [] /\ gs_running s = [] /\ (gs_received s < jobs)%nat).
  Proof.
    intros Lj O N R. assert (Z : (1 <= jobs / 10)%nat) by (apply Nat.div_le_lower_bound; lia).
    destruct (reach_inv s R) as (got & qd & [Y Rc Qu Nd Be Sp Fu Sg Fe Fa Dn Al]).
    assert (Nj : ~ In j got).
    { intros I. clear -Y I O. induction Y as [|j' js rs ys E Y IH]; [destruct I|]. destruct I as [->|I]; [congruence|auto]. }
    assert (Lt : (length got < jobs)%nat).
    { assert (length (j :: got) <= jobs)%nat; [|cbn in *; lia]. rewrite <- (seq_length jobs 0). apply NoDup_incl_length.
      - constructor; [exact Nj|]. unfold held in Nd. clear -Nd. induction got as [|a l IH]; [constructor|]. cbn in Nd. inversion Nd; subst. constructor; [|auto]. intros I. apply H1. apply in_or_app. now left.
      - intros i [<-|I]; apply in_seq; [lia|]. assert (i < gs_spawned s)%nat; [|lia]. apply Be. unfold held. apply in_or_app. now left. }
    assert (ND : gs_phase s <> Done) by (intros D; destruct (Dn D); lia). split; [exact ND|].
    intros St. destruct (stuck_shape s St) as (P & Ru & Ga). destruct (gs_phase s) eqn:Ph; try congruence.
    - destruct (Ga eq_refl). repeat split; try assumption. lia.
    - destruct (Fa _ eq_refl) as (_ & Z' & _). lia.
  Qed.

  (** Any order is possible. *)
  Lemma run_app a b s : run (a ++ b) s = match run a s with Some s' => run b s' | None => None end.
  Proof. revert s. induction a as [|ev a IH]; intros s; cbn [app grun]; [reflexivity|]. destruct (step ev s); [apply IH|reflexivity]. Qed.
  Lemma spawn_all k : (k <= jobs)%nat -> run (repeat Spawn k) start = Some (mkGstate X Spawning k (seq 0 k) [] 0 []).
  Proof.
    induction k as [|k IH]; intros L; [reflexivity|]. replace (repeat Spawn (S k)) with (repeat Spawn k ++ [Spawn]) by (symmetry; apply repeat_cons).
    rewrite run_app, IH by lia. cbn [grun gstep gs_phase gs_spawned]. destruct (Nat.ltb_spec k jobs); [|lia]. cbn [gs_running gs_queue gs_received gs_yielded].
    rewrite seq_S. cbn [plus]. now rewrite Nat.add_1_r.
  Qed.
  Lemma finish_all js : forall ru q, NoDup js -> (forall j, In j js -> In j ru) -> (forall j, In j js -> exists rs, outcome j = Ok rs) ->
    exists rss ru', Forall2 (fun j rs => outcome j = Ok rs) js rss /\
      run (map Finish js) (mkGstate X Gathering jobs ru q 0 []) = Some (mkGstate X Gathering jobs ru' (q ++ rss) 0 []).
  Proof.
    induction js as [|j js IH]; intros ru q Nd Inc A.
    - exists [], ru. split; [constructor|]. cbn. now rewrite app_nil_r.
    - inversion Nd as [|? ? Nj Nd']; subst. destruct (A j (or_introl eq_refl)) as (rs & O).
      destruct (IH (filter (fun i => negb (eqb i j)) ru) (q ++ [rs]) Nd') as (rss & ru' & F & R).
      + intros i I. apply filter_In. split; [apply Inc; now right|]. rewrite eqb_neq; [reflexivity|]. intros ->. contradiction.
      + intros; apply A; now right.
      + exists (rs :: rss), ru'. split; [now constructor|]. cbn [map grun gstep gs_running]. replace (memb j ru) with true by (symmetry; apply memb_In, Inc; now left).
        rewrite O. cbn [gs_phase gs_spawned gs_queue gs_received gs_yielded]. rewrite R, <- app_assoc. reflexivity.
  Qed.
  Lemma receive_all ru rss : forall n y, (n + length rss = jobs)%nat -> (jobs / 10 <> 0)%nat ->
    run (repeat Receive (length rss)) (mkGstate X Gathering jobs ru rss n y) = Some (mkGstate X Gathering jobs ru [] jobs (y ++ concat rss)).
  Proof.
    induction rss as [|rs rss IH]; intros n y L Z.
    - cbn in *. rewrite app_nil_r. do 2 f_equal. lia.
    - cbn [length repeat grun gstep gs_phase gs_received gs_spawned gs_queue] in *. destruct (Nat.ltb_spec n jobs); [|lia]. destruct (Nat.eqb_spec (jobs / 10) 0); [contradiction|].
      cbn [gs_running gs_yielded concat]. rewrite IH by lia. now rewrite <- app_assoc.
  Qed.
  Lemma results_concat js rss : Forall2 (fun j rs => outcome j = Ok rs) js rss -> results outcome js (concat rss).
  Proof. intros F. induction F; cbn; [constructor|now apply results_cons]. Qed.
  Lemma any_order js : (forall j, (j < jobs)%nat -> exists rs, outcome j = Ok rs) -> (jobs = 0 \/ 10 <= jobs)%nat -> Permutation js (seq 0 jobs) ->
    exists s, reachable jobs outcome s /\ gs_phase s = Done /\ results outcome js (gs_yielded s).
  Proof.
    intros A N P. assert (B : forall j, In j js <-> (j < jobs)%nat).
    { intros j. split; intros I; [apply (Permutation_in _ P), in_seq in I; lia|]. apply (Permutation_in _ (Permutation_sym P)), in_seq. lia. }
    assert (Nd : NoDup js) by (eapply Permutation_NoDup; [apply Permutation_sym, P|apply seq_NoDup]).
    assert (Lj : length js = jobs) by (rewrite (Permutation_length P); apply seq_length).
    destruct (finish_all js (seq 0 jobs) [] Nd) as (rss & ru' & F & R).
    { intros j I. apply in_seq. apply B in I. lia. }
    { intros j I. apply A, B, I. }
    assert (Lr : length rss = jobs) by (rewrite <- Lj; symmetry; clear -F; induction F; cbn; congruence).
    assert (Sp : run (repeat Spawn jobs ++ [Spawn]) start = Some (mkGstate X Gathering jobs (seq 0 jobs) [] 0 [])).
    { rewrite run_app, spawn_all by lia. cbn [grun gstep gs_phase gs_spawned]. destruct (Nat.ltb_spec jobs jobs); [lia|]. reflexivity. }
    eexists. split; [exists ((repeat Spawn jobs ++ [Spawn]) ++ map Finish js ++ repeat Receive jobs ++ [Receive])|].
    - rewrite run_app, Sp, run_app, R. cbn [app]. rewrite run_app.
      assert (Re : run (repeat Receive (length rss)) (mkGstate X Gathering jobs ru' rss 0 []) = Some (mkGstate X Gathering jobs ru' [] jobs (concat rss))).
      { destruct N as [N|N]; [destruct rss; [cbn in *; rewrite N; reflexivity|cbn in Lr; lia]|].
        apply receive_all; [lia|]. assert (1 <= jobs / 10)%nat by (apply Nat.div_le_lower_bound; lia). lia. }
      rewrite Lr in Re. rewrite Re. cbn [grun gstep gs_phase gs_received gs_spawned]. destruct (Nat.ltb_spec jobs jobs); [lia|]. reflexivity.
    - cbn [gs_phase gs_yielded]. split; [reflexivity|now apply results_concat].
  Qed.
End Proof.
