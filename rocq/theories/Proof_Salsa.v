(** Simulated annealing (C46). *)
From Coq Require Import QArith Qpower Lqa.
From Verif Require Import Base Model_Loma Model_Decouple Model_Cme Model_Salsa Spec_Loma Spec_Cme Spec_Salsa
  Proof_LomaLoops Proof_LomaFactors Proof_AllocSearch Proof_Mapping Proof_Reduce.
Open Scope string_scope.
Open Scope list_scope.
Open Scope Z_scope.

(** * Exchanging two loops *)
Lemma set_nth_length {A} i (x : A) l : length (set_nth i x l) = length l.
Proof. revert i. induction l as [|y l IH]; intros [|i]; cbn; congruence. Qed.
Lemma set_nth_same {A} i (x : A) l : (i < length l)%nat -> nth_error (set_nth i x l) i = Some x.
Proof. revert i. induction l as [|y l IH]; intros [|i] L; cbn in *; try lia; [reflexivity|]. apply IH. lia. Qed.
Lemma set_nth_other {A} i k (x : A) l : k <> i -> nth_error (set_nth i x l) k = nth_error l k.
Proof. revert i k. induction l as [|y l IH]; intros [|i] [|k] N; cbn; try congruence; try reflexivity. apply IH. congruence. Qed.
Lemma set_nth_perm {A} i (a b : A) l : nth_error l i = Some a -> Permutation (b :: l) (a :: set_nth i b l).
Proof.
  revert i. induction l as [|y l IH]; intros [|i] E; cbn in *; try discriminate.
  - injection E as ->. constructor.
  - rewrite perm_swap, (IH i E). apply perm_swap.
Qed.
Lemma swap_spec {A} i j (l l' : list A) : swap i j l = Ok l' -> exchanged i j l l' /\ Permutation l' l.
Proof.
  unfold swap. intros E. apply rbind_Ok in E. destruct E as (a & Ea & E). apply rbind_Ok in E. destruct E as (b & Eb & E). injection E as <-.
  apply of_option_Ok in Ea, Eb.
  assert (Li : (i < length l)%nat) by (apply nth_error_Some; congruence). assert (Lj : (j < length l)%nat) by (apply nth_error_Some; congruence).
  assert (Em : nth_error (set_nth i b l) j = Some b).
  { destruct (Nat.eq_dec j i) as [->|N]; [now apply set_nth_same|]. now rewrite set_nth_other. }
  split.
  - split; [now rewrite !set_nth_length|]. split; [|split].
    + destruct (Nat.eq_dec i j) as [->|N]; [rewrite set_nth_same by (now rewrite set_nth_length); congruence|].
      rewrite set_nth_other by assumption. rewrite set_nth_same by assumption. congruence.
    + rewrite set_nth_same by (now rewrite set_nth_length). congruence.
    + intros k Ni Nj. now rewrite !set_nth_other.
  - apply (Permutation_cons_inv (a := b)). rewrite <- (set_nth_perm j b a (set_nth i b l) Em). symmetry. now apply set_nth_perm.
Qed.
Lemma swap_ok {A} i j (l : list A) : (i < length l)%nat -> (j < length l)%nat -> exists l', swap i j l = Ok l'.
Proof.
  intros Li Lj. unfold swap. destruct (nth_error l i) eqn:Ei; [|apply nth_error_None in Ei; lia]. destruct (nth_error l j) eqn:Ej; [|apply nth_error_None in Ej; lia].
  cbn [of_option rbind]. eauto.
Qed.

(** * The walk *)
Section Salsa.
  Variable exponential : Q -> Q.
  Variable evaluate : list loop -> result eval.
  Variables (name : string) (T0 : Q).
  Notation crit := (criterion_of name).
  Notation value := (opt_criterion name).
  Notation step := (anneal_step exponential evaluate name T0).
  Hypothesis exp_ge : forall a, (0 <= a)%Q -> (1 <= exponential a)%Q.
  Hypothesis hot : (0 < T0)%Q.
  Variable start : list loop.
  Hypothesis positive : forall o e, Permutation o start -> evaluate o = Ok e -> (0 < crit e)%Q.

  Record winv (w : walk) : Prop := {
    wi_perm : forall s, In s (wk_evaluated w) -> Permutation (fst s) start /\ evaluate (fst s) = Ok (snd s);
    wi_current : In (wk_current w) (wk_evaluated w);
    wi_best : first_least value (wk_evaluated w) (wk_best w) }.

  Lemma new_state_Ok o s : new_state evaluate name o = Ok s -> fst s = o /\ evaluate o = Ok (snd s).
  Proof.
    unfold new_state. destruct (eqb name "energy" || eqb name "latency")%bool; [|discriminate]. intros E. apply rbind_Ok in E. destruct E as (e & E & F). injection F as <-. now split.
  Qed.
  Lemma temperature_pos n : (0 < T0 * (199 # 200) ^ Z.of_nat n)%Q.
  Proof.
    assert (P : (0 < (199 # 200) ^ Z.of_nat n)%Q).
    { induction n as [|n IH]; [reflexivity|]. rewrite Nat2Z.inj_succ. unfold Z.succ. rewrite Qpower_plus by (intros Q; discriminate Q). 
      setoid_replace ((199 # 200) ^ 1)%Q with (199 # 200)%Q by reflexivity. revert IH. generalize ((199 # 200) ^ Z.of_nat n)%Q. intros q IH. nra. }
    revert P. generalize ((199 # 200) ^ Z.of_nat n)%Q. intros q P. nra.
  Qed.
  Lemma div_ge_1 a b : (0 < b)%Q -> (b <= a)%Q -> (1 <= a / b)%Q.
  Proof. intros B L. apply Qle_shift_div_l; [exact B|]. lra. Qed.

  Lemma step_inv w it i j x w' : winv w -> (x < 1)%Q -> step w (it, (i, j, x)) = Ok w' ->
    winv w' /\ length (wk_evaluated w') = S (length (wk_evaluated w)) /\
    exists next, wk_evaluated w' = wk_evaluated w ++ [next] /\ exchanged i j (fst (wk_current w)) (fst next).
  Proof.
    intros [Pe Cu Be] X E. cbn [anneal_step] in E. destruct (fst (wk_current w)) as [|c0 cs] eqn:Ec; [discriminate|]. rewrite <- Ec in *.
    apply rbind_Ok in E. destruct E as (o & Eo & E). apply rbind_Ok in E. destruct E as (next & En & E). cbv zeta in E.
    apply rbind_Ok in E. destruct E as (r & Er & E). apply rbind_Ok in E. destruct E as (a & Ea & E).
    destruct (new_state_Ok _ _ En) as (Fo & Eo'). destruct (swap_spec _ _ _ _ Eo) as (Xc & Po). subst o.
    destruct (Pe _ Cu) as (Pc & Ecu).
    assert (Pn : Permutation (fst next) start) by (now rewrite Po).
    assert (Vn : (0 < value next)%Q) by (exact (positive _ _ Pn Eo')). assert (Vc : (0 < value (wk_current w))%Q) by (exact (positive _ _ Pc Ecu)).
    destruct Be as (l1 & l2 & El & Bl & Bs).
    assert (Better : (value next < value (wk_best w))%Q -> (x < exponential a)%Q).
    { intros L. rewrite pdiv_ok in Er by lra. injection Er as <-. pose proof (temperature_pos it) as Tp. rewrite pdiv_ok in Ea by lra. injection Ea as <-.
      assert (C : (value (wk_best w) <= value (wk_current w))%Q) by (apply Bl, Cu).
      assert (R : (1 <= value (wk_current w) / value next)%Q) by (apply div_ge_1; lra).
      assert (Ge : (1 <= exponential ((value (wk_current w) / value next - 1) / (T0 * (199 # 200) ^ Z.of_nat it)))%Q).
      { apply exp_ge. apply Qle_shift_div_l; [exact Tp|]. lra. }
      eapply Qlt_le_trans; [exact X|exact Ge]. }
    assert (Pe' : forall s, In s (wk_evaluated w ++ [next]) -> Permutation (fst s) start /\ evaluate (fst s) = Ok (snd s)).
    { intros s I. apply in_app_or in I. destruct I as [I|[<-|[]]]; [now apply Pe|now split]. }
    assert (Keep : (value (wk_best w) <= value next)%Q -> first_least value (wk_evaluated w ++ [next]) (wk_best w)).
    { intros L. exists l1, (l2 ++ [next]). split; [rewrite El, <- app_assoc; reflexivity|]. split; [|exact Bs].
      intros e I. apply in_app_or in I. destruct I as [I|[<-|[]]]; [now apply Bl|exact L]. }
    assert (Ex : forall c b, exists next0, wk_evaluated (mkWalk c b (wk_evaluated w ++ [next])) = wk_evaluated w ++ [next0] /\ exchanged i j (fst (wk_current w)) (fst next0)).
    { intros c b. exists next. now split. }
    destruct (qlt_bool x (exponential a)) eqn:Acc.
    - destruct (qlt_bool (value next) (value (wk_best w))) eqn:Lt.
      + apply qlt_bool_spec in Lt. injection E as <-. split; [|split; [cbn; rewrite app_length; cbn; lia|apply Ex]].
        constructor; cbn [wk_evaluated wk_current wk_best]; [exact Pe'|apply in_or_app; right; now left|].
        exists (wk_evaluated w), []. split; [reflexivity|].
        assert (A : forall e, In e (wk_evaluated w) -> (value next < value e)%Q) by (intros e I; specialize (Bl e I); lra).
        split; [|exact A]. intros e I. apply in_app_or in I. destruct I as [I|[<-|[]]]; [specialize (A e I); lra|lra].
      + injection E as <-. split; [|split; [cbn; rewrite app_length; cbn; lia|apply Ex]].
        constructor; cbn [wk_evaluated wk_current wk_best]; [exact Pe'|apply in_or_app; right; now left|].
        apply Keep. apply Qnot_lt_le. intros Q. apply qlt_bool_spec in Q. congruence.
    - injection E as <-. split; [|split; [cbn; rewrite app_length; cbn; lia|apply Ex]].
      constructor; cbn [wk_evaluated wk_current wk_best]; [exact Pe'|apply in_or_app; now left|].
      apply Keep. apply Qnot_lt_le. intros Q. apply Better in Q. apply qlt_bool_spec in Q. congruence.
  Qed.

  Lemma walk_inv : forall ds w w', winv w -> (forall d, In d ds -> (snd (snd d) < 1)%Q) -> rfold step w ds = Ok w' ->
    winv w' /\ length (wk_evaluated w') = (length (wk_evaluated w) + length ds)%nat.
  Proof.
    induction ds as [|[it [[i j] x]] ds IH]; intros w w' I D E.
    - cbn [rfold] in E. injection E as <-. split; [exact I|]. cbn. lia.
    - cbn [rfold] in E. apply rbind_Ok in E. destruct E as (w1 & E1 & E).
      destruct (step_inv w it i j x w1 I) as (I1 & L1 & _); [exact (D _ (or_introl eq_refl))|exact E1|].
      destruct (IH w1 w' I1) as (I' & L'); [intros; apply D; now right|exact E|]. split; [exact I'|]. rewrite L', L1. cbn. lia.
  Qed.

  Lemma start_inv s1 s2 s3 : new_state evaluate name start = Ok s1 -> new_state evaluate name start = Ok s2 -> new_state evaluate name start = Ok s3 ->
    winv (mkWalk s2 s1 [s1; s2; s3]).
  Proof.
    intros E1 E2 E3. rewrite E1 in E2, E3. injection E2 as <-. injection E3 as <-. destruct (new_state_Ok _ _ E1) as (F & E).
    constructor; cbn [wk_evaluated wk_current wk_best].
    - intros s I. cbn in I. assert (s = s1) by intuition. subst s. rewrite F. split; [reflexivity|exact E].
    - now left.
    - exists [], [s1; s1]. split; [reflexivity|]. split; [|intros e []]. intros e I. assert (e = s1) by (cbn in I; intuition). subst e. lra.
  Qed.

  Lemma anneal_spec draws w : (forall d, In d draws -> (snd d < 1)%Q) -> anneal exponential evaluate name T0 start draws = Ok w ->
    (forall s, In s (wk_evaluated w) -> Permutation (fst s) start /\ evaluate (fst s) = Ok (snd s)) /\
    first_least value (wk_evaluated w) (wk_best w) /\
    (exists e, hd_error (wk_evaluated w) = Some (start, e)) /\
    length (wk_evaluated w) = (3 + length draws)%nat.
  Proof.
    intros D E. unfold anneal in E. apply rbind_Ok in E. destruct E as (s1 & E1 & E). apply rbind_Ok in E. destruct E as (s2 & E2 & E). apply rbind_Ok in E. destruct E as (s3 & E3 & E).
    assert (Dd : forall d, In d (combine (seq 0 (length draws)) draws) -> (snd (snd d) < 1)%Q).
    { intros [it d] I. apply in_combine_r in I. exact (D _ I). }
    destruct (walk_inv _ _ _ (start_inv _ _ _ E1 E2 E3) Dd E) as ([P C B] & L).
    split; [exact P|]. split; [exact B|]. split.
    - assert (H : forall ds w0 w1, rfold step w0 ds = Ok w1 -> exists l, wk_evaluated w1 = wk_evaluated w0 ++ l).
      { clear. induction ds as [|[it [[i j] x]] ds IH]; intros w0 w1 E; cbn [rfold] in E; [injection E as <-; exists []; now rewrite app_nil_r|].
        apply rbind_Ok in E. destruct E as (w2 & E2 & E). destruct (IH _ _ E) as (l & ->). cbn [anneal_step] in E2. destruct (fst (wk_current w0)) as [|c cs] eqn:Ec; [discriminate|]. rewrite <- Ec in *. clear Ec.
        apply rbind_Ok in E2. destruct E2 as (o & _ & E2). apply rbind_Ok in E2. destruct E2 as (next & _ & E2). cbv zeta in E2.
        apply rbind_Ok in E2. destruct E2 as (r & _ & E2). apply rbind_Ok in E2. destruct E2 as (a & _ & E2).
        exists (next :: l). destruct (qlt_bool x _); [destruct (qlt_bool _ _)|]; injection E2 as <-; cbn [wk_evaluated]; rewrite <- app_assoc; reflexivity. }
      destruct (H _ _ _ E) as (l & ->). cbn. destruct (new_state_Ok _ _ E1) as (F & _). exists (snd s1). rewrite <- F. destruct s1. reflexivity.
    - rewrite L. cbn [length wk_evaluated]. rewrite combine_length, seq_length. lia.
  Qed.

  Lemma anneal_ok draws : name = "energy" \/ name = "latency" -> start <> [] -> (forall o, Permutation o start -> exists e, evaluate o = Ok e) ->
    (forall d, In d draws -> drawn (length start) d) ->
    exists w, anneal exponential evaluate name T0 start draws = Ok w.
  Proof.
    intros Nm NE Ev D. assert (New : forall o, Permutation o start -> exists e, new_state evaluate name o = Ok (o, e)).
    { intros o P. destruct (Ev o P) as (e & E). exists e. unfold new_state. replace (eqb name "energy" || eqb name "latency")%bool with true by (destruct Nm; subst; reflexivity). now rewrite E. }
    destruct (New start (Permutation_refl _)) as (e0 & E0). unfold anneal. rewrite E0. cbn [rbind].
    assert (I0 : winv (mkWalk (start, e0) (start, e0) [(start, e0); (start, e0); (start, e0)])) by (now apply start_inv).
    assert (Dd : forall d, In d (combine (seq 0 (length draws)) draws) -> drawn (length start) (snd d)).
    { intros [it d] I. apply in_combine_r in I. exact (D _ I). }
    assert (G : forall ds w, winv w -> (forall d, In d ds -> drawn (length start) (snd d)) -> exists w', rfold step w ds = Ok w'); [|exact (G _ _ I0 Dd)].
    clear I0 Dd E0. induction ds as [|[it [[i j] x]] ds IH]; intros w I Dd; [cbn; eauto|]. cbn [rfold].
    destruct (Dd _ (or_introl eq_refl)) as (Li & Lj & X). cbn [fst snd] in Li, Lj, X.
    assert (S1 : exists w1, step w (it, (i, j, x)) = Ok w1).
    { destruct (wi_perm w I _ (wi_current w I)) as (Pc & Ecu). cbn [anneal_step]. destruct (fst (wk_current w)) as [|c cs] eqn:Ec; [apply Permutation_nil in Pc; congruence|]. rewrite <- Ec in *.
      rewrite <- (Permutation_length Pc) in Li, Lj. destruct (swap_ok i j _ Li Lj) as (o & Eo). rewrite Eo. cbn [rbind]. destruct (swap_spec _ _ _ _ Eo) as (_ & Po).
      assert (Pn : Permutation o start) by (now rewrite Po). destruct (New o Pn) as (e & En). rewrite En. cbn [rbind]. cbv zeta.
      destruct (new_state_Ok _ _ En) as (_ & Ee). cbn [snd] in Ee. pose proof (positive _ _ Pn Ee) as V. unfold opt_criterion at 2. cbn [snd].
      rewrite pdiv_ok by lra. cbn [rbind]. pose proof (temperature_pos it) as Tp. rewrite pdiv_ok by lra. cbn [rbind].
      destruct (qlt_bool x _); [destruct (qlt_bool _ _)|]; eauto. }
    destruct S1 as (w1 & E1). rewrite E1. cbn [rbind]. apply IH; [|intros; apply Dd; now right].
    destruct (step_inv w it i j x w1 I) as (I1 & _); [lra|exact E1|exact I1].
  Qed.
End Salsa.

(** * The loops *)
Lemma salsa_loma layer spatial loops : salsa_temporal_loops layer spatial = Ok loops -> get_temporal_loops layer spatial = Ok loops.
Proof.
  unfold salsa_temporal_loops, get_temporal_loops. intros E. apply rbind_Ok in E. destruct E as (sizes & E & F). injection F as <-.
  assert (G : forall spatial s0, rfold salsa_loops_step s0 spatial = Ok sizes -> rfold temporal_loops_step s0 spatial = Ok sizes).
  { clear. induction spatial as [|[d s] spatial IH]; intros s0 E; [exact E|]. cbn [rfold] in *. apply rbind_Ok in E. destruct E as (s1 & E1 & E).
    assert (Q : temporal_loops_step s0 (d, s) = Ok s1).
    { cbn [salsa_loops_step temporal_loops_step] in *. apply rbind_Ok in E1. destruct E1 as (n & En & E1). apply dgetr_Ok in En. now rewrite En. }
    rewrite Q. cbn [rbind]. now apply IH. }
  rewrite (G _ _ E). reflexivity.
Qed.
Lemma salsa_defined layer spatial : NoDup (map fst spatial) -> (forall d s, In (d, s) spatial -> In d (keys layer) /\ ~ (s == 0)%Q) ->
  exists loops, salsa_temporal_loops layer spatial = Ok loops.
Proof.
  unfold salsa_temporal_loops. intros N I.
  assert (G : exists sizes, rfold salsa_loops_step layer spatial = Ok sizes).
  { revert layer I. induction spatial as [|[d s] spatial IH]; intros layer I; [cbn; eauto|]. cbn [map fst] in N. inversion N as [|? ? Nd N']; subst.
    cbn [rfold]. destruct (I d s (or_introl eq_refl)) as (Id & Z). apply key_dget in Id. destruct Id as (n & En).
    unfold salsa_loops_step at 1. unfold dgetr. rewrite En. cbn [of_option rbind]. destruct (Qeq_bool s 0) eqn:Q; [apply Qeq_bool_eq in Q; contradiction|]. cbv zeta.
    assert (K : forall layer', (forall k, k <> d -> In k (keys layer) -> In k (keys layer')) -> exists sizes, rfold salsa_loops_step layer' spatial = Ok sizes).
    { intros layer' K. apply IH; [exact N'|]. intros d' s' I'. destruct (I d' s' (or_intror I')) as (Id' & Z'). split; [|exact Z'].
      apply K; [|exact Id']. intros ->. apply Nd. apply in_map_iff. now exists (d, s'). }
    destruct (_ =? 1); cbn [rbind]; apply K; intros k Nk Ik; [|apply In_keys_dset; auto].
    apply key_dget in Ik. destruct Ik as (m & Em). rewrite <- (dget_ddel_neq k d) in Em by assumption. exact (dget_Some_key _ _ _ Em). }
  destruct G as (sizes & ->). cbn [rbind]. eauto.
Qed.

Lemma loop_product_perm d (l l' : list loop) : Permutation l l' -> loop_product d l = loop_product d l'.
Proof.
  intros P. unfold loop_product. apply zprod_perm. apply Permutation_map.
  induction P as [|x l l' P IH|x y l|l l' l'' P IH P' IH']; cbn [filter]; [reflexivity| | |now rewrite IH].
  - destruct (eqb (fst x) d); [now constructor|exact IH].
  - destruct (eqb (fst x) d), (eqb (fst y) d); try reflexivity. apply perm_swap.
Qed.

Lemma salsa_cover factorint layer spatial lpfs : factorint_ok factorint ->
  NoDup (keys layer) -> (forall d n, In (d, n) layer -> 1 <= n) -> (forall d s, In (d, s) spatial -> (1 <= s)%Q) ->
  salsa_lpfs factorint layer spatial = Ok lpfs ->
  forall o, Permutation o lpfs ->
    (forall d n, In (d, n) layer -> (inject_Z n <= qprod (unrollings_of d spatial) * inject_Z (loop_product d o))%Q) /\
    (forall d f, In (d, f) o -> Znumtheory.prime f /\ In d (keys layer)).
Proof.
  intros Hf N P S E o Po. unfold salsa_lpfs in E. apply rbind_Ok in E. destruct E as (loops & E & F). injection F as <-. apply salsa_loma in E.
  destruct (temporal_loops_cover layer spatial N P S) as (loops' & E' & Nl & Bl & Cl). rewrite E in E'. injection E' as <-.
  assert (B1 : forall d n, In (d, n) loops -> 1 < n) by (intros d n I; now destruct (Bl d n I)).
  destruct (rebuild_ok loops _ (initial_inv factorint Hf loops Nl B1)) as (l & El & Hp & _ & Hd & _).
  rewrite rebuild_initial in El by assumption. injection El as <-. split.
  - intros d n I. rewrite (loop_product_perm d _ _ Po), Hp. now apply Cl.
  - intros d f I. apply (Permutation_in _ Po) in I. split; [exact (initial_prime factorint Hf loops B1 d f I)|].
    destruct (Hd d f I) as (_ & Hd'). clear Hd. rename Hd' into Hd. apply key_dget in Hd. destruct Hd as (n & Hn). apply dget_In in Hn. now destruct (Bl d n Hn).
Qed.

(** * Several processes *)
Section Stage.
  Variables (less : eval -> eval -> bool) (le : eval -> eval -> Prop).
  Hypothesis less_spec : forall c b, less c b = true <-> ~ le b c.
  Hypothesis le_total : forall a b, le a b \/ le b a.
  Hypothesis le_trans : forall a b c, le a b -> le b c -> le a c.
  Hypothesis le_dec : forall a b, le a b \/ ~ le a b.
  Definition gather_step (st : option (option eval)) (a : result eval) : option (option eval) :=
    match st, a with
    | None, _ | _, Err _ => None
    | Some None, Ok e => Some (Some e)
    | Some (Some b), Ok e => Some (Some (if less e b then e else b))
    end.
  Lemma gather_spec answers r : fold_left gather_step answers (Some None) = Some r ->
    exists es, answers = map Ok es /\ match r with None => es = [] | Some b => first_best le es b end.
  Proof.
    revert r. induction answers as [|a answers IH] using rev_ind; intros r E.
    - injection E as <-. now exists [].
    - rewrite fold_left_app in E. cbn [fold_left] in E. destruct (fold_left gather_step answers (Some None)) as [r0|]; [|discriminate].
      destruct (IH r0 eq_refl) as (es & -> & Hr). destruct a as [e|x]; [|destruct r0; discriminate]. exists (es ++ [e]). split; [now rewrite map_app|].
      assert (R : forall a, le a a) by (intros a; destruct (le_total a a); assumption).
      destruct r0 as [b|]; cbn [gather_step] in E; injection E as <-.
      + destruct Hr as (l1 & l2 & El & B1 & B2). destruct (less e b) eqn:L.
        * apply less_spec in L. exists es, []. split; [reflexivity|]. split.
          -- intros e' He. apply in_app_or in He. destruct He as [He|[<-|[]]]; [|apply R].
             destruct (le_total e b) as [Q|Q]; [|contradiction]. apply (le_trans e b e' Q). now apply B1.
          -- intros e' He Hle. apply L. apply (le_trans b e' e); [now apply B1|exact Hle].
        * assert (Lb : le b e). { destruct (le_dec b e) as [Q|Q]; [exact Q|]. apply less_spec in Q. congruence. }
          exists l1, (l2 ++ [e]). split; [rewrite El, <- app_assoc; reflexivity|]. split; [|exact B2].
          intros e' He. apply in_app_or in He. destruct He as [He|[<-|[]]]; [now apply B1|exact Lb].
      + subst es. exists [], []. split; [reflexivity|]. split; [intros e' [<-|[]]; apply R|intros e' []].
  Qed.
  Lemma gather_waits answers x : In (Err x) answers -> fold_left gather_step answers (Some None) = None.
  Proof.
    intros I. assert (G : forall l, fold_left gather_step l None = None) by (induction l as [|a l IH]; [reflexivity|exact IH]).
    assert (H : forall l st, In (Err x) l -> fold_left gather_step l st = None).
    { induction l as [|a l IH]; intros st J; [destruct J|]. destruct J as [->|J]; cbn [fold_left]; [|now apply IH]. destruct st as [[b|]|]; cbn [gather_step]; apply G. }
    now apply H.
  Qed.
End Stage.

Definition stage_order (name : string) : eval -> eval -> Prop := if eqb name "energy" then energy_le else latency_le.

Lemma stage_best name answers b : salsa_stage name answers = Some (Ok b) ->
  exists es, answers = map Ok es /\ first_best (stage_order name) es b.
Proof.
  unfold salsa_stage. destruct (negb _); [discriminate|]. 
  change (fold_left _ answers (Some None)) with (fold_left (gather_step (better name)) answers (Some None)).
  destruct (fold_left (gather_step (better name)) answers (Some None)) as [r|] eqn:E; [|discriminate].
  destruct r as [b'|]; [|discriminate]. intros Q. injection Q as ->.
  destruct (gather_spec (better name) (stage_order name)) with (answers := answers) (r := Some b) as (es & A & B); [| | | |exact E|eauto].
  - intros c x. unfold better, stage_order. destruct (eqb name "energy"); [apply energy_spec|apply latency_spec].
  - intros a c. unfold stage_order, energy_le, latency_le. destruct (eqb name "energy"); apply lex_total.
  - intros a c d. unfold stage_order, energy_le, latency_le. destruct (eqb name "energy"); apply lex_trans.
  - intros a c. unfold stage_order, energy_le, latency_le. destruct (eqb name "energy"); apply lex_dec.
Qed.
Lemma stage_waits name answers x : name = "energy" \/ name = "latency" -> In (Err x) answers -> salsa_stage name answers = None.
Proof.
  intros N I. unfold salsa_stage. replace (negb (eqb name "energy" || eqb name "latency")) with false by (destruct N; subst; reflexivity).
  change (fold_left _ answers (Some None)) with (fold_left (gather_step (better name)) answers (Some None)). now rewrite (gather_waits _ _ _ I).
Qed.

(** All processes together *)
Lemma stage_spec exponential evaluate name T0 (lpfs : list loop) (walks : list (list loop * list (nat * nat * Q) * walk)) answers b :
  (forall a, (0 <= a)%Q -> (1 <= exponential a)%Q) -> (0 < T0)%Q ->
  (forall o e, Permutation o lpfs -> evaluate o = Ok e -> (0 < criterion_of name e)%Q) ->
  (forall start ds w, In (start, ds, w) walks ->
     Permutation start lpfs /\ (forall d, In d ds -> (snd d < 1)%Q) /\ anneal exponential evaluate name T0 start ds = Ok w) ->
  Permutation answers (map (fun x => Ok (snd (wk_best (snd x)))) walks) ->
  salsa_stage name answers = Some (Ok b) ->
  (exists x o, In x walks /\ In (o, b) (wk_evaluated (snd x)) /\ Permutation o lpfs /\ evaluate o = Ok b) /\
  (forall x, In x walks -> stage_order name b (snd (wk_best (snd x)))) /\
  (name = "energy" -> forall x o e, In x walks -> In (o, e) (wk_evaluated (snd x)) -> (ev_energy b <= ev_energy e)%Q).
Proof.
  intros Ex Hot Pos Ws Pa Sb. destruct (stage_best _ _ _ Sb) as (es & -> & (l1 & l2 & El & Best & _)).
  assert (Spec : forall start ds w, In (start, ds, w) walks -> (forall s, In s (wk_evaluated w) -> Permutation (fst s) lpfs /\ evaluate (fst s) = Ok (snd s)) /\
            first_least (opt_criterion name) (wk_evaluated w) (wk_best w)).
  { intros start ds w I. destruct (Ws _ _ _ I) as (Ps & D & A).
    destruct (anneal_spec exponential evaluate name T0 Ex Hot start) with (draws := ds) (w := w) as (P & F & _); [intros o e Po; apply Pos; now rewrite Po|exact D|exact A|].
    split; [|exact F]. intros s Is. destruct (P s Is) as (P1 & P2). split; [now rewrite P1|exact P2]. }
  assert (Bests : forall e, In e es <-> exists x, In x walks /\ snd (wk_best (snd x)) = e).
  { intros e. split.
    - intros I. assert (J : In (Ok e) (map (fun x => Ok (snd (wk_best (snd x)))) walks)) by (eapply Permutation_in; [exact Pa|now apply in_map]).
      apply in_map_iff in J. destruct J as (x & Q & J). exists x. split; [exact J|]. congruence.
    - intros (x & I & <-). assert (J : In (Ok (snd (wk_best (snd x)))) (map (@Ok eval) es)) by (eapply Permutation_in; [apply Permutation_sym, Pa|apply in_map_iff; now exists x]).
      apply in_map_iff in J. destruct J as (e & Q & J). congruence. }
  split; [|split].
  - assert (Ib : In b es) by (rewrite El; apply in_elt). apply Bests in Ib. destruct Ib as ([[start ds] w] & I & <-). cbn [snd].
    destruct (Spec _ _ _ I) as (P & (k1 & k2 & Ek & _)). exists (start, ds, w), (fst (wk_best w)). cbn [snd].
    assert (J : In (wk_best w) (wk_evaluated w)) by (rewrite Ek; apply in_elt). destruct (P _ J) as (P1 & P2). rewrite <- surjective_pairing. auto.
  - intros x I. apply Best, Bests. now exists x.
  - intros -> x o e I J. destruct x as [[start ds] w]. destruct (Spec _ _ _ I) as (_ & (k1 & k2 & _ & Lk & _)). cbn [snd] in *.
    specialize (Lk _ J). assert (Lb : energy_le b (snd (wk_best w))) by (apply Best, Bests; now exists (start, ds, w)).
    unfold opt_criterion, criterion_of in Lk. cbn [snd] in Lk. change (eqb "energy" "energy") with true in Lk. cbv iota in Lk. destruct Lb as [L|[L _]]; lra.
Qed.

(** * Examples *)
Definition ex_eval (energy l0 l2 : Q) : eval := mkEval [] [] [] 0 0 energy 0 0 0 0 l0 l0 l2 None (inl 0%nat) None.
Definition ex_walk := anneal (fun _ => 1%Q) (fun o => match o with ("K", _) :: _ => Ok (ex_eval 5 5 5) | _ => Ok (ex_eval 3 3 3) end) "energy" (1 # 20)
  [("K", 2); ("C", 3); ("K", 2)] [(0, 0, 1 # 2)%nat; (0, 1, 1 # 2)%nat; (1, 2, 1 # 2)%nat].
Definition latency_cost (o : list loop) : result eval :=
  match o with ("K", _) :: _ => Ok (ex_eval 1 5 8) | _ => Ok (ex_eval 1 4 9) end.
Lemma nothing_left exponential evaluate name T0 d draws e : name = "energy" \/ name = "latency" -> evaluate [] = Ok e ->
  anneal exponential evaluate name T0 [] (d :: draws) = Err ValueError.
Proof.
  intros N E. unfold anneal, new_state. replace (eqb name "energy" || eqb name "latency")%bool with true by (destruct N; subst; reflexivity).
  rewrite E. cbn [rbind length seq combine rfold]. destruct d as [[i j] x]. reflexivity.
Qed.
Lemma latency_other : exists w b,
  anneal (fun _ => 1%Q) latency_cost "latency" (1 # 20) [("K", 2); ("C", 3)] [(0, 1, 1 # 2)%nat] = Ok w /\
  salsa_stage "latency" [Ok (snd (wk_best w))] = Some (Ok b) /\
  exists o e, In (o, e) (wk_evaluated w) /\ (ev_l2 e < ev_l2 b)%Q.
Proof.
  do 2 eexists. split; [vm_compute; reflexivity|]. split; [vm_compute; reflexivity|]. exists [("K", 2); ("C", 3)], (ex_eval 1 5 8). split; [now left|reflexivity].
Qed.
