From Coq Require Import QArith Lia.
From Verif Require Import Base Model_Hierarchy Model_Cacti Spec_Cacti.
Local Open Scope string_scope.
Local Open Scope list_scope.
Local Open Scope Z_scope.

Lemma priced_fun t s k z k' z' : priced_as t s k z -> priced_as t s k' z' -> k = k' /\ z = z'.
Proof. intros H G. inversion H; subst; inversion G; subst; easy. Qed.

(** the request that is looked up *)
Lemma adjusted_ok (q : request) k s : priced_as (rq_type q) (rq_size q) k s ->
  adjusted q = mkRequest k s (rq_bw q) (rq_rd q) (rq_wr q) (rq_rw q) (rq_bank q) (rq_tech q).
Proof.
  unfold adjusted. destruct q as [t z bw rd wr rw bk tc]. cbn [rq_type rq_size rq_bw rq_rd rq_wr rq_rw rq_bank rq_tech].
  intros H. inversion H; subst; try reflexivity. cbn -[Z.mul]. f_equal; apply Z.mul_comm.
Qed.

Lemma or_minus_some o z : 0 <= z -> or_minus o = z <-> o = Some z.
Proof. intros L. destruct o as [y|]; cbn; split; intros E; try congruence. lia. Qed.

Lemma numbers_iff (q : request) e : askable q -> numbers_match (adjusted q) e = true <-> same_numbers q e.
Proof.
  intros [(k & s & P & _) [B T]]. rewrite (adjusted_ok q k s P). unfold numbers_match, same_numbers.
  cbn [rq_type rq_size rq_bw rq_rd rq_wr rq_rw rq_bank rq_tech].
  rewrite !Bool.andb_true_iff, !Z.eqb_eq, (or_minus_some _ _ B), (or_minus_some _ _ T). split.
  - intros ((((((E1 & E2) & E3) & E4) & E5) & E6) & E7). subst s. split; [now exists k|]. repeat split; congruence.
  - intros ((k' & P') & E2 & E3 & E4 & E5 & E6 & E7). destruct (priced_fun _ _ _ _ _ _ P P') as [_ ->].
    repeat split; congruence.
Qed.

Definition wanted (q : request) (x : name * entry) : bool :=
  eqb (rq_type (adjusted q)) (en_type (snd x)) && numbers_match (adjusted q) (snd x).

Lemma wanted_iff (q : request) x : askable q -> wanted q x = true <-> same_memory q (snd x).
Proof.
  intros A. unfold wanted, same_memory. rewrite Bool.andb_true_iff, (numbers_iff q (snd x) A).
  destruct A as [(k & s & P & _) _]. rewrite (adjusted_ok q k s P). cbn [rq_type]. split.
  - intros [E N]. split; [exact N|]. destruct N as ((k' & P') & _).
    destruct (eqb_spec k (en_type (snd x))) as [E'|]; [|discriminate]. destruct (priced_fun _ _ _ _ _ _ P P') as [-> ->].
    rewrite <- E'. exact P'.
  - intros [N P']. split; [|exact N]. destruct (priced_fun _ _ _ _ _ _ P P') as [-> _]. apply eqb_refl.
Qed.

Definition costs_of (e : entry) : answer := Costs (en_read e * 1000) (en_write e * 1000) (en_area e).

Lemma find_item_spec (q : request) p : (forall k e, In (k, e) p -> en_bank e <> None) ->
  find_item (adjusted q) p = match find (wanted q) p with Some x => costs_of (snd x) | None => NoMatch end.
Proof.
  induction p as [|[k e] p IH]; intros B; [reflexivity|]. cbn [find_item find].
  destruct (en_bank e) eqn:Eb; [|now destruct (B k e (or_introl eq_refl))].
  unfold wanted at 1. cbn [snd]. destruct (_ && _); [reflexivity|]. apply IH. intros k' e' I. exact (B k' e' (or_intror I)).
Qed.

Lemma exists_iff (q : request) p : askable q -> item_exists (adjusted q) p = true <-> exists k e, In (k, e) p /\ same_numbers q e.
Proof.
  intros A. unfold item_exists. rewrite existsb_exists. split.
  - intros ([k e] & I & M). exists k, e. split; [exact I|]. apply (numbers_iff q e A), M.
  - intros (k & e & I & M). exists (k, e). split; [exact I|]. apply (numbers_iff q e A), M.
Qed.

(** a memory that CACTI is run for *)
Definition new_name (q : request) (s : Z) : name := Made (s / 8) (rq_bw q) (rq_rd q) (rq_wr q) (rq_rw q) (rq_bank q) (rq_tech q).
Definition new_config (q : request) (k : string) (s : Z) : config :=
  mkConfig (negb (eqb k "sram")) (s / 8) (rq_bw q) (rq_rd q) (rq_wr q) (rq_rw q) (rq_bank q) (rq_tech q).
Definition new_entry (q : request) (k : string) (s : Z) (area read write : Q) : entry :=
  mkEntry s (rq_bw q) (rq_rd q) (rq_wr q) (rq_rw q) (Some (rq_bank q)) (Some (rq_tech q)) k read write area.

Lemma priced_kind t s k z : priced_as t s k z -> k = "sram" \/ k = "dram".
Proof. intros H; inversion H; auto. Qed.

Lemma config_ok (q : request) k s : priced_as (rq_type q) (rq_size q) k s -> s mod 8 = 0 -> config_of (adjusted q) = new_config q k s.
Proof.
  intros P M. rewrite (adjusted_ok q k s P). unfold config_of, new_config. cbn [rq_type rq_size rq_bw rq_rd rq_wr rq_rw rq_bank rq_tech].
  f_equal. assert (E : s = s / 8 * 8) by (pose proof (Z.div_mod s 8); lia). rewrite E at 1. apply Z.quot_mul. lia.
Qed.

Lemma create_ok sim (q : request) k s p : honest sim -> priced_as (rq_type q) (rq_size q) k s -> s mod 8 = 0 ->
  match sim (new_config q k s) with
  | None => create_item sim (adjusted q) p = None
  | Some rs => exists area read write, rs = [mkRow (s / 8) (rq_bw q) area read write] /\
      create_item sim (adjusted q) p = Some (dset (new_name q s) (new_entry q k s area read write) p)
  end.
Proof.
  intros H P M. unfold create_item. rewrite (config_ok q k s P M).
  destruct (sim (new_config q k s)) as [rs|] eqn:E; [|reflexivity].
  destruct (H _ _ E) as (area & read & write & ->). exists area, read, write. split; [reflexivity|].
  cbn [fold_left fst record_row]. rewrite (adjusted_ok q k s P).
  unfold new_name, new_entry, new_config. cbn [cf_main cf_bytes cf_bw rw_bytes rw_width rw_area rw_read rw_write rq_type rq_size rq_bw rq_rd rq_wr rq_rw rq_bank rq_tech].
  do 2 f_equal. f_equal.
  - pose proof (Z.div_mod s 8). lia.
  - destruct (priced_kind _ _ _ _ P) as [-> | ->]; reflexivity.
Qed.

Lemma dset_absent {V} (k : name) (v : V) (d : dict name V) : ~ In k (keys d) -> dset k v d = d ++ [(k, v)].
Proof.
  induction d as [|[k' v'] d IH]; cbn [keys map fst In dset app]; intros N; [reflexivity|].
  destruct (eqb_spec k k') as [E|_]; [subst; tauto|]. rewrite IH; [reflexivity|tauto].
Qed.

Lemma find_snoc {A} (f : A -> bool) l x : find f l = None -> find f (l ++ [x]) = if f x then Some x else None.
Proof. induction l as [|y l IH]; cbn; [reflexivity|]. destruct (f y); [discriminate|exact IH]. Qed.

Lemma find_app_some {A} (f : A -> bool) l l' x : find f l = Some x -> find f (l ++ l') = Some x.
Proof. induction l as [|y l IH]; cbn; [discriminate|]. destruct (f y); [tauto|exact IH]. Qed.

Lemma new_key_absent (q : request) k s p : well_kept p -> priced_as (rq_type q) (rq_size q) k s -> s mod 8 = 0 ->
  (forall k e, In (k, e) p -> ~ same_numbers q e) -> ~ In (new_name q s) (keys p).
Proof.
  intros [_ W] P M N I. destruct (key_dget _ _ I) as [e E]. apply dget_In in E.
  destruct (W _ _ E) as (_ & _ & F). destruct (F _ _ _ _ _ _ _ eq_refl) as (F1 & F2 & F3 & F4 & F5 & F6 & F7).
  apply (N _ _ E). unfold same_numbers. split; [|repeat split; assumption]. exists k.
  replace (en_bits e) with s; [exact P|]. pose proof (Z.div_mod s 8). lia.
Qed.

(** What a request does *)
Inductive outcome (sim : simulator) (q : request) (p : pool) : answer * pool * bool -> Prop :=
| stored x : In x p -> same_memory q (snd x) -> find (wanted q) p = Some x ->
    outcome sim q p (costs_of (snd x), p, false)
| clash x : In x p -> same_numbers q (snd x) -> (forall x, In x p -> ~ same_memory q (snd x)) ->
    outcome sim q p (NoMatch, p, false)
| failed k s : (forall k e, In (k, e) p -> ~ same_numbers q e) -> priced_as (rq_type q) (rq_size q) k s -> s mod 8 = 0 ->
    sim (new_config q k s) = None -> outcome sim q p (SubprocessFailed, p, true)
| simulated k s area read write : (forall k e, In (k, e) p -> ~ same_numbers q e) -> priced_as (rq_type q) (rq_size q) k s -> s mod 8 = 0 ->
    sim (new_config q k s) = Some [mkRow (s / 8) (rq_bw q) area read write] ->
    ~ In (new_name q s) (keys p) ->
    outcome sim q p (costs_of (new_entry q k s area read write), p ++ [(new_name q s, new_entry q k s area read write)], true).

Lemma new_same (q : request) k s area read write : askable q -> priced_as (rq_type q) (rq_size q) k s ->
  same_memory q (new_entry q k s area read write).
Proof. intros A P. split; [split; [now exists k|]; repeat split|exact P]. Qed.

Lemma get_item_outcome sim (q : request) p : honest sim -> well_kept p -> askable q -> outcome sim q p (get_item sim q p).
Proof.
  intros H W A. pose proof A as [(k & s & P & M) [B T]].
  assert (Wb : forall k e, In (k, e) p -> en_bank e <> None) by (intros ? ? I; exact (proj1 (proj2 W _ _ I))).
  unfold get_item. destruct (item_exists (adjusted q) p) eqn:X.
  - apply (exists_iff q p A) in X. destruct X as (k' & e & I & N). rewrite (find_item_spec q p Wb).
    destruct (find (wanted q) p) as [x|] eqn:F.
    + apply stored; [apply (find_some _ _ F)|apply (wanted_iff q x A); apply (find_some _ _ F)|exact F].
    + apply (clash sim q p (k', e)); [exact I|exact N|]. intros x Ix C. apply (wanted_iff q x A) in C.
      pose proof (find_none _ _ F x Ix). congruence.
  - assert (N : forall k e, In (k, e) p -> ~ same_numbers q e).
    { intros k' e I S'. assert (Y : item_exists (adjusted q) p = true) by (apply (exists_iff q p A); eauto). congruence. }
    pose proof (create_ok sim q k s p H P M) as C. destruct (sim (new_config q k s)) as [rs|] eqn:E.
    + destruct C as (area & read & write & -> & ->). pose proof (new_key_absent q k s p W P M N) as K.
      rewrite (dset_absent _ _ _ K).
      rewrite find_item_spec.
      2:{ intros k' e I. apply in_app_iff in I. destruct I as [I|[I|[]]]; [exact (Wb _ _ I)|]. injection I as <- <-. discriminate. }
      rewrite find_snoc.
      * assert (Wn : wanted q (new_name q s, new_entry q k s area read write) = true) by (apply (wanted_iff q _ A), new_same; assumption).
        rewrite Wn. cbn [snd]. apply simulated; assumption.
      * destruct (find (wanted q) p) as [[k' e]|] eqn:F; [|reflexivity]. destruct (find_some _ _ F) as [I Y].
        apply (wanted_iff q _ A) in Y. now destruct (N _ _ I), Y.
    + rewrite C. apply (failed sim q p k s); assumption.
Qed.

Lemma kept_new (q : request) k s area read write p : askable q -> well_kept p -> s mod 8 = 0 -> ~ In (new_name q s) (keys p) ->
  well_kept (p ++ [(new_name q s, new_entry q k s area read write)]).
Proof.
  intros A [D W] M N. split.
  - unfold keys. rewrite map_app. cbn. apply NoDup_snoc'; assumption.
  - intros k' e I. apply in_app_iff in I. destruct I as [I|[I|[]]]; [exact (W _ _ I)|]. injection I as <- <-.
    split; [discriminate|]. split; [exact M|]. unfold new_name. intros b w r wr rw bk t E. injection E as <- <- <- <- <- <- <-.
    unfold new_entry. cbn [en_bits en_bw en_rd en_wr en_rw en_bank en_tech]. split; [pose proof (Z.div_mod s 8); lia|]. repeat split.
Qed.

Lemma well_kept_step sim (q : request) p : honest sim -> well_kept p -> askable q -> well_kept (snd (fst (get_item sim q p))).
Proof.
  intros H W A. pose proof (get_item_outcome sim q p H W A) as O. inversion O; subst; cbn [fst snd]; try assumption.
  apply kept_new; assumption.
Qed.

Lemma new_costs sim (q : request) k s area read write : priced_as (rq_type q) (rq_size q) k s -> s mod 8 = 0 ->
  sim (new_config q k s) = Some [mkRow (s / 8) (rq_bw q) area read write] ->
  cacti_costs sim k s (rq_bw q) (rq_rd q) (rq_wr q) (rq_rw q) (rq_bank q) (rq_tech q) ((read * 1000)%Q, (write * 1000)%Q, area).
Proof.
  intros P M E. exists (negb (eqb k "sram")), (s / 8), area, read, write. split.
  - destruct (priced_kind _ _ _ _ P) as [-> | ->]; cbn; split; congruence.
  - split; [pose proof (Z.div_mod s 8); lia|]. split; [exact E|reflexivity].
Qed.

Lemma truthful_step sim (q : request) p : honest sim -> well_kept p -> truthful sim p -> askable q -> truthful sim (snd (fst (get_item sim q p))).
Proof.
  intros H W T A. pose proof (get_item_outcome sim q p H W A) as O. inversion O; subst; cbn [fst snd]; try assumption.
  intros k' e I bk t Eb Et. apply in_app_iff in I. destruct I as [I|[I|[]]]; [exact (T _ _ I _ _ Eb Et)|]. injection I as <- <-.
  cbn in Eb, Et |- *. injection Eb as <-. injection Et as <-. now apply new_costs.
Qed.

Lemma same_costs sim p (q : request) x : truthful sim p -> In x p -> same_memory q (snd x) ->
  costs_asked sim q ((en_read (snd x) * 1000)%Q, (en_write (snd x) * 1000)%Q, en_area (snd x)).
Proof.
  intros T I [(_ & E2 & E3 & E4 & E5 & E6 & E7) P]. exists (en_type (snd x)), (en_bits (snd x)). split; [exact P|].
  rewrite <- E2, <- E3, <- E4, <- E5. destruct x as [k e]. exact (T k e I _ _ E6 E7).
Qed.

Lemma answer_true sim (q : request) p r w a : honest sim -> well_kept p -> truthful sim p -> askable q ->
  fst (fst (get_item sim q p)) = Costs r w a -> costs_asked sim q (r, w, a).
Proof.
  intros H W T A E. pose proof (get_item_outcome sim q p H W A) as O. inversion O as [x I S' F Q|x I S' F Q|k s N P M F Q|k s area read write N P M F K Q];
    rewrite <- Q in E; cbn [fst snd] in E; try discriminate.
  - unfold costs_of in E. injection E as <- <- <-. exact (same_costs sim p q x T I S').
  - unfold costs_of in E. injection E as <- <- <-. exists k, s. split; [exact P|]. now apply new_costs.
Qed.

Lemma session_true sim qs : honest sim -> Forall askable qs -> forall p, well_kept p -> truthful sim p ->
  well_kept (snd (session sim qs p)) /\ truthful sim (snd (session sim qs p)) /\
  Forall2 (fun q ans => forall r w a, ans = Costs r w a -> costs_asked sim q (r, w, a)) qs (fst (session sim qs p)).
Proof.
  intros H. induction 1 as [|q qs A _ IH]; intros p W T; [cbn; split; [exact W|]; split; [exact T|constructor]|].
  cbn [session]. pose proof (well_kept_step sim q p H W A) as W'. pose proof (truthful_step sim q p H W T A) as T'.
  pose proof (fun r w a => answer_true sim q p r w a H W T A) as C. destruct (get_item sim q p) as [[ans p'] ran]. cbn [fst snd] in *.
  specialize (IH p' W' T'). destruct (session sim qs p') as [l p'']. cbn [fst snd] in *. destruct IH as (W2 & T2 & F).
  split; [exact W2|]. split; [exact T2|]. constructor; [exact C|exact F].
Qed.

(** pools grow *)
Lemma step_extends sim (q : request) p : honest sim -> well_kept p -> askable q -> exists l, snd (fst (get_item sim q p)) = p ++ l.
Proof.
  intros H W A. pose proof (get_item_outcome sim q p H W A) as O. inversion O; subst; cbn [fst snd]; try (exists []; now rewrite app_nil_r).
  eexists. reflexivity.
Qed.
Lemma session_extends sim qs : honest sim -> Forall askable qs -> forall p, well_kept p ->
  well_kept (snd (session sim qs p)) /\ exists l, snd (session sim qs p) = p ++ l.
Proof.
  intros H. induction 1 as [|q qs A _ IH]; intros p W; [cbn; split; [exact W|exists []; now rewrite app_nil_r]|].
  cbn [session]. pose proof (well_kept_step sim q p H W A) as W'. destruct (step_extends sim q p H W A) as [l E].
  destruct (get_item sim q p) as [[ans p'] ran]. cbn [fst snd] in *. subst p'. specialize (IH _ W').
  destruct (session sim qs (p ++ l)) as [a p'']. cbn [fst snd] in *. destruct IH as [W2 [l' ->]]. split; [exact W2|].
  exists (l ++ l'). now rewrite app_assoc.
Qed.

Lemma answered_stored sim (q : request) p r w a p' ran : honest sim -> well_kept p -> askable q -> get_item sim q p = (Costs r w a, p', ran) ->
  exists x, find (wanted q) p' = Some x /\ costs_of (snd x) = Costs r w a.
Proof.
  intros H W A E. pose proof (get_item_outcome sim q p H W A) as O. rewrite E in O.
  remember (Costs r w a, p', ran) as res eqn:R. destruct O as [x I S' F|x I S' F|k s N P M F|k s area read write N P M F K]; assert (R1 := f_equal (fun y => fst (fst y)) R); assert (R2 := f_equal (fun y => snd (fst y)) R); cbn [fst snd] in R1, R2; clear R E; try discriminate.
  - subst p'. exists x. split; [exact F|exact R1].
  - subst p'. exists (new_name q s, new_entry q k s area read write). split; [|exact R1]. rewrite find_snoc.
    + assert (Y : wanted q (new_name q s, new_entry q k s area read write) = true) by (apply (wanted_iff q _ A), new_same; assumption).
      now rewrite Y.
    + destruct (find (wanted q) p) as [[k' e]|] eqn:G; [|reflexivity]. destruct (find_some _ _ G) as [I Y].
      apply (wanted_iff q _ A) in Y. now destruct (N _ _ I), Y.
Qed.

Lemma stored_found sim (q : request) p x : well_kept p -> askable q -> find (wanted q) p = Some x -> get_item sim q p = (costs_of (snd x), p, false).
Proof.
  intros W A F. assert (Wb : forall k e, In (k, e) p -> en_bank e <> None) by (intros ? ? I; exact (proj1 (proj2 W _ _ I))).
  unfold get_item. destruct (find_some _ _ F) as [I Y]. apply (wanted_iff q x A) in Y.
  assert (X : item_exists (adjusted q) p = true) by (apply (exists_iff q p A); destruct x as [k e]; exists k, e; split; [exact I|apply Y]).
  rewrite X, (find_item_spec q p Wb), F. reflexivity.
Qed.

Lemma repeated sim (q : request) qs p r w a p' ran : honest sim -> well_kept p -> askable q -> Forall askable qs ->
  get_item sim q p = (Costs r w a, p', ran) ->
  get_item sim q (snd (session sim qs p')) = (Costs r w a, snd (session sim qs p'), false).
Proof.
  intros H W A As E. pose proof (well_kept_step sim q p H W A) as W'. rewrite E in W'. cbn [fst snd] in W'.
  destruct (answered_stored sim q p r w a p' ran H W A E) as (x & F & C).
  destruct (session_extends sim qs H As p' W') as [W2 [l El]]. rewrite <- C. apply stored_found; [exact W2|exact A|].
  rewrite El. apply find_app_some, F.
Qed.

Lemma succeeds_iff sim (q : request) p : honest sim -> answers_all sim -> well_kept p -> askable q ->
  ((exists r w a, fst (fst (get_item sim q p)) = Costs r w a) <->
   ((exists x, In x p /\ same_numbers q (snd x)) -> exists x, In x p /\ same_memory q (snd x))) /\
  ((exists r w a, fst (fst (get_item sim q p)) = Costs r w a) \/ fst (fst (get_item sim q p)) = NoMatch).
Proof.
  intros H L W A. pose proof (get_item_outcome sim q p H W A) as O. inversion O as [x I S' F Q|x I S' F Q|k s N P M F Q|k s area read write N P M F K Q]; cbn [fst snd].
  - unfold costs_of. split; [|left; eauto]. split; [intros _ _; eauto|eauto].
  - split; [|now right]. split; [intros (? & ? & ? & X); discriminate|]. intros X.
    destruct (X (ex_intro _ x (conj I S'))) as (y & Iy & Sy). now destruct (F y Iy).
  - now destruct (L (new_config q k s)).
  - unfold costs_of. split; [|left; eauto]. split; [|eauto]. intros _ ([k' e] & I & S'). now destruct (N _ _ I).
Qed.

(** sizes that are not whole bytes *)
Lemma odd_size sim (q : request) p : honest sim -> well_kept p -> rq_type q = "sram" \/ rq_type q = "dram" ->
  rq_size q mod 8 <> 0 -> let '(ans, p', ran) := get_item sim q p in ran = true /\ (ans = NoMatch \/ ans = SubprocessFailed).
Proof.
  intros H W K M. assert (A : adjusted q = q) by (unfold adjusted; destruct K as [-> | ->]; reflexivity).
  unfold get_item. rewrite A.
  assert (X : item_exists q p = false).
  { apply Bool.not_true_iff_false. intros X. apply existsb_exists in X. destruct X as ([k e] & I & Y).
    unfold numbers_match in Y. rewrite !Bool.andb_true_iff, !Z.eqb_eq in Y. destruct Y as ((((((Y & _) & _) & _) & _) & _) & _).
    cbn [snd] in Y. apply M. rewrite Y. exact (proj1 (proj2 (proj2 W _ _ I))). }
  rewrite X. unfold create_item. destruct (sim (config_of q)) as [rs|] eqn:E; [|auto].
  destruct (H _ _ E) as (area & read & write & ->). cbn [fold_left fst record_row]. split; [reflexivity|]. left.
  cbn [rw_bytes rw_width config_of cf_bytes cf_bw cf_main].
  set (k := Made _ _ _ _ _ _ _). set (e := mkEntry _ _ _ _ _ _ _ _ _ _ _).
  assert (Q : forall k' e', In (k', e') (dset k e p) -> en_bank e' <> None /\ en_bits e' mod 8 = 0).
  { intros k' e' I. assert (D : NoDup (keys (dset k e p))) by (apply NoDup_dset, W). pose proof (In_dget k' e' _ D I) as G.
    destruct (name_dec k' k) as [-> | Nk].
    - rewrite dget_dset_eq in G. injection G as <-. unfold e. cbn. split; [discriminate|]. now rewrite Z.mod_mul.
    - rewrite (dget_dset_neq k' k e p Nk) in G. apply dget_In in G. destruct (proj2 W _ _ G) as (Y1 & Y2 & _). auto. }
  rewrite <- A. rewrite find_item_spec by (intros k' e' I; exact (proj1 (Q _ _ I))).
  destruct (find (wanted q) (dset k e p)) as [[k' e']|] eqn:F; [|reflexivity]. exfalso. destruct (find_some _ _ F) as [I Y].
  unfold wanted in Y. rewrite A in Y. unfold numbers_match in Y. rewrite !Bool.andb_true_iff, !Z.eqb_eq in Y.
  destruct Y as (_ & (((((Y & _) & _) & _) & _) & _) & _). cbn [snd] in Y. apply M. rewrite Y. exact (proj2 (Q _ _ I)).
Qed.

Lemma instance_spec tech type size ports q : instance_request tech type size ports = Ok q ->
  rq_type q = type /\ rq_size q = size /\ rq_rd q = 1 /\ rq_wr q = 1 /\ rq_rw q = 0 /\ rq_bank q = 1 /\ rq_tech q = tech /\
  exists p, In p ports /\ ps_type p <> PWrite /\ rq_bw q = ps_bw_max p.
Proof.
  unfold instance_request. destruct (find is_read ports) as [p|] eqn:F.
  - intros E. injection E as <-. cbn. repeat split. exists p. destruct (find_some _ _ F) as [I T]. unfold is_read in T.
    split; [exact I|]. split; [|reflexivity]. destruct (ps_type p); discriminate.
  - destruct (find is_read_write ports) as [p|] eqn:G; [|discriminate]. intros E. injection E as <-. cbn. repeat split.
    exists p. destruct (find_some _ _ G) as [I T]. unfold is_read_write in T.
    split; [exact I|]. split; [|reflexivity]. destruct (ps_type p); discriminate.
Qed.

Lemma instance_total tech type size ports :
  (exists q, instance_request tech type size ports = Ok q) <-> exists p, In p ports /\ ps_type p <> PWrite.
Proof.
  split.
  - intros [q E]. destruct (instance_spec _ _ _ _ _ E) as (_ & _ & _ & _ & _ & _ & _ & p & I & N & _). eauto.
  - intros (p & I & N). unfold instance_request. destruct (find is_read ports) as [x|] eqn:F; [eauto|].
    destruct (find is_read_write ports) as [x|] eqn:G; [eauto|]. exfalso.
    pose proof (find_none _ _ F p I) as X. pose proof (find_none _ _ G p I) as Y. unfold is_read in X. unfold is_read_write in Y.
    destruct (ps_type p); congruence.
Qed.

(** * Examples *)

(** a simulator whose costs tell what was asked *)
Definition ex_sim : simulator := fun c =>
  Some [mkRow (cf_bytes c) (cf_bw c) (inject_Z (cf_bytes c)) (if cf_main c then 7 # 1000 else 2 # 1000) (3 # 1000)].
Definition ex_request (type : string) (size : Z) : request := mkRequest type size 64 1 1 0 1 22.
Lemma ex_honest : honest ex_sim /\ answers_all ex_sim.
Proof.
  split; [|intros c; discriminate]. intros c rs E. unfold ex_sim in E. injection E as <-. do 3 eexists. reflexivity.
Qed.
Lemma ex_askable : Forall askable [ex_request "sram" 1024; ex_request "rf" 8; ex_request "dram" 4096].
Proof.
  repeat apply Forall_cons; try apply Forall_nil; (split; [|cbn; lia]).
  - exists "sram", 1024. split; [apply priced_sram|reflexivity].
  - exists "sram", (128 * 8). split; [apply priced_rf|reflexivity].
  - exists "dram", 4096. split; [apply priced_dram|reflexivity].
Qed.
Lemma empty_kept sim : well_kept [] /\ truthful sim [].
Proof. split; [split; [constructor|intros ? ? []]|intros ? ? []]. Qed.
