From Coq Require Import QArith Lqa.
From Verif Require Import Base Model_Decouple Model_DataMove Model_Links Model_Cost Model_Latency Model_Cme Spec_DataMove Spec_Cost Spec_Cme
  Proof_AllocSearch Proof_Mapping Proof_DataMove Proof_Energy Proof_Latency Proof_Cme Proof_CmeLaws.
Local Open Scope result_scope.

(** * Totals of dicts *)

Definition total_at (d : dict string (list Q)) (op : string) : Q :=
  match dget op d with Some l => qsum l | None => 0%Q end.

Lemma qsum_map_perm {A} (f : A -> Q) l l' : Permutation l l' -> (qsum (map f l) == qsum (map f l'))%Q.
Proof. intros P. induction P; cbn [map qsum fold_right]; try (unfold qsum in *; lra); reflexivity. Qed.
Lemma qsum_ext {A} (f g : A -> Q) l : (forall x, In x l -> (f x == g x)%Q) -> (qsum (map f l) == qsum (map g l))%Q.
Proof.
  induction l as [|a l IH]; intros H; [reflexivity|]. cbn [map qsum fold_right]. unfold qsum in IH.
  rewrite (H a) by now left. rewrite IH; [reflexivity|]. intros x Hx. apply H. now right.
Qed.
Lemma qsum_add {A} (f g : A -> Q) l : (qsum (map (fun x => f x + g x)%Q l) == qsum (map f l) + qsum (map g l))%Q.
Proof. induction l as [|a l IH]; cbn [map qsum fold_right]; [reflexivity|]. unfold qsum in IH. rewrite IH. ring. Qed.

Lemma total_over (d : dict string (list Q)) : forall U, NoDup (keys d) -> NoDup U -> incl (keys d) U ->
  (qsum (map (fun kv => qsum (snd kv)) d) == qsum (map (total_at d) U))%Q.
Proof.
  induction d as [|[op x] d IH]; intros U N NU I.
  - cbn [map qsum fold_right]. symmetry. clear. induction U as [|u U IH]; cbn [map qsum fold_right]; [reflexivity|]. unfold qsum in IH. rewrite IH. reflexivity.
  - cbn [keys map fst] in N, I. inversion N as [|? ? Nop N']; subst.
    destruct (in_split op U) as (u1 & u2 & ->); [apply I; now left|].
    assert (P : Permutation (u1 ++ op :: u2) (op :: u1 ++ u2)) by (symmetry; apply Permutation_middle).
    rewrite (qsum_map_perm _ _ _ P). assert (NU' := Permutation_NoDup P NU). inversion NU' as [|? ? Nu NU'']; subst.
    cbn [map snd qsum fold_right]. assert (E : total_at ((op, x) :: d) op = qsum x) by (unfold total_at; cbn [dget]; now rewrite eqb_refl). rewrite E.
    specialize (IH (u1 ++ u2) N' NU''). unfold qsum in IH |- *. rewrite IH.
    + apply Qplus_inj_l. apply qsum_ext. intros o Ho. unfold total_at. cbn [dget]. destruct (eqb_spec o op) as [E'|E']; [subst; contradiction|reflexivity].
    + intros o Ho. assert (In o (u1 ++ op :: u2)) by (apply I; now right). apply (Permutation_in _ P) in H. destruct H as [<-|H]; [contradiction|exact H].
Qed.

Lemma add_levels_sum x : forall y l, add_levels (fun a b => Ok (a + b)%Q) x y = Ok l -> (qsum l == qsum x + qsum y)%Q.
Proof.
  induction x as [|a x IH]; intros [|b y] l H; unfold add_levels in H; cbn [length Nat.min combine rmap rbind skipn app fst snd] in H.
  - injection H as <-. reflexivity.
  - injection H as <-. cbn. ring.
  - injection H as <-. rewrite app_nil_r. cbn. ring.
  - unfold add_levels in IH. specialize (IH y).
    destruct (rmap (fun ab => Ok (fst ab + snd ab)%Q) (combine x y)) as [l'|e]; [|discriminate]. cbn [rbind] in *. injection H as <-.
    specialize (IH _ eq_refl). cbn [qsum fold_right app]. unfold qsum in IH. rewrite IH. ring.
Qed.

Section Sum.
  Variable order : list string -> list string.
  Hypothesis order_perm : forall l, Permutation (order l) l.

  Lemma breakdown_sum a b r : well_formed a -> well_formed b -> cme_add order a b = Ok r ->
    (breakdown_total r == breakdown_total a + breakdown_total b)%Q.
  Proof.
    intros Wa Wb H. destruct (add_dicts order order_perm a b Wa Wb) as (bd & fu & wd & N & _ & _ & M & _ & _ & E). rewrite E in H. clear E.
    apply rbind_Ok in H. destruct H as (us & _ & H). apply rbind_Ok in H. destruct H as (acc & _ & H). injection H as <-.
    unfold breakdown_total. cbn [ev_bd]. assert (K := merged_keys _ _ _ _ M).
    rewrite (total_over bd (keys bd) N N (incl_refl _)), (total_over (ev_bd a) (keys bd) (wf_bd _ Wa) N), (total_over (ev_bd b) (keys bd) (wf_bd _ Wb) N);
      try (intros op Ho; apply K; tauto).
    rewrite <- qsum_add. apply qsum_ext. intros op _. specialize (M op). unfold total_at.
    destruct (dget op (ev_bd a)), (dget op (ev_bd b)).
    - destruct M as (l1 & Hl & ->). now apply add_levels_sum.
    - rewrite M. ring.
    - rewrite M. ring.
    - rewrite M. ring.
  Qed.

  Lemma adds_up_sum a b r : well_formed a -> well_formed b -> cme_add order a b = Ok r -> adds_up a -> adds_up b -> adds_up r.
  Proof.
    intros Wa Wb H [A1 A2] [B1 B2]. assert (T := breakdown_sum _ _ _ Wa Wb H). destruct (add_sum _ order_perm _ _ _ Wa Wb H) as [S _].
    unfold adds_up. rewrite (so_energy _ _ _ S), (so_mac _ _ _ S), (so_mem _ _ _ S), T. split; [rewrite A1, B1; ring|rewrite A2, B2; reflexivity].
  Qed.
End Sum.

(** * Multiples *)

Lemma mul_dict_spec {A} (f : A -> result A) (d : dict string (list A)) :
  (forall op l x, In (op, l) d -> In x l -> exists y, f x = Ok y) ->
  exists r, mul_dict f d = Ok r /\ keys r = keys d /\
    (forall op i, match at2 d op i with Some x => exists y, f x = Ok y /\ at2 r op i = Some y | None => at2 r op i = None end) /\
    Forall2 (fun a b => fst a = fst b /\ Forall2 (fun x y => f x = Ok y) (snd a) (snd b)) d r.
Proof.
  unfold mul_dict. induction d as [|[op l] d IH]; intros H.
  - exists []. split; [reflexivity|]. split; [reflexivity|]. split; [intros op i; reflexivity|constructor].
  - assert (L : exists l', rmap f l = Ok l' /\ Forall2 (fun x y => f x = Ok y) l l').
    { assert (Hl : forall x, In x l -> exists y, f x = Ok y) by (intros x Hx; apply (H op l x); [now left|exact Hx]).
      clear -Hl. induction l as [|x l IH]; [exists []; split; [reflexivity|constructor]|].
      destruct (Hl x) as (y & Hy); [now left|]. destruct IH as (l' & E & F); [intros z Hz; apply Hl; now right|].
      exists (y :: l'). cbn [rmap]. rewrite Hy, E. split; [reflexivity|now constructor]. }
    destruct L as (l' & El & Fl). destruct IH as (r & Er & Kr & Ar & Fr); [intros op' l'' x H1; apply (H op' l''); now right|].
    exists ((op, l') :: r). cbn [rmap fst snd]. rewrite El. cbn [rbind]. rewrite Er. split; [reflexivity|].
    split; [unfold keys in *; cbn [map fst]; now rewrite Kr|]. split.
    + intros op' i. unfold at2. cbn [dget]. destruct (eqb_spec op' op) as [E|E]; [|exact (Ar op' i)].
      clear -Fl. revert i. induction Fl as [|x y l l' Hxy F IH]; intros [|i]; cbn; eauto. apply IH.
    + constructor; [split; [reflexivity|exact Fl]|exact Fr].
Qed.

Lemma mul_four {A} zero (mul : A -> A -> A) (d : dict string (list (dict direction A))) c :
  (forall op l f, In (op, l) d -> In f l -> complete f) ->
  exists r, mul_dict (fun f => four_mul zero mul f c) d = Ok r /\ keys r = keys d /\
    (forall op i k, at3 r op i k = option_map (fun x => mul x c) (at3 d op i k)) /\
    (forall op l f, In (op, l) r -> In f l -> complete f).
Proof.
  intros C. destruct (mul_dict_spec (fun f => four_mul zero mul f c) d) as (r & Er & Kr & Ar & Fr).
  { intros op l x Hl Hx. destruct (mul_ok zero mul x c) as (h & Hh & _); [now apply (C op l)|now exists h]. }
  exists r. split; [exact Er|]. split; [exact Kr|]. split.
  - intros op i k. specialize (Ar op i). unfold at3. destruct (at2 d op i) as [f|] eqn:E; [|now rewrite Ar].
    destruct Ar as (h & Hh & ->). assert (Cf : complete f).
    { unfold at2 in E. destruct (dget op d) as [l|] eqn:El; [|discriminate]. apply nth_error_In in E. apply dget_In in El. now apply (C op l). }
    destruct (mul_ok zero mul f c Cf) as (h' & Hh' & _ & P). rewrite Hh in Hh'. injection Hh' as <-.
    destruct (Cf k) as (x & Ex). rewrite Ex. cbn. now apply P.
  - intros op l f Hl Hf. clear -C Fr Hl Hf.
    induction Fr as [|[o1 l1] [o2 l2] d r [_ F] Fr IH]; [destruct Hl|]. destruct Hl as [Hl|Hl].
    + injection Hl as -> ->. cbn [snd] in F. assert (C1 : forall f, In f l1 -> complete f) by (intros g Hg; apply (C o1 l1); [now left|exact Hg]).
      clear -F C1 Hf. induction F as [|x y l1 l2 Hxy F IH]; [destruct Hf|]. destruct Hf as [<-|Hf].
      * destruct (mul_ok zero mul x c) as (h & Hh & Ch & _); [apply C1; now left|]. rewrite Hxy in Hh. now injection Hh as <-.
      * apply IH; [exact Hf|]. intros g Hg. apply C1. now right.
    + apply IH; [|exact Hl]. intros o l' g H1. apply (C o l'). now right.
Qed.

Lemma mul_nz x n : n <> 0%Z -> (~ x == 0)%Q -> (~ x * inject_Z n == 0)%Q.
Proof.
  intros Hn Hx H. apply Qmult_integral in H. destruct H as [H|H]; [now apply Hx|]. unfold Qeq in H. cbn in H. lia.
Qed.

Lemma cme_mul_ok a n : well_formed a -> nonzero a -> n <> 0%Z ->
  exists r, cme_mul a n = Ok r /\ multiple_of n a r /\ well_formed r.
Proof.
  intros [A1 A2 A3 A4 A5 A6 A7 A8] (Z1 & Z2 & Z3 & Z4) Hn.
  destruct (mul_dict_spec (fun x => Ok (x * inject_Z n)%Q) (ev_bd a)) as (bd & E1 & K1 & R1 & _); [intros; now eexists|].
  destruct (mul_four 0%Q Qmult (ev_further a) (inject_Z n) A6) as (fu & E2 & K2 & R2 & C2).
  destruct (mul_four 0%Z Z.mul (ev_words a) n A7) as (wd & E3 & K3 & R3 & C3).
  destruct (utils_ok (ev_ideal a * inject_Z n) (ev_temporal a * inject_Z n) (ev_l0 a * inject_Z n) (ev_l1 a * inject_Z n) (ev_l2 a * inject_Z n))
    as (s & u0 & u1 & u2 & E4); try (apply mul_nz; assumption).
  unfold cme_mul. rewrite E1. cbn [rbind]. rewrite E2. cbn [rbind]. rewrite E3. cbn [rbind]. rewrite E4. cbn [rbind].
  eexists. split; [reflexivity|]. apply utils_inv in E4. destruct E4 as (_ & _ & _ & _ & s' & v0 & v1 & v2 & E & Q1 & Q2 & Q3 & Q4).
  injection E as <- <- <- <-.
  split; constructor; cbn [ev_bd ev_further ev_words ev_mac ev_mem ev_energy ev_on ev_off ev_ideal ev_temporal ev_l0 ev_l1 ev_l2 ev_utils ev_layers ev_acc]; try reflexivity.
  - intros op lv. specialize (R1 op lv). destruct (at2 (ev_bd a) op lv); [|exact R1]. destruct R1 as (y & Ey & ->). injection Ey as <-. reflexivity.
  - exact R2.
  - exact R3.
  - exact K1.
  - exists s, u0, u1, u2. now repeat split.
  - now rewrite K1.
  - now rewrite K2.
  - now rewrite K3.
  - intros op. now rewrite K1, K2.
  - intros op. now rewrite K1, K3.
  - exact C2.
  - exact C3.
  - exact A8.
Qed.

Lemma cme_mul_zero a : well_formed a -> cme_mul a 0 = Err ZeroDivisionError.
Proof.
  intros [A1 A2 A3 A4 A5 A6 A7 A8].
  destruct (mul_dict_spec (fun x => Ok (x * inject_Z 0)%Q) (ev_bd a)) as (bd & E1 & _); [intros; now eexists|].
  destruct (mul_four 0%Q Qmult (ev_further a) (inject_Z 0) A6) as (fu & E2 & _).
  destruct (mul_four 0%Z Z.mul (ev_words a) 0 A7) as (wd & E3 & _).
  unfold cme_mul. rewrite E1. cbn [rbind]. rewrite E2. cbn [rbind]. rewrite E3. cbn [rbind].
  unfold utilizations, pdiv at 1, qis0. assert (E : (ev_temporal a * inject_Z 0 == 0)%Q) by (change (inject_Z 0) with 0%Q; ring).
  apply Qeq_bool_iff in E. rewrite E. reflexivity.
Qed.

(** Utilizations are unchanged. *)
Lemma mul_utils a n r : n <> 0%Z -> nonzero a -> right_utils a -> multiple_of n a r ->
  exists s u0 u1 u2 s' v0 v1 v2, ev_utils a = Some (s, u0, u1, u2) /\ ev_utils r = Some (s', v0, v1, v2) /\
    (s' == s /\ v0 == u0 /\ v1 == u1 /\ v2 == u2)%Q.
Proof.
  intros Hn (Z1 & Z2 & Z3 & Z4) (s & u0 & u1 & u2 & E & Q1 & Q2 & Q3 & Q4) M.
  destruct (mu_utils _ _ _ M) as (s' & v0 & v1 & v2 & E' & P1 & P2 & P3 & P4).
  exists s, u0, u1, u2, s', v0, v1, v2. split; [exact E|]. split; [exact E'|].
  rewrite (mu_temporal _ _ _ M), (mu_ideal _ _ _ M) in P1. rewrite (mu_l0 _ _ _ M), (mu_ideal _ _ _ M) in P2.
  rewrite (mu_l1 _ _ _ M), (mu_ideal _ _ _ M) in P3. rewrite (mu_l2 _ _ _ M), (mu_ideal _ _ _ M) in P4.
  assert (G : forall u v t, (~ t == 0 -> u * t == ev_ideal a -> v * (t * inject_Z n) == ev_ideal a * inject_Z n -> v == u)%Q).
  { intros u v t Ht Hu Hv. rewrite <- Hu in Hv. apply (Qmult_inj_r _ _ (t * inject_Z n)); [now apply mul_nz|]. rewrite Hv. ring. }
  repeat split; [apply (G _ _ (ev_temporal a))|apply (G _ _ (ev_l0 a))|apply (G _ _ (ev_l1 a))|apply (G _ _ (ev_l2 a))]; assumption.
Qed.

Lemma opt_mul_1 x : opt_eq (option_map (fun x => x * inject_Z 1)%Q x) x.
Proof. destruct x; cbn; [change (inject_Z 1) with 1%Q; ring|exact I]. Qed.

Lemma multiple_1 a r : multiple_of 1 a r -> same_numbers r a.
Proof.
  intros [A1 A2 A3 A4 A5 A6 A7 A8 A9 A10 A11 A12 A13 A14 _ _ _].
  constructor; intros; try (rewrite A5 || rewrite A6 || rewrite A7 || rewrite A8 || rewrite A9 || rewrite A10 || rewrite A11 || rewrite A12 || rewrite A13 || rewrite A14; change (inject_Z 1) with 1%Q; ring).
  - rewrite A1. apply opt_mul_1.
  - rewrite A2. apply opt_mul_1.
  - rewrite A3. destruct (at3 (ev_words a) op lv k); cbn; [f_equal; lia|reflexivity].
  - now rewrite A4.
Qed.

(** Multiplying the sum is adding the multiples. *)
Lemma multiple_sum n a b ab r an bn r' : sum_of a b ab -> multiple_of n ab r -> multiple_of n a an -> multiple_of n b bn -> sum_of an bn r' ->
  same_numbers r r'.
Proof.
  intros [A1 A2 A3 A4 A5 A6 A7 A8 A9 A10 A11 A12 A13 A14 _ _ _] [B1 B2 B3 B4 B5 B6 B7 B8 B9 B10 B11 B12 B13 B14 _ _ _]
    [C1 C2 C3 C4 C5 C6 C7 C8 C9 C10 C11 C12 C13 C14 _ _ _] [D1 D2 D3 D4 D5 D6 D7 D8 D9 D10 D11 D12 D13 D14 _ _ _]
    [F1 F2 F3 F4 F5 F6 F7 F8 F9 F10 F11 F12 F13 F14 _ _ _].
  constructor; intros; try (rewrite F5, C5, D5, B5, A5 || rewrite F6, C6, D6, B6, A6 || rewrite F7, C7, D7, B7, A7 || rewrite F8, C8, D8, B8, A8 || rewrite F9, C9, D9, B9, A9 || rewrite F10, C10, D10, B10, A10 || rewrite F11, C11, D11, B11, A11 || rewrite F12, C12, D12, B12, A12 || rewrite F13, C13, D13, B13, A13 || rewrite F14, C14, D14, B14, A14; ring).
  - rewrite F1, C1, D1, B1, A1. destruct (at2 (ev_bd a) op lv), (at2 (ev_bd b) op lv); cbn; try reflexivity. ring.
  - rewrite F2, C2, D2, B2, A2. destruct (at3 (ev_further a) op lv k), (at3 (ev_further b) op lv k); cbn; try reflexivity. ring.
  - rewrite F3, C3, D3, B3, A3. destruct (at3 (ev_words a) op lv k), (at3 (ev_words b) op lv k); cbn; try reflexivity. f_equal. ring.
  - rewrite F4, C4, D4, B4, A4. tauto.
Qed.

(** One more is one addition more. *)
Lemma multiple_succ n a an r r' : multiple_of n a an -> multiple_of (n + 1) a r -> sum_of an a r' -> same_numbers r r'.
Proof.
  intros [A1 A2 A3 A4 A5 A6 A7 A8 A9 A10 A11 A12 A13 A14 _ _ _] [B1 B2 B3 B4 B5 B6 B7 B8 B9 B10 B11 B12 B13 B14 _ _ _]
    [F1 F2 F3 F4 F5 F6 F7 F8 F9 F10 F11 F12 F13 F14 _ _ _].
  assert (I : forall x, (x * inject_Z (n + 1) == x * inject_Z n + x)%Q) by (intros x; rewrite inject_Z_plus; change (inject_Z 1) with 1%Q; ring).
  constructor; intros; try (rewrite F5, A5, B5 || rewrite F6, A6, B6 || rewrite F7, A7, B7 || rewrite F8, A8, B8 || rewrite F9, A9, B9 || rewrite F10, A10, B10 || rewrite F11, A11, B11 || rewrite F12, A12, B12 || rewrite F13, A13, B13 || rewrite F14, A14, B14; apply I).
  - rewrite F1, A1, B1. destruct (at2 (ev_bd a) op lv); [apply I|exact Logic.I].
  - rewrite F2, A2, B2. destruct (at3 (ev_further a) op lv k); [apply I|exact Logic.I].
  - rewrite F3, A3, B3. destruct (at3 (ev_words a) op lv k); [cbn; f_equal; ring|reflexivity].
  - rewrite F4, A4, B4. tauto.
Qed.

(** * Evaluations *)

Lemma F2_keys {A B} (R : string * A -> string * B -> Prop) d d' : Forall2 (fun a b => fst a = fst b /\ R a b) d d' -> keys d' = keys d.
Proof. intros F. unfold keys. induction F as [|x y d d' [E _] F IH]; [reflexivity|]. cbn. now rewrite E, IH. Qed.

Lemma words_keys ci acc : NoDup (in_ops ci) -> calc_memory_word_access ci = Ok acc -> NoDup (keys acc).
Proof.
  intros N H. unfold calc_memory_word_access in H. apply rbind_Ok in H. destruct H as (all & Ha & H). injection H as <-.
  assert (K : keys all = in_ops ci).
  { clear -Ha. revert all Ha. induction (in_ops ci) as [|op ops IH]; intros all Ha; cbn [rmap] in Ha; [injection Ha as <-; reflexivity|].
    destruct (word_accesses_of ci op) as [x|]; cbn [rbind] in Ha; [|discriminate]. destruct (rmap _ ops) as [l|]; [|discriminate]. injection Ha as <-.
    unfold keys in *. cbn [map fst]. f_equal. now apply IH. }
  rewrite <- K in N. clear -N. induction all as [|[op l] all IH]; [constructor|]. cbn [keys map fst] in N. inversion N as [|? ? Nop N']; subst.
  cbn [filter snd]. destruct l; [now apply IH|]. unfold keys. cbn [map fst]. constructor; [|now apply IH].
  intros Hi. apply Nop. apply in_map_iff in Hi. destruct Hi as ([o l'] & E & Hi). apply filter_In in Hi. destruct Hi as [Hi _]. cbn in E. subst o.
  apply in_map_iff. now exists (op, l').
Qed.

Definition nonzero_lat (la : latency) : Prop :=
  (~ la_temporal la == 0 /\ ~ la_total0 la == 0 /\ ~ la_total1 la == 0 /\ ~ la_total2 la == 0)%Q.

Lemma cme_of_ok ci i name e : NoDup (in_ops ci) -> cme_of ci i name = Ok e ->
  well_formed e /\ right_utils e /\ adds_up e /\ ev_layers e = inl i /\ ev_acc e = Some name /\ nonzero e.
Proof.
  intros N H. unfold cme_of in H.
  apply rbind_Ok in H. destruct H as (ind & _ & H). apply rbind_Ok in H. destruct H as (sh & _ & H).
  apply rbind_Ok in H. destruct H as (acc & Hacc & H). apply rbind_Ok in H. destruct H as ([[[bd fu] mem] total] & He & H).
  apply rbind_Ok in H. destruct H as (la & Hla & H). injection H as <-.
  assert (G := words_good _ _ Hacc). assert (Nk := words_keys _ _ N Hacc).
  destruct (energy_ok ci acc G) as (bd' & fu' & mem' & total' & He' & T1 & T2 & F1 & F2). rewrite He in He'. injection He' as <- <- <- <-.
  assert (K1 := F2_keys _ _ _ F1). assert (K2 := F2_keys _ _ _ F2).
  apply latency_inv in Hla. destruct Hla as (? & ? & ? & ? & ? & ? & ? & _ & _ & _ & _ & _ & _ & _ & _ & Ho).
  assert (Z : nonzero_lat la).
  { unfold overall_latency in Ho. apply rbind_Ok in Ho. destruct Ho as (per & _ & Ho).
    cbv zeta in Ho.
    apply rbind_Ok in Ho. destruct Ho as (su & P1 & Ho). apply rbind_Ok in Ho. destruct Ho as (u0 & P2 & Ho).
    apply rbind_Ok in Ho. destruct Ho as (u1 & P3 & Ho). apply rbind_Ok in Ho. destruct Ho as (u2 & P4 & Ho). injection Ho as <-.
    assert (P : forall a b c, pdiv a b = Ok c -> (~ b == 0)%Q).
    { intros a b c. unfold pdiv, qis0. destruct (Qeq_bool b 0) eqn:E; [discriminate|]. intros _ E2. apply Qeq_bool_iff in E2. congruence. }
    apply P in P1, P2, P3, P4. repeat split; assumption. }
  destruct (overall_spec _ _ _ _ _ Ho) as (_ & _ & _ & _ & _ & _ & U1 & U2 & U3 & U4).
  split; [|split; [|split; [|split; [reflexivity|split; [reflexivity|exact Z]]]]].
  - constructor; cbn [ev_bd ev_further ev_words ev_layers ev_acc].
    + now rewrite K1. + now rewrite K2. + exact Nk.
    + intros op. now rewrite K1, K2. + intros op. now rewrite K1.
    + intros op l f Hl Hf. clear -F2 Hl Hf G.
      assert (W : forall acc fu, Forall2 (fun a e => fst a = fst e /\ exists ms, memories_of ci (fst a) ms /\
                   entries (fun m f g => forall k, exists x, dget k g = Some x /\ (x == dir_energy m f k)%Q) ms (snd a) (snd e)) acc fu ->
                 good_accesses ci acc -> forall op l f, In (op, l) fu -> In f l -> complete f).
      { clear. intros acc fu F. induction F as [|[o a] [o' e] acc fu (E & ms & Hms & L & P) F IH]; intros G op l f Hl Hf; [destruct Hl|].
        destruct Hl as [Hl|Hl].
        - injection Hl as -> ->. cbn [fst snd] in *. apply In_nth_error in Hf. destruct Hf as (lv & Hlv).
          assert (lv < length l)%nat by (apply nth_error_Some; congruence).
          destruct (G o a) as [(ms' & Hms' & Le) _]; [now left|]. assert (ms' = ms) by (destruct Hms as (? & q1 & q2), Hms' as (? & q3 & q4); congruence). subst ms'.
          destruct (nth_error ms lv) as [m|] eqn:Em; [|apply nth_error_None in Em; lia].
          destruct (nth_error a lv) as [g|] eqn:Eg; [|apply nth_error_None in Eg; lia].
          intros k. destruct (P lv m g f Em Eg Hlv k) as (x & Hx & _). now exists x.
        - apply (IH (fun o1 f1 H1 => G o1 f1 (or_intror H1)) op l f Hl Hf). }
      exact (W _ _ F2 G op l f Hl Hf).
    + intros op l f Hl Hf. now apply (G op l).
    + discriminate.
  - exists (la_spatial_util la), (la_util0 la), (la_util1 la), (la_util2 la). now repeat split.
  - unfold adds_up, breakdown_total. cbn [ev_energy ev_mac ev_mem ev_bd]. split; [|exact T2]. rewrite T1. reflexivity.
Qed.
