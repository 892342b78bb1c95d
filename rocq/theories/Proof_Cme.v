From Coq Require Import QArith Lqa.
From Verif Require Import Base Model_Decouple Model_DataMove Model_Links Model_Cost Model_Latency Model_Cme Spec_DataMove Spec_Cme
  Proof_AllocSearch Proof_Mapping Proof_DataMove Proof_Energy.
Local Open Scope result_scope.

(** * Merging dicts of lists *)

Definition opt_res {A} (f : A -> A -> result A) (x y z : option A) : Prop :=
  match x, y with
  | Some a, Some b => exists c, f a b = Ok c /\ z = Some c
  | Some a, None => z = Some a
  | None, o => z = o
  end.

Lemma add_levels_ok {A} (f : A -> A -> result A) x : forall y,
  (forall a b, In a x -> In b y -> exists c, f a b = Ok c) ->
  exists l, add_levels f x y = Ok l /\ forall i, opt_res f (nth_error x i) (nth_error y i) (nth_error l i).
Proof.
  induction x as [|a x IH]; intros y H.
  - exists y. unfold add_levels. cbn [length Nat.min combine rmap rbind skipn app]. split; [reflexivity|].
    intros i. rewrite (proj2 (nth_error_None (@nil A) i)) by (cbn; lia). reflexivity.
  - destruct y as [|b y].
    + exists (a :: x). unfold add_levels. cbn. rewrite app_nil_r. split; [reflexivity|].
      intros i. rewrite (proj2 (nth_error_None (@nil A) i)) by (cbn; lia). destruct (nth_error (a :: x) i); reflexivity.
    + destruct (H a b) as (c & Hc); [now left|now left|].
      destruct (IH y) as (l & Hl & Hi); [intros a' b' Ha Hb; apply H; now right|].
      unfold add_levels in Hl |- *. cbn [length Nat.min combine rmap fst snd skipn]. rewrite Hc.
      destruct (rmap (fun ab => f (fst ab) (snd ab)) (combine x y)) as [l'|e]; [|discriminate].
      cbn [rbind] in Hl |- *. injection Hl as <-. eexists. split; [reflexivity|].
      intros [|i]; [exists c; now split|]. apply Hi.
Qed.

Definition merged {A} (f : A -> A -> result A) (d d' r : dict string (list A)) : Prop :=
  forall op, match dget op d, dget op d' with
             | Some x, Some y => exists l, add_levels f x y = Ok l /\ dget op r = Some l
             | Some x, None => dget op r = Some x
             | None, o => dget op r = o
             end.
Definition total_on {A} (f : A -> A -> result A) (d d' : dict string (list A)) : Prop :=
  forall op x y a b, dget op d = Some x -> dget op d' = Some y -> In a x -> In b y -> exists c, f a b = Ok c.

Lemma add_common_ok {A} (f : A -> A -> result A) (d d' : dict string (list A)) :
  NoDup (keys d) -> total_on f d d' ->
  exists r, add_common f d d' = Ok r /\ NoDup (keys r) /\
  forall op, match dget op d, dget op d' with
             | Some x, Some y => exists l, add_levels f x y = Ok l /\ dget op r = Some l
             | _, _ => dget op r = None
             end.
Proof.
  unfold add_common. set (step := fun acc kv => _).
  assert (G : forall d acc, NoDup (keys d) -> total_on f d d' -> NoDup (keys acc) ->
    exists r, rfold step acc d = Ok r /\ NoDup (keys r) /\
    forall op, match dget op d, dget op d' with
               | Some x, Some y => exists l, add_levels f x y = Ok l /\ dget op r = Some l
               | _, _ => dget op r = dget op acc
               end).
  { clear d. induction d as [|[op x] d IH]; intros acc N T Na.
    - exists acc. now split; [|split].
    - cbn [keys map fst] in N. inversion N as [|? ? Nop N']; subst.
      assert (T' : total_on f d d').
      { intros op' x' y' a b H1. apply (T op'). cbn [dget]. destruct (eqb_spec op' op) as [E|E]; [|exact H1].
        subst op'. apply dget_Some_key in H1. now destruct Nop. }
      cbn [rfold]. unfold step at 1. cbn [fst snd].
      destruct (dget op d') as [y|] eqn:Hy.
      + destruct (add_levels_ok f x y) as (l & Hl & _).
        { intros a b Ha Hb. apply (T op x y a b); try assumption. cbn [dget]. now rewrite eqb_refl. }
        rewrite Hl. cbn [rbind].
        destruct (IH (dset op l acc) N' T') as (r & Hr & Nr & Sr); [now apply NoDup_dset|].
        exists r. split; [exact Hr|]. split; [exact Nr|]. intros op'. cbn [dget].
        destruct (eqb_spec op' op) as [E|E].
        * subst op'. rewrite Hy. exists l. split; [exact Hl|]. specialize (Sr op).
          rewrite (proj2 (dget_None op d) Nop) in Sr. rewrite Sr. apply dget_dset_eq.
        * specialize (Sr op'). destruct (dget op' d), (dget op' d'); try exact Sr; rewrite Sr; now apply dget_dset_neq.
      + destruct (IH acc N' T' Na) as (r & Hr & Nr & Sr).
        exists r. split; [exact Hr|]. split; [exact Nr|]. intros op'. cbn [dget].
        destruct (eqb_spec op' op) as [E|E]; [|exact (Sr op')].
        subst op'. rewrite Hy. specialize (Sr op). rewrite (proj2 (dget_None op d) Nop) in Sr. exact Sr. }
  intros N T. destruct (G d [] N T) as (r & Hr & Nr & Sr); [apply NoDup_nil|]. exists r. split; [exact Hr|]. split; [exact Nr|exact Sr].
Qed.

Lemma copy_ops_ok {A} (src : dict string (list A)) ops : forall acc, (forall op, In op ops -> In op (keys src)) -> NoDup (keys acc) ->
  exists r, copy_ops src ops acc = Ok r /\ NoDup (keys r) /\ forall op, dget op r = if memb op ops then dget op src else dget op acc.
Proof.
  unfold copy_ops. induction ops as [|o ops IH]; intros acc H N; [exists acc; now split; [|split]|].
  cbn [rfold]. destruct (key_dget o src) as (x & Hx); [apply H; now left|]. unfold dgetr at 1. rewrite Hx. cbn [of_option rbind].
  destruct (IH (dset o x acc)) as (r & Hr & Nr & Sr); [intros op Ho; apply H; now right|now apply NoDup_dset|].
  exists r. split; [exact Hr|]. split; [exact Nr|]. intros op. rewrite Sr.
  destruct (memb op ops) eqn:M; [unfold memb in *; cbn [existsb]; rewrite M; now rewrite orb_true_r|].
  unfold memb in *. cbn [existsb]. rewrite M, orb_false_r. destruct (eqb_spec op o) as [E|E]; [subst; now rewrite dget_dset_eq|now apply dget_dset_neq].
Qed.

Lemma dget_key {A} op (d : dict string A) x : dget op d = Some x -> In op (keys d).
Proof. apply dget_Some_key. Qed.

Lemma merge_ok {A} (f : A -> A -> result A) (d d' : dict string (list A)) da db :
  NoDup (keys d) -> total_on f d d' ->
  (forall op, In op da <-> In op (keys d) /\ ~ In op (keys d')) -> (forall op, In op db <-> In op (keys d') /\ ~ In op (keys d)) ->
  exists c r1 r2, add_common f d d' = Ok c /\ copy_ops d da c = Ok r1 /\ copy_ops d' db r1 = Ok r2 /\
    NoDup (keys r2) /\ merged f d d' r2.
Proof.
  intros N T Ha Hb. destruct (add_common_ok f d d' N T) as (c & Hc & Nc & Sc).
  destruct (copy_ops_ok d da c) as (r1 & H1 & N1 & S1); [intros op Ho; now apply Ha in Ho|exact Nc|].
  destruct (copy_ops_ok d' db r1) as (r2 & H2 & N2 & S2); [intros op Ho; now apply Hb in Ho|exact N1|].
  exists c, r1, r2. repeat split; try assumption. intros op. specialize (Sc op). rewrite S2, S1.
  assert (Ea : memb op da = true <-> In op da) by (apply memb_In). assert (Eb : memb op db = true <-> In op db) by (apply memb_In).
  rewrite Ha in Ea. rewrite Hb in Eb.
  assert (Kd : forall (d : dict string (list A)), In op (keys d) <-> dget op d <> None).
  { intros e. split; [intros K E; now apply dget_None in E|]. intros K. destruct (dget op e) eqn:E; [now apply dget_key in E|congruence]. }
  rewrite !Kd in Ea, Eb.
  destruct (dget op d) as [x|] eqn:Ex, (dget op d') as [y|] eqn:Ey.
  - destruct (memb op db); [exfalso; assert (K := proj1 Eb eq_refl); now apply (proj2 K)|].
    destruct (memb op da); [exfalso; assert (K := proj1 Ea eq_refl); now apply (proj2 K)|]. exact Sc.
  - destruct (memb op db); [exfalso; assert (K := proj1 Eb eq_refl); now apply (proj1 K)|].
    destruct (memb op da) eqn:M; [reflexivity|]. exfalso. assert (false = true) by (apply Ea; split; [discriminate|intros K; now apply K]). discriminate.
  - destruct (memb op db) eqn:M; [reflexivity|]. exfalso. assert (false = true) by (apply Eb; split; [discriminate|intros K; now apply K]). discriminate.
  - destruct (memb op db); [reflexivity|]. destruct (memb op da); [reflexivity|exact Sc].
Qed.

Lemma merged_at2 {A} (f : A -> A -> result A) d d' r : total_on f d d' -> merged f d d' r ->
  forall op i, opt_res f (at2 d op i) (at2 d' op i) (at2 r op i).
Proof.
  intros T M op i. specialize (M op). unfold at2.
  destruct (dget op d) as [x|] eqn:Ex, (dget op d') as [y|] eqn:Ey.
  - destruct M as (l & Hl & ->). destruct (add_levels_ok f x y) as (l' & Hl' & Hi); [intros a b; now apply (T op)|].
    rewrite Hl in Hl'. injection Hl' as <-. apply Hi.
  - rewrite M. destruct (nth_error x i); reflexivity.
  - rewrite M. reflexivity.
  - rewrite M. reflexivity.
Qed.

Lemma merged_keys {A} (f : A -> A -> result A) d d' r : merged f d d' r ->
  forall op, In op (keys r) <-> In op (keys d) \/ In op (keys d').
Proof.
  intros M op. specialize (M op).
  assert (Kd : forall (d : dict string (list A)), In op (keys d) <-> dget op d <> None).
  { intros e. split; [intros K E; now apply dget_None in E|]. intros K. destruct (dget op e) eqn:E; [now apply dget_key in E|congruence]. }
  rewrite !Kd. destruct (dget op d) as [x|], (dget op d') as [y|].
  - destruct M as (z & _ & ->). split; [intros _; left|intros _]; discriminate.
  - rewrite M. split; [intros _; left|intros _]; discriminate.
  - rewrite M. split; [intros _; right|intros _]; discriminate.
  - rewrite M. split; [tauto|]. intros [H|H]; exact H.
Qed.

Lemma four_at3 {A} zero (add : A -> A -> A) d d' r :
  (forall op l f, In (op, l) d -> In f l -> complete f) -> (forall op l f, In (op, l) d' -> In f l -> complete f) ->
  (forall op i, opt_res (four_add zero add) (at2 d op i) (at2 d' op i) (at2 r op i)) ->
  forall op i k, at3 r op i k = opt_add add (at3 d op i k) (at3 d' op i k).
Proof.
  intros C C' H op i k. specialize (H op i). unfold at3.
  assert (K : forall (d : dict string (list (dict direction A))), (forall op l f, In (op, l) d -> In f l -> complete f) ->
    forall f, at2 d op i = Some f -> complete f).
  { intros e Ce f. unfold at2. destruct (dget op e) as [l|] eqn:E; [|discriminate]. intros N. apply nth_error_In in N. apply dget_In in E. now apply (Ce op l). }
  destruct (at2 d op i) as [f|] eqn:Ef, (at2 d' op i) as [g|] eqn:Eg; cbn in H.
  - destruct H as (h & Hh & ->). destruct (add_ok zero add f g) as (h' & Hh' & P); [now apply (K d)|now apply (K d')|].
    rewrite Hh in Hh'. injection Hh' as <-. destruct (K d C f Ef k) as (x & Ex), (K d' C' g Eg k) as (y & Ey).
    rewrite Ex, Ey. cbn. now apply P.
  - rewrite H. destruct (dget k f); reflexivity.
  - now rewrite H.
  - now rewrite H.
Qed.

Lemma four_complete {A} zero (add : A -> A -> A) d d' r :
  (forall op l f, In (op, l) d -> In f l -> complete f) -> (forall op l f, In (op, l) d' -> In f l -> complete f) ->
  NoDup (keys r) ->
  (forall op i, opt_res (four_add zero add) (at2 d op i) (at2 d' op i) (at2 r op i)) ->
  forall op l f, In (op, l) r -> In f l -> complete f.
Proof.
  intros C C' N H op l f Hl Hf. apply In_nth_error in Hf. destruct Hf as (i & Hi).
  assert (E : at2 r op i = Some f) by (unfold at2; now rewrite (In_dget op l r N Hl)).
  specialize (H op i). rewrite E in H.
  assert (K : forall (d : dict string (list (dict direction A))), (forall op l f, In (op, l) d -> In f l -> complete f) ->
    forall f, at2 d op i = Some f -> complete f).
  { intros e Ce g. unfold at2. destruct (dget op e) as [m|] eqn:E'; [|discriminate]. intros N'. apply nth_error_In in N'. apply dget_In in E'. now apply (Ce op m). }
  destruct (at2 d op i) as [g|] eqn:Eg, (at2 d' op i) as [h|] eqn:Eh; cbn in H.
  - destruct H as (c & Hc & E'). injection E' as <-.
    destruct (add_ok zero add g h) as (c' & Hc' & P & _); [now apply (K d)|now apply (K d')|]. rewrite Hc in Hc'. now injection Hc' as <-.
  - injection H as ->. now apply (K d).
  - injection H as ->. now apply (K d').
  - discriminate.
Qed.

(** * Accelerators *)

Lemma prefix_extends x y : String.prefix x y = true <-> extends x y.
Proof.
  revert y. induction x as [|c x IH]; intros y.
  - split; [intros _; exists y; reflexivity|destruct y; reflexivity].
  - destruct y as [|c' y]; cbn.
    + split; [discriminate|]. intros (s & E). discriminate.
    + destruct (Ascii.ascii_dec c c') as [E|E].
      * subst c'. rewrite IH. split; intros (s & Es); exists s; [now subst y|]. cbn in Es. now injection Es.
      * split; [discriminate|]. intros (s & Es). cbn in Es. injection Es as E' _. congruence.
Qed.

Lemma pick_ok a b : well_formed a -> well_formed b ->
  (compatible (ev_acc a) (ev_acc b) -> exists r, pick_accelerator a b = Ok r) /\
  (forall r, pick_accelerator a b = Ok r -> compatible (ev_acc a) (ev_acc b) /\ chosen (ev_acc a) (ev_acc b) r).
Proof.
  intros Wa Wb. unfold pick_accelerator. assert (Aa := wf_acc _ Wa). assert (Ab := wf_acc _ Wb).
  destruct (ev_layers a) as [i|la] eqn:La, (ev_acc a) as [x|] eqn:Ea, (ev_layers b) as [j|lb] eqn:Lb, (ev_acc b) as [y|] eqn:Eb;
    try (exfalso; now apply (Aa i)); try (exfalso; now apply (Ab j)); cbn [compatible chosen].
  all: try (split; [intros _; eexists; reflexivity|intros r E; injection E as <-; split; [exact I|reflexivity]]).
  all: try (split; [intros []|discriminate]).
  all: assert (P1 := prefix_extends x y); assert (P2 := prefix_extends y x).
  all: destruct (String.prefix y x); [|destruct (String.prefix x y)].
  all: split; [intros H; first [eexists; reflexivity|exfalso; destruct H as [H|H]; [apply P1 in H|apply P2 in H]; discriminate]|].
  all: intros r E; try discriminate; injection E as <-; assert (Hp := eq_refl true); first [apply P2 in Hp|apply P1 in Hp]; split; auto.
Qed.

(** * Sums *)

Lemma utils_ok i t x y z : (~ t == 0 -> ~ x == 0 -> ~ y == 0 -> ~ z == 0 ->
  exists s u0 u1 u2, utilizations i t x y z = Ok (s, u0, u1, u2))%Q.
Proof.
  intros Ht Hx Hy Hz. unfold utilizations. rewrite !pdiv_ok by assumption. cbn [rbind]. do 4 eexists. reflexivity.
Qed.
Lemma utils_inv i t x y z us : utilizations i t x y z = Ok us ->
  (~ t == 0 /\ ~ x == 0 /\ ~ y == 0 /\ ~ z == 0 /\
   exists s u0 u1 u2, us = (s, u0, u1, u2) /\ s * t == i /\ u0 * x == i /\ u1 * y == i /\ u2 * z == i)%Q.
Proof.
  unfold utilizations. intros H.
  assert (P : forall a b c, pdiv a b = Ok c -> (~ b == 0)%Q /\ (c * b == a)%Q).
  { intros a b c. unfold pdiv, qis0. destruct (Qeq_bool b 0) eqn:E; [discriminate|]. intros E'. injection E' as <-.
    assert (N : ~ (b == 0)%Q) by (intros E2; apply Qeq_bool_iff in E2; congruence). split; [exact N|]. field. exact N. }
  apply rbind_Ok in H. destruct H as (s & H1 & H). apply rbind_Ok in H. destruct H as (u0 & H2 & H).
  apply rbind_Ok in H. destruct H as (u1 & H3 & H). apply rbind_Ok in H. destruct H as (u2 & H4 & H). injection H as <-.
  apply P in H1, H2, H3, H4. destruct H1, H2, H3, H4. repeat split; try assumption. exists s, u0, u1, u2. now repeat split.
Qed.

Section Order.
  Variable order : list string -> list string.
  Hypothesis order_perm : forall l, Permutation (order l) l.

  Lemma diff_spec {A} (d d' c : dict string (list A)) f : NoDup (keys d) -> total_on f d d' -> add_common f d d' = Ok c ->
    (forall op, In op (order (keys_minus d c)) <-> In op (keys d) /\ ~ In op (keys d')) /\
    (forall op, In op (order (keys_minus d' c)) <-> In op (keys d') /\ ~ In op (keys d)).
  Proof.
    intros N T H. destruct (add_common_ok f d d' N T) as (c' & Hc & _ & Sc). rewrite H in Hc. injection Hc as <-.
    assert (K : forall op, In op (keys c) <-> In op (keys d) /\ In op (keys d')).
    { intros op. specialize (Sc op).
      assert (Kd : forall (d : dict string (list A)), In op (keys d) <-> dget op d <> None).
      { intros e. split; [intros K E; now apply dget_None in E|]. intros K. destruct (dget op e) eqn:E; [now apply dget_key in E|congruence]. }
      rewrite !Kd. destruct (dget op d) as [x|], (dget op d') as [y|]; [destruct Sc as (l & _ & ->)|rewrite Sc..]; split; try (intros [? ?]); try tauto; now repeat split. }
    assert (G : forall (e : dict string (list A)) op, In op (order (keys_minus e c)) <-> In op (keys e) /\ ~ In op (keys c)).
    { intros e op. split.
      - intros Hi. apply (Permutation_in _ (order_perm _)) in Hi. unfold keys_minus in Hi. apply filter_In in Hi. destruct Hi as [H1 H2]. split; [exact H1|].
        intros H3. apply memb_In in H3. rewrite H3 in H2. discriminate.
      - intros [H1 H2]. apply (Permutation_in _ (Permutation_sym (order_perm _))). unfold keys_minus. apply filter_In. split; [exact H1|].
        destruct (memb op (keys c)) eqn:M; [|reflexivity]. apply memb_In in M. contradiction. }
    split; intros op; rewrite G, K; tauto.
  Qed.

  Lemma total_four {A} zero (add : A -> A -> A) d d' :
    (forall op l f, In (op, l) d -> In f l -> complete f) -> (forall op l f, In (op, l) d' -> In f l -> complete f) ->
    total_on (four_add zero add) d d'.
  Proof.
    intros C C' op x y a b Hx Hy Ha Hb. destruct (add_ok zero add a b) as (h & Hh & _); [|  |now exists h].
    - apply dget_In in Hx. now apply (C op x).
    - apply dget_In in Hy. now apply (C' op y).
  Qed.

  (** The sum without its last two steps. *)
  Lemma add_dicts a b : well_formed a -> well_formed b ->
    exists bd fu wd, NoDup (keys bd) /\ NoDup (keys fu) /\ NoDup (keys wd) /\
      merged (fun x y => Ok (x + y)%Q) (ev_bd a) (ev_bd b) bd /\
      merged (four_add 0%Q Qplus) (ev_further a) (ev_further b) fu /\
      merged (four_add 0%Z Z.add) (ev_words a) (ev_words b) wd /\
      cme_add order a b =
        (us <- utilizations (ev_ideal a + ev_ideal b) (ev_temporal a + ev_temporal b) (ev_l0 a + ev_l0 b) (ev_l1 a + ev_l1 b) (ev_l2 a + ev_l2 b) ;;
         acc <- pick_accelerator a b ;;
         Ok (mkEval bd fu wd (ev_mac a + ev_mac b) (ev_mem a + ev_mem b) (ev_energy a + ev_energy b)
          (ev_on a + ev_on b) (ev_off a + ev_off b) (ev_ideal a + ev_ideal b) (ev_temporal a + ev_temporal b)
          (ev_l0 a + ev_l0 b) (ev_l1 a + ev_l1 b) (ev_l2 a + ev_l2 b) (Some us)
          (inr (layer_ids a ++ layer_ids b)) acc)).
  Proof.
    intros [A1 A2 A3 A4 A5 A6 A7 _] [B1 B2 B3 B4 B5 B6 B7 _].
    assert (T1 : total_on (fun x y => Ok (x + y)%Q) (ev_bd a) (ev_bd b)) by (intros ? ? ? ? ? _ _ _ _; now eexists).
    assert (T2 := total_four 0%Q Qplus _ _ A6 B6). assert (T3 := total_four 0%Z Z.add _ _ A7 B7).
    destruct (add_common_ok _ _ _ A1 T1) as (c & Hc & _ & _).
    destruct (diff_spec _ _ _ _ A1 T1 Hc) as (Da & Db).
    destruct (merge_ok _ _ _ _ _ A1 T1 Da Db) as (c1 & r1 & r2 & E1 & E2 & E3 & N & M).
    rewrite Hc in E1. injection E1 as <-.
    destruct (merge_ok (four_add 0%Q Qplus) (ev_further a) (ev_further b) (order (keys_minus (ev_bd a) c)) (order (keys_minus (ev_bd b) c)) A2 T2)
      as (cf & f1 & f2 & F1 & F2 & F3 & Nf & Mf).
    { intros op. rewrite A4, B4. apply Da. } { intros op. rewrite A4, B4. apply Db. }
    destruct (merge_ok (four_add 0%Z Z.add) (ev_words a) (ev_words b) (order (keys_minus (ev_bd a) c)) (order (keys_minus (ev_bd b) c)) A3 T3)
      as (cw & w1 & w2 & W1 & W2 & W3 & Nw & Mw).
    { intros op. rewrite A5, B5. apply Da. } { intros op. rewrite A5, B5. apply Db. }
    exists r2, f2, w2. repeat (split; [assumption|]).
    unfold cme_add. rewrite Hc. cbn [rbind]. rewrite F1. cbn [rbind]. rewrite E2. cbn [rbind]. rewrite F2. cbn [rbind].
    rewrite E3. cbn [rbind]. rewrite F3. cbn [rbind]. rewrite W1. cbn [rbind]. rewrite W2. cbn [rbind]. rewrite W3. cbn [rbind]. reflexivity.
  Qed.

  Lemma add_iff a b : well_formed a -> well_formed b ->
    ((exists r, cme_add order a b = Ok r) <-> nonzero_sum a b /\ compatible (ev_acc a) (ev_acc b)).
  Proof.
    intros Wa Wb. destruct (add_dicts a b Wa Wb) as (bd & fu & wd & _ & _ & _ & _ & _ & _ & ->).
    destruct (pick_ok a b Wa Wb) as [P1 P2]. split.
    - intros (r & H). apply rbind_Ok in H. destruct H as (us & Hu & H). apply rbind_Ok in H. destruct H as (acc & Ha & _).
      apply utils_inv in Hu. unfold nonzero_sum. split; [tauto|]. now apply (P2 acc).
    - intros [(H1 & H2 & H3 & H4) C]. destruct (utils_ok (ev_ideal a + ev_ideal b) _ _ _ _ H1 H2 H3 H4) as (s & u0 & u1 & u2 & ->).
      destruct (P1 C) as (r & ->). cbn [rbind]. eexists. reflexivity.
  Qed.

  Lemma add_sum a b r : well_formed a -> well_formed b -> cme_add order a b = Ok r -> sum_of a b r /\ well_formed r.
  Proof.
    intros Wa Wb H. destruct (add_dicts a b Wa Wb) as (bd & fu & wd & N1 & N2 & N3 & M1 & M2 & M3 & E). rewrite E in H. clear E.
    destruct (pick_ok a b Wa Wb) as [_ P2].
    apply rbind_Ok in H. destruct H as (us & Hu & H). apply rbind_Ok in H. destruct H as (acc & Ha & H). injection H as <-.
    apply P2 in Ha. destruct Ha as [_ Ha]. apply utils_inv in Hu. destruct Hu as (_ & _ & _ & _ & Hu).
    destruct Wa as [A1 A2 A3 A4 A5 A6 A7 A8], Wb as [B1 B2 B3 B4 B5 B6 B7 B8].
    assert (T1 : total_on (fun x y => Ok (x + y)%Q) (ev_bd a) (ev_bd b)) by (intros ? ? ? ? ? _ _ _ _; now eexists).
    assert (T2 := total_four 0%Q Qplus _ _ A6 B6). assert (T3 := total_four 0%Z Z.add _ _ A7 B7).
    assert (R2 := merged_at2 _ _ _ _ T2 M2). assert (R3 := merged_at2 _ _ _ _ T3 M3).
    split; constructor; cbn [ev_bd ev_further ev_words ev_mac ev_mem ev_energy ev_on ev_off ev_ideal ev_temporal ev_l0 ev_l1 ev_l2 ev_utils ev_layers ev_acc layer_ids]; try reflexivity.
    - intros op lv. assert (R := merged_at2 _ _ _ _ T1 M1 op lv). unfold opt_res in R.
      destruct (at2 (ev_bd a) op lv), (at2 (ev_bd b) op lv); cbn [opt_add]; try exact R. destruct R as (x & Ex & ->). injection Ex as <-. reflexivity.
    - now apply (four_at3 0%Q Qplus).
    - now apply (four_at3 0%Z Z.add).
    - exact (merged_keys _ _ _ _ M1).
    - destruct Hu as (s & u0 & u1 & u2 & -> & Q1 & Q2 & Q3 & Q4). exists s, u0, u1, u2. now repeat split.
    - exact Ha.
    - exact N1.
    - exact N2.
    - exact N3.
    - intros op. rewrite (merged_keys _ _ _ _ M1), (merged_keys _ _ _ _ M2), A4, B4. tauto.
    - intros op. rewrite (merged_keys _ _ _ _ M1), (merged_keys _ _ _ _ M3), A5, B5. tauto.
    - exact (four_complete 0%Q Qplus _ _ _ A6 B6 N2 R2).
    - exact (four_complete 0%Z Z.add _ _ _ A7 B7 N3 R3).
    - discriminate.
  Qed.
End Order.
