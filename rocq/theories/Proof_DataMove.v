From Coq Require Import QArith.
From Verif Require Import Base Model_DataMove Spec_DataMove.
Local Open Scope result_scope.


Lemma complete_all {A} (f : dict direction A) : complete f <-> forallb (fun k => dmem k f) directions = true.
Proof.
    split.
    - intros H. apply forallb_forall. intros k _. destruct (H k) as (x & E). unfold dmem. now rewrite E.
    - intros H k. rewrite forallb_forall in H. specialize (H k). unfold dmem in H.
      assert (In k directions) by (destruct k; cbn; tauto). specialize (H H0).
      destruct (dget k f); [eauto|discriminate].
Qed.

Lemma construct_given {A} (zero : A) (d : dict direction A) :
    (complete d -> four_way zero (Some d) = Ok d) /\ (~ complete d -> four_way zero (Some d) = Err ValueError).
Proof.
    unfold four_way. rewrite complete_all. destruct (forallb _ _); split; intros H; congruence.
Qed.

Lemma construct_default {A} (zero : A) : exists f, four_way zero (@None (dict direction A)) = Ok f /\ forall k, dget k f = Some zero.
Proof. eexists. split; [reflexivity|]. now intros []. Qed.

Lemma get_set {A} k x (f : dict direction A) :
    complete f -> complete (four_set k x f) /\ four_get k (four_set k x f) = Ok x /\
    forall k', k' <> k -> four_get k' (four_set k x f) = four_get k' f.
Proof.
    intros H. assert (E : forall k', dget k' (four_set k x f) = if eqb k' k then Some x else dget k' f).
    { intros k'. unfold four_set. destruct (eqb_spec k' k) as [->|N]; [apply dget_dset_eq|now apply dget_dset_neq]. }
    split; [|split].
    - intros k'. rewrite E. destruct (eqb k' k); eauto.
    - unfold four_get, dgetr. now rewrite E, eqb_refl.
    - intros k' N. unfold four_get, dgetr. rewrite E. now destruct (eqb_spec k' k).
Qed.

Lemma add_ok {A} (zero : A) (add : A -> A -> A) f g : complete f -> complete g -> exists h, four_add zero add f g = Ok h /\ pointwise add f g h.
Proof.
    intros Hf Hg.
    destruct (Hf RdLow) as (a & Ea), (Hf WrLow) as (b & Eb), (Hf RdHigh) as (c & Ec), (Hf WrHigh) as (d & Ed).
    destruct (Hg RdLow) as (a' & Ea'), (Hg WrLow) as (b' & Eb'), (Hg RdHigh) as (c' & Ec'), (Hg WrHigh) as (d' & Ed').
    exists [(RdLow, add a a'); (WrLow, add b b'); (RdHigh, add c c'); (WrHigh, add d d')]. split.
    - unfold four_add, directions. cbn [rmap]. unfold dgetr. rewrite Ea, Eb, Ec, Ed, Ea', Eb', Ec', Ed'. reflexivity.
    - split; [intros []; eexists; reflexivity|]. intros [] x y Hx Hy; cbn; congruence.
Qed.

Lemma mul_ok {A} (zero : A) (mul : A -> A -> A) f c : complete f -> exists h, four_mul zero mul f c = Ok h /\ complete h /\
    forall k x, dget k f = Some x -> dget k h = Some (mul x c).
Proof.
    intros Hf.
    destruct (Hf RdLow) as (a & Ea), (Hf WrLow) as (b & Eb), (Hf RdHigh) as (e & Ee), (Hf WrHigh) as (d & Ed).
    exists [(RdLow, mul a c); (WrLow, mul b c); (RdHigh, mul e c); (WrHigh, mul d c)]. split.
    - unfold four_mul, directions. cbn [rmap]. unfold dgetr. rewrite Ea, Eb, Ee, Ed. reflexivity.
    - split; [intros []; eexists; reflexivity|]. intros [] x Hx; cbn; congruence.
Qed.

Lemma add_missing {A} (zero : A) (add : A -> A -> A) f g : ~ (complete f /\ complete g) -> four_add zero add f g = Err KeyError.
Proof.
    intros H. assert (four_add zero add f g = Err KeyError \/ (complete f /\ complete g)); [|tauto].
    unfold four_add, directions. cbn [rmap]. unfold dgetr.
    assert (C : forall f : dict direction A, (exists x, dget RdLow f = Some x) -> (exists x, dget WrLow f = Some x) ->
      (exists x, dget RdHigh f = Some x) -> (exists x, dget WrHigh f = Some x) -> complete f) by (intros ? ? ? ? ? []; assumption).
    destruct (dget RdLow f) eqn:?, (dget RdLow g) eqn:?, (dget WrLow f) eqn:?, (dget WrLow g) eqn:?,
      (dget RdHigh f) eqn:?, (dget RdHigh g) eqn:?, (dget WrHigh f) eqn:?, (dget WrHigh g) eqn:?; cbn; auto.
    right. split; apply C; eauto.
Qed.

Lemma add_comm {A} (zero : A) (add : A -> A -> A) : (forall x y, add x y = add y x) -> forall f g, complete f -> complete g ->
    four_add zero add f g = four_add zero add g f.
Proof.
    intros HC f g Hf Hg.
    destruct (Hf RdLow) as (a & Ea), (Hf WrLow) as (b & Eb), (Hf RdHigh) as (c & Ec), (Hf WrHigh) as (d & Ed).
    destruct (Hg RdLow) as (a' & Ea'), (Hg WrLow) as (b' & Eb'), (Hg RdHigh) as (c' & Ec'), (Hg WrHigh) as (d' & Ed').
    unfold four_add, directions. cbn [rmap]. unfold dgetr. rewrite Ea, Eb, Ec, Ed, Ea', Eb', Ec', Ed'. cbn.
    now rewrite (HC a a'), (HC b b'), (HC c c'), (HC d d').
Qed.

Lemma add_assoc {A} (zero : A) (add : A -> A -> A) : (forall x y z, add (add x y) z = add x (add y z)) -> forall f g h, complete f -> complete g -> complete h ->
    (fg <- four_add zero add f g ;; four_add zero add fg h) = (gh <- four_add zero add g h ;; four_add zero add f gh).
Proof.
    intros HC f g h Hf Hg Hh.
    destruct (Hf RdLow) as (a & Ea), (Hf WrLow) as (b & Eb), (Hf RdHigh) as (c & Ec), (Hf WrHigh) as (d & Ed).
    destruct (Hg RdLow) as (a' & Ea'), (Hg WrLow) as (b' & Eb'), (Hg RdHigh) as (c' & Ec'), (Hg WrHigh) as (d' & Ed').
    destruct (Hh RdLow) as (x & Ex), (Hh WrLow) as (y & Ey), (Hh RdHigh) as (z & Ez), (Hh WrHigh) as (w & Ew).
    unfold four_add, directions. cbn [rmap]. unfold dgetr. rewrite Ea, Eb, Ec, Ed, Ea', Eb', Ec', Ed', Ex, Ey, Ez, Ew. cbn.
    cbn. now rewrite !HC.
Qed.

Lemma mul_distr {A} (zero : A) (add mul : A -> A -> A) : (forall x y c, mul (add x y) c = add (mul x c) (mul y c)) -> forall f g c, complete f -> complete g ->
    (fg <- four_add zero add f g ;; four_mul zero mul fg c) =
    (f' <- four_mul zero mul f c ;; g' <- four_mul zero mul g c ;; four_add zero add f' g').
Proof.
    intros HC f g k Hf Hg.
    destruct (Hf RdLow) as (a & Ea), (Hf WrLow) as (b & Eb), (Hf RdHigh) as (c & Ec), (Hf WrHigh) as (d & Ed).
    destruct (Hg RdLow) as (a' & Ea'), (Hg WrLow) as (b' & Eb'), (Hg RdHigh) as (c' & Ec'), (Hg WrHigh) as (d' & Ed').
    unfold four_add, four_mul, directions. cbn [rmap]. unfold dgetr. rewrite Ea, Eb, Ec, Ed, Ea', Eb', Ec', Ed'. cbn.
    now rewrite !HC.
Qed.

Lemma add_zero {A} (zero : A) (add : A -> A -> A) : (forall x, add x zero = x) -> forall f z, complete f -> four_way zero (@None (dict direction A)) = Ok z ->
    exists h, four_add zero add f z = Ok h /\ same h f.
Proof.
    intros HZ f z Hf [= <-]. destruct (add_ok zero add f (map (fun k => (k, zero)) directions) Hf) as (h & E & (C & P)).
    { now intros []; eexists. }
    exists h. split; [exact E|]. intros k. destruct (Hf k) as (x & Ex). rewrite Ex.
    rewrite (P k x zero Ex); [now rewrite HZ|now destruct k].
Qed.

(** [DataMovePattern] *)
Lemma new_pattern_ok : exists p, new_pattern = Ok p /\ forall a k, exists f, get_attribute a p = Ok f /\ four_get k f = Ok 0%Z.
Proof. eexists. split; [reflexivity|]. intros [] []; eexists; split; reflexivity. Qed.

Lemma set_attribute_ok a v p : complete v -> exists p', set_attribute a v p = Ok p' /\ get_attribute a p' = Ok v /\
  forall a', a' <> a -> get_attribute a' p' = get_attribute a' p.
Proof.
  intros H. unfold set_attribute. rewrite (proj1 (construct_given 0%Z v) H). cbn [rbind]. eexists. split; [reflexivity|].
  unfold get_attribute, dgetr. split; [now rewrite dget_dset_eq|]. intros a' N. now rewrite dget_dset_neq.
Qed.

Lemma set_attribute_missing a v p : ~ complete v -> set_attribute a v p = Err ValueError.
Proof. intros H. unfold set_attribute. now rewrite (proj2 (construct_given 0%Z v) H). Qed.

Lemma update_single_ok k x p a f : get_attribute a p = Ok f -> complete f -> exists f',
  get_attribute a (update_single_dir_data k x p) = Ok f' /\ four_get k f' = Ok x /\
  forall k', k' <> k -> four_get k' f' = four_get k' f.
Proof.
  intros H C. exists (four_set k x f). split; [|exact (proj2 (get_set k x f C))].
  revert H. unfold get_attribute, dgetr, update_single_dir_data. induction p as [|[a' g] p IH]; [discriminate|].
  cbn [map dget fst snd]. destruct (eqb a a'); [now intros [= ->]|exact IH].
Qed.
