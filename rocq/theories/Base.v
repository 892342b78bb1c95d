(** Shared foundations of the model: Python exceptions as values, Python
    dictionaries as association lists in insertion order, and the sums and
    products the code computes with [sum] and [math.prod]. *)
From Coq Require Export String.
From Coq Require Export ZArith QArith Qround Lia Bool List Permutation.
From Coq Require Export ZifyBool ZifyNat ZifyN.
From Coq Require Import Lqa.
Export ListNotations.
Open Scope Z_scope.

(** * Exceptions *)

(** The Python exceptions the modelled functions can raise.  [OutOfFuel] is not
    a Python exception: it is the value of a modelled [while] loop that has used
    up its fuel; theorems prove it absent. *)
Inductive exn : Type :=
| KeyError | ValueError | IndexError | TypeError | AttributeError
| RuntimeError | AssertionError | ZeroDivisionError | StopIteration
| NotImplementedError | UnboundLocalError | OverflowError
| MemoryTooSmall | MemoryHierarchyTooSmall | NoValidLoopOrdering
| NoValidSpatialMapping
| OutOfFuel.

Inductive result (A : Type) : Type :=
| Ok (a : A)
| Err (e : exn).
Arguments Ok {A} a.
Arguments Err {A} e.

Definition rbind {A B : Type} (r : result A) (f : A -> result B) : result B :=
  match r with Ok a => f a | Err e => Err e end.

Declare Scope result_scope.
Delimit Scope result_scope with result.
Notation "x <- r ;; k" := (rbind r (fun x => k))
  (at level 61, r at next level, right associativity) : result_scope.
Notation "' p <- r ;; k" := (rbind r (fun x => match x with p => k end))
  (at level 61, p pattern, r at next level, right associativity) : result_scope.

Definition is_ok {A : Type} (r : result A) : bool :=
  match r with Ok _ => true | Err _ => false end.

(** Lift an optional lookup to a result. *)
Definition of_option {A : Type} (e : exn) (o : option A) : result A :=
  match o with Some a => Ok a | None => Err e end.

(** Map a fallible function over a list, left to right. *)
Fixpoint rmap {A B : Type} (f : A -> result B) (l : list A) : result (list B) :=
  match l with
  | [] => Ok []
  | x :: xs =>
      match f x with
      | Err e => Err e
      | Ok y => match rmap f xs with Err e => Err e | Ok ys => Ok (y :: ys) end
      end
  end.

(** Left fold with a fallible step. *)
Fixpoint rfold {A B : Type} (f : A -> B -> result A) (a : A) (l : list B)
  : result A :=
  match l with
  | [] => Ok a
  | x :: xs => match f a x with Err e => Err e | Ok a' => rfold f a' xs end
  end.

(** * Keys with decidable equality *)

Class EqB (A : Type) := {
  eqb : A -> A -> bool;
  eqb_spec : forall x y, reflect (x = y) (eqb x y) }.

Global Instance EqB_string : EqB string :=
  {| eqb := String.eqb; eqb_spec := String.eqb_spec |}.
Global Instance EqB_Z : EqB Z := {| eqb := Z.eqb; eqb_spec := Z.eqb_spec |}.
Global Instance EqB_nat : EqB nat :=
  {| eqb := Nat.eqb; eqb_spec := Nat.eqb_spec |}.

Lemma eqb_refl {A} `{EqB A} (x : A) : eqb x x = true.
Proof. destruct (eqb_spec x x) as [_|Hn]; [reflexivity|congruence]. Qed.

Lemma eqb_neq {A} `{EqB A} (x y : A) : x <> y -> eqb x y = false.
Proof. intros Hne; destruct (eqb_spec x y); congruence. Qed.

Definition eq_dec_of {A} `{EqB A} (x y : A) : {x = y} + {x <> y}.
Proof. destruct (eqb_spec x y) as [E|E]; [left|right]; exact E. Defined.

Definition memb {A} `{EqB A} (x : A) (l : list A) : bool := existsb (eqb x) l.

Lemma memb_In {A} `{EqB A} (x : A) (l : list A) : memb x l = true <-> In x l.
Proof.
  unfold memb. rewrite existsb_exists. split.
  - intros (y & Hy & E). destruct (eqb_spec x y); [subst; exact Hy|discriminate].
  - intros Hx. exists x. split; [exact Hx|apply eqb_refl].
Qed.

Lemma memb_not_In {A} `{EqB A} (x : A) (l : list A) : memb x l = false <-> ~ In x l.
Proof.
  rewrite <- memb_In. destruct (memb x l); split; intros Hx; congruence.
Qed.

(** Number of occurrences, Python's [list.count]. *)
Fixpoint count {A} `{EqB A} (x : A) (l : list A) : nat :=
  match l with
  | [] => O
  | y :: ys => if eqb x y then S (count x ys) else count x ys
  end.

(** First index of an element, Python's [list.index]; [None] is [ValueError]. *)
Fixpoint index_of {A} `{EqB A} (x : A) (l : list A) : option nat :=
  match l with
  | [] => None
  | y :: ys => if eqb x y then Some O else option_map S (index_of x ys)
  end.

(** * Dictionaries *)

(** A Python [dict]: association list, insertion order, first binding counts. *)
Definition dict (K V : Type) := list (K * V).

Section Dict.
  Context {K V : Type} `{EqB K}.

  Definition keys (d : dict K V) : list K := map fst d.
  Definition values (d : dict K V) : list V := map snd d.

  Fixpoint dget (k : K) (d : dict K V) : option V :=
    match d with
    | [] => None
    | (k', v) :: d' => if eqb k k' then Some v else dget k d'
    end.

  (** [d[k] = v]: overwrite in place, otherwise append. *)
  Fixpoint dset (k : K) (v : V) (d : dict K V) : dict K V :=
    match d with
    | [] => [(k, v)]
    | (k', v') :: d' =>
        if eqb k k' then (k', v) :: d' else (k', v') :: dset k v d'
    end.

  (** [del d[k]] (no error here; callers test membership first). *)
  Fixpoint ddel (k : K) (d : dict K V) : dict K V :=
    match d with
    | [] => []
    | (k', v') :: d' => if eqb k k' then d' else (k', v') :: ddel k d'
    end.

  Definition dmem (k : K) (d : dict K V) : bool :=
    match dget k d with Some _ => true | None => false end.

  (** [d[k]] with [KeyError]. *)
  Definition dgetr (k : K) (d : dict K V) : result V := of_option KeyError (dget k d).

  Lemma dget_In k v d : dget k d = Some v -> In (k, v) d.
  Proof.
    induction d as [|[k' v'] d IH]; cbn; [discriminate|].
    destruct (eqb_spec k k') as [->|Hne]; intros E.
    - injection E as ->. now left.
    - right. now apply IH.
  Qed.

  Lemma In_dget k v d : NoDup (keys d) -> In (k, v) d -> dget k d = Some v.
  Proof.
    induction d as [|[k' v'] d IH]; cbn; [tauto|].
    intros Hnd Hin. inversion Hnd as [|a l Hni Hnd']; subst.
    destruct (eqb_spec k k') as [->|Hne].
    - destruct Hin as [E|Hin]; [congruence|].
      exfalso. apply Hni. change k' with (fst (k', v)). now apply in_map.
    - destruct Hin as [E|Hin]; [congruence|]. now apply IH.
  Qed.

  Lemma dget_None k d : dget k d = None <-> ~ In k (keys d).
  Proof.
    induction d as [|[k' v'] d IH]; cbn; [tauto|].
    destruct (eqb_spec k k') as [->|Hne].
    - split; [discriminate|]. intros Hn. exfalso. tauto.
    - rewrite IH. split; [intros Hn [E|Hi]; [congruence|tauto]|tauto].
  Qed.

  Lemma dget_Some_key k v d : dget k d = Some v -> In k (keys d).
  Proof.
    intros E. destruct (in_dec eq_dec_of k (keys d)) as [Hi|Hn]; [exact Hi|].
    apply dget_None in Hn. congruence.
  Qed.

  Lemma key_dget k d : In k (keys d) -> exists v, dget k d = Some v.
  Proof.
    intros Hi. destruct (dget k d) as [v|] eqn:E; [now exists v|].
    apply dget_None in E. contradiction.
  Qed.

  Lemma dmem_keys k d : dmem k d = true <-> In k (keys d).
  Proof.
    unfold dmem. destruct (dget k d) as [v|] eqn:E.
    - split; [|reflexivity]. intros _. now apply dget_Some_key in E.
    - apply dget_None in E. split; [discriminate|contradiction].
  Qed.

  Lemma dget_dset_eq k v d : dget k (dset k v d) = Some v.
  Proof.
    induction d as [|[k' v'] d IH]; cbn; [now rewrite eqb_refl|].
    destruct (eqb_spec k k') as [->|Hne]; cbn.
    - now rewrite eqb_refl.
    - now rewrite (eqb_neq _ _ Hne).
  Qed.

  Lemma dget_dset_neq k k' v d : k <> k' -> dget k (dset k' v d) = dget k d.
  Proof.
    intros Hne. induction d as [|[k1 v1] d IH]; cbn; [now rewrite (eqb_neq _ _ Hne)|].
    destruct (eqb_spec k' k1) as [->|Hne1]; cbn; [now rewrite (eqb_neq _ _ Hne)|].
    destruct (eqb k k1); [reflexivity|exact IH].
  Qed.

  Lemma keys_dset_in k v d : In k (keys d) -> keys (dset k v d) = keys d.
  Proof.
    induction d as [|[k' v'] d IH]; cbn; [tauto|].
    destruct (eqb_spec k k') as [->|Hne]; cbn; [reflexivity|].
    intros [E|Hi]; [congruence|]. f_equal. now apply IH.
  Qed.

  Lemma keys_dset_notin k v d : ~ In k (keys d) -> keys (dset k v d) = keys d ++ [k].
  Proof.
    induction d as [|[k' v'] d IH]; cbn; [reflexivity|].
    intros Hn. destruct (eqb_spec k k') as [->|Hne]; cbn; [tauto|].
    f_equal. apply IH. tauto.
  Qed.

  Lemma NoDup_snoc {A} (l : list A) (x : A) : NoDup l -> ~ In x l -> NoDup (l ++ [x]).
  Proof.
    intros Hnd Hn. apply NoDup_rev in Hnd. rewrite <- (rev_involutive (l ++ [x])).
    apply NoDup_rev. rewrite rev_app_distr. cbn. constructor; [|exact Hnd].
    now rewrite <- in_rev.
  Qed.

  Lemma NoDup_dset k v d : NoDup (keys d) -> NoDup (keys (dset k v d)).
  Proof.
    intros Hnd. destruct (in_dec eq_dec_of k (keys d)) as [Hi|Hn].
    - now rewrite keys_dset_in.
    - rewrite keys_dset_notin by assumption. now apply NoDup_snoc.
  Qed.

  Lemma In_keys_dset k k' v d : In k (keys (dset k' v d)) <-> k = k' \/ In k (keys d).
  Proof.
    destruct (in_dec eq_dec_of k' (keys d)) as [Hi|Hn].
    - rewrite keys_dset_in by assumption. split; [tauto|].
      intros [->|Hk]; assumption.
    - rewrite keys_dset_notin by assumption. rewrite in_app_iff. cbn.
      intuition congruence.
  Qed.

  Lemma dget_ddel_neq k k' d : k <> k' -> dget k (ddel k' d) = dget k d.
  Proof.
    intros Hne. induction d as [|[k1 v1] d IH]; cbn; [reflexivity|].
    destruct (eqb_spec k' k1) as [->|Hne1]; cbn.
    - now rewrite (eqb_neq _ _ Hne).
    - destruct (eqb k k1); [reflexivity|exact IH].
  Qed.

  Lemma In_keys_ddel k k' d : In k (keys (ddel k' d)) -> In k (keys d).
  Proof.
    induction d as [|[k1 v1] d IH]; cbn; [tauto|].
    destruct (eqb k' k1); cbn; tauto.
  Qed.

  Lemma NoDup_ddel k d : NoDup (keys d) -> NoDup (keys (ddel k d)).
  Proof.
    induction d as [|[k1 v1] d IH]; cbn; [auto|].
    intros Hnd. inversion Hnd as [|a l Hni Hnd']; subst.
    destruct (eqb k k1); cbn; [assumption|].
    constructor; [|now apply IH]. intros Hi. apply Hni. now apply In_keys_ddel in Hi.
  Qed.

  Lemma dget_ddel_eq k d : NoDup (keys d) -> dget k (ddel k d) = None.
  Proof.
    induction d as [|[k1 v1] d IH]; cbn; [reflexivity|].
    intros Hnd. inversion Hnd as [|a l Hni Hnd']; subst.
    destruct (eqb_spec k k1) as [->|Hne]; cbn.
    - now apply dget_None.
    - rewrite (eqb_neq _ _ Hne). now apply IH.
  Qed.

  Lemma In_ddel k v k' d : In (k, v) (ddel k' d) -> In (k, v) d.
  Proof.
    induction d as [|[k1 v1] d IH]; cbn; [tauto|].
    destruct (eqb k' k1); cbn; tauto.
  Qed.
End Dict.

(** * Sums and products *)

Definition zsum (l : list Z) : Z := fold_right Z.add 0 l.
Definition zprod (l : list Z) : Z := fold_right Z.mul 1 l.
Definition qsum (l : list Q) : Q := fold_right Qplus 0%Q l.
Definition qprod (l : list Q) : Q := fold_right Qmult 1%Q l.

Lemma zsum_app l1 l2 : zsum (l1 ++ l2) = zsum l1 + zsum l2.
Proof. induction l1 as [|x l IH]; cbn [app zsum fold_right]; [reflexivity|].
  unfold zsum in *. rewrite IH. lia. Qed.

Lemma zprod_app l1 l2 : zprod (l1 ++ l2) = zprod l1 * zprod l2.
Proof. induction l1 as [|x l IH]; cbn [app zprod fold_right].
  - unfold zprod. destruct (fold_right Z.mul 1 l2); reflexivity.
  - unfold zprod in *. rewrite IH. ring. Qed.

Lemma zprod_cons x l : zprod (x :: l) = x * zprod l.
Proof. reflexivity. Qed.
Lemma zsum_cons x l : zsum (x :: l) = x + zsum l.
Proof. reflexivity. Qed.

Lemma zprod_perm l1 l2 : Permutation l1 l2 -> zprod l1 = zprod l2.
Proof.
  induction 1; rewrite ?zprod_cons; try congruence. ring.
Qed.

Lemma zsum_perm l1 l2 : Permutation l1 l2 -> zsum l1 = zsum l2.
Proof.
  induction 1; rewrite ?zsum_cons; try congruence. ring.
Qed.

Lemma zprod_pos l : (forall x, In x l -> 0 < x) -> 0 < zprod l.
Proof.
  induction l as [|x l IH]; intros Hl; [cbn; lia|].
  rewrite zprod_cons. apply Z.mul_pos_pos; [apply Hl; now left|].
  apply IH. intros y Hy. apply Hl. now right.
Qed.

Lemma zprod_repeat x n : zprod (repeat x n) = x ^ Z.of_nat n.
Proof.
  induction n as [|n IH]; [reflexivity|].
  cbn [repeat]. rewrite zprod_cons, IH, Nat2Z.inj_succ, Z.pow_succ_r by lia. ring.
Qed.

Lemma zsum_repeat x n : zsum (repeat x n) = x * Z.of_nat n.
Proof.
  induction n as [|n IH]; [cbn; lia|].
  cbn [repeat]. rewrite zsum_cons, IH. lia.
Qed.

Lemma qprod_cons x l : qprod (x :: l) = (x * qprod l)%Q.
Proof. reflexivity. Qed.
Lemma qsum_cons x l : qsum (x :: l) = (x + qsum l)%Q.
Proof. reflexivity. Qed.

Lemma qprod_app l1 l2 : (qprod (l1 ++ l2) == qprod l1 * qprod l2)%Q.
Proof. induction l1 as [|x l IH]; cbn [app]; rewrite ?qprod_cons.
  - unfold qprod at 2. cbn. ring.
  - rewrite IH. ring. Qed.

Lemma qsum_app l1 l2 : (qsum (l1 ++ l2) == qsum l1 + qsum l2)%Q.
Proof. induction l1 as [|x l IH]; cbn [app]; rewrite ?qsum_cons.
  - unfold qsum at 2. cbn. ring.
  - rewrite IH. ring. Qed.

Lemma qprod_perm l1 l2 : Permutation l1 l2 -> (qprod l1 == qprod l2)%Q.
Proof.
  induction 1; rewrite ?qprod_cons; try reflexivity.
  - now rewrite IHPermutation.
  - ring.
  - now rewrite IHPermutation1.
Qed.

Lemma qsum_perm l1 l2 : Permutation l1 l2 -> (qsum l1 == qsum l2)%Q.
Proof.
  induction 1; rewrite ?qsum_cons; try reflexivity.
  - now rewrite IHPermutation.
  - ring.
  - now rewrite IHPermutation1.
Qed.

Lemma Qmult_pos (x y : Q) : (0 < x)%Q -> (0 < y)%Q -> (0 < x * y)%Q.
Proof.
  intros Hx Hy. setoid_replace 0%Q with (0 * y)%Q by ring.
  apply Qmult_lt_compat_r; assumption.
Qed.

Lemma Qmult_nonneg (x y : Q) : (0 <= x)%Q -> (0 <= y)%Q -> (0 <= x * y)%Q.
Proof. intros Hx Hy. apply Qmult_le_0_compat; assumption. Qed.

Lemma qprod_pos l : (forall x, In x l -> (0 < x)%Q) -> (0 < qprod l)%Q.
Proof.
  induction l as [|x l IH]; intros Hl; [reflexivity|].
  rewrite qprod_cons. apply Qmult_pos; [apply Hl; now left|].
  apply IH. intros y Hy. apply Hl. now right.
Qed.

Lemma qprod_ge_1 l : (forall x, In x l -> (1 <= x)%Q) -> (1 <= qprod l)%Q.
Proof.
  induction l as [|x l IH]; intros Hl; [apply Qle_refl|].
  rewrite qprod_cons.
  assert (Hx : (1 <= x)%Q) by (apply Hl; now left).
  assert (Hl' : (1 <= qprod l)%Q) by (apply IH; intros y Hy; apply Hl; now right).
  nra.
Qed.

Lemma qsum_nonneg l : (forall x, In x l -> (0 <= x)%Q) -> (0 <= qsum l)%Q.
Proof.
  induction l as [|x l IH]; intros Hl; [apply Qle_refl|].
  rewrite qsum_cons.
  assert (Hx : (0 <= x)%Q) by (apply Hl; now left).
  assert (Hl' : (0 <= qsum l)%Q) by (apply IH; intros y Hy; apply Hl; now right).
  lra.
Qed.

(** Ceiling and floor facts for [int(np.ceil(x))] and [int(x)] on non-negatives. *)
Lemma Qceiling_bounds (q : Q) :
  (q <= inject_Z (Qceiling q))%Q /\ (inject_Z (Qceiling q) - 1 < q)%Q.
Proof.
  split; [apply Qle_ceiling|].
  pose proof (Qceiling_lt q) as Hl.
  unfold Z.sub in Hl. rewrite inject_Z_plus in Hl. exact Hl.
Qed.

Lemma Qfloor_bounds (q : Q) :
  (inject_Z (Qfloor q) <= q)%Q /\ (q < inject_Z (Qfloor q) + 1)%Q.
Proof.
  split; [apply Qfloor_le|].
  pose proof (Qlt_floor q) as Hl. rewrite inject_Z_plus in Hl. exact Hl.
Qed.

Lemma inject_Z_le_iff a b : (inject_Z a <= inject_Z b)%Q <-> a <= b.
Proof. rewrite <- Zle_Qle. reflexivity. Qed.
Lemma inject_Z_lt_iff a b : (inject_Z a < inject_Z b)%Q <-> a < b.
Proof. rewrite <- Zlt_Qlt. reflexivity. Qed.

(** * Lists *)

Lemma NoDup_app_intro {A} (l1 l2 : list A) :
  NoDup l1 -> NoDup l2 -> (forall x, In x l1 -> ~ In x l2) -> NoDup (l1 ++ l2).
Proof.
  induction l1 as [|x l1 IH]; cbn; [auto|].
  intros H1 H2 Hd. inversion H1 as [|a l Hni Hnd]; subst.
  constructor.
  - rewrite in_app_iff. intros [Hi|Hi]; [contradiction|].
    apply (Hd x); [now left|exact Hi].
  - apply IH; auto.
Qed.

Lemma NoDup_snoc' {A} (l : list A) (x : A) : NoDup l -> ~ In x l -> NoDup (l ++ [x]).
Proof. intros H1 H2. apply NoDup_app_intro; auto.
  - constructor; [intros []|constructor].
  - cbn. intros y Hy [E|[]]. now subst. Qed.
