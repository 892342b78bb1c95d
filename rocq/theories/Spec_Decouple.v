(** Independent vocabulary for C14. *)
From Verif Require Import Base Model_Alloc Spec_Alloc.
From Coq Require Import String.
Local Open Scope string_scope.

(** The loop runs over one of the two dimensions that the derived dimension [p]
    (e.g. IX) is computed from (e.g. OX and FX). *)
Definition runs_over (ly : layer) (p : string) (x : string * Q) : Prop :=
  exists da db, In (p, (da, db)) (l_pr_loop ly) /\ (fst x = da \/ fst x = db).

(** [decoupled ly before loops out]: loops inside are [before]; every loop that a
    derived dimension [p] depends on became two loops: one as large as the growth of
    the number of derived indices, one with the rest of its iterations.  Other loops
    stay as they are, where they are. *)
Inductive decoupled (ly : layer) : list (string * Q) -> list (string * Q) -> list (string * Q) -> Prop :=
| dec_nil before : decoupled ly before [] []
| dec_keep before x l out :
    (forall p, ~ runs_over ly p x) ->
    decoupled ly (before ++ [x]) l out ->
    decoupled ly before (x :: l) (x :: out)
| dec_split before x p a b l out :
    runs_over ly p x ->
    (a == elements_along ly (before ++ [x]) p / elements_along ly before p)%Q ->
    (a * b == snd x)%Q ->
    decoupled ly (before ++ [x]) l out ->
    decoupled ly before (x :: l) ((p ++ "_R", a) :: (p ++ "_IR", b) :: out).

(** All levels of an operand, inner to outer. *)
Inductive decoupled_levels (ly : layer) : list (string * Q) -> list (list (string * Q)) -> list (list (string * Q)) -> Prop :=
| decs_nil before : decoupled_levels ly before [] []
| decs_cons before l ls o os :
    decoupled ly before l o -> decoupled_levels ly (before ++ l) ls os ->
    decoupled_levels ly before (l :: ls) (o :: os).

(** A well-formed layer with derived dimensions: positive strides and sizes, every
    derived dimension with stride and size, no derived dimension computed from a
    derived one, no dimension used by two derived dimensions. *)
Record derived_ok (ly : layer) : Prop := {
  dok_nodup : NoDup (keys (l_pr_loop ly));
  dok_scale : forall p ab, In (p, ab) (l_pr_loop ly) ->
     exists sa sb m, dget p (l_pr_scaling ly) = Some (sa, sb) /\ 0 < sa /\ 0 < sb /\
       dget p (l_pr_sizes ly) = Some m /\ 0 < m;
  dok_flat : forall p da db, In (p, (da, db)) (l_pr_loop ly) ->
     ~ In da (keys (l_pr_loop ly)) /\ ~ In db (keys (l_pr_loop ly));
  dok_unshared : forall p q x, runs_over ly p x -> runs_over ly q x -> p = q }.

(** The loops of an operand, with its relevant and irrelevant dimensions [rir]: sizes
    at least 1, none over a derived dimension, and none over a dimension that is both
    in [rir] and used by a derived dimension. *)
Definition operand_ok (ly : layer) (rir : list string) (loops : list (string * Q)) : Prop :=
  forall x, In x loops ->
    (1 <= snd x)%Q /\ ~ In (fst x) (keys (l_pr_loop ly)) /\
    (forall p, runs_over ly p x -> ~ In (fst x) rir).

(** Product of the sizes of all loops, resp. of the loops called [d]. *)
Definition iterations_of (loops : list (string * Q)) : Q := qprod (map snd loops).

(** No loop carries a name that decoupling introduces. *)
Definition no_tags (ly : layer) (loops : list (string * Q)) : Prop :=
  forall x p, In x loops -> In p (keys (l_pr_loop ly)) -> fst x <> p ++ "_R" /\ fst x <> p ++ "_IR".
