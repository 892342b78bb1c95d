(** Independent vocabulary for C52: a four-way record is a total function on directions. *)
From Verif Require Import Base Model_DataMove.

Definition complete {A} (f : dict direction A) : Prop := forall k, exists x, dget k f = Some x.

(** The two records hold the same numbers. *)
Definition same {A} (f g : dict direction A) : Prop := forall k, dget k f = dget k g.

(** [h] is the result of applying [o] direction by direction. *)
Definition pointwise {A} (o : A -> A -> A) (f g h : dict direction A) : Prop :=
  complete h /\ forall k x y, dget k f = Some x -> dget k g = Some y -> dget k h = Some (o x y).
