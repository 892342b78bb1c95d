(** Vocabulary of the LOMA properties (C02-C05): no model function appears here. *)
From Verif Require Import Base.
From Coq Require Import Znumtheory.

(** The spatial unrollings of one dimension, in order. *)
Definition unrollings_of (d : string) (spatial : list (string * Q)) : list Q :=
  map snd (filter (fun sl => eqb (fst sl) d) spatial).

(** Size of a dimension in a dictionary of loops: 1 when absent. *)
Definition size_or_1 (d : string) (loops : dict string Z) : Z :=
  match dget d loops with Some n => n | None => 1 end.

(** Product of the loops on one dimension. *)
Definition loop_product (d : string) (l : list (string * Z)) : Z :=
  zprod (map snd (filter (fun x => eqb (fst x) d) l)).

(** The contract of sympy's [factorint]: distinct primes, positive multiplicities,
    and the product is the number. *)
Definition factorint_ok (factorint : Z -> list (Z * Z)) : Prop :=
  forall n, 2 <= n ->
    (forall p m, In (p, m) (factorint n) -> prime p /\ 1 <= m) /\
    NoDup (map fst (factorint n)) /\
    zprod (map (fun pm => fst pm ^ snd pm) (factorint n)) = n.

Definition prime_power (x : Z) : Prop := exists p m, prime p /\ 1 <= m /\ x = p ^ m.
