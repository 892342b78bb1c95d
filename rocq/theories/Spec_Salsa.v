(** What is expected of simulated annealing (C46). *)
From Coq Require Import QArith.
From Verif Require Import Base.

(** [b] is the first of a list with the least value. *)
Definition first_least {A} (value : A -> Q) (l : list A) (b : A) : Prop :=
  exists l1 l2, l = l1 ++ b :: l2 /\ (forall e, In e l -> (value b <= value e)%Q) /\ (forall e, In e l1 -> (value b < value e)%Q).

(** Two positions exchanged, the others as they were. *)
Definition exchanged {A} (i j : nat) (l l' : list A) : Prop :=
  length l' = length l /\ nth_error l' i = nth_error l j /\ nth_error l' j = nth_error l i /\
  forall k, k <> i -> k <> j -> nth_error l' k = nth_error l k.

(** Draws that the random generators can give for orders of [n] loops. *)
Definition drawn (n : nat) (d : nat * nat * Q) : Prop :=
  (fst (fst d) < n)%nat /\ (snd (fst d) < n)%nat /\ (0 <= snd d < 1)%Q.
