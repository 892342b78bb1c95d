(** Vocabulary of the ordering properties (C06, C07). *)
From Verif Require Import Base.

(** The element at a position; negative positions count from the end. *)
Definition element_at {A} (l : list A) (pos : Z) : option A :=
  if 0 <=? pos then nth_error l (Z.to_nat pos)
  else if - pos <=? Z.of_nat (length l)
       then nth_error l (Z.to_nat (Z.of_nat (length l) + pos)) else None.

(** A position exists in orderings of [n] loops. *)
Definition position_in (n : nat) (pos : Z) : Prop := - Z.of_nat n <= pos < Z.of_nat n.

(** The ordering has a loop of dimension [d] (and size [s]) at a position. *)
Definition dim_at (o : list (string * Z)) (pos : Z) (d : string) : Prop :=
  exists s, element_at o pos = Some (d, s).
Definition loop_at (o : list (string * Z)) (pos : Z) (d : string) (s : Z) : Prop :=
  element_at o pos = Some (d, s).
