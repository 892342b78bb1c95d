(** Vocabulary of the theorems on merging around pinned loops (C05): no model
    function appears here. *)
From Coq Require Import Bool.
From Verif Require Import Base.

(** How often the loop of dimension [d] and size [f] is in a list of loops. *)
Definition occurs (loops : list (string * Z)) (d : string) (f : Z) : Z :=
  Z.of_nat (length (filter (fun p => String.eqb (fst p) d && (snd p =? f)) loops)).

(** The number of loops on one dimension. *)
Definition loops_on (loops : list (string * Z)) (d : string) : Z :=
  Z.of_nat (length (filter (fun p => String.eqb (fst p) d) loops)).

(** How many loops of size [f] the dimension [d] has beyond the pinned ones, when it
    has [c]. *)
Definition spare (pins : list (string * Z)) (d : string) (f c : Z) : Z :=
  Z.max 0 (c - occurs pins d f).

(** The place a position stands for in orderings of [n] loops: negative positions count
    from the end. *)
Definition place_of (n : nat) (pos : Z) : Z := if 0 <=? pos then pos else Z.of_nat n + pos.

(** Pins given as powers of primes: dimension, prime, exponent. *)
Definition powers (ts : list (string * Z * Z)) : list (string * Z) :=
  map (fun t => (fst (fst t), snd (fst t) ^ snd t)) ts.

(** The sum of the exponents of the pins on [d] that are powers of [p]; with [big] only
    of those that are not [p] itself. *)
Definition exponents (big : bool) (ts : list (string * Z * Z)) (d : string) (p : Z) : Z :=
  zsum (map snd (filter (fun t => String.eqb (fst (fst t)) d && (snd (fst t) =? p)
                                  && (negb big || (2 <=? snd t))) ts)).
