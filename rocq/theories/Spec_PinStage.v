(** Vocabulary of the theorem on orderings pinned from both sides (C05, C65): no model
    function appears here. *)
From Verif Require Import Base Spec_Layer.

(** The entries of an ordering: loops with their sizes, from the inside; and after a
    wildcard, if there is one, the loops up to the outermost. *)
Definition entries (inner outer : list (string * Z)) (o : list (string * option Z)) : Prop :=
  o = (map (fun l => (fst l, Some (snd l))) inner ++ ("*"%string, None) :: map (fun l => (fst l, Some (snd l))) outer)%list
  \/ (outer = [] /\ o = map (fun l => (fst l, Some (snd l))) inner).
