(** Independent vocabulary for C49. *)
From Verif Require Import Base Model_Alloc Spec_Temporal.

(** The [k]-th loop, counted from the innermost, lies in level [lv]. *)
Definition lies_in (lv k : nat) (levels : list (list tloop)) : Prop :=
  (lv < length levels)%nat /\ (length (below lv levels) <= k < length (below (S lv) levels))%nat.

(** [mems] are the names of the memories that hold the [k]-th loop, one per link. *)
Definition held_in (links : list (string * string)) (names : dict string (list string)) (tm : dict string (list (list tloop)))
    (k : nat) (mems : list string) : Prop :=
  Forall2 (fun link name => exists levels memories lv, dget (fst link) tm = Some levels /\ dget (snd link) names = Some memories /\
     lies_in lv k levels /\ nth_error memories lv = Some name) links mems.

(** All linked operands have the loops [ordering], and a memory for every level. *)
Definition levels_of (ordering : list tloop) (links : list (string * string)) (names : dict string (list string))
    (tm : dict string (list (list tloop))) : Prop :=
  forall lop mop, In (lop, mop) links -> exists levels memories, dget lop tm = Some levels /\ dget mop names = Some memories /\
    concat levels = ordering /\ (length levels <= length memories)%nat.
