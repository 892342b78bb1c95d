(** What is expected of gathering (C45). *)
From Verif Require Import Base Model_Gather.

Section Spec.
  Context {X : Type}.
  Variables (jobs : nat) (outcome : nat -> result (list X)).

  (** A state that some run leads to. *)
  Definition reachable (s : gstate X) : Prop := exists evs, grun jobs outcome evs start = Some s.
  (** Nothing more can happen. *)
  Definition stuck (s : gstate X) : Prop := forall ev, gstep jobs outcome ev s = None.

  (** The results of jobs, one job after another. *)
  Inductive results : list nat -> list X -> Prop :=
  | results_nil : results [] []
  | results_cons j js rs ys : outcome j = Ok rs -> results js ys -> results (j :: js) (rs ++ ys).
End Spec.
