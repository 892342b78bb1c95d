(** What a run cannot report less than (C86). *)
From Coq Require Import QArith.
From Verif Require Import Base Model_Cacti Model_AccelFile Spec_AccelFile Spec_OnnxRun Spec_Run.

(** No memory of the accelerator has a negative cost per access, written or extracted. *)
Definition no_negative_price (sim : simulator) (tech : Z) (known : pool) (hardware : raw_accel) : Prop :=
  forall cs p', priced sim tech known (memories hardware) cs p' -> forall r w area, In (r, w, area) cs -> (0 <= r /\ 0 <= w)%Q.

(** [operations] operations at [unit] each, and on [units] multipliers at once *)
Definition energy_needed (unit : Q) (operations : Z) (energy : Q) : Prop := (unit * inject_Z operations <= energy)%Q.
Definition time_needed (units operations : Z) (latency : Q) : Prop := (inject_Z operations <= inject_Z units * latency)%Q.

(** The operations of the layers of a workload file, by their loops, and of a model, by its operators *)
Definition file_operations {E W} (meaning : list (E * W * list (string * Z))) : Z := zsum (map (fun x => zprod (map snd (snd x))) meaning).
Definition model_operations (meaning : list (option operator)) : Z := zsum (map (fun x => match x with Some o => operations o | None => 0%Z end) meaning).
