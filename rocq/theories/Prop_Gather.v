(** Gathering results of worker processes (C45). *)
From Verif Require Import Base Model_Gather Spec_Gather Proof_Gather.

(** With ten jobs or more, or none, none of which fails: whatever the order in which jobs
    end, when nothing more can happen gathering is over and every result of every job has
    been passed on once. *)
Theorem C45_gathers_partial :
  forall X jobs (outcome : nat -> result (list X)) s,
  (forall j, (j < jobs)%nat -> exists rs, outcome j = Ok rs) -> (jobs = 0 \/ 10 <= jobs)%nat -> reachable jobs outcome s -> stuck jobs outcome s ->
  gs_phase s = Done /\ exists js, Permutation js (seq 0 jobs) /\ results outcome js (gs_yielded s).
Proof. exact @gathers. Qed.
Print Assumptions C45_gathers_partial.

(** Every run ends. *)
Theorem C45_ends :
  forall X jobs (outcome : nat -> result (list X)) evs s, grun jobs outcome evs start = Some s -> (length evs <= 3 * jobs + 2)%nat.
Proof. exact @run_ends. Qed.
Print Assumptions C45_ends.

(** At any time, even if jobs fail, what has been passed on is results of different jobs. *)
Theorem C45_never_twice :
  forall X jobs (outcome : nat -> result (list X)) s, reachable jobs outcome s ->
  exists js, NoDup js /\ (forall j, In j js -> (j < jobs)%nat) /\ results outcome js (gs_yielded s).
Proof. exact @never_twice. Qed.
Print Assumptions C45_never_twice.

(** Jobs may end in any order. *)
Theorem C45_any_order :
  forall X jobs (outcome : nat -> result (list X)) js,
  (forall j, (j < jobs)%nat -> exists rs, outcome j = Ok rs) -> (jobs = 0 \/ 10 <= jobs)%nat -> Permutation js (seq 0 jobs) ->
  exists s, reachable jobs outcome s /\ gs_phase s = Done /\ results outcome js (gs_yielded s).
Proof. exact @any_order. Qed.
Print Assumptions C45_any_order.

(** With one to nine jobs gathering never succeeds: it divides by zero when it has passed on
    the results of the first job that ended. *)
Theorem C45_few_refuted :
  forall X jobs (outcome : nat -> result (list X)) s, (1 <= jobs < 10)%nat -> reachable jobs outcome s ->
  gs_phase s <> Done /\
  (stuck jobs outcome s -> (forall j, (j < jobs)%nat -> exists rs, outcome j = Ok rs) ->
     gs_phase s = Failed ZeroDivisionError /\ exists j, (j < jobs)%nat /\ outcome j = Ok (gs_yielded s)).
Proof. exact @few. Qed.
Print Assumptions C45_few_refuted.

(** If a job fails, gathering neither ends nor fails: it waits forever. *)
Theorem C45_failing_job_refuted :
  forall X jobs (outcome : nat -> result (list X)) s j e, (j < jobs)%nat -> outcome j = Err e -> (10 <= jobs)%nat -> reachable jobs outcome s ->
  gs_phase s <> Done /\ (stuck jobs outcome s -> gs_phase s = Gathering /\ gs_queue s = [] /\ gs_running s = [] /\ (gs_received s < jobs)%nat).
Proof. exact @hangs. Qed.
Print Assumptions C45_failing_job_refuted.

Example C45_met :
  (exists s, grun 12 (fun j => Ok [j; 100 + j]%nat) (repeat Spawn 13 ++ map Finish [3; 0; 1; 2; 4; 5; 6; 7; 8; 9; 10; 11]%nat ++ repeat Receive 13) start = Some s /\
     gs_phase s = Done /\ firstn 4 (gs_yielded s) = [3; 103; 0; 100]%nat) /\
  (exists s, grun 2 (fun j => Ok [j]) [Spawn; Finish 0%nat; Spawn; Spawn; Receive] start = Some s /\ gs_phase s = Failed ZeroDivisionError) /\
  (exists s, grun 10 (fun j => if Nat.eqb j 1 then Err ValueError else Ok [j]) (repeat Spawn 11 ++ [Finish 0; Finish 1]%nat ++ [Receive]) start = Some s /\
     gs_phase s = Gathering /\ gs_queue s = [] /\ gs_running s = []).
Proof. repeat split; eexists; (split; [vm_compute; reflexivity|]); repeat split. Qed.
