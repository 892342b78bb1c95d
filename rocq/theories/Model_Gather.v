(** Gathering results of worker processes, stages/run_opt_stages.py:77-181.

    The main process and the pool take turns in any order: an event is one step of one of
    them.  [jobs] sub-stages are handed to the pool by [MultiProcessingSpawnStage.run]
    (143-148), one for each time the stages between the two loop; [outcome j] is what
    [list(self.sub_stage.run())] (140-141) gives or raises for the [j]-th.  Any number of
    jobs may run at once.  That objects can be pickled, a consumer that stops early, and a
    job submitted at the very moment its pool is terminated are not modelled. *)
From Verif Require Import Base.

Inductive phase := Spawning | Gathering | Done | Failed (e : exn).

Record gstate {X : Type} := mkGstate {
  gs_phase : phase;
  gs_spawned : nat;            (* count_to_get so far *)
  gs_running : list nat;       (* jobs the pool has *)
  gs_queue : list (list X);    (* self.queue *)
  gs_received : nat;           (* count *)
  gs_yielded : list X }.
Arguments gstate : clear implicits.

Inductive event :=
| Spawn           (* the main process submits the next job, or finds that there is none *)
| Finish (j : nat)   (* job [j] of the pool ends *)
| Receive.        (* the main process takes an answer, or leaves the loop *)

Section Gather.
  Context {X : Type}.
  Variables (jobs : nat) (outcome : nat -> result (list X)).

  Definition start : gstate X := mkGstate X Spawning 0 [] [] 0 [].

  (** What an event does; [None] if it cannot happen. *)
  Definition gstep (ev : event) (s : gstate X) : option (gstate X) :=
    match ev with
    | Spawn =>    (* run_opt_stages.py:168-170, 145-147 *)
        match gs_phase s with
        | Spawning =>
            if Nat.ltb (gs_spawned s) jobs
            then Some (mkGstate X Spawning (gs_spawned s + 1) (gs_running s ++ [gs_spawned s]) (gs_queue s) (gs_received s) (gs_yielded s))
            else Some (mkGstate X Gathering (gs_spawned s) (gs_running s) (gs_queue s) (gs_received s) (gs_yielded s))
        | _ => None
        end
    | Finish j =>
        if memb j (gs_running s) then
          match outcome j with
          | Ok rs =>    (* callback: 158-159 *)
              Some (mkGstate X (gs_phase s) (gs_spawned s) (filter (fun i => negb (eqb i j)) (gs_running s)) (gs_queue s ++ [rs]) (gs_received s) (gs_yielded s))
          | Err _ =>    (* error_callback: 95-104, in a thread of the pool, whose jobs all end *)
              Some (mkGstate X (gs_phase s) (gs_spawned s) [] (gs_queue s) (gs_received s) (gs_yielded s))
          end
        else None
    | Receive =>    (* 173-181 *)
        match gs_phase s with
        | Gathering =>
            if Nat.ltb (gs_received s) (gs_spawned s) then
              match gs_queue s with
              | [] => None    (* blocks *)
              | rs :: q =>
                  let next := if Nat.eqb (gs_spawned s / 10) 0 then Failed ZeroDivisionError else Gathering in
                  Some (mkGstate X next (gs_spawned s) (gs_running s) q (gs_received s + 1) (gs_yielded s ++ rs))
              end
            else Some (mkGstate X Done (gs_spawned s) (gs_running s) (gs_queue s) (gs_received s) (gs_yielded s))
        | _ => None
        end
    end.

  Fixpoint grun (evs : list event) (s : gstate X) : option (gstate X) :=
    match evs with
    | [] => Some s
    | ev :: evs => match gstep ev s with Some s' => grun evs s' | None => None end
    end.
End Gather.
