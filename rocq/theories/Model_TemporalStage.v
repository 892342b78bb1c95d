(** The stage that produces temporal mappings from the user's ordering,
    [generate_temporal_mappings], zigzag/stages/mapping/temporal_mapping_generator_stage.py:52-82.
    The result lists the mappings yielded and how the generator ends ([None]: normally).
    Orderings are collected before they are allocated, as in Model_Engine. *)
From Verif Require Import Base Model_Loma Model_Perm Model_Alloc Model_Layer.
Open Scope result_scope.

Definition outcome {M} (r : result (list M * option exn)) : list M * option exn :=
  match r with Ok x => x | Err e => ([], Some e) end.

(** The ordering handed to the allocator when it is complete: (dimension, size). *)
Definition legacy (o : ordering) : list (string * Z) :=
  map (fun e => (fst e, match snd e with Some n => n | None => 1 end)) o.

(** [engine.set_constraints], lines 76-78: [None] is "no constraints"; otherwise the
    sizes of the pinned loops, which the factorisation uses. *)
Definition pinned_sizes (pins : dict Z string * dict Z (string * Z)) : option (list (string * Z)) :=
  match pins with
  | ([], []) => None
  | (_, qs) => Some (values qs)
  end.

Definition temporal_stage (factorint : Z -> list (Z * Z)) (lim : option Z)
    (layer_sizes : list (string * Z)) (unrolled : list (string * Q))
    (ly : layer) (spatial : dict string (list (list (string * Q)))) (mt : mapping_type)
    (tops : dict string nat) (nodes : list memlevel) (fuel : nat) (o : ordering)
  : list (dict string (list (list tloop))) * option exn :=
  outcome
    (let alloc ordering := allocator_run ly spatial mt tops ordering nodes in
     all_temporal_loops <- get_temporal_loops layer_sizes unrolled ;;
     complete <- is_complete o all_temporal_loops ;;
     if complete : bool then (m <- alloc (legacy o) ;; Ok ([m], None))
     else
       let pins := get_constraints o in
       lpfs <- engine_lpfs factorint (pinned_sizes pins) lim layer_sizes unrolled ;;
       orderings <- match pinned_sizes pins with
                    | None => permutations loop_ltb fuel lpfs
                    | Some _ => constrained_permutations loop_ltb fuel lpfs
                                  [positions_valid (fst pins); positions_sizes_valid (snd pins)]
                    end ;;
       Ok (loma_run alloc orderings)).
