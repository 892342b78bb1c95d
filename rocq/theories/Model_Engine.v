(** The temporal mapping engine: loop factorisation, orderings and allocation put
    together, [LomaEngine.run], zigzag/opt/loma/engine.py:87-131, without user
    constraints.  The code draws orderings lazily from the generator; here they are
    collected first ([fuel] bounds the generator's loop). *)
From Verif Require Import Base Model_Loma Model_Perm Model_Alloc.
Open Scope result_scope.

Definition loma_engine (factorint : Z -> list (Z * Z)) (lim : option Z)
    (layer_sizes : list (string * Z)) (unrolled : list (string * Q))
    (ly : layer) (spatial : dict string (list (list (string * Q)))) (mt : mapping_type)
    (tops : dict string nat) (nodes : list memlevel) (fuel : nat)
  : result (list (dict string (list (list tloop))) * option exn) :=
  lpfs <- engine_lpfs factorint None lim layer_sizes unrolled ;;
  orderings <- permutations loop_ltb fuel lpfs ;;
  Ok (loma_run (fun o => allocator_run ly spatial mt tops o nodes) orderings).
