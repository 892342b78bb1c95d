(** The chain of stages behind [get_hardware_performance_zigzag], zigzag/api.py:29-167, with
    the stages that only pass results on, save them or collect them:
    stages/main.py, stages/results/save.py, stages/run_opt_stages.py:12-75,
    stages/mapping/spatial_mapping_generation.py:84-121, spatial_mapping_conversion.py:52-64,
    temporal_mapping_generator_stage.py:41-50, evaluation/cost_model_evaluation.py:43-68.

    Generators are lists; one that fails after some results is the failure, because every
    generator below is drained by a reducing stage.  Only when an addition in [SumStage]
    fails would layers after it not be evaluated; then the model may report the failure of
    such a layer instead.  The data locality stages (api.py:104,112) are not in the chain
    (they are for in-memory computing and on request); parsing, logging and drawing are not
    modelled.  What the mapping stages and the cost model do to one layer is a parameter:
    see Model_Generation, Model_Convert, Model_TemporalStage and Model_Cme. *)
From Coq Require Import QArith.
From Verif Require Import Base Model_Text Model_Graph Model_Workload Model_Cme.
Open Scope string_scope.
Open Scope list_scope.
Open Scope result_scope.

(** * The chain *)

Section Chain.
  (** Layers, spatial mappings as generated and as converted, temporal mappings *)
  Context {A S C T : Type} `{EqB A}.
  Variables (dummy skipped : A -> bool) (workload : graph A).
  Variable spatials : A -> result (list S).
  Variable convert : A -> S -> result C.
  (** temporal mappings yielded and how the generator ends *)
  Variable temporals : A -> C -> list T * option exn.
  Variable evaluate : A -> C -> T -> result eval.
  Variable order : list string -> list string.
  Variable less : eval -> eval -> bool.
  (** [reduce_minimal_keep_others]; the API leaves it false. *)
  Variable keep_others : bool.

  (** [TemporalMappingGeneratorStage.run] over [CostModelStage.run] *)
  Definition temporal_run (l : A) (c : C) : result (list (eval * T)) :=
    es <- rmap (fun t => e <- evaluate l c t ;; Ok (e, t)) (fst (temporals l c)) ;;
    match snd (temporals l c) with Some e => Err e | None => Ok es end.
  (** the inner Minimal stage below [SpatialMappingConversionStage.run] *)
  Definition conversion_run (l : A) (s : S) : result (eval * list (eval * T)) :=
    c <- convert l s ;; es <- temporal_run l c ;; minimal_stage less keep_others es.
  (** [SpatialMappingGeneratorStage.run] *)
  Definition spatial_run (l : A) : result (list (eval * (S * list (eval * T)))) :=
    ss <- spatials l ;;
    match ss with
    | [] => Err AssertionError
    | _ => rmap (fun s => r <- conversion_run l s ;; Ok (fst r, (s, snd r))) ss
    end.
  (** the outer Minimal stage *)
  Definition layer_run (l : A) : result (eval * list (eval * (S * list (eval * T)))) :=
    es <- spatial_run l ;; minimal_stage less keep_others es.
  (** [WorkloadStage.run] below [SumStage.run] *)
  Definition layers_run : result (list (eval * (A * list (eval * (S * list (eval * T)))))) :=
    rs <- workload_stage dummy skipped (fun l => r <- layer_run l ;; Ok [r]) workload ;;
    Ok (map (fun x => (fst (fst x), (snd x, snd (fst x)))) rs).
  Definition chain_run : result (eval * list (eval * (A * list (eval * (S * list (eval * T)))))) :=
    rs <- layers_run ;; sum_stage order rs.
End Chain.

(** The criterion, api.py:71-79 *)
Definition opt_stage (opt : string) : result (eval -> eval -> bool) :=
  if eqb opt "energy" then Ok less_energy
  else if eqb opt "latency" then Ok less_latency
  else if eqb opt "EDP" then Ok less_edp
  else Err NotImplementedError.

(** [get_hardware_performance_zigzag], api.py:29-167: energy, latency, and all results, which
    [MainStage.run] (main.py:17-21) has collected. *)
Definition api {A S C T} `{EqB A} (dummy skipped : A -> bool) (workload : graph A) (spatials : A -> result (list S))
    (convert : A -> S -> result C) (temporals : A -> C -> list T * option exn) (evaluate : A -> C -> T -> result eval)
    (order : list string -> list string) (opt : string)
  : result (Q * Q * list (eval * list (eval * (A * list (eval * (S * list (eval * T))))))) :=
  less <- opt_stage opt ;;
  cme <- chain_run dummy skipped workload spatials convert temporals evaluate order less false ;;
  Ok (ev_energy (fst cme), ev_l2 (fst cme), [cme]).

(** * Saving *)

(** The file that [CompleteSaveStage.run], save.py:38-45, and [SimpleSaveStage.run], 83-90,
    write an evaluation to; [kind] is "complete" or "simple", [name] the layer's. *)
Definition file_name (dump_folder kind : string) (name : nat -> string) (e : eval) : string :=
  match ev_layers e with
  | inr _ => (dump_folder ++ "/overall_" ++ kind ++ ".json")%string
  | inl i => (dump_folder ++ "/" ++ replace "/" "_" (name i) ++ "_" ++ kind ++ ".json")%string
  end.
(** The files after saving, path to what was written last. *)
Definition save_all (dump_folder kind : string) (name : nat -> string) (es : list eval) (files : dict string eval) : dict string eval :=
  fold_left (fun fs e => dset (file_name dump_folder kind name e) e fs) es files.

(** The files after [get_hardware_performance_zigzag]: each layer's best evaluation was saved
    when it was found (api.py:114), then the sum (api.py:98). *)
Definition saved {X} (dump_folder : string) (name : nat -> string) (cmes : list (eval * list (eval * X))) (files : dict string eval)
  : dict string eval :=
  fold_left (fun fs cme => save_all dump_folder "simple" name [fst cme] (save_all dump_folder "complete" name (map fst (snd cme)) fs)) cmes files.

(** What [PickleSaveStage.run], save.py:133-157, writes for the results that it passes on: the
    evaluations listed with the last of them; nothing is pickled when there is none. *)
Definition pickled {X} (rs : list (eval * list (eval * X))) : option (list eval) :=
  match rev rs with [] => None | r :: _ => Some (map fst (snd r)) end.

(** [RemoveExtraInfoStage.run] and [CacheBeforeYieldStage.run], run_opt_stages.py:21-27, 41-51 *)
Definition remove_extra_info {X} (rs : list (eval * X)) : list (eval * unit) := map (fun r => (fst r, tt)) rs.
Definition cache_before_yield {X} (rs : list (eval * X)) : list (eval * X) :=
  fold_left (fun acc r => acc ++ [r]) rs [].
