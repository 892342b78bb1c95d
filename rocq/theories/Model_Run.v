(** The whole of [get_hardware_performance_zigzag], zigzag/api.py:29-167, on the contents of the
    three files, for arrays of multipliers: the stages that Model_Pipeline leaves open are those of
    Model_Generation, Model_Convert, Model_Search and Model_Evaluate.  The data locality stages
    (api.py:104,112) and in-memory computing arrays are left out. *)
From Coq Require Import QArith.
From Verif Require Import Base Model_DataMove Model_Alloc Model_Links Model_Cost Model_Graph Model_Hierarchy Model_Layer Model_MapFile Model_WorkFile
  Model_Cacti Model_AccelFile Model_Generation Model_Convert Model_Evaluate Model_TemporalStage Model_Search Model_Cme Model_Pipeline.
Local Open Scope string_scope.
Local Open Scope list_scope.
Local Open Scope Z_scope.
Local Open Scope result_scope.

Section Run.
  (** Orders in which Python visits sets, and elements it picks (Model_SpatialMap, Model_Generation);
      [visit] is for the array dimensions a memory serves and for hints. *)
  Variables order1 order2 dim_order visit : list string -> list string.
  Variable pick_dim : string -> dict string Q -> string.
  Variable pick_oa : string -> dict string (dict string Q) -> string.
  Variable factorint : Z -> list (Z * Z).
  (** [lpf_limit], [temporal_mapping_search_engine] settings, [enable_mix_spatial_mapping_generation],
      [nb_mappings_generated], [access_same_data_considered_as_no_access] *)
  Variable lim : option Z.
  Variable mt : mapping_type.
  Variable mix : bool.
  Variable nb : nat.
  Variable free : bool.
  (** bounds of the generation of orderings and of the merge of temporal_mapping.py:67-93 *)
  Variables fuel fuel' : nat.

  (** The set of the elements of a list *)
  Definition visited (l : list string) : list string := visit (nodup string_dec l).

  Section Layer.
    Variable a : accel.
    Variable l : built_layer.

    (** * Generation, spatial_mapping_generation.py:60-121 *)

    (** layer_node.py:150-195: what the generator reads of the layer *)
    Definition gen_layer_of : gen_layer :=
      {| gl_sizes := ln_sizes (bl_node l); gl_layer_op := reverse_dict (at_links (bl_mapping l));
         gl_prec := l_precision (ln_layer (bl_node l)); gl_ir := l_ir (ln_layer (bl_node l)) |}.
    (** what it reads of a memory level, memory_level.py:66-96 *)
    Definition towards_array (k : direction) (bw : bandwidths) : dict string (option Z) :=
      map (fun x => (fst x, match dget k (snd x) with Some b => b | None => None end)) bw.
    Definition inner_mem_of (m : level) : inner_mem :=
      {| im_operands := lv_operands m; im_served := visited (lv_served m); im_size := ml_size (lv_mem m);
         im_rd_low := towards_array RdLow (ml_bw_max (lv_mem m)); im_wr_low := towards_array WrLow (ml_bw_max (lv_mem m)) |}.
    (** lines 79-82 *)
    Definition hints_of : dict string (list string) :=
      let dims := keys (ln_sizes (bl_node l)) in
      complete_hints (keys (ar_sizes (ac_array a))) dims
        (clear_invalid_hints dims (map (fun kv => (fst kv, visited (snd kv))) (at_hint (bl_mapping l)))).
    (** line 87 *)
    Definition spatial_mappings : result (list (dict string (dict string Q))) :=
      generate order1 order2 dim_order pick_dim pick_oa gen_layer_of (map inner_mem_of (get_inner_memories (ac_hierarchy a)))
        (ar_sizes (ac_array a)) mix nb hints_of (qmaxs (at_spatial (bl_mapping l))).

    (** * Conversion, spatial_mapping_conversion.py:52-133, 192-246 *)

    (** lines 200-206: the array dimensions served by each memory of each operand *)
    Definition served_levels : result (dict string (list (list string))) :=
      rmap (fun x => ls <- get_memory_levels (ac_hierarchy a) (snd x) ;; Ok (fst x, map (fun m => visited (lv_served m)) ls)) (at_links (bl_mapping l)).
    (** lines 121-133; [SpatialMappingInternal] is constructed here in the code and in [prepare] in
        the model *)
    Definition spatial_levels (sm : dict string (dict string Q))
      : result (dict string (list (list (string * Q))) * dict string (list (list (string * Q)))) :=
      lims <- limit_mapping (ln_sizes (bl_node l)) (ar_sizes (ac_array a)) sm ;;
      served <- served_levels ;;
      Ok (mapping_per_mem_lvl served (fst lims), mapping_per_mem_lvl served (snd lims)).

    (** What the later stages hold for one spatial mapping.  The energy of an operation is that of a
        unit, cost_model.py:546-553. *)
    Definition unit_energy : result Q :=
      match ar_kind (ac_array a) with Multipliers e _ _ => Ok e | InMemory _ _ => Err NotImplementedError end.
    Definition request_with (sm : dict string (dict string Q)) : result request :=
      let n := bl_node l in
      sp <- spatial_levels sm ;;
      lk <- make_links (at_links (bl_mapping l)) ;;
      out <- of_option IndexError (nth_error (ln_operands n) 0) ;;
      size <- dgetr out (ln_size_elem n) ;;
      cost <- unit_energy ;;
      Ok (mkRequest (ln_layer n)
            (map (fun x => (fst x, rv_r (snd x))) (ln_relevancy n)) (map (fun x => (fst x, rv_ir (snd x))) (ln_relevancy n))
            (keys (filter (fun x => match rv_pr (snd x) with [] => false | _ => true end) (ln_relevancy n)))
            (ln_operands n) (tl (ln_operands n)) out (ln_macs n) size lk (ac_hierarchy a) (ar_units (ac_array a)) cost 1 free (fst sp) (snd sp) []).
  End Layer.

  (** * The run *)

  Section Layers.
    Variable a : accel.
    (** The layer at a position of the workload *)
    Variable layer : nat -> result built_layer.
    Definition spatials (i : nat) : result (list (dict string (dict string Q))) := l <- layer i ;; spatial_mappings a l.
    Definition convert (i : nat) (sm : dict string (dict string Q)) : result request := l <- layer i ;; request_with a l sm.
    Definition temporals (i : nat) (rq : request) : list (dict string (list (list tloop))) * option exn :=
      outcome (l <- layer i ;; stage_mappings rq factorint lim (ln_sizes (bl_node l)) mt fuel (at_ordering (bl_mapping l))).
    Definition evaluate (i : nat) (rq : request) (tm : dict string (list (list tloop))) : result eval :=
      evaluate_mapping rq fuel' i (ac_name a) tm.
  End Layers.

  Definition layer_at (ls : list built_layer) (i : nat) : result built_layer := of_option IndexError (nth_error ls i).

  Variable order : list string -> list string.
  Variables (bank : Z -> Z -> Z -> Z -> result Q) (adc : Z -> Q) (sim : simulator) (tech : Z) (known : pool).

  (** The criterion is looked up first, api.py:71-79; then the workload with the mapping is parsed, then the accelerator
      (api.py:98-100) *)
  Definition run (hardware : raw_accel) (workload : list raw_layer) (mapping : list raw_entry) (opt : string) :=
    _ <- opt_stage opt ;;
    w <- parse_workload order workload mapping ;;
    x <- parse_accelerator bank adc sim tech known hardware ;;
    let a := fst x in
    api (fun _ => false) (fun _ => false) (snd w) (spatials a (layer_at (fst w))) (convert a (layer_at (fst w))) (temporals (layer_at (fst w))) (evaluate a) order opt.
End Run.
