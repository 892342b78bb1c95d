(** Saving evaluations as JSON: zigzag/utils.py:45-69, zigzag/cost_model/cost_model.py:204-255, zigzag/cost_model/cost_model_imc.py:105-173,
    zigzag/mapping/data_movement.py:50-52, zigzag/stages/results/save.py:55-58, 100-107. *)
From Coq Require Import QArith.
From Verif Require Import Base Model_DataMove Model_Cme.
Local Open Scope string_scope.
Local Open Scope list_scope.
Local Open Scope Z_scope.
Local Open Scope result_scope.

(** * Values *)

(** Keys of dicts are strings, or operands and dimensions ([OperandABC], datatypes.py:11-44), which have a
    name and are converted to it; the code has no others. *)
Inductive key := KText (s : string) | KName (s : string).
(** Python values that may be saved.  An object is what its methods [__jsonrepr__] and
    [__simplejsonrepr__] return, if it has them; methods that fail are left out. *)
Inductive value :=
| VNone | VBool (b : bool) | VInt (z : Z) | VFloat (q : Q) | VText (s : string) | VInt32 (z : Z)
| VObject (full simple : option value)
| VDict (d : list (key * value)) | VSet (l : list value) | VList (l : list value) | VTuple (l : list value)
| VOther.

(** [json_repr_handler] of a key, utils.py:47-57, 69 *)
Definition handle_key (simple : bool) (k : key) : result string :=
  match k with
  | KText s => Ok s
  | KName s => if simple then Err TypeError else Ok s
  end.
(** A dict comprehension keeps the place of the first and the value of the last of equal keys. *)
Definition last_of_equal (l : list (string * value)) : list (key * value) :=
  map (fun x => (KText (fst x), snd x)) (fold_left (fun d x => dset (fst x) (snd x) d) l []).
(** Python's comprehension, as [rmap], in the form the recursion below needs *)
Definition each {A B} (f : A -> result B) : list A -> result (list B) :=
  fix each l := match l with [] => Ok [] | x :: l => y <- f x ;; ys <- each l ;; Ok (y :: ys) end.
(** [json_repr_handler], utils.py:45-69.  What an object's method returns is not converted any further. *)
Fixpoint handler (simple : bool) (v : value) : result value :=
  match v with
  | VNone | VBool _ | VInt _ | VFloat _ | VText _ => Ok v
  | VInt32 z => Ok (VInt z)
  | VObject full short => of_option TypeError (if simple then short else full)
  | VDict d => l <- each (fun x => k <- handle_key simple (fst x) ;; w <- handler simple (snd x) ;; Ok (k, w)) d ;; Ok (VDict (last_of_equal l))
  | VSet l | VList l => l' <- each (handler simple) l ;; Ok (VList l')
  | VTuple l => l' <- each (handler simple) l ;; Ok (VTuple l')
  | VOther => Err TypeError
  end.

(** * Files *)

Inductive json := JNull | JBool (b : bool) | JInt (z : Z) | JNumber (q : Q) | JText (s : string) | JList (l : list json) | JObject (d : list (string * json)).
(** [json.dump(v, default=json_repr_handler)], save.py:58, 107: what JSON does not know is converted first.
    Infinite floats are left out; [fuel] bounds the depth. *)
Fixpoint dump (fuel : nat) (simple : bool) (v : value) : result json :=
  match fuel with
  | O => Err OutOfFuel
  | S fuel =>
      match v with
      | VNone => Ok JNull
      | VBool b => Ok (JBool b)
      | VInt z => Ok (JInt z)
      | VFloat q => Ok (JNumber q)
      | VText s => Ok (JText s)
      | VList l | VTuple l => js <- rmap (dump fuel simple) l ;; Ok (JList js)
      | VDict d => js <- rmap (fun x => match fst x with KText s => j <- dump fuel simple (snd x) ;; Ok (s, j) | KName _ => Err TypeError end) d ;; Ok (JObject js)
      | VInt32 _ | VObject _ _ | VSet _ | VOther => w <- handler simple v ;; dump fuel simple w
      end
  end.

(** * Evaluations *)

(** memory_port.py:15-19 *)
Definition direction_text (d : direction) : string :=
  match d with RdLow => "rd_out_to_low" | WrLow => "wr_in_by_low" | RdHigh => "rd_out_to_high" | WrHigh => "wr_in_by_high" end.
(** [FourWayDataMoving.__jsonrepr__], data_movement.py:50-52 *)
Definition four_value {A} (number : A -> value) (f : four A) : result value :=
  l <- rmap (fun k => x <- dgetr k f ;; Ok (KText (direction_text k), number x)) directions ;; Ok (VObject (Some (VDict l)) None).
(** Dicts from operands to lists *)
Definition per_operand {A} (convert : A -> result value) (d : dict string (list A)) : result value :=
  l <- rmap (fun x => vs <- rmap convert (snd x) ;; Ok (KName (fst x), VList vs)) d ;; Ok (VDict l).

(** [TemporalMapping.__jsonrepr__], temporal_mapping.py:50-57, and [SpatialMappingInternal.__jsonrepr__], spatial_mapping_internal.py:48-55:
    the loops of every operand and level, as texts; [show] is [str] of a loop. *)
Definition loops_value {A} (show : A -> string) (d : dict string (list (list A))) : result value :=
  v <- handler false (VDict (map (fun x => (KName (fst x), VList (map (fun level => VList (map (fun loop => VText (show loop)) level)) (snd x)))) d)) ;;
  Ok (VObject (Some v) None).

(** [CostModelEvaluationABC.__jsonrepr__], cost_model.py:208-255.  The utilisation of memories, the accelerator, the layer
    (or the identifiers of layers) and the mappings are given as values; the utilisations of the array are missing before the first addition. *)
Definition complete_value (e : eval) (utilization accelerator layer spatial temporal : value) : result value :=
  words <- per_operand (four_value VInt) (ev_words e) ;;
  bd <- per_operand (fun q => Ok (VFloat q)) (ev_bd e) ;;
  further <- per_operand (four_value VFloat) (ev_further e) ;;
  u <- of_option AttributeError (ev_utils e) ;;
  let '(ideal, stalls, on, off) := u in
  handler false (VDict
    [(KText "outputs", VDict
       [(KText "memory", VDict [(KText "utilization", utilization); (KText "word_accesses", words)]);
        (KText "energy", VDict
           [(KText "energy_total", VFloat (ev_energy e)); (KText "operational_energy", VFloat (ev_mac e)); (KText "memory_energy", VFloat (ev_mem e));
            (KText "memory_energy_breakdown_per_level", bd); (KText "memory_energy_breakdown_per_level_per_operand", further)]);
        (KText "latency", VDict
           [(KText "data_onloading", VFloat (ev_l1 e - ev_l0 e)); (KText "computation", VFloat (ev_l0 e)); (KText "data_offloading", VFloat (ev_l2 e - ev_l1 e))]);
        (KText "spatial", VDict
           [(KText "mac_utilization", VDict
               [(KText "ideal", VFloat ideal); (KText "stalls", VFloat stalls); (KText "stalls_onloading", VFloat on); (KText "stalls_onloading_offloading", VFloat off)])])]);
     (KText "inputs", VDict
       [(KText "accelerator", accelerator); (KText "layer", layer); (KText "spatial_mapping", spatial); (KText "temporal_mapping", temporal)])]).
(** [__simplejsonrepr__], cost_model.py:204-206 *)
Definition simple_value (e : eval) : value := VDict [(KText "energy", VFloat (ev_energy e)); (KText "latency", VFloat (ev_l2 e))].

(** What evaluations on in-memory-computing arrays have besides, cost_model_imc.py:60-102 *)
Record imc_numbers := mkImcNumbers {
  im_energy_parts : dict string Q; im_stall : Q;                          (* mac_energy_breakdown, stall_slack_comb *)
  im_clock : Q; im_clock_parts : dict string Q;                           (* tclk, tclk_breakdown *)
  im_area : Q; im_imc_area : Q; im_mem_area : Q;                          (* area_total, imc_area, mem_area *)
  im_imc_parts : dict string Q; im_mem_parts : dict string Q }.           (* imc_area_breakdown, mem_area_breakdown *)
(** dicts from texts to numbers *)
Definition numbers_value (d : dict string Q) : value := VDict (map (fun x => (KText (fst x), VFloat (snd x))) d).
(** [CostModelEvaluationForIMC.__jsonrepr__], cost_model_imc.py:105-164 *)
Definition complete_value_imc (e : eval) (m : imc_numbers) (utilization accelerator layer spatial temporal : value) : result value :=
  words <- per_operand (four_value VInt) (ev_words e) ;;
  bd <- per_operand (fun q => Ok (VFloat q)) (ev_bd e) ;;
  further <- per_operand (four_value VFloat) (ev_further e) ;;
  u <- of_option AttributeError (ev_utils e) ;;
  let '(ideal, stalls, on, off) := u in
  handler false (VDict
    [(KText "outputs", VDict
       [(KText "memory", VDict [(KText "utilization", utilization); (KText "word_accesses", words)]);
        (KText "energy", VDict
           [(KText "energy_total", VFloat (ev_energy e)); (KText "operational_energy", VFloat (ev_mac e));
            (KText "operational_energy_breakdown", numbers_value (im_energy_parts m)); (KText "memory_energy", VFloat (ev_mem e));
            (KText "memory_energy_breakdown_per_level", bd); (KText "memory_energy_breakdown_per_level_per_operand", further)]);
        (KText "latency", VDict
           [(KText "data_onloading", VFloat (ev_l1 e - ev_l0 e)); (KText "computation", VFloat (ev_l0 e)); (KText "data_offloading", VFloat (ev_l2 e - ev_l1 e));
            (KText "computation_breakdown", VDict [(KText "mac_computation", VFloat (ev_temporal e)); (KText "memory_stalling", VFloat (im_stall m))])]);
        (KText "clock", VDict [(KText "tclk (ns)", VFloat (im_clock m)); (KText "tclk_breakdown (ns)", numbers_value (im_clock_parts m))]);
        (KText "area (mm^2)", VDict
           [(KText "total_area", VFloat (im_area m));
            (KText "total_area_breakdown:", VDict [(KText "imc_area", VFloat (im_imc_area m)); (KText "mem_area", VFloat (im_mem_area m))]);
            (KText "total_area_breakdown_further", VDict [(KText "imc_area_breakdown", numbers_value (im_imc_parts m)); (KText "mem_area_breakdown", numbers_value (im_mem_parts m))])]);
        (KText "spatial", VDict
           [(KText "mac_utilization", VDict
               [(KText "ideal", VFloat ideal); (KText "stalls", VFloat stalls); (KText "stalls_onloading", VFloat on); (KText "stalls_onloading_offloading", VFloat off)])])]);
     (KText "inputs", VDict
       [(KText "accelerator", accelerator); (KText "layer", layer); (KText "spatial_mapping", spatial); (KText "temporal_mapping", temporal)])]).
(** [__simplejsonrepr__], cost_model_imc.py:166-173 *)
Definition simple_value_imc (e : eval) (m : imc_numbers) : value :=
  VDict [(KText "energy", VFloat (ev_energy e)); (KText "latency", VFloat (ev_l2 e)); (KText "tclk (ns)", VFloat (im_clock m)); (KText "area", VFloat (im_area m))].

(** [CompleteSaveStage.save_to_json] and [SimpleSaveStage.save_to_json], save.py:55-58, 100-107 *)
Definition save_complete (fuel : nat) (e : eval) (utilization accelerator layer spatial temporal : value) : result json :=
  v <- complete_value e utilization accelerator layer spatial temporal ;; dump fuel false (VObject (Some v) (Some (simple_value e))).
Definition save_simple (fuel : nat) (e : eval) : result json := dump fuel true (VObject None (Some (simple_value e))).
Definition save_complete_imc (fuel : nat) (e : eval) (m : imc_numbers) (utilization accelerator layer spatial temporal : value) : result json :=
  v <- complete_value_imc e m utilization accelerator layer spatial temporal ;; dump fuel false (VObject (Some v) (Some (simple_value_imc e m))).
Definition save_simple_imc (fuel : nat) (e : eval) (m : imc_numbers) : result json := dump fuel true (VObject None (Some (simple_value_imc e m))).
