(** Mapping files and accelerators for which runs are reproducible (C87). *)
From Verif Require Import Base Model_Layer Model_MapFile Model_WorkFile Model_AccelFile Model_Onnx Model_OnnxRun Spec_MapFile Spec_Run Spec_OnnxRun.
Open Scope string_scope.
Open Scope list_scope.
Open Scope Z_scope.

(** The mapping file leaves all unrollings to the generator. *)
Definition unrolls_nothing (mapping : list raw_entry) : Prop :=
  forall en user, In en (map normalise mapping) -> en_spatial en = Some user -> user = [].

(** The units of the array among which a memory is shared *)
Definition served_units (f : raw_accel) (m : raw_memory) : Z :=
  zprod (map snd (filter (fun x => memb (fst x) (rm_served m)) (combine (ra_dims (rf_array f)) (ra_sizes (rf_array f))))).
(** First memories hold an element for each of the units that share them. *)
Definition element_each (f : raw_accel) (links : dict string string) (precision : dict string Z) : Prop :=
  forall m op mem_op n, first_memory f m -> dget op links = Some mem_op -> In mem_op (rm_operands m) -> dget op precision = Some n ->
    n * served_units f m <= rm_size m.

(** For the layers of a workload file, and for the nodes of a model *)
Definition roomy_files (hardware : raw_accel) (workload : list raw_layer) (mapping : list raw_entry) : Prop :=
  forall r t p en, In r workload -> rl_type r = Some t -> rl_precision r = Some p -> Spec_MapFile.chosen (called r) t (map normalise mapping) en ->
    element_each hardware (en_links en) p.
Definition roomy_model (hardware : raw_accel) (m : onnx_model) (mapping : list raw_entry) (meaning : list (option operator)) : Prop :=
  forall i o r t p en, node_at m meaning i o r -> rl_type r = Some t -> rl_precision r = Some p -> Spec_MapFile.chosen (called r) t (map normalise mapping) en ->
    element_each hardware (en_links en) p.
